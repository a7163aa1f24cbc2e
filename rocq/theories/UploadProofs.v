(** Proofs about uploads. *)
From Coq Require Import String ZArith List Bool Lia.
From Verif Require Import Base SMap AlgModel AlgProofs DictModel HttpModel MessageModel WriterModel PathModel FileModel FileSpec PathProofs FileProofs FileRuns FileCache P_File UploadSpec.
Import ListNotations.

(** status codes *)
Definition coded (x : wop) : Prop := match x with WText _ | WNoCopy _ | WMsg (MsgAddHeader _ _) | WMsg (MsgReason _) | WMsg (MsgContentType _) => True | WMsg (MsgCode c) => 0 <= c < 65536 | _ => False end.
Definition last_code (l : list wop) (c0 : Z) : Z := fold_left (fun c x => match x with WMsg (MsgCode k) => k | _ => c end) l c0.
Lemma status_last pos l : Forall coded l -> forall w, m_code (o_msg (w_msg (fold_left (w_op pos) l w))) = last_code l (m_code (o_msg (w_msg w))).
Proof.
  induction l as [|x l IH]; intros F w; [reflexivity|]. inversion F; subst. cbn [fold_left]. rewrite IH by auto. unfold last_code. cbn [fold_left]. f_equal.
  destruct x as [s|s|s| |[] | | | |]; try destruct H1.
  - cbn [w_op]. unfold w_text. destruct s; reflexivity.
  - cbn [w_op]. destruct s; [reflexivity|]. cbn [w_no_copy w_msg]; unfold w_flush; destruct (w_stream_empty w); [|destruct (w_stream w)]; reflexivity.
  - destruct w as [om]. destruct om as [? mm]. destruct mm. cbn. apply Z.mod_small. unfold two32. lia.
  - destruct w as [om]. destruct om as [? mm]. destruct mm. reflexivity.
  - destruct w as [om]. destruct om as [? mm]. destruct mm. reflexivity.
  - destruct w as [om]. destruct om as [? mm]. destruct mm. reflexivity.
Qed.
Lemma status_coded pos l : Forall coded l -> forall c, last_code l (m_code (o_msg (w_msg (w_respond (bs "GET") 1 1 LKeep)))) = c -> status pos l = c.
Proof. intros F c <-. unfold status, w_ops. rewrite status_last by auto. reflexivity. Qed.
Lemma last_code_app a b c : last_code (a ++ b) c = last_code b (last_code a c).
Proof. apply fold_left_app. Qed.
Definition steady (x : wop) : Prop := match x with WMsg (MsgCode _) => False | _ => True end.
Lemma page_codes code reason title h1 before about after e1 e2 body : 0 <= code < 65536 -> Forall coded e1 -> Forall coded e2 -> Forall steady e1 -> Forall steady e2 ->
  exists l, page code reason title h1 before about after e1 e2 body = FAnswer l /\ Forall coded l /\ forall c, last_code l c = code.
Proof.
  intros C F1 F2 S1 S2. destruct (page_total code reason title h1 before about after e1 e2 body) as [l E]. exists l. split; [exact E|].
  assert (K : forall l c, Forall steady l -> last_code l c = c).
  { clear. induction l as [|x l IH]; intros c F; [reflexivity|]. inversion F; subst. unfold last_code. cbn [fold_left]. fold (last_code l). rewrite IH by auto. destruct x; try reflexivity. destruct x; try reflexivity. destruct H1. }
  unfold page in E. destruct (xml_encode about) as [x|].
  - injection E as <-. split.
    + constructor; [exact C|]. constructor; [exact Logic.I|]. apply Forall_app. split; auto. apply Forall_app. split; auto. destruct body; repeat constructor.
    + intros c. change (last_code (e1 ++ (if body then [WNoCopy (page_start title h1 before); WText x; WNoCopy (page_end after)] else []) ++ e2) code = code). rewrite !last_code_app.
      rewrite (K e1), (K (if body then _ else _)), (K e2); auto. destruct body; repeat constructor.
  - destruct body; [discriminate|]. injection E as <-. split.
    + constructor; [exact C|]. constructor; [exact Logic.I|]. apply Forall_app. split; auto.
    + intros c. change (last_code (e1 ++ e2) code = code). rewrite !last_code_app. rewrite (K e1), (K e2); auto.
Qed.
(** what an answer to a request that is no GET and no HEAD tells *)
Inductive told (pos : dpos) (d d' : disk) (m : msg) (data : list Z) (w : bool) (l : list wop) (tr : list access) : Prop :=
| told_nothing : filter changing tr = [] -> In (status pos l) [403; 404; 405; 501] -> told pos d d' m data w l tr
| told_write p : w = true -> filter changing tr = [AWrite p (str_eqb (m_method m) (bs "POST")) data] -> m_method m = bs "POST" \/ m_method m = bs "PUT" ->
    status pos l = (if exists_ d' p then (if exists_ d p then 204 else 201) else 500) -> told pos d d' m data w l tr
| told_remove p : w = true -> filter changing tr = [ARemove p] -> m_method m = bs "DELETE" -> exists_ d p = true ->
    status pos l = (if exists_ d' p then 500 else 204) -> told pos d d' m data w l tr.
Ltac pages :=
  match goal with |- context [page ?a ?b ?c ?d ?e ?f ?g ?h ?i ?j] =>
    destruct (page_codes a b c d e f g h i j) as (l & -> & CF & CL); [lia|repeat constructor|repeat constructor|repeat constructor|repeat constructor|] end.
Theorem handle_told two date pos d d' s m data why : m_method m <> bs "GET" -> m_method m <> bs "HEAD" ->
  exists l tr, fs_handle two date d d' s m data why = (FAnswer l, s, tr) /\ told pos d d' m data (s_writable s) l tr.
Proof.
  intros NG NH. unfold fs_handle, not_found, forbidden. destruct (file_path two s m) as [p|].
  2:{ pages. exists l, []. split; [reflexivity|]. apply told_nothing; [reflexivity|]. rewrite (status_coded pos l CF 404) by apply CL. cbn. auto. }
  destruct (is_prefix (s_dir s) p); cbn [negb].
  2:{ pages. exists l, []. split; [reflexivity|]. apply told_nothing; [reflexivity|]. rewrite (status_coded pos l CF 403) by apply CL. cbn. auto. }
  destruct (is_dir d p).
  { pages. exists l, [AIsDir p]. split; [reflexivity|]. apply told_nothing; [reflexivity|]. rewrite (status_coded pos l CF 403) by apply CL. cbn. auto. }
  assert (str_eqb (m_method m) (bs "GET") = false) as -> by (apply str_eqb_neq; auto). assert (is_head m = false) as -> by (apply str_eqb_neq; auto). cbn [orb].
  destruct (str_eqb (m_method m) (bs "POST") || str_eqb (m_method m) (bs "PUT") || str_eqb (m_method m) (bs "DELETE")) eqn:K.
  2:{ pages. exists l. eexists. split; [reflexivity|]. apply told_nothing; [reflexivity|]. rewrite (status_coded pos l CF 501) by apply CL. cbn. auto. }
  unfold fs_change. destruct (s_writable s) eqn:W; cbn [negb].
  2:{ pages. exists l. eexists. split; [reflexivity|]. apply told_nothing; [reflexivity|]. rewrite (status_coded pos l CF 405) by apply CL. cbn. auto. }
  destruct (str_eqb (m_method m) (bs "DELETE")) eqn:D.
  - apply str_eqb_eq in D. unfold not_found. destruct (exists_ d p) eqn:X; cbn [negb].
    2:{ pages. exists l. eexists. split; [reflexivity|]. apply told_nothing; [reflexivity|]. rewrite (status_coded pos l CF 404) by apply CL. cbn. auto. }
    destruct (exists_ d' p) eqn:X'.
    + pages. exists l. eexists. split; [reflexivity|]. apply (told_remove _ _ _ _ _ _ _ _ p); auto. rewrite X'. rewrite (status_coded pos l CF 500) by apply CL. reflexivity.
    + eexists. eexists. split; [reflexivity|]. apply (told_remove _ _ _ _ _ _ _ _ p); auto. rewrite X'. apply status_coded; [repeat constructor; discriminate|reflexivity].
  - assert (M : m_method m = bs "POST" \/ m_method m = bs "PUT").
    { rewrite orb_false_r in K. apply orb_true_iff in K as [K|K]; apply str_eqb_eq in K; auto. }
    assert (WA : forall ops c, Forall coded ops -> (forall c0, last_code ops c0 = c) -> exists l, write_answer d' m p (FAnswer ops) = FAnswer l /\ status pos l = (if exists_ d' p then c else 500)).
    { intros ops c F C. unfold write_answer. destruct (exists_ d' p). { exists ops. split; [reflexivity|]. apply status_coded; auto. }
      destruct (xml_encode_full (m_resource m)) as (x & -> & _). eexists. split; [reflexivity|]. apply status_coded; [|rewrite last_code_app; reflexivity]. apply Forall_app. split; auto. repeat constructor; discriminate. }
    destruct (exists_ d p) eqn:X; cbn [negb].
    + destruct (WA [WMsg (MsgCode 204); WMsg (MsgReason (bs "No Content"))] 204) as (l & -> & S); [repeat constructor; discriminate|reflexivity|].
      exists l. eexists. split; [reflexivity|]. apply (told_write _ _ _ _ _ _ _ _ p); auto. rewrite X. exact S.
    + destruct (exists_ d (branch p)) eqn:B; cbn [negb].
      * pages. destruct (WA l 201 CF CL) as (l' & -> & S). exists l'. eexists. split; [reflexivity|]. apply (told_write _ _ _ _ _ _ _ _ p); auto. rewrite X. exact S.
      * pages. exists l. eexists. split; [reflexivity|]. apply told_nothing; [reflexivity|]. rewrite (status_coded pos l CF 404) by apply CL. cbn. auto.
Qed.

(** the cache of a service that does not scan its directory *)
Section Back.
Variables (two : bool) (date : Z -> list Z).
Definition path_of (s : fserv) (rel : list Z) : option (list Z) :=
  if is_nil rel then (if is_nil (s_file s) then None else Some (normalize two (s_file s)))
  else if is_nil (s_dir s) then None else Some (normalize two (p_append (s_dir s) rel)).
Definition own (H : disk -> Prop) (s : fserv) : Prop :=
  s_scan s = 0 /\ forall k e, In (k, e) (s_cache s) -> path_of s k = Some (f_path e) /\ mem date H e.
Lemma own_cache H s c : own H s -> (forall k e, In (k, e) c -> In (k, e) (s_cache s) \/ (path_of s k = Some (f_path e) /\ mem date H e)) -> own H (with_cache s c).
Proof. intros [A C] K. split; auto. cbn. intros k e I. apply K in I as [I|I]; [apply C in I|]; exact I. Qed.
Lemma check_ok d e c t ok e' tr : d (f_path e) = Some (NFile c t true) -> df_check date d e = (ok, e', tr) ->
  ok = true /\ (e' = e /\ t = f_time e /\ zlen c = f_size e \/ (t <> f_time e \/ zlen c <> f_size e) /\ f_path e' = f_path e /\ f_time e' = t /\ in_memory date d t e').
Proof.
  intros D. unfold df_check. rewrite D. destruct ((t =? f_time e) && (zlen c =? f_size e)) eqn:Q.
  - intros X. inj X. apply andb_true_iff in Q as [Q1 Q2]. apply Z.eqb_eq in Q1, Q2. auto.
  - set (f := mkdf _ _ _ _ _ _). destruct (df_read d f) as [[ok2 f2] tr2] eqn:R. unfold df_read in R. cbn [f f_path f_size] in R. rewrite D in R. rewrite Z.leb_refl in R.
    unfold zlen in R. rewrite Nat2Z.id, firstn_all, Nat.sub_diag, app_nil_r in R. inj R. intros X. inj X. split; [reflexivity|]. right. split.
    + apply andb_false_iff in Q as [Q|Q]; apply Z.eqb_neq in Q; auto.
    + cbn. split; [reflexivity|]. split; [reflexivity|]. exists c. auto.
Qed.
Lemma get_own (H : disk -> Prop) d s m p r s' tr : H d -> all_readable d -> own H s -> file_path two s m = Some p -> fs_get date d s m p = (r, s', tr) -> own H s'.
Proof.
  intros HD AR S P. unfold fs_get. set (rel := relative s (m_resource m)) in *. change (path_of s rel = Some p) in P.
  assert (forall r s' tr, fs_from_disk date d s m p rel = (r, s', tr) -> own H s') as K.
  { clear r s' tr. intros r s' tr. unfold fs_from_disk. destruct (exists_ d p); cbn [negb]; [|intros X; inj X; auto].
    destruct (df_update date d _) as [[ok1 f1] tr1] eqn:U. destruct ok1; cbn [negb]; [|intros X; inj X; auto].
    destruct (sends (choose m f1) && negb (s_caching s =? 0)); [|intros X; inj X; auto].
    destruct (df_read d f1) as [[ok2 f2] tr2] eqn:E2. destruct (load _ _ _ _ _ _ _ _ _ AR U eq_refl E2) as (-> & PP & _ & DT & M & L). cbn [f_path] in *.
    intros X. injection X as <- <- <-. apply own_cache; auto. intros k e I. apply sm_insert_in in I as [I|I]; auto. injection I as -> ->. right. rewrite PP. split; [exact P|]. exists d. auto. }
  destruct ((0 <? s_caching s) || (0 <? s_scan s)); [|apply K].
  destruct (sm_find (s_cache s) rel) as [e|] eqn:F; [|destruct (_ || _); [intros X; inj X; auto|apply K]].
  destruct (s_caching s =? 0). { destruct (df_update date d _) as [[ok1 f1] tr1] eqn:U. intros X; inj X; auto. }
  apply find_in in F. destruct S as [SC S]. destruct (S _ _ F) as [PE (d0 & HD0 & ME)].
  assert (Q : forall ok e' tr', (if f_time e =? 0 then let '(ok, f, tr) := df_update date d e in if ok then let '(ok, f, tr') := df_read d f in (ok, f, tr ++ tr') else (false, f, tr)
     else if s_caching s =? 1 then df_check date d e else (true, e, [])) = (ok, e', tr') -> path_of s rel = Some (f_path e') /\ mem date H e').
  { intros ok e' tr'. destruct (f_time e =? 0).
    - destruct (df_update date d e) as [[ok1 f1] tr1] eqn:U. destruct ok1.
      + destruct (df_read d f1) as [[ok2 f2] tr2] eqn:E2. destruct (load _ _ _ _ _ _ _ _ _ AR U eq_refl E2) as (-> & PP & _ & DT & M & L). intros X. inj X. rewrite PP. split; auto. exists d. auto.
      + apply update_ok in U. subst f1. intros X. inj X. split; auto. exists d0. auto.
    - destruct (s_caching s =? 1); [|intros X; inj X; split; auto; exists d0; auto].
      intros X. unfold df_check in X. destruct (d (f_path e)) as [[es t|c t r0]|] eqn:D; [inj X; split; auto; exists d0; auto| |inj X; split; auto; exists d0; auto].
      pose proof (AR _ _ _ _ D) as ->. destruct (check_ok d e c t ok e' tr' D) as (-> & [(-> & _)|(_ & PP & T & M)]).
      { unfold df_check. rewrite D. exact X. } { split; auto. exists d0. auto. } rewrite PP. split; auto. exists d. rewrite T. auto. }
  destruct (if f_time e =? 0 then _ else _) as [[ok e'] tr'] eqn:Y. destruct (Q _ _ _ eq_refl) as [Q1 Q2]. intros X. inj X.
  apply own_cache; [split; auto|]. intros k e0 I. apply in_set in I as [I|I]; auto. inj I. auto.
Qed.
Lemma handle_own (H : disk -> Prop) d d' s m data why r s' tr : H d -> all_readable d -> own H s -> fs_handle two date d d' s m data why = (r, s', tr) -> own H s'.
Proof.
  intros HD AR S. unfold fs_handle. destruct (file_path two s m) as [p|] eqn:P; [|intros X; inj X; auto].
  destruct (is_prefix _ _); cbn [negb]; [|intros X; inj X; auto]. destruct (is_dir d p); [intros X; inj X; auto|].
  destruct (str_eqb (m_method m) (bs "GET") || is_head m).
  - destruct (fs_get date d s m p) as [[r1 s1] t1] eqn:G. intros X. inj X. eapply get_own; eauto.
  - destruct (_ || _). { destruct (fs_change _ _ _ _ _ _ _) as [r1 t1]. intros X. inj X. auto. } intros X. inj X. auto.
Qed.
Lemma own_more (H H' : disk -> Prop) s : (forall d, H d -> H' d) -> own H s -> own H' s.
Proof. intros M (A & C). split; auto. intros k e I. destruct (C k e I) as [R (d0 & S & S')]; split; auto. exists d0. auto. Qed.
Lemma run_own ops : forall (H : disk -> Prop) s, Forall serves ops -> (forall d, seen ops d -> all_readable d) -> own H s -> own (fun d => H d \/ seen ops d) (fst (fs_run two date s ops)).
Proof.
  induction ops as [|o ops IH]; intros H s SV AR S; cbn [fs_run]. { cbn. eapply own_more; [|exact S]. auto. }
  destruct (fs_step two date s o) as [s1 t1] eqn:ST. inversion SV; subst.
  assert (S1 : own (fun d => H d \/ match o with FOption d' _ | FStart _ d' | FRequest d' _ _ _ _ => d' = d | FStop => False end) s1).
  { destruct o as [d0 o|n d0| |d0 d1 m x y]; cbn [fs_step] in ST; [contradiction| | |].
    - unfold fs_start in ST. destruct S as [SC S]. rewrite SC in ST. cbn in ST. inj ST. split; auto. intros k e I. destruct (S k e I) as [A (dd & B & C)]. split; auto. exists dd. auto.
    - inj ST. split; [apply S|]. intros k e [].
    - destruct (fs_handle two date d0 d1 s m x y) as [[r s3] t3] eqn:X. inj ST. eapply (handle_own (fun d => H d \/ d0 = d)); [right; reflexivity| | |exact X].
      + apply AR. left. reflexivity.
      + eapply own_more; [|exact S]. auto. }
  specialize (IH _ s1 H3 (fun d I => AR d (Exists_cons_tl _ I)) S1). destruct (fs_run two date s1 ops) as [s2 t2]. cbn [fst] in *.
  eapply own_more; [|exact IH]. cbn. intros d [[A|A]|A]; auto. { right. left. exact A. } right. right. exact A.
Qed.
(** the same path again *)
Lemma get_back (H : disk -> Prop) d s m p c t r s' tr : own H s -> s_caching s <= 1 -> file_path two s m = Some p -> d p = Some (NFile c t true) ->
  (forall d0 c0, H d0 -> d0 p = Some (NFile c0 t true) -> zlen c0 = zlen c -> c0 = c) ->
  m_method m = bs "GET" -> d_get (m_headers m) (bs "If-Modified-Since") <> date t ->
  fs_get date d s m p = (r, s', tr) -> sends_file date d p r.
Proof.
  intros [SC S] CA P D N MG IM. assert (CH : forall f, f_date f = date t -> choose m f = FSend f).
  { intros f E. unfold choose. rewrite E. assert (str_eqb (date t) (d_get (m_headers m) (bs "If-Modified-Since")) = false) as -> by (apply str_eqb_neq; auto).
    unfold is_head. rewrite MG. reflexivity. }
  unfold fs_get. set (rel := relative s (m_resource m)) in *. change (path_of s rel = Some p) in P. rewrite SC. change (0 <? 0) with false. change (0 =? 1) with false. change (0 =? 3) with false. cbn [orb].
  assert (K : forall r s' tr, fs_from_disk date d s m p rel = (r, s', tr) -> sends_file date d p r).
  { clear r s' tr. intros r s' tr. unfold fs_from_disk, exists_. rewrite D. cbn [negb]. unfold df_update. cbn [f_path f_content f_mime]. rewrite D. cbn [negb].
    set (f := mkdf _ _ _ _ _ _). rewrite (CH f eq_refl). cbn [sends]. destruct (s_caching s =? 0); cbn [negb andb].
    - intros X. inj X. exists f. split; [reflexivity|]. split; [reflexivity|]. left. exists c, t, true. auto.
    - unfold df_read. cbn [f f_path f_size]. rewrite D, Z.leb_refl. unfold zlen. rewrite Nat2Z.id, firstn_all, Nat.sub_diag, app_nil_r. intros X. inj X.
      eexists. split; [reflexivity|]. split; [reflexivity|]. right. exists t, c. auto. }
  rewrite orb_false_r. destruct (0 <? s_caching s) eqn:C0; [|apply K]. apply Z.ltb_lt in C0. destruct (sm_find (s_cache s) rel) as [e|] eqn:F; [|apply K].
  assert (s_caching s =? 0 = false) as -> by (apply Z.eqb_neq; lia). assert (s_caching s =? 1 = true) as -> by (apply Z.eqb_eq; lia).
  apply find_in in F. destruct (S _ _ F) as [PE (d0 & HD0 & c0 & M1 & M2 & M3 & M4)]. rewrite P in PE. injection PE as PE. rewrite <- PE in M1.
  destruct (f_time e =? 0).
  - unfold df_update. rewrite <- PE, D. set (f := mkdf _ _ _ _ _ _). unfold df_read. cbn [f f_path f_size]. rewrite D, Z.leb_refl. unfold zlen. rewrite Nat2Z.id, firstn_all, Nat.sub_diag, app_nil_r.
    rewrite CH by reflexivity. intros X. inj X. eexists. split; [reflexivity|]. split; [reflexivity|]. right. exists t, c. auto.
  - destruct (df_check date d e) as [[ok e'] tr'] eqn:X. rewrite PE in D. destruct (check_ok d e c t ok e' tr' D X) as (-> & [(-> & T & L)|(_ & PP & T & c1 & N1 & N2 & N3 & N4)]).
    + rewrite <- T in M1, M4. rewrite CH by exact M4. intros Y. inj Y. assert (c0 = c) by (eapply N; eauto; lia). subst c0. eexists. split; [reflexivity|]. split; [auto|]. right. exists (f_time e). exists c. auto.
    + assert (f_date e' = date t) as DT by exact N4. rewrite (CH e') by exact DT. intros Y. inj Y. eexists. split; [reflexivity|]. split; [congruence|]. right. exists (f_time e'), c1. auto.
Qed.
End Back.
