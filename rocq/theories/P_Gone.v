(** C172: a file that was removed is not found any more. *)
From Coq Require Import String ZArith List Bool Lia.
From Verif Require Import Base SMap AlgModel AlgProofs DictModel HttpModel MessageModel WriterModel WriterSpec PathModel FileModel FileSpec PathProofs FileProofs FileRuns FileCache P_File UploadSpec UploadProofs P_Upload.
Import ListNotations.

(** The claim: when a DELETE has removed a file and it is not made again, a later GET or HEAD for the same resource is answered with 404. *)
Definition gone_not_found (two : bool) (date : Z -> list Z) (pos : dpos) : Prop := forall resource opts ops later d d' d2 d3 m m' data why data' why' l s' tr p r s2 tr2,
  Forall serves ops -> Forall serves later -> (forall d, seen later d -> d p = None) ->
  fs_handle two date d d' (fst (fs_run two date (configure two date resource opts) ops)) m data why = (FAnswer l, s', tr) -> In (ARemove p) tr ->
  d2 p = None -> m_resource m' = m_resource m -> m_method m' = bs "GET" \/ m_method m' = bs "HEAD" ->
  fs_handle two date d2 d3 (fst (fs_run two date s' later)) m' data' why' = (r, s2, tr2) -> exists l', r = FAnswer l' /\ status pos l' = 404.

Section Gone.
Variables (two : bool) (date : Z -> list Z) (pos : dpos).
(** every file in the cache was read, and is the one its name stands for *)
Definition was_read (T : list access) (s : fserv) : Prop :=
  s_scan s = 0 /\ forall k e, In (k, e) (s_cache s) -> path_of two s k = Some (f_path e) /\ In (ARead (f_path e)) T.
Lemma was_read_cache T s c : s_scan s = 0 -> (forall k e, In (k, e) c -> path_of two s k = Some (f_path e) /\ In (ARead (f_path e)) T) -> was_read T (with_cache s c).
Proof. intros A C. split; auto. Qed.
Lemma was_read_more T T' s : incl T T' -> was_read T s -> was_read T' s.
Proof. intros I [A C]. split; auto. intros k e K. destruct (C k e K). auto. Qed.
Lemma update_path d f ok f' tr : df_update date d f = (ok, f', tr) -> f_path f' = f_path f.
Proof. unfold df_update. destruct (d (f_path f)) as [[|]|]; intros X; inj X; reflexivity. Qed.
Lemma read_path d f ok f' tr : df_read d f = (ok, f', tr) -> f_path f' = f_path f /\ tr = [ARead (f_path f)].
Proof. unfold df_read. destruct (match d (f_path f) with Some _ => _ | None => _ end) as [a b]. intros X. inj X. auto. Qed.
Lemma check_path d f ok f' tr : df_check date d f = (ok, f', tr) -> f_path f' = f_path f.
Proof.
  unfold df_check. destruct (d (f_path f)) as [[es t|c t r]|]; try (intros X; inj X; reflexivity).
  destruct (_ && _); [intros X; inj X; reflexivity|]. destruct (df_read d _) as [[a b] e] eqn:R. apply read_path in R as [R _]. intros X. inj X. exact R.
Qed.
Lemma get_read T d s m p r s' tr : was_read T s -> file_path two s m = Some p -> fs_get date d s m p = (r, s', tr) -> was_read (T ++ tr) s'.
Proof.
  intros S P. unfold fs_get. set (rel := relative s (m_resource m)) in *. change (path_of two s rel = Some p) in P.
  assert (L : forall T', was_read (T ++ T') s). { intros T'. eapply was_read_more; [|exact S]. apply incl_appl, incl_refl. }
  assert (forall r s' tr, fs_from_disk date d s m p rel = (r, s', tr) -> was_read (T ++ tr) s') as K.
  { clear r s' tr. intros r s' tr. unfold fs_from_disk. destruct (exists_ d p); cbn [negb]; [|intros X; inj X; auto].
    destruct (df_update date d _) as [[ok1 f1] tr1] eqn:U. apply update_path in U. cbn [f_path] in U. destruct ok1; cbn [negb]; [|intros X; inj X; auto].
    destruct (sends (choose m f1) && negb (s_caching s =? 0)); [|intros X; inj X; auto].
    destruct (df_read d f1) as [[ok2 f2] tr2] eqn:R. apply read_path in R as [R1 ->]. destruct ok2; [|intros X; inj X; auto].
    intros X. injection X as <- <- <-. destruct S as [SC S]. apply was_read_cache; auto. intros k e I. apply sm_insert_in in I as [I|I].
    - injection I as -> ->. rewrite R1, U. split; [exact P|]. apply in_or_app. right. right. apply in_or_app. right. cbn. auto.
    - destruct (S _ _ I). split; auto. apply in_or_app. auto. }
  destruct ((0 <? s_caching s) || (0 <? s_scan s)); [|apply K].
  destruct (sm_find (s_cache s) rel) as [e|] eqn:F; [|destruct (_ || _); [intros X; inj X; auto|apply K]].
  destruct (s_caching s =? 0). { destruct (df_update date d _) as [[ok1 f1] tr1] eqn:U. intros X; inj X; auto. }
  apply find_in in F. destruct S as [SC S]. destruct (S _ _ F) as [PE RE].
  assert (Q : forall ok e' tr', (if f_time e =? 0 then let '(ok, f, tr) := df_update date d e in if ok then let '(ok, f, tr') := df_read d f in (ok, f, tr ++ tr') else (false, f, tr)
     else if s_caching s =? 1 then df_check date d e else (true, e, [])) = (ok, e', tr') -> f_path e' = f_path e).
  { intros ok e' tr'. destruct (f_time e =? 0).
    - destruct (df_update date d e) as [[ok1 f1] tr1] eqn:U. apply update_path in U. destruct ok1; [|intros X; inj X; exact U].
      destruct (df_read d f1) as [[ok2 f2] tr2] eqn:R. apply read_path in R as [R _]. intros X. inj X. congruence.
    - destruct (s_caching s =? 1); [apply check_path|]. intros X. inj X. reflexivity. }
  destruct (if f_time e =? 0 then _ else _) as [[ok e'] tr'] eqn:Y. specialize (Q _ _ _ eq_refl). intros X. inj X.
  apply was_read_cache; auto. intros k e0 I. apply in_set in I as [I|I].
  - injection I as -> ->. rewrite Q. split; auto. apply in_or_app. auto.
  - destruct (S _ _ I). split; auto. apply in_or_app. auto.
Qed.
Lemma handle_read T d d' s m data why r s' tr : was_read T s -> fs_handle two date d d' s m data why = (r, s', tr) -> was_read (T ++ tr) s'.
Proof.
  intros S. assert (L : forall T', was_read (T ++ T') s). { intros T'. eapply was_read_more; [|exact S]. apply incl_appl, incl_refl. }
  unfold fs_handle. destruct (file_path two s m) as [p|] eqn:P; [|intros X; inj X; auto].
  destruct (is_prefix _ _); cbn [negb]; [|intros X; inj X; auto]. destruct (is_dir d p); [intros X; inj X; auto|].
  destruct (str_eqb (m_method m) (bs "GET") || is_head m).
  - destruct (fs_get date d s m p) as [[r1 s1] t1] eqn:G. intros X. inj X. eapply was_read_more; [|eapply get_read; eauto].
    intros a I. apply in_app_or in I as [I|I]; apply in_or_app; cbn; auto.
  - destruct (_ || _). { destruct (fs_change _ _ _ _ _ _ _) as [r1 t1]. intros X. inj X. auto. } intros X. inj X. auto.
Qed.
Lemma run_read ops : forall T s, Forall serves ops -> was_read T s -> was_read (T ++ snd (fs_run two date s ops)) (fst (fs_run two date s ops)).
Proof.
  induction ops as [|o ops IH]; intros T s SV S; cbn [fs_run]. { cbn. rewrite app_nil_r. exact S. }
  destruct (fs_step two date s o) as [s1 t1] eqn:ST. inversion SV; subst.
  assert (S1 : was_read (T ++ t1) s1).
  { destruct o as [d0 o|n d0| |d0 d1 m x y]; cbn [fs_step] in ST; [contradiction| | |].
    - unfold fs_start in ST. destruct S as [SC S]. rewrite SC in ST. cbn in ST. inj ST. rewrite app_nil_r. split; auto.
    - inj ST. split; [apply S|]. intros k e [].
    - destruct (fs_handle two date d0 d1 s m x y) as [[r s3] t3] eqn:X. inj ST. eapply handle_read; eauto. }
  specialize (IH _ s1 H2 S1). destruct (fs_run two date s1 ops) as [s2 t2]. cbn [fst snd] in *. rewrite app_assoc. exact IH.
Qed.
(** a file that is not there and was never read is not read *)
Lemma get_unread T p d s m q r s' tr : was_read T s -> ~ In (ARead p) T -> d p = None -> fs_get date d s m q = (r, s', tr) -> ~ In (ARead p) tr.
Proof.
  intros [SC S] N D. unfold fs_get. set (rel := relative s (m_resource m)) in *.
  assert (U : forall f ok f' tr, df_update date d f = (ok, f', tr) -> ~ In (ARead p) tr).
  { intros f ok f' tr0. unfold df_update. destruct (d (f_path f)) as [[|]|]; intros X; inj X; cbn; intuition discriminate. }
  assert (R : forall f ok f' tr, f_path f <> p -> df_read d f = (ok, f', tr) -> ~ In (ARead p) tr).
  { intros f ok f' tr0 NE X. apply read_path in X as [_ ->]. cbn. intuition congruence. }
  assert (forall r s' tr, fs_from_disk date d s m q rel = (r, s', tr) -> ~ In (ARead p) tr) as K.
  { clear r s' tr. intros r s' tr. unfold fs_from_disk. destruct (exists_ d q) eqn:EX; cbn [negb]; [|intros X; inj X; cbn; intuition discriminate].
    assert (q <> p) by (intros ->; unfold exists_ in EX; rewrite D in EX; discriminate).
    destruct (df_update date d _) as [[ok1 f1] tr1] eqn:E1. pose proof (U _ _ _ _ E1) as U1. apply update_path in E1. cbn [f_path] in E1.
    destruct ok1; cbn [negb]; [|intros X; inj X; cbn; intuition discriminate].
    destruct (sends (choose m f1) && negb (s_caching s =? 0)); [|intros X; inj X; cbn; intuition discriminate].
    destruct (df_read d f1) as [[ok2 f2] tr2] eqn:E2. assert (R2 : ~ In (ARead p) tr2) by (eapply R; [|exact E2]; congruence).
    destruct ok2; intros X; injection X as _ _ <-; cbn; intros [I|I]; try discriminate; apply in_app_or in I; tauto. }
  destruct ((0 <? s_caching s) || (0 <? s_scan s)); [|apply K].
  destruct (sm_find (s_cache s) rel) as [e|] eqn:F; [|destruct (_ || _); [intros X; inj X; auto|apply K]].
  destruct (s_caching s =? 0). { destruct (df_update date d _) as [[ok1 f1] tr1] eqn:E1. apply U in E1. intros X; inj X; auto. }
  apply find_in in F. destruct (S _ _ F) as [PE RE]. assert (NE : f_path e <> p) by congruence.
  assert (Q : forall ok e' tr', (if f_time e =? 0 then let '(ok, f, tr) := df_update date d e in if ok then let '(ok, f, tr') := df_read d f in (ok, f, tr ++ tr') else (false, f, tr)
     else if s_caching s =? 1 then df_check date d e else (true, e, [])) = (ok, e', tr') -> ~ In (ARead p) tr').
  { intros ok e' tr'. destruct (f_time e =? 0).
    - destruct (df_update date d e) as [[ok1 f1] tr1] eqn:E1. pose proof (U _ _ _ _ E1) as U1. apply update_path in E1. destruct ok1; [|intros X; inj X; exact U1].
      destruct (df_read d f1) as [[ok2 f2] tr2] eqn:E2. apply R in E2; [|congruence]. intros X. injection X as _ _ <-. intros I. apply in_app_or in I. tauto.
    - destruct (s_caching s =? 1); [|intros X; inj X; auto]. unfold df_check. destruct (d (f_path e)) as [[es t|c t r0]|]; try (intros X; inj X; cbn; intuition discriminate).
      destruct (_ && _); [intros X; inj X; cbn; intuition discriminate|]. destruct (df_read d _) as [[a b] x] eqn:E2. apply R in E2; [|exact NE].
      intros X. injection X as _ _ <-. cbn. intuition discriminate. }
  destruct (if f_time e =? 0 then _ else _) as [[ok e'] tr'] eqn:Y. specialize (Q _ _ _ eq_refl). intros X. inj X. exact Q.
Qed.
Lemma handle_unread T p d d' s m data why r s' tr : was_read T s -> ~ In (ARead p) T -> d p = None -> fs_handle two date d d' s m data why = (r, s', tr) -> ~ In (ARead p) tr.
Proof.
  intros S N D. unfold fs_handle. destruct (file_path two s m) as [q|] eqn:P; [|intros X; inj X; auto].
  destruct (is_prefix _ _); cbn [negb]; [|intros X; inj X; auto]. destruct (is_dir d q); [intros X; inj X; cbn; intuition discriminate|].
  destruct (str_eqb (m_method m) (bs "GET") || is_head m).
  - destruct (fs_get date d s m q) as [[r1 s1] t1] eqn:G. intros X. inj X. pose proof (get_unread _ _ _ _ _ _ _ _ _ S N D G). cbn. intuition discriminate.
  - destruct (_ || _); [|intros X; inj X; cbn; intuition discriminate]. destruct (fs_change _ _ _ _ _ _ _) as [r1 t1] eqn:X. intros Y. inj Y.
    unfold fs_change in X. destruct (s_writable s'); cbn [negb] in X; [|inj X; cbn; intuition discriminate].
    destruct (str_eqb _ _). { destruct (exists_ d q); cbn [negb] in X; [destruct (exists_ d' q)|]; inj X; cbn; intuition discriminate. }
    destruct (exists_ d q); cbn [negb] in X; [inj X; cbn; intuition discriminate|]. destruct (exists_ d (branch q)); cbn [negb] in X; inj X; cbn; intuition discriminate.
Qed.
Lemma run_unread p ops : forall T s, Forall serves ops -> was_read T s -> ~ In (ARead p) T -> (forall d, seen ops d -> d p = None) -> ~ In (ARead p) (snd (fs_run two date s ops)).
Proof.
  induction ops as [|o ops IH]; intros T s SV S N SE; cbn [fs_run]. { cbn. auto. }
  destruct (fs_step two date s o) as [s1 t1] eqn:ST. inversion SV; subst.
  assert (S1 : was_read (T ++ t1) s1 /\ ~ In (ARead p) t1).
  { destruct o as [d0 o|n d0| |d0 d1 m x y]; cbn [fs_step] in ST; [contradiction| | |].
    - unfold fs_start in ST. destruct S as [SC S]. rewrite SC in ST. cbn in ST. inj ST. rewrite app_nil_r. split; [split; auto|auto].
    - inj ST. split; [|auto]. split; [apply S|]. intros k e [].
    - destruct (fs_handle two date d0 d1 s m x y) as [[r s3] t3] eqn:X. inj ST. split; [eapply handle_read; eauto|]. eapply handle_unread; eauto. apply SE. left. reflexivity. }
  destruct S1 as [S1 N1]. assert (N2 : ~ In (ARead p) (T ++ t1)) by (intros I; apply in_app_or in I; tauto).
  specialize (IH _ s1 H2 S1 N2 (fun d I => SE d (Exists_cons_tl _ I))). destruct (fs_run two date s1 ops) as [s2 t2]. cbn [snd] in *. intros I. apply in_app_or in I. tauto.
Qed.
Lemma run_same ops : forall s, Forall serves ops -> same_options s (fst (fs_run two date s ops)).
Proof.
  induction ops as [|o ops IH]; intros s SV; cbn [fs_run]; [apply same_refl|].
  destruct (fs_step two date s o) as [s1 t1] eqn:ST. inversion SV; subst. specialize (IH s1 H2). destruct (fs_run two date s1 ops) as [s2 t2]. cbn [fst] in *.
  eapply same_trans; [|exact IH]. destruct o as [d0 o|n d0| |d0 d1 m x y]; cbn [fs_step] in ST; [contradiction| | |].
  - destruct (fs_start date n d0 s) as [[ok s3] t3] eqn:X. inj ST. eapply start_same; eauto.
  - inj ST. repeat split.
  - destruct (fs_handle two date d0 d1 s m x y) as [[r s3] t3] eqn:X. inj ST. eapply handle_same; eauto.
Qed.
(** what a request for a file that is not there gets *)
Lemma gone_get T d s m p r s' tr : was_read T s -> file_path two s m = Some p -> d p = None -> fs_get date d s m p = (r, s', tr) ->
  (r = not_found m /\ s' = s) \/ (0 < s_caching s /\ In (ARead p) T /\ (r = FThrow \/ s_caching s <> 1)).
Proof.
  intros [SC S] P D. unfold fs_get. set (rel := relative s (m_resource m)) in *. change (path_of two s rel = Some p) in P.
  rewrite SC. change (0 <? 0) with false. change (0 =? 1) with false. change (0 =? 3) with false. cbn [orb]. rewrite orb_false_r.
  assert (K : fs_from_disk date d s m p rel = (not_found m, s, [AExists p])) by (unfold fs_from_disk, exists_; rewrite D; reflexivity). rewrite K.
  destruct (0 <? s_caching s) eqn:C0; [|intros X; inj X; auto]. apply Z.ltb_lt in C0. destruct (sm_find (s_cache s) rel) as [e|] eqn:F; [|intros X; inj X; auto].
  apply find_in in F. destruct (S _ _ F) as [PE RE]. rewrite P in PE. injection PE as ->.
  assert (s_caching s =? 0 = false) as -> by (apply Z.eqb_neq; lia). intros X. right. split; [lia|]. split; [auto|].
  destruct (Z.eq_dec (s_caching s) 1) as [C1|C1]; [left|auto]. rewrite C1 in X. change (1 =? 1) with true in X.
  unfold df_update, df_check in X. rewrite D in X. destruct (f_time e =? 0); cbn in X; injection X as <- _ _; reflexivity.
Qed.
End Gone.

Lemma not_found_404 pos m : exists l, not_found m = FAnswer l /\ status pos l = 404.
Proof. unfold not_found. pages. exists l. split; [reflexivity|]. apply status_coded; [exact CF|apply CL]. Qed.
(** a request that removed [p] *)
Lemma removing two date d d' s m data why r0 s' tr p : fs_handle two date d d' s m data why = (r0, s', tr) -> In (ARemove p) tr ->
  s' = s /\ file_path two s m = Some p /\ is_prefix (s_dir s) p = true.
Proof.
  intros E I. unfold fs_handle in E. destruct (file_path two s m) as [q|]; [|injection E as _ _ <-; destruct I].
  destruct (is_prefix (s_dir s) q) eqn:IP; cbn [negb] in E; [|injection E as _ _ <-; destruct I]. destruct (is_dir d q). { injection E as _ _ <-. destruct I as [I|[]]. discriminate. }
  destruct (str_eqb (m_method m) (bs "GET") || is_head m) eqn:Q.
  { destruct (fs_get date d s m q) as [[r1 s1] t1] eqn:X. injection E as _ _ <-. destruct I as [I|I]; [discriminate|]. destruct (get_still date d s m q _ _ _ X _ I Logic.I). }
  destruct (str_eqb (m_method m) (bs "POST") || str_eqb (m_method m) (bs "PUT") || str_eqb (m_method m) (bs "DELETE")); [|injection E as _ _ <-; destruct I as [I|[]]; discriminate].
  destruct (fs_change d d' s m q data why) as [r1 t1] eqn:X. injection E as _ <- <-. split; [reflexivity|].
  assert (p = q); [|subst; auto]. destruct I as [I|I]; [discriminate|]. unfold fs_change in X.
  destruct (s_writable s); cbn [negb] in X; [|injection X as _ <-; destruct I].
  destruct (str_eqb (m_method m) (bs "DELETE")). { destruct (exists_ d q); cbn [negb] in X; [destruct (exists_ d' q)|]; injection X as _ <-; cbn in I; intuition congruence. }
  destruct (exists_ d q); cbn [negb] in X. { injection X as _ <-. cbn in I. intuition discriminate. }
  destruct (exists_ d (branch q)); cbn [negb] in X; injection X as _ <-; cbn in I; intuition discriminate.
Qed.
(** a GET or HEAD for the same resource, when the options are the same *)
Lemma asking two date d2 d3 s s1 m m' data' why' p r s2 tr2 : file_path two s m = Some p -> is_prefix (s_dir s) p = true -> same_options s s1 -> d2 p = None ->
  m_resource m' = m_resource m -> m_method m' = bs "GET" \/ m_method m' = bs "HEAD" -> fs_handle two date d2 d3 s1 m' data' why' = (r, s2, tr2) ->
  file_path two s1 m' = Some p /\ exists tr3, fs_get date d2 s1 m' p = (r, s2, tr3).
Proof.
  intros P IP (O1 & O2 & O3 & _) D RM G E2. assert (P' : file_path two s1 m' = Some p) by (rewrite <- P; unfold file_path, relative; rewrite RM, O1, O2, O3; reflexivity).
  split; [exact P'|]. unfold fs_handle in E2. rewrite P', O2, IP in E2. cbn [negb] in E2. unfold is_dir in E2. rewrite D in E2.
  assert (str_eqb (m_method m') (bs "GET") || is_head m' = true) as X by (unfold is_head; destruct G as [-> | ->]; reflexivity). rewrite X in E2.
  destruct (fs_get date d2 s1 m' p) as [[r1 s3] t1]. injection E2 as <- <- _. eauto.
Qed.
(** the state after the history *)
Lemma history two date resource opts ops : Forall serves ops -> scan_of opts = 0 -> let x := fs_run two date (configure two date resource opts) ops in
  was_read two (snd x) (fst x) /\ s_caching (fst x) = caching_of opts.
Proof.
  intros SV SC. cbv zeta. destruct (configured two date resource opts) as (_ & _ & _ & CC & _). destruct (caching_configured two date resource opts) as [C1 C2]. split.
  - apply (run_read two date ops [] _ SV). split; [congruence|]. rewrite CC. intros k e [].
  - destruct (run_caching two date ops (configure two date resource opts) SV) as (R1 & R2 & _). destruct (Z.eq_dec (caching_of opts) 0) as [Z0|Z0]; [rewrite R2; lia|rewrite R1; lia].
Qed.
Lemma later_caching two date later s : Forall serves later -> s_scan s = 0 -> s_caching (fst (fs_run two date s later)) = s_caching s.
Proof. intros SV SC. destruct (run_caching two date later s SV) as (R1 & R2 & _). destruct (Z.eq_dec (s_caching s) 0) as [Z0|Z0]; [rewrite R2; lia|rewrite R1; lia]. Qed.
(** C172. So it is for a service that does not scan its directory, if it has no cache or had not read the file before it was removed; the request leaves the service as it is. *)
Theorem C172_gone_partial two date pos resource opts ops later d d' d2 d3 m m' data why data' why' l s' tr p r s2 tr2 :
  let x := fs_run two date (configure two date resource opts) ops in
  Forall serves ops -> Forall serves later -> (forall d, seen later d -> d p = None) -> scan_of opts = 0 -> caching_of opts = 0 \/ ~ In (ARead p) (snd x) ->
  fs_handle two date d d' (fst x) m data why = (FAnswer l, s', tr) -> In (ARemove p) tr ->
  d2 p = None -> m_resource m' = m_resource m -> m_method m' = bs "GET" \/ m_method m' = bs "HEAD" ->
  fs_handle two date d2 d3 (fst (fs_run two date s' later)) m' data' why' = (r, s2, tr2) -> s2 = fst (fs_run two date s' later) /\ exists l', r = FAnswer l' /\ status pos l' = 404.
Proof.
  cbv zeta. intros SV SL SE SC HY E I D RM G E2. destruct (history two date resource opts ops SV SC) as [W C].
  destruct (removing _ _ _ _ _ _ _ _ _ _ _ _ E I) as (-> & P & IP). set (s := fst (fs_run two date (configure two date resource opts) ops)) in *.
  destruct (asking _ _ _ _ _ _ _ _ _ _ _ _ _ _ P IP (run_same two date later s SL) D RM G E2) as (P' & tr3 & X).
  destruct (gone_get two date _ _ _ _ _ _ _ _ (run_read two date later _ _ SL W) P' D X) as [[-> ->]|(A & B & _)]; [split; [reflexivity|apply not_found_404]|].
  rewrite later_caching in A by (auto; apply W). destruct HY as [HY|HY]; [rewrite C, HY in A; lia|]. apply in_app_or in B as [B|B]; [contradiction|].
  destruct (run_unread two date p later _ _ SL W HY SE B).
Qed.
Print Assumptions C172_gone_partial.
(** With update checking, whatever was read before, it gets 404 or the service throws; it never gets what the file had. *)
Theorem C172_not_sent_partial two date pos resource opts ops later d d' d2 d3 m m' data why data' why' l s' tr p r s2 tr2 :
  Forall serves ops -> Forall serves later -> scan_of opts = 0 -> caching_of opts <= 1 ->
  fs_handle two date d d' (fst (fs_run two date (configure two date resource opts) ops)) m data why = (FAnswer l, s', tr) -> In (ARemove p) tr ->
  d2 p = None -> m_resource m' = m_resource m -> m_method m' = bs "GET" \/ m_method m' = bs "HEAD" ->
  fs_handle two date d2 d3 (fst (fs_run two date s' later)) m' data' why' = (r, s2, tr2) -> r = FThrow \/ exists l', r = FAnswer l' /\ status pos l' = 404.
Proof.
  intros SV SL SC CA E I D RM G E2. destruct (history two date resource opts ops SV SC) as [W C].
  destruct (removing _ _ _ _ _ _ _ _ _ _ _ _ E I) as (-> & P & IP). set (s := fst (fs_run two date (configure two date resource opts) ops)) in *.
  destruct (asking _ _ _ _ _ _ _ _ _ _ _ _ _ _ P IP (run_same two date later s SL) D RM G E2) as (P' & tr3 & X).
  destruct (gone_get two date _ _ _ _ _ _ _ _ (run_read two date later _ _ SL W) P' D X) as [[-> _]|(A & B & [F|F])]; [right; apply not_found_404|auto|].
  rewrite later_caching in A, F by (auto; apply W). lia.
Qed.
Print Assumptions C172_not_sent_partial.
(** What was sent stays in the cache. *)
Lemma find_inserted {A} (c : smap A) k v : sm_find c k = None -> sm_find (sm_insert c k v) k = Some v.
Proof.
  unfold sm_find. induction c as [|e c IH]; cbn [sm_insert find fst snd]; [intros _; rewrite str_eqb_refl; reflexivity|]. destruct (str_eqb (fst e) k) eqn:E; [discriminate|].
  intros F. destruct (lex_ltb k (fst e)); cbn [find fst snd]; [rewrite str_eqb_refl; reflexivity|]. rewrite E. auto.
Qed.
Lemma sent_kept two date T d s m p f s1 tr : was_read two T s -> 0 < s_caching s -> file_path two s m = Some p -> fs_get date d s m p = (FSend f, s1, tr) ->
  same_options s s1 /\ s_caching s1 = s_caching s /\ f_path f = p /\ sm_find (s_cache s1) (relative s (m_resource m)) = Some f.
Proof.
  intros [SC S] C P. unfold fs_get. set (rel := relative s (m_resource m)) in *. change (path_of two s rel = Some p) in P.
  assert (s_caching s =? 0 = false) as C0 by (apply Z.eqb_neq; lia). assert (0 <? s_caching s = true) as C1 by (apply Z.ltb_lt; lia).
  rewrite SC, C0, C1. change (0 =? 1) with false. change (0 =? 3) with false. cbn [orb].
  destruct (sm_find (s_cache s) rel) as [e|] eqn:F.
  - pose proof (find_in _ _ _ F) as FI. destruct (S _ _ FI) as [PE _]. rewrite P in PE. injection PE as PE.
    destruct (if f_time e =? 0 then _ else _) as [[ok e'] tr'] eqn:Y. destruct ok; [|discriminate]. intros X. injection X as X <- _.
    assert (e' = f). { unfold choose in X. destruct (str_eqb _ _); [discriminate|]. destruct (is_head m); [discriminate|]. congruence. } subst e'.
    split; [repeat split|]. split; [reflexivity|]. split.
    + destruct (f_time e =? 0).
      * destruct (df_update date d e) as [[ok1 f1] tr1] eqn:U. apply update_path in U. destruct ok1; [|discriminate]. destruct (df_read d f1) as [[ok2 f2] tr2] eqn:R. apply read_path in R as [R _]. injection Y as _ <- _. congruence.
      * destruct (s_caching s =? 1); [apply check_path in Y; congruence|]. injection Y as <- _. auto.
    + cbn [with_cache s_cache]. rewrite sm_find_set, str_eqb_refl, F. reflexivity.
  - unfold fs_from_disk. destruct (exists_ d p); cbn [negb].
    2:{ intros X. exfalso. injection X as X _ _. destruct (not_found_404 (fun _ _ => O) m) as (l & E & _). congruence. }
    destruct (df_update date d _) as [[ok1 f1] tr1] eqn:U. apply update_path in U. cbn [f_path] in U. destruct ok1; cbn [negb]; [|discriminate]. rewrite C0. cbn [negb]. rewrite andb_true_r.
    destruct (sends (choose m f1)) eqn:SE.
    + destruct (df_read d f1) as [[ok2 f2] tr2] eqn:R. apply read_path in R as [R _]. destruct ok2; [|discriminate]. intros X. injection X as -> <- _.
      split; [repeat split|]. split; [reflexivity|]. split; [congruence|]. cbn [with_cache s_cache]. apply find_inserted. exact F.
    + intros X. injection X as X _ _. rewrite X in SE. discriminate.
Qed.
(** For a service with a cache that does not scan: a GET got a file, a DELETE for the same resource removed it, and a GET that has no copy of that time asks for it again.
    With update checking the service throws; without, it sends the same again, unless the file had the time 0. *)
Theorem C172_kept_partial two date resource opts ops d0 d0' d d' d2 d3 m0 m m' data0 why0 data why data' why' f s1 tr1 l s' tr p r s2 tr2 :
  Forall serves ops -> scan_of opts = 0 -> 0 < caching_of opts ->
  fs_handle two date d0 d0' (fst (fs_run two date (configure two date resource opts) ops)) m0 data0 why0 = (FSend f, s1, tr1) -> m_resource m = m_resource m0 ->
  fs_handle two date d d' s1 m data why = (FAnswer l, s', tr) -> In (ARemove p) tr ->
  d2 p = None -> m_resource m' = m_resource m -> m_method m' = bs "GET" -> d_get (m_headers m') (bs "If-Modified-Since") <> f_date f ->
  fs_handle two date d2 d3 s' m' data' why' = (r, s2, tr2) ->
  f_path f = p /\ r = if (f_time f =? 0) || (caching_of opts =? 1) then FThrow else FSend f.
Proof.
  intros SV SC CP E0 RM0 E I D RM G IM E2. destruct (history two date resource opts ops SV SC) as [W C]. set (s := fst (fs_run two date (configure two date resource opts) ops)) in *. rewrite <- C in CP.
  assert (Q : str_eqb (m_method m0) (bs "GET") || is_head m0 = true).
  { destruct (str_eqb (m_method m0) (bs "GET") || is_head m0) eqn:Q; [reflexivity|]. exfalso. apply orb_false_iff in Q as [Q1 Q2]. apply str_eqb_neq in Q1. unfold is_head in Q2. apply str_eqb_neq in Q2.
    destruct (handle_told two date (fun _ _ => O) d0 d0' s m0 data0 why0 Q1 Q2) as (l0 & t0 & X & _). congruence. }
  assert (PG : forall c a1 a2 a3 a4 a5 a6 a7 a8 a9 g, page c a1 a2 a3 a4 a5 a6 a7 a8 a9 <> FSend g). { intros. unfold page. destruct (xml_encode _); [discriminate|]. destruct a9; discriminate. }
  assert (K : exists q, file_path two s m0 = Some q /\ exists tr3, fs_get date d0 s m0 q = (FSend f, s1, tr3)).
  { unfold fs_handle in E0. destruct (file_path two s m0) as [q|]; [exists q; split; [reflexivity|]|injection E0 as E0 _ _; destruct (PG _ _ _ _ _ _ _ _ _ _ _ E0)].
    destruct (is_prefix (s_dir s) q); cbn [negb] in E0; [|injection E0 as E0 _ _; destruct (PG _ _ _ _ _ _ _ _ _ _ _ E0)].
    destruct (is_dir d0 q); [injection E0 as E0 _ _; destruct (PG _ _ _ _ _ _ _ _ _ _ _ E0)|]. rewrite Q in E0. destruct (fs_get date d0 s m0 q) as [[r3 s3] t3]. injection E0 as -> -> _. eauto. }
  destruct K as (q & P0 & tr0 & G0). destruct (sent_kept _ _ _ _ _ _ _ _ _ _ W CP P0 G0) as ((O1 & O2 & O3 & O4 & O5 & O6) & C' & PF & F).
  destruct (removing _ _ _ _ _ _ _ _ _ _ _ _ E I) as (-> & P & IP).
  assert (QP : q = p). { unfold file_path, relative in P, P0. rewrite O1, O2, O3, RM0 in P. congruence. } rewrite QP in PF. split; [exact PF|].
  destruct (asking _ _ _ _ _ _ _ _ _ _ _ _ _ _ P IP (same_refl s1) D RM (or_introl G) E2) as (P' & tr3 & X).
  unfold fs_get in X. replace (relative s1 (m_resource m')) with (relative s (m_resource m0)) in X by (unfold relative; rewrite O1, RM, RM0; reflexivity).
  rewrite F, O6, C' in X. destruct W as [W _]. rewrite W in X. assert (s_caching s =? 0 = false) as C0 by (apply Z.eqb_neq; lia). assert (0 <? s_caching s = true) as C1 by (apply Z.ltb_lt; lia).
  rewrite C0, C1 in X. cbn [orb] in X. rewrite <- C. destruct (f_time f =? 0); cbn [orb].
  { unfold df_update in X. rewrite PF, D in X. injection X as <- _ _. reflexivity. }
  destruct (s_caching s =? 1). { unfold df_check in X. rewrite PF, D in X. injection X as <- _ _. reflexivity. }
  injection X as <- _ _. unfold choose. assert (str_eqb (f_date f) (d_get (m_headers m') (bs "If-Modified-Since")) = false) as -> by (apply str_eqb_neq; auto).
  unfold is_head. rewrite G. reflexivity.
Qed.
Print Assumptions C172_kept_partial.
(** a directory with one entry *)
Definition listing (f : disk) : disk := fun q => if str_eqb q (bs "/w") then Some (NDir [bs "x"] 1) else f q.
(** A GET finds the file, a DELETE removes it, and another GET asks for it: the code of the DELETE, the code of the second GET and the bytes that are sent; none if it throws. *)
Definition after_delete (two : bool) (opts : list (disk * fopt)) (first : bool) : option Z * option Z * option (list (option Z)) :=
  let date := fun _ : Z => bs "now" in
  let da := listing (one_file "/w/x" (bs "old") 5 true) in let db := with_dir nobody_else in
  let s := fst (fs_run two date (configure two date (bs "/files") (can_write ++ opts)) (FStart 9 da :: if first then [FRequest da da (request "GET" "/files/x") [] []] else [])) in
  let '(r, s, _) := fs_handle two date da db s (request "DELETE" "/files/x") [] [] in
  let c := match r with FAnswer l => Some (status ex_pos l) | _ => None end in
  match fs_handle two date db db s (request "GET" "/files/x") [] [] with
  | (FSend f, _, _) => (c, Some 200, f_content f)
  | (FAnswer l, _, _) => (c, Some (status ex_pos l), None)
  | _ => (c, None, None)
  end.
(** With the default settings, a file that was asked for and then removed makes the service throw. *)
Theorem C172_gone_refuted two : ~ gone_not_found two (fun _ => bs "now") ex_pos.
Proof.
  intros H. set (date := fun _ : Z => bs "now") in *. set (da := with_dir (one_file "/w/x" (bs "old") 5 true)). set (db := with_dir nobody_else).
  set (ops := [FRequest da da (request "GET" "/files/x") [] []]).
  destruct (fs_handle two date da db (fst (fs_run two date (configure two date (bs "/files") can_write) ops)) (request "DELETE" "/files/x") [] []) as [[r1 s1] tr1] eqn:E1.
  destruct (fs_handle two date db db s1 (request "GET" "/files/x") [] []) as [[r2 s2] tr2] eqn:E2.
  assert (K : exists l, r1 = FAnswer l /\ In (ARemove (bs "/w/x")) tr1 /\ r2 = FThrow).
  { destruct two; vm_compute in E1; injection E1 as <- <- <-; vm_compute in E2; injection E2 as <- <- <-; eexists; (split; [reflexivity|]); (split; [cbn; auto 10|]); reflexivity. }
  destruct K as (l & -> & I & ->).
  destruct (H (bs "/files") can_write ops [] da db db db (request "DELETE" "/files/x") (request "GET" "/files/x") [] [] [] [] l s1 tr1 (bs "/w/x") FThrow s2 tr2) as (l' & Q & _); auto; try discriminate; [repeat constructor|intros d0 X; inversion X].
Qed.
Print Assumptions C172_gone_refuted.
(** The other ways: with caching 2 the removed file is sent for ever; with a scan of the directory the service throws although nobody had asked for the file, or sends it. *)
Theorem C172_ways_refuted two : after_delete two [] true = (Some 204, None, None)
  /\ after_delete two [(nobody_else, OCache 2)] true = (Some 204, Some 200, Some (map Some (bs "old")))
  /\ after_delete two [(nobody_else, OScan 1); (nobody_else, OCache 0)] false = (Some 204, None, None)
  /\ after_delete two [(nobody_else, OScan 2); (nobody_else, OCache 2)] false = (Some 204, Some 200, Some (map Some (bs "old"))).
Proof. destruct two; vm_compute; auto. Qed.
Print Assumptions C172_ways_refuted.
Example C172_case two : after_delete two [] false = (Some 204, Some 404, None) /\ after_delete two [(nobody_else, OCache 0)] true = (Some 204, Some 404, None)
  /\ after_delete two [(nobody_else, OCache 2)] false = (Some 204, Some 404, None).
Proof. destruct two; vm_compute; auto. Qed.
