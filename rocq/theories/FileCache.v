(** Proofs about the cache of a file service. *)
From Coq Require Import String ZArith List Bool Lia.
From Verif Require Import Base SMap AlgModel DictModel HttpModel MessageModel WriterModel PathModel FileModel FileSpec PathProofs FileProofs FileRuns.
Import ListNotations.

Lemma resolve_append cwd p x : p <> [] -> resolve cwd (p_append p x) = walk (names x) (resolve cwd p).
Proof. intros NE. rewrite !resolve_names, names_append, walk_app, start_append by auto. auto. Qed.
Lemma resolve_join cwd p x : p <> [] -> resolve cwd (p ++ 47 :: x) = walk (names x) (resolve cwd p).
Proof.
  intros NE. rewrite !resolve_names. assert (names (p ++ 47 :: x) = names p ++ names x) as ->. { unfold names. change 47 with SLASH. rewrite fields_app_slash, filter_app. auto. }
  rewrite walk_app, start_prefix by auto. auto.
Qed.

Section Cache.
Variables (two : bool) (date : Z -> list Z) (cwd : list (list Z)).
(** the directory and the file of the service *)
Variables (dir file : list Z).
Definition dir_ends : Prop := dir = [] \/ exists v, dir = normalize two v /\ ends_with_name dir.
Hypothesis DE : dir_ends.

Definition right (rel p : list Z) : Prop :=
  match rel with [] => file <> [] /\ resolve cwd p = resolve cwd file | _ => dir <> [] /\ resolve cwd p = walk (names rel) (resolve cwd dir) end.
Definition mem (H : disk -> Prop) (e : diskfile) : Prop := exists d0, H d0 /\ in_memory date d0 (f_time e) e.
Definition snap (H : disk -> Prop) (e : diskfile) : Prop := (f_content e = None /\ f_time e = 0) \/ mem H e.
Definition sound (H : disk -> Prop) (s : fserv) : Prop :=
  s_dir s = dir /\ s_file s = file /\ forall k e, In (k, e) (s_cache s) -> right k (f_path e) /\ snap H e.
Lemma sound_more (H H' : disk -> Prop) s : (forall d, H d -> H' d) -> sound H s -> sound H' s.
Proof.
  intros M (A & B & C). split; auto. split; auto. intros k e I. destruct (C k e I) as [R [S|(d0 & S & S')]]; split; auto; [left; auto|]. right. exists d0. auto.
Qed.
Lemma sound_cache H s c : sound H s -> (forall k e, In (k, e) c -> In (k, e) (s_cache s) \/ (right k (f_path e) /\ snap H e)) -> sound H (with_cache s c).
Proof. intros (A & B & C) K. split; auto. split; auto. cbn. intros k e I. apply K in I as [I|I]; auto. Qed.

(** reading *)
Lemma update_ok d f ok f' tr : df_update date d f = (ok, f', tr) ->
  if ok then exists c t r, d (f_path f) = Some (NFile c t r) /\ f' = mkdf (f_path f) (f_content f) (zlen c) t (date t) (f_mime f) else f' = f.
Proof. unfold df_update. destruct (d (f_path f)) as [[es t|c t r]|] eqn:D; intros X; inj X; eauto 8. Qed.
Lemma read_all d f c t r ok f' tr : d (f_path f) = Some (NFile c t r) -> all_readable d -> f_size f = zlen c -> df_read d f = (ok, f', tr) ->
  ok = true /\ f' = mkdf (f_path f) (Some (map Some c)) (zlen c) (f_time f) (f_date f) (f_mime f).
Proof.
  intros D AR S. unfold df_read. rewrite D. rewrite (AR _ _ _ _ D). rewrite S. rewrite Z.leb_refl. unfold zlen. rewrite Nat2Z.id, firstn_all, Nat.sub_diag, app_nil_r.
  intros X. inj X. auto.
Qed.
Lemma load d f ok f1 tr1 ok2 f2 tr2 : all_readable d -> df_update date d f = (ok, f1, tr1) -> ok = true -> df_read d f1 = (ok2, f2, tr2) ->
  ok2 = true /\ f_path f2 = f_path f /\ f_mime f2 = f_mime f /\ f_date f2 = f_date f1 /\ in_memory date d (f_time f2) f2 /\ looks_like d (f_time f2) f2.
Proof.
  intros AR U -> R. apply update_ok in U as (c & t & r & D & ->).
  eapply read_all in R as [-> ->]; cbn; eauto. split; auto. split; auto. split; auto. split; auto. pose proof D as D'. rewrite (AR _ _ _ _ D) in D'. split; [exists c; auto|]. exists c, r. auto.
Qed.

Lemma add_sound (H : disk -> Prop) d s rel p ph ok s' tr : H d -> all_readable d -> sound H s -> right rel p -> add_entry date d s rel p ph = (ok, s', tr) -> sound H s'.
Proof.
  intros HD AR S R. unfold add_entry. destruct ph.
  { intros X. inj X. apply sound_cache; auto. intros k e I. apply sm_insert_in in I as [I|I]; auto. inj I. right. split; [auto|]. left. auto. }
  destruct (df_update date d _) as [[ok1 e1] tr1] eqn:U. destruct ok1; cbn [negb]; [|intros X; inj X; auto].
  destruct (df_read d e1) as [[ok2 e2] tr2] eqn:E2. destruct (load _ _ _ _ _ _ _ _ AR U eq_refl E2) as (-> & P & _ & _ & M & _). intros X. inj X.
  apply sound_cache; auto. intros k e I. apply sm_insert_in in I as [I|I]; auto. inj I. right. rewrite P. split; [auto|]. right. exists d. auto.
Qed.

(** scanning *)
Definition scanned (p : list Z) : Prop := p = dir \/ exists r, r <> [] /\ hd 0 r <> SLASH /\ last r 0 <> SLASH /\ p = dir ++ SLASH :: r.
Lemma last_app_ne (a b : list Z) d : b <> [] -> last (a ++ b) d = last b d.
Proof. intros NE. destruct (exists_last NE) as (q & z & ->). rewrite app_assoc, !last_snoc_z. auto. Qed.
Lemma name_last n : n <> [] -> ~ In SLASH n -> last n 0 <> SLASH.
Proof. intros NE NI. destruct (exists_last NE) as (q & z & ->). rewrite last_snoc_z. intros ->. apply NI. apply in_or_app. right. left. auto. Qed.
Lemma dir_last_char : dir <> [] -> last dir 0 <> SLASH.
Proof.
  intros ND. destruct DE as [D|(v & D & EN)]; [tauto|]. rewrite D in EN. destruct (normal_last two v EN) as (n & ((NE & NI) & _) & [(p & X)|X]); rewrite D, X.
  - rewrite last_app_ne by discriminate. rewrite (last_app_ne [SLASH] n) by auto. apply name_last; auto.
  - apply name_last; auto.
Qed.
Lemma scanned_entry p n : dir <> [] -> scanned p -> entry_name n -> exists r, r <> [] /\ hd 0 r <> SLASH /\ last r 0 <> SLASH /\ p_append p n = dir ++ SLASH :: r.
Proof.
  intros ND S (NE & NI & _). assert (last p 0 <> SLASH /\ p <> []) as [LP NP].
  { destruct S as [->|(r & R1 & R2 & R3 & ->)]; [split; auto; apply dir_last_char; auto|]. rewrite last_app_ne by discriminate. rewrite (last_app_ne [SLASH] r) by auto. split; auto. destruct dir; discriminate. }
  assert (p_append p n = p ++ SLASH :: n) as ->.
  { unfold p_append. destruct n as [|c n]; [tauto|]. destruct p as [|z p]; [tauto|]. assert (c =? SLASH = false) as ->. { apply Z.eqb_neq. intros ->. apply NI. left. auto. }
    apply Z.eqb_neq in LP. rewrite LP. auto. }
  assert (hd 0 n <> SLASH) as HN. { destruct n as [|c n]; [tauto|]. cbn. intros ->. apply NI. left. auto. }
  assert (last n 0 <> SLASH) as LN by (apply name_last; auto).
  destruct S as [->|(r & R1 & R2 & R3 & ->)]; [exists n; auto|]. exists (r ++ SLASH :: n). split; [destruct r; discriminate|]. split; [destruct r; [tauto|auto]|]. split.
  - rewrite last_app_ne by discriminate. rewrite (last_app_ne [SLASH] n) by auto. auto.
  - rewrite <- app_assoc. auto.
Qed.
Lemma scan_sound (H : disk -> Prop) depth d : dir <> [] -> real_disk d -> H d -> all_readable d -> forall s p ok s' tr, sound H s -> scanned p -> scan_dir date depth d s p = (ok, s', tr) -> sound H s'.
Proof.
  intros ND RD HD AR. induction depth as [|depth IH]; intros s p ok s' tr C B; cbn [scan_dir]; [intros X; inj X; auto|].
  destruct (d p) as [[es t|c t r]|] eqn:DP; [|intros X; inj X; auto | intros X; inj X; auto].
  pose proof (RD p es t DP) as EN. clear DP.
  destruct (scan_entries date (scan_dir date depth d) d p es s) as [[ok1 s1] tr1] eqn:SC. intros X. inj X.
  revert s ok s' tr1 C SC. induction es as [|n es IHe]; intros s ok s' tr1 C SC; cbn [scan_entries] in SC; [inj SC; auto|].
  inversion EN; subst. destruct (scanned_entry p n ND B) as (r & R1 & R2 & R3 & R4); auto.
  destruct (if is_dir d (p_append p n) then _ else _) as [[ok2 s2] tr2] eqn:X.
  assert (sound H s2) as C2.
  { destruct (is_dir d (p_append p n)); [eapply (IH s (p_append p n)); [exact C | right; exists r; auto | exact X]|]. destruct (_ <? _); [inj X; auto|].
    eapply add_sound; [exact HD|exact AR|exact C| |exact X]. rewrite R4. destruct C as (-> & _).
    assert (skipn (List.length dir + 1) (dir ++ SLASH :: r) = r) as ->. { rewrite skipn_app, skipn_all2 by lia. replace (List.length dir + 1 - List.length dir)%nat with 1%nat by lia. auto. }
    destruct r; [tauto|]. cbn [right]. split; auto. apply resolve_join; auto. }
  destruct ok2; [|inj SC; auto].
  destruct (scan_entries date _ d p es s2) as [[ok3 s3] tr3] eqn:Y. inj SC. eapply IHe; eauto.
Qed.
Lemma start_sound (H : disk -> Prop) depth d s ok s' tr : real_disk d -> H d -> all_readable d -> sound H s -> fs_start date depth d s = (ok, s', tr) -> sound H s'.
Proof.
  intros RD HD AR C. unfold fs_start. destruct (s_scan s =? 0); [intros X; inj X; auto|].
  set (s0 := if (s_caching s =? 0) && (1 <? s_scan s) then _ else s).
  assert (sound H s0) as C0. { unfold s0. destruct (_ && _); auto. }
  clearbody s0. clear C s.
  destruct (if is_nil (s_file s0) then _ else _) as [[ok1 s1] tr1] eqn:X.
  assert (sound H s1) as C1.
  { destruct (is_nil (s_file s0)) eqn:NF; [inj X; auto|]. eapply add_sound; [exact HD|exact AR|exact C0| |exact X]. destruct C0 as (_ & EF & _). rewrite EF in *. cbn. split; auto. intros Q. rewrite Q in NF. discriminate. }
  destruct ok1; cbn [negb]; [|intros Y; inj Y; auto].
  destruct (is_nil (s_dir s1)) eqn:ND; [intros Y; inj Y; auto|].
  destruct (scan_dir date depth d s1 (s_dir s1)) as [[ok2 s2] tr2] eqn:Y. intros Z. inj Z.
  assert (s_dir s1 = dir) as ED by (destruct C1; auto). rewrite ED in *.
  assert (dir <> []) as NE by (intros Q; rewrite Q in ND; discriminate).
  eapply scan_sound; [exact NE|exact RD|exact HD|exact AR|exact C1|left; reflexivity|exact Y].
Qed.

(** requests *)
Lemma path_right s m p : s_dir s = dir -> s_file s = file -> file_path two s m = Some p -> right (relative s (m_resource m)) p.
Proof.
  intros ED EF. unfold file_path. rewrite ED, EF. destruct (relative s (m_resource m)) as [|c rel] eqn:R; cbn [is_nil].
  - destruct (is_nil file) eqn:NF; [discriminate|]. intros X. injection X as <-. split; [intros Q; rewrite Q in NF; discriminate|]. apply normalize_resolve.
  - destruct (is_nil dir) eqn:ND; [discriminate|]. intros X. injection X as <-. assert (dir <> []) by (intros Q; rewrite Q in ND; discriminate). cbn [right]. split; auto. rewrite normalize_resolve. apply (resolve_append cwd dir (c :: rel)). auto.
Qed.
(** what a request finds: [f] is to be sent if [whole] *)
Definition found (H : disk -> Prop) (d : disk) (caching : Z) (rel : list Z) (f : diskfile) (whole : bool) : Prop :=
  right rel (f_path f) /\
  (caching = 0 -> to_read date d f) /\
  (caching = 1 -> exists t, looks_like d t f /\ f_date f = date t /\ (whole = true -> exists d0, H d0 /\ in_memory date d0 t f)) /\
  (caching <> 0 -> caching <> 1 -> exists t d0, H d0 /\ looks_like d0 t f /\ f_date f = date t /\ (whole = true -> in_memory date d0 t f)).
Definition answers (H : disk -> Prop) (d : disk) (caching : Z) (rel : list Z) (m : msg) (r : fres) : Prop :=
  r = not_found m \/ r = FThrow \/ exists f, r = choose m f /\ found H d caching rel f (sends r).
Lemma choose_sends m f g : sends (choose m f) = true -> f_date g = f_date f -> choose m g = FSend g.
Proof. unfold choose. intros S E. rewrite E. destruct (str_eqb _ _); [discriminate|]. destruct (is_head m); [discriminate|auto]. Qed.

Lemma get_sound (H : disk -> Prop) d s m p r s' tr : H d -> all_readable d -> sound H s -> right (relative s (m_resource m)) p -> fs_get date d s m p = (r, s', tr) ->
  sound H s' /\ answers H d (s_caching s) (relative s (m_resource m)) m r.
Proof.
  intros HD AR S R. unfold fs_get. set (rel := relative s (m_resource m)) in *.
  assert (forall r s' tr, fs_from_disk date d s m p rel = (r, s', tr) -> sound H s' /\ answers H d (s_caching s) rel m r) as K.
  { clear r s' tr. intros r s' tr. unfold fs_from_disk. destruct (exists_ d p); cbn [negb]; [|intros X; inj X; split; auto; left; auto].
    destruct (df_update date d _) as [[ok1 f1] tr1] eqn:U. destruct ok1; cbn [negb]; [|intros X; inj X; split; auto; right; left; auto].
    pose proof (update_ok _ _ _ _ _ U) as (c & t & rd & D & EF). cbn [f_path f_content f_mime] in *.
    destruct (sends (choose m f1) && negb (s_caching s =? 0)) eqn:G.
    - apply andb_true_iff in G as [G1 G2]. destruct (df_read d f1) as [[ok2 f2] tr2] eqn:E2. destruct (load _ _ _ _ _ _ _ _ AR U eq_refl E2) as (-> & P & _ & DT & M & L). cbn [f_path] in *.
      intros X. injection X as <- <- <-. split.
      + apply sound_cache; auto. intros k e I. apply sm_insert_in in I as [I|I]; auto. injection I as -> ->. right. rewrite P. split; [auto|]. right. exists d. auto.
      + right. right. exists f2. rewrite (choose_sends m _ f2 G1 DT). split; auto. split; [rewrite P; auto|]. apply negb_true_iff, Z.eqb_neq in G2. split; [tauto|].
        destruct M as (c2 & M1 & M2 & M3 & M4). split.
        * intros _. exists (f_time f2). split; auto. split; auto. intros _. exists d. split; auto. exists c2. auto.
        * intros _ _. exists (f_time f2), d. split; auto. split; auto. split; auto. intros _. exists c2. auto.
    - intros X. inj X. split; auto. right. right. eexists. split; [reflexivity|]. cbn [f_path]. split; auto. split; [|split].
      + intros _. exists c, t, rd. auto.
      + intros E. rewrite E in G. change (1 =? 0) with false in G. cbn [negb] in G. rewrite andb_true_r in G. exists t. split; [exists c, rd; auto|]. split; auto. rewrite G. discriminate.
      + intros N0 _. apply Z.eqb_neq in N0. rewrite N0 in G. cbn [negb] in G. rewrite andb_true_r in G. exists t, d. split; auto. split; [exists c, rd; auto|]. split; auto. rewrite G. discriminate. }
  destruct (_ || _); [|apply K].
  destruct (sm_find (s_cache s) rel) as [e|] eqn:F.
  2: { destruct (_ || _); [|apply K]. intros X. inj X. split; auto. left. auto. }
  assert (right rel (f_path e) /\ snap H e) as [RE SE]. { destruct S as (_ & _ & C). eapply C. eapply find_in. eauto. }
  destruct (s_caching s =? 0) eqn:C0.
  { apply Z.eqb_eq in C0. destruct (df_update date d _) as [[ok1 f1] tr1] eqn:U. pose proof (update_ok _ _ _ _ _ U) as UO. intros X. inj X. split; auto.
    destruct ok1; [|right; left; auto]. destruct UO as (c & t & rd & D & ->). cbn [f_path f_content f_mime] in *. right. right. eexists. split; [reflexivity|]. cbn [f_path]. split; auto. split; [|split; intros; lia].
    intros _. exists c, t, rd. auto. }
  apply Z.eqb_neq in C0.
  match goal with |- (match ?T with (_, _) => _ end) = _ -> _ => destruct T as [[ok1 e1] tr1] eqn:X end.
  intros Y. inj Y.
  assert ((ok1 = false /\ e1 = e) \/ (ok1 = true /\ f_path e1 = f_path e /\ mem H e1 /\ (s_caching s = 1 -> looks_like d (f_time e1) e1))) as [(-> & ->)|(-> & P & M & L)].
  { destruct (f_time e =? 0) eqn:T0.
    - destruct (df_update date d e) as [[ok2 e2] tr2] eqn:U. destruct ok2; [|left; apply update_ok in U; inj X; auto].
      destruct (df_read d e2) as [[ok3 e3] tr3] eqn:E3. destruct (load _ _ _ _ _ _ _ _ AR U eq_refl E3) as (-> & P & _ & DT & M & L). inj X. right. split; auto. split; auto. split; [exists d; auto|auto].
    - destruct SE as [(_ & SE)|SE]; [apply Z.eqb_neq in T0; tauto|].
      destruct (s_caching s =? 1) eqn:C1.
      + unfold df_check in X. destruct (d (f_path e)) as [[es t|c t rd]|] eqn:D; [inj X; auto| |inj X; auto].
        destruct (_ && _) eqn:EQ in X.
        * inj X. apply andb_true_iff in EQ as [Q1 Q2]. apply Z.eqb_eq in Q1, Q2. right. split; auto. split; auto. split; auto. intros _. exists c, rd. subst t. auto.
        * destruct (df_read d _) as [[ok3 e3] tr3] eqn:E3. eapply read_all in E3 as [OK3 EE3]; cbn [f_path f_size f_time f_date f_mime] in *; eauto. rewrite OK3, EE3 in X. injection X as <- <- <-.
          assert (in_memory date d t (mkdf (f_path e) (Some (map Some c)) (zlen c) t (date t) (f_mime e))) as M. { exists c. cbn. pose proof D as D'. rewrite (AR _ _ _ _ D) in D'. auto. }
          right. split; auto. split; auto. split; [exists d; auto|]. intros _. exists c, rd. auto.
      + inj X. right. split; auto. split; auto. split; auto. apply Z.eqb_neq in C1. tauto. }
  - split; [|right; left; auto]. apply sound_cache; auto. intros k f I. apply in_set in I as [I|I]; auto. inj I. auto.
  - split.
    + apply sound_cache; auto. intros k f I. apply in_set in I as [I|I]; auto. inj I. right. rewrite P. split; auto. right. auto.
    + right. right. exists e1. split; auto. split; [rewrite P; auto|]. split; [tauto|]. destruct M as (d0 & HD0 & c2 & M1 & M2 & M3 & M4). split.
      * intros C1. exists (f_time e1). split; auto. split; auto. intros _. exists d0. split; auto. exists c2. auto.
      * intros _ _. exists (f_time e1), d0. split; auto. split; [exists c2, true; auto|]. split; auto. intros _. exists c2. auto.
Qed.
(** answers that neither say that a file did not change nor when it did *)
Definition untimed (x : wop) : Prop := match x with WMsg (MsgCode c) => c <> 304 | WMsg (MsgAddHeader n _) => n <> bs "Last-Modified" | _ => True end.
Definition refused (r : fres) : Prop := r = FThrow \/ r = FBad \/ exists ops, r = FAnswer ops /\ Forall untimed ops.
Lemma page_refused code reason title h1 before about after e1 e2 body : code <> 304 -> Forall untimed (e1 ++ e2) -> refused (page code reason title h1 before about after e1 e2 body).
Proof.
  intros C N. apply Forall_app in N as [N1 N2]. unfold page. destruct (xml_encode about) as [x|].
  - right. right. eexists. split; [reflexivity|]. repeat (apply Forall_app; split); auto; [repeat constructor; exact C|]. destruct body; repeat constructor.
  - destruct body; [right; left; auto|]. right. right. eexists. split; [reflexivity|]. repeat (apply Forall_app; split); auto. repeat constructor; exact C.
Qed.
Lemma change_refused d d' s m p data why r tr : fs_change d d' s m p data why = (r, tr) -> refused r.
Proof.
  unfold fs_change.
  assert (forall before, refused before -> refused (write_answer d' m p before)) as K.
  { intros before B. unfold write_answer. destruct (exists_ d' p); auto. destruct before as [ops|f| |]; auto. destruct (xml_encode _); [|right; left; auto]. right. right. eexists. split; [reflexivity|].
    apply Forall_app. split; [destruct B as [B|[B|(o & B & N)]]; try discriminate; inj B; auto|]. repeat constructor. cbn. lia. }
  assert (refused (FAnswer [WMsg (MsgCode 204); WMsg (MsgReason (bs "No Content"))])) as R204. { right. right. eexists. split; [reflexivity|]. repeat constructor. cbn. lia. }
  destruct (s_writable s); cbn [negb].
  2: { intros X. injection X as <- <-. apply page_refused; [lia|]. repeat constructor; discriminate. }
  destruct (str_eqb (m_method m) (bs "DELETE")).
  - destruct (exists_ d p); cbn [negb]; [destruct (exists_ d' p)|]; intros X; injection X as <- <-; auto; apply page_refused; try lia; constructor.
  - destruct (exists_ d p); [|destruct (exists_ d (branch p)); cbn [negb]]; intros X; injection X as <- <-; try (apply K; auto); apply page_refused; try lia; repeat constructor; discriminate.
Qed.
Lemma handle_sound (H : disk -> Prop) d d' s m data why r s' tr : H d -> all_readable d -> sound H s -> fs_handle two date d d' s m data why = (r, s', tr) ->
  sound H s' /\ (answers H d (s_caching s) (relative s (m_resource m)) m r \/ refused r).
Proof.
  intros HD AR S. unfold fs_handle. assert (forall why, refused (forbidden m why) /\ refused (not_found m)) as RF. { intros w. split; apply page_refused; try lia; constructor. }
  destruct (file_path two s m) as [p|] eqn:FP; [|intros X; inj X; split; auto; right; apply (RF [])].
  destruct (is_prefix (s_dir s) p); cbn [negb]; [|intros X; inj X; split; auto; right; apply RF].
  destruct (is_dir d p); [intros X; inj X; split; auto; right; apply RF|].
  apply path_right in FP; [|apply S|apply S].
  match goal with |- (match ?T with (_, _) => _ end) = _ -> _ => destruct T as [[r1 s1] tr1] eqn:X end. intros Y. inj Y.
  destruct (str_eqb (m_method m) (bs "GET") || is_head m).
  - apply (get_sound H) in X; auto. destruct X; auto.
  - destruct (_ || _ || _).
    + destruct (fs_change d d' s m p data why) as [r2 tr2] eqn:Y. inj X. split; auto. right. eapply change_refused. eauto.
    + inj X. split; auto. right. apply page_refused; try lia. constructor.
Qed.
Lemma run_sound ops : forall (H : disk -> Prop) s, Forall serves ops -> (forall n d, In (FStart n d) ops -> real_disk d) -> (forall d, seen ops d -> all_readable d) -> sound H s ->
  sound (fun d => H d \/ seen ops d) (fst (fs_run two date s ops)).
Proof.
  induction ops as [|o ops IH]; intros H s SV RD AR S; cbn [fs_run]. { apply (sound_more H); auto. }
  destruct (fs_step two date s o) as [s1 t1] eqn:ST.
  set (H1 := fun d => H d \/ match o with FOption d' _ | FStart _ d' | FRequest d' _ _ _ _ => d' = d | FStop => False end).
  assert (sound H1 s) as S0. { apply (sound_more H); auto. unfold H1. auto. }
  assert (sound H1 s1) as S1.
  { inversion SV as [|? ? SVo _]; subst. destruct o as [d o|n d| |d d' m data why]; cbn [fs_step] in ST.
    - destruct SVo.
    - destruct (fs_start date n d s) as [[ok s2] t2] eqn:X. inj ST. eapply start_sound; [| | |exact S0|exact X]; [eapply RD; left; eauto | right; auto | apply AR; left; auto].
    - inj ST. split; [apply S|]. split; [apply S|]. intros k e [].
    - destruct (fs_handle two date d d' s m data why) as [[r s2] t2] eqn:X. inj ST. eapply handle_sound; [| |exact S0|exact X]; [right; auto | apply AR; left; auto]. }
  specialize (IH H1 s1). destruct (fs_run two date s1 ops) as [s2 t2]. cbn [fst] in *. eapply sound_more; [|apply IH]; clear IH.
  - unfold H1. intros d [[I|I]|I]; auto; right; [left|right]; auto.
  - inversion SV; auto.
  - intros n d I. apply (RD n d). right. auto.
  - intros d I. apply AR. right. auto.
  - auto.
Qed.
End Cache.

(** the caching option *)
Lemma caching_gen two date l : forall s cv nv,
  s_caching s = match cv with Some n => n | None => 1 end -> s_scan s = match nv with Some n => n | None => 0 end ->
  let s' := fst (fs_run two date s (map (fun o => FOption (fst o) (snd o)) l)) in
  s_caching s' = match last_set (fun o => match o with OCache n => if (0 <=? n) && (n <=? 2) then Some n else None | _ => None end) l cv with Some n => n | None => 1 end /\
  s_scan s' = match last_set (fun o => match o with OScan n => if (0 <=? n) && (n <=? 3) then Some n else None | _ => None end) l nv with Some n => n | None => 0 end.
Proof.
  induction l as [|[d o] l IH]; intros s cv nv A B; cbn [map fs_run last_set fst snd]; [auto|].
  destruct (fs_step two date s (FOption d o)) as [s1 t1] eqn:S.
  match goal with |- context [last_set _ l ?X] => match goal with |- context [last_set _ l ?Y] => assert_fails (constr_eq X Y); specialize (IH s1 X Y) end end.
  destruct (fs_run two date s1 _) as [s2 t2]. cbn [fst] in *.
  apply IH; clear IH; destruct o as [v|v|n|n|n|b]; cbn [fs_step fs_option] in S;
    try (destruct (_ && _) in S |- * ); inversion S; subst; cbn; auto.
Qed.
Lemma caching_configured two date resource opts : s_caching (configure two date resource opts) = caching_of opts /\ s_scan (configure two date resource opts) = scan_of opts.
Proof. apply (caching_gen two date opts (fs_init resource) None None); reflexivity. Qed.
Lemma start_caching date depth d s ok s' tr : fs_start date depth d s = (ok, s', tr) -> s_caching s' = (if negb (s_scan s =? 0) && (s_caching s =? 0) && (1 <? s_scan s) then 1 else s_caching s).
Proof.
  assert (forall d s rel p ph ok s' tr, add_entry date d s rel p ph = (ok, s', tr) -> s_caching s' = s_caching s) as ADD.
  { clear. intros d s rel p ph ok s' tr. unfold add_entry. destruct ph; [intros H; inversion H; subst; auto|].
    destruct (df_update date d _) as [[ok1 e1] tr1]. destruct ok1; cbn [negb]; [|intros H; inversion H; subst; auto].
    destruct (df_read d e1) as [[ok2 e2] tr2]. intros H; inversion H; subst. destruct ok2; auto. }
  assert (forall depth d s p ok s' tr, scan_dir date depth d s p = (ok, s', tr) -> s_caching s' = s_caching s) as SCAN.
  { clear - ADD. induction depth as [|depth IH]; intros d s p ok s' tr; cbn [scan_dir]; [intros H; inversion H; subst; auto|].
    destruct (d p) as [[es t|c t r]|]; [|intros H; inversion H; subst; auto | intros H; inversion H; subst; auto].
    destruct (scan_entries date (scan_dir date depth d) d p es s) as [[ok1 s1] tr1] eqn:SC. intros H. inversion H; subst. clear H.
    revert s ok s' tr1 SC. induction es as [|n es IHe]; intros s ok s' tr1 SC; cbn [scan_entries] in SC; [inversion SC; subst; auto|].
    destruct (if is_dir d (p_append p n) then _ else _) as [[ok2 s2] tr2] eqn:X.
    assert (s_caching s2 = s_caching s) as S2.
    { destruct (is_dir d (p_append p n)); [eapply IH; eauto|]. destruct (_ <? _); [inversion X; subst; auto | eapply ADD; eauto]. }
    destruct ok2; [|inversion SC; subst; auto].
    destruct (scan_entries date _ d p es s2) as [[ok3 s3] tr3] eqn:Y. inversion SC; subst. rewrite <- S2. eapply IHe; eauto. }
  unfold fs_start. destruct (s_scan s =? 0); [intros H; inversion H; subst; auto|]. cbn [negb andb].
  set (s0 := if (s_caching s =? 0) && (1 <? s_scan s) then _ else s). assert (s_caching s0 = if (s_caching s =? 0) && (1 <? s_scan s) then 1 else s_caching s) as <-. { unfold s0. destruct (_ && _); auto. }
  clearbody s0. destruct (if is_nil (s_file s0) then _ else _) as [[ok1 s1] tr1] eqn:X.
  assert (s_caching s1 = s_caching s0) as S1. { destruct (is_nil (s_file s0)); [inversion X; subst; auto | eapply ADD; eauto]. }
  destruct ok1; cbn [negb]; [|intros H; inversion H; subst; auto]. destruct (is_nil (s_dir s1)); [intros H; inversion H; subst; auto|].
  destruct (scan_dir date depth d s1 (s_dir s1)) as [[ok2 s2] tr2] eqn:Y. intros H. inversion H; subst. rewrite <- S1. eapply SCAN; eauto.
Qed.
Lemma run_caching two date ops : forall s, Forall serves ops -> let s' := fst (fs_run two date s ops) in
  (s_caching s <> 0 -> s_caching s' = s_caching s) /\ (s_caching s = 0 -> s_scan s <= 1 -> s_caching s' = 0) /\ (s_caching s = 0 -> s_caching s' = 0 \/ s_caching s' = 1).
Proof.
  induction ops as [|o ops IH]; intros s SV; cbn [fs_run]; [cbn; auto|].
  destruct (fs_step two date s o) as [s1 t1] eqn:ST. inversion SV; subst. specialize (IH s1 H2). destruct (fs_run two date s1 ops) as [s2 t2]. cbn [fst] in *.
  assert (s_scan s1 = s_scan s /\ (s_caching s1 = s_caching s \/ (s_caching s = 0 /\ s_caching s1 = 1 /\ 1 < s_scan s))) as [N C].
  { destruct o as [d o|n d| |d d' m data why]; cbn [fs_step] in ST.
    - destruct H1.
    - destruct (fs_start date n d s) as [[ok s3] t3] eqn:X. inversion ST; subst. pose proof (start_same _ _ _ _ _ _ _ X) as SS. split; [apply SS|]. rewrite (start_caching _ _ _ _ _ _ _ X).
      destruct (negb _ && (s_caching s =? 0) && (1 <? s_scan s)) eqn:G; auto. right. apply andb_true_iff in G as [G1 G2]. apply andb_true_iff in G1 as [_ G1]. apply Z.eqb_eq in G1. apply Z.ltb_lt in G2. auto.
    - inversion ST; subst. auto.
    - destruct (fs_handle two date d d' s m data why) as [[r s3] t3] eqn:X. inversion ST; subst. apply handle_same in X as [X1 X2]. split; auto. apply X1. }
  destruct IH as (I1 & I2 & I3). rewrite N in *. destruct C as [C|(C1 & C2 & C3)]; [rewrite C in *; auto|].
  split; [lia|]. split; [lia|]. intros _. right. rewrite I1; auto. lia.
Qed.

(** C64 *)
Lemma right_stands two cwd dv fv rel p : right cwd (match dv with Some v => normalize two v | None => [] end) (match fv with Some v => v | None => [] end) rel p -> stands_for cwd dv fv rel p.
Proof.
  unfold right, stands_for. destruct rel as [|c rel].
  - intros [A B]. destruct fv as [v|]; [|tauto]. eauto.
  - intros [A B]. destruct dv as [v|]; [|tauto]. exists v. split; auto. rewrite B. rewrite (resolve_join cwd v (c :: rel)).
    + rewrite normalize_resolve. auto.
    + intros ->. apply A. auto.
Qed.
Section Top.
Variables (two : bool) (date : Z -> list Z) (cwd : list (list Z)) (resource : list Z) (opts : list (disk * fopt)) (ops : list fop).
Hypothesis EN : forall v, directory_of opts = Some v -> ends_with_name (normalize two v).
Hypothesis SV : Forall serves ops.
Hypothesis RD : forall n d, In (FStart n d) ops -> real_disk d.
Hypothesis AR : forall d, seen ops d -> all_readable d.
Notation s := (fst (fs_run two date (configure two date resource opts) ops)).
Notation dirv := (match directory_of opts with Some v => normalize two v | None => [] end).
Notation filev := (match file_of opts with Some v => v | None => [] end).
Lemma top_sound d d' m data why r s' tr : all_readable d -> fs_handle two date d d' s m data why = (r, s', tr) ->
  answers date cwd dirv filev (fun d0 => seen ops d0 \/ d0 = d) d (s_caching s) (asked resource m) m r \/ refused r.
Proof.
  intros AD X.
  destruct (configured two date resource opts) as (CD & CF & CW & CC & CR).
  assert (dir_ends two dirv) as DE. { destruct (directory_of opts) as [v|]; [|left; auto]. right. exists v. auto. }
  assert (sound date cwd dirv filev (fun _ => False) (configure two date resource opts)) as S0. { split; auto. split; auto. rewrite CC. intros k e []. }
  pose proof (run_sound two date cwd dirv filev DE ops _ _ SV RD AR S0) as S.
  apply (sound_more date cwd dirv filev _ (fun d0 => seen ops d0 \/ d0 = d)) in S; [|intros d0 [[]|]; auto].
  assert (relative s (m_resource m) = asked resource m) as <-.
  { unfold asked, relative. assert (s_resource s = resource) as ->; auto. rewrite <- CR at 2. clear - SV. revert SV. generalize (configure two date resource opts) as s0.
    induction ops as [|o l IH]; intros s0 SV; cbn [fs_run]; [auto|]. destruct (fs_step two date s0 o) as [s1 t1] eqn:ST. inversion SV; subst. specialize (IH s1 H2). destruct (fs_run two date s1 l) as [s2 t2]. cbn [fst] in *. rewrite IH.
    destruct o as [d o|n d| |d d' m data why]; cbn [fs_step] in ST.
    - destruct H1.
    - destruct (fs_start date n d s0) as [[ok s3] t3] eqn:X. inversion ST; subst. apply start_same in X. apply X.
    - inversion ST; subst. auto.
    - destruct (fs_handle two date d d' s0 m data why) as [[r s3] t3] eqn:X. inversion ST; subst. apply handle_same in X as [X _]. apply X. }
  eapply handle_sound in X; [| |exact AD|exact S]; [destruct X; auto | right; auto].
Qed.
Theorem sent d d' m data why f s' tr : all_readable d -> fs_handle two date d d' s m data why = (FSend f, s', tr) ->
  stands_for cwd (directory_of opts) (file_of opts) (asked resource m) (f_path f) /\
  (caching_of opts = 0 -> scan_of opts <= 1 -> to_read date d f) /\
  (caching_of opts <= 1 -> to_read date d f \/ exists t d0, (seen ops d0 \/ d0 = d) /\ in_memory date d0 t f /\ looks_like d t f) /\
  (caching_of opts = 1 -> exists t d0, (seen ops d0 \/ d0 = d) /\ in_memory date d0 t f /\ looks_like d t f) /\
  (caching_of opts = 2 -> exists t d0, (seen ops d0 \/ d0 = d) /\ in_memory date d0 t f).
Proof.
  intros AD X. apply top_sound in X; auto. destruct X as [[X|[X|(g & X & FD)]]|[X|[X|(o & X & _)]]]; try discriminate.
  { unfold not_found, page in X. destruct (xml_encode _); [|destruct (negb _)]; discriminate. }
  assert (g = f) as ->. { unfold choose in X. destruct (str_eqb _ _); [discriminate|]. destruct (is_head m); inversion X; auto. }
  destruct FD as (R & F0 & F1 & F2). split; [apply right_stands with two; auto|].
  destruct (run_caching two date ops (configure two date resource opts) SV) as (C1 & C2 & C3). destruct (caching_configured two date resource opts) as [E1 E2]. rewrite E1, E2 in *.
  assert (s_caching s = 1 -> exists t d0, (seen ops d0 \/ d0 = d) /\ in_memory date d0 t f /\ looks_like d t f) as G1.
  { intros E. destruct (F1 E) as (t & L & D & W). destruct (W eq_refl) as (d0 & H0 & M). exists t, d0. auto. }
  split; [intros E S; apply F0; auto|].
  split.
  - intros E. assert (0 <= caching_of opts) as NN.
    { unfold caching_of. destruct (last_set _ opts None) as [n|] eqn:L; [|lia]. clear - L.
      assert (forall l dv n, (match dv with Some x => 0 <= x | None => True end) -> last_set (fun o => match o with OCache n => if (0 <=? n) && (n <=? 2) then Some n else None | _ => None end) l dv = Some n -> 0 <= n) as K.
      { clear. induction l as [|[d o] l IH]; intros dv n A B; cbn [last_set snd] in B; [rewrite B in A; auto|]. eapply IH; [|exact B]. destruct o as [v|v|k|k|k|b]; auto. destruct ((0 <=? k) && (k <=? 2)) eqn:G; auto. apply andb_true_iff in G as [G _]. apply Z.leb_le in G. auto. }
      eapply K; [|exact L]. exact Logic.I. }
    destruct (Z.eq_dec (caching_of opts) 0) as [Z0|Z0].
    + destruct (C3 Z0) as [C|C]; [left; auto | right; auto].
    + right. apply G1. rewrite C1; auto. lia.
  - split; [intros E; apply G1; rewrite C1; lia|]. intros E. destruct F2 as (t & d0 & H0 & L & D & W); [rewrite C1; lia | rewrite C1; lia |]. exists t, d0. split; auto.
Qed.
Lemma not_found_refused m : refused (not_found m).
Proof. unfold not_found. apply page_refused; [discriminate|constructor]. Qed.
(** when the file changed, as told with its header *)
Theorem told_time d d' m data why l s' tr : all_readable d -> fs_handle two date d d' s m data why = (FAnswer l, s', tr) -> ~ Forall untimed l -> caching_of opts <= 1 ->
  exists p c t r, stands_for cwd (directory_of opts) (file_of opts) (asked resource m) p /\ d p = Some (NFile c t r)
    /\ (In (WMsg (MsgCode 304)) l -> d_get (m_headers m) (bs "If-Modified-Since") = date t) /\ forall v, In (WMsg (MsgAddHeader (bs "Last-Modified") v)) l -> v = date t.
Proof.
  intros AD X I E. apply top_sound in X; auto. destruct X as [[X|[X|(g & X & FD)]]|[X|[X|(o & X & N)]]]; try discriminate.
  { exfalso. revert I. destruct (not_found_refused m) as [RF|[RF|(o & RF & N)]]; rewrite RF in X; inversion X; subst; auto. }
  2: { inversion X; subst. tauto. }
  destruct FD as (R & F0 & F1 & F2). apply right_stands in R. exists (f_path g).
  assert ((In (WMsg (MsgCode 304)) l -> d_get (m_headers m) (bs "If-Modified-Since") = f_date g) /\ forall v, In (WMsg (MsgAddHeader (bs "Last-Modified") v)) l -> v = f_date g) as [QA QB].
  { unfold choose, headers_only in X. destruct (str_eqb (f_date g) _) eqn:Q; [apply str_eqb_eq in Q|]; [|destruct (is_head m); [|discriminate]]; injection X as ->.
    - split; [auto|]. intros v J. destruct J as [J|[J|[J|[J|[]]]]]; try discriminate. assert (v = f_date g) by congruence. auto.
    - split; intros; repeat match goal with H : In _ (_ :: _) |- _ => destruct H | H : In _ [] |- _ => destruct H end; try discriminate; congruence. }
  destruct (run_caching two date ops (configure two date resource opts) SV) as (C1 & C2 & C3). destruct (caching_configured two date resource opts) as [E1 E2]. rewrite E1, E2 in *.
  assert (s_caching s = 0 \/ s_caching s = 1) as [C|C].
  { destruct (Z.eq_dec (caching_of opts) 0) as [Z0|Z0]; [auto|]. right. rewrite C1; auto.
    assert (0 <= caching_of opts) as NN; [|lia].
    unfold caching_of. destruct (last_set _ opts None) as [n|] eqn:L; [|lia]. clear - L.
    assert (forall l dv n, (match dv with Some x => 0 <= x | None => True end) -> last_set (fun o => match o with OCache n => if (0 <=? n) && (n <=? 2) then Some n else None | _ => None end) l dv = Some n -> 0 <= n) as K.
    { clear. induction l as [|[d o] l IH]; intros dv n A B; cbn [last_set snd] in B; [rewrite B in A; auto|]. eapply IH; [|exact B]. destruct o as [v|v|k|k|k|b]; auto. destruct ((0 <=? k) && (k <=? 2)) eqn:G; auto. apply andb_true_iff in G as [G _]. apply Z.leb_le in G. auto. }
    eapply K; [|exact L]. exact Logic.I. }
  - destruct (F0 C) as (c & t & r & D & _ & _ & DT). exists c, t, r. rewrite <- DT. auto.
  - destruct (F1 C) as (t & (c & r & D & _) & DT & _). exists c, t, r. rewrite <- DT. auto.
Qed.
Theorem not_modified d d' m data why l s' tr : all_readable d -> fs_handle two date d d' s m data why = (FAnswer l, s', tr) -> In (WMsg (MsgCode 304)) l -> caching_of opts <= 1 ->
  exists p c t r, stands_for cwd (directory_of opts) (file_of opts) (asked resource m) p /\ d p = Some (NFile c t r) /\ d_get (m_headers m) (bs "If-Modified-Since") = date t.
Proof.
  intros AD X I E. destruct (told_time d d' m data why l s' tr AD X) as (p & c & t & r & A & B & C & _); auto; [|exists p, c, t, r; auto].
  intros F. rewrite Forall_forall in F. apply (F _ I). reflexivity.
Qed.
End Top.

(* ------------------------------------------------------------------ files that cannot be read *)

Lemma read_fails d f f' tr : df_read d f = (true, f', tr) -> exists c t, d (f_path f') = Some (NFile c t true).
Proof.
  unfold df_read. destruct (d (f_path f)) as [[es t|c t [|]]|] eqn:D; intros X; cbv beta iota zeta in X; [discriminate X| |discriminate X|discriminate X]. injection X as _ <- _. cbn [f_path]. eauto.
Qed.
Lemma choose_same m f g : choose m f = FSend g -> g = f.
Proof. unfold choose, headers_only. destruct (str_eqb _ _); [discriminate|]. destruct (is_head m); [discriminate|]. intros X. injection X as <-. auto. Qed.
Lemma update_content date d f ok f' tr : df_update date d f = (ok, f', tr) -> f_content f' = f_content f.
Proof. unfold df_update. destruct (d (f_path f)) as [[|]|]; intros X; injection X as <- <- <-; auto. Qed.
Lemma page_sends code reason title h1 before about after e1 e2 body f : page code reason title h1 before about after e1 e2 body <> FSend f.
Proof. unfold page. destruct (xml_encode about); [intros X; discriminate X|]. destruct body; intros X; discriminate X. Qed.
Ltac no_page H := exfalso; injection H as H _ _; revert H; apply page_sends.
Lemma from_disk_unreadable date d s m p rel f s' tr : fs_from_disk date d s m p rel = (FSend f, s', tr) ->
  (forall c t, d (f_path f) <> Some (NFile c t true)) -> f_content f = None.
Proof.
  unfold fs_from_disk. intros H N. destruct (exists_ d p); cbn [negb] in H; [|no_page H].
  destruct (df_update date d _) as [[ok1 f1] tr1] eqn:U. destruct ok1; cbn [negb] in H; [|discriminate]. apply update_content in U. cbn [f_content] in U.
  destruct (_ && _) in H.
  - destruct (df_read d f1) as [[ok2 f2] tr2] eqn:E2. destruct ok2; [|discriminate]. injection H as <- <- <-. apply read_fails in E2 as (c & t & E2). exfalso. exact (N _ _ E2).
  - injection H as H _ _. apply choose_same in H as ->. auto.
Qed.
Lemma unreadable two date s d d' m data why f s' tr : fs_handle two date d d' s m data why = (FSend f, s', tr) ->
  (forall c t, d (f_path f) <> Some (NFile c t true)) -> f_content f = None \/ exists k, In (k, f) (s_cache s) /\ f_time f <> 0.
Proof.
  unfold fs_handle. intros H N. destruct (file_path two s m) as [p|]; [|no_page H].
  destruct (is_prefix _ _); cbn [negb] in H; [|no_page H]. destruct (is_dir d p); [no_page H|].
  destruct (_ || is_head m).
  2: { destruct (_ || _); [|no_page H]. destruct (fs_change d d' s m p data why) as [r0 tr0] eqn:C. injection H as H _ _. subst r0.
       apply change_refused in C as [C|[C|(o & C & _)]]; discriminate. }
  destruct (fs_get date d s m p) as [[r1 s1] tr1] eqn:G. injection H as -> -> _. unfold fs_get in G.
  destruct (_ || _) in G; [|left; eapply from_disk_unreadable; eauto].
  destruct (sm_find (s_cache s) _) as [e|] eqn:F.
  2: { destruct (_ || _) in G; [no_page G|left; eapply from_disk_unreadable; eauto]. }
  destruct (s_caching s =? 0).
  { destruct (df_update date d _) as [[ok1 f1] tr2] eqn:U. apply update_content in U. cbn [f_content] in U. destruct ok1; [|discriminate]. injection G as G _ _. apply choose_same in G as ->. auto. }
  match type of G with (match ?T with (_, _) => _ end) = _ => destruct T as [[ok1 e1] tr2] eqn:X end.
  destruct ok1; [|discriminate]. injection G as G _ _. apply choose_same in G. subst e1.
  destruct (f_time e =? 0) eqn:T0.
  - destruct (df_update date d e) as [[ok2 e2] tr3]. destruct ok2; [|discriminate]. destruct (df_read d e2) as [[ok3 e3] tr4] eqn:E3. injection X as -> -> _.
    apply read_fails in E3 as (c & t & E3). exfalso. exact (N _ _ E3).
  - apply Z.eqb_neq in T0. right. exists (relative s (m_resource m)). destruct (s_caching s =? 1).
    + unfold df_check in X. destruct (d (f_path e)) as [[es t|c t rd]|] eqn:D; [discriminate| |discriminate]. destruct (_ && _) in X.
      * injection X as <- _. split; auto. apply find_in. auto.
      * destruct (df_read d _) as [[ok3 e3] tr4] eqn:E3. injection X as -> -> _. apply read_fails in E3 as (c' & t' & E3). exfalso. exact (N _ _ E3).
    + injection X as <- _. split; auto. apply find_in. auto.
Qed.
