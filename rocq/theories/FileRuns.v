(** Proofs about histories of a file service. *)
From Coq Require Import String ZArith List Bool Lia.
From Verif Require Import Base SMap AlgModel DictModel HttpModel MessageModel WriterModel PathModel FileModel FileSpec PathProofs FileProofs.
Import ListNotations.

Section Runs.
Variables (two : bool) (date : Z -> list Z).

Lemma run_app s a b : fs_run two date s (a ++ b) = let (s1, t1) := fs_run two date s a in let (s2, t2) := fs_run two date s1 b in (s2, t1 ++ t2).
Proof.
  revert s; induction a as [|o a IH]; intros s; cbn [app fs_run].
  - destruct (fs_run two date s b); auto.
  - destruct (fs_step two date s o) as [s1 t1]. rewrite IH. destruct (fs_run two date s1 a) as [s2 t2]. destruct (fs_run two date s2 b) as [s3 t3]. rewrite app_assoc. auto.
Qed.

(** the options *)
Definition val {A} (f : fopt -> option A) (o : fopt) (x : option A) : option A := match f o with Some y => Some y | None => x end.
Lemma configured_gen l : forall s dv fv wv,
  s_dir s = match dv with Some v => normalize two v | None => [] end -> s_file s = match fv with Some v => v | None => [] end ->
  s_writable s = match wv with Some b => b | None => false end -> s_cache s = [] ->
  let s' := fst (fs_run two date s (map (fun o => FOption (fst o) (snd o)) l)) in
  s_dir s' = match last_set (fun o => match o with ODirectory v => Some v | _ => None end) l dv with Some v => normalize two v | None => [] end /\
  s_file s' = match last_set (fun o => match o with OFile v => Some v | _ => None end) l fv with Some v => v | None => [] end /\
  s_writable s' = match last_set (fun o => match o with OWritable v => Some v | _ => None end) l wv with Some b => b | None => false end /\
  s_cache s' = [] /\ s_resource s' = s_resource s.
Proof.
  induction l as [|[d o] l IH]; intros s dv fv wv A B C D; cbn [map fs_run last_set fst snd]; [auto|].
  destruct (fs_step two date s (FOption d o)) as [s1 t1] eqn:S.
  specialize (IH s1 (val (fun o => match o with ODirectory v => Some v | _ => None end) o dv) (val (fun o => match o with OFile v => Some v | _ => None end) o fv) (val (fun o => match o with OWritable v => Some v | _ => None end) o wv)).
  destruct (fs_run two date s1 _) as [s2 t2]. cbn [fst] in *.
  assert (s_resource s1 = s_resource s) as RR; [|rewrite RR in IH; apply IH]; clear IH; unfold val;
    destruct o as [v|v|n|n|n|b]; cbn [fs_step fs_option] in S;
    try (destruct (_ && _) in S); inversion S; subst; cbn; auto.
Qed.
Lemma configured resource opts : let s := configure two date resource opts in
  s_dir s = match directory_of opts with Some v => normalize two v | None => [] end /\ s_file s = match file_of opts with Some v => v | None => [] end /\
  s_writable s = match writable_of opts with Some b => b | None => false end /\ s_cache s = [] /\ s_resource s = resource.
Proof. apply (configured_gen opts (fs_init resource) None None None); reflexivity. Qed.

(** what never changes after the options *)
Definition same_options (s s' : fserv) : Prop :=
  s_resource s' = s_resource s /\ s_dir s' = s_dir s /\ s_file s' = s_file s /\ s_writable s' = s_writable s /\ s_chunk s' = s_chunk s /\ s_scan s' = s_scan s.
Lemma same_refl s : same_options s s. Proof. repeat split. Qed.
Lemma same_trans a b c : same_options a b -> same_options b c -> same_options a c.
Proof. unfold same_options. intuition congruence. Qed.
Ltac sr := unfold with_cache; repeat split.
Lemma add_same d s rel p ph ok s' tr : add_entry date d s rel p ph = (ok, s', tr) -> same_options s s'.
Proof.
  unfold add_entry. destruct ph; [intros H; inversion H; subst; sr|].
  destruct (df_update date d _) as [[ok1 e1] tr1]. destruct ok1; cbn [negb]; [|intros H; inversion H; subst; sr].
  destruct (df_read d e1) as [[ok2 e2] tr2]. intros H; inversion H; subst. destruct ok2; sr.
Qed.
Lemma scan_same depth d : forall s p ok s' tr, scan_dir date depth d s p = (ok, s', tr) -> same_options s s'.
Proof.
  induction depth as [|depth IH]; intros s p ok s' tr; cbn [scan_dir]; [intros H; inversion H; subst; sr|].
  destruct (d p) as [[es t|c t r]|]; [|intros H; inversion H; subst; sr | intros H; inversion H; subst; sr].
  destruct (scan_entries date (scan_dir date depth d) d p es s) as [[ok1 s1] tr1] eqn:SC. intros H. inversion H; subst. clear H.
  revert s ok s' tr1 SC. induction es as [|n es IHe]; intros s ok s' tr1 SC; cbn [scan_entries] in SC; [inversion SC; subst; sr|].
  destruct (if is_dir d (p_append p n) then _ else _) as [[ok2 s2] tr2] eqn:X.
  assert (same_options s s2) as S2.
  { destruct (is_dir d (p_append p n)); [eapply IH; eauto|]. destruct (_ <? _); [inversion X; subst; sr | eapply add_same; eauto]. }
  destruct ok2; [|inversion SC; subst; auto].
  destruct (scan_entries date _ d p es s2) as [[ok3 s3] tr3] eqn:Y. inversion SC; subst. eapply same_trans; eauto.
Qed.
Lemma start_same depth d s ok s' tr : fs_start date depth d s = (ok, s', tr) -> same_options s s'.
Proof.
  unfold fs_start. destruct (s_scan s =? 0); [intros H; inversion H; subst; sr|].
  set (s0 := if (s_caching s =? 0) && (1 <? s_scan s) then _ else s). assert (same_options s s0) as S0. { unfold s0. destruct (_ && _); sr. }
  clearbody s0. destruct (if is_nil (s_file s0) then _ else _) as [[ok1 s1] tr1] eqn:X.
  assert (same_options s s1) as S1. { eapply same_trans; eauto. destruct (is_nil (s_file s0)); [inversion X; subst; sr | eapply add_same; eauto]. }
  destruct ok1; cbn [negb]; [|intros H; inversion H; subst; auto]. destruct (is_nil (s_dir s1)); [intros H; inversion H; subst; auto|].
  destruct (scan_dir date depth d s1 (s_dir s1)) as [[ok2 s2] tr2] eqn:Y. intros H. inversion H; subst. eapply same_trans; eauto. eapply scan_same; eauto.
Qed.
Lemma get_same d s m p r s' tr : fs_get date d s m p = (r, s', tr) -> same_options s s' /\ s_caching s' = s_caching s.
Proof.
  unfold fs_get. set (rel := relative s (m_resource m)).
  assert (forall r s' tr, fs_from_disk date d s m p rel = (r, s', tr) -> same_options s s' /\ s_caching s' = s_caching s) as K.
  { clear. intros r s' tr. unfold fs_from_disk. destruct (exists_ d p); cbn [negb]; [|intros H; inversion H; subst; split; [sr|auto]].
    destruct (df_update date d _) as [[ok1 f1] tr1]. destruct ok1; cbn [negb]; [|intros H; inversion H; subst; split; [sr|auto]].
    destruct (_ && _); [|intros H; inversion H; subst; split; [sr|auto]].
    destruct (df_read d f1) as [[ok2 f2] tr2]. destruct ok2; intros H; inversion H; subst; split; auto; sr. }
  destruct (_ || _); [|apply K]. destruct (sm_find (s_cache s) rel) as [e|].
  2: { destruct (_ || _); [|apply K]. intros H; inversion H; subst; split; [sr|auto]. }
  destruct (s_caching s =? 0) eqn:SC.
  { destruct (df_update date d _) as [[ok1 f1] tr1]. intros H; inversion H; subst; split; [sr|auto]. }
  match goal with |- (match ?T with (_, _) => _ end) = _ -> _ => destruct T as [[ok1 e1] tr1] end.
  intros H; inversion H; subst; split; [sr|auto].
Qed.
Lemma handle_same d d' s m data why r s' tr : fs_handle two date d d' s m data why = (r, s', tr) -> same_options s s' /\ s_caching s' = s_caching s.
Proof.
  unfold fs_handle. destruct (file_path two s m) as [p|]; [|intros H; inversion H; subst; split; [sr|auto]].
  destruct (is_prefix _ _); cbn [negb]; [|intros H; inversion H; subst; split; [sr|auto]].
  destruct (is_dir d p); [intros H; inversion H; subst; split; [sr|auto]|].
  match goal with |- (match ?T with (_, _) => _ end) = _ -> _ => destruct T as [[r1 s1] tr1] eqn:X end. intros H; inversion H; subst. clear H.
  destruct (str_eqb (m_method m) (bs "GET") || is_head m); [eapply get_same; eauto|].
  destruct (_ || _ || _); [|inversion X; subst; split; [sr|auto]].
  destruct (fs_change d d' s m p data why). inversion X; subst; split; [sr|auto].
Qed.

(** every access of a history *)
Lemma run_good cwd dir file (may : list Z -> Prop) ops : (dir <> [] -> forall p, inside cwd dir p -> may p) -> forall s, Forall serves ops ->
  (forall o, In o ops -> match o with FStart _ d => real_disk d | FRequest _ _ m _ _ => lets two dir may (relative s (m_resource m)) | _ => True end) ->
  conf cwd dir file may s -> let (s', tr) := fs_run two date s ops in
  conf cwd dir file may s' /\ touched cwd dir file may tr /\ (s_writable s = false -> forall a, In a tr -> ~ changes a) /\ same_options s s'.
Proof.
  intros DG. induction ops as [|o ops IH]; intros s SV H C; cbn [fs_run].
  - split; auto. split; [intros a []|]. split; [intros _ a [] | apply same_refl].
  - destruct (fs_step two date s o) as [s1 t1] eqn:S.
    assert (conf cwd dir file may s1 /\ touched cwd dir file may t1 /\ (s_writable s = false -> forall a, In a t1 -> ~ changes a) /\ same_options s s1) as (C1 & T1 & W1 & O1).
    { pose proof (H o (or_introl eq_refl)) as HO. inversion SV as [|? ? SVo _]; subst. destruct o as [d o|n d| |d d' m data why]; cbn [fs_step] in S.
      - destruct SVo.
      - destruct (fs_start date n d s) as [[ok s2] t2] eqn:X. inversion S; subst. destruct (start_good date cwd dir file may DG _ _ _ _ _ _ HO C X) as [A B].
        split; auto. split; [intros a I TT; apply (B a I); auto|]. split; [intros _ a I; apply (B a I)|]. eapply start_same; eauto.
      - inversion S; subst. split; [|split; [intros a []|split; [intros _ a [] | repeat split]]]. destruct C as (A & B & _). split; auto. split; auto. intros k e [].
      - destruct (fs_handle two date d d' s m data why) as [[r s2] t2] eqn:X. inversion S; subst. destruct (handle_good two date cwd dir file may _ _ _ _ _ _ _ _ _ C HO X) as (A & B & D).
        split; auto. split; auto. split; auto. eapply handle_same; eauto. }
    specialize (IH s1). destruct (fs_run two date s1 ops) as [s2 t2]. destruct IH as (C2 & T2 & W2 & O2); auto.
    + inversion SV; auto.
    + intros o' I. pose proof (H o' (or_intror I)) as HO. destruct o' as [|?| |d d' m data why]; auto. unfold relative in *. destruct O1 as [-> _]. auto.
    + split; auto. split; [intros a I; apply in_app_or in I as [I|I]; auto|]. split; [|eapply same_trans; eauto].
      intros W a I. apply in_app_or in I as [I|I]; auto. apply W2; auto. destruct O1 as (_ & _ & _ & -> & _). auto.
Qed.

(** C61 *)
Lemma accesses (B : list Z -> list Z -> Prop) cwd resource opts ops a :
  (forall v p, directory_of opts = Some v -> inside cwd (normalize two v) p -> B v p) ->
  (forall d d' m data why v, In (FRequest d d' m data why) ops -> directory_of opts = Some v -> lets two (normalize two v) (B v) (asked resource m)) ->
  (forall n d, In (FStart n d) ops -> real_disk d) -> Forall serves ops ->
  In a (snd (fs_run two date (configure two date resource opts) ops)) -> touches a ->
  (exists v, directory_of opts = Some v /\ B v (a_path a)) \/ (exists f, file_of opts = Some f /\ resolve cwd (a_path a) = resolve cwd f).
Proof.
  intros BI LT RD SV I TT. destruct (configured resource opts) as (CD & CF & CW & CC & CR).
  set (s := configure two date resource opts) in *.
  set (B' := fun p => exists v, directory_of opts = Some v /\ B v p).
  assert (conf cwd (s_dir s) (s_file s) B' s) as C. { split; auto. split; auto. rewrite CC. intros k e []. }
  pose proof (run_good cwd (s_dir s) (s_file s) B' ops) as R. destruct (directory_of opts) as [v|] eqn:DO.
  - specialize (R (fun _ p H => ex_intro _ v (conj eq_refl (BI v p eq_refl ltac:(rewrite <- CD; exact H)))) s SV).
    destruct (fs_run two date s ops) as [s' tr] eqn:RUN. cbn [snd] in I. destruct R as (_ & R & _); auto.
    { intros o IO. destruct o as [|n d| |d d' m data why]; auto; [eapply RD; eauto|].
      specialize (LT _ _ _ _ _ v IO eq_refl). unfold asked, relative in *. rewrite CR, CD. intros X Y. exists v. split; auto. }
    destruct (R a I TT) as [[N K]|[N K]]; auto. right. destruct (file_of opts) as [f|]; [|rewrite CF in N; tauto]. exists f. rewrite CF in K. auto.
  - assert (s_dir s <> [] -> forall p, inside cwd (s_dir s) p -> B' p) as X by (rewrite CD; tauto). specialize (R X s SV).
    destruct (fs_run two date s ops) as [s' tr] eqn:RUN. cbn [snd] in I. destruct R as (_ & R & _); auto.
    { intros o IO. destruct o as [|n d| |d d' m data why]; auto; [eapply RD; eauto|]. intros Y. rewrite CD in Y. tauto. }
    destruct (R a I TT) as [[N K]|[N K]]; [rewrite CD in N; tauto|]. right. destruct (file_of opts) as [f|]; [|rewrite CF in N; tauto]. exists f. rewrite CF in K. auto.
Qed.
Theorem only_beside cwd resource opts ops a :
  (forall v, directory_of opts = Some v -> ends_with_name (normalize two v)) ->
  (two = true -> (forall v, directory_of opts = Some v -> tame v) /\ forall d d' m data why, In (FRequest d d' m data why) ops -> tame (asked resource m)) ->
  (forall n d, In (FStart n d) ops -> real_disk d) -> Forall serves ops ->
  In a (snd (fs_run two date (configure two date resource opts) ops)) -> touches a ->
  (exists v, directory_of opts = Some v /\ beside cwd v (a_path a)) \/ (exists f, file_of opts = Some f /\ resolve cwd (a_path a) = resolve cwd f).
Proof.
  intros EN T.
  assert (forall v, directory_of opts = Some v -> dir_good two (normalize two v)) as DG.
  { intros v E. right. exists v. split; auto. split; auto. intros T2. apply tame_normalize. apply T; auto. }
  assert (forall v p, beside cwd (normalize two v) p -> beside cwd v p) as BN.
  { intros v p (up & n & more & rest & B1 & B2). exists up, n, more, rest. split; auto. rewrite <- B1. symmetry. apply normalize_resolve. }
  apply accesses.
  - intros v p E H. apply BN. eapply beside_inside; [apply DG; auto| |auto]. intros X. destruct (EN v E) as (l & n & Q & _). rewrite X in Q. destruct l; discriminate.
  - intros d d' m data why v I E X Y. apply BN. apply (lets_beside two cwd); auto. intros T2. destruct (T T2). eauto.
Qed.
Theorem stays_inside cwd resource opts ops a :
  (forall d d' m data why, In (FRequest d d' m data why) ops -> ~ In DOTDOT (names (asked resource m))) ->
  (forall n d, In (FStart n d) ops -> real_disk d) -> Forall serves ops ->
  In a (snd (fs_run two date (configure two date resource opts) ops)) -> touches a ->
  (exists v, directory_of opts = Some v /\ inside cwd v (a_path a)) \/ (exists f, file_of opts = Some f /\ resolve cwd (a_path a) = resolve cwd f).
Proof.
  intros N. assert (forall v p, inside cwd (normalize two v) p -> inside cwd v p) as BN. { intros v p (rest & H). exists rest. rewrite normalize_resolve in H. auto. }
  apply accesses; [intros; apply BN; auto|]. intros d d' m data why v I E X Y. apply BN. apply (lets_inside two cwd); eauto.
Qed.
(** C63 *)
Definition still (tr : list access) : Prop := forall a, In a tr -> ~ changes a.
Lemma still_app a b : still a -> still b -> still (a ++ b).
Proof. intros A B x I. apply in_app_or in I as [I|I]; auto. Qed.
Lemma still_nil : still []. Proof. intros a []. Qed.
Lemma still_cons a l : ~ changes a -> still l -> still (a :: l).
Proof. intros A B x [<-|I]; auto. Qed.
Ltac st := repeat (apply still_nil || (apply still_app; auto) || (apply still_cons; [intros [] |])); auto.
Lemma update_still d f ok f' tr : df_update date d f = (ok, f', tr) -> still tr.
Proof. unfold df_update. destruct (d _) as [[]|]; intros H; inversion H; subst; st. Qed.
Lemma read_still d f ok f' tr : df_read d f = (ok, f', tr) -> still tr.
Proof. unfold df_read. match goal with |- (match ?T with (_, _) => _ end) = _ -> _ => destruct T as [okr br] end. intros H; inversion H; subst; st. Qed.
Lemma check_still d f ok f' tr : df_check date d f = (ok, f', tr) -> still tr.
Proof.
  unfold df_check. destruct (d _) as [[]|]; [intros H; inversion H; subst; st| |intros H; inversion H; subst; st].
  destruct (_ && _); [intros H; inversion H; subst; st|]. destruct (df_read d _) as [[a b] c] eqn:X. intros H; inversion H; subst. apply read_still in X. st.
Qed.
Lemma add_still d s rel p ph ok s' tr : add_entry date d s rel p ph = (ok, s', tr) -> still tr.
Proof.
  unfold add_entry. destruct ph; [intros H; inversion H; subst; st|].
  destruct (df_update date d _) as [[ok1 e1] tr1] eqn:U. apply update_still in U. destruct ok1; cbn [negb]; [|intros H; inversion H; subst; auto].
  destruct (df_read d e1) as [[ok2 e2] tr2] eqn:R. apply read_still in R. intros H; inversion H; subst. st.
Qed.
Lemma scan_still depth d : forall s p ok s' tr, scan_dir date depth d s p = (ok, s', tr) -> still tr.
Proof.
  induction depth as [|depth IH]; intros s p ok s' tr; cbn [scan_dir]; [intros H; inversion H; subst; st|].
  destruct (d p) as [[es t|c t r]|]; [|intros H; inversion H; subst; st | intros H; inversion H; subst; st].
  destruct (scan_entries date (scan_dir date depth d) d p es s) as [[ok1 s1] tr1] eqn:SC. intros H. inversion H; subst. clear H.
  apply still_cons; [intros []|].
  revert s ok s' tr1 SC. induction es as [|n es IHe]; intros s ok s' tr1 SC; cbn [scan_entries] in SC; [inversion SC; subst; st|].
  destruct (if is_dir d (p_append p n) then _ else _) as [[ok2 s2] tr2] eqn:X.
  assert (still tr2) as S2.
  { destruct (is_dir d (p_append p n)); [eapply IH; eauto|]. destruct (_ <? _); [inversion X; subst; st | eapply add_still; eauto]. }
  destruct ok2; [|inversion SC; subst; st].
  destruct (scan_entries date _ d p es s2) as [[ok3 s3] tr3] eqn:Y. inversion SC; subst. apply IHe in Y. st.
Qed.
Lemma start_still depth d s ok s' tr : fs_start date depth d s = (ok, s', tr) -> still tr.
Proof.
  unfold fs_start. destruct (s_scan s =? 0); [intros H; inversion H; subst; st|].
  set (s0 := if (s_caching s =? 0) && (1 <? s_scan s) then _ else s).
  destruct (if is_nil (s_file s0) then _ else _) as [[ok1 s1] tr1] eqn:X.
  assert (still tr1) as S1. { destruct (is_nil (s_file s0)); [inversion X; subst; st | eapply add_still; eauto]. }
  destruct ok1; cbn [negb]; [|intros H; inversion H; subst; auto]. destruct (is_nil (s_dir s1)); [intros H; inversion H; subst; auto|].
  destruct (scan_dir date depth d s1 (s_dir s1)) as [[ok2 s2] tr2] eqn:Y. intros H. inversion H; subst. apply scan_still in Y. st.
Qed.
Lemma get_still d s m p r s' tr : fs_get date d s m p = (r, s', tr) -> still tr.
Proof.
  unfold fs_get. set (rel := relative s (m_resource m)).
  assert (forall r s' tr, fs_from_disk date d s m p rel = (r, s', tr) -> still tr) as K.
  { clear. intros r s' tr. unfold fs_from_disk. destruct (exists_ d p); cbn [negb]; [|intros H; inversion H; subst; st].
    destruct (df_update date d _) as [[ok1 f1] tr1] eqn:U. apply update_still in U. destruct ok1; cbn [negb]; [|intros H; inversion H; subst; st].
    destruct (_ && _); [|intros H; inversion H; subst; st].
    destruct (df_read d f1) as [[ok2 f2] tr2] eqn:R. apply read_still in R. destruct ok2; intros H; inversion H; subst; apply still_cons; try (intros []); st. }
  destruct (_ || _); [|apply K]. destruct (sm_find (s_cache s) rel) as [e|].
  2: { destruct (_ || _); [|apply K]. intros H; inversion H; subst; st. }
  destruct (s_caching s =? 0) eqn:SC.
  { destruct (df_update date d _) as [[ok1 f1] tr1] eqn:U. apply update_still in U. intros H; inversion H; subst; auto. }
  match goal with |- (match ?T with (_, _) => _ end) = _ -> _ => destruct T as [[ok1 e1] tr1] eqn:X end.
  intros H; inversion H; subst. clear H. destruct (f_time e =? 0).
  - destruct (df_update date d e) as [[ok2 f2] tr2] eqn:U. apply update_still in U. destruct ok2; [|inversion X; subst; auto].
    destruct (df_read d f2) as [[ok3 f3] tr3] eqn:R. apply read_still in R. inversion X; subst. st.
  - destruct (s_caching s =? 1); [eapply check_still; eauto | inversion X; subst; st].
Qed.
Lemma handle_still d d' s m data why r s' tr : s_writable s = false -> fs_handle two date d d' s m data why = (r, s', tr) -> still tr.
Proof.
  intros W. unfold fs_handle. destruct (file_path two s m) as [p|]; [|intros H; inversion H; subst; st].
  destruct (is_prefix _ _); cbn [negb]; [|intros H; inversion H; subst; st].
  destruct (is_dir d p); [intros H; inversion H; subst; st|].
  match goal with |- (match ?T with (_, _) => _ end) = _ -> _ => destruct T as [[r1 s1] tr1] eqn:X end. intros H; inversion H; subst. clear H.
  apply still_cons; [intros []|].
  destruct (str_eqb (m_method m) (bs "GET") || is_head m); [eapply get_still; eauto|].
  destruct (_ || _ || _); [|inversion X; subst; st].
  destruct (fs_change d d' s m p data why) as [r2 t2] eqn:Y. inversion X; subst. unfold fs_change in Y. rewrite W in Y. inversion Y; subst. st.
Qed.
Theorem read_only resource ops : (forall d b, In (FOption d (OWritable b)) ops -> b = false) ->
  forall a, In a (snd (fs_run two date (fs_init resource) ops)) -> ~ changes a.
Proof.
  intros N. assert (forall l s, s_writable s = false -> (forall d b, In (FOption d (OWritable b)) l -> b = false) -> still (snd (fs_run two date s l))) as G; [|apply G; auto].
  clear. induction l as [|o l IH]; intros s W N; cbn [fs_run]; [st|].
  destruct (fs_step two date s o) as [s1 t1] eqn:S.
  assert (still t1 /\ s_writable s1 = false) as [A B].
  { destruct o as [d o|n d| |d d' m data why]; cbn [fs_step] in S.
    - destruct o as [v|v|n|n|n|b]; cbn [fs_option] in S; try (destruct (_ && _) in S); inversion S; subst; cbn; (split; [|auto]); st; try (destruct (exists_ d _); st).
      apply (N d b); left; auto.
    - destruct (fs_start date n d s) as [[ok s2] t2] eqn:X. inversion S; subst. split; [eapply start_still; eauto|]. apply start_same in X as (_ & _ & _ & -> & _). auto.
    - inversion S; subst. split; [st|auto].
    - destruct (fs_handle two date d d' s m data why) as [[r s2] t2] eqn:X. inversion S; subst. split; [eapply handle_still; eauto|]. apply handle_same in X as ((_ & _ & _ & -> & _) & _). auto. }
  specialize (IH s1 B). destruct (fs_run two date s1 l) as [s2 t2]. cbn [snd] in *. apply still_app; auto. apply IH. intros d b I. apply (N d b). right; auto.
Qed.
End Runs.
