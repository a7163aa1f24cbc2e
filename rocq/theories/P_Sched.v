(** C52, C53, C54, C55, C95, C96. *)
From Coq Require Import ZArith Lia List Bool Permutation.
From Verif Require Import Base Runs Threads SchedModel SchedSpec SchedProofs.
Import ListNotations.
Local Open Scope nat_scope.

Lemma many_app : forall p a b, many p (a ++ b) = many p a + many p b.
Proof. intros. unfold many. rewrite filter_app, app_length. reflexivity. Qed.
Lemma registered_app : forall a b, registered (a ++ b) = (registered a + registered b)%Z.
Proof. intros. unfold registered. rewrite !many_app. lia. Qed.
Lemma registered_drops : forall q : list (nat * nat), registered (map (fun x => SDropped (snd x)) q) = 0%Z.
Proof. intros q. induction q as [|x q IH]; [reflexivity|]. unfold registered, many in *. simpl. exact IH. Qed.
Lemma end_events : forall one g st, e_ev (do_shut_end one g st) = (if one then map (fun x => SDropped (snd x)) (g_queue g) else []) ++ [SDown].
Proof. reflexivity. Qed.
Lemma wrap32_in : forall a b, wrap32 (wrap32 a + b)%Z = wrap32 (a + b).
Proof. intros. unfold wrap32. rewrite Zplus_mod_idemp_l. reflexivity. Qed.

(* ------------------------------------------------------------------ users *)

(** how a step changes the users, the flag and what it shows of them *)
Lemma kind_users : forall one g th i st f eff, kind one g th i st f eff ->
  (f = GAddInc /\ g_users (e_sh eff) = wrap32 (g_users g + 1) /\ registered (e_ev eff) = 1%Z)
  \/ (f = GRemove /\ g_users (e_sh eff) = wrap32 (g_users g - 1) /\ registered (e_ev eff) = (-1)%Z)
  \/ (f <> GAddInc /\ f <> GRemove /\ g_users (e_sh eff) = g_users g /\ registered (e_ev eff) = 0%Z).
Proof.
  intros one g th i st f eff K. destruct K; simpl; auto; try (right; right; repeat split; auto; discriminate).
  - right. right. repeat split; try discriminate. destruct one; [|reflexivity]. rewrite registered_app, registered_drops. reflexivity.
  - right. right. unfold do_choose. destruct (Nat.ltb _ _); repeat split; auto; discriminate.
Qed.
Lemma kind_running : forall one g th i st f eff, kind one g th i st f eff ->
  g_running (e_sh eff) = g_running g \/ g_running (e_sh eff) = true \/ (f = GShutLoop /\ (g_users g <= 0)%Z /\ g_running (e_sh eff) = false).
Proof.
  intros one g th i st f eff K. destruct K; simpl; auto; try (left; congruence). unfold do_choose. destruct (Nat.ltb _ _); auto.
Qed.
Lemma wake_inc : forall w f, good_wake w -> w f = GAddInc -> f = GAddInc.
Proof. intros w f [->|[->| ->]]; unfold same; destruct f; simpl; intros; congruence. Qed.
Lemma base_top : forall o st f r, base o st -> st = f :: r -> f = GUser.
Proof. intros o st f r B ->. inversion B; reflexivity. Qed.
Lemma kind_inc : forall one g th i st f eff o r, kind one g th i st f eff -> shape o (f :: st) -> e_stack eff = GAddInc :: r -> g_running (e_sh eff) = true.
Proof.
  intros one g th i st f eff o r K S E.
  assert (POP : call f = true -> st = GAddInc :: r -> False) by (intros C X; pose proof (base_top _ _ _ _ (shape_call _ _ _ S C) X); discriminate).
  destruct K; simpl in *; try discriminate; try (exfalso; apply POP; auto; fail); auto.
  - destruct (g_running g); [reflexivity | discriminate].
  - unfold do_choose in *. destruct (Nat.ltb _ _); simpl in *; [discriminate | exfalso; apply POP; auto].
  - destruct (shape_atwork _ _ _ S) as [_ ->]. discriminate.
  - destruct (shape_atrun _ _ _ S) as [_ ->]. discriminate.
  - destruct (shape_in _ _ S) as [[_ ->]|(k & _ & ->)]; discriminate.
  - destruct (shape_in _ _ S) as [[_ ->]|(k & _ & ->)]; [discriminate|]. injection H as <-. discriminate.
  - exfalso. injection E as -> _. repeat (destruct H as [H|H]; [discriminate|]). destruct H.
Qed.

(** C52, the count: whatever happens, the number of users is the number of registrations less the number of removals (mod 2^32). *)
Theorem C52_count : forall one n ls s tr, run (g_step one) (g_init n) ls = Some (s, tr) -> g_users (fst s) = wrap32 (registered tr).
Proof.
  intros one n. apply (run_ind (g_step one) (fun s tr => g_users (fst s) = wrap32 (registered tr))); [reflexivity|].
  intros [g th] tr l [g' th'] e U D. simpl in *. rewrite registered_app.
  destruct (g_step_inv _ _ _ _ _ _ _ D) as [(i & f & st & eff & _ & H & T & -> & -> & ->)|[(-> & -> & -> & ->)|(m & -> & -> & -> & ->)]].
  - apply top_kind in T. destruct (kind_users _ _ _ _ _ _ _ T) as [(_ & -> & ->)|[(_ & -> & ->)|(_ & _ & -> & ->)]]; rewrite U; [apply wrap32_in | apply wrap32_in | rewrite Z.add_0_r; reflexivity].
  - change (registered []) with 0%Z. rewrite Z.add_0_r. exact U.
  - change (registered []) with 0%Z. rewrite Z.add_0_r. exact U.
Qed.
Print Assumptions C52_count.

(** The claim. *)
Definition runs_while_used (one : bool) (n : nat) : Prop := forall ls s tr, run (g_step one) (g_init n) ls = Some (s, tr) -> (registered tr > 0)%Z -> g_running (fst s) = true.
(** Refuted for both schedulers: add_active_user sees the scheduler running, shutdown stops it, the user is added. *)
Theorem C52_running_refuted : forall one, ~ runs_while_used one 2.
Proof.
  intros one H.
  assert (R : exists s tr, run (g_step one) (g_init 2) [LMain; LUser 0 AStartup; LThread 0; LUser 0 AAdd; LThread 0; LMain; LUser 3 AShutdown; LThread 3; LThread 3; LThread 1; LThread 2; LThread 3; LThread 3; LThread 3; LThread 0]
    = Some (s, tr) /\ g_running (fst s) = false /\ registered tr = 1%Z) by (destruct one; (eexists; eexists; split; [vm_compute; reflexivity | split; reflexivity])).
  destruct R as (s & tr & R & E1 & E2). rewrite (H _ _ _ R) in E1; [discriminate | rewrite E2; reflexivity].
Qed.
Print Assumptions C52_running_refuted.

(** Executions in which a user is removed only if there is one, fewer than 2^32 are registered, and no shutdown finds no users while another
    thread is in add_active_user behind the test of the flag. *)
Definition orderly (s : gstate) (l : glab) : Prop :=
  match l with
  | LThread i =>
    match nth_error (snd s) i with
    | Some (GRemove :: _) => (0 < g_users (fst s))%Z
    | Some (GAddInc :: _) => (g_users (fst s) + 1 < two32)%Z
    | Some (GShutLoop :: _) => forall j st, nth_error (snd s) j <> Some (GAddInc :: st)
    | _ => True
    end
  | _ => True
  end.
(** C52 for these executions: while a user is registered the scheduler runs. Missing: the race above. *)
Theorem C52_running_partial : forall one n ls s tr, run (g_step one) (g_init n) ls = Some (s, tr) -> allowed (g_step one) orderly (g_init n) ls ->
  (registered tr > 0)%Z -> g_running (fst s) = true.
Proof.
  intros one n ls s tr R A.
  assert (G : ginv one s /\ g_users (fst s) = registered tr /\ (0 <= registered tr < two32)%Z
    /\ (forall j st, nth_error (snd s) j = Some (GAddInc :: st) -> g_running (fst s) = true) /\ ((registered tr > 0)%Z -> g_running (fst s) = true)); [|apply G].
  revert ls s tr R A. apply (allowed_run_ind (g_step one) orderly (fun s tr => ginv one s /\ g_users (fst s) = registered tr /\ (0 <= registered tr < two32)%Z
    /\ (forall j st, nth_error (snd s) j = Some (GAddInc :: st) -> g_running (fst s) = true) /\ ((registered tr > 0)%Z -> g_running (fst s) = true)) (g_init n)).
  { split; [apply ginv_init|]. split; [reflexivity|]. split; [split; [discriminate | reflexivity]|]. split; [intros [|j] st; discriminate | intros X; discriminate X]. }
  intros [g th] tr l [g' th'] e (I & U & B & IC & RU) OK D. pose proof (ginv_step _ _ _ _ _ I D) as I'. split; [exact I'|]. simpl in *. rewrite registered_app.
  destruct (g_step_inv _ _ _ _ _ _ _ D) as [(i & f & st & eff & TO & H & T & -> & -> & ->)|[(-> & -> & -> & ->)|(m & -> & -> & -> & ->)]].
  - assert (LT : f = GRemove \/ f = GAddInc \/ f = GShutLoop -> l = LThread i).
    { intros F. destruct l as [j|j a|j id|j| |m]; simpl in TO; try discriminate TO; injection TO as ->; auto; destruct F as [->|[->| ->]]; discriminate T. }
    pose proof (top_kind _ _ _ _ _ _ _ _ T) as K. pose proof (kind_wake _ _ _ _ _ _ _ K) as GW. destruct (i_shape _ _ I _ _ H) as [o S].
    assert (STOP : f = GShutLoop -> forall j st', nth_error th j <> Some (GAddInc :: st')) by (intros ->; rewrite (LT ltac:(auto)) in OK; simpl in OK; rewrite H in OK; exact OK).
    assert (Q : forall j st', nth_error (map (map (e_wake eff)) (set_nth i (e_stack eff) th) ++ e_new eff) j = Some (GAddInc :: st') -> g_running (e_sh eff) = true).
    { intros j st' E. destruct (th_cases _ _ _ _ _ _ _ H E) as [[-> E1]|[(N & st0 & E0 & E1)|(m & -> & Em)]].
      - destruct (e_stack eff) as [|h r] eqn:ES; [discriminate|]. injection E1 as E1 _. symmetry in E1. apply (wake_inc _ _ GW) in E1. subst h. eapply kind_inc; eauto.
      - destruct st0 as [|h r]; [discriminate|]. injection E1 as E1 _. symmetry in E1. apply (wake_inc _ _ GW) in E1. subst h.
        pose proof (IC _ _ E0) as RT. destruct (kind_running _ _ _ _ _ _ _ K) as [->|[E2|(F & _)]]; [assumption | assumption|]. exfalso. exact (STOP F _ _ E0).
      - destruct (kind_new _ _ _ _ _ _ _ K _ _ Em) as [k X]. discriminate. }
    destruct (kind_users _ _ _ _ _ _ _ K) as [(-> & E1 & E2)|[(-> & E1 & E2)|(N1 & N2 & E1 & E2)]]; rewrite E1, E2.
    + rewrite (LT ltac:(auto)) in OK. simpl in OK. rewrite H in OK. rewrite U in *. unfold wrap32. rewrite Z.mod_small by lia.
      split; [lia|]. split; [lia|]. split; [exact Q|]. intros _. pose proof (IC _ _ H) as RT. inversion K; subst. simpl. exact RT.
    + rewrite (LT ltac:(auto)) in OK. simpl in OK. rewrite H in OK. rewrite U in *. unfold wrap32. rewrite Z.mod_small by lia.
      split; [lia|]. split; [lia|]. split; [exact Q|]. intros P. inversion K; subst; simpl; apply RU; lia.
    + rewrite Z.add_0_r. split; [exact U|]. split; [exact B|]. split; [exact Q|]. intros P. destruct (kind_running _ _ _ _ _ _ _ K) as [->|[E3|(F & LE & _)]]; [auto | exact E3|]. lia.
  - change (registered []) with 0%Z. rewrite Z.add_0_r. repeat split; auto; try lia. intros j st E. destruct (nth_snoc _ _ _ _ E) as [E'|[_ X]]; [eauto | discriminate].
  - change (registered []) with 0%Z. rewrite Z.add_0_r. simpl. auto.
Qed.
Print Assumptions C52_running_partial.
(** A user is added, which starts the scheduler; shutdown waits until the user is removed. *)
Definition used : list glab := [LMain; LUser 0 AAdd; LThread 0; LThread 0; LThread 0; LMain; LUser 3 AShutdown; LThread 3; LThread 3].
Ltac allow := repeat (eapply al_cons; [simpl; try exact Logic.I; try lia; try discriminate | vm_compute; reflexivity|]); apply al_nil.
Example C52_case : exists s tr, run (g_step false) (g_init 2) used = Some (s, tr) /\ allowed (g_step false) orderly (g_init 2) used /\ registered tr = 1%Z.
Proof.
  eexists; eexists; split; [vm_compute; reflexivity|]. split; [|reflexivity]. unfold used. 
  repeat (eapply al_cons; [simpl; try exact Logic.I; try (unfold two32; lia); try discriminate | vm_compute; reflexivity|]); [|apply al_nil].
  intros [|[|[|[|j]]]] st; simpl; try discriminate. destruct j; discriminate.
Qed.

(* ------------------------------------------------------------------ shutdown *)

(** the calls that wait for the mutex *)
Definition needs (one : bool) (f : gframe) : bool :=
  match f with GAddInc | GRemove | GStartup _ | GShutdown | GShutWoken | GJoin => true | GPost => one | _ => false end.
(** thread [i] joins, with the mutex held, itself or a thread that waits for the mutex *)
Definition stuck (one : bool) (i : nat) (s : gstate) : Prop :=
  g_mutex (fst s) = Some i /\ exists w ws st, nth_error (snd s) i = Some (GShutJoin (w :: ws) :: st)
  /\ (w = i \/ exists h st', nth_error (snd s) w = Some (h :: st') /\ needs one h = true).
Lemma needs_wake : forall w one h, good_wake w -> needs one h = true -> w h = h.
Proof. intros w one h [->|[->| ->]]; destruct h; simpl; intros; try reflexivity; discriminate. Qed.
Lemma needs_kind : forall one g th i st f eff, kind one g th i st f eff -> needs one f = true -> g_mutex g = None.
Proof. intros one g th i st f eff K N. destruct K; simpl in N; try discriminate; auto. subst one. discriminate. Qed.
Lemma stuck_step : forall one i s l s' e, ginv one s -> stuck one i s -> g_step one s l = Some (s', e) -> stuck one i s' /\ ~ In SDown e.
Proof.
  intros one i [g th] l [g' th'] e I (M & w & ws & st & H & B) D. simpl in *.
  destruct (g_step_inv _ _ _ _ _ _ _ D) as [(j & f & r & eff & TO & Hj & T & -> & -> & ->)|[(-> & -> & -> & ->)|(m & -> & -> & -> & ->)]].
  - apply top_kind in T. pose proof (kind_wake _ _ _ _ _ _ _ T) as GW. destruct (kind_lock _ _ _ _ _ _ _ T (i_lock _ _ I _ _ Hj)) as [_ LK]. simpl in LK.
    assert (N : j <> i).
    { intros ->. rewrite H in Hj. injection Hj as <- <-. inversion T; subst. destruct B as [->|(h & st' & E & _)]; congruence. }
    assert (NW : j <> w).
    { intros ->. destruct B as [E|(h & st' & E & X)]; [exact (N E)|]. rewrite E in Hj. injection Hj as -> ->. rewrite (needs_kind _ _ _ _ _ _ _ T X) in M. discriminate. }
    split.
    + split; [apply LK; auto|]. exists w, ws, (map (e_wake eff) st). simpl. split.
      * rewrite (th_other _ _ _ _ _ (not_eq_sym N) H). simpl. do 2 f_equal. destruct GW as [->|[->| ->]]; reflexivity.
      * destruct B as [E|(h & st' & E & X)]; [auto|]. right. exists h, (map (e_wake eff) st'). split; [|exact X]. rewrite (th_other _ _ _ _ _ (not_eq_sym NW) E). simpl. rewrite (needs_wake _ _ _ GW X). reflexivity.
    + assert (HN : holds f = false).
      { destruct (holds f) eqn:HF; [|reflexivity]. exfalso. destruct (i_lock _ _ I _ _ Hj) as [_ L]. apply L in HF. simpl in HF. congruence. }
      intros X. destruct T; simpl in *; try discriminate; repeat (destruct X as [X|X]; try discriminate); try exact X. unfold do_choose in X. destruct (Nat.ltb _ _); simpl in X; destruct X as [X|[]]; discriminate.
  - split; [|intros []]. split; [exact M|]. exists w, ws, st. simpl. split; [apply nth_app_old; exact H|]. destruct B as [E|(h & st' & E & X)]; [auto|]. right. exists h, st'. split; [apply nth_app_old; exact E | exact X].
  - split; [|intros []]. split; [exact M|]. exists w, ws, st. auto.
Qed.
Lemma stuck_run : forall one i ls s s' tr, ginv one s -> stuck one i s -> run (g_step one) s ls = Some (s', tr) -> ~ In SDown tr.
Proof.
  intros one i ls s s' tr I S R. assert (G : (ginv one s' /\ stuck one i s') /\ ~ In SDown tr); [|apply G].
  revert ls s' tr R. apply (run_ind (g_step one) (fun s' tr => (ginv one s' /\ stuck one i s') /\ ~ In SDown tr)); [auto|].
  intros s0 tr l s1 e [[I0 S0] N] D. destruct (stuck_step _ _ _ _ _ _ I0 S0 D) as [S1 N1]. split; [split; [eapply ginv_step; eauto | exact S1]|].
  rewrite in_app_iff. tauto.
Qed.

(** The claim: once shutdown has begun to stop the threads, it can be completed. *)
Definition shutdown_ends (one : bool) (n : nat) : Prop := forall ls s tr, run (g_step one) (g_init n) ls = Some (s, tr) -> shutting_down tr = true ->
  exists ls' s' tr', run (g_step one) s ls' = Some (s', tr') /\ In SDown tr'.
(** a work item is being run *)
Definition item_runs : list glab := [LMain; LUser 0 AStartup; LThread 0; LUser 0 APost; LThread 0; LThread 0; LThread 1; LItem 1 0].
(** Refuted for both schedulers: shutdown joins, with the mutex held, a thread whose work item adds a user. *)
Theorem C53_shutdown_refuted : forall one, ~ shutdown_ends one 1.
Proof.
  intros one H.
  assert (R : exists s tr, run (g_step one) (g_init 1) (item_runs ++ [LUser 0 AShutdown; LThread 0; LThread 0; LUser 1 AAdd; LThread 1]) = Some (s, tr) /\ shutting_down tr = true /\ stuck one 0 s).
  { destruct one; (eexists; eexists; split; [vm_compute; reflexivity|]); (split; [reflexivity|]); (split; [reflexivity|]); exists 1, [], [GUser]; (split; [reflexivity|]); right; eexists; eexists; split; reflexivity. }
  destruct R as (s & tr & R & SD & S). destruct (H _ _ _ R SD) as (ls' & s' & tr' & R' & X). exact (stuck_run _ _ _ _ _ _ (ginv_run _ _ _ _ _ R) S R' X).
Qed.
Print Assumptions C53_shutdown_refuted.
(** The same with a work item that posts another one to the one-to-one scheduler, and with one that calls shutdown itself. *)
Example C53_post_case : exists s tr, run (g_step true) (g_init 1) (item_runs ++ [LUser 0 AShutdown; LThread 0; LThread 0; LUser 1 APost]) = Some (s, tr) /\ stuck true 0 s.
Proof. eexists; eexists; split; [vm_compute; reflexivity|]. split; [reflexivity|]. exists 1, [], [GUser]. split; [reflexivity|]. right. eexists; eexists; split; reflexivity. Qed.
Example C53_self_case : exists s tr, run (g_step true) (g_init 1) (item_runs ++ [LUser 1 AShutdown; LThread 1; LThread 1]) = Some (s, tr) /\ stuck true 1 s.
Proof. eexists; eexists; split; [vm_compute; reflexivity|]. split; [reflexivity|]. exists 1, []. eexists. split; [reflexivity|]. left. reflexivity. Qed.

(** Work items call no function that waits for the mutex. *)
Definition modest (one : bool) (s : gstate) (l : glab) : Prop :=
  match l with
  | LUser i a =>
    match nth_error (snd s) i with
    | Some (GUser :: _ :: _) => a = AReturn \/ a = AThrow \/ (a = APost /\ one = false)
    | _ => True
    end
  | _ => True
  end.
(** Fewer than 2^32 users are registered. *)
Definition few_users (s : gstate) (l : glab) : Prop :=
  match l with
  | LThread i => match nth_error (snd s) i with Some (GAddInc :: _) => (g_users (fst s) + 1 < two32)%Z | _ => True end
  | _ => True
  end.
Definition light (one : bool) (st : list gframe) : Prop :=
  match st with
  | (GWork _ | GRun _ | GUser | GEnqueue _ _) :: _ => True
  | GPost :: _ => one = false
  | [] => True
  | _ => False
  end.
Definition lights (one : bool) (s : gstate) : Prop := forall j k st, nth_error (snd s) j = Some st -> shape (Some k) st -> light one st.
Lemma light_wake : forall w one st, good_wake w -> light one (map w st) <-> light one st.
Proof. intros w one [|f st] [->|[->| ->]]; simpl; try tauto; destruct f; simpl; tauto. Qed.
Lemma lights_step : forall one s l s' e, ginv one s -> lights one s -> modest one s l -> g_step one s l = Some (s', e) -> lights one s'.
Proof.
  intros one [g th] l [g' th'] e I L OK D j k st' E S. simpl in E.
  destruct (g_step_inv _ _ _ _ _ _ _ D) as [(i & f & st & eff & TO & H & T & -> & -> & ->)|[(-> & -> & -> & ->)|(m & -> & -> & -> & ->)]].
  - pose proof (top_kind _ _ _ _ _ _ _ _ T) as K. pose proof (kind_wake _ _ _ _ _ _ _ K) as GW. destruct (i_shape _ _ I _ _ H) as [o SH].
    destruct (th_cases _ _ _ _ _ _ _ H E) as [[-> ->]|[(N & st0 & E0 & ->)|(m & -> & Em)]].
    + apply light_wake; [exact GW|].
      assert (ST : o = Some k).
      { destruct (kind_shape _ _ _ _ _ _ _ _ K SH) as [S'|[(k' & -> & -> & -> & _ & ->)|(_ & _ & _ & E2)]].
        - exact (shape_fun _ _ _ (shape_wake _ GW _ _ S') S).
        - exfalso. exact (shape_nonnil _ _ S eq_refl).
        - rewrite E2 in S. exfalso. exact (shape_nonnil _ _ S eq_refl). }
      subst o. specialize (L _ _ _ H SH).
      destruct f; simpl in L; try contradiction.
      * subst one. inversion K; subst; [discriminate|]. exact Logic.I.
      * pose proof (shape_call _ _ _ SH eq_refl) as B. inversion B; subst. inversion K; subst; exact Logic.I.
      * destruct (shape_atwork _ _ _ SH) as [_ ->]. inversion K; subst; exact Logic.I.
      * destruct (shape_atrun _ _ _ SH) as [_ ->]. inversion K; subst; exact Logic.I.
      * destruct (shape_in _ _ SH) as [[X _]|(k' & X & ->)]; [discriminate|]. destruct l as [i'|i' a|i' id|i'| |m]; try discriminate T. simpl in TO. injection TO as ->.
        simpl in OK. rewrite H in OK. destruct OK as [->|[->|[-> ->]]]; injection T as <-; exact Logic.I || reflexivity.
    + apply light_wake; [exact GW|]. destruct (i_shape _ _ I _ _ E0) as [o' S0]. pose proof (shape_fun _ _ _ (shape_wake _ GW _ _ S0) S). subst o'. exact (L _ _ _ E0 S0).
    + destruct (kind_new _ _ _ _ _ _ _ K _ _ Em) as [k' ->]. exact Logic.I.
  - destruct (nth_snoc _ _ _ _ E) as [E'|[_ ->]]; [exact (L _ _ _ E' S) | exact Logic.I].
  - exact (L _ _ _ E S).
Qed.

(** a worker goes to its end, with the services stopped *)
Definition like (g g' : gsh) : Prop := g_mutex g' = g_mutex g /\ g_down g' = g_down g /\ g_running g' = g_running g /\ g_workers g' = g_workers g.
Definition plain (l : glab) : Prop := match l with LThread _ | LUser _ AReturn => True | _ => False end.
Lemma apply_same : forall th i g st ev, apply th i (mkeff g st same [] ev) = ((g, set_nth i st th), ev).
Proof.
  intros. unfold apply. simpl. rewrite app_nil_r. do 2 f_equal. rewrite <- (map_id (set_nth i st th)) at 2. apply map_ext. intros x. apply map_same.
Qed.
Lemma one_step : forall one g th l i f st g' st' ev, thread_of l = Some i -> nth_error th i = Some (f :: st) -> top_step one g th l i f st = Some (mkeff g' st' same [] ev) ->
  g_step one (g, th) l = Some ((g', set_nth i st' th), ev).
Proof.
  intros one g th l i f st g' st' ev TO H T. destruct l as [j|j a|j id|j| |n]; simpl in TO; try discriminate; injection TO as ->; cbn [g_step]; rewrite H, T, apply_same; reflexivity.
Qed.
Lemma run_cons : forall one s l s1 e ls s2 tr, g_step one s l = Some (s1, e) -> run (g_step one) s1 ls = Some (s2, tr) -> run (g_step one) s (l :: ls) = Some (s2, e ++ tr).
Proof. intros. simpl. rewrite H, H0. reflexivity. Qed.
Definition finishes (one : bool) (s : gstate) (w : nat) : Prop := exists ls g' tr', run (g_step one) s ls = Some ((g', set_nth w [] (snd s)), tr') /\ like (fst s) g' /\ Forall plain ls.
Lemma finish_next : forall one g th l w f st g' st' ev, thread_of l = Some w -> plain l -> nth_error th w = Some (f :: st) -> top_step one g th l w f st = Some (mkeff g' st' same [] ev) -> like g g' ->
  finishes one (g', set_nth w st' th) w -> finishes one (g, th) w.
Proof.
  intros one g th l w f st g' st' ev TO P H T K (ls & g2 & tr & R & K2 & PL). exists (l :: ls), g2, (ev ++ tr). split; [|split].
  - eapply run_cons; [eapply one_step; eauto|]. simpl in R. rewrite set_nth_twice in R. exact R.
  - simpl in *. unfold like in *. intuition congruence.
  - constructor; assumption.
Qed.
Lemma like_refl : forall g, like g g.
Proof. intros. unfold like. auto. Qed.
Lemma finish_worker : forall one g th w k st, nth_error th w = Some st -> shape (Some k) st -> light one st -> g_down g = true -> g_running g = false -> finishes one (g, th) w.
Proof.
  assert (L1 : forall one g th w k, nth_error th w = Some [GWork k] -> g_down g = true -> g_running g = false -> finishes one (g, th) w).
  { intros one g th w k H D R. eapply finish_next with (l := LThread w); [reflexivity | exact Logic.I | exact H | simpl; unfold quietly; rewrite R; reflexivity | apply like_refl|].
    exists [], g, []. simpl. rewrite set_nth_twice. split; [reflexivity|]. split; [apply like_refl | constructor]. }
  assert (L2 : forall one g th w k, nth_error th w = Some [GRun k; GWork k] -> g_down g = true -> g_running g = false -> finishes one (g, th) w).
  { intros one g th w k H D R. eapply finish_next with (l := LThread w); [reflexivity | exact Logic.I | exact H | simpl; unfold quietly; rewrite D; reflexivity | apply like_refl|].
    eapply L1; auto. apply set_nth_same. apply (nth_lt _ _ _ H). }
  assert (L3 : forall one g th w k, nth_error th w = Some [GUser; GRun k; GWork k] -> g_down g = true -> g_running g = false -> finishes one (g, th) w).
  { intros one g th w k H D R. eapply finish_next with (l := LUser w AReturn); [reflexivity | exact Logic.I | exact H | simpl; reflexivity | apply like_refl|].
    eapply L2; auto. apply set_nth_same. apply (nth_lt _ _ _ H). }
  assert (L4 : forall one g th w k m p, nth_error th w = Some [GEnqueue m p; GUser; GRun k; GWork k] -> g_down g = true -> g_running g = false -> finishes one (g, th) w).
  { intros one g th w k m p H D R. destruct (Nat.eqb p (g_pools g)) eqn:EP.
    - eapply finish_next with (l := LThread w); [reflexivity | exact Logic.I | exact H | simpl; rewrite EP; reflexivity | unfold like; simpl; auto|].
      eapply L3; auto. apply set_nth_same. apply (nth_lt _ _ _ H).
    - eapply finish_next with (l := LThread w); [reflexivity | exact Logic.I | exact H | simpl; rewrite EP; reflexivity | apply like_refl|].
      eapply L3; auto. apply set_nth_same. apply (nth_lt _ _ _ H). }
  intros one g th w k st H S L D R. inversion S as [|k'|k'|o st' B|o f st' C B]; subst; eauto.
  - inversion B; subst. eauto.
  - inversion B; subst. destruct f; simpl in L; try contradiction; try discriminate; eauto.
    subst one. eapply finish_next with (l := LThread w); [reflexivity | exact Logic.I | exact H | simpl; reflexivity | apply like_refl|].
    eapply L4; auto. apply set_nth_same. apply (nth_lt _ _ _ H).
Qed.
(** shutdown joins all workers and ends *)
Definition completes (one : bool) (s : gstate) : Prop := exists ls s' tr', run (g_step one) s ls = Some (s', tr') /\ Forall plain ls /\ In SDown tr'.
Lemma join_all : forall one i st ws g th, g_down g = true -> g_running g = false -> nth_error th i = Some (GShutJoin ws :: st) ->
  (forall w, In w ws -> w <> i /\ exists sw, nth_error th w = Some sw /\ (sw = [] \/ exists k, shape (Some k) sw /\ light one sw)) -> completes one (g, th).
Proof.
  intros one i st. induction ws as [|w ws IH]; intros g th D R H W.
  - exists [LThread i]. assert (X : exists s' e, g_step one (g, th) (LThread i) = Some (s', e) /\ In SDown e).
    { cbn [g_step]. rewrite H. simpl. unfold apply. eexists; eexists; split; [reflexivity|]. simpl. rewrite in_app_iff. right. left. reflexivity. }
    destruct X as (s' & e & X & Y). exists s', (e ++ []). split; [eapply run_cons; [exact X | reflexivity]|]. split; [repeat constructor|]. rewrite app_nil_r. exact Y.
  - destruct (W w (or_introl eq_refl)) as (N & sw & E & S).
    assert (F : finishes one (g, th) w).
    { destruct S as [->|(k & S & L)]; [|eapply finish_worker; eauto]. exists [], g, []. simpl. split; [|split; [apply like_refl | constructor]]. do 3 f_equal.
      clear - E. revert w E. induction th as [|x th IH]; intros [|w] E; simpl in *; try discriminate; [congruence | f_equal; apply IH; exact E]. }
    destruct F as (ls & g1 & t1 & R1 & (K1 & K2 & K3 & K4) & P1). simpl in *.
    assert (H1 : nth_error (set_nth w [] th) i = Some (GShutJoin (w :: ws) :: st)) by (rewrite set_nth_other by exact N; exact H).
    assert (ST : g_step one (g1, set_nth w [] th) (LThread i) = Some ((g1, set_nth i (GShutJoin ws :: st) (set_nth w [] th)), [])).
    { eapply one_step; [reflexivity | exact H1|]. simpl. rewrite set_nth_same by (apply (nth_lt _ _ _ E)). reflexivity. }
    destruct (IH g1 (set_nth i (GShutJoin ws :: st) (set_nth w [] th))) as (ls2 & s2 & t2 & R2 & P2 & X2).
    + congruence.
    + congruence.
    + apply set_nth_same. rewrite set_nth_length. apply (nth_lt _ _ _ H).
    + intros v Iv. destruct (W v (or_intror Iv)) as (Nv & sv & Ev & Sv). split; [exact Nv|]. rewrite set_nth_other by congruence.
      destruct (Nat.eq_dec v w) as [->|Nw]; [exists []; split; [apply set_nth_same; apply (nth_lt _ _ _ E) | auto]|]. rewrite set_nth_other by congruence. eauto.
    + exists (ls ++ LThread i :: ls2), s2, (t1 ++ t2). split; [|split; [apply Forall_app; split; [exact P1 | constructor; [exact Logic.I | exact P2]] | apply in_app_iff; auto]].
      apply run_app. exists (g1, set_nth w [] th), t1, t2. split; [exact R1|]. split; [|reflexivity]. simpl. simpl in ST. rewrite ST, R2. reflexivity.
Qed.
Lemma holder_ends : forall one s j, ginv one s -> lights one s -> g_mutex (fst s) = Some j -> (g_down (fst s) = true \/ (g_users (fst s) <= 0)%Z) -> completes one s.
Proof.
  intros one [g th] j I L M U. simpl in *.
  assert (JN : forall g th ws st, ginv one (g, th) -> lights one (g, th) -> nth_error th j = Some (GShutJoin ws :: st) -> completes one (g, th)).
  { clear. intros g th ws st I L H. destruct (i_joins _ _ I _ _ _ H) as (D & _ & C). destruct (i_down _ _ I D) as [_ R]. simpl in *.
    eapply join_all; eauto. intros w X. specialize (C _ X). apply In_nth_error in C. destruct C as [m C]. destruct (i_work _ _ I _ _ C) as (sw & E & S). simpl in E. split.
    - intros ->. rewrite H in E. injection E as <-. destruct S as [S|[S _]]; [|discriminate]. exact (L _ _ _ H S).
    - exists sw. split; [exact E|]. destruct S as [S|[S _]]; [right; exists (svc one m); split; [exact S | exact (L _ _ _ E S)] | auto]. }
  pose proof (i_bound _ _ I j M) as B. simpl in B. destruct (nth_error th j) as [st|] eqn:H; [|apply nth_error_None in H; lia].
  pose proof (i_lock _ _ I _ _ H) as LK. simpl in LK. destruct st as [|f st]; simpl in LK; [contradiction|]. destruct LK as [_ LK]. assert (HF : holds f = true) by (apply LK; exact M).
  destruct f; try discriminate; [|eapply JN; eauto].
  pose proof (i_loop _ _ I _ _ H) as DN. simpl in DN. destruct U as [U|U]; [congruence|].
  assert (X : g_step one (g, th) (LThread j) = Some ((mkg (g_mutex g) false (g_users g) (g_workers g) true (g_queue g) (g_items g) (g_next g) (g_pools g) (g_num g), set_nth j (GShutJoin (g_workers g) :: st) th), [SStopping])).
  { eapply one_step; [reflexivity | exact H|]. simpl. unfold do_shut_loop. destruct (Z.gtb_spec (g_users g) 0); [lia | reflexivity]. }
  assert (C : completes one (mkg (g_mutex g) false (g_users g) (g_workers g) true (g_queue g) (g_items g) (g_next g) (g_pools g) (g_num g), set_nth j (GShutJoin (g_workers g) :: st) th)).
  { eapply JN; [eapply ginv_step; [exact I | exact X] | eapply lights_step; [exact I | exact L | | exact X]; exact Logic.I | apply set_nth_same; exact B]. }
  destruct C as (ls & s' & tr & R & P & Y). exists (LThread j :: ls), s', ([SStopping] ++ tr). split; [eapply run_cons; eauto|]. split; [constructor; [exact Logic.I | exact P] | apply in_app_iff; auto].
Qed.
Lemma open_app : forall a b o, open_from o (a ++ b) = open_from (open_from o a) b.
Proof. induction a as [|x a IH]; intros b o; [reflexivity|]. destruct x; simpl; apply IH. Qed.
Lemma open_drops : forall (q : list (nat * nat)) o, open_from o (map (fun x => SDropped (snd x)) q) = o.
Proof. induction q as [|x q IH]; intros o; [reflexivity | apply IH]. Qed.
Lemma open_down : forall one n ls s tr, run (g_step one) (g_init n) ls = Some (s, tr) -> shutting_down tr = true -> g_down (fst s) = true.
Proof.
  intros one n. apply (run_ind (g_step one) (fun s tr => shutting_down tr = true -> g_down (fst s) = true)); [discriminate|].
  intros [g th] tr l [g' th'] e U D. simpl in *. unfold shutting_down in *. rewrite open_app.
  destruct (g_step_inv _ _ _ _ _ _ _ D) as [(i & f & st & eff & _ & H & T & -> & -> & ->)|[(-> & -> & -> & ->)|(m & -> & -> & -> & ->)]]; [|exact U|exact U].
  apply top_kind in T. destruct T; simpl; auto.
  - rewrite open_app. discriminate.
  - unfold do_choose. destruct (Nat.ltb _ _); simpl; exact U.
Qed.
(** No wake-up is lost: shutdown waits only while there are users. *)
Definition waits_for_users (s : gstate) : Prop := forall j st, nth_error (snd s) j = Some (GShutWait :: st) -> (g_users (fst s) > 0)%Z.
Lemma kind_wait : forall one g th i st f eff o r, kind one g th i st f eff -> shape o (f :: st) -> e_stack eff = GShutWait :: r -> (g_users (e_sh eff) > 0)%Z.
Proof.
  intros one g th i st f eff o r K S E.
  assert (POP : call f = true -> st = GShutWait :: r -> False) by (intros C X; pose proof (base_top _ _ _ _ (shape_call _ _ _ S C) X); discriminate).
  destruct K; simpl in *; try discriminate; try (exfalso; apply POP; auto; fail); auto.
  - destruct (g_running g); discriminate.
  - destruct add; [discriminate | exfalso; apply POP; auto].
  - destruct add; [discriminate | exfalso; apply POP; auto].
  - unfold do_choose in *. destruct (Nat.ltb _ _); simpl in *; [discriminate | exfalso; apply POP; auto].
  - destruct (shape_atwork _ _ _ S) as [_ ->]. discriminate.
  - destruct (shape_atrun _ _ _ S) as [_ ->]. discriminate.
  - destruct (shape_in _ _ S) as [[_ ->]|(k & _ & ->)]; discriminate.
  - destruct (shape_in _ _ S) as [[_ ->]|(k & _ & ->)]; [discriminate|]. injection H as <-. discriminate.
  - exfalso. injection E as -> _. repeat (destruct H as [H|H]; [discriminate|]). destruct H.
Qed.
Lemma wake_wait : forall w f, good_wake w -> w f = GShutWait -> f = GShutWait /\ w <> wake_users.
Proof.
  intros w f G E. assert (F : f = GShutWait) by (destruct G as [->|[->| ->]]; unfold same in E; destruct f; simpl in E; congruence). split; [exact F|]. intros ->. subst f. discriminate.
Qed.
Lemma wrap32_range : forall z, (0 <= wrap32 z < two32)%Z.
Proof. intros. apply Z.mod_pos_bound. reflexivity. Qed.
Lemma waits_step : forall one s l s' e, ginv one s -> (0 <= g_users (fst s) < two32)%Z -> waits_for_users s -> few_users s l -> g_step one s l = Some (s', e) ->
  (0 <= g_users (fst s') < two32)%Z /\ waits_for_users s'.
Proof.
  intros one [g th] l [g' th'] e I B W OK D. unfold waits_for_users in *. simpl in *.
  destruct (g_step_inv _ _ _ _ _ _ _ D) as [(i & f & st & eff & TO & H & T & -> & -> & ->)|[(-> & -> & -> & ->)|(m & -> & -> & -> & ->)]].
  - assert (LT : f = GAddInc -> l = LThread i) by (intros ->; destruct l as [j|j a|j id|j| |m]; simpl in TO; try discriminate TO; injection TO as ->; auto; discriminate T).
    pose proof (top_kind _ _ _ _ _ _ _ _ T) as K. pose proof (kind_wake _ _ _ _ _ _ _ K) as GW. destruct (i_shape _ _ I _ _ H) as [o S].
    split. { destruct (kind_users _ _ _ _ _ _ _ K) as [(_ & -> & _)|[(_ & -> & _)|(_ & _ & -> & _)]]; [apply wrap32_range | apply wrap32_range | exact B]. }
    intros j st' E. destruct (th_cases _ _ _ _ _ _ _ H E) as [[-> E1]|[(N & st0 & E0 & E1)|(m & -> & Em)]].
    + destruct (e_stack eff) as [|h r] eqn:ES; [discriminate|]. injection E1 as E1 _. symmetry in E1. apply (wake_wait _ _ GW) in E1. destruct E1 as [-> _]. eapply kind_wait; eauto.
    + destruct st0 as [|h r]; [discriminate|]. injection E1 as E1 _. symmetry in E1. apply (wake_wait _ _ GW) in E1. destruct E1 as [-> NW].
      specialize (W _ _ E0). destruct (kind_users _ _ _ _ _ _ _ K) as [(-> & E1 & _)|[(-> & E1 & _)|(_ & _ & -> & _)]]; [| |exact W].
      * rewrite (LT eq_refl) in OK. simpl in OK. rewrite H in OK. rewrite E1. unfold wrap32. rewrite Z.mod_small by lia. lia.
      * inversion K; subst; try (destruct H0 as [X|[X|[X|[X|[X|[X|[]]]]]]]; discriminate). simpl in *. match goal with X : _ /\ _ \/ _ /\ _ |- _ => destruct X as [[-> X]|[-> X]]; [|contradiction] end. pose proof (wrap32_range (g_users g - 1)). lia.
    + destruct (kind_new _ _ _ _ _ _ _ K _ _ Em) as [k X]. discriminate.
  - split; [exact B|]. intros j st E. destruct (nth_snoc _ _ _ _ E) as [E'|[_ X]]; [eauto | discriminate].
  - auto.
Qed.
Lemma base_users : forall one n ls s tr, run (g_step one) (g_init n) ls = Some (s, tr) -> (0 <= g_users (fst s) < two32)%Z.
Proof. intros one n ls s tr R. rewrite (C52_count _ _ _ _ _ R). apply wrap32_range. Qed.
Definition in_shutdown (f : gframe) : bool := match f with GShutdown | GShutLoop | GShutWait | GShutWoken | GShutJoin _ => true | _ => false end.
(** C53, if work items call no function that waits for the mutex and fewer than 2^32 users are registered: whenever a thread is in
    shutdown and no user is registered, or shutdown has begun to stop the threads, some shutdown ends if all work items that
    are running return; only steps of threads and returns of user code are needed. Missing: other work items. *)
Theorem C53_shutdown_partial : forall one n ls s tr, run (g_step one) (g_init n) ls = Some (s, tr) ->
  allowed (g_step one) (fun s l => modest one s l /\ few_users s l) (g_init n) ls ->
  (shutting_down tr = true \/ g_users (fst s) = 0%Z /\ exists i f st, nth_error (snd s) i = Some (f :: st) /\ in_shutdown f = true) ->
  exists ls' s' tr', run (g_step one) s ls' = Some (s', tr') /\ Forall plain ls' /\ In SDown tr'.
Proof.
  intros one n ls s tr R A C. pose proof (open_down _ _ _ _ _ R) as OD. pose proof (base_users _ _ _ _ _ R) as BU.
  assert (G : ginv one s /\ lights one s /\ (0 <= g_users (fst s) < two32)%Z /\ waits_for_users s).
  { revert ls s tr R A C OD BU. intros ls s tr R A _ _ _. revert ls s tr R A.
    apply (allowed_run_ind (g_step one) (fun s l => modest one s l /\ few_users s l) (fun s _ => ginv one s /\ lights one s /\ (0 <= g_users (fst s) < two32)%Z /\ waits_for_users s) (g_init n)).
    - split; [apply ginv_init|]. split; [intros [|j] k st; discriminate|]. split; [split; [discriminate | reflexivity] | intros [|j] st; discriminate].
    - intros s0 _ l s1 e (I & L & B & W) [OK1 OK2] D. split; [eapply ginv_step; eauto|]. split; [eapply lights_step; eauto | eapply waits_step; eauto]. }
  destruct G as (I & L & B & W). change (completes one s). destruct (g_mutex (fst s)) as [j|] eqn:M.
  - eapply holder_ends; eauto. destruct C as [C|[C _]]; [auto | right; lia].
  - destruct C as [C|(U & i & f & st & H & F)]; [destruct (i_down _ _ I (OD C)); congruence|]. destruct s as [g th]. simpl in *.
    assert (UN : unlocked g = true) by (unfold unlocked; rewrite M; reflexivity).
    assert (GO : forall g' st', g_mutex g' = Some i -> (g_down g' = true \/ (g_users g' <= 0)%Z) -> top_step one g th (LThread i) i f st = Some (mkeff g' st' same [] []) -> completes one (g, th)).
    { intros g' st' M' U' T. pose proof (one_step _ _ _ (LThread i) _ _ _ _ _ _ eq_refl H T) as X.
      destruct (holder_ends one (g', set_nth i st' th) i) as (ls' & s' & tr' & R' & P & Y); auto; [eapply ginv_step; eauto | eapply lights_step; [exact I | exact L | | exact X]; exact Logic.I|].
      exists (LThread i :: ls'), s', ([] ++ tr'). split; [eapply run_cons; eauto|]. split; [constructor; [exact Logic.I | exact P] | exact Y]. }
    destruct f; try discriminate.
    + destruct (g_running g) eqn:RN.
      * eapply GO; [| |simpl; rewrite UN, RN; reflexivity]; simpl; [reflexivity | right; lia].
      * eapply GO; [| |simpl; rewrite UN, RN; reflexivity]; simpl; auto.
    + destruct (i_lock _ _ I _ _ H) as [_ LK]. simpl in LK. rewrite M in LK. destruct LK as [LK _]. discriminate (LK eq_refl).
    + specialize (W _ _ H). simpl in W. lia.
    + eapply GO; [| |simpl; rewrite UN; reflexivity]; simpl; [reflexivity | right; lia].
    + destruct (i_lock _ _ I _ _ H) as [_ LK]. simpl in LK. rewrite M in LK. destruct LK as [LK _]. discriminate (LK eq_refl).
Qed.
Print Assumptions C53_shutdown_partial.
(** shutdown has stopped the services while a work item runs *)
Example C53_case : exists s tr, run (g_step false) (g_init 1) (item_runs ++ [LUser 0 AShutdown; LThread 0; LThread 0; LUser 1 APost]) = Some (s, tr)
  /\ allowed (g_step false) (fun s l => modest false s l /\ few_users s l) (g_init 1) (item_runs ++ [LUser 0 AShutdown; LThread 0; LThread 0; LUser 1 APost]) /\ shutting_down tr = true.
Proof.
  eexists; eexists; split; [vm_compute; reflexivity|]. split; [|reflexivity]. unfold item_runs. simpl app.
  repeat (eapply al_cons; [simpl; auto | vm_compute; reflexivity|]). apply al_nil.
Qed.

(* ------------------------------------------------------------------ work items *)

Lemma fm_app : forall {A} (f : gev -> list A) a b, flat_map f (a ++ b) = flat_map f a ++ flat_map f b.
Proof. intros. apply flat_map_app. Qed.
Lemma drops_dropped : forall q : list (nat * nat), dropped (map (fun x => SDropped (snd x)) q) = map snd q /\ posted (map (fun x => SDropped (snd x)) q) = [] /\ ran (map (fun x => SDropped (snd x)) q) = [].
Proof. induction q as [|x q (A & B & C)]; [auto|]. unfold dropped, posted, ran in *. simpl. rewrite A, B, C. auto. Qed.
Lemma filter_out : forall (q : list (nat * nat)) k id, NoDup (map snd q) -> In (k, id) q -> Permutation (map snd q) (id :: map snd (filter (fun x => negb (Nat.eqb (snd x) id)) q)).
Proof.
  induction q as [|[k' id'] q IH]; intros k id N X; [destruct X|]. simpl in N. inversion N as [|? ? N1 N2]; subst. simpl. destruct (Nat.eqb_spec id' id) as [->|NE]; simpl.
  - apply perm_skip. assert (E : filter (fun x : nat * nat => negb (Nat.eqb (snd x) id)) q = q); [|rewrite E; apply Permutation_refl].
    clear - N1. induction q as [|y q IH]; [reflexivity|]. simpl in *. destruct (Nat.eqb_spec (snd y) id); [tauto|]. simpl. rewrite IH; tauto.
  - destruct X as [X|X]; [congruence|]. rewrite (IH _ _ N2 X). apply perm_swap.
Qed.
Lemma nodup_right : forall (a b : list nat), NoDup (a ++ b) -> NoDup b.
Proof. induction a as [|x a IH]; intros b N; [exact N|]. inversion N; auto. Qed.
Lemma nodup_left : forall (a b : list nat), NoDup (a ++ b) -> NoDup a.
Proof. induction a as [|x a IH]; intros b N; [constructor|]. inversion N as [|? ? N1 N2]; subst. constructor; [rewrite in_app_iff in N1; tauto | eauto]. Qed.
Definition accounted (s : gstate) (tr : list gev) : Prop := posted tr = seq 0 (g_items (fst s)) /\ Permutation (posted tr) (ran tr ++ dropped tr ++ map snd (g_queue (fst s))).
Lemma kind_events : forall one g th i st f eff, kind one g th i st f eff ->
  (posted (e_ev eff) = [] /\ ran (e_ev eff) = [] /\ dropped (e_ev eff) = [] /\ g_items (e_sh eff) = g_items g /\ g_queue (e_sh eff) = g_queue g)
  \/ (exists k, f = GEnqueue k (g_pools g) /\ e_ev eff = [SPosted (g_items g)] /\ g_items (e_sh eff) = S (g_items g) /\ g_queue (e_sh eff) = g_queue g ++ [(k, g_items g)])
  \/ (exists k id, f = GRun k /\ In (k, id) (g_queue g) /\ e_ev eff = [SRun id] /\ g_items (e_sh eff) = g_items g /\ g_queue (e_sh eff) = filter (fun x => negb (Nat.eqb (snd x) id)) (g_queue g))
  \/ (one = true /\ f = GShutJoin [] /\ e_ev eff = map (fun x => SDropped (snd x)) (g_queue g) ++ [SDown] /\ g_items (e_sh eff) = g_items g /\ g_queue (e_sh eff) = []).
Proof.
  intros one g th i st f eff K. destruct K; simpl; auto 8.
  - destruct one; [right; right; right; auto | left; auto].
  - left. unfold do_choose. destruct (Nat.ltb _ _); simpl; auto.
  - right. left. eauto.
  - right. right. left. eauto 8.
Qed.
Lemma accounted_run : forall one n ls s tr, run (g_step one) (g_init n) ls = Some (s, tr) -> accounted s tr /\ (one = false -> dropped tr = []).
Proof.
  intros one n. apply (run_ind (g_step one) (fun s tr => accounted s tr /\ (one = false -> dropped tr = []))); [repeat split; constructor|].
  intros [g th] tr l [g' th'] e [[P Q] O] D. simpl in *.
  destruct (g_step_inv _ _ _ _ _ _ _ D) as [(i & f & st & eff & TO & H & T & -> & -> & ->)|[(-> & -> & -> & ->)|(m & -> & -> & -> & ->)]];
    [|rewrite app_nil_r; repeat split; auto | rewrite app_nil_r; repeat split; auto].
  apply top_kind in T. unfold accounted in *. unfold posted, ran, dropped in *. rewrite !fm_app. simpl in *. fold (posted tr) (ran tr) (dropped tr) in *.
  fold (posted (e_ev eff)) (ran (e_ev eff)) (dropped (e_ev eff)).
  destruct (kind_events _ _ _ _ _ _ _ T) as [(-> & -> & -> & -> & ->)|[(k & _ & -> & -> & ->)|[(k & id & _ & X & -> & -> & ->)|(-> & _ & -> & -> & ->)]]].
  - rewrite !app_nil_r. auto.
  - simpl. rewrite !app_nil_r, map_app. change (0 :: seq 1 (g_items g)) with (seq 0 (S (g_items g))). rewrite (seq_S (g_items g) 0). simpl. split; [split|]; [rewrite P; reflexivity| |exact O]. rewrite !app_assoc. apply Permutation_app_tail. rewrite <- app_assoc. exact Q.
  - simpl. rewrite !app_nil_r. split; [split; [exact P|]|exact O]. assert (N : NoDup (map snd (g_queue g))).
    { assert (N : NoDup (posted tr)) by (rewrite P; apply seq_NoDup). apply (Permutation_NoDup Q) in N. apply nodup_right in N. apply nodup_right in N. exact N. }
    rewrite Q. rewrite (filter_out _ _ _ N X). rewrite <- app_assoc. apply Permutation_app_head. simpl. symmetry. apply Permutation_middle.
  - unfold posted, ran, dropped. rewrite !fm_app. fold (posted (map (fun x : nat * nat => SDropped (snd x)) (g_queue g))) (ran (map (fun x : nat * nat => SDropped (snd x)) (g_queue g))) (dropped (map (fun x : nat * nat => SDropped (snd x)) (g_queue g))).
    destruct (drops_dropped (g_queue g)) as (-> & -> & ->). simpl. rewrite !app_nil_r. split; [split; [exact P | exact Q]|]. discriminate.
Qed.
(** C54, first part: no work item is run twice, or run and destroyed; no item that was not posted is run; an item that
    was neither run nor destroyed is still queued; only the one-to-one scheduler destroys items without running them. *)
Theorem C54_once : forall one n ls s tr, run (g_step one) (g_init n) ls = Some (s, tr) ->
  NoDup (posted tr) /\ NoDup (ran tr ++ dropped tr) /\ (forall id, In id (ran tr) \/ In id (dropped tr) -> In id (posted tr))
  /\ (forall id, In id (posted tr) -> In id (ran tr) \/ In id (dropped tr) \/ exists k, In (k, id) (g_queue (fst s))) /\ (one = false -> dropped tr = []).
Proof.
  intros one n ls s tr R. destruct (accounted_run _ _ _ _ _ R) as [[P Q] O].
  assert (N : NoDup (posted tr)) by (rewrite P; apply seq_NoDup). split; [exact N|]. split; [|split; [|split; [|exact O]]].
  - apply (Permutation_NoDup Q) in N. rewrite app_assoc in N. apply nodup_left in N. exact N.
  - intros id X. apply (Permutation_in id (Permutation_sym Q)). rewrite !in_app_iff. tauto.
  - intros id X. apply (Permutation_in id Q) in X. rewrite !in_app_iff in X. destruct X as [X|[X|X]]; auto. apply in_map_iff in X. destruct X as ([k i] & <- & X). simpl. eauto.
Qed.
Print Assumptions C54_once.

Definition keeps_num (l : glab) : Prop := match l with LNum _ => False | _ => True end.
Definition in_range (one : bool) (n k : nat) : Prop := if one then k < n else k = 0.
(** the services have their threads *)
Record manned (one : bool) (n : nat) (s : gstate) : Prop := mkmanned {
  m_num : g_num (fst s) = n;
  m_workers : g_running (fst s) = true -> length (g_workers (fst s)) = n;
  m_queue : forall k id, In (k, id) (g_queue (fst s)) -> in_range one n k;
  m_enq : forall j k p st, nth_error (snd s) j = Some (GEnqueue k p :: st) -> in_range one n k
}.
Lemma kind_num : forall one g th i st f eff, kind one g th i st f eff -> g_num (e_sh eff) = g_num g.
Proof. intros one g th i st f eff K. destruct K; try reflexivity. unfold do_choose. destruct (Nat.ltb _ _); reflexivity. Qed.
Lemma kind_enq : forall one g th i st f eff o k p r, kind one g th i st f eff -> shape o (f :: st) -> e_stack eff = GEnqueue k p :: r -> in_range one (g_num g) k.
Proof.
  intros one g th i st f eff o k p r K S E.
  assert (POP : call f = true -> st = GEnqueue k p :: r -> False) by (intros C X; pose proof (base_top _ _ _ _ (shape_call _ _ _ S C) X); discriminate).
  destruct K; simpl in *; try discriminate; try (exfalso; apply POP; auto; fail); auto.
  - destruct (g_running g); discriminate.
  - destruct add; [discriminate | exfalso; apply POP; auto].
  - destruct add; [discriminate | exfalso; apply POP; auto].
  - unfold do_choose in *. destruct (Nat.ltb _ _) eqn:L; simpl in *; [|exfalso; apply POP; auto]. injection E as <- _ _. subst one. simpl. apply Nat.ltb_lt. exact L.
  - injection E as <- _ _. subst one. reflexivity.
  - destruct (shape_atwork _ _ _ S) as [_ ->]. discriminate.
  - destruct (shape_atrun _ _ _ S) as [_ ->]. discriminate.
  - destruct (shape_in _ _ S) as [[_ ->]|(k' & _ & ->)]; discriminate.
  - destruct (shape_in _ _ S) as [[_ ->]|(k' & _ & ->)]; [discriminate|]. injection H as <-. discriminate.
  - exfalso. injection E as -> _. repeat (destruct H as [H|H]; [discriminate|]). destruct H.
Qed.
Lemma wake_enq : forall w f k p, good_wake w -> w f = GEnqueue k p -> f = GEnqueue k p.
Proof. intros w f k p [->|[->| ->]]; unfold same; destruct f; simpl; intros; congruence. Qed.
Lemma manned_step : forall one n s l s' e, ginv one s -> manned one n s -> keeps_num l -> g_step one s l = Some (s', e) -> manned one n s'.
Proof.
  intros one n [g th] l [g' th'] e I [M1 M2 M3 M4] OK D. simpl in *.
  destruct (g_step_inv _ _ _ _ _ _ _ D) as [(i & f & st & eff & TO & H & T & -> & -> & ->)|[(-> & -> & -> & ->)|(m & -> & -> & -> & ->)]]; [| |destruct OK].
  - apply top_kind in T. pose proof (kind_wake _ _ _ _ _ _ _ T) as GW. destruct (i_shape _ _ I _ _ H) as [o S].
    constructor; simpl.
    + rewrite (kind_num _ _ _ _ _ _ _ T). exact M1.
    + destruct T; simpl in *; auto; try discriminate.
      * intros _. destruct (i_idle _ _ I H1) as [X|X]; simpl in X; [destruct (i_down _ _ I X) as [Y _]; simpl in Y; contradiction|]. rewrite X. simpl. rewrite seq_length. exact M1.
      * destruct (i_joins _ _ I _ _ _ H) as (X & _). destruct (i_down _ _ I X) as [_ Y]. simpl in Y. intros Z. congruence.
      * unfold do_choose. destruct (Nat.ltb _ _); simpl; auto.
    + intros k id X. destruct (kind_events _ _ _ _ _ _ _ T) as [(_ & _ & _ & _ & E)|[(k' & -> & _ & _ & E)|[(k' & id' & _ & _ & _ & _ & E)|(_ & _ & _ & _ & E)]]]; rewrite E in X.
      * eauto.
      * apply in_app_iff in X. destruct X as [X|[X|[]]]; [eauto|]. injection X as <- _. eauto.
      * apply filter_In in X. destruct X as [X _]. eauto.
      * destruct X.
    + intros j k p st' E. destruct (th_cases _ _ _ _ _ _ _ H E) as [[-> E1]|[(N & st0 & E0 & E1)|(m & -> & Em)]].
      * destruct (e_stack eff) as [|h r] eqn:ES; [discriminate|]. injection E1 as E1 _. symmetry in E1. apply (wake_enq _ _ _ _ GW) in E1. subst h. rewrite <- M1. eapply kind_enq; eauto.
      * destruct st0 as [|h r]; [discriminate|]. injection E1 as E1 _. symmetry in E1. apply (wake_enq _ _ _ _ GW) in E1. subst h. eauto.
      * destruct (kind_new _ _ _ _ _ _ _ T _ _ Em) as [k' X]. discriminate.
  - constructor; simpl; auto. intros j k p st E. destruct (nth_snoc _ _ _ _ E) as [E'|[_ X]]; [eauto | discriminate].
Qed.
Lemma manned_run : forall one n ls s tr, run (g_step one) (g_init n) ls = Some (s, tr) -> Forall keeps_num ls -> manned one n s.
Proof.
  intros one n ls s tr R F.
  assert (A : allowed (g_step one) (fun _ l => keeps_num l) (g_init n) ls).
  { revert R F. generalize (g_init n). revert s tr. induction ls as [|l ls IH]; intros s tr s0 R F; [apply al_nil|]. simpl in R. destruct (g_step one s0 l) as [[s1 e]|] eqn:D; [|discriminate].
    inversion F; subst. destruct (run (g_step one) s1 ls) as [[s2 t2]|] eqn:R1; [|discriminate]. eapply al_cons; eauto. }
  assert (G : ginv one s /\ manned one n s); [|apply G]. clear F. revert ls s tr R A.
  apply (allowed_run_ind (g_step one) (fun _ l => keeps_num l) (fun s _ => ginv one s /\ manned one n s) (g_init n)).
  - split; [apply ginv_init|]. constructor; simpl; try discriminate; auto; [intros k id [] | intros [|j] k p st; discriminate].
  - intros s0 _ l s1 e (I & M) OK D. split; [eapply ginv_step; eauto | eapply manned_step; eauto].
Qed.
(** item [id] is run by steps of thread [w] alone, if the item which [w] runs ends with [a] *)
Definition runs_next (one : bool) (s : gstate) (w id : nat) (a : gact) : Prop := exists ls s' tr', run (g_step one) s ls = Some (s', tr')
  /\ Forall (fun l => l = LThread w \/ l = LUser w a \/ l = LItem w id) ls /\ In id (ran tr').
Lemma next_step : forall one g th l w f st g' st' ev id a, thread_of l = Some w -> (l = LThread w \/ l = LUser w a \/ l = LItem w id) -> nth_error th w = Some (f :: st) -> top_step one g th l w f st = Some (mkeff g' st' same [] ev) ->
  runs_next one (g', set_nth w st' th) w id a -> runs_next one (g, th) w id a.
Proof.
  intros one g th l w f st g' st' ev id a TO L H T (ls & s2 & tr & R & F & X). exists (l :: ls), s2, (ev ++ tr). split; [eapply run_cons; [eapply one_step; eauto | exact R]|].
  split; [constructor; assumption|]. unfold ran. rewrite fm_app. apply in_app_iff. auto.
Qed.
(** C54, second part: while the scheduler runs, with at least one thread and a fixed number of threads, every queued item has a thread that
    will run it: unless that thread is inside a call of the scheduler made by the item it runs, it can run the queued item as
    soon as that item has returned or thrown. *)
Theorem C54_runs : forall one n ls s tr k id, n >= 1 -> run (g_step one) (g_init n) ls = Some (s, tr) -> Forall keeps_num ls ->
  g_running (fst s) = true -> In (k, id) (g_queue (fst s)) ->
  exists w, In w (g_workers (fst s)) /\ ((exists f st, nth_error (snd s) w = Some (f :: st) /\ call f = true) \/ forall a, a = AReturn \/ a = AThrow -> runs_next one s w id a).
Proof.
  intros one n ls s tr k id N R F RU Q. pose proof (ginv_run _ _ _ _ _ R) as I. pose proof (manned_run _ _ _ _ _ R F) as M. destruct s as [g th]. simpl in *.
  assert (DN : g_down g = false). { destruct (g_down g) eqn:E; [|reflexivity]. destruct (i_down _ _ I E) as [_ X]. simpl in X. congruence. }
  assert (W : exists m w, nth_error (g_workers g) m = Some w /\ svc one m = k).
  { pose proof (m_workers _ _ _ M RU) as L. pose proof (m_queue _ _ _ M _ _ Q) as B. simpl in L, B. unfold in_range in B. unfold svc.
    destruct one; [exists k | exists 0; subst k]; (destruct (nth_error (g_workers g) _) as [w|] eqn:E; [eauto | apply nth_error_None in E; lia]). }
  destruct W as (m & w & E & K). destruct (i_work _ _ I _ _ E) as (sw & H & [S|[_ X]]); simpl in *; [|congruence]. rewrite K in S.
  exists w. split; [eapply nth_error_In; eauto|].
  assert (L1 : forall th a, nth_error th w = Some [GRun k; GWork k] -> runs_next one (g, th) w id a).
  { intros th0 a H0. eexists [LItem w id]; eexists; eexists. split; [eapply run_cons; [eapply one_step; [reflexivity | exact H0|] | reflexivity]|].
    - simpl. unfold item_step. rewrite DN. simpl.
      assert (X : existsb (fun x : nat * nat => Nat.eqb (fst x) k && Nat.eqb (snd x) id) (g_queue g) = true) by (apply existsb_exists; exists (k, id); simpl; rewrite !Nat.eqb_refl; auto).
      rewrite X. reflexivity.
    - split; [constructor; [auto | constructor] | simpl; auto]. }
  assert (L2 : forall th a, nth_error th w = Some [GWork k] -> runs_next one (g, th) w id a).
  { intros th0 a H0. eapply next_step with (l := LThread w); [reflexivity | auto | exact H0 | simpl; unfold quietly; rewrite RU; reflexivity|]. apply L1. apply set_nth_same. apply (nth_lt _ _ _ H0). }
  inversion S as [|k'|k'|o st B|o f st C B]; subst.
  - right. intros a _. auto.
  - right. intros a _. auto.
  - right. inversion B; subst. intros a [->| ->].
    + eapply next_step with (l := LUser w AReturn); [reflexivity | auto | exact H | simpl; reflexivity|]. apply L1. apply set_nth_same. apply (nth_lt _ _ _ H).
    + eapply next_step with (l := LUser w AThrow); [reflexivity | auto | exact H | simpl; reflexivity|]. apply L2. apply set_nth_same. apply (nth_lt _ _ _ H).
  - left. eauto.
Qed.
Print Assumptions C54_runs.
(** the second of two items is queued while the first, which may throw, is run *)
Example C54_case : exists s tr, run (g_step true) (g_init 1) (item_runs ++ [LUser 0 APost; LThread 0; LThread 0]) = Some (s, tr) /\ g_running (fst s) = true /\ In (0, 1) (g_queue (fst s)).
Proof. eexists; eexists; split; [vm_compute; reflexivity|]. split; [reflexivity | simpl; auto]. Qed.

(** Refuted without the condition on the number of threads: after a call of set_num_threads the one-to-one scheduler queues items for a service without a thread. *)
Definition items_have_threads (one : bool) : Prop := forall n ls s tr k id, n >= 1 -> run (g_step one) (g_init n) ls = Some (s, tr) ->
  g_running (fst s) = true -> g_num (fst s) >= 1 -> In (k, id) (g_queue (fst s)) -> exists w st, nth_error (snd s) w = Some st /\ In (GWork k) st.
Theorem C54_runs_refuted : ~ items_have_threads true.
Proof.
  intros H.
  assert (R : exists s tr, run (g_step true) (g_init 1) [LMain; LUser 0 AStartup; LThread 0; LNum 2; LUser 0 APost; LThread 0; LThread 0] = Some (s, tr)
    /\ g_running (fst s) = true /\ g_num (fst s) = 2 /\ In (1, 0) (g_queue (fst s)) /\ snd s = [[GUser]; [GWork 0]]).
  { eexists; eexists; split; [vm_compute; reflexivity|]. repeat split. simpl. auto. }
  destruct R as (s & tr & R & RU & NU & Q & T). destruct (H 1 _ _ _ 1 0 (le_n 1) R RU) as (w & st & E & X); [rewrite NU; auto | exact Q|].
  rewrite T in E. destruct w as [|[|w]]; simpl in E; [| |destruct w; discriminate]; injection E as <-; simpl in X; destruct X as [X|[]]; discriminate.
Qed.
Print Assumptions C54_runs_refuted.

(* ------------------------------------------------------------------ rotation *)

Definition next_of (n k : nat) : nat := if Nat.leb n (S k) then 0 else S k.
Lemma kind_choose : forall one g th i st f eff, kind one g th i st f eff ->
  (chosen (e_ev eff) = [] /\ g_next (e_sh eff) = g_next g) \/ (g_next (e_sh eff) = next_of (g_num g) (g_next g) /\ (chosen (e_ev eff) = [g_next (e_sh eff)] \/ g_num g = 0)).
Proof.
  intros one g th i st f eff K. destruct K; simpl; auto.
  - left. destruct one; [|auto]. split; [|reflexivity]. unfold chosen. rewrite fm_app. simpl. rewrite app_nil_r. induction (g_queue g); auto.
  - right. unfold do_choose. fold (next_of (g_num g) (g_next g)). destruct (Nat.ltb_spec (next_of (g_num g) (g_next g)) (g_num g)) as [B|B]; simpl; [auto|].
    split; [reflexivity|]. right. unfold next_of in B. destruct (Nat.leb_spec (g_num g) (S (g_next g))); lia.
Qed.
Lemma next_mod : forall n k, k < n -> next_of n k = (k + 1) mod n.
Proof.
  intros n k L. unfold next_of. destruct (Nat.leb_spec n (S k)).
  - replace (k + 1) with n by lia. rewrite Nat.mod_same; lia.
  - rewrite Nat.mod_small; lia.
Qed.
Lemma next_small : forall n k, n >= 1 -> next_of n k < n.
Proof. intros n k L. unfold next_of. destruct (Nat.leb_spec n (S k)); lia. Qed.
Lemma rotation : forall one n s0 ls s tr, n >= 1 -> g_num (fst s0) = n -> run (g_step one) s0 ls = Some (s, tr) -> Forall keeps_num ls ->
  chosen tr = map (fun i => (next_of n (g_next (fst s0)) + i) mod n) (seq 0 (length (chosen tr))).
Proof.
  intros one n s0 ls s tr N NU R F. set (off := next_of n (g_next (fst s0))).
  assert (OF : off < n) by (apply next_small; exact N).
  assert (G : g_num (fst s) = n /\ next_of n (g_next (fst s)) = (off + length (chosen tr)) mod n /\ chosen tr = map (fun i => (off + i) mod n) (seq 0 (length (chosen tr)))); [|apply G].
  assert (A : allowed (g_step one) (fun _ l => keeps_num l) s0 ls).
  { clear - R F. revert s0 s tr R F. induction ls as [|l ls IH]; intros s0 s tr R F; [apply al_nil|]. simpl in R. destruct (g_step one s0 l) as [[s1 e]|] eqn:D; [|discriminate].
    inversion F; subst. destruct (run (g_step one) s1 ls) as [[s2 t2]|] eqn:R1; [|discriminate]. eapply al_cons; eauto. }
  clear F. revert ls s tr R A.
  apply (allowed_run_ind (g_step one) (fun _ l => keeps_num l) (fun s tr => g_num (fst s) = n /\ next_of n (g_next (fst s)) = (off + length (chosen tr)) mod n /\ chosen tr = map (fun i => (off + i) mod n) (seq 0 (length (chosen tr)))) s0).
  - split; [exact NU|]. split; [|reflexivity]. simpl. rewrite Nat.add_0_r, Nat.mod_small by exact OF. reflexivity.
  - intros [g th] tr l [g' th'] e (U & X & C) OK D. simpl in U, X. unfold chosen. rewrite fm_app. fold (chosen tr) (chosen e).
    destruct (g_step_inv _ _ _ _ _ _ _ D) as [(i & f & st & eff & _ & H & T & -> & -> & ->)|[(-> & -> & -> & ->)|(m & -> & -> & -> & ->)]]; [| |destruct OK].
    + apply top_kind in T. simpl. split; [rewrite (kind_num _ _ _ _ _ _ _ T); exact U|].
      destruct (kind_choose _ _ _ _ _ _ _ T) as [[-> ->]|[E [->|Z]]]; [rewrite app_nil_r; auto | |lia].
      rewrite app_length. simpl length. rewrite seq_app, map_app. simpl. rewrite <- C. rewrite U, X in E. rewrite E. split; [|reflexivity].
      rewrite next_mod by (apply Nat.mod_upper_bound; lia). rewrite Nat.add_mod_idemp_l by lia. f_equal. lia.
    + simpl. rewrite app_nil_r. auto.
Qed.
Lemma window : forall n a, n >= 1 -> Permutation (map (fun i => (a + i) mod n) (seq 0 n)) (seq 0 n).
Proof.
  intros n a N. apply NoDup_Permutation_bis.
  - assert (G : forall l, NoDup l -> (forall i, In i l -> i < n) -> NoDup (map (fun i => (a + i) mod n) l)).
    { induction l as [|i l IH]; intros ND B; [constructor|]. inversion ND as [|? ? N1 N2]; subst. constructor; [|apply IH; [exact N2 | intros; apply B; right; assumption]].
      intros X. apply in_map_iff in X. destruct X as (j & E & J). assert (i = j); [|congruence].
      pose proof (B i (or_introl eq_refl)). pose proof (B j (or_intror J)).
      pose proof (Nat.div_mod (a + i) n ltac:(lia)) as D1. pose proof (Nat.div_mod (a + j) n ltac:(lia)) as D2. rewrite E in D2.
      assert (Q : (a + i) / n = (a + j) / n); [|rewrite Q in D1; lia].
      clear - D1 D2 H H0. destruct (Nat.lt_trichotomy ((a + i) / n) ((a + j) / n)) as [L|[L|L]]; [exfalso|exact L|exfalso]; nia. }
    apply G; [apply seq_NoDup|]. intros i X. apply in_seq in X. lia.
  - rewrite map_length, seq_length. lia.
  - intros x X. apply in_map_iff in X. destruct X as (i & <- & _). apply in_seq. pose proof (Nat.mod_upper_bound (a + i) n ltac:(lia)). lia.
Qed.
Lemma map_seq_split : forall (f : nat -> nat) a w b len s, map f (seq s len) = a ++ w ++ b -> w = map f (seq (s + length a) (length w)).
Proof.
  intros f. induction a as [|x a IH]; intros w b len s E.
  - simpl in *. rewrite Nat.add_0_r. revert len s E. induction w as [|y w IW]; intros len s E; [reflexivity|]. destruct len; [discriminate|]. simpl in E. injection E as <- E. simpl. f_equal. eapply IW. exact E.
  - destruct len; [discriminate|]. simpl in E. injection E as _ E. simpl length. replace (s + S (length a)) with (S s + length a) by lia. eapply IH. exact E.
Qed.
(** C55: from any state of the one-to-one scheduler with [n] threads, as long as set_num_threads is not called, [n] consecutive choices of a service, by
    any threads, are each service exactly once; every choice is inside the pool. *)
Theorem C55_rotation : forall n0 ls0 s0 tr0 n ls s tr a w b, run (g_step true) (g_init n0) ls0 = Some (s0, tr0) -> g_num (fst s0) = n -> n >= 1 ->
  run (g_step true) s0 ls = Some (s, tr) -> Forall keeps_num ls -> chosen tr = a ++ w ++ b ->
  (length w = n -> Permutation w (seq 0 n)) /\ Forall (fun k => k < n) w.
Proof.
  intros n0 ls0 s0 tr0 n ls s tr a w b _ NU N R F C. pose proof (rotation _ _ _ _ _ _ N NU R F) as E. rewrite C in E. symmetry in E. apply map_seq_split in E. simpl in E. split.
  - intros L. rewrite E, L. eapply Permutation_trans; [|exact (window n (next_of n (g_next (fst s0)) + length a) N)].
    assert (X : forall m, map (fun i => (next_of n (g_next (fst s0)) + i) mod n) (seq m n) = map (fun i => (next_of n (g_next (fst s0)) + m + i) mod n) (seq 0 n)).
    { intros m. clear. generalize (next_of n (g_next (fst s0))). intros c. replace (seq m n) with (map (fun i => m + i) (seq 0 n)).
      - rewrite map_map. apply map_ext. intros i. f_equal. lia.
      - assert (Y : forall n k, map (fun i => m + i) (seq k n) = seq (m + k) n) by (clear; induction n as [|n IH]; intros k; [reflexivity|]; simpl; rewrite IH; f_equal; f_equal; lia).
        rewrite Y. f_equal. lia. }
    rewrite X. apply Permutation_refl.
  - rewrite E. apply Forall_map. apply Forall_forall. intros i _. apply Nat.mod_upper_bound. lia.
Qed.
Print Assumptions C55_rotation.
(** three threads: the second to fourth of four posts *)
Example C55_case : exists s tr, run (g_step true) (g_init 3) [LMain; LUser 0 APost; LThread 0; LThread 0; LMain; LUser 1 APost; LUser 0 APost; LThread 0; LThread 1; LThread 0; LUser 0 APost; LThread 0] = Some (s, tr)
  /\ chosen tr = [1] ++ [2; 0; 1] ++ [].
Proof. eexists; eexists; split; [vm_compute; reflexivity | reflexivity]. Qed.
(** Refuted for no threads: the service used is outside the pool. *)
Definition post_is_inside : Prop := forall n ls s tr, run (g_step true) (g_init n) ls = Some (s, tr) -> ~ In SBad tr.
Theorem C55_no_threads_refuted : ~ post_is_inside.
Proof.
  intros H. assert (R : exists s tr, run (g_step true) (g_init 0) [LMain; LUser 0 APost; LThread 0] = Some (s, tr) /\ In SBad tr) by (eexists; eexists; split; [vm_compute; reflexivity | simpl; auto]).
  destruct R as (s & tr & R & X). exact (H _ _ _ _ R X).
Qed.
Print Assumptions C55_no_threads_refuted.

(* ------------------------------------------------------------------ live services *)

(** The claim: with at least one thread, post uses a service that exists. *)
Definition post_uses_live (one : bool) : Prop := forall n ls s tr, n >= 1 -> run (g_step one) (g_init n) ls = Some (s, tr) -> Forall keeps_num ls -> ~ In SBad tr.
(** Refuted for the one-to-one scheduler: shutdown destroys the services between the choice of one and its use. *)
Theorem C95_live_refuted : ~ post_uses_live true.
Proof.
  intros H.
  assert (R : exists s tr, run (g_step true) (g_init 1) [LMain; LMain; LUser 0 AStartup; LThread 0; LUser 0 APost; LThread 0; LUser 1 AShutdown; LThread 1; LThread 1; LThread 2; LThread 1; LThread 1; LThread 0] = Some (s, tr) /\ In SBad tr)
    by (eexists; eexists; split; [vm_compute; reflexivity | simpl; auto 12]).
  destruct R as (s & tr & R & X). refine (H 1 _ _ _ (le_n 1) R _ X). repeat constructor.
Qed.
Print Assumptions C95_live_refuted.
(** Only work items post. *)
Definition items_post (s : gstate) (l : glab) : Prop :=
  keeps_num l /\ match l with LUser i APost => match nth_error (snd s) i with Some [GUser] => False | _ => True end | _ => True end.
Definition posting (f : gframe) : bool := match f with GPost | GEnqueue _ _ => true | _ => false end.
Definition posts_ok (one : bool) (s : gstate) : Prop := forall j f st, nth_error (snd s) j = Some (f :: st) -> posting f = true ->
  (one = true -> exists k, shape (Some k) (f :: st)) /\ forall k p, f = GEnqueue k p -> p = g_pools (fst s).
Lemma posting_wake : forall w f, good_wake w -> posting (w f) = true -> w f = f.
Proof. intros w f [->|[->| ->]]; destruct f; simpl; intros; try reflexivity; discriminate. Qed.
Lemma kind_post : forall one g th i st f eff o f' r, kind one g th i st f eff -> shape o (f :: st) -> e_stack eff = f' :: r -> posting f' = true ->
  (f = GUser /\ f' = GPost /\ r = GUser :: st) \/ (f = GPost /\ r = st /\ exists k, f' = GEnqueue k (g_pools g)).
Proof.
  intros one g th i st f eff o f' r K S E P.
  assert (POP : call f = true -> st = f' :: r -> False) by (intros C X; pose proof (base_top _ _ _ _ (shape_call _ _ _ S C) X); subst f'; discriminate).
  destruct K; simpl in *; try (injection E as <- _; discriminate); try (exfalso; apply POP; auto; fail); auto.
  - destruct (g_running g); injection E as <- _; discriminate.
  - destruct add; [injection E as <- _; discriminate | exfalso; apply POP; auto].
  - destruct add; [injection E as <- _; discriminate | exfalso; apply POP; auto].
  - unfold do_choose in *. destruct (Nat.ltb _ _) eqn:L; simpl in *; [|exfalso; apply POP; auto]. injection E as <- <-. right. eauto.
  - injection E as <- <-. right. eauto.
  - destruct (shape_atwork _ _ _ S) as [_ ->]. discriminate.
  - destruct (shape_atrun _ _ _ S) as [_ ->]. injection E as <- _. discriminate.
  - destruct (shape_in _ _ S) as [[_ ->]|(k & _ & ->)]; [discriminate|]. injection E as <- _. discriminate.
  - destruct (shape_in _ _ S) as [[_ ->]|(k & _ & ->)]; [discriminate|]. injection H as <-. injection E as <- _. discriminate.
  - injection E as <- <-. left. simpl in H. repeat (destruct H as [H|H]; [subst f; try discriminate; auto|]). destruct H.
Qed.
Lemma kind_pools : forall one g th i st f eff, kind one g th i st f eff -> g_pools (e_sh eff) = g_pools g \/ (one = true /\ f = GShutJoin []).
Proof. intros one g th i st f eff K. destruct K; simpl; auto; [destruct one; auto | unfold do_choose; destruct (Nat.ltb _ _); auto]. Qed.
Lemma unwind_head : forall st r, unwind st = Some r -> exists k r', r = GWork k :: r'.
Proof. induction st as [|x st IH]; intros r U; [discriminate|]. destruct x; simpl in U; try (apply IH; exact U). injection U as <-. eauto. Qed.
Lemma posts_step : forall one s l s' e, ginv one s -> posts_ok one s -> g_num (fst s) >= 1 -> (one = false \/ items_post s l) -> g_step one s l = Some (s', e) -> posts_ok one s' /\ ~ In SBad e.
Proof.
  intros one [g th] l [g' th'] e I P N OK D. unfold posts_ok in *. simpl in *.
  destruct (g_step_inv _ _ _ _ _ _ _ D) as [(i & f & st & eff & TO & H & T & -> & -> & ->)|[(-> & -> & -> & ->)|(m & -> & -> & -> & ->)]].
  - pose proof (top_kind _ _ _ _ _ _ _ _ T) as K. pose proof (kind_wake _ _ _ _ _ _ _ K) as GW. destruct (i_shape _ _ I _ _ H) as [o S]. split.
    + intros j f' st' E F.
      destruct (th_cases _ _ _ _ _ _ _ H E) as [[-> E1]|[(NE & st0 & E0 & E1)|(m & -> & Em)]].
      * destruct (e_stack eff) as [|h r] eqn:ES; [discriminate|]. injection E1 as -> ->. pose proof (posting_wake _ _ GW F) as WE. rewrite WE in *.
        destruct (kind_post _ _ _ _ _ _ _ _ _ _ K S ES F) as [(-> & -> & ->)|(-> & -> & k & ->)].
        -- split; [|intros k p X; discriminate]. intros ->. destruct OK as [OK|[_ OK]]; [discriminate|].
           destruct l as [i'|i' a|i' id|i'| |m]; try discriminate T. simpl in TO. injection TO as ->.
           assert (a = APost). { destruct a; simpl in T; unfold quietly in T; try (injection T as <-; simpl in ES; try discriminate ES; injection ES as ->; fail); try reflexivity.
             - injection T as <-. simpl in ES. exfalso. apply (f_equal (@length gframe)) in ES. simpl in ES. lia.
             - destruct (unwind st) as [st1|] eqn:U; [|discriminate]. injection T as <-. simpl in ES. subst st1. destruct (unwind_head _ _ U) as (k & r' & X). discriminate. }
           subst a. simpl in OK. rewrite H in OK. destruct (shape_in _ _ S) as [[_ ->]|(k & -> & ->)]; [contradiction|]. exists k.
           apply sh_call; [reflexivity|]. apply (base_wake _ GW). constructor.
        -- destruct (P _ _ _ H eq_refl) as [P1 _]. split.
           ++ intros O. destruct (P1 O) as [k' S']. exists k'. pose proof (shape_call _ _ _ S' eq_refl) as B. apply sh_call; [reflexivity|]. apply (base_wake _ GW). exact B.
           ++ intros k' p X. injection X as _ <-. destruct (kind_pools _ _ _ _ _ _ _ K) as [->|[_ X]]; [reflexivity | discriminate].
      * destruct st0 as [|h r]; [discriminate|]. injection E1 as -> ->. pose proof (posting_wake _ _ GW F) as WE. rewrite WE in *. destruct (P _ _ _ E0 F) as [P1 P2]. split.
        -- intros O. destruct (P1 O) as [k S']. exists k. apply (shape_wake _ GW) in S'. simpl in S'. rewrite WE in S'. exact S'.
        -- intros k p X. destruct (kind_pools _ _ _ _ _ _ _ K) as [->|[O Z]]; [eauto|]. exfalso. subst f. destruct (P1 O) as [k' S']. destruct (i_joins _ _ I _ _ _ H) as (_ & J & _).
           destruct (J _ (i_member _ _ I _ _ _ E0 S')) as [[]|J']. simpl in J'. congruence.
      * destruct (kind_new _ _ _ _ _ _ _ K _ _ Em) as [k X]. injection X as -> _. discriminate.
    + intros X. destruct K; simpl in X; repeat (destruct X as [X|X]; try discriminate); try exact X.
      * apply in_app_iff in X. destruct X as [X|[X|[]]]; [|discriminate]. destruct one; [|destruct X]. apply in_map_iff in X. destruct X as (y & X & _). discriminate.
      * unfold do_choose in X. destruct (Nat.ltb_spec (if Nat.leb (g_num g) (Datatypes.S (g_next g)) then 0 else Datatypes.S (g_next g)) (g_num g)) as [B|B]; simpl in X; [destruct X as [X|[]]; discriminate|].
        destruct (Nat.leb_spec (g_num g) (Datatypes.S (g_next g))); lia.
      * destruct (P _ _ _ H eq_refl) as [_ P2]. specialize (P2 _ _ eq_refl). contradiction.
  - split; [|intros []]. intros j f' st' E F. destruct (nth_snoc _ _ _ _ E) as [E'|[_ X]]; [eauto | injection X as -> _; discriminate].
  - split; [|intros []]. eauto.
Qed.
(** C95, if only work items post (one-to-one scheduler), or for the single-service scheduler: every post uses a service that exists. Missing: posts from
    other threads during shutdown of the one-to-one scheduler. *)
Theorem C95_live_partial : forall one n ls s tr, n >= 1 -> run (g_step one) (g_init n) ls = Some (s, tr) ->
  allowed (g_step one) (fun s l => keeps_num l /\ (one = false \/ items_post s l)) (g_init n) ls -> ~ In SBad tr.
Proof.
  intros one n ls s tr N R A. assert (G : (ginv one s /\ g_num (fst s) = n /\ posts_ok one s) /\ ~ In SBad tr); [|apply G].
  revert ls s tr R A. apply (allowed_run_ind (g_step one) (fun s l => keeps_num l /\ (one = false \/ items_post s l)) (fun s tr => (ginv one s /\ g_num (fst s) = n /\ posts_ok one s) /\ ~ In SBad tr) (g_init n)).
  - split; [|intros []]. split; [apply ginv_init|]. split; [reflexivity | intros [|j] f st; discriminate].
  - intros [g th] tr l [g' th'] e ((I & U & P) & X) [KN OK] D. destruct (posts_step _ _ _ _ _ I P ltac:(simpl in *; lia) OK D) as [P' X']. split; [split; [eapply ginv_step; eauto|split; [|exact P']]|rewrite in_app_iff; tauto].
    simpl in *. destruct (g_step_inv _ _ _ _ _ _ _ D) as [(i & f & st & eff & _ & H & T & -> & -> & ->)|[(-> & -> & -> & ->)|(m & -> & -> & -> & ->)]]; [|exact U|destruct KN].
    rewrite (kind_num _ _ _ _ _ _ _ (top_kind _ _ _ _ _ _ _ _ T)). exact U.
Qed.
Print Assumptions C95_live_partial.
Example C95_case : exists s tr, run (g_step false) (g_init 1) (item_runs ++ [LUser 1 APost; LThread 1; LThread 1]) = Some (s, tr)
  /\ allowed (g_step false) (fun s l => keeps_num l /\ (false = false \/ items_post s l)) (g_init 1) (item_runs ++ [LUser 1 APost; LThread 1; LThread 1]) /\ posted tr = [0; 1].
Proof.
  eexists; eexists; split; [vm_compute; reflexivity|]. split; [|reflexivity]. unfold item_runs. simpl app. repeat (eapply al_cons; [simpl; auto | vm_compute; reflexivity|]). apply al_nil.
Qed.

(* ------------------------------------------------------------------ join *)

Definition joins_ok (s : gstate) : Prop := forall j st, nth_error (snd s) j = Some (GJoinWait :: st) -> g_running (fst s) = true \/ g_down (fst s) = true.
Lemma kind_joinwait : forall one g th i st f eff o r, kind one g th i st f eff -> shape o (f :: st) -> e_stack eff = GJoinWait :: r -> g_running (e_sh eff) = true.
Proof.
  intros one g th i st f eff o r K S E.
  assert (POP : call f = true -> st = GJoinWait :: r -> False) by (intros C X; pose proof (base_top _ _ _ _ (shape_call _ _ _ S C) X); discriminate).
  destruct K; simpl in *; try discriminate; try (exfalso; apply POP; auto; fail); auto.
  - destruct (g_running g); discriminate.
  - unfold do_choose in *. destruct (Nat.ltb _ _); simpl in *; [discriminate | exfalso; apply POP; auto].
  - destruct (shape_atwork _ _ _ S) as [_ ->]. discriminate.
  - destruct (shape_atrun _ _ _ S) as [_ ->]. discriminate.
  - destruct (shape_in _ _ S) as [[_ ->]|(k & _ & ->)]; discriminate.
  - destruct (shape_in _ _ S) as [[_ ->]|(k & _ & ->)]; [discriminate|]. injection H as <-. discriminate.
  - exfalso. injection E as -> _. repeat (destruct H as [H|H]; [discriminate|]). destruct H.
Qed.
Lemma wake_joinwait : forall w f, good_wake w -> w f = GJoinWait -> f = GJoinWait /\ w <> wake_join.
Proof.
  intros w f G E. assert (F : f = GJoinWait) by (destruct G as [->|[->| ->]]; unfold same in E; destruct f; simpl in E; congruence). split; [exact F|]. intros ->. subst f. discriminate.
Qed.
Lemma kind_stops : forall one g th i st f eff, kind one g th i st f eff -> g_running g = true \/ g_down g = true ->
  g_running (e_sh eff) = true \/ g_down (e_sh eff) = true \/ e_wake eff = wake_join.
Proof. intros one g th i st f eff K [R|R]; destruct K; simpl; auto; unfold do_choose; destruct (Nat.ltb _ _); auto. Qed.
(** C96: when the scheduler does not run and no thread is inside one of its functions with the mutex held, every thread that called join, before or
    after it stopped, returns from it with its next step. *)
Theorem C96_join : forall one n ls s tr i f st, run (g_step one) (g_init n) ls = Some (s, tr) -> g_running (fst s) = false -> g_mutex (fst s) = None ->
  nth_error (snd s) i = Some (f :: st) -> f = GJoin \/ f = GJoinWait ->
  exists s', g_step one s (LThread i) = Some (s', [SJoined]) /\ nth_error (snd s') i = Some st.
Proof.
  intros one n ls s tr i f st R RU M H F.
  assert (G : ginv one s /\ joins_ok s).
  { clear RU M H F. revert ls s tr R. apply (run_ind (g_step one) (fun s _ => ginv one s /\ joins_ok s)).
    - split; [apply ginv_init | intros [|j] st0; discriminate].
    - intros [g th] tr l [g' th'] e [I J] D. split; [eapply ginv_step; eauto|]. unfold joins_ok in *. simpl in *.
      destruct (g_step_inv _ _ _ _ _ _ _ D) as [(j & f0 & st0 & eff & _ & H & T & -> & -> & ->)|[(-> & -> & -> & ->)|(m & -> & -> & -> & ->)]]; [| |exact J].
      + apply top_kind in T. pose proof (kind_wake _ _ _ _ _ _ _ T) as GW. destruct (i_shape _ _ I _ _ H) as [o S]. intros j' st' E.
        destruct (th_cases _ _ _ _ _ _ _ H E) as [[-> E1]|[(NE & st1 & E0 & E1)|(m & -> & Em)]].
        * destruct (e_stack eff) as [|h r] eqn:ES; [discriminate|]. injection E1 as E1 _. symmetry in E1. apply (wake_joinwait _ _ GW) in E1. destruct E1 as [-> _]. left. eapply kind_joinwait; eauto.
        * destruct st1 as [|h r]; [discriminate|]. injection E1 as E1 _. symmetry in E1. apply (wake_joinwait _ _ GW) in E1. destruct E1 as [-> NW].
          destruct (kind_stops _ _ _ _ _ _ _ T (J _ _ E0)) as [X|[X|X]]; [auto | auto | contradiction].
        * destruct (kind_new _ _ _ _ _ _ _ T _ _ Em) as [k X]. discriminate.
      + intros j st0 E. destruct (nth_snoc _ _ _ _ E) as [E'|[_ X]]; [eauto | discriminate]. }
  destruct G as [I J]. destruct s as [g th]. simpl in *.
  assert (f = GJoin). { destruct F as [->| ->]; [reflexivity|]. destruct (J _ _ H) as [X|X]; simpl in X; [congruence|]. destruct (i_down _ _ I X) as [Y _]. simpl in Y. contradiction. }
  subst f. exists (g, set_nth i st th). split; [|apply set_nth_same; apply (nth_lt _ _ _ H)].
  eapply (one_step one g th (LThread i)); [reflexivity | exact H|]. simpl. unfold unlocked. rewrite M, RU. reflexivity.
Qed.
Print Assumptions C96_join.
(** one thread waits in join while another shuts the scheduler down *)
Example C96_case : exists s tr, run (g_step true) (g_init 1) [LMain; LMain; LUser 0 AStartup; LThread 0; LUser 0 AJoin; LThread 0; LUser 1 AShutdown; LThread 1; LThread 1; LThread 2; LThread 1; LThread 1] = Some (s, tr)
  /\ g_running (fst s) = false /\ g_mutex (fst s) = None /\ nth_error (snd s) 0 = Some [GJoin; GUser].
Proof. eexists; eexists; split; [vm_compute; reflexivity|]. repeat split. Qed.
