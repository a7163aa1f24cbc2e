(** C151: signals and the end of the process. *)
From Coq Require Import List Bool ZArith Lia PeanoNat.
From Verif Require Import Runs Threads SignalModel.
Import ListNotations.

(** The end was asked for. *)
Definition asked (tr : list gev) : Prop := exists i, In (VRequest i) tr \/ In (VSignal i) tr.
(** Every call has returned. *)
Definition all_returned (s : gstate) : Prop := forall st, In st (g_threads s) -> st = [].
(** A signal does not come to a thread that is between taking the mutex and giving it back. *)
Definition not_inside (s : gstate) (l : glab) : Prop := match l with GSignal i SIGINT | GSignal i SIGTERM => g_owner s <> Some i | _ => True end.
Definition is_step (l : glab) : Prop := exists i, l = GStep i.

(* ------------------------------------------------------------------ invariant *)

Definition holds (f : frame) : bool := match f with WHold | SHold => true | _ => false end.
Definition is_s (f : frame) : bool := match f with SWant | SHold => true | _ => false end.
Fixpoint shaped (st : list frame) : Prop := match st with [] => True | f :: r => if is_s f then shaped r else r = [] end.
Record ginv (s : gstate) : Prop := mkginv {
  g_own : forall i, g_owner s = Some i -> exists f st, nth_error (g_threads s) i = Some (f :: st) /\ holds f = true;
  g_top : forall i f st, nth_error (g_threads s) i = Some (f :: st) -> (holds f = true -> g_owner s = Some i) /\ Forall (fun f => holds f = false) st;
  g_shape : forall i st, nth_error (g_threads s) i = Some st -> shaped st;
  g_awake : g_flag s = true -> forall i st, nth_error (g_threads s) i = Some st -> ~ In WBlocked st
}.
Lemma inv_init n : ginv (g_init n).
Proof.
  assert (X : forall i st, nth_error (repeat (@nil frame) n) i = Some st -> st = []) by (intros i st H; apply nth_error_In in H; apply repeat_spec in H; exact H).
  split; cbn; intros; try discriminate; match goal with H : nth_error _ _ = Some _ |- _ => apply X in H; try discriminate; subst; exact I end.
Qed.
Lemma notify_nth l i st : nth_error (notify_all l) i = Some st <-> exists st0, nth_error l i = Some st0 /\ st = map woken st0.
Proof. unfold notify_all. rewrite nth_error_map. destruct (nth_error l i) as [x|]; cbn; split; [intros H; injection H as <-; eauto|intros (y & H & ->); injection H as ->; reflexivity|discriminate|intros (y & H & _); discriminate]. Qed.
Lemma woken_holds f : holds (woken f) = holds f. Proof. destruct f; reflexivity. Qed.
Lemma woken_s f : is_s (woken f) = is_s f. Proof. destruct f; reflexivity. Qed.
Lemma woken_shaped st : shaped st -> shaped (map woken st).
Proof. induction st as [|f r IH]; [auto|]. cbn. rewrite woken_s. destruct (is_s f); [auto|]. intros ->. reflexivity. Qed.

(** threads change in one place only *)
Lemma inv_put s fl ow i st st' : ginv s -> nth_error (g_threads s) i = Some st ->
  (fl = true -> ~ In WBlocked st') -> (fl = true -> g_flag s = true) -> shaped st' ->
  (ow = Some i -> exists f r, st' = f :: r /\ holds f = true) ->
  (forall f r, st' = f :: r -> (holds f = true -> ow = Some i) /\ Forall (fun f => holds f = false) r) ->
  (ow = g_owner s /\ g_owner s <> Some i \/ (g_owner s = None \/ g_owner s = Some i) /\ (ow = None \/ ow = Some i)) ->
  ginv (mkg fl ow (set_nth i st' (g_threads s))).
Proof.
  intros V H F FS SH O1 O2 OW. pose proof (nth_lt _ _ _ H) as IL. split; cbn [g_flag g_owner g_threads].
  - intros j E. destruct (Nat.eq_dec j i) as [->|N].
    + destruct (O1 E) as (f & r & -> & X). exists f, r. split; [apply set_nth_same; exact IL|exact X].
    + rewrite set_nth_other by congruence. destruct OW as [[-> _]|[_ [-> | ->]]]; [exact (g_own s V j E)|discriminate|congruence].
  - intros j f r E. apply set_nth_cases in E. destruct E as [(-> & E & _)|(N & E)]; [apply O2; congruence|]. destruct (g_top s V _ _ _ E) as [A B]. split; [|exact B]. intros X. specialize (A X).
    destruct OW as [[-> _]|[[C|C] _]]; congruence.
  - intros j r E. apply set_nth_cases in E. destruct E as [(-> & -> & _)|(N & E)]; [exact SH|exact (g_shape s V _ _ E)].
  - intros X j r E. apply set_nth_cases in E. destruct E as [(-> & -> & _)|(N & E)]; [exact (F X)|exact (g_awake s V (FS X) _ _ E)].
Qed.
Lemma top_parts s i f r : ginv s -> nth_error (g_threads s) i = Some (f :: r) -> shaped (f :: r) /\ Forall (fun f => holds f = false) r /\ (g_flag s = true -> ~ In WBlocked r).
Proof. intros V H. split; [exact (g_shape s V _ _ H)|]. split; [apply (g_top s V _ _ _ H)|]. intros F I. apply (g_awake s V F _ _ H). right. exact I. Qed.
Lemma tail_shaped f r : shaped (f :: r) -> shaped r.
Proof. cbn. destruct (is_s f); [auto|]. intros ->. exact I. Qed.
Lemma quiet_top r : Forall (fun f => holds f = false) r -> forall f r', r = f :: r' -> holds f = false /\ Forall (fun f => holds f = false) r'.
Proof. intros Q f r' ->. inversion Q; auto. Qed.

Lemma inv_take s i f f' r : ginv s -> nth_error (g_threads s) i = Some (f :: r) -> g_owner s = None -> holds f' = true -> is_s f' = is_s f -> f' <> WBlocked -> ginv (mkg (g_flag s) (Some i) (set_nth i (f' :: r) (g_threads s))).
Proof.
  intros V H O HF SF NB. destruct (top_parts _ _ _ _ V H) as (SH & Q & B). eapply inv_put; eauto.
  - intros F [E|I]; [exact (NB E)|exact (B F I)].
  - cbn in *. rewrite SF. exact SH.
  - intros f0 r0 E. injection E as <- <-. auto.
Qed.
Lemma inv_leave s i f r : ginv s -> nth_error (g_threads s) i = Some (f :: r) -> holds f = true -> ginv (mkg (g_flag s) None (set_nth i r (g_threads s))).
Proof.
  intros V H HF. destruct (top_parts _ _ _ _ V H) as (SH & Q & B). pose proof (proj1 (g_top s V _ _ _ H) HF) as O. eapply inv_put; eauto.
  - eapply tail_shaped; eauto.
  - discriminate.
  - intros f0 r0 E. destruct (quiet_top _ Q _ _ E) as [A C]. split; [congruence|exact C].
Qed.
Lemma inv_notify s : ginv s -> ginv (mkg true (g_owner s) (notify_all (g_threads s))).
Proof.
  intros V. split; cbn [g_flag g_owner g_threads].
  - intros i E. destruct (g_own s V i E) as (f & st & H & X). exists (woken f), (map woken st). split; [apply notify_nth; exists (f :: st); auto|rewrite woken_holds; exact X].
  - intros i f st H. apply notify_nth in H. destruct H as (st0 & H & E). destruct st0 as [|f0 r0]; [discriminate|]. injection E as -> ->. rewrite woken_holds. destruct (g_top s V _ _ _ H) as [A B]. split; [exact A|].
    apply Forall_map. eapply Forall_impl; [|exact B]. intros a X. rewrite woken_holds. exact X.
  - intros i st H. apply notify_nth in H. destruct H as (st0 & H & ->). apply woken_shaped. exact (g_shape s V _ _ H).
  - intros _ i st H. apply notify_nth in H. destruct H as (st0 & H & ->). rewrite in_map_iff. intros (f & E & _). destruct f; discriminate.
Qed.

Lemma inv_step s l s' e : ginv s -> not_inside s l -> g_step s l = Some (s', e) -> ginv s'.
Proof.
  intros V NI E. destruct l as [i|i|i g|i|i]; cbn [g_step] in E.
  - destruct (nth_error (g_threads s) i) as [[|]|] eqn:H; try discriminate. injection E as <- <-. assert (g_owner s <> Some i) as O by (intros O; destruct (g_own s V i O) as (? & ? & X & _); congruence).
    unfold put_frames. eapply inv_put; eauto; try discriminate; cbn; try congruence; [intros _ [X|[]]; discriminate|]. intros f r X. injection X as <- <-. split; [discriminate|constructor].
  - destruct (nth_error (g_threads s) i) as [[|]|] eqn:H; try discriminate. injection E as <- <-. assert (g_owner s <> Some i) as O by (intros O; destruct (g_own s V i O) as (? & ? & X & _); congruence).
    unfold put_frames. eapply inv_put; eauto; try discriminate; cbn; try congruence; auto; [intros _ [X|[]]; discriminate|]. intros f r X. injection X as <- <-. split; [discriminate|constructor].
  - destruct (nth_error (g_threads s) i) as [st|] eqn:H; [|discriminate]. destruct (disposed g) eqn:D; [injection E as <- <-; exact V| |discriminate]. injection E as <- <-.
    assert (g_owner s <> Some i) as O by (destruct g; try discriminate D; exact NI). unfold put_frames. eapply inv_put; eauto.
    + intros F [X|X]; [discriminate|exact (g_awake s V F _ _ H X)].
    + exact (g_shape s V _ _ H).
    + congruence.
    + intros f r X. injection X as <- <-. split; [discriminate|]. destruct st as [|f0 r0]; [constructor|]. destruct (g_top s V _ _ _ H) as [A B]. constructor; [|exact B]. destruct (holds f0); [exfalso; auto|reflexivity].
  - unfold thread_step in E. destruct (nth_error (g_threads s) i) as [[|f r]|] eqn:H; [discriminate| |discriminate]. destruct f.
    + destruct (g_owner s) eqn:O; [discriminate|]. injection E as <- <-. eapply inv_take; eauto; try reflexivity; discriminate.
    + destruct (g_flag s) eqn:F; injection E as <- <-.
      * rewrite <- F. eapply inv_leave; eauto.
      * destruct (top_parts _ _ _ _ V H) as (SH & Q & B). pose proof (proj1 (g_top s V _ _ _ H) eq_refl) as O. eapply inv_put; eauto; try discriminate.
        intros f0 r0 X. injection X as <- <-. split; [discriminate|exact Q].
    + discriminate.
    + destruct (g_owner s) eqn:O; [discriminate|]. injection E as <- <-. eapply inv_take; eauto; try reflexivity; discriminate.
    + destruct (g_owner s) eqn:O; [discriminate|]. injection E as <- <-. eapply inv_take; eauto; try reflexivity; discriminate.
    + destruct (g_flag s) eqn:F; injection E as <- <-.
      * rewrite <- F. eapply inv_leave; eauto.
      * change None with (g_owner (mkg (g_flag s) None (set_nth i r (g_threads s)))). change (set_nth i r (g_threads s)) with (g_threads (mkg (g_flag s) None (set_nth i r (g_threads s)))). apply inv_notify. eapply inv_leave; eauto.
  - destruct (nth_error (g_threads s) i) as [[|[] r]|] eqn:H; try discriminate. injection E as <- <-. destruct (top_parts _ _ _ _ V H) as (SH & Q & B).
    assert (g_owner s <> Some i) as O by (intros O; destruct (g_own s V i O) as (? & ? & X & Y); rewrite H in X; injection X as <- <-; discriminate).
    unfold put_frames. eapply inv_put; eauto; try congruence.
    + intros F. exfalso. apply (g_awake s V F _ _ H). left. reflexivity.
    + intros f r0 X. injection X as <- <-. split; [discriminate|exact Q].
Qed.

(* ------------------------------------------------------------------ progress *)

Definition weight (fl : bool) (f : frame) : nat :=
  match f with WWant | WWoken => if fl then 2 else 4 | WHold => if fl then 1 else 3 | WBlocked => 2 | SWant => 2 | SHold => 1 end.
Fixpoint sum (l : list nat) : nat := match l with [] => 0 | x :: l' => x + sum l' end.
Definition stack_weight (fl : bool) (st : list frame) : nat := sum (map (weight fl) st).
Definition work (s : gstate) : nat := sum (map (stack_weight (g_flag s)) (g_threads s)).
Lemma sum_set fl i st st' l : nth_error l i = Some st -> sum (map (stack_weight fl) (set_nth i st' l)) + stack_weight fl st = sum (map (stack_weight fl) l) + stack_weight fl st'.
Proof. revert i. induction l as [|x l IH]; intros [|i] H; cbn in *; try discriminate; [injection H as ->; lia|]. specialize (IH _ H). lia. Qed.
Lemma sum_notify l : sum (map (stack_weight true) (notify_all l)) <= sum (map (stack_weight false) l).
Proof.
  induction l as [|st l IH]; [cbn; lia|]. cbn. assert (stack_weight true (map woken st) <= stack_weight false st); [|unfold notify_all in IH; lia].
  induction st as [|f st IHs]; [cbn; lia|]. unfold stack_weight in *. cbn. destruct f; cbn; lia.
Qed.
Lemma step_less s i s' e : thread_step s i = Some (s', e) -> work s' < work s.
Proof.
  intros E. unfold thread_step in E. destruct (nth_error (g_threads s) i) as [[|f r]|] eqn:H; try discriminate. unfold work.
  assert (X : forall fl st', sum (map (stack_weight fl) (set_nth i st' (g_threads s))) + stack_weight fl (f :: r) = sum (map (stack_weight fl) (g_threads s)) + stack_weight fl st') by (intros; apply sum_set; exact H).
  assert (Y : forall fl g, stack_weight fl (g :: r) = weight fl g + stack_weight fl r) by reflexivity.
  destruct f; try discriminate; try (destruct (g_owner s); [discriminate|]).
  - injection E as <- <-; cbn [g_flag g_threads]. specialize (X (g_flag s) (WHold :: r)). rewrite !Y in X. destruct (g_flag s); cbn [weight] in X; lia.
  - destruct (g_flag s) eqn:F; injection E as <- <-; cbn [g_flag g_threads].
    + specialize (X true r). rewrite Y in X. cbn [weight] in X. lia.
    + specialize (X false (WBlocked :: r)). rewrite !Y in X. cbn [weight] in X. lia.
  - injection E as <- <-; cbn [g_flag g_threads]. specialize (X (g_flag s) (WHold :: r)). rewrite !Y in X. destruct (g_flag s); cbn [weight] in X; lia.
  - injection E as <- <-; cbn [g_flag g_threads]. specialize (X (g_flag s) (SHold :: r)). rewrite !Y in X. destruct (g_flag s); cbn [weight] in X; lia.
  - destruct (g_flag s) eqn:F; injection E as <- <-; cbn [g_flag g_threads].
    + specialize (X true r). rewrite Y in X. cbn [weight] in X. lia.
    + specialize (X false r). rewrite Y in X. cbn [weight] in X. pose proof (sum_notify (set_nth i r (g_threads s))). lia.
Qed.
Lemma steps_bounded ls : forall s s' tr, Forall is_step ls -> run g_step s ls = Some (s', tr) -> length ls + work s' <= work s.
Proof.
  induction ls as [|l ls IH]; intros s s' tr F R; [injection R as <- <-; cbn; lia|]. inversion F as [|? ? [i ->] F']; subst. cbn [run g_step] in R. destruct (thread_step s i) as [[s1 e]|] eqn:E; [|discriminate].
  destruct (run g_step s1 ls) as [[s2 e']|] eqn:R'; [|discriminate]. injection R as <- <-. pose proof (IH _ _ _ F' R'). pose proof (step_less _ _ _ _ E). cbn. lia.
Qed.

Definition pending (s : gstate) : Prop := g_flag s = true \/ exists i st f, nth_error (g_threads s) i = Some st /\ In f st /\ is_s f = true.
Lemma stuck_empty s : ginv s -> pending s -> (forall i, thread_step s i = None) -> all_returned s.
Proof.
  intros V P N. assert (O : g_owner s = None).
  { destruct (g_owner s) as [j|] eqn:O; [|reflexivity]. destruct (g_own s V j O) as (f & r & H & X). specialize (N j). unfold thread_step in N. rewrite H in N. destruct f; try discriminate X; destruct (g_flag s); discriminate. }
  assert (T : forall i f r, nth_error (g_threads s) i = Some (f :: r) -> f = WBlocked).
  { intros i f r H. specialize (N i). unfold thread_step in N. rewrite H, O in N. destruct f; try discriminate; try (destruct (g_flag s); discriminate); reflexivity. }
  assert (FL : g_flag s = true).
  { destruct P as [F|(i & st & f & H & I & S)]; [exact F|]. exfalso. destruct st as [|f0 r]; [destruct I|]. pose proof (T _ _ _ H). subst f0. pose proof (g_shape s V _ _ H) as SH. cbn in SH. subst r. destruct I as [<-|[]]. discriminate. }
  intros st I. apply In_nth_error in I. destruct I as [i H]. destruct st as [|f r]; [reflexivity|]. pose proof (T _ _ _ H). subst f. exfalso. apply (g_awake s V FL _ _ H). left. reflexivity.
Qed.

(** what was asked for is pending or done *)
Definition has_s (st : list frame) : bool := existsb is_s st.
Definition pendb (s : gstate) : bool := g_flag s || existsb has_s (g_threads s).
Lemma pendb_spec s : pendb s = true <-> pending s.
Proof.
  unfold pendb, pending, has_s. rewrite orb_true_iff, existsb_exists. split; (intros [F|H]; [auto|right]).
  - destruct H as (st & I & H). apply existsb_exists in H. destruct H as (f & A & B). apply In_nth_error in I. destruct I as [i I]. eauto 6.
  - destruct H as (i & st & f & H & I & S). exists st. split; [eapply nth_error_In; eauto|]. apply existsb_exists. eauto.
Qed.
Lemma pend_set fl ow l i st st' : nth_error l i = Some st -> (has_s st = true -> has_s st' = true) -> pendb (mkg fl ow l) = true -> pendb (mkg fl ow (set_nth i st' l)) = true.
Proof.
  unfold pendb. cbn [g_flag g_threads]. rewrite !orb_true_iff. intros H K [F|P]; [auto|right]. revert i H. induction l as [|x l IH]; intros [|i] H; cbn in *; try discriminate.
  - injection H as ->. rewrite orb_true_iff in *. destruct P as [P|P]; auto.
  - rewrite orb_true_iff in *. destruct P as [P|P]; eauto.
Qed.
Lemma pend_new fl ow l i st st' : nth_error l i = Some st -> has_s st' = true -> pendb (mkg fl ow (set_nth i st' l)) = true.
Proof. unfold pendb. cbn [g_flag g_threads]. intros H K. apply orb_true_iff. right. revert i H. induction l as [|x l IH]; intros [|i] H; cbn in *; try discriminate; apply orb_true_iff; eauto. Qed.
Lemma pend_ow fl ow ow' l : pendb (mkg fl ow l) = pendb (mkg fl ow' l). Proof. reflexivity. Qed.
Lemma asked_app tr e : asked (tr ++ e) -> asked tr \/ asked e.
Proof. intros (i & [H|H]); apply in_app_iff in H; destruct H as [H|H]; [left|right|left|right]; exists i; auto. Qed.
Lemma pend_step s l s' e tr : (asked tr -> pendb s = true) -> g_step s l = Some (s', e) -> asked (tr ++ e) -> pendb s' = true.
Proof.
  intros P E A. apply asked_app in A. destruct s as [fl ow th]. destruct l as [i|i|i g|i|i]; cbn [g_step g_threads] in E.
  - destruct (nth_error th i) as [[|]|] eqn:H; try discriminate. injection E as <- <-. destruct A as [A|(j & [[]|[]])]. eapply pend_set; eauto.
  - destruct (nth_error th i) as [[|]|] eqn:H; try discriminate. injection E as <- <-. eapply pend_new; eauto.
  - destruct (nth_error th i) as [st|] eqn:H; [|discriminate]. destruct (disposed g); [injection E as <- <-; destruct A as [A|(j & [[]|[]])]; auto| |discriminate]. injection E as <- <-. eapply pend_new; eauto.
  - unfold thread_step in E. cbn [g_threads g_flag g_owner] in E. destruct (nth_error th i) as [[|f r]|] eqn:H; try discriminate.
    assert (NE : e = [] \/ e = [VReturn i]) by (destruct f; try (destruct ow; [discriminate|]); try (destruct fl); try discriminate; injection E as _ <-; auto).
    assert (A' : asked tr) by (destruct A as [A|(j & [B|B])]; [exact A| |]; destruct NE as [-> | ->]; cbn in B; intuition discriminate). specialize (P A').
    destruct f; try discriminate; try (destruct ow; [discriminate|]).
    + injection E as <- <-. rewrite (pend_ow _ _ None). eapply pend_set; eauto.
    + destruct fl; injection E as <- <-; [reflexivity|]. rewrite (pend_ow _ _ ow). eapply pend_set; eauto.
    + injection E as <- <-. rewrite (pend_ow _ _ None). eapply pend_set; eauto.
    + injection E as <- <-. rewrite (pend_ow _ _ None). eapply pend_set; eauto.
    + destruct fl; injection E as <- <-; reflexivity.
  - destruct (nth_error th i) as [[|[] r]|] eqn:H; try discriminate. injection E as <- <-. destruct A as [A|(j & [[]|[]])]. eapply pend_set; eauto.
Qed.

(* ------------------------------------------------------------------ C151 *)

(** Once the end was asked for, by a call or by a signal that did not come to a thread having the mutex, every call returns, however the threads are scheduled: as long as nothing new happens there are only
    boundedly many steps, and when no step is possible any more every call has returned. *)
Theorem C151_returns_partial : forall n ls s tr, run g_step (g_init n) ls = Some (s, tr) -> allowed g_step not_inside (g_init n) ls -> asked tr ->
  exists bound, forall ls' s' tr', Forall is_step ls' -> run g_step s ls' = Some (s', tr') -> length ls' <= bound /\ ((forall i, g_step s' (GStep i) = None) -> all_returned s').
Proof.
  intros n ls s tr R A Q.
  assert (X : ginv s /\ (asked tr -> pendb s = true)).
  { refine (allowed_run_ind g_step not_inside (fun s tr => ginv s /\ (asked tr -> pendb s = true)) (g_init n) _ _ ls s tr R A).
    - split; [apply inv_init|]. intros (i & [[]|[]]).
    - intros s1 t1 l s2 e [V P] N E. split; [eapply inv_step; eauto|eapply pend_step; eauto]. }
  destruct X as [V P]. specialize (P Q). exists (work s). intros ls' s' tr' F R'. split; [pose proof (steps_bounded _ _ _ _ F R'); lia|].
  intros N. assert (Y : ginv s' /\ pendb s' = true).
  { clear N Q R A. revert s V P s' tr' R'. induction F as [|l ls' [i ->] F IH]; intros s V P s' tr' R'; [injection R' as <- <-; auto|]. cbn [run] in R'.
    destruct (g_step s (GStep i)) as [[s1 e]|] eqn:E; [|discriminate]. destruct (run g_step s1 ls') as [[s2 e']|] eqn:R2; [|discriminate]. injection R' as <- <-.
    apply (IH s1) in R2; auto; [eapply inv_step; eauto; exact I|]. apply (pend_step s (GStep i) s1 e [VRequest 0]); auto. exists 0. left. left. reflexivity. }
  destruct Y as [V' P']. apply stuck_empty; auto. apply pendb_spec. exact P'.
Qed.
Print Assumptions C151_returns_partial.

(** No wait returns unless the end was asked for. *)
Theorem C151_only_partial : forall n ls s tr, run g_step (g_init n) ls = Some (s, tr) -> (exists i, In (VReturn i) tr) -> asked tr.
Proof.
  intros n ls s tr R. enough (X : (pendb s = true -> asked tr) /\ ((exists i, In (VReturn i) tr) -> asked tr)) by apply X.
  refine (run_ind g_step (fun s tr => (pendb s = true -> asked tr) /\ ((exists i, In (VReturn i) tr) -> asked tr)) (g_init n) _ _ ls s tr R).
  - split; [|intros (i & [])]. intros X. exfalso. unfold pendb in X. cbn [g_init g_flag g_threads orb] in X. clear - X. induction n as [|n IH]; [discriminate X|exact (IH X)].
  - clear. intros s tr l s' e [P Q] E. assert (M : asked tr -> asked (tr ++ e)) by (intros (i & [H|H]); exists i; rewrite !in_app_iff; auto).
    assert (K : forall fl ow l, pendb (mkg fl ow l) = (fl || existsb has_s l)%bool) by reflexivity.
    destruct s as [fl ow th]. rewrite K in P.
    assert (S1 : forall i st st', nth_error th i = Some st -> (has_s st' = true -> has_s st = true) -> existsb has_s (set_nth i st' th) = true -> existsb has_s th = true).
    { clear. intros i st st' H G. revert i H. induction th as [|x th IH]; intros [|i] H X; cbn in *; try discriminate; rewrite orb_true_iff in *.
      - injection H as ->. destruct X as [X|X]; auto.
      - destruct X as [X|X]; eauto. }
    assert (S2 : forall i st, nth_error th i = Some st -> has_s st = true -> existsb has_s th = true) by (intros i st H G; apply existsb_exists; exists st; split; [eapply nth_error_In; eauto|exact G]).
    assert (TAIL : forall f (r : list frame), has_s r = true -> has_s (f :: r) = true) by (intros f r G; unfold has_s in *; cbn; rewrite G; apply orb_true_r).
    destruct l as [i|i|i g|i|i]; cbn [g_step g_threads] in E.
    + destruct (nth_error th i) as [[|]|] eqn:H; try discriminate. injection E as <- <-. rewrite app_nil_r in *. unfold put_frames. cbn [g_flag g_owner g_threads]. rewrite K. split; [|exact Q].
      intros X. apply P. rewrite orb_true_iff in *. destruct X as [X|X]; [auto|]. right. eapply S1; [eassumption| |eassumption]; intros G; first [exact G|discriminate G|apply TAIL; exact G].
    + destruct (nth_error th i) as [[|]|] eqn:H; try discriminate. injection E as <- <-. assert (Y : asked (tr ++ [VRequest i])) by (exists i; left; apply in_or_app; right; left; reflexivity). auto.
    + destruct (nth_error th i) as [st|] eqn:H; [|discriminate]. destruct (disposed g); [injection E as <- <-; rewrite app_nil_r; rewrite K; auto| |discriminate]. injection E as <- <-.
      assert (Y : asked (tr ++ [VSignal i])) by (exists i; right; apply in_or_app; right; left; reflexivity). auto.
    + unfold thread_step in E. cbn [g_threads g_flag g_owner] in E. destruct (nth_error th i) as [[|f r]|] eqn:H; try discriminate.
      assert (RET : In (VReturn i) e -> fl = true) by (destruct f; try (destruct ow; [discriminate|]); try (destruct fl); try discriminate; injection E as _ <-; cbn; intuition discriminate).
      assert (EV : forall j, In (VReturn j) e -> j = i) by (destruct f; try (destruct ow; [discriminate|]); try (destruct fl); try discriminate; injection E as _ <-; cbn; intuition congruence).
      split.
      * intros X. apply M, P. rewrite orb_true_iff. destruct f; try discriminate; try (destruct ow; [discriminate|]).
        -- injection E as <- <-. rewrite K, orb_true_iff in X. destruct X as [X|X]; [auto|right]. eapply S1; [eassumption| |eassumption]; intros G; first [exact G|discriminate G|apply TAIL; exact G].
        -- destruct fl; [auto|]. injection E as <- <-. rewrite K in X. right. eapply S1; [eassumption| |eassumption]; intros G; first [exact G|discriminate G|apply TAIL; exact G].
        -- injection E as <- <-. rewrite K, orb_true_iff in X. destruct X as [X|X]; [auto|right]. eapply S1; [eassumption| |eassumption]; intros G; first [exact G|discriminate G|apply TAIL; exact G].
        -- right. eapply S2; eauto.
        -- right. eapply S2; eauto.
      * intros (j & J). apply in_app_iff in J. destruct J as [J|J]; [apply M, Q; eauto|]. apply M, P. rewrite orb_true_iff. left. apply RET. rewrite <- (EV j J) at 1. exact J.
    + destruct (nth_error th i) as [[|[] r]|] eqn:H; try discriminate. injection E as <- <-. rewrite app_nil_r in *. unfold put_frames. cbn [g_flag g_owner g_threads]. rewrite K. split; [|exact Q].
      intros X. apply P. rewrite orb_true_iff in *. destruct X as [X|X]; [auto|]. right. eapply S1; [eassumption| |eassumption]; intros G; first [exact G|discriminate G|apply TAIL; exact G].
Qed.
Print Assumptions C151_only_partial.

(** The full claim: after an interrupt or a termination signal, whenever it comes, a thread that waits can return. *)
Definition signal_ends : Prop := forall n ls s tr i j, run g_step (g_init n) ls = Some (s, tr) -> In (VSignal j) tr -> (exists st, nth_error (g_threads s) i = Some st /\ st <> []) ->
  exists ls' s' tr', run g_step s ls' = Some (s', tr') /\ nth_error (g_threads s') i = Some [].
Definition stuck_state : gstate := mkg false (Some 0) [[SWant; WHold]].
Theorem C151_signal_refuted : ~ signal_ends.
Proof.
  intros H. destruct (H 1 [GWait 0; GStep 0; GSignal 0 SIGTERM] stuck_state [VSignal 0] 0 0 eq_refl) as (ls' & s' & tr' & R & E); [left; reflexivity|exists [SWant; WHold]; split; [reflexivity|discriminate]|].
  assert (X : length (g_threads s') = 1 /\ g_owner s' = Some 0 /\ exists pre, nth_error (g_threads s') 0 = Some (SWant :: pre)); [|destruct X as (_ & _ & pre & X); congruence].
  refine (run_ind g_step (fun s _ => length (g_threads s) = 1 /\ g_owner s = Some 0 /\ exists pre, nth_error (g_threads s) 0 = Some (SWant :: pre)) stuck_state _ _ ls' s' tr' R);
    [split; [reflexivity|split; [reflexivity|exists [WHold]; reflexivity]]|].
  clear. intros s tr l s' e (L & O & pre & T) E.
  assert (Z : forall i st, nth_error (g_threads s) i = Some st -> i = 0 /\ st = SWant :: pre).
  { intros i st H. pose proof (nth_lt _ _ _ H). assert (i = 0) by lia. subst i. split; congruence. }
  destruct l as [i|i|i g|i|i]; cbn [g_step] in E.
  - destruct (nth_error (g_threads s) i) as [[|]|] eqn:D; try discriminate. destruct (Z _ _ D); discriminate.
  - destruct (nth_error (g_threads s) i) as [[|]|] eqn:D; try discriminate. destruct (Z _ _ D); discriminate.
  - destruct (nth_error (g_threads s) i) as [st|] eqn:D; [|discriminate]. destruct (disposed g); [injection E as <- <-; eauto| |discriminate]. injection E as <- <-.
    destruct (Z _ _ D) as [-> ->]. unfold put_frames. cbn [g_owner g_threads]. split; [rewrite set_nth_length; exact L|]. split; [exact O|]. exists (SWant :: pre). apply set_nth_same. lia.
  - unfold thread_step in E. rewrite O in E. destruct (nth_error (g_threads s) i) as [[|f r]|] eqn:D; try discriminate. destruct (Z _ _ D) as [-> F]. injection F as -> ->. discriminate.
  - destruct (nth_error (g_threads s) i) as [[|[] r]|] eqn:D; try discriminate. destruct (Z _ _ D); discriminate.
Qed.
Print Assumptions C151_signal_refuted.

(** SIGPIPE, SIGCHLD, SIGHUP and the signals of job control change nothing, at any time; SIGINT and SIGTERM are one call of shutdown in the thread that gets them. *)
Theorem C151_signals_partial : forall s i st g, nth_error (g_threads s) i = Some st ->
  match g with
  | SIGPIPE | SIGCHLD | SIGTSTP | SIGTTOU | SIGTTIN | SIGHUP => g_step s (GSignal i g) = Some (s, [])
  | SIGINT | SIGTERM => exists s', g_step s (GSignal i g) = Some (s', [VSignal i]) /\ nth_error (g_threads s') i = Some (SWant :: st) /\
      (forall j, j <> i -> nth_error (g_threads s') j = nth_error (g_threads s) j) /\ g_flag s' = g_flag s /\ g_owner s' = g_owner s
  | SIGOTHER _ => True
  end.
Proof.
  intros s i st g H. destruct g; cbn [g_step disposed]; rewrite ?H; try reflexivity; try exact I;
    (eexists; split; [reflexivity|]; unfold put_frames; cbn [g_flag g_owner g_threads]; split; [apply set_nth_same; exact (nth_lt _ _ _ H)|split; [intros j N; apply set_nth_other; congruence|auto]]).
Qed.
Print Assumptions C151_signals_partial.

(** Two threads wait, one in the condition and one about to take the mutex; a termination signal comes to the first: both return. *)
Example C151_case :
  let ls := [GWait 0; GStep 0; GStep 0; GWait 1; GSignal 0 SIGTERM] in
  exists s tr, run g_step (g_init 2) ls = Some (s, tr) /\ allowed g_step not_inside (g_init 2) ls /\ asked tr /\
    exists s' tr', run g_step s [GStep 0; GStep 0; GStep 1; GStep 1; GStep 0; GStep 0] = Some (s', tr') /\ all_returned s' /\ tr' = [VReturn 1; VReturn 0].
Proof.
  cbn zeta. eexists. eexists. split; [reflexivity|]. split; [repeat (eapply al_cons; [cbn; congruence || exact I|reflexivity|]); constructor|]. split; [exists 0; right; left; reflexivity|].
  eexists. eexists. split; [reflexivity|]. split; [intros st [<-|[<-|[]]]; reflexivity|reflexivity].
Qed.
