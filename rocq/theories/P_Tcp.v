(** C49, C50, C51, C92, C93. *)
From Coq Require Import ZArith List Bool Lia PeanoNat.
From Verif Require Import Base Runs Threads TcpModel TcpSpec TcpProofs.
Import ListNotations.
Local Open Scope nat_scope.

(* ------------------------------------------------------------------ stopping *)

Definition wh (f : frame) : nat := match f with FHandle false _ => 1 | _ => 0 end.
Lemma followed_none : forall st, followed st -> wsum wl st = 0 -> wsum wh st = 0.
Proof.
  induction st as [|f st IH]; intros F W; [reflexivity|]. rewrite wsum_cons in *. pose proof (followed_tail _ _ F) as F'.
  rewrite IH by (auto; lia). destruct f as [| | | | | | | | |d o|d o|n d|d| |o]; simpl in *; try lia. destruct n; [lia|].
  destruct st as [|[| | | | | | | | |? ?|? ?|? ?|?| |?] st]; try contradiction. rewrite wsum_cons in W. simpl in W. lia.
Qed.
Lemma total_zero : forall w th, (forall j st, nth_error th j = Some st -> wsum w st = 0) -> total w th = 0.
Proof.
  intros w th A. destruct (total w th) eqn:E; [reflexivity|]. destruct (total_pos w th ltac:(lia)) as (j & st & H & P). rewrite (A _ _ H) in P. lia.
Qed.
Definition quiet (s : tsrv) : Prop := v_listening s = false /\ v_pool s = [] /\ total wh (v_threads s) = 0.

Ltac weigh1 w H new := let E := fresh "E" in pose proof (total_set w _ _ _ new H) as E; repeat rewrite wsum_cons in E; simpl in E.

Lemma quiet_step : forall s l s' e, inv_conn s -> quiet s -> v_step s l = Some (s', e) -> ~ In VStarted e -> quiet s' /\ forall x, In x e -> quiet_event x.
Proof.
  intros s l s' e K (L & P & W) D NS. unfold quiet.
  assert (NF : forall c, TcpProofs.fresh s c = 0) by (intros c; destruct (K c) as (_ & K2 & _); destruct (TcpProofs.fresh s c); [reflexivity | destruct K2 as [_ X]; [lia | rewrite P in X; destruct X]]).
  destruct l as [i|i a|i ssl|c ok|c ok|c ok|c|c|]; cbn [v_step] in D.
  - destruct (nth_error (v_threads s) i) as [[|f st]|] eqn:H; try discriminate.
    pose proof (total_le wh _ _ _ H) as TL. rewrite W, wsum_cons in TL.
    assert (OLD : forall new, wsum wh new = 0 -> total wh (set_nth i new (v_threads s)) = 0) by (intros new E0; weigh1 wh H new; lia).
    destruct f as [| | | | | | | | |d o|d o|n d|d| |o]; simpl in D; try discriminate.
    + destruct (unlocked s); [|discriminate]. unfold do_start in D. rewrite L in D. injection D as <- <-. exfalso. apply NS. left. reflexivity.
    + destruct (unlocked s); [|discriminate]. unfold do_listen in D. rewrite L in D. injection D as <- <-. simpl. rewrite OLD by lia. simpl; tauto.
    + injection D as <- <-. simpl. rewrite OLD by lia. split; [auto|]. intros x [<-|[]]. exact Logic.I.
    + destruct (unlocked s); [|discriminate]. unfold do_stop in D. rewrite L in D. injection D as <- <-. simpl. rewrite OLD by lia. split; [auto|]. intros x [<-|[]]. exact Logic.I.
    + destruct (owns s i); [|discriminate]. injection D as D. unfold do_stop_loop in D. rewrite P in D. unfold stop_end in D. injection D as <- <-. simpl. rewrite wake_eq.
      assert (H' : nth_error (map (map wake) (v_threads s)) i = Some (FStopLoop :: map wake st)) by (rewrite nth_map, H; reflexivity).
      weigh1 wh H' st. rewrite total_wake, wsum_wake in * by reflexivity. split; [repeat split; auto; lia|]. intros x [<-|[<-|[]]]; exact Logic.I.
    + destruct (unlocked s); [|discriminate]. injection D as <- <-. simpl. rewrite OLD by (rewrite wsum_cons; simpl; lia). simpl; tauto.
    + destruct (unlocked s); [|discriminate]. rewrite L in D. injection D as <- <-. simpl. rewrite OLD by lia. split; [auto|]. intros x [<-|[]]. exact Logic.I.
    + destruct (unlocked s); [|discriminate]. injection D as <- <-. simpl. rewrite OLD by lia. split; [auto|]. intros x [<-|[]]. unfold do_count. rewrite L, P. reflexivity.
    + exfalso. pose proof (NF d) as X. unfold TcpProofs.fresh in X. pose proof (total_le (wf d) _ _ _ H) as Y. rewrite wsum_cons in Y. simpl in Y. rewrite Nat.eqb_refl in Y. lia.
    + exfalso. destruct n.
      * pose proof (NF d) as X. unfold TcpProofs.fresh in X. pose proof (total_le (wf d) _ _ _ H) as Y. rewrite wsum_cons in Y. simpl in Y. rewrite Nat.eqb_refl in Y. lia.
      * simpl in TL. lia.
    + destruct (unlocked s); [|discriminate]. injection D as D. unfold do_finish in D. rewrite L in D. simpl in D. injection D as <- <-. simpl. rewrite P, OLD by lia. simpl; tauto.
    + destruct (owns s i); [|discriminate]. injection D as <- <-. simpl. rewrite OLD by lia. simpl; tauto.
  - destruct (nth_error (v_threads s) i) as [[|f st]|] eqn:H; try discriminate. destruct f as [| | | | | | | | |d o|d o|n d|d| |o]; try discriminate.
    pose proof (total_le wh _ _ _ H) as TL. rewrite W, wsum_cons in TL.
    destruct (user_step s i o a st) as [s1|] eqn:U; [|discriminate]. injection D as <- <-. split; [|intros x []].
    destruct a as [| | | | | | |k], o as [c|]; simpl in U; try discriminate; injection U as <-; simpl; auto;
      match goal with |- context [set_nth i ?new _] => weigh1 wh H new end; repeat split; auto; lia.
  - destruct (nth_error (v_threads s) i) as [[|f st]|] eqn:H; try discriminate. destruct f as [| | | | | | | | |d o|d o|n d|d| |o]; try discriminate.
    exfalso. pose proof (NF d) as X. unfold TcpProofs.fresh in X. pose proof (total_le (wf d) _ _ _ H) as Y. rewrite wsum_cons in Y. simpl in Y. rewrite Nat.eqb_refl in Y. lia.
  - destruct (hasn c (v_pending s)) eqn:E; [|discriminate]. apply hasn_count in E. pose proof (NF c) as X. unfold TcpProofs.fresh in X. lia.
  - destruct (existsb (same_event c ok) (v_events s)) eqn:E; [|discriminate]. exfalso. destruct (count_events _ _ _ E c) as [X _]. rewrite Nat.eqb_refl in X.
    pose proof (NF c) as Y. unfold TcpProofs.fresh in Y. lia.
  - destruct (hasn c (v_shaking s)) eqn:E; [|discriminate]. apply hasn_count in E. pose proof (NF c) as X. unfold TcpProofs.fresh in X. lia.
  - injection D as <- <-. simpl. tauto.
  - destruct (hasn c (v_kept s)); [|discriminate]. injection D as <- <-. simpl. rewrite total_snoc, W. simpl; tauto.
  - injection D as <- <-. simpl. rewrite total_snoc, W. simpl; tauto.
Qed.

(** what stop does to the flag, and when it returns *)
Lemma flag_step : forall s l s' e, v_step s l = Some (s', e) ->
  (v_listening s' = v_listening s /\ ~ In VStarted e /\ ~ In VStopping e)
  \/ (v_listening s = false /\ v_listening s' = true /\ e = [VStarted])
  \/ (v_listening s = true /\ v_listening s' = false /\ e = VStopping :: map VFailed (v_pending s)).
Proof.
  intros s l s' e D. destruct l as [i|i a|i ssl|c ok|c ok|c ok|c|c|]; cbn [v_step] in D.
  - destruct (nth_error (v_threads s) i) as [[|f st]|] eqn:H; try discriminate.
    destruct f as [| | | | | | | | |d o|d o|n d|d| |o]; simpl in D; try discriminate.
    + destruct (unlocked s); [|discriminate]. unfold do_start in D. destruct (v_listening s) eqn:L; injection D as <- <-; simpl; [left; rewrite L; tauto | auto].
    + destruct (unlocked s); [|discriminate]. unfold do_listen in D. destruct (v_listening s) eqn:L; injection D as <- <-; simpl; rewrite ?L; tauto.
    + injection D as <- <-. left. simpl. split; [reflexivity | split; intros [X|[]]; discriminate].
    + destruct (unlocked s); [|discriminate]. unfold do_stop in D. destruct (v_listening s) eqn:L; injection D as <- <-; simpl; [auto|]. left. rewrite L. split; [reflexivity | split; intros [X|[]]; discriminate].
    + destruct (owns s i); [|discriminate]. injection D as D. left. unfold do_stop_loop, stop_end in D.
      destruct (v_pool s); [|destruct (prune s)]; injection D as <- <-; simpl; (split; [reflexivity | split; intros X; repeat (destruct X as [X|X]; try discriminate); exact X]).
    + destruct (unlocked s); [|discriminate]. injection D as <- <-. simpl. tauto.
    + destruct (unlocked s); [|discriminate]. destruct (v_listening s) eqn:L; injection D as <- <-; left; simpl; rewrite L; (split; [reflexivity | split; intros X; repeat (destruct X as [X|X]; try discriminate); exact X]).
    + destruct (unlocked s); [|discriminate]. injection D as <- <-. left. simpl. split; [reflexivity | split; intros [X|[]]; discriminate].
    + injection D as <- <-. left. simpl. tauto.
    + injection D as <- <-. left. simpl. split; [reflexivity | split; intros [X|[]]; discriminate].
    + destruct (unlocked s); [|discriminate]. injection D as D. unfold do_finish in D. destruct (v_listening s && hasn d (v_alive s)); injection D as <- <-; left; simpl; tauto.
    + destruct (owns s i); [|discriminate]. injection D as <- <-. left. simpl. tauto.
  - destruct (nth_error (v_threads s) i) as [[|f st]|] eqn:H; try discriminate. destruct f as [| | | | | | | | |d o|d o|n d|d| |o]; try discriminate.
    destruct (user_step s i o a st) as [s1|] eqn:U; [|discriminate]. injection D as <- <-. left.
    destruct a as [| | | | | | |k], o as [c|]; simpl in U; try discriminate; injection U as <-; simpl; tauto.
  - destruct (nth_error (v_threads s) i) as [[|f st]|] eqn:H; try discriminate. destruct f as [| | | | | | | | |d o|d o|n d|d| |o]; try discriminate.
    injection D as <- <-. left. unfold accept_step. destruct (o && ssl); simpl; tauto.
  - destruct (hasn c (v_pending s)); [|discriminate]. injection D as <- <-. left. simpl. destruct ok; (split; [reflexivity | split; intros [X|[]]; discriminate]).
  - destruct (existsb (same_event c ok) (v_events s)); [|discriminate]. injection D as <- <-. left. simpl. tauto.
  - destruct (hasn c (v_shaking s)); [|discriminate]. injection D as <- <-. left. simpl. tauto.
  - injection D as <- <-. left. simpl. tauto.
  - destruct (hasn c (v_kept s)); [|discriminate]. injection D as <- <-. left. simpl. tauto.
  - injection D as <- <-. left. simpl. tauto.
Qed.
Lemma stopped_step : forall s l s' e, inv_lock s -> v_step s l = Some (s', e) -> In (VStopped true) e ->
  v_pool s' = [] /\ total wh (v_threads s') = 0 /\ v_listening s' = v_listening s /\ exists u, e = [VUsers u; VStopped true].
Proof.
  intros s l s' e K D I. destruct l as [i|i a|i ssl|c ok|c ok|c ok|c|c|]; cbn [v_step] in D.
  - destruct (nth_error (v_threads s) i) as [[|f st]|] eqn:H; try discriminate.
    destruct f as [| | | | | | | | |d o|d o|n d|d| |o]; simpl in D; try discriminate.
    + destruct (unlocked s); [|discriminate]. unfold do_start in D. destruct (v_listening s); injection D as <- <-; repeat (destruct I as [I|I]; try discriminate); destruct I.
    + destruct (unlocked s); [|discriminate]. unfold do_listen in D. destruct (v_listening s); injection D as <- <-; destruct I.
    + injection D as <- <-. destruct I as [I|[]]; discriminate.
    + destruct (unlocked s); [|discriminate]. unfold do_stop in D. destruct (v_listening s); injection D as <- <-.
      * destruct I as [I|I]; [discriminate|]. apply in_map_iff in I. destruct I as (x & I & _). discriminate.
      * destruct I as [I|[]]; discriminate.
    + destruct (owns s i) eqn:O; [|discriminate]. injection D as D. apply inv_lock_alt in K. destruct K as [A B]. apply owns_some in O. rewrite O in A.
      assert (Z : total wh (set_nth i st (map (map wake) (v_threads s))) = 0).
      { apply total_zero. intros j st' Hj. apply set_nth_cases in Hj. destruct Hj as [(-> & -> & _)|[NE Hj]].
        - destruct (A _ _ H) as [A1 A2]. rewrite wsum_cons, Nat.eqb_refl in A1. apply followed_none; [eapply followed_tail; eauto | simpl in A1; lia].
        - rewrite nth_map in Hj. destruct (nth_error (v_threads s) j) as [st0|] eqn:E; [|discriminate]. injection Hj as <-. rewrite wsum_wake by reflexivity.
          destruct (A _ _ E) as [A1 A2]. destruct (Nat.eqb_spec j i); [congruence|]. apply followed_none; auto. }
      unfold do_stop_loop, stop_end in D. destruct (v_pool s) eqn:P; [|destruct (prune s)].
      * injection D as <- <-. simpl. rewrite wake_eq. rewrite P. eauto.
      * injection D as <- <-. simpl. rewrite wake_eq. eauto.
      * injection D as <- <-. destruct I.
    + destruct (unlocked s); [|discriminate]. injection D as <- <-. destruct I.
    + destruct (unlocked s); [|discriminate]. destruct (v_listening s); injection D as <- <-; repeat (destruct I as [I|I]; try discriminate); destruct I.
    + destruct (unlocked s); [|discriminate]. injection D as <- <-. destruct I as [I|[]]; discriminate.
    + injection D as <- <-. destruct I.
    + injection D as <- <-. destruct I as [I|[]]; discriminate.
    + destruct (unlocked s); [|discriminate]. injection D as D. unfold do_finish in D. destruct (v_listening s && hasn d (v_alive s)); injection D as <- <-; destruct I.
    + destruct (owns s i); [|discriminate]. injection D as <- <-. destruct I.
  - destruct (nth_error (v_threads s) i) as [[|f st]|] eqn:H; try discriminate. destruct f as [| | | | | | | | |d o|d o|n d|d| |o]; try discriminate.
    destruct (user_step s i o a st) as [s1|] eqn:U; [|discriminate]. injection D as <- <-. destruct I.
  - destruct (nth_error (v_threads s) i) as [[|f st]|] eqn:H; try discriminate. destruct f as [| | | | | | | | |d o|d o|n d|d| |o]; try discriminate.
    injection D as <- <-. destruct I.
  - destruct (hasn c (v_pending s)); [|discriminate]. injection D as <- <-. destruct ok, I as [I|[]]; discriminate.
  - destruct (existsb (same_event c ok) (v_events s)); [|discriminate]. injection D as <- <-. destruct I.
  - destruct (hasn c (v_shaking s)); [|discriminate]. injection D as <- <-. destruct I.
  - injection D as <- <-. destruct I.
  - destruct (hasn c (v_kept s)); [|discriminate]. injection D as <- <-. destruct I.
  - injection D as <- <-. destruct I.
Qed.
Lemma stopping_flag : forall ls s tr, run v_step v_init ls = Some (s, tr) -> forall a b, tr = a ++ VStopping :: b -> ~ In VStarted b -> v_listening s = false.
Proof.
  apply (run_ind v_step (fun s tr => forall a b, tr = a ++ VStopping :: b -> ~ In VStarted b -> v_listening s = false)).
  - intros [|] b H; discriminate.
  - intros s tr l s' e I D a b H N. apply split_snoc in H. destruct (flag_step _ _ _ _ D) as [(F & N1 & N2)|[(F1 & F2 & F3)|(F1 & F2 & F3)]].
    + rewrite F. destruct H as [(b' & -> & ->)|(a' & -> & ->)]; [|exfalso; apply N2; apply in_or_app; right; left; reflexivity].
      eapply I; [reflexivity|]. intros X. apply N. apply in_or_app. auto.
    + destruct H as [(b' & -> & ->)|(a' & -> & ->)].
      * exfalso. apply N. apply in_or_app. right. rewrite F3. left. reflexivity.
      * destruct a' as [|x [|y a']]; discriminate.
    + exact F2.
Qed.
Lemma after_stop : forall ls s tr, run v_step v_init ls = Some (s, tr) ->
  forall a b d, tr = (a ++ VStopping :: b) ++ VStopped true :: d -> ~ In VStarted (b ++ d) -> quiet s /\ forall x, In x d -> quiet_event x.
Proof.
  induction ls as [|l ls IH] using rev_ind; intros s tr R a b d H N.
  - injection R as <- <-. destruct a; discriminate.
  - apply run_snoc in R. destruct R as (s1 & t1 & e & R & D & ->). specialize (IH _ _ R). destruct (v_inv _ _ _ R) as [K1 K2].
    apply split_snoc in H. destruct H as [(d' & -> & ->)|(a' & H & E)].
    + destruct (IH a b d' eq_refl) as [Q1 Q2]; [intros X; apply N; rewrite !in_app_iff in *; tauto|].
      destruct (quiet_step _ _ _ _ K1 Q1 D) as [Q3 Q4]; [intros X; apply N; rewrite !in_app_iff in *; tauto|]. split; [exact Q3|].
      intros x X. apply in_app_iff in X. destruct X; auto.
    + assert (I : In (VStopped true) e) by (rewrite E; apply in_or_app; right; left; reflexivity).
      destruct (stopped_step _ _ _ _ K2 D I) as (P & W & L & u & ->). destruct a' as [|x [|y [|z a']]]; try discriminate; injection E; intros; subst; try discriminate.
      split; [|intros x []]. split; [|auto]. rewrite L. symmetry in H. apply split_snoc in H.
      destruct H as [(b' & -> & ->)|(a' & -> & H)]; [|destruct a' as [|? [|? ?]]; discriminate]. eapply stopping_flag; eauto. intros X. apply N. rewrite !in_app_iff in *. tauto.
Qed.

(** C49, for the calls of stop that find the server listening. When such a call returns no connection is left in the pool. If
    start has not taken effect since it began, then until start takes effect again no connection is accepted, no accept
    operation ends, no handler is called for any connection, and get_connections gives 0; whatever the threads of the server
    and the user do, with or without SSL. Missing: a call of stop that finds another call of stop waiting returns at once, see
    below. That stop returns in the end is not claimed: it waits for the handlers. *)
Theorem C49_stop_partial :
  (forall ls s tr l s' e, run v_step v_init ls = Some (s, tr) -> v_step s l = Some (s', e) -> In (VStopped true) e -> v_pool s' = [])
  /\ (forall ls s tr a b d, run v_step v_init ls = Some (s, tr) -> tr = (a ++ VStopping :: b) ++ VStopped true :: d -> ~ In VStarted (b ++ d) ->
      forall x, In x d -> quiet_event x).
Proof.
  split.
  - intros ls s tr l s' e R D I. exact (proj1 (stopped_step _ _ _ _ (proj2 (v_inv _ _ _ R)) D I)).
  - intros ls s tr a b d R H N. exact (proj2 (after_stop _ _ _ R a b d H N)).
Qed.
Print Assumptions C49_stop_partial.

(** a connection is accepted and handed to a handler that keeps it; stop waits for it; it is finished; stop returns *)
Definition serving : list vlab := [LMain; LUser 0 UStart; LThread 0; LThread 0; LThread 0; LIncoming 0 true; LEvent 0 true; LAcceptEnd 1 false; LThread 1; LThread 1; LUser 1 UKeep; LUser 1 UReturn].
Definition stopping : list vlab := serving ++ [LUser 0 UStop; LThread 0; LEvent 1 false; LAcceptEnd 2 false; LThread 0].
Definition stopped : list vlab := stopping ++ [LThread 2; LCallback 0; LUser 3 UFinish; LThread 3; LUser 3 UReturn; LThread 0; LThread 0].
Example C49_case : exists s, run v_step v_init (stopped ++ [LUser 0 UCount; LThread 0]) =
  Some (s, ([VStarted; VUsers 1; VAccepted 0; VHandled 0] ++ VStopping :: [VFailed 1; VUsers 0]) ++ VStopped true :: [VCount 0]).
Proof. eexists. vm_compute. reflexivity. Qed.

(** The claim for every call of stop. *)
Definition stop_means_stopped : Prop := forall ls s tr l s' e b, run v_step v_init ls = Some (s, tr) -> v_step s l = Some (s', e) -> In (VStopped b) e -> v_pool s' = [].
(** Refuted: while one thread waits in stop for a connection, stop called by another thread returns, with the connection open. *)
Theorem C49_second_stop_refuted : ~ stop_means_stopped.
Proof.
  intros H. assert (R : exists s tr, run v_step v_init (stopping ++ [LMain; LUser 3 UStop]) = Some (s, tr) /\ exists s', v_step s (LThread 3) = Some (s', [VStopped false]) /\ v_pool s' = [1; 0]).
  { eexists; eexists; split; [vm_compute; reflexivity|]. eexists; split; vm_compute; reflexivity. }
  destruct R as (s & tr & R & s' & D & P). specialize (H _ _ _ _ _ _ false R D (or_introl eq_refl)). congruence.
Qed.
Print Assumptions C49_second_stop_refuted.

(* ------------------------------------------------------------------ counting connections *)

(** The claim: at no time more connections are reported than were accepted so far. *)
Definition count_bounded : Prop := forall ls s tr a n b, run v_step v_init ls = Some (s, tr) -> tr = a ++ VCount n :: b -> (n <= Z.of_nat (many is_accepted a))%Z.
(** Refuted: between the two critical sections of start the server listens but has no connection waiting to be accepted. *)
Theorem C50_count_refuted : ~ count_bounded.
Proof.
  intros H. assert (R : exists s, run v_step v_init [LMain; LUser 0 UStart; LThread 0; LMain; LUser 1 UCount; LThread 1] = Some (s, [VStarted] ++ VCount (two64 - 1) :: [])) by (eexists; vm_compute; reflexivity).
  destruct R as (s & R). specialize (H _ _ _ _ _ _ R eq_refl). revert H. vm_compute. intros H. apply H. reflexivity.
Qed.
Print Assumptions C50_count_refuted.

(** every connection of the pool waits to be accepted, or was, or failed to be *)
Definition from_trace (s : tsrv) (tr : list vev) : Prop :=
  (forall c, In c (v_pool s) -> In c (v_pending s) \/ In (VAccepted c) tr \/ In (VFailed c) tr) /\ NoDup (v_pool s)
  /\ (v_listening s = false -> v_pending s = []).
Lemma NoDup_filter' {A} (p : A -> bool) : forall l, NoDup l -> NoDup (filter p l).
Proof. intros l. apply NoDup_filter. Qed.
Lemma pool_trace : forall ls s tr, run v_step v_init ls = Some (s, tr) -> inv_conn s /\ from_trace s tr.
Proof.
  apply (run_ind v_step (fun s tr => inv_conn s /\ from_trace s tr)).
  - split; [exact (proj1 (v_inv [] _ _ eq_refl))|]. split; [intros c [] | split; [constructor | reflexivity]].
  - intros s tr l s' e [K (I1 & I2 & I3)] D. split; [eapply conn_step; eauto|].
    assert (SAME : forall s0, v_pool s0 = v_pool s -> v_pending s0 = v_pending s -> (v_listening s0 = v_listening s) -> from_trace s0 (tr ++ e)).
    { intros s0 E1 E2 E3. unfold from_trace. rewrite E1, E2, E3. split; [|auto]. intros c X. rewrite !in_app_iff. destruct (I1 c X) as [Y|[Y|Y]]; auto. }
    assert (LESS : forall s0, (forall c, In c (v_pool s0) -> In c (v_pool s)) -> NoDup (v_pool s0) -> v_pending s0 = v_pending s -> (v_listening s0 = v_listening s) -> from_trace s0 (tr ++ e)).
    { intros s0 E1 E0 E2 E3. unfold from_trace. rewrite E2, E3. split; [|auto]. intros c X. rewrite !in_app_iff. destruct (I1 c (E1 c X)) as [Y|[Y|Y]]; auto. }
    destruct l as [i|i a|i ssl|c ok|c ok|c ok|c|c|]; cbn [v_step] in D.
    + destruct (nth_error (v_threads s) i) as [[|f st]|] eqn:H; try discriminate.
      destruct f as [| | | | | | | | |d o|d o|n d|d| |o]; simpl in D; try discriminate.
      * destruct (unlocked s); [|discriminate]. unfold do_start in D. destruct (v_listening s) eqn:L; injection D as <- <-; [apply SAME; auto|].
        split; [intros c X; rewrite !in_app_iff; destruct (I1 c X) as [Y|[Y|Y]]; auto | split; [exact I2 | discriminate]].
      * destruct (unlocked s); [|discriminate]. unfold do_listen in D. destruct (v_listening s) eqn:L; injection D as <- <-; [|apply SAME; auto].
        split; [|split; [|discriminate]]; simpl.
        -- intros c [<-|X]; [auto|]. apply prune_In in X. rewrite app_nil_r. destruct (I1 c X) as [Y|[Y|Y]]; auto.
        -- constructor; [|apply NoDup_filter; exact I2]. intros X. apply prune_In in X. destruct (K (v_next s)) as (_ & _ & K3). specialize (K3 (or_intror X)). lia.
      * injection D as <- <-. apply SAME; auto.
      * destruct (unlocked s); [|discriminate]. unfold do_stop in D. destruct (v_listening s) eqn:L; injection D as <- <-; [|apply SAME; auto].
        split; [|split; [exact I2 | reflexivity]]. simpl. intros c X. rewrite !in_app_iff. destruct (I1 c X) as [Y|[Y|Y]]; auto.
        right. right. right. right. apply in_map. exact Y.
      * destruct (owns s i); [|discriminate]. injection D as D. unfold do_stop_loop, stop_end in D. destruct (v_pool s) eqn:P; [|destruct (prune s) eqn:Q].
        -- injection D as <- <-. apply SAME; simpl; auto.
        -- injection D as <- <-. apply LESS; simpl; auto; [intros c [] | constructor].
        -- injection D as <- <-. apply LESS; simpl; auto.
           ++ intros c X. change (In c (n :: l)). rewrite <- P. apply (prune_In s c). rewrite Q. exact X.
           ++ rewrite <- Q. apply NoDup_filter. rewrite P. exact I2.
      * destruct (unlocked s); [|discriminate]. injection D as <- <-. apply SAME; auto.
      * destruct (unlocked s); [|discriminate]. destruct (v_listening s) eqn:L; injection D as <- <-; apply SAME; auto.
      * destruct (unlocked s); [|discriminate]. injection D as <- <-. apply SAME; auto.
      * injection D as <- <-. apply SAME; auto.
      * injection D as <- <-. apply SAME; auto.
      * destruct (unlocked s); [|discriminate]. injection D as D. unfold do_finish in D. destruct (v_listening s && hasn d (v_alive s)); injection D as <- <-; [apply SAME; auto|].
        apply LESS; simpl; auto; [intros c X; apply del_In in X; tauto | apply NoDup_filter; exact I2].
      * destruct (owns s i); [|discriminate]. injection D as <- <-. apply SAME; auto.
    + destruct (nth_error (v_threads s) i) as [[|f st]|] eqn:H; try discriminate. destruct f as [| | | | | | | | |d o|d o|n d|d| |o]; try discriminate.
      destruct (user_step s i o a st) as [s1|] eqn:U; [|discriminate]. injection D as <- <-.
      destruct a as [| | | | | | |k], o as [c|]; simpl in U; try discriminate; injection U as <-; apply SAME; auto.
    + destruct (nth_error (v_threads s) i) as [[|f st]|] eqn:H; try discriminate. destruct f as [| | | | | | | | |d o|d o|n d|d| |o]; try discriminate.
      injection D as <- <-. unfold accept_step. destruct (o && ssl); apply SAME; auto.
    + destruct (hasn c (v_pending s)) eqn:E; [|discriminate]. injection D as <- <-. split; [|split; [exact I2|]]; simpl.
      * intros x X. rewrite del_In, !in_app_iff. destruct (Nat.eq_dec x c) as [->|N]; [destruct ok; simpl; auto|]. destruct (I1 x X) as [Y|[Y|Y]]; auto.
      * intros L. rewrite (I3 L). reflexivity.
    + destruct (existsb (same_event c ok) (v_events s)); [|discriminate]. injection D as <- <-. apply SAME; auto.
    + destruct (hasn c (v_shaking s)); [|discriminate]. injection D as <- <-. apply SAME; auto.
    + injection D as <- <-. apply SAME; auto.
    + destruct (hasn c (v_kept s)); [|discriminate]. injection D as <- <-. apply SAME; auto.
    + injection D as <- <-. apply SAME; auto.
Qed.
(** the connections accepted and those not accepted because of an error *)
Definition ended (tr : list vev) : list nat := flat_map (fun x => match x with VAccepted c | VFailed c => [c] | _ => [] end) tr.
Lemma ended_len : forall tr, length (ended tr) = many is_accepted tr + many is_failed tr.
Proof. unfold many. induction tr as [|[| |[|]| |c|c|c|n|n] tr IH]; simpl; lia. Qed.
Lemma ended_In : forall tr c, In (VAccepted c) tr \/ In (VFailed c) tr -> In c (ended tr).
Proof.
  intros tr c H. unfold ended. apply in_flat_map. destruct H as [H|H]; [exists (VAccepted c) | exists (VFailed c)]; (split; [exact H | left; reflexivity]).
Qed.
(** C50, in the states in which the server has one accept operation waiting or does not listen: the number reported is at most
    the number of connections accepted so far and of accept operations that failed. Missing: other states, see above; that
    failed accept operations, which are in the pool until their handler has run, are not counted, which is also false. *)
Theorem C50_count_partial : forall ls s tr l s' e n, run v_step v_init ls = Some (s, tr) -> v_step s l = Some (s', e) -> In (VCount n) e ->
  (v_listening s = true -> length (v_pending s) = 1) -> (0 <= n <= Z.of_nat (many is_accepted tr + many is_failed tr))%Z.
Proof.
  intros ls s tr l s' e n R D I ONE. destruct (pool_trace _ _ _ R) as [K (I1 & I2 & I3)].
  assert (N : n = do_count s).
  { destruct l as [i|i a|i ssl|c ok|c ok|c ok|c|c|]; cbn [v_step] in D.
    - destruct (nth_error (v_threads s) i) as [[|f st]|] eqn:H; try discriminate.
      destruct f as [| | | | | | | | |d o|d o|m d|d| |o]; simpl in D; try discriminate.
      + destruct (unlocked s); [|discriminate]. unfold do_start in D. destruct (v_listening s); injection D as <- <-; repeat (destruct I as [I|I]; try discriminate); destruct I.
      + destruct (unlocked s); [|discriminate]. unfold do_listen in D. destruct (v_listening s); injection D as <- <-; destruct I.
      + injection D as <- <-. destruct I as [I|[]]; discriminate.
      + destruct (unlocked s); [|discriminate]. unfold do_stop in D. destruct (v_listening s); injection D as <- <-.
        * destruct I as [I|I]; [discriminate|]. apply in_map_iff in I. destruct I as (x & I & _). discriminate.
        * destruct I as [I|[]]; discriminate.
      + destruct (owns s i) eqn:O; [|discriminate]. injection D as D.
        unfold do_stop_loop, stop_end in D. destruct (v_pool s) eqn:P; [|destruct (prune s)]; injection D as <- <-; repeat (destruct I as [I|I]; try discriminate); destruct I.
      + destruct (unlocked s); [|discriminate]. injection D as <- <-. destruct I.
      + destruct (unlocked s); [|discriminate]. destruct (v_listening s); injection D as <- <-; repeat (destruct I as [I|I]; try discriminate); destruct I.
      + destruct (unlocked s); [|discriminate]. injection D as <- <-. destruct I as [I|[]]. congruence.
      + injection D as <- <-. destruct I.
      + injection D as <- <-. destruct I as [I|[]]; discriminate.
      + destruct (unlocked s); [|discriminate]. injection D as D. unfold do_finish in D. destruct (v_listening s && hasn d (v_alive s)); injection D as <- <-; destruct I.
      + destruct (owns s i); [|discriminate]. injection D as <- <-. destruct I.
    - destruct (nth_error (v_threads s) i) as [[|f st]|] eqn:H; try discriminate. destruct f as [| | | | | | | | |d o|d o|m d|d| |o]; try discriminate.
      destruct (user_step s i o a st) as [s1|] eqn:U; [|discriminate]. injection D as <- <-. destruct I.
    - destruct (nth_error (v_threads s) i) as [[|f st]|] eqn:H; try discriminate. destruct f as [| | | | | | | | |d o|d o|m d|d| |o]; try discriminate.
      injection D as <- <-. destruct I.
    - destruct (hasn c (v_pending s)); [|discriminate]. injection D as <- <-. destruct ok, I as [I|[]]; discriminate.
    - destruct (existsb (same_event c ok) (v_events s)); [|discriminate]. injection D as <- <-. destruct I.
    - destruct (hasn c (v_shaking s)); [|discriminate]. injection D as <- <-. destruct I.
    - injection D as <- <-. destruct I.
    - destruct (hasn c (v_kept s)); [|discriminate]. injection D as <- <-. destruct I.
    - injection D as <- <-. destruct I. }
  subst n. rewrite <- ended_len. unfold do_count, zlen. destruct (v_listening s).
  - specialize (ONE eq_refl). destruct (v_pending s) as [|p [|q r]] eqn:P; try discriminate.
    assert (IP : In p (v_pool s)).
    { destruct (K p) as (_ & K2 & _). apply K2. unfold TcpProofs.fresh. rewrite P, count_cons, Nat.eqb_refl. lia. }
    assert (L : length (v_pool s) <= length (p :: ended tr)).
    { apply NoDup_incl_length; [exact I2|]. intros c X. destruct (I1 c X) as [[Y|[]]|Y]; [left; exact Y | right; apply ended_In; exact Y]. }
    simpl in L. assert (1 <= length (v_pool s)) by (destruct (v_pool s); [destruct IP | simpl; lia]).
    unfold wrap64. split; [apply Z.mod_pos_bound; reflexivity|]. etransitivity; [apply Z.mod_le; [lia | reflexivity]|]. lia.
  - assert (L : length (v_pool s) <= length (ended tr)).
    { apply NoDup_incl_length; [exact I2|]. intros c X. destruct (I1 c X) as [Y|Y]; [rewrite (I3 eq_refl) in Y; destruct Y | apply ended_In; exact Y]. }
    lia.
Qed.
Print Assumptions C50_count_partial.
Example C50_case : exists s tr, run v_step v_init (serving ++ [LMain; LUser 2 UCount]) = Some (s, tr) /\ length (v_pending s) = 1
  /\ exists s', v_step s (LThread 2) = Some (s', [VCount 1]).
Proof. eexists; eexists; split; [vm_compute; reflexivity|]. split; [reflexivity|]. eexists. vm_compute. reflexivity. Qed.

(* ------------------------------------------------------------------ deadlock *)

(** the frames that need the mutex *)
Definition wants_mutex (f : frame) : bool := match f with FStart | FListen | FStop | FStopSleep | FJoin | FCount | FFinish _ => true | _ => false end.
Definition stuck (i : nat) (s : tsrv) : Prop := v_mutex s = Some i /\ exists f st, nth_error (v_threads s) i = Some (f :: st) /\ wants_mutex f = true.
Lemma stuck_step : forall i s l s' e, stuck i s -> v_step s l = Some (s', e) -> stuck i s'.
Proof.
  intros i s l s' e (M & f & st & H & W) D.
  assert (U : unlocked s = false) by (unfold unlocked; rewrite M; reflexivity).
  assert (OWN : forall j, j <> i -> owns s j = false) by (intros j N; unfold owns; rewrite M; apply Nat.eqb_neq; exact N).
  destruct l as [j|j a|j ssl|c ok|c ok|c ok|c|c|]; cbn [v_step] in D.
  - destruct (Nat.eq_dec j i) as [->|N].
    + rewrite H in D. destruct f as [| | | | | | | | |d o|d o|n d|d| |o]; simpl in D, W; try discriminate; rewrite U in D; discriminate.
    + destruct (nth_error (v_threads s) j) as [[|g sj]|] eqn:Hj; try discriminate.
      assert (GO : forall s0 new, v_mutex s0 = v_mutex s -> v_threads s0 = v_threads s -> stuck i (set_stack s0 j new)).
      { intros s0 new E1 E2. split; [simpl; congruence|]. exists f, st. simpl. rewrite E2, set_nth_other by congruence. auto. }
      destruct g as [| | | | | | | | |d o|d o|n d|d| |o]; simpl in D; try discriminate; rewrite ?U, ?(OWN j N) in D; try discriminate; injection D as <- <-; apply GO; reflexivity.
  - destruct (nth_error (v_threads s) j) as [[|g sj]|] eqn:Hj; try discriminate. destruct g as [| | | | | | | | |d o|d o|n d|d| |o]; try discriminate.
    destruct (user_step s j o a sj) as [s1|] eqn:Us; [|discriminate]. injection D as <- <-.
    assert (N : j <> i) by (intros ->; rewrite H in Hj; injection Hj as -> ->; discriminate W).
    assert (GO : forall new, stuck i (set_stack s j new)).
    { intros new. split; [exact M|]. exists f, st. simpl. rewrite set_nth_other by congruence. auto. }
    assert (GO2 : forall a b c d e, stuck i (set_ops s a b c d e)) by (intros; split; [exact M | exists f, st; auto]).
    destruct a as [| | | | | | |k], o as [c|]; simpl in Us; try discriminate; injection Us as <-; auto.
  - destruct (nth_error (v_threads s) j) as [[|g sj]|] eqn:Hj; try discriminate. destruct g as [| | | | | | | | |d o|d o|n d|d| |o]; try discriminate.
    injection D as <- <-. assert (N : j <> i) by (intros ->; rewrite H in Hj; injection Hj as -> ->; discriminate W).
    unfold accept_step. destruct (o && ssl); (split; [exact M|]; exists f, st; simpl; rewrite set_nth_other by congruence; auto).
  - destruct (hasn c (v_pending s)); [|discriminate]. injection D as <- <-. split; [exact M | exists f, st; auto].
  - destruct (existsb (same_event c ok) (v_events s)); [|discriminate]. injection D as <- <-. split; [exact M|]. exists f, st. simpl. split; [apply nth_app_old; exact H | exact W].
  - destruct (hasn c (v_shaking s)); [|discriminate]. injection D as <- <-. split; [exact M|]. exists f, st. simpl. split; [apply nth_app_old; exact H | exact W].
  - injection D as <- <-. split; [exact M | exists f, st; auto].
  - destruct (hasn c (v_kept s)); [|discriminate]. injection D as <- <-. split; [exact M|]. exists f, st. simpl. split; [apply nth_app_old; exact H | exact W].
  - injection D as <- <-. split; [exact M|]. exists f, st. simpl. split; [apply nth_app_old; exact H | exact W].
Qed.
Lemma stuck_run : forall i ls s s' tr, stuck i s -> run v_step s ls = Some (s', tr) -> stuck i s'.
Proof. intros i ls s s' tr S. apply (run_ind v_step (fun s _ => stuck i s) s S). intros ? ? ? ? ? A B. eapply stuck_step; eauto. Qed.

(** The claim: at any time the server can go on, that is, the mutex can be released. *)
Definition never_deadlocked : Prop := forall ls s tr, run v_step v_init ls = Some (s, tr) ->
  exists ls' s' tr', run v_step s ls' = Some (s', tr') /\ v_mutex s' = None.
(** Refuted: a handler keeps its connection alive and finishes it; the handler is called again with the mutex held and
    finishes the connection again. *)
Theorem C51_deadlock_refuted : ~ never_deadlocked.
Proof.
  intros H. assert (R : exists s tr, run v_step v_init (serving ++ [LCallback 0; LUser 2 (ULife true); LUser 2 UFinish; LThread 2; LThread 2; LUser 2 UFinish]) = Some (s, tr) /\ stuck 2 s).
  { eexists; eexists; split; [vm_compute; reflexivity|]. split; [reflexivity|]. eexists; eexists; split; [vm_compute; reflexivity | reflexivity]. }
  destruct R as (s & tr & R & S). destruct (H _ _ _ R) as (ls' & s' & tr' & R' & M). destruct (stuck_run _ _ _ _ _ S R') as [M' _]. congruence.
Qed.
Print Assumptions C51_deadlock_refuted.

(** User code that was called with the mutex held (the handler of a connection kept alive) calls no function of the server. *)
Definition polite (s : tsrv) (l : vlab) : Prop :=
  match l with LUser i a => v_mutex s = Some i -> match a with UReturn | UKeep | ULife _ => True | _ => False end | _ => True end.
(** what the owner of the mutex is doing *)
Definition holder (st : list frame) : Prop :=
  match st with
  | FStopLoop :: _ => True
  | FHandle _ _ :: FUnlock :: _ => True
  | FUser _ :: FUnlock :: _ => True
  | FUnlock :: _ => True
  | _ => False
  end.
Definition held (s : tsrv) : Prop := forall i, v_mutex s = Some i -> exists st, nth_error (v_threads s) i = Some st /\ holder st.
Lemma held_step : forall s l s' e, inv_lock s -> held s -> polite s l -> v_step s l = Some (s', e) -> held s'.
Proof.
  intros s l s' e K H P D.
  assert (SNOC : forall s0 f, v_mutex s0 = v_mutex s -> v_threads s0 = v_threads s -> held (spawn s0 f)).
  { intros s0 f E1 E2 i M. simpl in M. rewrite E1 in M. destruct (H i M) as (st & A & B). exists st. simpl. rewrite E2. split; [apply nth_app_old; exact A | exact B]. }
  assert (OTHER : forall s0 j new, v_mutex s0 = v_mutex s -> v_threads s0 = v_threads s -> v_mutex s <> Some j -> held (set_stack s0 j new)).
  { intros s0 j new E1 E2 N i M. simpl in M. rewrite E1 in M. destruct (H i M) as (st & A & B). exists st. simpl. rewrite E2, set_nth_other by congruence. auto. }
  assert (MINE : forall s0 j old new, nth_error (v_threads s0) j = Some old -> v_mutex s0 = Some j -> holder new -> held (set_stack s0 j new)).
  { intros s0 j old new A E B i M. simpl in M. rewrite E in M. injection M as <-. exists new. simpl. split; [apply set_nth_same; apply (nth_lt _ _ _ A) | exact B]. }
  assert (FREE : forall s0, v_mutex s0 = None -> held s0) by (intros s0 E i M; congruence).
  assert (TOP : forall j f st, nth_error (v_threads s) j = Some (f :: st) -> holder (f :: st) \/ v_mutex s <> Some j).
  { intros j f st A. destruct (v_mutex s) as [k|] eqn:M; [|right; discriminate]. destruct (Nat.eq_dec k j) as [->|N]; [left | right; congruence].
    destruct (H j M) as (st' & A' & B). congruence. }
  destruct l as [i|i a|i ssl|c ok|c ok|c ok|c|c|]; cbn [v_step] in D.
  - destruct (nth_error (v_threads s) i) as [[|f st]|] eqn:A; try discriminate. specialize (TOP _ _ _ A).
    destruct f as [| | | | | | | | |d o|d o|n d|d| |o]; simpl in D; try discriminate.
    + destruct (unlocked s) eqn:U; [|discriminate]. apply unlocked_none in U. unfold do_start in D. destruct (v_listening s); injection D as <- <-; apply FREE; exact U.
    + destruct (unlocked s) eqn:U; [|discriminate]. apply unlocked_none in U. unfold do_listen in D. destruct (v_listening s); injection D as <- <-; apply FREE; exact U.
    + injection D as <- <-. destruct TOP as [[]|N]. apply OTHER; auto.
    + destruct (unlocked s) eqn:U; [|discriminate]. apply unlocked_none in U. unfold do_stop in D. destruct (v_listening s); injection D as <- <-; [|apply FREE; exact U].
      eapply MINE; [exact A | reflexivity | exact Logic.I].
    + destruct (owns s i) eqn:U; [|discriminate]. injection D as D. unfold do_stop_loop, stop_end in D. destruct (v_pool s); [|destruct (prune s)]; injection D as <- <-; apply FREE; reflexivity.
    + destruct (unlocked s) eqn:U; [|discriminate]. injection D as <- <-. eapply MINE; [exact A | reflexivity | exact Logic.I].
    + destruct (unlocked s) eqn:U; [|discriminate]. apply unlocked_none in U. destruct (v_listening s); injection D as <- <-; apply FREE; exact U.
    + destruct (unlocked s) eqn:U; [|discriminate]. apply unlocked_none in U. injection D as <- <-. apply FREE; exact U.
    + injection D as <- <-. destruct TOP as [[]|N]. apply OTHER; auto.
    + injection D as <- <-. destruct (v_mutex s) as [k|] eqn:M; [|apply FREE; exact M]. destruct (Nat.eq_dec k i) as [->|N].
      * destruct TOP as [B|B]; [|congruence]. eapply MINE; [exact A | exact M|]. destruct st as [|[| | | | | | | | |? ?|? ?|? ?|?| |?] st]; simpl in *; tauto.
      * apply OTHER; auto. congruence.
    + destruct (unlocked s) eqn:U; [|discriminate]. apply unlocked_none in U. injection D as D. unfold do_finish in D. destruct (v_listening s && hasn d (v_alive s)); injection D as <- <-.
      * eapply MINE; [exact A | reflexivity | exact Logic.I].
      * apply FREE; exact U.
    + destruct (owns s i) eqn:U; [|discriminate]. injection D as <- <-. apply FREE; reflexivity.
  - destruct (nth_error (v_threads s) i) as [[|f st]|] eqn:A; try discriminate. destruct f as [| | | | | | | | |d o|d o|n d|d| |o]; try discriminate.
    destruct (user_step s i o a st) as [s1|] eqn:U; [|discriminate]. injection D as <- <-.
    destruct (v_mutex s) as [k|] eqn:M.
    2:{ apply FREE. destruct a as [| | | | | | |b], o as [c|]; simpl in U; try discriminate; injection U as <-; exact M. }
    destruct (Nat.eq_dec k i) as [->|N].
    + simpl in P. rewrite M in P. specialize (P eq_refl). destruct (TOP _ _ _ A) as [B|B]; [|congruence].
      destruct a as [| | | | | | |b]; try contradiction.
      * injection U as <-. eapply MINE; [exact A | exact M|]. simpl in B. destruct st as [|[| | | | | | | | |? ?|? ?|? ?|?| |?] st]; simpl in *; tauto.
      * destruct o as [c|]; [|discriminate]. injection U as <-. exact H.
      * destruct o as [c|]; [|discriminate]. injection U as <-. exact H.
    + destruct a as [| | | | | | |b], o as [c|]; simpl in U; try discriminate; injection U as <-; try (apply OTHER; auto; congruence);
        exact H.
  - destruct (nth_error (v_threads s) i) as [[|f st]|] eqn:A; try discriminate. destruct f as [| | | | | | | | |d o|d o|n d|d| |o]; try discriminate.
    injection D as <- <-. destruct (TOP _ _ _ A) as [[]|N]. unfold accept_step. destruct (o && ssl); apply OTHER; auto.
  - destruct (hasn c (v_pending s)); [|discriminate]. injection D as <- <-. exact H.
  - destruct (existsb (same_event c ok) (v_events s)); [|discriminate]. injection D as <- <-. apply SNOC; reflexivity.
  - destruct (hasn c (v_shaking s)); [|discriminate]. injection D as <- <-. apply SNOC; reflexivity.
  - injection D as <- <-. exact H.
  - destruct (hasn c (v_kept s)); [|discriminate]. injection D as <- <-. apply SNOC; reflexivity.
  - injection D as <- <-. apply SNOC; reflexivity.
Qed.
(** C51, if handlers called with the mutex held do not call functions of the server before they return: at any time the mutex
    is free or its owner can go on until it releases it, in at most three steps of its own. Missing: other handlers. *)
Theorem C51_deadlock_partial : forall ls s tr, run v_step v_init ls = Some (s, tr) -> allowed v_step polite v_init ls ->
  v_mutex s = None \/ exists i ls' s' tr', v_mutex s = Some i /\ (forall l, In l ls' -> l = LThread i \/ l = LUser i UReturn) /\ length ls' <= 3
    /\ run v_step s ls' = Some (s', tr') /\ v_mutex s' = None.
Proof.
  intros ls s tr R A.
  assert (G : inv_lock s /\ held s).
  { revert R A. apply (allowed_run_ind v_step polite (fun s _ => inv_lock s /\ held s) v_init).
    - split; [exact (proj2 (v_inv [] _ _ eq_refl)) | intros i M; discriminate].
    - intros s0 _ l s1 e [I1 I2] P D. split; [eapply lock_step; eauto | eapply held_step; eauto]. }
  destruct G as [_ G]. destruct (v_mutex s) as [i|] eqn:M; [right | auto]. destruct (G i M) as (st & H & B). exists i.
  assert (OW : forall s0, v_mutex s0 = Some i -> owns s0 i = true) by (intros s0 E; unfold owns; rewrite E; apply Nat.eqb_refl).
  pose proof (nth_lt _ _ _ H) as LT.
  assert (ONE : forall s0 st0, v_mutex s0 = Some i -> nth_error (v_threads s0) i = Some (FUnlock :: st0) -> run v_step s0 [LThread i] = Some (set_stack (set_mutex s0 None) i st0, [])).
  { intros s0 st0 E0 H0. cbn. rewrite H0. cbn. rewrite OW by exact E0. reflexivity. }
  assert (TWO : forall s0 o st0, v_mutex s0 = Some i -> nth_error (v_threads s0) i = Some (FUser o :: FUnlock :: st0) ->
    exists s', run v_step s0 [LUser i UReturn; LThread i] = Some (s', []) /\ v_mutex s' = None).
  { intros s0 o st0 E0 H0. pose proof (nth_lt _ _ _ H0). assert (Q : run v_step (set_stack s0 i (FUnlock :: st0)) [LThread i] = Some (set_stack (set_mutex (set_stack s0 i (FUnlock :: st0)) None) i st0, [])).
    { apply ONE; [exact E0 | simpl; apply set_nth_same; assumption]. }
    exists (set_stack (set_mutex (set_stack s0 i (FUnlock :: st0)) None) i st0). split; [|reflexivity]. change (run v_step s0 ([LUser i UReturn] ++ [LThread i]) = Some (set_stack (set_mutex (set_stack s0 i (FUnlock :: st0)) None) i st0, [])).
    apply run_app. exists (set_stack s0 i (FUnlock :: st0)), [], []. split; [|split; [exact Q | reflexivity]]. cbn. rewrite H0. reflexivity. }
  destruct st as [|f st]; [contradiction|]. destruct f as [| | | | | | | | |d o|d o|n d|d| |o]; simpl in B; try contradiction.
  - exists [LThread i]. assert (Q : exists s' e, v_step s (LThread i) = Some (s', e) /\ v_mutex s' = None).
    { cbn [v_step]. rewrite H. simpl. rewrite OW by exact M. unfold do_stop_loop, stop_end. destruct (v_pool s); [|destruct (prune s)]; eexists; eexists; (split; [reflexivity | reflexivity]). }
    destruct Q as (s' & e & Q & N). exists s', (e ++ []). split; [exact eq_refl|]. split; [intros l [<-|[]]; auto|]. split; [simpl; lia|]. split; [|exact N]. cbn [run]. rewrite Q. reflexivity.
  - destruct st as [|[| | | | | | | | |? ?|? ?|? ?|?| |?] st]; try contradiction.
    assert (Q : v_step s (LThread i) = Some (set_stack s i (FUser (Some d) :: FUnlock :: st), [VHandled d])) by (cbn [v_step]; rewrite H; reflexivity).
    destruct (TWO (set_stack s i (FUser (Some d) :: FUnlock :: st)) (Some d) st M ltac:(simpl; apply set_nth_same; exact LT)) as (s' & R' & N).
    exists [LThread i; LUser i UReturn; LThread i], s', ([VHandled d] ++ []). split; [exact eq_refl|]. split; [intros l [<-|[<-|[<-|[]]]]; auto|]. split; [simpl; lia|]. split; [|exact N].
    change [LThread i; LUser i UReturn; LThread i] with ([LThread i] ++ [LUser i UReturn; LThread i]). apply run_app.
    eexists; eexists; eexists. split; [cbn [run]; rewrite Q; reflexivity|]. split; [exact R' | reflexivity].
  - exists [LThread i]. eexists; eexists. split; [exact eq_refl|]. split; [intros l [<-|[]]; auto|]. split; [simpl; lia|]. split; [apply ONE; [exact M | exact H] | reflexivity].
  - destruct st as [|[| | | | | | | | |? ?|? ?|? ?|?| |?] st]; try contradiction. destruct (TWO s o st M H) as (s' & R' & N).
    exists [LUser i UReturn; LThread i], s', []. split; [exact eq_refl|]. split; [intros l [<-|[<-|[]]]; auto|]. split; [simpl; lia|]. auto.
Qed.
Print Assumptions C51_deadlock_partial.
(** the handler of a connection kept alive runs with the mutex held *)
Example C51_case : exists s tr, run v_step v_init (serving ++ [LCallback 0; LUser 2 (ULife true); LUser 2 UFinish; LThread 2; LThread 2; LUser 2 UKeep]) = Some (s, tr)
  /\ allowed v_step polite v_init (serving ++ [LCallback 0; LUser 2 (ULife true); LUser 2 UFinish; LThread 2; LThread 2; LUser 2 UKeep]) /\ v_mutex s = Some 2.
Proof.
  eexists; eexists; split; [vm_compute; reflexivity|]. split; [|reflexivity].
  unfold serving. simpl app. repeat (eapply al_cons; [simpl; try exact Logic.I; try discriminate | vm_compute; reflexivity|]); [intros _; exact Logic.I | apply al_nil].
Qed.

(* ------------------------------------------------------------------ joining, and the users of the scheduler *)

Definition wa (f : frame) : nat := match f with FAddUser => 1 | _ => 0 end.
Definition ws (f : frame) : nat := match f with FStopLoop | FStopSleep => 1 | _ => 0 end.
Definition wj (f : frame) : nat := match f with FJoinWait => 1 | _ => 0 end.
Definition on (b : bool) : nat := if b then 1 else 0.
Local Arguments on : simpl never.
Local Arguments Z.of_nat : simpl never.
Local Arguments Z.sub : simpl never.
Local Arguments Z.add : simpl never.
Definition tops (s : tsrv) : Prop := forall j f st, nth_error (v_threads s) j = Some (f :: st) -> wsum wj st = 0.
Lemma tops_run : forall ls s tr, run v_step v_init ls = Some (s, tr) -> tops s.
Proof.
  apply (run_ind v_step (fun s _ => tops s)); [intros [|j] f st H; discriminate|].
  intros s _ l s' e T D.
  assert (SNOC : forall s0 f, v_threads s0 = v_threads s -> tops (spawn s0 f)).
  { intros s0 f E j g st H. simpl in H. rewrite E in H. destruct (Nat.lt_ge_cases j (length (v_threads s))) as [X|X].
    - rewrite nth_error_app1 in H by exact X. eapply T; eauto.
    - rewrite nth_error_app2 in H by exact X. destruct (j - length (v_threads s)) as [|k]; [injection H as <- <-; reflexivity | destruct k; discriminate]. }
  assert (SET : forall s0 i new, v_threads s0 = v_threads s -> (forall f st, new = f :: st -> wsum wj st = 0) -> tops (set_stack s0 i new)).
  { intros s0 i new E W j g st H. simpl in H. rewrite E in H. destruct (set_nth_cases _ _ _ _ _ H) as [(_ & W' & _)|[_ H']]; [eapply W; symmetry; exact W' | eapply T; eauto]. }
  assert (TAIL : forall st, wsum wj st = 0 -> forall f st', st = f :: st' -> wsum wj st' = 0).
  { intros st W f st' ->. rewrite wsum_cons in W. lia. }
  assert (NEW : forall g st, wj g = 0 -> wsum wj st = 0 -> wsum wj (g :: st) = 0) by (intros g st E W; rewrite wsum_cons; lia).
  destruct l as [i|i a|i ssl|c ok|c ok|c ok|c|c|]; cbn [v_step] in D.
  - destruct (nth_error (v_threads s) i) as [[|f st]|] eqn:H; try discriminate. pose proof (T _ _ _ H) as W.
    destruct f as [| | | | | | | | |d o|d o|n d|d| |o]; simpl in D; try discriminate.
    + destruct (unlocked s); [|discriminate]. unfold do_start in D. destruct (v_listening s); injection D as <- <-; apply SET; auto; [eapply TAIL; eauto | intros ? ? X; injection X as <- <-; apply NEW; auto].
    + destruct (unlocked s); [|discriminate]. unfold do_listen in D. destruct (v_listening s); injection D as <- <-; apply SET; auto; eapply TAIL; eauto.
    + injection D as <- <-; apply SET; auto; eapply TAIL; eauto.
    + destruct (unlocked s); [|discriminate]. unfold do_stop in D. destruct (v_listening s); injection D as <- <-; apply SET; auto; [intros ? ? X; injection X as <- <-; auto | eapply TAIL; eauto].
    + destruct (owns s i); [|discriminate]. injection D as D.
      assert (END : forall s0, v_threads s0 = v_threads s -> tops (fst (stop_end s0 i st))).
      { intros s0 E j g st' X. unfold stop_end in X. simpl in X. rewrite wake_eq, E in X. destruct (set_nth_cases _ _ _ _ _ X) as [(_ & X' & _)|[_ X']]; [eapply TAIL; eauto|].
        rewrite nth_map in X'. destruct (nth_error (v_threads s) j) as [[|f0 l]|] eqn:Y; try discriminate. injection X' as <- <-. pose proof (T _ _ _ Y) as Z0.
        clear - Z0. induction l as [|f l IH]; [reflexivity|]. simpl. rewrite wsum_cons in *. rewrite IH by lia. destruct f; simpl in *; lia. }
      unfold do_stop_loop in D. destruct (v_pool s) eqn:P; [|destruct (prune s) eqn:Q].
      * specialize (END s eq_refl). rewrite D in END. exact END.
      * specialize (END (set_pool s []) eq_refl). rewrite D in END. exact END.
      * injection D as <- <-. apply SET; auto. intros ? ? X; injection X as <- <-; auto.
    + destruct (unlocked s); [|discriminate]. injection D as <- <-; apply SET; auto. intros ? ? X; injection X as <- <-; auto.
    + destruct (unlocked s); [|discriminate]. destruct (v_listening s); injection D as <- <-; apply SET; auto; [intros ? ? X; injection X as <- <-; auto | eapply TAIL; eauto].
    + destruct (unlocked s); [|discriminate]. injection D as <- <-; apply SET; auto. eapply TAIL; eauto.
    + injection D as <- <-; apply SET; auto. intros ? ? X; injection X as <- <-; auto.
    + injection D as <- <-; apply SET; auto. intros ? ? X; injection X as <- <-; auto.
    + destruct (unlocked s); [|discriminate]. injection D as D. unfold do_finish in D. destruct (v_listening s && hasn d (v_alive s)); injection D as <- <-; apply SET; auto; [intros ? ? X; injection X as <- <-; auto | eapply TAIL; eauto].
    + destruct (owns s i); [|discriminate]. injection D as <- <-; apply SET; auto. eapply TAIL; eauto.
  - destruct (nth_error (v_threads s) i) as [[|f st]|] eqn:H; try discriminate. pose proof (T _ _ _ H) as W. destruct f as [| | | | | | | | |d o|d o|n d|d| |o]; try discriminate.
    destruct (user_step s i o a st) as [s1|] eqn:U; [|discriminate]. injection D as <- <-.
    destruct a as [| | | | | | |k], o as [c|]; simpl in U; try discriminate; injection U as <-; try exact T; apply SET; auto; try (eapply TAIL; eauto; fail); intros ? ? X; injection X as <- <-; auto.
  - destruct (nth_error (v_threads s) i) as [[|f st]|] eqn:H; try discriminate. pose proof (T _ _ _ H) as W. destruct f as [| | | | | | | | |d o|d o|n d|d| |o]; try discriminate.
    injection D as <- <-. unfold accept_step. destruct o, ssl; simpl; (apply SET; [reflexivity|]); destruct (v_listening s); intros ? ? X; try (injection X as <- <-; auto); eapply TAIL; eauto.
  - destruct (hasn c (v_pending s)); [|discriminate]. injection D as <- <-. exact T.
  - destruct (existsb (same_event c ok) (v_events s)); [|discriminate]. injection D as <- <-. apply SNOC; reflexivity.
  - destruct (hasn c (v_shaking s)); [|discriminate]. injection D as <- <-. apply SNOC; reflexivity.
  - injection D as <- <-. exact T.
  - destruct (hasn c (v_kept s)); [|discriminate]. injection D as <- <-. apply SNOC; reflexivity.
  - injection D as <- <-. apply SNOC; reflexivity.
Qed.
Definition books (s : tsrv) (tr : list vev) : Prop :=
  many is_started tr = on (v_listening s) + many is_stopping tr
  /\ many is_stopping tr = many is_stopped tr + total ws (v_threads s)
  /\ many is_users tr + total wa (v_threads s) + total ws (v_threads s) = many is_started tr + many is_stopping tr
  /\ v_users s = wrap32 (Z.of_nat (on (v_listening s)) - Z.of_nat (total wa (v_threads s)) + Z.of_nat (total ws (v_threads s)))
  /\ (0 < total wj (v_threads s) -> v_listening s = true \/ 0 < total ws (v_threads s)).
Lemma many_app : forall p a b, many p (a ++ b) = many p a + many p b.
Proof. intros. unfold many. rewrite filter_app, app_length. reflexivity. Qed.
Lemma many_failed : forall p l, (forall c, p (VFailed c) = false) -> many p (map VFailed l) = 0.
Proof. intros p l H. unfold many. induction l as [|c l IH]; [reflexivity|]. simpl. rewrite H. exact IH. Qed.
Lemma many_cons : forall p x tr, many p (x :: tr) = (if p x then 1 else 0) + many p tr.
Proof. intros. unfold many. simpl. destruct (p x); reflexivity. Qed.
Lemma many_nil : forall p, many p [] = 0.
Proof. reflexivity. Qed.
Lemma wake_join : forall th, total wj (map (map wake) th) = 0.
Proof.
  intros th. apply total_zero. intros j st H. rewrite nth_map in H. destruct (nth_error th j) as [l|]; [|discriminate]. injection H as <-.
  clear. induction l as [|f l IH]; [reflexivity|]. simpl. rewrite wsum_cons, IH. destruct f; reflexivity.
Qed.
Lemma wrap32_eq : forall a b, (exists k, a = b + k * two32)%Z -> wrap32 a = wrap32 b.
Proof. intros a b (k & ->). unfold wrap32. apply Z.mod_add. discriminate. Qed.
Lemma wrap32_in : forall a b, wrap32 (wrap32 a + b)%Z = wrap32 (a + b).
Proof. intros. unfold wrap32. rewrite Zplus_mod_idemp_l. reflexivity. Qed.
Lemma books_run : forall ls s tr, run v_step v_init ls = Some (s, tr) -> books s tr.
Proof.
  induction ls as [|l ls IH] using rev_ind; intros s' tr' R.
  { injection R as <- <-. repeat split; simpl; auto; unfold total, wsum; simpl; lia. }
  apply run_snoc in R. destruct R as (s & tr & e & R & D & ->). pose proof (tops_run _ _ _ R) as TOPS. destruct (IH _ _ R) as (B1 & B2 & B3 & B4 & B5). clear IH.
  assert (ON1 : on true = 1) by reflexivity. assert (ON0 : on false = 0) by reflexivity.
  assert (KEEP : forall s0 e0, v_listening s0 = v_listening s -> v_users s0 = v_users s -> (forall p, (p = is_started \/ p = is_stopping \/ p = is_stopped \/ p = is_users) -> many p e0 = 0) ->
    (forall w, (w = wa \/ w = ws \/ w = wj) -> total w (v_threads s0) = total w (v_threads s)) -> books s0 (tr ++ e0)).
  { intros s0 e0 E1 E2 E3 E4. unfold books. rewrite !many_app, !E3, !E4, E1, E2 by auto. rewrite !Nat.add_0_r. auto. }
  assert (SET : forall i old new w, nth_error (v_threads s) i = Some old -> wsum w new = wsum w old -> total w (set_nth i new (v_threads s)) = total w (v_threads s)).
  { intros i old new w H E. pose proof (total_set w _ _ _ new H). lia. }
  assert (SILENT : forall p, (p = is_started \/ p = is_stopping \/ p = is_stopped \/ p = is_users) -> many p [] = 0) by reflexivity.
  destruct l as [i|i a|i ssl|c ok|c ok|c ok|c|c|]; cbn [v_step] in D.
  - destruct (nth_error (v_threads s) i) as [[|f st]|] eqn:H; try discriminate.
    pose proof (total_set wa _ _ _ st H) as TA. pose proof (total_set ws _ _ _ st H) as TS. pose proof (total_set wj _ _ _ st H) as TJ. rewrite !wsum_cons in TA, TS, TJ.
    destruct f as [| | | | | | | | |d o|d o|n d|d| |o]; simpl in D; try discriminate; simpl in TA, TS, TJ.
    + destruct (unlocked s); [|discriminate]. unfold do_start in D. destruct (v_listening s) eqn:L; injection D as <- <-.
      * apply KEEP; auto. intros w [->|[->| ->]]; simpl; lia.
      * pose proof (total_set wa _ _ _ (FListen :: FAddUser :: st) H) as UA. pose proof (total_set ws _ _ _ (FListen :: FAddUser :: st) H) as US. pose proof (total_set wj _ _ _ (FListen :: FAddUser :: st) H) as UJ.
        rewrite !wsum_cons in UA, US, UJ. simpl in UA, US, UJ. unfold books. rewrite !many_app, !many_cons, !many_nil. simpl. split; [lia|]. split; [lia|]. split; [lia|]. split; [|auto].
        rewrite B4. f_equal. lia.
    + destruct (unlocked s); [|discriminate]. unfold do_listen in D. destruct (v_listening s) eqn:L; injection D as <- <-; apply KEEP; auto; intros w [->|[->| ->]]; simpl; lia.
    + injection D as <- <-. unfold books. rewrite !many_app, !many_cons, !many_nil. simpl. repeat (split; [lia|]). split; [|intros X; destruct B5; [lia | auto | right; lia]].
      rewrite B4, wrap32_in. f_equal. lia.
    + destruct (unlocked s); [|discriminate]. unfold do_stop in D. destruct (v_listening s) eqn:L; injection D as <- <-.
      * pose proof (total_set wa _ _ _ (FStopLoop :: st) H) as UA. pose proof (total_set ws _ _ _ (FStopLoop :: st) H) as US. pose proof (total_set wj _ _ _ (FStopLoop :: st) H) as UJ.
        rewrite !wsum_cons in UA, US, UJ. simpl in UA, US, UJ. unfold books. rewrite !many_app, !many_cons, !many_failed by reflexivity. simpl. split; [lia|]. split; [lia|]. split; [lia|]. split; [|right; lia].
        rewrite B4. f_equal. lia.
      * apply KEEP; auto; [intros p [->|[->|[->| ->]]]; reflexivity|]. intros w [->|[->| ->]]; simpl; lia.
    + destruct (owns s i); [|discriminate]. injection D as D.
      assert (END : forall s0, v_listening s0 = v_listening s -> v_users s0 = v_users s -> v_threads s0 = v_threads s -> books (fst (stop_end s0 i st)) (tr ++ snd (stop_end s0 i st))).
      { intros s0 E1 E2 E3. unfold stop_end, books. simpl. rewrite wake_eq, E1, E2, E3, !many_app, !many_cons, !many_nil. simpl.
        assert (H' : nth_error (map (map wake) (v_threads s)) i = Some (FStopLoop :: map wake st)) by (rewrite nth_map, H; reflexivity).
        pose proof (total_set wa _ _ _ st H') as UA. pose proof (total_set ws _ _ _ st H') as US. pose proof (total_set wj _ _ _ st H') as UJ.
        rewrite !wsum_cons in UA, US, UJ. simpl in UA, US, UJ. rewrite total_wake, wsum_wake in UA, US by reflexivity. rewrite wake_join in UJ.
        split; [lia|]. split; [lia|]. split; [lia|]. split; [rewrite B4; unfold Z.sub at 1; rewrite wrap32_in; f_equal; lia|].
        assert (WJ : wsum wj (map wake st) = 0).
        { pose proof (total_le wj _ _ _ H') as X. rewrite wake_join, wsum_cons in X. lia. }
        pose proof (TOPS _ _ _ H). lia. }
      unfold do_stop_loop in D. destruct (v_pool s) eqn:P; [|destruct (prune s) eqn:Q].
      * specialize (END s eq_refl eq_refl eq_refl). rewrite D in END. exact END.
      * specialize (END (set_pool s []) eq_refl eq_refl eq_refl). rewrite D in END. exact END.
      * injection D as <- <-. apply KEEP; auto. intros w [->|[->| ->]]; simpl; apply (SET _ _ _ _ H); reflexivity.
    + destruct (unlocked s); [|discriminate]. injection D as <- <-. apply KEEP; auto. intros w [->|[->| ->]]; simpl; apply (SET _ _ _ _ H); reflexivity.
    + destruct (unlocked s); [|discriminate]. destruct (v_listening s) eqn:L; injection D as <- <-.
      * pose proof (total_set wa _ _ _ (FJoinWait :: st) H) as UA. pose proof (total_set ws _ _ _ (FJoinWait :: st) H) as US.
        rewrite !wsum_cons in UA, US. simpl in UA, US. unfold books. rewrite !many_app, !many_nil. simpl. rewrite L. split; [lia|]. split; [lia|]. split; [lia|]. split; [|auto]. rewrite B4. f_equal. lia.
      * apply KEEP; auto; [intros p [->|[->|[->| ->]]]; reflexivity|]. intros w [->|[->| ->]]; simpl; lia.
    + destruct (unlocked s); [|discriminate]. injection D as <- <-. apply KEEP; auto; [intros p [->|[->|[->| ->]]]; reflexivity|]. intros w [->|[->| ->]]; simpl; lia.
    + injection D as <- <-. apply KEEP; auto. intros w [->|[->| ->]]; simpl; apply (SET _ _ _ _ H); destruct o; reflexivity.
    + injection D as <- <-. apply KEEP; auto; [intros p [->|[->|[->| ->]]]; reflexivity|]. intros w [->|[->| ->]]; simpl; apply (SET _ _ _ _ H); reflexivity.
    + destruct (unlocked s); [|discriminate]. injection D as D. unfold do_finish in D. destruct (v_listening s && hasn d (v_alive s)); injection D as <- <-; apply KEEP; auto; intros w [->|[->| ->]]; simpl; try (apply (SET _ _ _ _ H); reflexivity); lia.
    + destruct (owns s i); [|discriminate]. injection D as <- <-. apply KEEP; auto. intros w [->|[->| ->]]; simpl; lia.
  - destruct (nth_error (v_threads s) i) as [[|f st]|] eqn:H; try discriminate. destruct f as [| | | | | | | | |d o|d o|n d|d| |o]; try discriminate.
    destruct (user_step s i o a st) as [s1|] eqn:U; [|discriminate]. injection D as <- <-.
    destruct a as [| | | | | | |k], o as [c|]; simpl in U; try discriminate; injection U as <-; apply KEEP; auto; intros w [->|[->| ->]]; simpl; try (apply (SET _ _ _ _ H)); reflexivity.
  - destruct (nth_error (v_threads s) i) as [[|f st]|] eqn:H; try discriminate. destruct f as [| | | | | | | | |d o|d o|n d|d| |o]; try discriminate.
    injection D as <- <-. unfold accept_step. destruct o, ssl; simpl; (apply KEEP; auto; intros w [->|[->| ->]]; simpl; apply (SET _ _ _ _ H); destruct (v_listening s); reflexivity).
  - destruct (hasn c (v_pending s)); [|discriminate]. injection D as <- <-. apply KEEP; auto. intros p [->|[->|[->| ->]]]; destruct ok; reflexivity.
  - destruct (existsb (same_event c ok) (v_events s)); [|discriminate]. injection D as <- <-. apply KEEP; auto. intros w [->|[->| ->]]; simpl; rewrite total_snoc; unfold wsum; simpl; lia.
  - destruct (hasn c (v_shaking s)); [|discriminate]. injection D as <- <-. apply KEEP; auto. intros w [->|[->| ->]]; simpl; rewrite total_snoc; unfold wsum; simpl; lia.
  - injection D as <- <-. apply KEEP; auto.
  - destruct (hasn c (v_kept s)); [|discriminate]. injection D as <- <-. apply KEEP; auto. intros w [->|[->| ->]]; simpl; rewrite total_snoc; unfold wsum; simpl; lia.
  - injection D as <- <-. apply KEEP; auto. intros w [->|[->| ->]]; simpl; rewrite total_snoc; unfold wsum; simpl; lia.
Qed.

(** C92: when the server does not listen and all stops that ended listening have returned, a thread that is in join, waiting or
    not, returns from it as soon as it runs with the mutex free. No thread in join is forgotten. *)
Theorem C92_join : forall ls s tr i f st, run v_step v_init ls = Some (s, tr) ->
  many is_started tr = many is_stopped tr -> nth_error (v_threads s) i = Some (f :: st) -> f = FJoin \/ f = FJoinWait -> v_mutex s = None ->
  v_step s (LThread i) = Some (set_stack s i st, [VJoined]).
Proof.
  intros ls s tr i f st R E H F M. destruct (books_run _ _ _ R) as (B1 & B2 & B3 & B4 & B5).
  assert (L : v_listening s = false) by (destruct (v_listening s); [cbv [on] in B1; lia | reflexivity]).
  destruct F as [->| ->].
  - cbn [v_step]. rewrite H. simpl. unfold unlocked. rewrite M, L. reflexivity.
  - exfalso. pose proof (total_le wj _ _ _ H) as X. rewrite wsum_cons in X. simpl in X. destruct B5 as [Y|Y]; [lia | congruence | lia].
Qed.
Print Assumptions C92_join.
(** a thread waits in join while another stops the server *)
Definition joining : list vlab := serving ++ [LMain; LUser 2 UJoin; LThread 2; LUser 0 UStop; LThread 0; LEvent 1 false; LAcceptEnd 3 false; LThread 0;
  LThread 3; LCallback 0; LUser 4 UFinish; LThread 4; LUser 4 UReturn; LThread 0; LThread 0].
Example C92_case : exists s tr, run v_step v_init (joining) = Some (s, tr)
  /\ many is_started tr = many is_stopped tr /\ (exists st, nth_error (v_threads s) 2 = Some (FJoin :: st)) /\ v_mutex s = None.
Proof. eexists; eexists; split; [vm_compute; reflexivity|]. split; [reflexivity|]. split; [eexists; vm_compute; reflexivity | reflexivity]. Qed.

(** C93: when every start and every stop that had an effect has told the scheduler, the scheduler counts one user if the server
    listens and none if it does not. *)
Theorem C93_users : forall ls s tr, run v_step v_init ls = Some (s, tr) -> many is_users tr = many is_started tr + many is_stopping tr ->
  v_users s = (if v_listening s then 1 else 0)%Z.
Proof.
  intros ls s tr R E. destruct (books_run _ _ _ R) as (B1 & B2 & B3 & B4 & B5). rewrite B4.
  replace (total wa (v_threads s)) with 0 by lia. replace (total ws (v_threads s)) with 0 by lia. destruct (v_listening s); reflexivity.
Qed.
Print Assumptions C93_users.
Example C93_case : exists s tr, run v_step v_init (joining) = Some (s, tr)
  /\ many is_users tr = 2 /\ many is_started tr + many is_stopping tr = 2.
Proof. eexists; eexists; split; [vm_compute; reflexivity|]. split; reflexivity. Qed.
(** The claim that the count given to the scheduler never goes below zero. *)
Definition users_bounded : Prop := forall ls s tr n, run v_step v_init ls = Some (s, tr) -> In (VUsers n) tr -> (n <= Z.of_nat (many is_started tr))%Z.
(** Refuted: stop may be done while start is between releasing the mutex and adding the user. *)
Theorem C93_users_refuted : ~ users_bounded.
Proof.
  intros H. assert (R : exists s tr, run v_step v_init [LMain; LUser 0 UStart; LThread 0; LMain; LUser 1 UStop; LThread 1; LThread 1] = Some (s, tr) /\ In (VUsers (two32 - 1)) tr /\ many is_started tr = 1).
  { eexists; eexists; split; [vm_compute; reflexivity|]. split; [simpl; tauto | reflexivity]. }
  destruct R as (s & tr & R & I & M). specialize (H _ _ _ _ R I). rewrite M in H. revert H. vm_compute. intros H. apply H. reflexivity.
Qed.
Print Assumptions C93_users_refuted.
