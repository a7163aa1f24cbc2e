(** C133: when stop returns. *)
From Coq Require Import ZArith List Bool Lia PeanoNat.
From Verif Require Import Base Runs Threads TcpModel TcpSpec TcpProofs StopProofs.
Import ListNotations.
Local Open Scope nat_scope.

(** The claim: a call of stop that waits can always come to its end. *)
Definition stop_can_return : Prop := forall ls s tr i st, run v_step v_init ls = Some (s, tr) -> in_stop s i st ->
  exists ls' s' tr', run v_step s ls' = Some (s', tr') /\ ~ in_stop s' i st.
(** C133. A thread that waits in stop returns from it as soon as it runs, if nobody but the pool refers to a connection of the pool any more; the pool is empty then. *)
Theorem C133_stop_partial : forall ls s tr i st, run v_step v_init ls = Some (s, tr) -> nth_error (v_threads s) i = Some (FStopSleep :: st) -> v_mutex s = None ->
  (forall c, In c (v_pool s) -> ~ held s c) ->
  exists s' tr', run v_step s [LThread i; LThread i] = Some (s', tr') /\ In (VStopped true) tr' /\ v_pool s' = [] /\ nth_error (v_threads s') i = Some st.
Proof. intros ls s tr i st _ H M N. exact (stop_pass s i st M H N). Qed.
Print Assumptions C133_stop_partial.
(** As long as somebody else refers to one, a pass of the loop does not end it. *)
Theorem C133_waits : forall ls s tr i st c s' e, run v_step v_init ls = Some (s, tr) -> in_stop s i st -> In c (v_pool s) -> held s c ->
  v_step s (LThread i) = Some (s', e) -> in_stop s' i st /\ In c (v_pool s') /\ e = [].
Proof.
  intros ls s tr i st c s' e _ H P HE E. assert (L : i < length (v_threads s)) by (destruct H as [H|H]; eapply nth_lt; eauto).
  destruct H as [H|H]; cbn [v_step] in E; rewrite H in E; cbn [thread_step] in E.
  - destruct (owns s i); [|discriminate]. assert (Q : In c (prune s)) by (apply filter_In; split; [exact P|apply held_referenced; exact HE]).
    unfold do_stop_loop in E. destruct (v_pool s); [contradiction|]. destruct (prune s) as [|d p]; [contradiction|]. injection E as <- <-. split; [right; cbn; apply set_nth_same; exact L|]. auto.
  - destruct (unlocked s); [|discriminate]. injection E as <- <-. split; [left; cbn; apply set_nth_same; exact L|]. auto.
Qed.
Print Assumptions C133_waits.
(** A handler that calls stop of its own server never returns from it, whatever the other threads do, if nothing else refers to its connection. *)
Theorem C133_never_returns : forall ls s tr i st c ls' s' tr', run v_step v_init ls = Some (s, tr) -> in_stop s i (FUser (Some c) :: st) -> In c (v_pool s) -> only_holder s i c ->
  run v_step s ls' = Some (s', tr') -> in_stop s' i (FUser (Some c) :: st).
Proof.
  intros ls s tr i st c ls' s' tr' R H P (O1 & O2 & O3 & O4 & O5) R'. apply (sk_thread _ _ c st). eapply StopProofs.stuck_run; [|exact R']. split; auto.
  - destruct (v_inv _ _ _ R) as [K _]. apply (K c). right. exact P.
  - intros j st' N T f I. eapply O5; eauto.
Qed.
Print Assumptions C133_never_returns.
(** The handler of the first connection calls stop. *)
Definition own_stop : list vlab :=
  [LMain; LUser 0 UStart; LThread 0; LThread 0; LThread 0; LIncoming 0 true; LEvent 0 true; LAcceptEnd 1 false; LThread 1; LThread 1; LUser 1 UStop; LThread 1; LThread 1].
Theorem C133_own_stop_refuted : ~ stop_can_return.
Proof.
  intros H. destruct (run v_step v_init own_stop) as [[s tr]|] eqn:R; [|vm_compute in R; discriminate].
  assert (S : exists st, in_stop s 1 (FUser (Some 0) :: st) /\ In 0 (v_pool s) /\ only_holder s 1 0).
  { exists []. vm_compute in R. injection R as <- _. split; [right; reflexivity|]. split; [cbn; auto|]. split; [cbn; auto|]. split; [cbn; intuition discriminate|]. split; [cbn; auto|]. split; [cbn; auto|].
    intros [|[|[|[|j]]]] st f N T; cbn in T; try (injection T as <-; cbn; intuition; subst; discriminate); try congruence. }
  destruct S as (st & S1 & S2 & S3). destruct (H _ _ _ _ _ R S1) as (ls' & s' & tr' & R' & N). apply N. eapply C133_never_returns; eauto.
Qed.
Print Assumptions C133_own_stop_refuted.
(** One thread serves a connection, another one waits in stop; the first finishes the connection. *)
Example C133_case : exists s tr, run v_step v_init (own_stop ++ [LEvent 1 false; LAcceptEnd 2 false; LThread 2]) = Some (s, tr) /\ v_pool s = [0] /\ held s 0.
Proof. eexists. eexists. split; [vm_compute; reflexivity|]. split; [reflexivity|]. right. right. right. right. exists 1. eexists. exists (FUser (Some 0)). split; [reflexivity|]. split; [cbn; auto|reflexivity]. Qed.
Example C133_case2 : exists s tr, run v_step v_init [LMain; LUser 0 UStart; LThread 0; LThread 0; LThread 0; LIncoming 0 true; LEvent 0 true; LAcceptEnd 1 false; LThread 1; LThread 1; LUser 0 UStop; LThread 0; LThread 0;
    LEvent 1 false; LAcceptEnd 2 false; LThread 2; LUser 1 UReturn] = Some (s, tr)
  /\ nth_error (v_threads s) 0 = Some [FStopSleep; FUser None] /\ v_mutex s = None /\ v_pool s = [0] /\ ~ held s 0.
Proof.
  eexists. eexists. split; [vm_compute; reflexivity|]. split; [reflexivity|]. split; [reflexivity|]. split; [reflexivity|].
  intros X. apply held_referenced in X. vm_compute in X. discriminate.
Qed.
