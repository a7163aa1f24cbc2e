(** C56, C78. *)
From Coq Require Import ZArith List Bool Lia.
From Verif Require Import Runs TimerModel TimerSpec.
Import ListNotations.
Local Open Scope Z_scope.

(* ------------------------------------------------------------------ timers *)

Lemma timer_cancelled : forall now ls s tr, run ti_step (ti_init now) ls = Some (s, tr) ->
  (In ECancel tr -> ti_cancelled s = true) /\ forall a b, tr = a ++ ECancel :: b -> forall t, ~ In (EConn t) b.
Proof.
  intros now. apply (run_ind ti_step (fun s tr => (In ECancel tr -> ti_cancelled s = true) /\ forall a b, tr = a ++ ECancel :: b -> forall t, ~ In (EConn t) b)).
  - split; [intros [] | intros [|? ?] ? H; discriminate].
  - intros s tr l s' e [I1 I2] D.
    assert (X : (In ECancel tr -> ti_cancelled s' = true /\ forall t, ~ In (EConn t) e) /\ (In ECancel e -> e = [ECancel] /\ ti_cancelled s' = true)).
    { destruct l as [sec| |d| |]; simpl in D.
      - destruct (0 <=? sec); [|discriminate]. injection D as <- <-. simpl. split; [intros H; split; [auto | intros t [X|[]]; discriminate] | intros [X|[]]; discriminate].
      - injection D as <- <-. assert (C : forall b : bool, ti_cancelled (if b then mktimer (ti_now s) true true [] (length (ti_pending s) + ti_ready s)
          else mktimer (ti_now s) false true (ti_pending s) (ti_ready s)) = true) by (intros []; reflexivity). rewrite C.
        split; [intros H; split; [auto | intros t [X|[]]; discriminate] | auto].
      - destruct (0 <=? d); [|discriminate]. injection D as <- <-. simpl. split; [intros H; split; [auto | tauto] | tauto].
      - destruct (ti_pending s) as [|x p]; [discriminate|]. destruct (x <=? ti_now s); [|discriminate]. injection D as <- <-. simpl. split; [intros H; split; [auto | tauto] | tauto].
      - destruct (ti_ready s) as [|n]; [discriminate|]. injection D as <- <-. simpl. destruct (ti_cancelled s).
        + split; [intros H; split; [auto | intros t []] | intros []].
        + split; [intros H; specialize (I1 H); discriminate | intros [X|[]]; discriminate]. }
    destruct X as [X1 X2]. split.
    + rewrite in_app_iff. intros [H|H]; [apply X1; exact H | apply X2; exact H].
    + intros a b H t. apply split_snoc in H. destruct H as [(b' & -> & ->)|(a' & -> & ->)].
      * rewrite in_app_iff. intros [H|H]; [apply (I2 _ _ eq_refl _ H)|]. refine (proj2 (X1 _) t H). apply in_or_app. right. left. reflexivity.
      * destruct (X2 ltac:(apply in_or_app; right; left; reflexivity)) as [X3 _].
        destruct a' as [|x [|y a']]; simpl in X3; [|discriminate|discriminate]. injection X3 as ->. intros [].
Qed.

(** C56, first half. A timer that is cancelled never cancels the connection afterwards, whatever happens: also when it had
    expired but its callback had not run, and also when it is started again. *)
Theorem C56_cancelled : forall now ls s tr, run ti_step (ti_init now) ls = Some (s, tr) ->
  forall a b, tr = a ++ ECancel :: b -> forall t, ~ In (EConn t) b.
Proof. intros now ls s tr R. exact (proj2 (timer_cancelled _ _ _ _ R)). Qed.
Print Assumptions C56_cancelled.
(** expired, cancelled before the callback runs *)
Example C56_case : exists s, run ti_step (ti_init 100) [TStart 5; TTick 7; TFire; TCancel; TCallback] = Some (s, [EStart 100 5; ECancel]) /\ ti_ready s = 0%nat.
Proof. eexists; split; reflexivity. Qed.

(** the time the running start ends *)
Definition due (o : option Z) (tr : list tev) : option Z :=
  fold_left (fun o e => match e with EStart t sec => Some (t + sec) | EConn _ => None | ECancel => o end) tr o.
Lemma due_app : forall o a b, due o (a ++ b) = due (due o a) b.
Proof. intros. unfold due. apply fold_left_app. Qed.
Lemma proper_app : forall a o b, proper o (a ++ b) <-> proper o a /\ proper (due o a) b.
Proof. induction a as [|[t s| |t] a IH]; intros o b; simpl; [tauto| | |]; rewrite IH; unfold due; simpl; tauto. Qed.
Lemma timely_app : forall a o b, ~ In ECancel a -> (timely o (a ++ b) <-> timely o a /\ timely (due o a) b).
Proof.
  induction a as [|[t s| |t] a IH]; intros o b N; simpl; [tauto| | |]; simpl in N.
  - rewrite IH by tauto. reflexivity.
  - tauto.
  - rewrite IH by tauto. unfold due. simpl. tauto.
Qed.
Lemma timely_quiet : forall b o, (forall t, ~ In (EConn t) b) -> timely o b.
Proof.
  induction b as [|[t s| |t] b IH]; intros o N; simpl; auto; try (apply IH; intros u Hu; apply (N u); right; exact Hu).
  exfalso. apply (N t). left. reflexivity.
Qed.
Lemma timely_cut : forall a o b, timely o a -> (forall t, ~ In (EConn t) b) -> timely o (a ++ b).
Proof.
  induction a as [|[t s| |t] a IH]; intros o b T N; simpl in *; [apply timely_quiet; exact N| | |]; auto. destruct T; auto.
Qed.

(** the deadline timer and the callbacks agree with what was seen *)
Definition tinv (s : timer) (tr : list tev) : Prop :=
  match due None tr with
  | None => ti_pending s = [] /\ ti_ready s = 0%nat
  | Some d => (ti_pending s = [d] /\ ti_ready s = 0%nat) \/ (ti_pending s = [] /\ ti_ready s = 1%nat /\ d <= ti_now s)
  end.
Lemma timer_proper : forall now ls s tr, run ti_step (ti_init now) ls = Some (s, tr) -> proper None tr ->
  timely None tr /\ (ti_cancelled s = false -> ~ In ECancel tr /\ tinv s tr).
Proof.
  intros now. apply (run_ind ti_step (fun s tr => proper None tr -> timely None tr /\ (ti_cancelled s = false -> ~ In ECancel tr /\ tinv s tr))).
  - intros _. split; [exact Logic.I | intros _; split; [intros [] | split; reflexivity]].
  - intros s tr l s' e I D P. apply proper_app in P. destruct P as [P Pe]. destruct (I P) as [T V]. clear I.
    destruct (ti_cancelled s) eqn:C.
    { assert (X : ti_cancelled s' = true /\ forall t, ~ In (EConn t) e).
      { destruct l as [sec| |d| |]; simpl in D; rewrite ?C in D.
        - destruct (0 <=? sec); [|discriminate]. injection D as <- <-. split; [reflexivity | intros t [X|[]]; discriminate].
        - injection D as <- <-. split; [destruct (ti_active s); reflexivity | intros t [X|[]]; discriminate].
        - destruct (0 <=? d); [|discriminate]. injection D as <- <-. split; [reflexivity | intros t []].
        - destruct (ti_pending s) as [|x p]; [discriminate|]. destruct (x <=? ti_now s); [|discriminate]. injection D as <- <-. split; [reflexivity | intros t []].
        - destruct (ti_ready s) as [|n]; [discriminate|]. injection D as <- <-. split; [reflexivity | intros t []]. }
      destruct X as [X1 X2]. split; [apply timely_cut; auto | congruence]. }
    destruct (V eq_refl) as [N W]. clear V. unfold tinv in *. rewrite due_app, timely_app by exact N. rewrite in_app_iff.
    destruct l as [sec| |d| |]; simpl in D.
    + destruct (0 <=? sec); [|discriminate]. injection D as <- <-. simpl in *. destruct Pe as [Pe _]. rewrite Pe in *. destruct W as [W1 W2].
      rewrite W1, W2. simpl. split; [tauto|]. intros _. split; [intros [H|[H|[]]]; [tauto | discriminate] | left; auto].
    + injection D as <- <-. simpl. split; [tauto|]. destruct (ti_active s); simpl; discriminate.
    + destruct (Z.leb_spec 0 d); [|discriminate]. injection D as <- <-. simpl. split; [tauto|]. intros _. split; [tauto|].
      destruct (due None tr); [|exact W]. destruct W as [W|(W1 & W2 & W3)]; [left; exact W | right; repeat split; auto; lia].
    + destruct (ti_pending s) as [|x p] eqn:EP; [discriminate|]. destruct (Z.leb_spec x (ti_now s)); [|discriminate]. injection D as <- <-. simpl.
      split; [tauto|]. intros _. split; [tauto|]. destruct (due None tr) as [d|]; [|destruct W; discriminate].
      destruct W as [[W1 W2]|(W1 & _)]; [|discriminate]. injection W1 as -> ->. right. rewrite W2. auto.
    + destruct (ti_ready s) as [|n] eqn:ER; [discriminate|]. rewrite C in D. injection D as <- <-. simpl.
      destruct (due None tr) as [d|]; [|destruct W as [_ W]; discriminate W].
      destruct W as [[_ W2]|(W1 & W2 & W3)]; [discriminate|]. injection W2 as ->.
      split; [split; [exact T | split; [exists d; auto | exact Logic.I]]|]. intros _. split; [intros [H|[H|[]]]; [tauto | discriminate] | auto].
Qed.

(** C56, second half, for timers that are not started again while they run: the connection is cancelled only after the full
    time of the start, once, and not after a cancel. Missing: restarting a running timer, which is refuted below. *)
Theorem C56_not_early_partial : forall now ls s tr, run ti_step (ti_init now) ls = Some (s, tr) -> proper None tr -> timely None tr.
Proof. intros now ls s tr R P. exact (proj1 (timer_proper _ _ _ _ R P)). Qed.
Print Assumptions C56_not_early_partial.
Example C56_not_early_case : exists s,
  run ti_step (ti_init 100) [TStart 5; TTick 7; TFire; TCallback; TStart 2; TTick 2; TFire; TCallback] =
    Some (s, [EStart 100 5; EConn 107; EStart 107 2; EConn 109])
  /\ proper None [EStart 100 5; EConn 107; EStart 107 2; EConn 109].
Proof. eexists; split; [reflexivity | simpl; auto]. Qed.

(** The claim for every use: a connection is cancelled only if the time of the latest start is over. *)
Definition never_early : Prop := forall now ls s tr, run ti_step (ti_init now) ls = Some (s, tr) -> timely None tr.
(** Refuted: starting a running timer again aborts its wait, and the callback takes this for the time being over. *)
Theorem C56_restart_refuted : ~ never_early.
Proof.
  intros H. specialize (H 100 [TStart 5; TStart 60; TCallback] _ _ eq_refl). simpl in H. destruct H as [(d & H1 & H2) _]. injection H1 as <-. lia.
Qed.
Print Assumptions C56_restart_refuted.

(** A timer that runs and was not cancelled can go off, after any history: when enough time passes and its callback runs. *)
Theorem C56_goes_off : forall now ls s tr, run ti_step (ti_init now) ls = Some (s, tr) -> ~ In ECancel tr -> running tr ->
  exists d ls' s' t, (forall l, In l ls' -> l = TTick d \/ l = TFire \/ l = TCallback) /\ run ti_step s ls' = Some (s', [EConn t]).
Proof.
  intros now ls s tr R N U.
  assert (V : (ti_cancelled s = true -> In ECancel tr) /\ (ti_cancelled s = false -> running tr -> ti_pending s <> [] \/ ti_ready s <> 0%nat) /\ (length (ti_pending s) <= 1)%nat).
  2:{ destruct V as (V1 & V2 & V3). assert (C : ti_cancelled s = false) by (destruct (ti_cancelled s); auto; tauto).
      destruct s as [nw act can pen rdy]. simpl in *. subst can. destruct rdy as [|n].
      - destruct (V2 eq_refl U) as [P|P]; [|congruence]. destruct pen as [|x p]; [congruence|]. destruct p; [|simpl in V3; lia].
        exists (Z.max 0 (x - nw)), [TTick (Z.max 0 (x - nw)); TFire; TCallback]. eexists. eexists. split.
        + intros l [<-|[<-|[<-|[]]]]; auto.
        + simpl. replace (0 <=? Z.max 0 (x - nw)) with true by (symmetry; apply Z.leb_le; lia). simpl.
          replace (x <=? nw + Z.max 0 (x - nw)) with true by (symmetry; apply Z.leb_le; lia). simpl. reflexivity.
      - exists 0, [TCallback]. eexists. eexists. split; [intros l [<-|[]]; auto | simpl; reflexivity]. }
  clear N U. revert ls s tr R. apply (run_ind ti_step (fun s tr => (ti_cancelled s = true -> In ECancel tr) /\ (ti_cancelled s = false -> running tr -> ti_pending s <> [] \/ ti_ready s <> 0%nat) /\ (length (ti_pending s) <= 1)%nat)).
  - simpl. split; [discriminate|]. split; [|lia]. intros _ (a & t & sec & b & H & _). destruct a; discriminate.
  - intros s tr l s' e (I1 & I2 & I3) D.
    assert (G : running (tr ++ e) -> e = [] \/ e = [ECancel] -> running tr).
    { intros (a & t & sec & b & H & Q) He. apply split_snoc in H. destruct H as [(b' & -> & ->)|(a' & -> & H)].
      - exists a, t, sec, b'. split; auto. intros u Hu. apply (Q u). apply in_or_app. auto.
      - destruct He as [-> | ->]; destruct a' as [|? [|? ?]]; discriminate. }
    rewrite in_app_iff. destruct l as [sec| |d| |]; simpl in D.
    + destruct (0 <=? sec); [|discriminate]. injection D as <- <-. simpl. split; [tauto|]. split; [left; discriminate | lia].
    + injection D as <- <-. split; [intros _; right; left; reflexivity|].
      destruct (ti_active s); simpl; (split; [discriminate|]); [lia | exact I3].
    + destruct (0 <=? d); [|discriminate]. injection D as <- <-. simpl. rewrite app_nil_r in *. auto.
    + destruct (ti_pending s) as [|x p]; [discriminate|]. destruct (x <=? ti_now s); [|discriminate]. injection D as <- <-. simpl in *.
      rewrite app_nil_r in *. split; [tauto|]. split; [right; discriminate | lia].
    + destruct (ti_ready s) as [|n]; [discriminate|]. injection D as <- <-. simpl. destruct (ti_cancelled s).
      * split; [auto|]. split; [discriminate | exact I3].
      * split; [discriminate|]. split; [|exact I3]. intros _ (a & t & sec & b & H & Q). apply split_snoc in H.
        destruct H as [(b' & -> & ->)|(a' & -> & H)]; [|destruct a' as [|? [|? ?]]; discriminate].
        exfalso. apply (Q (ti_now s)). apply in_or_app. right. left. reflexivity.
Qed.
Print Assumptions C56_goes_off.
Example C56_goes_off_case : exists s tr, run ti_step (ti_init 100) [TStart 5; TStart 60; TCallback; TStart 3] = Some (s, tr)
  /\ ~ In ECancel tr /\ running tr.
Proof.
  eexists; eexists; split; [reflexivity|]. simpl. split.
  - intros H. repeat (destruct H as [H|H]; [discriminate H|]). exact H.
  - exists [EStart 100 5; EStart 100 60; EConn 100], 100, 3, []. split; [reflexivity | intros u []].
Qed.

(* ------------------------------------------------------------------ process shutdown *)

Lemma has_In : forall i l, has i l = true <-> In i l.
Proof. intros i l. unfold has. rewrite existsb_exists. split; [intros (x & H & E); apply Nat.eqb_eq in E; subst; exact H | intros H; exists i; split; [exact H | apply Nat.eqb_refl]]. Qed.
Lemma remove1_In : forall i j l, In j (remove1 i l) <-> In j l /\ j <> i.
Proof.
  intros i j l. unfold remove1. rewrite filter_In, negb_true_iff, Nat.eqb_neq. split; intros [A B]; split; auto.
Qed.
Lemma waits_app : forall i tr e, ~ In (EWait i) e -> (waits i (tr ++ e) <-> waits i tr /\ ~ In (EReturn i) e).
Proof.
  intros i tr e N. split.
  - intros (a & b & H & R). apply split_snoc in H. destruct H as [(b' & -> & ->)|(a' & -> & ->)].
    + split; [exists a, b'; split; auto|]; intros X; apply R; apply in_or_app; auto.
    + exfalso. apply N. apply in_or_app. right. left. reflexivity.
  - intros [(a & b & -> & R) Q]. exists a, (b ++ e). split; [rewrite <- app_assoc; reflexivity|]. rewrite in_app_iff. tauto.
Qed.
Lemma proc_inv : forall ls s tr, run ps_step ps_init ls = Some (s, tr) ->
  (ps_flag s = true <-> In EShutdown tr) /\ (ps_flag s = true -> ps_waiting s = [])
  /\ (forall i, waits i tr <-> In i (ps_waiting s) \/ In i (ps_woken s))
  /\ (forall a i b, tr = a ++ EReturn i :: b -> In EShutdown a).
Proof.
  apply (run_ind ps_step (fun s tr => (ps_flag s = true <-> In EShutdown tr) /\ (ps_flag s = true -> ps_waiting s = [])
    /\ (forall i, waits i tr <-> In i (ps_waiting s) \/ In i (ps_woken s)) /\ (forall a i b, tr = a ++ EReturn i :: b -> In EShutdown a))).
  - simpl. split; [split; [discriminate | tauto]|]. split; [reflexivity|]. split.
    + intros i. split; [intros (a & b & H & _); destruct a; discriminate | tauto].
    + intros a i b H. destruct a; discriminate.
  - intros s tr l s' e (I1 & I2 & I3 & I4) D.
    assert (R0 : e = [] -> forall a i b, tr ++ e = a ++ EReturn i :: b -> In EShutdown a) by (intros -> a i b H; rewrite app_nil_r in H; eauto).
    assert (R1 : forall x, e = [x] -> (forall i, x = EReturn i -> In EShutdown tr) -> forall a i b, tr ++ e = a ++ EReturn i :: b -> In EShutdown a).
    { intros x -> Q a i b H. apply split_snoc in H. destruct H as [(b' & -> & ->)|(a' & -> & H)]; [eauto|].
      destruct a' as [|? [|? ?]]; try discriminate. injection H as -> <-. rewrite app_nil_r. eauto. }
    destruct l as [|i|i|i]; simpl in D.
    + injection D as <- <-. destruct (ps_flag s) eqn:F.
      * rewrite F. split; [rewrite in_app_iff; simpl; tauto|]. split; [auto|]. split.
        -- intros i. rewrite waits_app by (intros [X|[]]; discriminate). rewrite I3. split; [tauto | intros H; split; [exact H | intros [X|[]]; discriminate]].
        -- apply (R1 _ eq_refl). discriminate.
      * simpl. split; [rewrite in_app_iff; simpl; tauto|]. split; [reflexivity|]. split.
        -- intros i. rewrite waits_app by (intros [X|[]]; discriminate). rewrite I3, in_app_iff. split; [tauto | intros [[]|H]; split; [exact H | intros [X|[]]; discriminate]].
        -- apply (R1 _ eq_refl). discriminate.
    + destruct (has i (ps_waiting s) || has i (ps_woken s)) eqn:H; [discriminate|]. apply orb_false_iff in H. destruct H as [H1 H2].
      assert (N1 : ~ In i (ps_waiting s)) by (rewrite <- has_In; congruence). assert (N2 : ~ In i (ps_woken s)) by (rewrite <- has_In; congruence).
      destruct (ps_flag s) eqn:F; injection D as <- <-.
      * rewrite F. split; [rewrite in_app_iff; tauto|]. split; [auto|]. split.
        -- intros j. rewrite <- I3. destruct (Nat.eq_dec i j) as [<-|NE].
           ++ split; [|intros W; apply I3 in W; tauto]. intros (a & b & W & R). exfalso. apply split_snoc in W. destruct W as [(b' & -> & ->)|(a' & -> & W)].
              ** apply R. apply in_or_app. right. right. left. reflexivity.
              ** destruct a' as [|? [|? [|? ?]]]; try discriminate; injection W; intros; subst; [|discriminate..]. apply R. left. reflexivity.
           ++ rewrite waits_app by (intros [X|[X|[]]]; congruence). split; [tauto | intros W; split; [exact W | intros [X|[X|[]]]; congruence]].
        -- intros a j b W. apply split_snoc in W. destruct W as [(b' & -> & ->)|(a' & -> & W)]; [eauto|]. apply in_or_app. left. apply I1. reflexivity.
      * simpl. split; [rewrite in_app_iff; simpl; rewrite <- I1; split; [discriminate | intros [X|[X|[]]]; [discriminate X | discriminate X]]|]. split; [discriminate|]. split.
        -- intros j. destruct (Nat.eq_dec i j) as [<-|NE].
           ++ split; [tauto|]. intros _. exists tr, []. auto.
           ++ rewrite waits_app by (intros [X|[]]; congruence). rewrite I3. split; [tauto|]. intros [[X|X]|X]; [congruence| |]; (split; [tauto | intros [Y|[]]; discriminate]).
        -- apply (R1 _ eq_refl). discriminate.
    + destruct (has i (ps_waiting s)) eqn:H; [|discriminate]. injection D as <- <-. apply has_In in H. simpl. rewrite app_nil_r.
      split; [exact I1|]. split; [intros F; rewrite (I2 F); reflexivity|]. split; [|auto].
      intros j. rewrite I3, remove1_In. destruct (Nat.eq_dec i j) as [<-|NE]; [tauto | intuition congruence].
    + destruct (has i (ps_woken s)) eqn:H; [|discriminate]. apply has_In in H. destruct (ps_flag s) eqn:F; injection D as <- <-; simpl.
      * split; [rewrite in_app_iff; tauto|]. split; [auto|]. split.
        -- intros j. rewrite waits_app by (intros [X|[]]; discriminate). rewrite I3, remove1_In, (I2 eq_refl). simpl. destruct (Nat.eq_dec i j) as [<-|NE]; [tauto|].
           intuition congruence.
        -- apply (R1 _ eq_refl). intros j _. apply I1. reflexivity.
      * rewrite app_nil_r. split; [exact I1|]. split; [discriminate|]. split; [|auto].
        intros j. rewrite I3, remove1_In. destruct (Nat.eq_dec i j) as [<-|NE]; [tauto | intuition congruence].
Qed.

(** C78. After shutdown was requested every thread that has called wait_for_shutdown and has not come back can come back at
    once: the only thing it may still wait for is the mutex, which no thread keeps. This holds at every later moment, whether
    the request came before or during the wait and whatever spurious wake-ups there are. No wait ends before a request. *)
Theorem C78_not_missed : forall ls s tr, run ps_step ps_init ls = Some (s, tr) ->
  (forall i, In EShutdown tr -> waits i tr -> exists s', ps_step s (PTest i) = Some (s', [EReturn i]))
  /\ (forall a i b, tr = a ++ EReturn i :: b -> In EShutdown a).
Proof.
  intros ls s tr R. destruct (proc_inv _ _ _ R) as (I1 & I2 & I3 & I4). split; [|exact I4].
  intros i D W. apply I1 in D. apply I3 in W. rewrite (I2 D) in W. destruct W as [[]|W]. simpl. apply has_In in W. rewrite W, D. eauto.
Qed.
Print Assumptions C78_not_missed.
Example C78_case : exists s tr, run ps_step ps_init [PWait 1; PWait 2; PSpurious 1; PTest 1; PShutdown; PTest 2] = Some (s, tr)
  /\ In EShutdown tr /\ waits 1 tr /\ ~ waits 2 tr.
Proof.
  eexists; eexists; split; [reflexivity|]. simpl. split; [tauto|]. split.
  - exists [], [EWait 2; EShutdown; EReturn 2]. split; [reflexivity|]. simpl. intuition discriminate.
  - intros (a & b & H & N). destruct a as [|x [|y [|z [|w [|v a]]]]]; try discriminate; injection H; intros; subst; try discriminate. apply N. right. left. reflexivity.
Qed.

