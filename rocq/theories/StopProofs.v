(** When tcp::server::stop returns. *)
From Coq Require Import ZArith List Bool Lia PeanoNat.
From Verif Require Import Base Runs Threads TcpModel TcpSpec.
Import ListNotations.
Local Open Scope nat_scope.

Lemma hasn_in c l : hasn c l = true <-> In c l.
Proof. unfold hasn. rewrite existsb_exists. split; [intros (x & I & E); apply Nat.eqb_eq in E as ->; auto|]. intros I. exists c. split; auto. apply Nat.eqb_refl. Qed.
Lemma frame_has_conn c f : frame_has c f = true <-> conn_of f = Some c.
Proof. unfold frame_has. destruct (conn_of f) as [d|]; [rewrite Nat.eqb_eq; split; congruence|split; discriminate]. Qed.
Lemma held_referenced s c : referenced s c = true <-> held s c.
Proof.
  unfold referenced, held. rewrite !orb_true_iff, !hasn_in, existsb_exists, in_map_iff. split.
  - intros [[[[H|((x & b) & <- & H)]|H]|H]|(st & H1 & H2)]; eauto 6. apply existsb_exists in H2 as (f & H2 & H3). apply In_nth_error in H1 as [i H1]. apply frame_has_conn in H3.
    right. right. right. right. exists i, st, f. auto.
  - intros [H|[[b H]|[H|[H|(i & st & f & H1 & H2 & H3)]]]]; auto.
    + left. left. left. right. exists (c, b). auto.
    + right. exists st. split; [eapply nth_error_In; eauto|]. apply existsb_exists. exists f. split; auto. apply frame_has_conn. exact H3.
Qed.
Lemma prune_none s : (forall c, In c (v_pool s) -> ~ held s c) -> prune s = [].
Proof.
  unfold prune. intros H. induction (v_pool s) as [|c l IH]; cbn; auto. destruct (referenced s c) eqn:E; [|apply IH; intros d I; apply H; right; exact I].
  apply held_referenced in E. destruct (H c (or_introl eq_refl) E).
Qed.

(* ------------------------------------------------------------------ a handler that stops its own server *)

Definition clean (c : nat) (st : list frame) : Prop := forall f, In f st -> conn_of f <> Some c.
Record stuck (s : tsrv) (i c : nat) (st : list frame) : Prop := {
  sk_thread : in_stop s i (FUser (Some c) :: st);
  sk_pool : In c (v_pool s);
  sk_old : c < v_next s;
  sk_pending : ~ In c (v_pending s);
  sk_events : forall b, ~ In (c, b) (v_events s);
  sk_shaking : ~ In c (v_shaking s);
  sk_kept : ~ In c (v_kept s);
  sk_others : forall j st', j <> i -> nth_error (v_threads s) j = Some st' -> clean c st' }.
Lemma stuck_prune s i c st : stuck s i c st -> In c (prune s).
Proof.
  intros K. unfold prune. apply filter_In. split; [apply (sk_pool _ _ _ _ K)|]. apply held_referenced. right. right. right. right.
  destruct (sk_thread _ _ _ _ K) as [H|H]; exists i; eexists; exists (FUser (Some c)); (split; [exact H|]); split; auto; right; left; reflexivity.
Qed.
Lemma set_nth_self {A} : forall i (x : A) l, nth_error l i = Some x -> set_nth i x l = l.
Proof. induction i as [|i IH]; intros x [|y l] H; cbn in *; try discriminate; [injection H as ->; auto|]. rewrite IH; auto. Qed.
(** another thread takes a step *)
Lemma stuck_other s i c st s' j st' : stuck s i c st -> j <> i -> v_threads s' = set_nth j st' (v_threads s) -> clean c st' ->
  In c (v_pool s') -> c < v_next s' -> ~ In c (v_pending s') -> (forall b, ~ In (c, b) (v_events s')) -> ~ In c (v_shaking s') -> ~ In c (v_kept s') -> stuck s' i c st.
Proof.
  intros K N E CL X1 X2 X3 X4 X5 X6. split; auto.
  - unfold in_stop. rewrite E, !set_nth_other by exact N. exact (sk_thread _ _ _ _ K).
  - intros k st2 NK H. rewrite E in H. apply set_nth_cases in H as [(_ & -> & _)|(_ & H)]; auto. eapply (sk_others _ _ _ _ K); eauto.
Qed.
Lemma stuck_spawn s i c st s' f : stuck s i c st -> v_threads s' = v_threads s ++ [[f]] -> conn_of f <> Some c ->
  v_pool s' = v_pool s -> v_next s' = v_next s -> ~ In c (v_pending s') -> (forall b, ~ In (c, b) (v_events s')) -> ~ In c (v_shaking s') -> ~ In c (v_kept s') -> stuck s' i c st.
Proof.
  intros K E CL E1 E2 X3 X4 X5 X6. split; auto.
  - unfold in_stop. rewrite E. destruct (sk_thread _ _ _ _ K) as [H|H]; [left|right]; apply nth_app_old; exact H.
  - rewrite E1. apply (sk_pool _ _ _ _ K).
  - rewrite E2. apply (sk_old _ _ _ _ K).
  - intros k st2 NK H. rewrite E in H. apply nth_snoc in H as [H|[_ ->]]; [eapply (sk_others _ _ _ _ K); eauto|]. intros g [<-|[]]. exact CL.
Qed.
Lemma stuck_data s i c st s' : stuck s i c st -> v_threads s' = v_threads s ->
  v_pool s' = v_pool s -> v_next s' = v_next s -> ~ In c (v_pending s') -> (forall b, ~ In (c, b) (v_events s')) -> ~ In c (v_shaking s') -> ~ In c (v_kept s') -> stuck s' i c st.
Proof. intros [K1 K2 K3 K4 K5 K6 K7 K8] E E1 E2 X3 X4 X5 X6. split; auto; try (unfold in_stop in *; rewrite ?E, ?E1, ?E2; auto). Qed.
Lemma clean_cons c f st : conn_of f <> Some c -> clean c st -> clean c (f :: st).
Proof. intros H C g [<-|I]; auto. Qed.
Lemma clean_tail c f st : clean c (f :: st) -> clean c st.
Proof. intros C g I. apply C. right. exact I. Qed.
Lemma clean_head c f st : clean c (f :: st) -> conn_of f <> Some c.
Proof. intros C. apply C. left. reflexivity. Qed.
Lemma del_in c d l : In d (del c l) <-> In d l /\ d <> c.
Proof. unfold del. rewrite filter_In, negb_true_iff, Nat.eqb_neq. intuition congruence. Qed.
Lemma stop_loop_stuck s i c st j st' : stuck s i c st -> exists p, In c p /\ do_stop_loop s j st' = (set_stack (set_mutex (set_pool s p) None) j (FStopSleep :: st'), []).
Proof.
  intros K. pose proof (stuck_prune _ _ _ _ K) as P. pose proof (sk_pool _ _ _ _ K) as Q. unfold do_stop_loop. destruct (v_pool s) as [|d l]; [contradiction|].
  destruct (prune s) as [|e p] eqn:E; [contradiction|]. exists (e :: p). auto.
Qed.
Lemma stuck_thread s i c st j f st' s' e : stuck s i c st -> nth_error (v_threads s) j = Some (f :: st') -> thread_step s j f st' = Some (s', e) -> stuck s' i c st.
Proof.
  intros K NT E. pose proof K as [K1 K2 K3 K4 K5 K6 K7 K8]. destruct (Nat.eq_dec j i) as [->|N].
  - destruct K1 as [H|H]; rewrite NT in H; injection H as -> ->; cbn [thread_step] in E.
    + destruct (owns s i); [|discriminate]. destruct (stop_loop_stuck s i c st i (FUser (Some c) :: st) K) as (p & P1 & P2). rewrite P2 in E. injection E as <- <-. split; auto.
      * right. cbn. apply set_nth_same. eapply nth_lt; eauto.
      * intros k st2 NK H. cbn in H. rewrite set_nth_other in H by congruence. eauto.
    + destruct (unlocked s); [|discriminate]. injection E as <- <-. split; auto.
      * left. cbn. apply set_nth_same. eapply nth_lt; eauto.
      * intros k st2 NK H. cbn in H. rewrite set_nth_other in H by congruence. eauto.
  - pose proof (K8 _ _ N NT) as CL. pose proof (clean_head _ _ _ CL) as CH. pose proof (clean_tail _ _ _ CL) as CT.
    destruct f as [ | | | | | | | | | d ok|d ok|new d|d| |o]; cbn [thread_step] in E.
    + destruct (unlocked s); [|discriminate]. unfold do_start in E. destruct (v_listening s); injection E as <- <-; eapply stuck_other; cbn; eauto; repeat apply clean_cons; cbn; auto; try discriminate.
    + destruct (unlocked s); [|discriminate]. unfold do_listen in E. destruct (v_listening s); injection E as <- <-; eapply stuck_other; cbn; eauto.
      * right. eapply stuck_prune; eauto.
      * intros [X|X]; [lia|auto].
    + injection E as <- <-. eapply stuck_other; cbn; eauto.
    + destruct (unlocked s); [|discriminate]. unfold do_stop in E. destruct (v_listening s); injection E as <- <-; eapply stuck_other; cbn; eauto; try (apply clean_cons; auto; try discriminate).
      intros b X. apply in_app_or in X as [X|X]; [|exact (K5 _ X)]. apply in_map_iff in X as (y & X & I). injection X as -> _. contradiction.
    + destruct (owns s j); [|discriminate]. destruct (stop_loop_stuck s i c st j st' K) as (p & P1 & P2). rewrite P2 in E. injection E as <- <-. eapply stuck_other; cbn; eauto. apply clean_cons; auto; try discriminate.
    + destruct (unlocked s); [|discriminate]. injection E as <- <-. eapply stuck_other; cbn; eauto. apply clean_cons; auto; try discriminate.
    + destruct (unlocked s); [|discriminate]. destruct (v_listening s); injection E as <- <-; eapply stuck_other; cbn; eauto. apply clean_cons; auto; try discriminate.
    + discriminate.
    + destruct (unlocked s); [|discriminate]. injection E as <- <-. eapply stuck_other; cbn; eauto.
    + discriminate.
    + injection E as <- <-. eapply stuck_other; cbn; eauto. apply clean_cons; auto. destruct ok; exact CH.
    + injection E as <- <-. eapply stuck_other; cbn; eauto. apply clean_cons; auto.
    + destruct (unlocked s); [|discriminate]. unfold do_finish in E. destruct (v_listening s && hasn d (v_alive s)); injection E as <- <-; eapply stuck_other; cbn; eauto.
      * apply clean_cons; [exact CH|]. apply clean_cons; auto; try discriminate.
      * apply del_in. split; auto. cbn in CH. congruence.
    + destruct (owns s j); [|discriminate]. injection E as <- <-. eapply stuck_other; cbn; eauto.
    + discriminate.
Qed.
Lemma stuck_step s i c st l s' e : stuck s i c st -> v_step s l = Some (s', e) -> stuck s' i c st.
Proof.
  intros K E. pose proof K as [K1 K2 K3 K4 K5 K6 K7 K8]. destruct l as [j|j a|j ssl|d ok|d ok|d ok|d|d|]; cbn [v_step] in E.
  - destruct (nth_error (v_threads s) j) as [[|f st']|] eqn:NT; try discriminate. eapply stuck_thread; eauto.
  - destruct (nth_error (v_threads s) j) as [[|f st']|] eqn:NT; try discriminate. destruct f; try discriminate. rename c0 into o.
    assert (N : j <> i) by (intros ->; destruct K1 as [H|H]; rewrite NT in H; discriminate).
    pose proof (K8 _ _ N NT) as CL. pose proof (clean_head _ _ _ CL) as CH. pose proof (clean_tail _ _ _ CL) as CT.
    destruct (user_step s j o a st') as [s1|] eqn:U; [|discriminate]. injection E as <- <-. unfold user_step in U.
    destruct a; destruct o as [d|]; try discriminate; injection U as <-;
      try (eapply stuck_other; cbn; eauto; apply clean_cons; auto; try discriminate).
    + apply (stuck_data s); cbn; auto. intros [X|X]; [|auto]. subst. apply CH. reflexivity.
    + apply (stuck_data s); cbn; auto.
  - destruct (nth_error (v_threads s) j) as [[|f st']|] eqn:NT; try discriminate. destruct f as [ | | | | | | | | | d ok|d ok|new d|d| |o]; try discriminate. injection E as <- <-.
    assert (N : j <> i) by (intros ->; destruct K1 as [H|H]; rewrite NT in H; discriminate).
    pose proof (K8 _ _ N NT) as CL. pose proof (clean_head _ _ _ CL) as CH. pose proof (clean_tail _ _ _ CL) as CT. cbn in CH.
    unfold accept_step. destruct ok, ssl, (v_listening s); cbn [andb]; (eapply stuck_other; [exact K|exact N|cbn; reflexivity| | | | | | |]; cbn; auto;
      repeat apply clean_cons; cbn; auto; try discriminate); intros [X|X]; auto; congruence.
  - destruct (hasn d (v_pending s)) eqn:H; [|discriminate]. apply hasn_in in H. injection E as <- <-. apply (stuck_data s); cbn; auto.
    + intros X. apply del_in in X as [X _]. auto.
    + intros b [X|X]; [injection X as -> _; auto|exact (K5 _ X)].
  - destruct (existsb (same_event d ok) (v_events s)) eqn:H; [|discriminate]. injection E as <- <-. apply (stuck_spawn s i c st _ (FAccept d ok)); cbn; auto.
    + intros X. injection X as ->. apply existsb_exists in H as ((x & b) & I & S). unfold same_event in S. apply andb_prop in S as [S _]. apply Nat.eqb_eq in S. cbn in S. subst x. exact (K5 _ I).
    + intros b X. apply filter_In in X as [X _]. exact (K5 _ X).
  - destruct (hasn d (v_shaking s)) eqn:H; [|discriminate]. apply hasn_in in H. injection E as <- <-. apply (stuck_spawn s i c st _ (FShake d ok)); cbn; auto.
    + intros X. injection X as ->. auto.
    + intros X. apply del_in in X as [X _]. auto.
  - injection E as <- <-. apply (stuck_data s); cbn; auto. intros X. apply del_in in X as [X _]. auto.
  - destruct (hasn d (v_kept s)) eqn:H; [|discriminate]. apply hasn_in in H. injection E as <- <-. apply (stuck_spawn s i c st _ (FUser (Some d))); cbn; auto. intros X. injection X as ->. auto.
  - injection E as <- <-. apply (stuck_spawn s i c st _ (FUser None)); cbn; auto. discriminate.
Qed.
Lemma stuck_run ls : forall s i c st s' tr, stuck s i c st -> run v_step s ls = Some (s', tr) -> stuck s' i c st.
Proof.
  induction ls as [|l ls IH]; intros s i c st s' tr K R; cbn in R; [injection R as <- <-; exact K|].
  destruct (v_step s l) as [[s1 e]|] eqn:E; [|discriminate]. destruct (run v_step s1 ls) as [[s2 e2]|] eqn:R2; [|discriminate]. injection R as <- <-.
  eapply IH; [eapply stuck_step; eauto|exact R2].
Qed.
(** one more pass of the loop of stop *)
Lemma stop_pass s i st : v_mutex s = None -> nth_error (v_threads s) i = Some (FStopSleep :: st) -> (forall c, In c (v_pool s) -> ~ held s c) ->
  exists s' tr, run v_step s [LThread i; LThread i] = Some (s', tr) /\ In (VStopped true) tr /\ v_pool s' = [] /\ nth_error (v_threads s') i = Some st.
Proof.
  intros M H N. set (s1 := set_stack (set_mutex s (Some i)) i (FStopLoop :: st)).
  assert (L : i < length (v_threads s)) by (eapply nth_lt; eauto).
  assert (H1 : nth_error (v_threads s1) i = Some (FStopLoop :: st)) by (cbn; apply set_nth_same; exact L).
  assert (N1 : forall c, In c (v_pool s1) -> ~ held s1 c).
  { intros c I [X|[X|[X|[X|(j & st' & f & X1 & X2 & X3)]]]]; apply (N c I); unfold held; cbn in *; eauto 6.
    apply set_nth_cases in X1 as [(-> & -> & _)|(_ & X1)]; [|eauto 12]. destruct X2 as [<-|X2]; [discriminate|]. right. right. right. right. exists i, (FStopSleep :: st), f. split; [exact H|]. split; auto. right. exact X2. }
  pose proof (prune_none _ N1) as P.
  exists (fst (stop_end (set_pool s1 []) i st)), (snd (stop_end (set_pool s1 []) i st)).
  cbn [run v_step]. rewrite H. cbn [thread_step]. unfold unlocked. rewrite M. fold s1. cbn [v_step]. rewrite H1. cbn [thread_step].
  assert (O : owns s1 i = true) by (unfold owns; cbn; apply Nat.eqb_refl). rewrite O.
  assert (D : do_stop_loop s1 i st = stop_end (set_pool s1 []) i st).
  { unfold do_stop_loop. destruct (v_pool s1) eqn:E; [|rewrite P; reflexivity]. f_equal. unfold set_pool. destruct s1. cbn in *. rewrite E. reflexivity. }
  rewrite D. split; [reflexivity|]. cbn. split; [auto|]. split; [reflexivity|]. apply set_nth_same. rewrite map_length, set_nth_length. exact L.
Qed.
