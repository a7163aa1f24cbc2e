(** Invariants of the model of tcp::server. *)
From Coq Require Import ZArith List Bool Lia PeanoNat.
From Verif Require Import Base Runs Threads TcpModel.
Import ListNotations.
Local Open Scope nat_scope.

(* ------------------------------------------------------------------ counting *)

Definition wsum (w : frame -> nat) (st : list frame) : nat := list_sum (map w st).
Definition total (w : frame -> nat) (th : list (list frame)) : nat := list_sum (map (wsum w) th).
Lemma wsum_cons : forall w f st, wsum w (f :: st) = w f + wsum w st.
Proof. reflexivity. Qed.
Lemma total_set : forall w th i old new, nth_error th i = Some old -> total w (set_nth i new th) + wsum w old = total w th + wsum w new.
Proof.
  intros w. induction th as [|x th IH]; intros [|i] old new H; simpl in *; try discriminate; unfold total in *; simpl.
  - injection H as ->. lia.
  - specialize (IH _ _ new H). lia.
Qed.
Lemma total_snoc : forall w th st, total w (th ++ [st]) = total w th + wsum w st.
Proof. intros w th st. unfold total. rewrite map_app, list_sum_app. simpl. lia. Qed.
Lemma total_le : forall w th i st, nth_error th i = Some st -> wsum w st <= total w th.
Proof.
  intros w. induction th as [|x th IH]; intros [|i] st H; simpl in *; try discriminate; unfold total in *; simpl.
  - injection H as ->. lia.
  - specialize (IH _ _ H). lia.
Qed.
Lemma wsum_In : forall w st f, In f st -> w f <= wsum w st.
Proof. intros w. induction st as [|g st IH]; intros f H; [destruct H|]. rewrite wsum_cons. destruct H as [->|H]; [lia|]. specialize (IH _ H). lia. Qed.
Lemma wsum_pos : forall w st, 0 < wsum w st -> exists f, In f st /\ 0 < w f.
Proof.
  intros w. induction st as [|g st IH]; [unfold wsum; simpl; lia|]. rewrite wsum_cons. intros H. destruct (w g) eqn:E.
  - destruct IH as (f & A & B); [lia|]. exists f. split; [right; exact A | exact B].
  - exists g. split; [left; reflexivity | lia].
Qed.
Lemma total_pos : forall w th, 0 < total w th -> exists i st, nth_error th i = Some st /\ 0 < wsum w st.
Proof.
  intros w. induction th as [|x th IH]; [unfold total; simpl; lia|]. unfold total. simpl. intros H. destruct (wsum w x) eqn:E.
  - destruct IH as (i & st & A & B); [unfold total; lia|]. exists (S i), st. auto.
  - exists 0, x. split; [reflexivity | lia].
Qed.
Definition wake (f : frame) : frame := match f with FJoinWait => FJoin | _ => f end.
Lemma wsum_wake : forall w st, (w FJoinWait = w FJoin) -> wsum w (map wake st) = wsum w st.
Proof. intros w st H. induction st as [|f st IH]; [reflexivity|]. simpl. rewrite !wsum_cons, IH. destruct f; simpl; lia. Qed.
Lemma total_wake : forall w th, (w FJoinWait = w FJoin) -> total w (map (map wake) th) = total w th.
Proof. intros w th H. unfold total. induction th as [|x th IH]; [reflexivity|]. simpl. rewrite IH, wsum_wake by exact H. reflexivity. Qed.
Lemma nth_map {A B} (f : A -> B) : forall l i, nth_error (map f l) i = match nth_error l i with Some x => Some (f x) | None => None end.
Proof. induction l as [|x l IH]; intros [|i]; simpl; auto. Qed.

Definition count (c : nat) (l : list nat) : nat := count_occ Nat.eq_dec l c.
Global Arguments count : simpl never.
Lemma count_cons : forall c d l, count c (d :: l) = (if Nat.eqb c d then 1 else 0) + count c l.
Proof. intros c d l. unfold count. simpl. destruct (Nat.eq_dec d c) as [->|N]; [rewrite Nat.eqb_refl; lia|]. destruct (Nat.eqb_spec c d); [congruence | lia]. Qed.
Lemma count_In : forall c l, In c l <-> 0 < count c l.
Proof. intros c l. unfold count. rewrite (count_occ_In Nat.eq_dec). reflexivity. Qed.
Lemma hasn_In : forall c l, hasn c l = true <-> In c l.
Proof.
  intros c l. unfold hasn. rewrite existsb_exists. split; [intros (x & H & E); apply Nat.eqb_eq in E; subst; exact H | intros H; exists c; split; [exact H | apply Nat.eqb_refl]].
Qed.
Lemma hasn_count : forall c l, hasn c l = true <-> 0 < count c l.
Proof. intros. rewrite hasn_In, count_In. reflexivity. Qed.
Lemma del_In : forall c d l, In d (del c l) <-> In d l /\ d <> c.
Proof. intros c d l. unfold del. rewrite filter_In, negb_true_iff, Nat.eqb_neq. split; intros [A B]; split; auto. Qed.
Lemma count_del : forall c d l, count c (del d l) = if Nat.eqb c d then 0 else count c l.
Proof.
  intros c d l. induction l as [|x l IH]; [destruct (Nat.eqb c d); reflexivity|]. simpl. destruct (Nat.eqb_spec d x) as [<-|N]; simpl.
  - rewrite IH, count_cons. destruct (Nat.eqb_spec c d); [reflexivity | lia].
  - rewrite !count_cons, IH. destruct (Nat.eqb_spec c d) as [->|]; [|lia]. destruct (Nat.eqb_spec d x); [congruence | lia].
Qed.
Lemma count_app : forall c a b, count c (a ++ b) = count c a + count c b.
Proof. intros. unfold count. apply count_occ_app. Qed.
Lemma count_events : forall c ok e, existsb (same_event c ok) e = true ->
  forall d, count d (map fst (filter (fun x => negb (same_event c ok x)) e)) + (if Nat.eqb d c then 1 else 0) <= count d (map fst e)
            /\ (d <> c -> count d (map fst (filter (fun x => negb (same_event c ok x)) e)) = count d (map fst e)).
Proof.
  intros c ok e H d.
  assert (G : forall e, count d (map fst (filter (fun x => negb (same_event c ok x)) e)) <= count d (map fst e) /\ (d <> c -> count d (map fst (filter (fun x => negb (same_event c ok x)) e)) = count d (map fst e))).
  { clear. induction e as [|[x o] e IH]; [simpl; split; auto|]. cbn [map filter fst]. destruct (same_event c ok (x, o)) eqn:E; cbn [negb map fst]; destruct IH as [I1 I2].
    - unfold same_event in E. apply andb_true_iff in E. destruct E as [E _]. apply Nat.eqb_eq in E. simpl in E. subst x. rewrite count_cons.
      split; [lia|]. intros N. rewrite I2 by exact N. destruct (Nat.eqb_spec d c); congruence || lia.
    - rewrite !count_cons. split; [lia | intros N; rewrite I2; auto]. }
  split; [|apply G]. revert H. induction e as [|[x o] e IH]; [discriminate|]. cbn [existsb map filter fst]. destruct (same_event c ok (x, o)) eqn:E; cbn [negb map fst orb]; intros H.
  - unfold same_event in E. apply andb_true_iff in E. destruct E as [E _]. apply Nat.eqb_eq in E. simpl in E. subst x.
    rewrite count_cons. pose proof (proj1 (G e)). lia.
  - specialize (IH H). rewrite !count_cons. lia.
Qed.

(* ------------------------------------------------------------------ the invariant *)

(** the frames that are about to hand a new connection to the handler; those that show the user knows the connection *)
Definition wf (c : nat) (f : frame) : nat := match f with FAccept d _ | FShake d _ | FHandle true d => if Nat.eqb c d then 1 else 0 | _ => 0 end.
Definition wk (c : nat) (f : frame) : nat := match f with FHandle false d | FFinish d | FUser (Some d) => if Nat.eqb c d then 1 else 0 | _ => 0 end.
Definition wl (f : frame) : nat := match f with FUnlock | FStopLoop => 1 | _ => 0 end.
(** a call of handle_connection for a connection kept alive is followed by the release of the mutex *)
Fixpoint followed (st : list frame) : Prop :=
  match st with
  | [] => True
  | FHandle false _ :: st' => match st' with FUnlock :: _ => followed st' | _ => False end
  | _ :: st' => followed st'
  end.
Definition fresh (s : tsrv) (c : nat) : nat := count c (v_pending s) + count c (map fst (v_events s)) + count c (v_shaking s) + total (wf c) (v_threads s).
Definition known (s : tsrv) (c : nat) : nat := count c (v_kept s) + total (wk c) (v_threads s).

Definition inv_conn (s : tsrv) : Prop := forall c,
  fresh s c <= 1 /\ (0 < fresh s c -> known s c = 0 /\ In c (v_pool s)) /\ (0 < fresh s c + known s c \/ In c (v_pool s) -> c < v_next s).
Definition inv_lock (s : tsrv) : Prop :=
  (forall j st, nth_error (v_threads s) j = Some st -> wsum wl st = (if owns s j then 1 else 0) /\ followed st)
  /\ (forall j, v_mutex s = Some j -> j < length (v_threads s)).

Lemma prune_fresh : forall s c, In c (v_pool s) -> 0 < fresh s c -> In c (prune s).
Proof.
  intros s c H F. unfold prune. apply filter_In. split; [exact H|]. unfold referenced, fresh in *.
  destruct (hasn c (v_pending s)) eqn:E1; [reflexivity|]. destruct (hasn c (map fst (v_events s))) eqn:E2; [reflexivity|].
  destruct (hasn c (v_shaking s)) eqn:E3; [reflexivity|]. destruct (hasn c (v_kept s)) eqn:E4; [reflexivity|]. simpl.
  assert (X : forall l, hasn c l = false -> count c l = 0) by (intros l E; destruct (count c l) eqn:D; auto; assert (hasn c l = true) by (apply hasn_count; lia); congruence).
  rewrite (X _ E1), (X _ E2), (X _ E3) in F. simpl in F. destruct (total_pos _ _ F) as (i & st & A & B). destruct (wsum_pos _ _ B) as (f & C & D).
  apply existsb_exists. exists st. split; [eapply nth_error_In; eauto|]. apply existsb_exists. exists f. split; [exact C|].
  unfold frame_has. destruct f as [| | | | | | | | |d o|d o|n d|d| |o]; simpl in *; try lia; try (destruct (Nat.eqb c d); [reflexivity | lia]).
  destruct n; simpl in D; [|lia]. destruct (Nat.eqb c d); [reflexivity | lia].
Qed.
Lemma prune_In : forall s c, In c (prune s) -> In c (v_pool s).
Proof. intros s c H. apply filter_In in H. tauto. Qed.

Lemma wake_eq : forall th, map (map (fun f => match f with FJoinWait => FJoin | _ => f end)) th = map (map wake) th.
Proof. reflexivity. Qed.

Lemma inv_conn_stack : forall s i old new, nth_error (v_threads s) i = Some old -> inv_conn s ->
  (forall c, wsum (wf c) new = wsum (wf c) old /\ wsum (wk c) new = wsum (wk c) old) -> inv_conn (set_stack s i new).
Proof.
  intros s i old new H K W c. destruct (K c) as (K1 & K2 & K3). destruct (W c) as [W1 W2]. unfold fresh, known, set_stack, set_threads in *. simpl.
  pose proof (total_set (wf c) _ _ _ new H). pose proof (total_set (wk c) _ _ _ new H).
  replace (total (wf c) (set_nth i new (v_threads s))) with (total (wf c) (v_threads s)) by lia.
  replace (total (wk c) (set_nth i new (v_threads s))) with (total (wk c) (v_threads s)) by lia. auto.
Qed.
(** anything that depends only on the counts *)
Lemma inv_conn_counts : forall s s', inv_conn s ->
  (forall c, (fresh s' c <= fresh s c /\ fresh s' c + known s' c <= fresh s c + known s c
              \/ fresh s' c = fresh s c /\ known s' c = 0 \/ 0 < known s c /\ fresh s' c <= fresh s c)) ->
  (forall c, In c (v_pool s') -> In c (v_pool s)) ->
  (forall c, 0 < fresh s' c -> In c (v_pool s) -> In c (v_pool s')) ->
  v_next s' = v_next s -> inv_conn s'.
Proof.
  intros s s' K W P1 P2 N c. destruct (K c) as (K1 & K2 & K3). specialize (W c). specialize (P1 c). specialize (P2 c). rewrite N.
  split; [lia|]. split.
  - intros F. destruct W as [[W1 W2]|[[W1 W2]|[W1 W2]]].
    + destruct (K2 ltac:(lia)) as [A B]. split; [lia | auto].
    + destruct (K2 ltac:(lia)) as [A B]. auto.
    + destruct (K2 ltac:(lia)) as [A B]. lia.
  - intros [F|F]; [|auto]. apply K3. left. lia.
Qed.

(** the effect of a step on threads, connections and mutex *)
Ltac weigh H new c :=
  let E1 := fresh "E" in let E2 := fresh "E" in
  pose proof (total_set (wf c) _ _ _ new H) as E1; pose proof (total_set (wk c) _ _ _ new H) as E2;
  repeat rewrite wsum_cons in E1; repeat rewrite wsum_cons in E2; simpl in E1, E2.

Lemma conn_thread : forall s i f st s' e, nth_error (v_threads s) i = Some (f :: st) -> inv_conn s -> thread_step s i f st = Some (s', e) -> inv_conn s'.
Proof.
  intros s i f st s' e H K D.
  assert (PRUNE : forall c, 0 < fresh s c -> In c (v_pool s) -> In c (prune s)) by (intros; apply prune_fresh; auto).
  destruct f as [| | | | | | | | |d o|d o|n d|d| |o]; simpl in D; try discriminate.
  - destruct (unlocked s); [|discriminate]. unfold do_start in D. destruct (v_listening s); injection D as <- <-.
    + apply inv_conn_counts with s; auto; intros c; left; unfold fresh, known; simpl; weigh H st c; lia.
    + apply inv_conn_counts with s; auto; intros c; left; unfold fresh, known; simpl; weigh H (FListen :: FAddUser :: st) c; lia.
  - destruct (unlocked s); [|discriminate]. unfold do_listen in D. destruct (v_listening s); injection D as <- <-.
    + intros c. unfold fresh, known in *. simpl. weigh H st c. rewrite count_cons. destruct (K c) as (K1 & K2 & K3). unfold fresh, known in *.
      destruct (Nat.eqb_spec c (v_next s)) as [->|N].
      * assert (~ (0 < count (v_next s) (v_pending s) + count (v_next s) (map fst (v_events s)) + count (v_next s) (v_shaking s) + total (wf (v_next s)) (v_threads s)
          + (count (v_next s) (v_kept s) + total (wk (v_next s)) (v_threads s)))) by (intros X; specialize (K3 (or_introl X)); lia).
        split; [lia|]. split; [intros _; split; [lia | left; reflexivity] | lia].
      * split; [lia|]. split; [intros X; split; [lia | right; apply PRUNE; [unfold fresh; lia | apply K2; lia]]|].
        intros [X|[X|X]]; [|congruence|]; [|apply prune_In in X]; assert (c < v_next s) by (apply K3; try tauto; left; lia); lia.
    + apply inv_conn_counts with s; auto. intros c. left. unfold fresh, known. simpl. weigh H st c. lia.
  - injection D as <- <-. apply inv_conn_counts with s; auto. intros c. left. unfold fresh, known. simpl. weigh H st c. lia.
  - destruct (unlocked s); [|discriminate]. unfold do_stop in D. destruct (v_listening s); injection D as <- <-.
    + apply inv_conn_counts with s; auto. intros c. left. unfold fresh, known. simpl. weigh H (FStopLoop :: st) c.
      rewrite map_app, count_app, map_map. simpl. rewrite map_id. change (count c []) with 0. lia.
    + apply inv_conn_counts with s; auto. intros c. left. unfold fresh, known. simpl. weigh H st c. lia.
  - destruct (owns s i); [|discriminate]. injection D as D.
    assert (END : forall s0, v_threads s0 = v_threads s -> (forall c, fresh s0 c = fresh s c /\ known s0 c = known s c) -> v_next s0 = v_next s ->
      (forall c, In c (v_pool s0) -> In c (v_pool s)) -> (forall c, 0 < fresh s c -> In c (v_pool s) -> In c (v_pool s0)) -> inv_conn (fst (stop_end s0 i st))).
    { intros s0 T C N P1 P2. apply inv_conn_counts with s; simpl; auto.
      - intros c. left. destruct (C c) as [C1 C2]. rewrite <- C1, <- C2. unfold fresh, known. simpl. rewrite T in *. rewrite wake_eq.
        assert (H' : nth_error (map (map wake) (v_threads s)) i = Some (FStopLoop :: map wake st)) by (rewrite nth_map, H; reflexivity).
        weigh H' st c. rewrite !total_wake in * by reflexivity. rewrite !wsum_wake in * by reflexivity. lia.
      - intros c F. apply P2. destruct (C c) as [C1 C2]. rewrite <- C1. unfold fresh in *. simpl in F. rewrite T in *. rewrite wake_eq in F.
        assert (H' : nth_error (map (map wake) (v_threads s)) i = Some (FStopLoop :: map wake st)) by (rewrite nth_map, H; reflexivity).
        weigh H' st c. rewrite !total_wake in * by reflexivity. rewrite !wsum_wake in * by reflexivity. lia. }
    unfold do_stop_loop in D. destruct (v_pool s) as [|p0 pool] eqn:EP.
    + replace s' with (fst (stop_end s i st)) by (rewrite D; reflexivity). apply END; auto; rewrite EP; auto.
    + destruct (prune s) as [|q0 q] eqn:EQ.
      * replace s' with (fst (stop_end (set_pool s []) i st)) by (rewrite D; reflexivity). apply END; auto; simpl; tauto.
      * injection D as <- <-. apply inv_conn_counts with s; auto; simpl.
        -- intros c. left. unfold fresh, known. simpl. weigh H (FStopSleep :: st) c. lia.
        -- intros c X. apply (prune_In s c). rewrite EQ. exact X.
        -- intros c X P. rewrite EP in P. apply PRUNE; [|exact P]. unfold fresh in *. simpl in X. weigh H (FStopSleep :: st) c. lia.
  - destruct (unlocked s); [|discriminate]. injection D as <- <-. apply inv_conn_counts with s; auto. intros c. left. unfold fresh, known. simpl. weigh H (FStopLoop :: st) c. lia.
  - destruct (unlocked s); [|discriminate]. destruct (v_listening s); injection D as <- <-.
    + apply inv_conn_counts with s; auto; intros c; left; unfold fresh, known; simpl; weigh H (FJoinWait :: st) c; lia.
    + apply inv_conn_counts with s; auto; intros c; left; unfold fresh, known; simpl; weigh H st c; lia.
  - destruct (unlocked s); [|discriminate]. injection D as <- <-. apply inv_conn_counts with s; auto. intros c. left. unfold fresh, known. simpl. weigh H st c. lia.
  - injection D as <- <-. apply inv_conn_counts with s; auto. intros c. left. unfold fresh, known. simpl. destruct o.
    + weigh H (FHandle true d :: st) c. lia.
    + weigh H (FFinish d :: st) c. lia.
  - injection D as <- <-. apply inv_conn_counts with s; auto. intros c. left. unfold fresh, known. simpl. weigh H (FUser (Some d) :: st) c. destruct n; lia.
  - destruct (unlocked s); [|discriminate]. injection D as D. unfold do_finish in D. destruct (v_listening s && hasn d (v_alive s)); injection D as <- <-.
    + apply inv_conn_counts with s; auto. intros c. left. unfold fresh, known. simpl. weigh H (FHandle false d :: FUnlock :: st) c. lia.
    + apply inv_conn_counts with s; simpl; auto.
      * intros c. left. unfold fresh, known. simpl. weigh H st c. lia.
      * intros c X. apply del_In in X. tauto.
      * intros c X P. apply del_In. split; [exact P|]. intros ->. destruct (K d) as (_ & K2 & _). unfold fresh in X. simpl in X.
        weigh H st d. rewrite Nat.eqb_refl in *. unfold fresh, known in K2. destruct (K2 ltac:(lia)) as [Z _].
        pose proof (total_le (wk d) _ _ _ H). rewrite wsum_cons in *. simpl in *. rewrite Nat.eqb_refl in *. lia.
  - destruct (owns s i); [|discriminate]. injection D as <- <-. apply inv_conn_counts with s; auto. intros c. left. unfold fresh, known. simpl. weigh H st c. lia.
Qed.

Lemma conn_accept : forall s i c ok ssl st, nth_error (v_threads s) i = Some (FAccept c ok :: st) -> inv_conn s -> inv_conn (accept_step s i c ok ssl st).
Proof.
  intros s i c ok ssl st H K. unfold accept_step.
  set (new := if v_listening s then FListen :: (if ok then if ssl then st else FHandle true c :: st else FFinish c :: st)
              else (if ok then if ssl then st else FHandle true c :: st else FFinish c :: st)).
  assert (W : forall d, wsum (wf d) new + (if ok && ssl then if Nat.eqb d c then 1 else 0 else 0) + (if ok then 0 else if Nat.eqb d c then 1 else 0)
                        = (if Nat.eqb d c then 1 else 0) + wsum (wf d) st
              /\ wsum (wk d) new = (if ok then 0 else if Nat.eqb d c then 1 else 0) + wsum (wk d) st).
  { intros d. subst new. destruct (v_listening s), ok, ssl; rewrite ?wsum_cons; simpl; lia. }
  clearbody new. apply inv_conn_counts with s; auto; try (destruct (ok && ssl); simpl; auto; fail).
  intros d. left. destruct (W d) as [W1 W2]. clear W. weigh H new d.
  destruct ok, ssl; simpl in *; unfold fresh, known; simpl; rewrite ?count_cons; lia.
Qed.
Lemma conn_step : forall s l s' e, inv_conn s -> v_step s l = Some (s', e) -> inv_conn s'.
Proof.
  intros s l s' e K D. destruct l as [i|i a|i ssl|c ok|c ok|c ok|c|c|]; cbn [v_step] in D.
  - destruct (nth_error (v_threads s) i) as [[|f st]|] eqn:H; try discriminate. eapply conn_thread; eauto.
  - destruct (nth_error (v_threads s) i) as [[|f st]|] eqn:H; try discriminate. destruct f as [| | | | | | | | |d o|d o|n d|d| |o]; try discriminate.
    destruct (user_step s i o a st) as [s1|] eqn:U; [|discriminate]. injection D as <- <-.
    destruct a as [| | | | | | |k], o as [c|]; simpl in U; try discriminate; injection U as <-; apply inv_conn_counts with s; auto; intros x; unfold fresh, known; simpl;
      try (left; match goal with |- context [set_nth i ?new _] => weigh H new x end; lia).
    + weigh H (FFinish c :: FUser (Some c) :: st) x. pose proof (total_le (wk x) _ _ _ H) as T. rewrite wsum_cons in T. simpl in T. destruct (Nat.eqb x c); lia.
    + rewrite count_cons. pose proof (total_le (wk x) _ _ _ H) as T. rewrite wsum_cons in T. simpl in T. destruct (Nat.eqb x c); lia.
  - destruct (nth_error (v_threads s) i) as [[|f st]|] eqn:H; try discriminate. destruct f as [| | | | | | | | |d o|d o|n d|d| |o]; try discriminate.
    injection D as <- <-. apply conn_accept; auto.
  - destruct (hasn c (v_pending s)) eqn:E; [|discriminate]. injection D as <- <-. apply hasn_count in E. apply inv_conn_counts with s; auto.
    intros x. left. unfold fresh, known. simpl. rewrite count_del, count_cons. destruct (Nat.eqb_spec x c) as [->|]; lia.
  - destruct (existsb (same_event c ok) (v_events s)) eqn:E; [|discriminate]. injection D as <- <-. apply inv_conn_counts with s; auto.
    intros x. left. unfold fresh, known. simpl. rewrite !total_snoc, !wsum_cons. simpl. unfold wsum. simpl.
    destruct (count_events _ _ _ E x) as [X1 X2]. destruct (Nat.eqb_spec x c); [lia | rewrite X2 by assumption; lia].
  - destruct (hasn c (v_shaking s)) eqn:E; [|discriminate]. injection D as <- <-. apply hasn_count in E. apply inv_conn_counts with s; auto.
    intros x. left. unfold fresh, known. simpl. rewrite !total_snoc, !wsum_cons, count_del. simpl. unfold wsum. simpl. destruct (Nat.eqb_spec x c) as [->|]; lia.
  - injection D as <- <-. apply inv_conn_counts with s; auto. intros x. left. unfold fresh, known. simpl. rewrite count_del. destruct (Nat.eqb x c); lia.
  - destruct (hasn c (v_kept s)) eqn:E; [|discriminate]. injection D as <- <-. apply hasn_count in E. apply inv_conn_counts with s; auto.
    intros x. unfold fresh, known. simpl. rewrite !total_snoc, !wsum_cons. simpl. unfold wsum. simpl. destruct (Nat.eqb_spec x c) as [->|]; lia.
  - injection D as <- <-. apply inv_conn_counts with s; auto. intros x. left. unfold fresh, known. simpl. rewrite !total_snoc, !wsum_cons. simpl. unfold wsum. simpl. lia.
Qed.

(* ------------------------------------------------------------------ the mutex *)

Definition lock_ok (m : option nat) (j : nat) (st : list frame) : Prop :=
  wsum wl st = (match m with Some k => if Nat.eqb j k then 1 else 0 | None => 0 end) /\ followed st.
Lemma inv_lock_alt : forall s, inv_lock s <->
  (forall j st, nth_error (v_threads s) j = Some st -> lock_ok (v_mutex s) j st) /\ (forall j, v_mutex s = Some j -> j < length (v_threads s)).
Proof.
  intros s. unfold inv_lock, lock_ok, owns. split; intros [A B]; (split; [|exact B]); intros j st H; specialize (A j st H); destruct (v_mutex s); exact A.
Qed.
(** thread [i] changes its stack, the mutex from [m] to [m'] *)
Lemma lock_set : forall th m m' i old new, nth_error th i = Some old ->
  (forall j st, nth_error th j = Some st -> lock_ok m j st) -> (forall j, m = Some j -> j < length th) ->
  lock_ok m' i new -> (m' = m \/ ((m = None \/ m = Some i) /\ (m' = None \/ m' = Some i))) ->
  (forall j st, nth_error (set_nth i new th) j = Some st -> lock_ok m' j st) /\ (forall j, m' = Some j -> j < length (set_nth i new th)).
Proof.
  intros th m m' i old new H A B N M. rewrite set_nth_length. split.
  - intros j st Hj. apply set_nth_cases in Hj. destruct Hj as [(-> & -> & _)|(NE & Hj)]; [exact N|]. specialize (A _ _ Hj). unfold lock_ok in *.
    destruct M as [->|[[-> | ->] [-> | ->]]]; simpl in *; try exact A; destruct (Nat.eqb_spec j i); try congruence; exact A.
  - intros j ->. destruct M as [<-|[_ [M|M]]]; [auto | discriminate | injection M as ->; apply (nth_lt _ _ _ H)].
Qed.
Lemma lock_snoc : forall th m f, wl f = 0 -> followed [f] ->
  (forall j st, nth_error th j = Some st -> lock_ok m j st) -> (forall j, m = Some j -> j < length th) ->
  (forall j st, nth_error (th ++ [[f]]) j = Some st -> lock_ok m j st) /\ (forall j, m = Some j -> j < length (th ++ [[f]])).
Proof.
  intros th m f W1 W2 A B. rewrite app_length. split; [|intros j M; specialize (B j M); lia].
  intros j st H. apply nth_snoc in H. destruct H as [H|[-> ->]]; [auto|]. unfold lock_ok. rewrite !wsum_cons, W1. unfold wsum. simpl. split; [|exact W2].
  destruct m as [k|]; [|reflexivity]. specialize (B k eq_refl). destruct (Nat.eqb_spec (length th) k); [lia | reflexivity].
Qed.
Lemma followed_wake : forall st, followed st -> followed (map wake st).
Proof.
  induction st as [|f st IH]; [auto|]. intros H. destruct f as [| | | | | | | | |d o|d o|n d|d| |o]; simpl in *; auto.
  destruct n; [auto|]. destruct st as [|[| | | | | | | | |? ?|? ?|? ?|?| |?] st]; simpl in *; tauto.
Qed.
Lemma followed_tail : forall f st, followed (f :: st) -> followed st.
Proof.
  intros f st H. destruct f as [| | | | | | | | |d o|d o|n d|d| |o]; simpl in H; auto. destruct n; [auto|].
  destruct st as [|[| | | | | | | | |? ?|? ?|? ?|?| |?] st]; tauto.
Qed.
Lemma lock_wake : forall th m, (forall j st, nth_error th j = Some st -> lock_ok m j st) ->
  forall j st, nth_error (map (map wake) th) j = Some st -> lock_ok m j st.
Proof.
  intros th m A j st H. rewrite nth_map in H. destruct (nth_error th j) as [st0|] eqn:E; [|discriminate]. injection H as <-.
  destruct (A _ _ E) as [A1 A2]. split; [rewrite wsum_wake by reflexivity; exact A1 | apply followed_wake; exact A2].
Qed.
Lemma unlocked_none : forall s, unlocked s = true -> v_mutex s = None.
Proof. intros s. unfold unlocked. destruct (v_mutex s); congruence. Qed.
Lemma owns_some : forall s i, owns s i = true -> v_mutex s = Some i.
Proof. intros s i. unfold owns. destruct (v_mutex s); [|discriminate]. intros H. apply Nat.eqb_eq in H. congruence. Qed.

Lemma lock_thread : forall s i f st s' e, nth_error (v_threads s) i = Some (f :: st) -> inv_lock s -> thread_step s i f st = Some (s', e) -> inv_lock s'.
Proof.
  intros s i f st s' e H K D. apply inv_lock_alt in K. apply inv_lock_alt. destruct K as [A B]. destruct (A _ _ H) as [O F]. rewrite wsum_cons in O.
  apply followed_tail in F.
  assert (GO : forall new, wsum wl new = wsum wl (f :: st) -> followed new ->
     (forall j st, nth_error (set_nth i new (v_threads s)) j = Some st -> lock_ok (v_mutex s) j st) /\ (forall j, v_mutex s = Some j -> j < length (set_nth i new (v_threads s)))).
  { intros new W1 W2. apply lock_set with (v_mutex s) (f :: st); auto. unfold lock_ok. rewrite W1, wsum_cons. split; [apply O | exact W2]. }
  assert (SET : forall m' new, (v_mutex s = None \/ v_mutex s = Some i) -> (m' = None \/ m' = Some i) ->
     wsum wl new = (match m' with Some _ => 1 | None => 0 end) -> followed new ->
     (forall j st, nth_error (set_nth i new (v_threads s)) j = Some st -> lock_ok m' j st) /\ (forall j, m' = Some j -> j < length (set_nth i new (v_threads s)))).
  { intros m' new M1 M2 W1 W2. apply lock_set with (v_mutex s) (f :: st); auto. unfold lock_ok. rewrite W1. split; [|exact W2].
    destruct M2 as [-> | ->]; [reflexivity | rewrite Nat.eqb_refl; reflexivity]. }
  destruct f as [| | | | | | | | |d o|d o|n d|d| |o]; simpl in D; try discriminate; simpl in O.
  - destruct (unlocked s); [|discriminate]. unfold do_start in D. destruct (v_listening s); injection D as <- <-; apply GO; rewrite ?wsum_cons; simpl; auto.
  - destruct (unlocked s); [|discriminate]. unfold do_listen in D. destruct (v_listening s); injection D as <- <-; apply GO; rewrite ?wsum_cons; simpl; auto.
  - injection D as <- <-. apply GO; rewrite ?wsum_cons; simpl; auto.
  - destruct (unlocked s) eqn:U; [|discriminate]. apply unlocked_none in U. rewrite U in O. unfold do_stop in D. destruct (v_listening s); injection D as <- <-; [|apply GO; rewrite ?wsum_cons; simpl; auto].
    simpl. apply SET; auto; rewrite ?wsum_cons; simpl; lia.
  - destruct (owns s i) eqn:U; [|discriminate]. apply owns_some in U. injection D as D. rewrite U, Nat.eqb_refl in O.
    assert (END : forall s0, v_threads s0 = v_threads s -> 
      (forall j st0, nth_error (v_threads (fst (stop_end s0 i st))) j = Some st0 -> lock_ok (v_mutex (fst (stop_end s0 i st))) j st0)
      /\ (forall j, v_mutex (fst (stop_end s0 i st)) = Some j -> j < length (v_threads (fst (stop_end s0 i st))))).
    { intros s0 T. simpl. rewrite T, wake_eq. apply lock_set with (Some i) (map wake (FStopLoop :: st)).
      - rewrite nth_map, H. reflexivity.
      - apply lock_wake. rewrite <- U. exact A.
      - intros j Hj. rewrite map_length. apply B. congruence.
      - split; [lia | exact F].
      - right. auto. }
    unfold do_stop_loop in D. destruct (v_pool s) as [|p0 pool]; [|destruct (prune s) as [|q0 q]].
    + replace s' with (fst (stop_end s i st)) by (rewrite D; reflexivity). apply END. reflexivity.
    + replace s' with (fst (stop_end (set_pool s []) i st)) by (rewrite D; reflexivity). apply END. reflexivity.
    + injection D as <- <-. simpl. apply SET; auto; rewrite ?wsum_cons; simpl; lia.
  - destruct (unlocked s) eqn:U; [|discriminate]. apply unlocked_none in U. rewrite U in O. injection D as <- <-. simpl. apply SET; auto; rewrite ?wsum_cons; simpl; lia.
  - destruct (unlocked s); [|discriminate]. destruct (v_listening s); injection D as <- <-; apply GO; rewrite ?wsum_cons; simpl; auto.
  - destruct (unlocked s); [|discriminate]. injection D as <- <-. apply GO; rewrite ?wsum_cons; simpl; auto.
  - injection D as <- <-. apply GO; rewrite ?wsum_cons; destruct o; simpl; auto.
  - injection D as <- <-. apply GO; rewrite ?wsum_cons; destruct n; simpl; auto.
  - destruct (unlocked s) eqn:U; [|discriminate]. apply unlocked_none in U. rewrite U in O. injection D as D. unfold do_finish in D.
    destruct (v_listening s && hasn d (v_alive s)); injection D as <- <-; [|apply GO; rewrite ?wsum_cons; simpl; auto].
    simpl. apply SET; auto; rewrite ?wsum_cons; simpl; lia.
  - destruct (owns s i) eqn:U; [|discriminate]. apply owns_some in U. rewrite U, Nat.eqb_refl in O. injection D as <- <-. simpl. apply SET; auto; lia.
Qed.
Lemma lock_step : forall s l s' e, inv_lock s -> v_step s l = Some (s', e) -> inv_lock s'.
Proof.
  intros s l s' e K D. destruct l as [i|i a|i ssl|c ok|c ok|c ok|c|c|]; cbn [v_step] in D.
  - destruct (nth_error (v_threads s) i) as [[|f st]|] eqn:H; try discriminate. eapply lock_thread; eauto.
  - destruct (nth_error (v_threads s) i) as [[|f st]|] eqn:H; try discriminate. destruct f as [| | | | | | | | |d o|d o|n d|d| |o]; try discriminate.
    destruct (user_step s i o a st) as [s1|] eqn:U; [|discriminate]. injection D as <- <-.
    apply inv_lock_alt in K. apply inv_lock_alt. destruct K as [A B]. destruct (A _ _ H) as [O F].
    assert (GO : forall new, wsum wl new = wsum wl (FUser o :: st) -> followed new ->
      (forall j st, nth_error (set_nth i new (v_threads s)) j = Some st -> lock_ok (v_mutex s) j st) /\ (forall j, v_mutex s = Some j -> j < length (set_nth i new (v_threads s)))).
    { intros new W1 W2. apply lock_set with (v_mutex s) (FUser o :: st); auto. unfold lock_ok. rewrite W1. auto. }
    simpl in F. destruct a as [| | | | | | |k], o as [c|]; simpl in U; try discriminate; injection U as <-; simpl; auto; apply GO; rewrite ?wsum_cons; simpl; auto.
  - destruct (nth_error (v_threads s) i) as [[|f st]|] eqn:H; try discriminate. destruct f as [| | | | | | | | |d o|d o|n d|d| |o]; try discriminate.
    injection D as <- <-. apply inv_lock_alt in K. apply inv_lock_alt. destruct K as [A B]. destruct (A _ _ H) as [O F]. simpl in F. unfold accept_step.
    set (new := if v_listening s then _ else _). assert (W : wsum wl new = wsum wl (FAccept d o :: st) /\ followed new).
    { subst new. destruct (v_listening s), o, ssl; rewrite ?wsum_cons; simpl; auto. }
    clearbody new. destruct W as [W1 W2].
    assert (X : (forall j st, nth_error (set_nth i new (v_threads s)) j = Some st -> lock_ok (v_mutex s) j st) /\ (forall j, v_mutex s = Some j -> j < length (set_nth i new (v_threads s)))).
    { apply lock_set with (v_mutex s) (FAccept d o :: st); auto. unfold lock_ok. rewrite W1. auto. }
    destruct (o && ssl); exact X.
  - destruct (hasn c (v_pending s)); [|discriminate]. injection D as <- <-. exact K.
  - destruct (existsb (same_event c ok) (v_events s)); [|discriminate]. injection D as <- <-. apply inv_lock_alt in K. apply inv_lock_alt. destruct K. apply lock_snoc; simpl; auto.
  - destruct (hasn c (v_shaking s)); [|discriminate]. injection D as <- <-. apply inv_lock_alt in K. apply inv_lock_alt. destruct K. apply lock_snoc; simpl; auto.
  - injection D as <- <-. exact K.
  - destruct (hasn c (v_kept s)); [|discriminate]. injection D as <- <-. apply inv_lock_alt in K. apply inv_lock_alt. destruct K. apply lock_snoc; simpl; auto.
  - injection D as <- <-. apply inv_lock_alt in K. apply inv_lock_alt. destruct K. apply lock_snoc; simpl; auto.
Qed.

Lemma v_inv : forall ls s tr, run v_step v_init ls = Some (s, tr) -> inv_conn s /\ inv_lock s.
Proof.
  apply (run_ind v_step (fun s _ => inv_conn s /\ inv_lock s)).
  - split.
    + intros c. unfold fresh, known, count, total. simpl. split; [lia|]. split; [lia|]. intros [X|[]]. lia.
    + split; [intros [|j] st H; discriminate | discriminate].
  - intros s tr l s' e [A B] D. split; [eapply conn_step; eauto | eapply lock_step; eauto].
Qed.
