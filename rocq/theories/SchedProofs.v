(** Invariants of the model of the schedulers. *)
From Coq Require Import ZArith List Bool Lia PeanoNat Permutation.
From Verif Require Import Base Runs Threads SchedModel.
Import ListNotations.
Local Open Scope nat_scope.

(* ------------------------------------------------------------------ steps *)

Definition good_wake (w : gframe -> gframe) : Prop := w = same \/ w = wake_users \/ w = wake_join.
Definition thread_of (l : glab) : option nat := match l with LThread i | LUser i _ | LItem i _ | LSpurious i => Some i | _ => None end.
Lemma g_step_inv : forall one g th l g' th' e, g_step one (g, th) l = Some ((g', th'), e) ->
  (exists i f st eff, thread_of l = Some i /\ nth_error th i = Some (f :: st) /\ top_step one g th l i f st = Some eff /\ g' = e_sh eff
     /\ th' = map (map (e_wake eff)) (set_nth i (e_stack eff) th) ++ e_new eff /\ e = e_ev eff)
  \/ (l = LMain /\ g' = g /\ th' = th ++ [[GUser]] /\ e = [])
  \/ (exists n, l = LNum n /\ g' = mkg (g_mutex g) (g_running g) (g_users g) (g_workers g) (g_down g) (g_queue g) (g_items g) (g_next g) (g_pools g) n /\ th' = th /\ e = []).
Proof.
  intros one g th l g' th' e D.
  assert (GO : forall i, thread_of l = Some i -> match nth_error th i with Some (f :: st) => match top_step one g th l i f st with Some e => Some (apply th i e) | None => None end | _ => None end = Some ((g', th'), e) ->
    exists i f st eff, thread_of l = Some i /\ nth_error th i = Some (f :: st) /\ top_step one g th l i f st = Some eff /\ g' = e_sh eff /\ th' = map (map (e_wake eff)) (set_nth i (e_stack eff) th) ++ e_new eff /\ e = e_ev eff).
  { intros i TO X. destruct (nth_error th i) as [[|f st]|] eqn:H; try discriminate. destruct (top_step one g th l i f st) as [eff|] eqn:T; [|discriminate].
    injection X as <- <- <-. exists i, f, st, eff. auto 8. }
  destruct l as [i|i a|i id|i| |n]; simpl in D; try (left; apply (GO i eq_refl); exact D).
  - injection D as <- <- <-. right. left. auto.
  - injection D as <- <- <-. right. right. exists n. auto.
Qed.
(** the kinds of steps of a thread *)
Inductive kind (one : bool) (g : gsh) (th : list (list gframe)) (i : nat) (st : list gframe) : gframe -> geff -> Prop :=
| k_add : kind one g th i st GAdd (mkeff g (if g_running g then GAddInc :: st else GStartup true :: st) same [] [])
| k_inc : g_mutex g = None -> kind one g th i st GAddInc (mkeff (set_users g (wrap32 (g_users g + 1)%Z)) st same [] [SAdded])
| k_rem : forall w, g_mutex g = None -> (w = same /\ wrap32 (g_users g - 1) <> 0%Z \/ w = wake_users /\ wrap32 (g_users g - 1) = 0%Z) ->
    kind one g th i st GRemove (mkeff (set_users g (wrap32 (g_users g - 1))) st w [] [SRemoved])
| k_start0 : forall add : bool, g_mutex g = None -> g_running g = true -> kind one g th i st (GStartup add) (mkeff g (if add then GAddInc :: st else st) same [] [])
| k_start1 : forall add : bool, g_mutex g = None -> g_running g = false -> kind one g th i st (GStartup add)
    (mkeff (mkg None true (g_users g) (g_workers g ++ seq (length th) (g_num g)) (g_down g) (g_queue g) (g_items g) (g_next g) (g_pools g) (g_num g))
       (if add then GAddInc :: st else st) same (map (fun k => [GWork (if one then k else 0)]) (seq 0 (g_num g))) [SStarted])
| k_shut1 : g_mutex g = None -> g_running g = true -> kind one g th i st GShutdown (mkeff (set_mutex g (Some i)) (GShutLoop :: st) same [] [])
| k_shut0 : g_mutex g = None -> g_running g = false -> kind one g th i st GShutdown
    (mkeff (mkg (Some i) false (g_users g) (g_workers g) true (g_queue g) (g_items g) (g_next g) (g_pools g) (g_num g)) (GShutJoin (g_workers g) :: st) same [] [])
| k_loop0 : (g_users g > 0)%Z -> kind one g th i st GShutLoop (mkeff (set_mutex g None) (GShutWait :: st) same [] [])
| k_loop1 : (g_users g <= 0)%Z -> kind one g th i st GShutLoop
    (mkeff (mkg (g_mutex g) false (g_users g) (g_workers g) true (g_queue g) (g_items g) (g_next g) (g_pools g) (g_num g)) (GShutJoin (g_workers g) :: st) same [] [SStopping])
| k_woken : g_mutex g = None -> kind one g th i st GShutWoken (mkeff (set_mutex g (Some i)) (GShutLoop :: st) same [] [])
| k_join : forall w ws, nth_error th w = Some [] -> kind one g th i st (GShutJoin (w :: ws)) (mkeff g (GShutJoin ws :: st) same [] [])
| k_end : kind one g th i st (GShutJoin []) (do_shut_end one g st)
| k_joinw : g_mutex g = None -> g_running g = true -> kind one g th i st GJoin (mkeff g (GJoinWait :: st) same [] [])
| k_joined : g_mutex g = None -> g_running g = false -> kind one g th i st GJoin (mkeff g st same [] [SJoined])
| k_post1 : one = true -> g_mutex g = None -> kind one g th i st GPost (do_choose g st)
| k_post0 : one = false -> kind one g th i st GPost (mkeff g (GEnqueue 0 (g_pools g) :: st) same [] [])
| k_enq : forall k, kind one g th i st (GEnqueue k (g_pools g))
    (mkeff (mkg (g_mutex g) (g_running g) (g_users g) (g_workers g) (g_down g) (g_queue g ++ [(k, g_items g)]) (S (g_items g)) (g_next g) (g_pools g) (g_num g)) st same [] [SPosted (g_items g)])
| k_dang : forall k p, p <> g_pools g -> kind one g th i st (GEnqueue k p) (mkeff g st same [] [SBad])
| k_work1 : forall k, g_running g = true -> kind one g th i st (GWork k) (mkeff g (GRun k :: GWork k :: st) same [] [])
| k_work0 : forall k, g_running g = false -> kind one g th i st (GWork k) (mkeff g st same [] [])
| k_run : forall k, g_down g = true -> kind one g th i st (GRun k) (mkeff g st same [] [])
| k_ret : kind one g th i st GUser (mkeff g st same [] [])
| k_throw : forall st', unwind st = Some st' -> kind one g th i st GUser (mkeff g st' same [] [])
| k_call : forall f, In f [GAdd; GRemove; GStartup false; GShutdown; GJoin; GPost] -> kind one g th i st GUser (mkeff g (f :: GUser :: st) same [] [])
| k_item : forall k id, g_down g = false -> In (k, id) (g_queue g) -> kind one g th i st (GRun k)
    (mkeff (mkg (g_mutex g) (g_running g) (g_users g) (g_workers g) (g_down g) (filter (fun x => negb (Nat.eqb (snd x) id)) (g_queue g)) (g_items g) (g_next g) (g_pools g) (g_num g))
       (GUser :: GRun k :: st) same [] [SRun id])
| k_spur : kind one g th i st GShutWait (mkeff g (GShutWoken :: st) same [] [])
| k_spurj : kind one g th i st GJoinWait (mkeff g (GJoin :: st) same [] []).
Lemma unlocked_none : forall g, unlocked g = true -> g_mutex g = None.
Proof. intros g. unfold unlocked. destruct (g_mutex g); [discriminate | reflexivity]. Qed.
Lemma top_kind : forall one g th l i f st eff, top_step one g th l i f st = Some eff -> kind one g th i st f eff.
Proof.
  intros one g th l i f st eff T. destruct l as [j|j a|j id|j| |n], f as [| | |add| | | | |[|w ws]| | | |k p|k|k|]; simpl in T; try discriminate; unfold quietly in T.
  - injection T as <-. constructor.
  - destruct (unlocked g) eqn:U; [|discriminate]. apply unlocked_none in U. injection T as <-. constructor. exact U.
  - destruct (unlocked g) eqn:U; [|discriminate]. apply unlocked_none in U. injection T as <-. constructor; [exact U|]. destruct (Z.eqb_spec (wrap32 (g_users g - 1)) 0); auto.
  - destruct (unlocked g) eqn:U; [|discriminate]. apply unlocked_none in U. injection T as <-. unfold do_startup. destruct (g_running g) eqn:R; [apply k_start0; auto|].
    rewrite U. apply k_start1; auto.
  - destruct (unlocked g) eqn:U; [|discriminate]. apply unlocked_none in U. destruct (g_running g) eqn:R; injection T as <-; [apply k_shut1 | apply k_shut0]; auto.
  - injection T as <-. unfold do_shut_loop. destruct (Z.gtb_spec (g_users g) 0); [apply k_loop0 | apply k_loop1]; lia.
  - destruct (unlocked g) eqn:U; [|discriminate]. apply unlocked_none in U. injection T as <-. constructor. exact U.
  - injection T as <-. constructor.
  - destruct (nth_error th w) as [[|]|] eqn:E; try discriminate. injection T as <-. constructor. exact E.
  - destruct (unlocked g) eqn:U; [|discriminate]. apply unlocked_none in U. destruct (g_running g) eqn:R; injection T as <-; constructor; auto.
  - destruct one; [|injection T as <-; apply k_post0; reflexivity]. destruct (unlocked g) eqn:U; [|discriminate]. apply unlocked_none in U. injection T as <-. constructor; auto.
  - destruct (Nat.eqb_spec p (g_pools g)); injection T as <-; [subst; constructor | apply k_dang; auto].
  - injection T as <-. destruct (g_running g) eqn:R; constructor; auto.
  - destruct (g_down g) eqn:R; [|discriminate]. injection T as <-. constructor; auto.
  - destruct a; simpl in T; unfold quietly in T; try (injection T as <-; constructor; simpl; tauto).
    destruct (unwind st) as [st'|] eqn:E; [|discriminate]. injection T as <-. constructor. exact E.
  - unfold item_step in T. destruct (negb (g_down g) && existsb (fun x => Nat.eqb (fst x) k && Nat.eqb (snd x) id) (g_queue g)) eqn:E; [|discriminate].
    injection T as <-. apply andb_true_iff in E. destruct E as [DN E]. apply negb_true_iff in DN. constructor; [exact DN|].
    apply existsb_exists in E. destruct E as ([a b] & I & E). apply andb_true_iff in E. destruct E as [E1 E2].
    apply Nat.eqb_eq in E1, E2. simpl in *. subst. exact I.
  - injection T as <-. constructor.
  - injection T as <-. constructor.
Qed.
Lemma kind_wake : forall one g th i st f eff, kind one g th i st f eff -> good_wake (e_wake eff).
Proof.
  intros one g th i st f eff K. unfold good_wake. destruct K; simpl; auto.
  - tauto.
  - unfold do_choose. destruct (Nat.ltb _ _); auto.
Qed.
Lemma kind_new : forall one g th i st f eff, kind one g th i st f eff -> forall m st', nth_error (e_new eff) m = Some st' -> exists k, st' = [GWork k].
Proof.
  intros one g th i st f eff K m st' H. destruct K; simpl in H; try (destruct m; discriminate).
  - apply nth_error_In in H. apply in_map_iff in H. destruct H as (k & <- & _). eauto.
  - unfold do_choose in H. destruct (Nat.ltb _ _); destruct m; discriminate.
Qed.
(** the stacks after a step *)
Lemma th_cases : forall th i f st eff j st', nth_error th i = Some (f :: st) ->
  nth_error (map (map (e_wake eff)) (set_nth i (e_stack eff) th) ++ e_new eff) j = Some st' ->
  (j = i /\ st' = map (e_wake eff) (e_stack eff)) \/ (j <> i /\ exists st0, nth_error th j = Some st0 /\ st' = map (e_wake eff) st0)
  \/ (exists m, j = length th + m /\ nth_error (e_new eff) m = Some st').
Proof.
  intros th i f st eff j st' H H'. destruct (Nat.lt_ge_cases j (length th)) as [L|L].
  - rewrite nth_error_app1 in H' by (rewrite map_length, set_nth_length; exact L). rewrite nth_error_map in H'.
    destruct (nth_error (set_nth i (e_stack eff) th) j) as [x|] eqn:E; [|discriminate]. injection H' as <-.
    destruct (set_nth_cases _ _ _ _ _ E) as [(-> & -> & _)|[N E']]; [left; auto | right; left; eauto].
  - rewrite nth_error_app2 in H' by (rewrite map_length, set_nth_length; exact L). rewrite map_length, set_nth_length in H'. right. right. exists (j - length th). split; [lia | exact H'].
Qed.
Lemma th_mine : forall th i f st eff, nth_error th i = Some (f :: st) ->
  nth_error (map (map (e_wake eff)) (set_nth i (e_stack eff) th) ++ e_new eff) i = Some (map (e_wake eff) (e_stack eff)).
Proof.
  intros th i f st eff H. pose proof (nth_lt _ _ _ H). rewrite nth_error_app1 by (rewrite map_length, set_nth_length; assumption). rewrite nth_error_map, set_nth_same by assumption. reflexivity.
Qed.
Lemma th_other : forall th i j eff st0, j <> i -> nth_error th j = Some st0 ->
  nth_error (map (map (e_wake eff)) (set_nth i (e_stack eff) th) ++ e_new eff) j = Some (map (e_wake eff) st0).
Proof.
  intros th i j eff st0 N H. pose proof (nth_lt _ _ _ H). rewrite nth_error_app1 by (rewrite map_length, set_nth_length; assumption). rewrite nth_error_map, set_nth_other, H by congruence. reflexivity.
Qed.
Lemma th_length : forall th i eff, length (map (map (e_wake eff)) (set_nth i (e_stack eff) th) ++ e_new eff) = length th + length (e_new eff).
Proof. intros. rewrite app_length, map_length, set_nth_length. reflexivity. Qed.
Lemma map_same : forall st, map same st = st.
Proof. intros. unfold same. apply map_id. Qed.

(* ------------------------------------------------------------------ the shape of the stacks *)

Definition call (f : gframe) : bool := match f with GUser | GWork _ | GRun _ => false | _ => true end.
(** user code of no work item or of one of service [k] *)
Inductive base : option nat -> list gframe -> Prop :=
| b_main : base None [GUser]
| b_item : forall k, base (Some k) [GUser; GRun k; GWork k].
Inductive shape : option nat -> list gframe -> Prop :=
| sh_nil : shape None []
| sh_work : forall k, shape (Some k) [GWork k]
| sh_run : forall k, shape (Some k) [GRun k; GWork k]
| sh_user : forall o st, base o st -> shape o st
| sh_call : forall o f st, call f = true -> base o st -> shape o (f :: st).
Lemma call_wake : forall w f, good_wake w -> call (w f) = call f.
Proof. intros w f [->|[->| ->]]; destruct f; reflexivity. Qed.
Lemma base_wake : forall w, good_wake w -> forall o st, base o st -> base o (map w st).
Proof. intros w G o st S. destruct S; destruct G as [->|[->| ->]]; constructor. Qed.
Lemma shape_wake : forall w, good_wake w -> forall o st, shape o st -> shape o (map w st).
Proof.
  intros w G o st S. destruct S as [|k|k|o st U|o f st C U]; [constructor | | | apply sh_user; apply base_wake; assumption | apply sh_call; [rewrite call_wake; assumption | apply base_wake; assumption]];
    destruct G as [->|[->| ->]]; constructor.
Qed.
Lemma shape_call : forall o f st, shape o (f :: st) -> call f = true -> base o st.
Proof. intros o f st S C. inversion S as [|k|k|o' st' U|o' f' st' C' U]; subst; try discriminate; [inversion U; subst; discriminate | exact U]. Qed.
Lemma shape_in : forall o st, shape o (GUser :: st) -> (o = None /\ st = []) \/ exists k, o = Some k /\ st = [GRun k; GWork k].
Proof. intros o st S. inversion S as [|k|k|o' st' U|o' f' st' C' U]; subst; [|discriminate]. inversion U; subst; [auto | right; eauto]. Qed.
Lemma shape_atwork : forall o k st, shape o (GWork k :: st) -> o = Some k /\ st = [].
Proof. intros o k st S. inversion S as [|k'|k'|o' st' U|o' f' st' C' U]; subst; [auto | inversion U | discriminate]. Qed.
Lemma shape_atrun : forall o k st, shape o (GRun k :: st) -> o = Some k /\ st = [GWork k].
Proof. intros o k st S. inversion S as [|k'|k'|o' st' U|o' f' st' C' U]; subst; [auto | inversion U | discriminate]. Qed.
(** the shape of the new stack of a thread that goes on *)
Lemma kind_shape : forall one g th i st f eff o, kind one g th i st f eff -> shape o (f :: st) ->
  shape o (e_stack eff) \/ (exists k, f = GWork k /\ o = Some k /\ st = [] /\ g_running g = false /\ eff = mkeff g [] same [] [])
  \/ (o = None /\ f = GUser /\ st = [] /\ e_stack eff = []).
Proof.
  intros one g th i st f eff o K S.
  assert (C1 : call f = true -> forall h, call h = true -> shape o (h :: st)) by (intros C h C'; apply sh_call; [exact C' | exact (shape_call _ _ _ S C)]).
  assert (C0 : call f = true -> shape o st) by (intros C; apply sh_user; exact (shape_call _ _ _ S C)).
  destruct K; simpl in *; auto.
  - destruct (g_running g); auto.
  - destruct add; auto.
  - destruct add; auto.
  - unfold do_choose. destruct (Nat.ltb _ _); simpl; auto.
  - destruct (shape_atwork _ _ _ S) as [-> ->]. left. constructor.
  - destruct (shape_atwork _ _ _ S) as [-> ->]. right. left. exists k. auto.
  - destruct (shape_atrun _ _ _ S) as [-> ->]. left. constructor.
  - destruct (shape_in _ _ S) as [[-> ->]|(k & -> & ->)]; [right; right; auto|]. left. apply sh_run.
  - destruct (shape_in _ _ S) as [[-> ->]|(k & -> & ->)]; [discriminate|]. injection H as <-. left. constructor.
  - left. apply sh_call; [repeat (destruct H as [<-|H]; [reflexivity|]); destruct H|]. inversion S; subst; [assumption | discriminate].
  - destruct (shape_atrun _ _ _ S) as [-> ->]. left. apply sh_user. constructor.
Qed.

(* ------------------------------------------------------------------ the mutex and the flags *)

(** the frames of a thread that holds the mutex *)
Definition holds (f : gframe) : bool := match f with GShutLoop | GShutJoin _ => true | _ => false end.
Definition lock_ok (g : gsh) (j : nat) (st : list gframe) : Prop :=
  match st with
  | [] => g_mutex g <> Some j
  | f :: st' => existsb holds st' = false /\ (holds f = true <-> g_mutex g = Some j)
  end.
Definition svc (one : bool) (m : nat) : nat := if one then m else 0.
Record ginv (one : bool) (s : gstate) : Prop := mkinv {
  i_shape : forall j st, nth_error (snd s) j = Some st -> exists o, shape o st;
  i_lock : forall j st, nth_error (snd s) j = Some st -> lock_ok (fst s) j st;
  i_bound : forall j, g_mutex (fst s) = Some j -> j < length (snd s);
  i_down : g_down (fst s) = true -> g_mutex (fst s) <> None /\ g_running (fst s) = false;
  i_joins : forall j ws st, nth_error (snd s) j = Some (GShutJoin ws :: st) -> g_down (fst s) = true /\ (forall w, In w (g_workers (fst s)) -> In w ws \/ nth_error (snd s) w = Some []) /\ (forall w, In w ws -> In w (g_workers (fst s)));
  i_loop : forall j st, nth_error (snd s) j = Some (GShutLoop :: st) -> g_down (fst s) = false;
  i_idle : g_running (fst s) = false -> g_down (fst s) = true \/ g_workers (fst s) = [];
  i_work : forall m w, nth_error (g_workers (fst s)) m = Some w -> exists st, nth_error (snd s) w = Some st /\ (shape (Some (svc one m)) st \/ st = [] /\ g_running (fst s) = false);
  i_member : forall j k st, nth_error (snd s) j = Some st -> shape (Some k) st -> In j (g_workers (fst s))
}.
Lemma holds_wake : forall w f, good_wake w -> holds (w f) = holds f.
Proof. intros w f [->|[->| ->]]; destruct f; reflexivity. Qed.
Lemma holdsl_wake : forall w st, good_wake w -> existsb holds (map w st) = existsb holds st.
Proof. intros w st G. induction st as [|f st IH]; [reflexivity|]. simpl. rewrite IH, holds_wake by exact G. reflexivity. Qed.
Lemma lock_wake : forall w g j st, good_wake w -> lock_ok g j (map w st) <-> lock_ok g j st.
Proof. intros w g j [|f st] G; simpl; [tauto|]. rewrite holdsl_wake, holds_wake by exact G. tauto. Qed.
Lemma lock_free : forall g g' j st, lock_ok g j st -> (g_mutex g' = Some j <-> g_mutex g = Some j) -> lock_ok g' j st.
Proof. intros g g' j [|f st] L E; simpl in *; tauto. Qed.
Lemma wake_shutjoin : forall w f ws, good_wake w -> w f = GShutJoin ws -> f = GShutJoin ws.
Proof. intros w f ws [->|[->| ->]]; unfold same; destruct f; simpl; intros; congruence. Qed.
Lemma wake_shutloop : forall w f, good_wake w -> w f = GShutLoop -> f = GShutLoop.
Proof. intros w f [->|[->| ->]]; unfold same; destruct f; simpl; intros; congruence. Qed.
(** what a step does to the part of the state the invariant speaks of *)
Lemma kind_lock : forall one g th i st f eff, kind one g th i st f eff -> lock_ok g i (f :: st) ->
  lock_ok (e_sh eff) i (e_stack eff) /\ (forall j, j <> i -> (g_mutex (e_sh eff) = Some j <-> g_mutex g = Some j)).
Proof.
  intros one g th i st f eff K [L1 L2].
  assert (TL : g_mutex g <> Some i -> lock_ok g i st).
  { intros N. destruct st as [|h st']; [exact N|]. simpl in *. apply orb_false_iff in L1. destruct L1 as [A B]. rewrite A. split; [exact B|]. split; [discriminate | contradiction]. }
  assert (TL' : lock_ok (set_mutex g None) i st).
  { destruct st as [|h st']; simpl in *; [discriminate|]. apply orb_false_iff in L1. destruct L1 as [A B]. rewrite A. split; [exact B|]. split; discriminate. }
  assert (X : forall g', g_mutex g' = g_mutex g -> (forall j, j <> i -> (g_mutex g' = Some j <-> g_mutex g = Some j))) by (intros g' -> j _; tauto).
  assert (NM : holds f = false -> g_mutex g <> Some i) by (intros E M; apply L2 in M; congruence).
  assert (FR : forall g' st', g_mutex g' = g_mutex g -> lock_ok g i st' -> lock_ok g' i st') by (intros g' st' E Y; apply (lock_free _ _ _ _ Y); rewrite E; tauto).
  assert (TK : forall g', g_mutex g' = Some i -> g_mutex g = None -> forall j, j <> i -> (g_mutex g' = Some j <-> g_mutex g = Some j)).
  { intros g' E1 E2 j N. rewrite E1, E2. split; [intros Y; congruence | discriminate]. }
  destruct K; simpl; try (split; [| apply X; reflexivity]); try (apply FR; [reflexivity|]; apply TL; apply NM; reflexivity); try (apply TL; apply NM; reflexivity).
  - destruct (g_running g); simpl; (split; [exact L1|]; split; [discriminate | intros M; apply L2 in M; discriminate]).
  - destruct add; simpl; [split; [exact L1|]; split; [discriminate | intros M; apply L2 in M; discriminate] | apply TL; apply NM; reflexivity].
  - split; [|intros j _; rewrite H; tauto]. destruct add; [split; [exact L1|]; split; discriminate|]. apply FR; [simpl; congruence|]. apply TL. rewrite H. discriminate.
  - split; [split; [exact L1 | tauto]|]. intros j N; rewrite H; split; [intros Y; congruence | discriminate].
  - split; [split; [exact L1 | tauto]|]. intros j N; rewrite H; split; [intros Y; congruence | discriminate].
  - split; [split; [exact L1 | simpl; split; discriminate]|]. intros j N. simpl. split; [discriminate|]. intros M. exfalso. apply N. destruct L2 as [L2 _]. specialize (L2 eq_refl). congruence.
  - split; [exact L1 | tauto].
  - split; [split; [exact L1 | tauto]|]. intros j N; rewrite H; split; [intros Y; congruence | discriminate].
  - split; [exact L1 | tauto].
  - split; [apply (lock_free (set_mutex g None)); [exact TL' | tauto]|]. intros j N. simpl. split; [discriminate|]. intros M. exfalso. apply N. destruct L2 as [L2 _]. specialize (L2 eq_refl). congruence.
  - split; [exact L1|]. rewrite H. split; discriminate.
  - unfold do_choose. destruct (Nat.ltb _ _); simpl; (split; [|apply X; reflexivity]).
    + split; [exact L1|]. split; [discriminate | intros M; apply L2 in M; discriminate].
    + apply FR; [reflexivity|]. apply TL, NM. reflexivity.
  - split; [exact L1|]. split; [discriminate | intros M; apply L2 in M; discriminate].
  - split; [exact L1|]. split; [discriminate | intros M; apply L2 in M; discriminate].
  - pose proof (NM eq_refl) as M. clear - H L1 M. revert L1 st' H. induction st as [|h st IH]; intros L1 st' H; [discriminate|]. simpl in L1. apply orb_false_iff in L1. destruct L1 as [A B].
    destruct h; simpl in H; try (apply IH; assumption); injection H as <-; simpl; (split; [exact B|]; split; [discriminate | contradiction]).
  - pose proof (NM eq_refl) as M. split; [exact L1|]. repeat (destruct H as [<-|H]; [split; [discriminate | contradiction]|]). destruct H.
  - split; [exact L1|]. split; [discriminate | intros M; apply L2 in M; discriminate].
  - split; [exact L1|]. split; [discriminate | intros M; apply L2 in M; discriminate].
  - split; [exact L1|]. split; [discriminate | intros M; apply L2 in M; discriminate].
Qed.
Lemma shape_nonnil : forall k st, shape (Some k) st -> st <> [].
Proof. intros k st S ->. inversion S as [| | |o st U|]; subst. inversion U. Qed.
Lemma base_fun : forall o o' st, base o st -> base o' st -> o = o'.
Proof. intros o o' st S S'. destruct S; inversion S'; reflexivity. Qed.
Lemma shape_fun : forall o o' st, shape o st -> shape o' st -> o = o'.
Proof.
  intros o o' st S S'. destruct S as [|k|k|o st U|o f st C U]; inversion S' as [|k1|k1|o1 st1 U1|o1 f1 st1 C1 U1]; subst; try reflexivity; try discriminate; try (inversion U1; fail); try (inversion U; fail).
  - exact (base_fun _ _ _ U U1).
  - inversion U; subst; discriminate.
  - inversion U1; subst; discriminate.
  - exact (base_fun _ _ _ U U1).
Qed.
Lemma ginv_init : forall one n, ginv one (g_init n).
Proof.
  intros one n. constructor; simpl; try discriminate; auto; try (intros [|j]; discriminate).
Qed.
Lemma ginv_kind : forall one g th i f st eff, ginv one (g, th) -> nth_error th i = Some (f :: st) -> kind one g th i st f eff ->
  ginv one (e_sh eff, map (map (e_wake eff)) (set_nth i (e_stack eff) th) ++ e_new eff).
Proof.
  intros one g th i f st eff [I1 I2 I3 I4 I5 I6 I7 I8 I9] H K. simpl in *.
  pose proof (kind_wake _ _ _ _ _ _ _ K) as G. pose proof (kind_new _ _ _ _ _ _ _ K) as NEW. destruct (kind_lock _ _ _ _ _ _ _ K (I2 _ _ H)) as [LK1 LK2].
  destruct (I1 _ _ H) as [o SH]. pose proof (kind_shape _ _ _ _ _ _ _ _ K SH) as KS.
  assert (OWN : holds f = true -> g_mutex g = Some i) by (intros E; destruct (I2 _ _ H) as [_ L]; apply L; exact E).
  assert (TOPS : forall j h st', nth_error th j = Some (h :: st') -> holds h = true -> g_mutex g = Some j) by (intros j h st' E E'; destruct (I2 _ _ E) as [_ L]; apply L; exact E').
  assert (MU : forall j, g_mutex (e_sh eff) = Some j -> j = i \/ g_mutex g = Some j).
  { intros j M. destruct (Nat.eq_dec j i); [auto|]. right. apply LK2; assumption. }
  (* the threads already there *)
  assert (FIN : forall w, nth_error th w = Some [] -> nth_error (map (map (e_wake eff)) (set_nth i (e_stack eff) th) ++ e_new eff) w = Some []).
  { intros w E. assert (N : w <> i) by congruence. rewrite (th_other _ _ _ _ [] N E). reflexivity. }
  constructor; simpl.
  - intros j st' E. destruct (th_cases _ _ _ _ _ _ _ H E) as [[-> ->]|[(N & st0 & E0 & ->)|(m & -> & Em)]].
    + destruct KS as [S|[(k & -> & -> & -> & _ & ->)|(-> & -> & -> & ->)]]; [exists o; apply shape_wake; assumption | exists None; constructor | exists None; constructor].
    + destruct (I1 _ _ E0) as [o' S]. exists o'. apply shape_wake; assumption.
    + destruct (NEW _ _ Em) as [k ->]. exists (Some k). constructor.
  - intros j st' E. destruct (th_cases _ _ _ _ _ _ _ H E) as [[-> ->]|[(N & st0 & E0 & ->)|(m & -> & Em)]].
    + apply lock_wake; assumption.
    + apply lock_wake; [assumption|]. apply (lock_free g); auto.
    + destruct (NEW _ _ Em) as [k ->]. simpl. split; [reflexivity|]. split; [discriminate|]. intros M. exfalso. pose proof (nth_lt _ _ _ H). destruct (MU _ M) as [X|X]; [lia|]. specialize (I3 _ X). lia.
  - intros j M. rewrite th_length. pose proof (nth_lt _ _ _ H). destruct (MU _ M) as [->|X]; [lia|]. specialize (I3 _ X). lia.
  - intros D. destruct K; simpl in *; try (apply I4; assumption); try (split; [discriminate | reflexivity]); try discriminate.
    + destruct (I4 D) as [M _]. congruence.
    + destruct (I4 D) as [M _]. congruence.
    + rewrite (I6 _ _ H) in D. discriminate.
    + split; [rewrite (OWN eq_refl); discriminate | reflexivity].
    + destruct (I4 D) as [M _]. congruence.
    + unfold do_choose in *. destruct (Nat.ltb _ _); simpl in *; apply I4; assumption.
  - intros j ws st' E. destruct (th_cases _ _ _ _ _ _ _ H E) as [[-> E1]|[(N & st0 & E0 & E1)|(m & -> & Em)]].
    + destruct (e_stack eff) as [|h r] eqn:ES; [discriminate|]. injection E1 as E1 _. symmetry in E1. apply (wake_shutjoin _ _ _ G) in E1. subst h.
      assert (PRE : holds f = false -> False \/ exists ws0, eff = mkeff (mkg (Some i) false (g_users g) (g_workers g) true (g_queue g) (g_items g) (g_next g) (g_pools g) (g_num g)) (GShutJoin ws0 :: st) same [] [] /\ ws0 = g_workers g).
      { intros HF. destruct K; simpl in *; try match goal with E : (if ?b then _ else _) = _ :: _ |- _ => destruct b; try discriminate end; try discriminate; try (injection ES; intros; subst; eauto; fail);
          try (left; apply (f_equal (existsb holds)) in ES; simpl in ES; destruct (I2 _ _ H) as [L _]; simpl in L; congruence).
        - unfold do_choose in ES. destruct (Nat.ltb _ _); simpl in ES; [discriminate|]. left. destruct (I2 _ _ H) as [L _]; simpl in L. rewrite ES in L. discriminate.
        - left. destruct (I2 _ _ H) as [L _]. simpl in L. clear - L H0 ES. subst st'0. revert L. induction st as [|h st IH]; [discriminate|]. simpl. intros L. apply orb_false_iff in L. destruct L as [A B]. destruct h; simpl in H0; try (apply IH; assumption); discriminate.
        - left. repeat (destruct H0 as [<-|H0]; [discriminate|]). destruct H0. }
      destruct (holds f) eqn:HF.
      * destruct f; try discriminate.
        -- inversion K; subst; simpl in *; try discriminate; injection ES as <- <-. split; [reflexivity|]. split; auto.
        -- inversion K; subst; simpl in *.
           ++ injection ES as <- <-. destruct (I5 _ _ _ H) as (A & B & C). split; [exact A|]. split; [|intros x X; apply C; right; exact X]. intros x X. destruct (B x X) as [[<-|Y]|Y]; [right; apply FIN; assumption | auto | right; apply FIN; assumption].
           ++ exfalso. destruct (I2 _ _ H) as [L _]. simpl in L. rewrite ES in L. discriminate.
      * destruct (PRE eq_refl) as [[]|(ws0 & -> & ->)]. simpl in *. injection ES as <- <-. split; [reflexivity | split; auto].
    + destruct st0 as [|h r]; [discriminate|]. injection E1 as E1 _. symmetry in E1. apply (wake_shutjoin _ _ _ G) in E1. subst h.
      destruct (I5 _ _ _ E0) as (A & B & C). pose proof (TOPS _ _ _ E0 eq_refl) as M.
      assert (Q : holds f = false) by (destruct (holds f) eqn:Q; [rewrite (OWN eq_refl) in M; congruence | reflexivity]).
      assert (SM : g_down (e_sh eff) = g_down g /\ g_workers (e_sh eff) = g_workers g).
      { destruct K; simpl in *; auto; try congruence; try discriminate. }
      destruct SM as [-> ->]. split; [exact A|]. split; [|exact C]. intros w X. destruct (B w X); [auto | right; apply FIN; assumption].
    + destruct (NEW _ _ Em) as [k X]. discriminate.
  - intros j st' E. destruct (th_cases _ _ _ _ _ _ _ H E) as [[-> E1]|[(N & st0 & E0 & E1)|(m & -> & Em)]].
    + destruct (e_stack eff) as [|h r] eqn:ES; [discriminate|]. injection E1 as E1 _. symmetry in E1. apply (wake_shutloop _ _ G) in E1. subst h.
      destruct (I2 _ _ H) as [L _]; simpl in L.
      destruct K; simpl in *; try match goal with E : (if ?b then _ else _) = _ :: _ |- _ => destruct b; try discriminate end; try discriminate; try (exfalso; subst st; discriminate).
      * destruct (g_down g); [destruct (I4 eq_refl); congruence | reflexivity].
      * destruct (g_down g); [destruct (I4 eq_refl); congruence | reflexivity].
      * unfold do_choose in ES. destruct (Nat.ltb _ _); simpl in ES; [discriminate|]. exfalso. subst st. discriminate.
      * exfalso. clear - L H0 ES. subst st'0. revert L. induction st as [|h st IH]; [discriminate|]. simpl. intros L. apply orb_false_iff in L. destruct L as [A B]. destruct h; simpl in H0; try (apply IH; assumption); discriminate.
      * exfalso. repeat (destruct H0 as [<-|H0]; [discriminate|]). destruct H0.
    + destruct st0 as [|h r]; [discriminate|]. injection E1 as E1 _. symmetry in E1. apply (wake_shutloop _ _ G) in E1. subst h.
      pose proof (I6 _ _ E0) as A. pose proof (TOPS _ _ _ E0 eq_refl) as M.
      assert (Q : holds f = false) by (destruct (holds f) eqn:Q; [rewrite (OWN eq_refl) in M; congruence | reflexivity]).
      destruct K; simpl in *; auto; try congruence; try discriminate.
    + destruct (NEW _ _ Em) as [k X]. discriminate.
  - intros R. destruct K; simpl in *; auto; try congruence; try discriminate. unfold do_choose in *. destruct (Nat.ltb _ _); auto.
  - intros m w E.
    assert (OLD : g_running (e_sh eff) = g_running g \/ g_running (e_sh eff) = false -> nth_error (g_workers g) m = Some w ->
      exists st', nth_error (map (map (e_wake eff)) (set_nth i (e_stack eff) th) ++ e_new eff) w = Some st' /\ (shape (Some (svc one m)) st' \/ st' = [] /\ g_running (e_sh eff) = false)).
    { intros RR X. destruct (I8 _ _ X) as (st0 & E0 & D). destruct (Nat.eq_dec w i) as [->|N].
      - rewrite H in E0. injection E0 as <-. exists (map (e_wake eff) (e_stack eff)). split; [exact (th_mine _ _ _ _ _ H)|].
        destruct D as [D|[D _]]; [|discriminate]. destruct (kind_shape _ _ _ _ _ _ _ _ K D) as [S|[(k & -> & _ & -> & RN & ->)|(X1 & _)]]; [left; apply shape_wake; assumption | right; auto | discriminate X1].
      - exists (map (e_wake eff) st0). split; [apply th_other; assumption|]. destruct D as [D|[-> D]]; [left; apply shape_wake; assumption | right; split; [reflexivity|]]. destruct RR as [->|RR]; assumption. }
    destruct K; simpl in *; try (apply OLD; auto; fail); try (destruct m; discriminate).
    + destruct (I7 H1) as [D|D]; [destruct (I4 D) as [M _]; congruence|]. rewrite D in E. simpl in E. rewrite D in OLD. clear OLD.
      assert (Lm : m < g_num g) by (pose proof (nth_lt _ _ _ E) as X; rewrite seq_length in X; exact X).
      rewrite nth_error_nth' with (d := 0) in E by (rewrite seq_length; exact Lm). rewrite seq_nth in E by exact Lm. injection E as <-.
      exists [GWork (if one then m else 0)]. split; [|left; unfold svc; constructor].
      rewrite nth_error_app2 by (rewrite map_length, set_nth_length; lia). rewrite map_length, set_nth_length. replace (length th + m - length th) with m by lia.
      rewrite nth_error_map. rewrite nth_error_nth' with (d := 0) by (rewrite seq_length; exact Lm). rewrite seq_nth by exact Lm. reflexivity.
    + unfold do_choose in *. destruct (Nat.ltb _ _); apply OLD; auto.
  - intros j k st' E S. destruct (th_cases _ _ _ _ _ _ _ H E) as [[-> E1]|[(N & st0 & E0 & E1)|(m & -> & Em)]].
    + assert (ST : o = Some k).
      { destruct KS as [S'|[(k' & -> & -> & -> & _ & ->)|(_ & _ & _ & E2)]].
        - apply (shape_wake _ G) in S'. rewrite <- E1 in S'. exact (shape_fun _ _ _ S' S).
        - simpl in E1. subst st'. exfalso. exact (shape_nonnil _ _ S eq_refl).
        - rewrite E2 in E1. subst st'. exfalso. exact (shape_nonnil _ _ S eq_refl). }
      subst o. specialize (I9 _ _ _ H SH). destruct K; simpl in *; auto; try (rewrite in_app_iff; auto).
      * destruct (I5 _ _ _ H) as (_ & B & _). destruct (B _ I9) as [[]|B']. congruence.
      * unfold do_choose. destruct (Nat.ltb _ _); exact I9.
    + subst st'. assert (S0 : shape (Some k) st0).
      { destruct (I1 _ _ E0) as [o' S0]. pose proof (shape_wake _ G _ _ S0) as S1. rewrite (shape_fun _ _ _ S S1). exact S0. }
      specialize (I9 _ _ _ E0 S0). destruct K; simpl in *; auto; try (rewrite in_app_iff; auto).
      * destruct (I5 _ _ _ H) as (_ & B & _). destruct (B _ I9) as [[]|B']. rewrite E0 in B'. injection B' as ->. exfalso. exact (shape_nonnil _ _ S0 eq_refl).
      * unfold do_choose. destruct (Nat.ltb _ _); exact I9.
    + destruct K; simpl in *; try (destruct m; discriminate).
      * rewrite in_app_iff. right. apply in_seq. pose proof (nth_lt _ _ _ Em) as X. rewrite map_length, seq_length in X. lia.
      * unfold do_choose in Em. destruct (Nat.ltb _ _); destruct m; discriminate.
Qed.
Lemma ginv_step : forall one s l s' e, ginv one s -> g_step one s l = Some (s', e) -> ginv one s'.
Proof.
  intros one [g th] l [g' th'] e I D. destruct (g_step_inv _ _ _ _ _ _ _ D) as [(i & f & st & eff & _ & H & T & -> & -> & ->)|[(-> & -> & -> & ->)|(n & -> & -> & -> & ->)]].
  - apply (ginv_kind one g th i f st eff I H). eapply top_kind; eauto.
  - destruct I as [I1 I2 I3 I4 I5 I6 I7 I8 I9]. simpl in *. constructor; simpl; auto.
    + intros j st E. destruct (nth_snoc _ _ _ _ E) as [E'|[_ ->]]; [eauto | exists None; apply sh_user; constructor].
    + intros j st E. destruct (nth_snoc _ _ _ _ E) as [E'|[-> ->]]; [eauto|]. simpl. split; [reflexivity|]. split; [discriminate|]. intros M. specialize (I3 _ M). lia.
    + intros j M. rewrite app_length. specialize (I3 _ M). lia.
    + intros j ws st E. destruct (nth_snoc _ _ _ _ E) as [E'|[-> X]]; [|discriminate]. destruct (I5 _ _ _ E') as (A & B & C). split; [exact A|]. split; [|exact C]. intros w X. destruct (B w X); [auto | right; apply nth_app_old; assumption].
    + intros j st E. destruct (nth_snoc _ _ _ _ E) as [E'|[-> X]]; [|discriminate]. eauto.
    + intros m w E. destruct (I8 _ _ E) as (st & A & B). exists st. split; [apply nth_app_old; exact A | exact B].
    + intros j k st E S. destruct (nth_snoc _ _ _ _ E) as [E'|[-> ->]]; [eauto|]. destruct (shape_in _ _ S) as [[X _]|(k' & _ & X)]; discriminate.
  - destruct I as [I1 I2 I3 I4 I5 I6 I7 I8 I9]. constructor; simpl in *; auto.
Qed.
Lemma ginv_run : forall one n ls s tr, run (g_step one) (g_init n) ls = Some (s, tr) -> ginv one s.
Proof. intros one n. apply (run_ind (g_step one) (fun s _ => ginv one s)); [apply ginv_init|]. intros s _ l s' e I D. eapply ginv_step; eauto. Qed.
