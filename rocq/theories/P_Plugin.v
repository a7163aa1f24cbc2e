(** C57-C60, C97, C98: plug-in libraries, instance pointers and the plug-in manager. *)
From Coq Require Import String ZArith Lia List Bool Permutation.
From Verif Require Import Base SMap Runs Threads PluginModel PluginSpec PluginProofs PlugMgrProofs PlugFindProofs.
Import ListNotations.
Local Open Scope string_scope.
Local Open Scope list_scope.
Local Open Scope nat_scope.

(* ------------------------------------------------------------------ C57 *)

(** the identifier [id] is the most specific one for [res] *)
Definition most_specific {A} (m : list (list Z * A)) (res id : list Z) : Prop :=
  In id (map fst m) /\ covers id res /\ forall id', In id' (map fst m) -> covers id' res -> length id' <= length id.
(** the full claim: the plug-in with the most specific identifier is found *)
Definition C57_claim : Prop :=
  forall ops s tr res id n h, run m_step m_init ops = Some (s, tr) -> In (id, (n, h)) (m_map s) -> most_specific (m_map s) res id -> m_step s (MFind res) = Some (s, [GGot n]).
Theorem C57_find_refuted : ~ C57_claim.
Proof.
  intros C. specialize (C [MAdd (bs "/a"); MAdd (bs "/a/bb"); MAdd (bs "/a/cc")]). simpl run in C.
  specialize (C _ _ (bs "/a/z") (bs "/a") 0 None eq_refl (or_introl eq_refl)).
  assert (X : most_specific [(bs "/a", (0, @None nat)); (bs "/a/bb", (1, None)); (bs "/a/cc", (2, None))] (bs "/a/z") (bs "/a")).
  { split; [left; reflexivity|]. split; [right; exists (bs "z"); reflexivity|]. intros id' I CV. apply covers_iff in CV. destruct CV as [CV _]. simpl in I. destruct I as [<-|[<-|[<-|[]]]]; [apply le_n | exfalso; vm_compute in CV; discriminate | exfalso; vm_compute in CV; discriminate]. }
  specialize (C X). vm_compute in C. discriminate.
Qed.
Print Assumptions C57_find_refuted.
(** what is found is always the most specific one *)
Theorem C57_found_partial : forall ops s tr res n, run m_step m_init ops = Some (s, tr) -> m_step s (MFind res) = Some (s, [GGot n]) ->
  exists id h, In (id, (n, h)) (m_map s) /\ most_specific (m_map s) res id.
Proof.
  intros ops s tr res n R E. pose proof (n_sorted _ _ (m_run_inv _ _ _ R)) as S. cbn [m_step] in E. destruct (pm_find (m_map s) res) as [[id [n' h]]|] eqn:F; [|discriminate]. injection E as ->.
  apply pm_find_iff in F; [|exact S]. destruct F as (I & C & L & _). exists id, h. split; [exact I|]. split; [apply (in_map fst) in I; exact I | auto].
Qed.
Print Assumptions C57_found_partial.
(** it is found exactly if every identifier between it and the resource in the order, if not a prefix of the resource, is longer than the identifier before it *)
Theorem C57_exact_partial : forall ops s tr res id n h, run m_step m_init ops = Some (s, tr) -> In (id, (n, h)) (m_map s) -> most_specific (m_map s) res id ->
  (m_step s (MFind res) = Some (s, [GGot n]) <->
   forall y z, In y (map fst (m_map s)) -> lex_lt id y -> ~ lex_lt res y -> ~ (exists t, res = y ++ t) -> before (m_map s) z y -> length z < length y).
Proof.
  intros ops s tr res id n h R I (_ & C & L). pose proof (m_run_inv _ _ _ R) as V. pose proof (n_sorted _ _ V) as S. cbn [m_step]. split.
  - destruct (pm_find (m_map s) res) as [[id' [n' h']]|] eqn:F; [|discriminate]. intros E. injection E as ->. apply pm_find_iff in F; [|exact S]. destruct F as (I' & C' & L' & X).
    assert (EQ : id' = id). { apply (covers_same _ _ res); auto. apply Nat.le_antisymm; [apply L; auto; apply (in_map fst) in I'; exact I' | apply L'; auto; apply (in_map fst) in I; exact I]. }
    subst id'. exact X.
  - intros X. assert (F : pm_find (m_map s) res = Some (id, (n, h))) by (apply pm_find_iff; auto). rewrite F. reflexivity.
Qed.
Print Assumptions C57_exact_partial.
Example C57_case : exists s tr, run m_step m_init [MAdd (bs "/a"); MAdd (bs "/a/b"); MAdd (bs "/a/bcd")] = Some (s, tr) /\ m_step s (MFind (bs "/a/b/x")) = Some (s, [GGot 1]) /\ m_step s (MFind (bs "/a/c")) = Some (s, [GGot 0]) /\ m_step s (MFind (bs "/b")) = Some (s, [GNone]).
Proof. eexists; eexists; split; [vm_compute; reflexivity|]. vm_compute. auto. Qed.

(* ------------------------------------------------------------------ C58 *)

(** the full claim: once the manager is cleared, and no call of load is under way, every object has been destroyed once *)
Definition C58_claim : Prop := forall ops s tr, run m_step m_init (ops ++ [MClear]) = Some (s, tr) -> m_pend s = [] -> Permutation (made tr) (gone tr).
Theorem C58_once_refuted : ~ C58_claim.
Proof.
  intros C. specialize (C [MAdd (bs "/a"); MAdd (bs "/a")] _ _ eq_refl eq_refl). apply Permutation_length in C. discriminate.
Qed.
Print Assumptions C58_once_refuted.
(** also with load only: two calls at the same time with the same identifier *)
Theorem C58_load_refuted : ~ (forall ops s tr, run m_step m_init (ops ++ [MClear]) = Some (s, tr) -> (forall id, ~ In (MAdd id) ops) -> m_pend s = [] -> Permutation (made tr) (gone tr)).
Proof.
  intros C. specialize (C [MLoad (bs "/a") 0; MLoad (bs "/a") 0; MLoaded 0; MLoaded 0] _ _ eq_refl). simpl in C. assert (X : forall id : list Z, ~ (MLoad (bs "/a") 0 = MAdd id \/ MLoad (bs "/a") 0 = MAdd id \/ MLoaded 0 = MAdd id \/ MLoaded 0 = MAdd id \/ False)) by (intros id [X|[X|[X|[X|[]]]]]; discriminate). specialize (C X eq_refl). apply Permutation_length in C. discriminate.
Qed.
Print Assumptions C58_load_refuted.
(** no object is destroyed twice or before it is made; get and find never return a destroyed object *)
Theorem C58_never_twice : forall ops s tr, run m_step m_init ops = Some (s, tr) ->
  NoDup (made tr) /\ NoDup (gone tr) /\ incl (gone tr) (made tr) /\ (forall a n b, tr = a ++ GGot n :: b -> In n (made a) /\ ~ In n (gone a)).
Proof.
  intros ops s tr R. pose proof (m_run_inv _ _ _ R) as V. split; [rewrite (n_made _ _ V); apply seq_NoDup|]. split; [eapply nodup_app_l; apply (n_nodup _ _ V)|]. split; [intros n I; apply (n_incl _ _ V); apply in_app_iff; auto|]. exact (m_run_got _ _ _ R).
Qed.
Print Assumptions C58_never_twice.
(** if objects are stored only under unused identifiers, each is destroyed once, by clear at the latest *)
Theorem C58_once_partial : forall ops s tr, run m_step m_init (ops ++ [MClear]) = Some (s, tr) -> allowed m_step unused m_init ops -> m_pend s = [] -> Permutation (made tr) (gone tr).
Proof.
  intros ops s tr R A P. assert (A' : allowed m_step unused m_init (ops ++ [MClear])).
  { assert (R' := R). apply run_snoc in R'. destruct R' as (s1 & t1 & e & R1 & D & _). apply (allowed_app m_step unused ops [MClear] m_init s1 t1 R1). split; [exact A|]. econstructor; [exact Logic.I | exact D | constructor]. }
  pose proof (m_run_bal _ _ _ R A') as B. apply run_snoc in R. destruct R as (s1 & t1 & e & R1 & D & _). cbn [m_step] in D. injection D as <- <-. unfold held in B. simpl in P, B. rewrite P in B. simpl in B. rewrite app_nil_r in B. exact B.
Qed.
Print Assumptions C58_once_partial.
Example C58_case : exists s tr, run m_step m_init [MAdd (bs "/a"); MLoad (bs "/b") 7; MLoaded 0; MGet (bs "/b"); MReplace (bs "/a"); MRemove (bs "/b"); MClear] = Some (s, tr) /\
  tr = [GMade 0 None; GMade 1 (Some 7); GGot 1; GMade 2 None; GDestroyed 0 None; GDestroyed 1 (Some 7); GDestroyed 2 None].
Proof. eexists; eexists; split; [vm_compute; reflexivity | reflexivity]. Qed.
Example C58_case_allowed : allowed m_step unused m_init [MAdd (bs "/a"); MLoad (bs "/b") 7; MLoaded 0; MReplace (bs "/a")].
Proof.
  econstructor; [reflexivity | vm_compute; reflexivity |]. econstructor; [exact Logic.I | vm_compute; reflexivity |].
  econstructor; [intros id n lib E; injection E as <- <- <-; reflexivity | vm_compute; reflexivity |]. econstructor; [exact Logic.I | vm_compute; reflexivity | constructor].
Qed.

(* ------------------------------------------------------------------ C98 *)

(** the full claim: an object made by a library is destroyed by that library, one made by the user is deleted *)
Definition C98_claim : Prop := forall ops s tr n h h', run m_step m_init ops = Some (s, tr) -> In (GMade n h) tr -> In (GDestroyed n h') tr -> h = h'.
Theorem C98_way_refuted : ~ C98_claim.
Proof.
  intros C. specialize (C [MLoad (bs "/a") 7; MLoaded 0; MReplace (bs "/a"); MRemove (bs "/a")] _ _ 1 None (Some 7) eq_refl).
  assert (X : None = Some 7) by (apply C; simpl; auto 10). discriminate.
Qed.
Print Assumptions C98_way_refuted.
(** it holds if only objects of the user are replaced *)
Theorem C98_way_partial : forall ops s tr n h h', run m_step m_init ops = Some (s, tr) -> allowed m_step swaps_own m_init ops -> In (GMade n h) tr -> In (GDestroyed n h') tr -> h = h'.
Proof.
  intros ops s tr n h h' R A M D. pose proof (m_run_way _ _ _ R A) as W. apply (made_unique tr n); auto; [|eapply w_gone; eauto]. rewrite (n_made _ _ (w_minv _ _ W)). apply seq_NoDup.
Qed.
Print Assumptions C98_way_partial.
Example C98_case : allowed m_step swaps_own m_init [MAdd (bs "/a"); MLoad (bs "/b") 7; MLoaded 0; MReplace (bs "/a"); MRemove (bs "/b")].
Proof.
  econstructor; [exact Logic.I | vm_compute; reflexivity |]. econstructor; [exact Logic.I | vm_compute; reflexivity |]. econstructor; [exact Logic.I | vm_compute; reflexivity |].
  econstructor; [intros n h E; vm_compute in E; injection E as _ <-; reflexivity | vm_compute; reflexivity |]. econstructor; [exact Logic.I | vm_compute; reflexivity | constructor].
Qed.

(* ------------------------------------------------------------------ C59 *)

(** there are fewer than 2^64 handles *)
Definition countable (s : plib) : Prop := (Z.of_nat (length (p_handles s)) < two64)%Z.
Definition linked (s : plib) (k : nat) : Prop := exists d, nth_error (p_datas s) k = Some d /\ d_static d = true.
Definition named (s : plib) (k : nat) (name : list Z) : Prop := exists d, nth_error (p_datas s) k = Some d /\ d_name d = name.
(** a library is loaded exactly while a handle is open on it; none is unloaded twice; nothing is used after it was deleted; handles open on the same
    name share the library *)
Theorem C59_loaded : forall ops s tr, run p_step p_init ops = Some (s, tr) -> countable s ->
  (forall i k, nth_error (p_handles s) i = Some (HOpen k) -> loaded tr k \/ linked s k) /\
  (forall k, loaded tr k -> exists i, nth_error (p_handles s) i = Some (HOpen k)) /\
  NoDup (loads tr) /\ NoDup (unloads tr) /\ incl (unloads tr) (loads tr) /\ ~ In EBad tr /\
  (forall i j k k' name, nth_error (p_handles s) i = Some (HOpen k) -> nth_error (p_handles s) j = Some (HOpen k') -> named s k name -> named s k' name -> k = k').
Proof.
  intros ops s tr R F. pose proof (p_run_inv _ _ _ R F) as V. split; [|split; [|split; [|split; [|split; [|split]]]]].
  - intros i k H. destruct (v_open _ _ V _ _ H) as (d & D & FR). destruct (d_static d) eqn:ST; [right; exists d; auto|]. left. split; [apply (v_load _ _ V); eauto|]. rewrite (v_unload _ _ V). intros (d' & D' & X). congruence.
  - intros k [L U]. apply (v_load _ _ V) in L. destruct L as (d & D & ST). apply count_pos. apply (v_used _ _ V _ _ D); auto. destruct (d_freed d) eqn:FR; [|reflexivity]. exfalso. apply U. apply (v_unload _ _ V). eauto.
  - apply (v_nodup _ _ V).
  - apply (v_nodup _ _ V).
  - intros k U. apply (v_unload _ _ V) in U. destruct U as (d & D & FR). apply (v_load _ _ V). exists d. split; [exact D | eapply v_dead; eauto].
  - exact (v_good _ _ V).
  - intros i j k k' name H H' (d & D & N) (d' & D' & N'). destruct (v_open _ _ V _ _ H) as (d1 & D1 & F1). destruct (v_open _ _ V _ _ H') as (d2 & D2 & F2).
    assert (X : sm_find (p_map s) name = Some k) by (apply (v_map _ _ V); exists d; repeat split; congruence). assert (Y : sm_find (p_map s) name = Some k') by (apply (v_map _ _ V); exists d'; repeat split; congruence). congruence.
Qed.
Print Assumptions C59_loaded.
(** a copy is open on what the original is open on *)
Theorem C59_copy : forall ops s tr j s1 e, run p_step p_init ops = Some (s, tr) -> countable s1 -> p_step s (PCopy j) = Some (s1, e) ->
  nth_error (p_handles s1) (length (p_handles s)) = nth_error (p_handles s) j /\ nth_error (p_handles s1) j = nth_error (p_handles s) j /\ e = [].
Proof.
  intros ops s tr j s1 e R F1 E. pose proof (p_step_len _ _ _ _ E) as LE. assert (F : few s) by (eapply few_le; eauto). pose proof (p_run_inv _ _ _ R F) as V.
  unfold p_step in E. destruct (p_hung s); [discriminate|]. destruct (alive s j) eqn:A; [|discriminate]. injection E as E. destruct (alive_nth _ _ A) as (h & H & NG). pose proof (nth_lt _ _ _ H) as JL.
  assert (V1 : pinv (mkp (p_datas s) (p_map s) (p_handles s ++ [HClosed]) false) tr) by (apply pinv_handles; [exact V|]; intros k; rewrite count_app; unfold count; simpl; lia).
  assert (EE : e = []). { unfold grab_data, release_data in E. simpl in E. rewrite nth_none_app, Nat.eqb_refl in E. simpl in E. destruct (nth_error (p_handles s ++ [HClosed]) j) as [[| |k]|]; injection E as _ <-; reflexivity. }
  destruct (grab_inv _ _ (length (p_handles s)) j HClosed h s1 e V1) as (_ & HS & _); auto; try discriminate.
  - apply (few_le _ s1 F1). apply (f_equal fst) in E. simpl in E. rewrite <- E, grab_len. simpl. lia.
  - simpl. rewrite nth_none_app, Nat.eqb_refl. reflexivity.
  - simpl. apply nth_app_old. exact H.
  - simpl in HS. replace (length (p_handles s) =? j) with false in HS by (symmetry; apply Nat.eqb_neq; lia). rewrite HS. split; [rewrite set_nth_same by (rewrite app_length; simpl; lia); auto|]. split; [|exact EE]. rewrite set_nth_other by lia. rewrite nth_error_app1 by exact JL. reflexivity.
Qed.
Print Assumptions C59_copy.
(** the full claim for assignment *)
Definition C59_assign_claim : Prop := forall ops s tr i j s1 e, run p_step p_init ops = Some (s, tr) -> countable s -> p_step s (PAssign i j) = Some (s1, e) ->
  nth_error (p_handles s1) i = nth_error (p_handles s) j /\ nth_error (p_handles s1) j = nth_error (p_handles s) j.
Theorem C59_assign_refuted : ~ C59_assign_claim.
Proof.
  intros C. destruct (C [PNew; POpenFile 0 (bs "lib") true] _ _ 0 0 _ _ eq_refl eq_refl eq_refl) as [X _]. vm_compute in X. discriminate.
Qed.
Print Assumptions C59_assign_refuted.
Theorem C59_assign_partial : forall ops s tr i j s1 e, run p_step p_init ops = Some (s, tr) -> countable s -> p_step s (PAssign i j) = Some (s1, e) -> i <> j ->
  nth_error (p_handles s1) i = nth_error (p_handles s) j /\ nth_error (p_handles s1) j = nth_error (p_handles s) j.
Proof.
  intros ops s tr i j s1 e R F E N. pose proof (p_run_inv _ _ _ R F) as V. unfold p_step in E. destruct (p_hung s); [discriminate|]. destruct (alive s i) eqn:A; [|discriminate]. destruct (alive s j) eqn:B; [|discriminate]. injection E as E.
  destruct (alive_nth _ _ A) as (h & H & NG). destruct (alive_nth _ _ B) as (h2 & H2 & NG2). destruct (grab_inv _ _ _ _ _ _ _ _ V F H NG H2 NG2 E) as (_ & HS & _). apply Nat.eqb_neq in N. rewrite N in HS. apply Nat.eqb_neq in N.
  rewrite HS. split; [rewrite set_nth_same by exact (nth_lt _ _ _ H); auto | apply set_nth_other; exact N].
Qed.
Print Assumptions C59_assign_partial.
Example C59_case : exists s tr, run p_step p_init [PNew; POpenFile 0 (bs "lib") true; PCopy 0; PNew; POpenFile 2 (bs "lib") true; PDestroy 0; PClose 1; PUse 2; PClose 2] = Some (s, tr) /\ countable s /\
  tr = [ELoad 0; EUsed 0; EUnload 0].
Proof. eexists; eexists; split; [vm_compute; reflexivity|]. split; [reflexivity | reflexivity]. Qed.

(* ------------------------------------------------------------------ C97 *)

(** the full claim: open returns or throws, no thread waits for ever *)
Definition C97_claim : Prop := forall ops s tr, run p_step p_init ops = Some (s, tr) -> ~ In EHang tr.
Theorem C97_open_refuted : ~ C97_claim.
Proof. intros C. specialize (C [PNew; POpen 0 (bs "lib") (Some (bs "lib", true)); POpen 0 (bs "lib") (Some (bs "lib", true))] _ _ eq_refl). apply C. simpl. auto. Qed.
Print Assumptions C97_open_refuted.
(** it does if the handle is closed or no library with that name is there *)
Definition open_ok (s : plib) (o : pop) : Prop :=
  match o with POpen i name _ => (forall k, nth_error (p_handles s) i <> Some (HOpen k)) \/ forall k d, nth_error (p_datas s) k = Some d -> d_freed d = false -> d_name d <> name | _ => True end.
Theorem C97_open_partial : forall ops s tr, run p_step p_init ops = Some (s, tr) -> countable s -> allowed p_step open_ok p_init ops -> ~ In EHang tr.
Proof.
  intros ops s tr R F A. refine (proj2 (allowed_run_ind p_step open_ok (fun s tr => few s -> pinv s tr /\ ~ In EHang tr) p_init _ _ ops s tr R A F)).
  - intros _. split; [apply pinv_init; intros h [] | intros []].
  - clear. intros s tr o s1 e IH OK E F1. pose proof (p_step_len _ _ _ _ E) as LE. assert (F : few s) by (eapply few_le; eauto). destruct (IH F) as [V NH]. split; [eapply p_step_inv; eauto|].
    rewrite in_app_iff. intros [X|X]; [exact (NH X)|].
    assert (RH : forall s i, ~ In EHang (snd (release_data s i))).
    { clear. intros s i. unfold release_data. destruct (nth_error (p_handles s) i) as [[| |k]|]; try (simpl; tauto). destruct (nth_error (p_datas s) k) as [d|]; [|simpl; intuition discriminate]. destruct (d_freed d); [simpl; intuition discriminate|]. destruct (_ && _); simpl; intuition discriminate. }
    assert (GH : forall s i j, ~ In EHang (snd (grab_data s i j))).
    { intros s' i j. unfold grab_data. pose proof (RH s' i) as Y. destruct (release_data s' i) as [s2 e2]. destruct (nth_error (p_handles s2) j) as [[| |k]|]; exact Y. }
    unfold p_step in E. destruct (p_hung s) eqn:HU; [discriminate|]. destruct o as [|j|i j|i|i|i|i name found|i base lds|name].
    + injection E as <- <-. exact X.
    + destruct (alive s j); [|discriminate]. injection E as E. apply (f_equal snd) in E. simpl in E. subst e. exact (GH _ _ _ X).
    + destruct (alive s i && alive s j); [|discriminate]. injection E as E. apply (f_equal snd) in E. simpl in E. subst e. exact (GH _ _ _ X).
    + destruct (alive s i); [|discriminate]. injection E as E. apply (f_equal snd) in E. simpl in E. subst e. exact (RH _ _ X).
    + destruct (alive s i); [|discriminate]. pose proof (RH s i) as Y. destruct (release_data s i) as [s0 e0]. injection E as <- <-. exact (Y X).
    + destruct (alive s i) eqn:A; [|discriminate]. injection E as <- <-. destruct (use_inv _ _ _ V A) as (_ & Y & _). exact (Y X).
    + destruct (alive s i) eqn:A; [|discriminate]. injection E as E. destruct (alive_nth _ _ A) as (h & H & NG). unfold open_name in E. destruct (sm_find (p_map s) name) as [k|] eqn:SF.
      * rewrite H in E. destruct h as [| |k']; [congruence | injection E as <- <-; exact X |]. destruct OK as [OK|OK]; [exact (OK _ H)|]. apply (v_map _ _ V) in SF. destruct SF as (d & D & NM & FR). exact (OK _ _ D FR NM).
      * destruct found as [[base lds]|]; [|injection E as <- <-; destruct X as [X|[]]; discriminate]. destruct (open_file_inv _ _ _ _ _ _ _ _ V F H NG E) as (_ & _ & _ & Y). exact (Y X).
    + destruct (alive s i) eqn:A; [|discriminate]. injection E as E. destruct (alive_nth _ _ A) as (h & H & NG). destruct (open_file_inv _ _ _ _ _ _ _ _ V F H NG E) as (_ & _ & _ & Y). exact (Y X).
    + destruct (sm_find _ _); injection E as <- <-; exact X.
Qed.
Print Assumptions C97_open_partial.
Example C97_case : allowed p_step open_ok p_init [PNew; POpen 0 (bs "lib") (Some (bs "lib", true)); PNew; POpen 1 (bs "lib") None; POpen 1 (bs "other") (Some (bs "other", true))].
Proof.
  econstructor; [exact Logic.I | vm_compute; reflexivity |]. econstructor; [left; intros k; discriminate | vm_compute; reflexivity |]. econstructor; [exact Logic.I | vm_compute; reflexivity |].
  econstructor; [left; intros k; discriminate | vm_compute; reflexivity |]. econstructor; [|vm_compute; reflexivity | constructor].
  right. intros [|[|k]] d D FR; simpl in D; [injection D as <-; vm_compute; discriminate | discriminate | destruct k; discriminate].
Qed.

(* ------------------------------------------------------------------ C60 *)

(** the full claim: when the pointer is gone, every instance it made has been destroyed once *)
Definition C60_claim : Prop := forall ops s tr, run i_step i_init (ops ++ [IDelete]) = Some (s, tr) -> Permutation (created tr) (destroyed tr).
Theorem C60_once_refuted : ~ C60_claim.
Proof. intros C. specialize (C [ICreate (bs "a") (Some (bs "a", true)); IReset] _ _ eq_refl). apply Permutation_length in C. discriminate. Qed.
Print Assumptions C60_once_refuted.
(** without reset, too: when the second plug-in is not found the first instance is destroyed twice *)
Theorem C60_missing_refuted : ~ (forall ops s tr, run i_step i_init (ops ++ [IDelete]) = Some (s, tr) -> ~ In IReset ops -> NoDup (destroyed tr)).
Proof.
  intros C. specialize (C [ICreate (bs "a") (Some (bs "a", true)); ICreate (bs "b") None] _ _ eq_refl). assert (X : ~ In IReset [ICreate (bs "a") (Some (bs "a", true)); ICreate (bs "b") None]) by (intros [X|[X|[]]]; discriminate). specialize (C X). vm_compute in C. inversion C; subst. apply H1. left. reflexivity.
Qed.
Print Assumptions C60_missing_refuted.
(** if reset is not called, and no call of create fails or waits for ever, every instance is destroyed once, the last one by the destructor *)
Theorem C60_once_partial : forall ops s tr, run i_step i_init ops = Some (s, tr) -> countable (i_lib s) -> ~ In IReset ops -> ~ In (ILib EThrow) tr -> ~ In (ILib EHang) tr ->
  NoDup (created tr) /\ exists l, created tr = destroyed tr ++ l /\ length l <= 1 /\ (In IDelete ops -> l = []).
Proof.
  intros ops s tr R F NR N1 N2. assert (A : allowed i_step no_reset i_init ops).
  { clear - R NR. revert R NR. generalize i_init. revert s tr. induction ops as [|o ops IH]; intros s tr s0 R NR; [constructor|]. simpl in R. destruct (i_step s0 o) as [[s1 e]|] eqn:E; [|discriminate]. destruct (run i_step s1 ops) as [[s2 e']|] eqn:R1; [|discriminate].
    econstructor; [intros ->; apply NR; left; reflexivity | exact E |]. eapply IH; [exact R1|]. intros X. apply NR. right. exact X. }
  pose proof (i_run_inv _ _ _ R A) as V. assert (C : calm tr) by (split; assumption). split; [rewrite (i_seq _ _ V C); apply seq_NoDup|].
  destruct (alive (i_lib s) 0) eqn:AL.
  - exists (cur s). destruct (i_once _ _ V F C AL) as [O _]. split; [exact O|]. split; [unfold cur; destruct (i_ptr s); simpl; lia|].
    intros I. exfalso. apply in_split in I. destruct I as (a & b & ->). apply run_app in R. destruct R as (s1 & t1 & t2 & R1 & R2 & ->). simpl in R2. destruct (i_step s1 IDelete) as [[s2 e]|] eqn:E; [|discriminate].
    assert (DEAD : alive (i_lib s2) 0 = false).
    { unfold i_step in E. destruct (p_hung (i_lib s1) || negb (alive (i_lib s1) 0)) eqn:HA; [discriminate|]. apply orb_false_iff in HA. destruct HA as [HU AL1]. apply negb_false_iff in AL1. destruct (alive_nth _ _ AL1) as (h0 & H0 & _).
      unfold p_step in E. rewrite HU, AL1 in E. pose proof (release_len (i_lib s1) 0) as RL. destruct (release_data (i_lib s1) 0) as [s0 e0]. injection E as <- <-. cbn [fst] in RL. unfold alive. cbn [i_lib p_handles set_handle]. rewrite set_nth_same; [reflexivity|]. rewrite RL. exact (nth_lt _ _ _ H0). }
    destruct b as [|o b].
    + simpl in R2. injection R2 as <- _. congruence.
    + simpl in R2. assert (X : i_step s2 o = None) by (unfold i_step; rewrite DEAD, orb_true_r; reflexivity). rewrite X in R2. discriminate.
  - exists []. rewrite app_nil_r. split; [apply (i_done _ _ V F C AL) | simpl; auto].
Qed.
Print Assumptions C60_once_partial.
Example C60_case : exists s tr, run i_step i_init [ICreate (bs "a") (Some (bs "a", true)); IOther (PCopy 0); ICreate (bs "b") (Some (bs "b", true)); IDelete] = Some (s, tr) /\ countable (i_lib s) /\ created tr = [0; 1] /\ destroyed tr = [0; 1] /\
  ~ In (ILib EThrow) tr /\ ~ In (ILib EHang) tr.
Proof. eexists; eexists; split; [vm_compute; reflexivity|]. split; [reflexivity|]. split; [reflexivity|]. split; [reflexivity|]. split; intros X; repeat (destruct X as [X|X]; [discriminate|]); destruct X. Qed.
