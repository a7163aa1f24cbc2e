(** Invariants of the plug-in libraries. *)
From Coq Require Import ZArith Lia List Bool.
From Verif Require Import Base SMap Runs Threads PluginModel PluginSpec.
Import ListNotations.
Local Open Scope nat_scope.

Definition opens (k : nat) (h : handle) : bool := match h with HOpen k' => Nat.eqb k k' | _ => false end.
Definition count (k : nat) (hs : list handle) : nat := length (filter (opens k) hs).
Lemma count_app : forall k a b, count k (a ++ b) = count k a + count k b.
Proof. intros. unfold count. rewrite filter_app, app_length. reflexivity. Qed.
Lemma count_le : forall k hs, count k hs <= length hs.
Proof. intros. unfold count. induction hs as [|h hs IH]; simpl; [lia|]. destruct (opens k h); simpl; lia. Qed.
Lemma count_set : forall k hs i h h', nth_error hs i = Some h -> count k (set_nth i h' hs) + (if opens k h then 1 else 0) = count k hs + (if opens k h' then 1 else 0).
Proof.
  intros k. unfold count. induction hs as [|x hs IH]; intros [|i] h h' E; simpl in *; try discriminate.
  - injection E as ->. destruct (opens k h), (opens k h'); simpl; lia.
  - specialize (IH _ _ h' E). destruct (opens k x); simpl; lia.
Qed.
Lemma count_pos : forall k hs, count k hs >= 1 -> exists i, nth_error hs i = Some (HOpen k).
Proof.
  unfold count. induction hs as [|h hs IH]; intros C; simpl in C; [lia|]. destruct (opens k h) eqn:O.
  - destruct h; try discriminate. simpl in O. apply Nat.eqb_eq in O. subst. exists 0. reflexivity.
  - destruct (IH C) as [i E]. exists (S i). exact E.
Qed.
Lemma count_some : forall k hs i, nth_error hs i = Some (HOpen k) -> count k hs >= 1.
Proof.
  unfold count. induction hs as [|h hs IH]; intros [|i] E; simpl in *; try discriminate.
  - injection E as ->. simpl. rewrite Nat.eqb_refl. simpl. lia.
  - specialize (IH _ E). destruct (opens k h); simpl; lia.
Qed.

Record pinv (s : plib) (tr : list pev) : Prop := mkpinv {
  v_refs : forall k d, nth_error (p_datas s) k = Some d -> d_refs d = Z.of_nat (count k (p_handles s));
  v_open : forall i k, nth_error (p_handles s) i = Some (HOpen k) -> exists d, nth_error (p_datas s) k = Some d /\ d_freed d = false;
  v_sorted : sorted (p_map s);
  v_map : forall name k, sm_find (p_map s) name = Some k <-> exists d, nth_error (p_datas s) k = Some d /\ d_name d = name /\ d_freed d = false;
  v_used : forall k d, nth_error (p_datas s) k = Some d -> d_freed d = false -> d_static d = false -> count k (p_handles s) >= 1;
  v_dead : forall k d, nth_error (p_datas s) k = Some d -> d_freed d = true -> d_static d = false;
  v_load : forall k, In k (loads tr) <-> exists d, nth_error (p_datas s) k = Some d /\ d_static d = false;
  v_unload : forall k, In k (unloads tr) <-> exists d, nth_error (p_datas s) k = Some d /\ d_freed d = true;
  v_nodup : NoDup (loads tr) /\ NoDup (unloads tr);
  v_good : ~ In EBad tr
}.
Definition few (s : plib) : Prop := (Z.of_nat (length (p_handles s)) < two64)%Z.
Lemma loads_app : forall a b, loads (a ++ b) = loads a ++ loads b.
Proof. intros. apply flat_map_app. Qed.
Lemma unloads_app : forall a b, unloads (a ++ b) = unloads a ++ unloads b.
Proof. intros. apply flat_map_app. Qed.
Lemma nodup_snoc : forall (l : list nat) x, NoDup l -> ~ In x l -> NoDup (l ++ [x]).
Proof.
  induction l as [|y l IH]; intros x N I; [constructor; [intros [] | constructor]|]. inversion N; subst. simpl. constructor.
  - rewrite in_app_iff. intros [X|[X|[]]]; [auto|]. subst. apply I. left. reflexivity.
  - apply IH; [assumption|]. intros X. apply I. right. exact X.
Qed.
Lemma wrap64_small : forall z, (0 <= z < two64)%Z -> wrap64 z = z.
Proof. intros z B. apply Z.mod_small. exact B. Qed.
Lemma nth_none_app {A} : forall (l : list A) x k, nth_error (l ++ [x]) k = if Nat.eqb k (length l) then Some x else nth_error l k.
Proof.
  induction l as [|y l IH]; intros x [|k]; simpl; auto. destruct k; reflexivity.
Qed.

(** release_data *)
Lemma release_inv : forall s tr i h s1 e, pinv s tr -> few s -> nth_error (p_handles s) i = Some h -> h <> HGone -> release_data s i = (s1, e) ->
  pinv s1 (tr ++ e) /\ p_handles s1 = set_nth i HClosed (p_handles s) /\ p_hung s1 = p_hung s.
Proof.
  intros s tr i h s1 e V F H NG E. unfold release_data in E. rewrite H in E.
  destruct h as [| |k]; [congruence| |].
  { injection E as <- <-. rewrite app_nil_r. split; [exact V|]. split; [|reflexivity].
    clear - H. revert i H. induction (p_handles s) as [|x l IH]; intros [|i] H; simpl in *; try discriminate; [injection H as ->; reflexivity | f_equal; auto]. }
  destruct (v_open _ _ V _ _ H) as (d & D & FR). rewrite D, FR in E.
  pose proof (count_some _ _ _ H) as C1. pose proof (count_le k (p_handles s)) as C2. unfold few in F. pose proof (v_refs _ _ V _ _ D) as RF.
  assert (W : wrap64 (d_refs d - 1) = (Z.of_nat (count k (p_handles s)) - 1)%Z) by (rewrite RF; apply wrap64_small; lia).
  rewrite W in E.
  assert (CS : forall k', count k' (set_nth i HClosed (p_handles s)) + (if Nat.eqb k' k then 1 else 0) = count k' (p_handles s)) by (intros k'; pose proof (count_set k' _ _ _ HClosed H) as X; simpl in X; lia).
  assert (OP : forall j k', nth_error (set_nth i HClosed (p_handles s)) j = Some (HOpen k') -> nth_error (p_handles s) j = Some (HOpen k') /\ count k' (set_nth i HClosed (p_handles s)) >= 1).
  { intros j k' X. split; [|eapply count_some; eauto]. destruct (set_nth_cases _ _ _ _ _ X) as [(_ & Y & _)|[_ Y]]; [discriminate | exact Y]. }
  pose proof (nth_lt _ _ _ D) as KL. pose proof (CS k) as CK. rewrite Nat.eqb_refl in CK.
  destruct (Z.eqb_spec (Z.of_nat (count k (p_handles s)) - 1) 0) as [Z0|Z0]; [destruct (d_static d) eqn:ST|]; simpl in E; injection E as <- <-; (split; [|split; reflexivity]).
  - (* static *)
    rewrite app_nil_r. constructor; simpl.
    + intros k' d' X. destruct (set_nth_cases _ _ _ _ _ X) as [(-> & -> & _)|[N X']]; simpl; [lia|]. rewrite (v_refs _ _ V _ _ X'). pose proof (CS k') as Y. destruct (Nat.eqb_spec k' k); [congruence | lia].
    + intros j k' X. destruct (OP _ _ X) as [Y _]. destruct (v_open _ _ V _ _ Y) as (d' & D' & FR'). destruct (Nat.eq_dec k k') as [<-|N]; [rewrite set_nth_same by exact KL; eauto|]. rewrite set_nth_other by exact N. eauto.
    + exact (v_sorted _ _ V).
    + intros name k'. rewrite (v_map _ _ V). split; intros (d' & D' & NM & FR').
      * destruct (Nat.eq_dec k k') as [<-|N]; [rewrite set_nth_same by exact KL; eexists; split; [reflexivity|]; simpl; split; congruence|]. rewrite set_nth_other by exact N. eauto.
      * destruct (set_nth_cases _ _ _ _ _ D') as [(-> & -> & _)|[N X']]; simpl in *; [exists d; auto | eauto].
    + intros k' d' X FR' ST'. destruct (set_nth_cases _ _ _ _ _ X) as [(-> & -> & _)|[N X']]; simpl in *; [congruence|]. pose proof (v_used _ _ V _ _ X' FR' ST'). pose proof (CS k') as Y. destruct (Nat.eqb_spec k' k); [congruence | lia].
    + intros k' d' X FR'. destruct (set_nth_cases _ _ _ _ _ X) as [(-> & -> & _)|[N X']]; simpl in *; [discriminate | eapply v_dead; eauto].
    + intros k'. rewrite (v_load _ _ V). split; intros (d' & D' & ST').
      * destruct (Nat.eq_dec k k') as [<-|N]; [congruence|]. rewrite set_nth_other by exact N. eauto.
      * destruct (set_nth_cases _ _ _ _ _ D') as [(-> & -> & _)|[N X']]; simpl in *; [congruence | eauto].
    + intros k'. rewrite (v_unload _ _ V). split; intros (d' & D' & ST').
      * destruct (Nat.eq_dec k k') as [<-|N]; [congruence|]. rewrite set_nth_other by exact N. eauto.
      * destruct (set_nth_cases _ _ _ _ _ D') as [(-> & -> & _)|[N X']]; simpl in *; [congruence | eauto].
    + exact (v_nodup _ _ V).
    + exact (v_good _ _ V).
  - (* the last reference *)
    assert (UN : ~ In k (unloads tr)) by (rewrite (v_unload _ _ V); intros (d' & D' & X); congruence).
    constructor; simpl.
    + intros k' d' X. destruct (set_nth_cases _ _ _ _ _ X) as [(-> & -> & _)|[N X']]; simpl; [lia|]. rewrite (v_refs _ _ V _ _ X'). pose proof (CS k') as Y. destruct (Nat.eqb_spec k' k); [congruence | lia].
    + intros j k' X. destruct (OP _ _ X) as [Y C]. destruct (v_open _ _ V _ _ Y) as (d' & D' & FR'). destruct (Nat.eq_dec k k') as [<-|N]; [lia|]. rewrite set_nth_other by exact N. eauto.
    + apply sm_erase_sorted. exact (v_sorted _ _ V).
    + intros name k'. rewrite sm_find_erase. destruct (str_eqb (d_name d) name) eqn:SE.
      * apply str_eqb_eq in SE. split; [discriminate|]. intros (d' & D' & NM & FR'). exfalso. destruct (set_nth_cases _ _ _ _ _ D') as [(-> & -> & _)|[N X']]; simpl in *; [discriminate|].
        assert (P1 : sm_find (p_map s) name = Some k') by (apply (v_map _ _ V); eauto). assert (P2 : sm_find (p_map s) name = Some k) by (apply (v_map _ _ V); eauto). congruence.
      * rewrite (v_map _ _ V). split; intros (d' & D' & NM & FR').
        -- destruct (Nat.eq_dec k k') as [<-|N]; [rewrite D in D'; injection D' as <-; rewrite NM, str_eqb_refl in SE; discriminate|]. rewrite set_nth_other by exact N. eauto.
        -- destruct (set_nth_cases _ _ _ _ _ D') as [(-> & -> & _)|[N X']]; simpl in *; [discriminate | eauto].
    + intros k' d' X FR' ST'. destruct (set_nth_cases _ _ _ _ _ X) as [(-> & -> & _)|[N X']]; simpl in *; [discriminate|]. pose proof (v_used _ _ V _ _ X' FR' ST'). pose proof (CS k') as Y. destruct (Nat.eqb_spec k' k); [congruence | lia].
    + intros k' d' X FR'. destruct (set_nth_cases _ _ _ _ _ X) as [(-> & -> & _)|[N X']]; simpl in *; [reflexivity | eapply v_dead; eauto].
    + intros k'. rewrite loads_app. simpl. rewrite app_nil_r. rewrite (v_load _ _ V). split; intros (d' & D' & ST').
      * destruct (Nat.eq_dec k k') as [<-|N]; [rewrite set_nth_same by exact KL; eexists; split; [reflexivity | reflexivity]|]. rewrite set_nth_other by exact N. eauto.
      * destruct (set_nth_cases _ _ _ _ _ D') as [(-> & -> & _)|[N X']]; simpl in *; [eauto | eauto].
    + intros k'. rewrite unloads_app. simpl. rewrite in_app_iff, (v_unload _ _ V). split.
      * intros [(d' & D' & ST')|[<-|[]]].
        -- destruct (Nat.eq_dec k k') as [<-|N]; [congruence|]. rewrite set_nth_other by exact N. eauto.
        -- rewrite set_nth_same by exact KL. eexists; split; reflexivity.
      * intros (d' & D' & ST'). destruct (set_nth_cases _ _ _ _ _ D') as [(-> & -> & _)|[N X']]; simpl in *; [auto | left; eauto].
    + rewrite loads_app, unloads_app. simpl. rewrite app_nil_r. destruct (v_nodup _ _ V) as [N1 N2]. split; [exact N1 | apply nodup_snoc; assumption].
    + rewrite in_app_iff. intros [X|[X|[]]]; [exact (v_good _ _ V X) | discriminate].
  - (* others remain *)
    rewrite app_nil_r. constructor; simpl.
    + intros k' d' X. destruct (set_nth_cases _ _ _ _ _ X) as [(-> & -> & _)|[N X']]; simpl; [lia|]. rewrite (v_refs _ _ V _ _ X'). pose proof (CS k') as Y. destruct (Nat.eqb_spec k' k); [congruence | lia].
    + intros j k' X. destruct (OP _ _ X) as [Y _]. destruct (v_open _ _ V _ _ Y) as (d' & D' & FR'). destruct (Nat.eq_dec k k') as [<-|N]; [rewrite set_nth_same by exact KL; eauto|]. rewrite set_nth_other by exact N. eauto.
    + exact (v_sorted _ _ V).
    + intros name k'. rewrite (v_map _ _ V). split; intros (d' & D' & NM & FR').
      * destruct (Nat.eq_dec k k') as [<-|N]; [rewrite set_nth_same by exact KL; eexists; split; [reflexivity|]; simpl; split; congruence|]. rewrite set_nth_other by exact N. eauto.
      * destruct (set_nth_cases _ _ _ _ _ D') as [(-> & -> & _)|[N X']]; simpl in *; [exists d; auto | eauto].
    + intros k' d' X FR' ST'. destruct (set_nth_cases _ _ _ _ _ X) as [(-> & -> & _)|[N X']]; simpl in *; [lia|]. pose proof (v_used _ _ V _ _ X' FR' ST'). pose proof (CS k') as Y. destruct (Nat.eqb_spec k' k); [congruence | lia].
    + intros k' d' X FR'. destruct (set_nth_cases _ _ _ _ _ X) as [(-> & -> & _)|[N X']]; simpl in *; [discriminate | eapply v_dead; eauto].
    + intros k'. rewrite (v_load _ _ V). split; intros (d' & D' & ST').
      * destruct (Nat.eq_dec k k') as [<-|N]; [rewrite set_nth_same by exact KL; eexists; split; [reflexivity | simpl; congruence]|]. rewrite set_nth_other by exact N. eauto.
      * destruct (set_nth_cases _ _ _ _ _ D') as [(-> & -> & _)|[N X']]; simpl in *; [eauto | eauto].
    + intros k'. rewrite (v_unload _ _ V). split; intros (d' & D' & ST').
      * destruct (Nat.eq_dec k k') as [<-|N]; [congruence|]. rewrite set_nth_other by exact N. eauto.
      * destruct (set_nth_cases _ _ _ _ _ D') as [(-> & -> & _)|[N X']]; simpl in *; [congruence | eauto].
    + exact (v_nodup _ _ V).
    + exact (v_good _ _ V).
Qed.
(** a closed handle refers to data that is there *)
Lemma open_inv : forall s tr i k d, pinv s tr -> few s -> nth_error (p_handles s) i = Some HClosed -> nth_error (p_datas s) k = Some d -> d_freed d = false ->
  pinv (add_ref (set_handle s i (HOpen k)) k) tr.
Proof.
  intros s tr i k d V F H D FR. unfold add_ref. simpl. rewrite D. pose proof (nth_lt _ _ _ D) as KL. pose proof (v_refs _ _ V _ _ D) as RF.
  pose proof (count_le k (p_handles s)) as C2. unfold few in F.
  assert (CS : forall k', count k' (set_nth i (HOpen k) (p_handles s)) = count k' (p_handles s) + (if Nat.eqb k' k then 1 else 0)) by (intros k'; pose proof (count_set k' _ _ _ (HOpen k) H) as X; simpl in X; lia).
  pose proof (count_le k (set_nth i (HOpen k) (p_handles s))) as C3. rewrite set_nth_length, CS, Nat.eqb_refl in C3.
  constructor; simpl.
  - intros k' d' X. destruct (set_nth_cases _ _ _ _ _ X) as [(-> & -> & _)|[N X']]; simpl.
    + rewrite RF, CS, Nat.eqb_refl, wrap64_small by lia. lia.
    + rewrite CS. destruct (Nat.eqb_spec k' k); [congruence|]. rewrite Nat.add_0_r. exact (v_refs _ _ V _ _ X').
  - intros j k' X. assert (Y : exists d', nth_error (p_datas s) k' = Some d' /\ d_freed d' = false).
    { destruct (set_nth_cases _ _ _ _ _ X) as [(-> & Y & _)|[_ Y]]; [injection Y as ->; eauto | eapply v_open; eauto]. }
    destruct Y as (d' & D' & FR'). destruct (Nat.eq_dec k k') as [<-|N]; [rewrite set_nth_same by exact KL; eauto|]. rewrite set_nth_other by exact N. eauto.
  - exact (v_sorted _ _ V).
  - intros name k'. rewrite (v_map _ _ V). split; intros (d' & D' & NM & FR').
    + destruct (Nat.eq_dec k k') as [<-|N]; [rewrite set_nth_same by exact KL; eexists; split; [reflexivity|]; simpl; split; congruence|]. rewrite set_nth_other by exact N. eauto.
    + destruct (set_nth_cases _ _ _ _ _ D') as [(-> & -> & _)|[N X']]; simpl in *; [exists d; auto | eauto].
  - intros k' d' X FR' ST'. rewrite CS. destruct (set_nth_cases _ _ _ _ _ X) as [(-> & -> & _)|[N X']]; simpl in *; [rewrite Nat.eqb_refl; lia|]. pose proof (v_used _ _ V _ _ X' FR' ST'). lia.
  - intros k' d' X FR'. destruct (set_nth_cases _ _ _ _ _ X) as [(-> & -> & _)|[N X']]; simpl in *; [congruence | eapply v_dead; eauto].
  - intros k'. rewrite (v_load _ _ V). split; intros (d' & D' & ST').
    + destruct (Nat.eq_dec k k') as [<-|N]; [rewrite set_nth_same by exact KL; eexists; split; [reflexivity | simpl; congruence]|]. rewrite set_nth_other by exact N. eauto.
    + destruct (set_nth_cases _ _ _ _ _ D') as [(-> & -> & _)|[N X']]; simpl in *; [eauto | eauto].
  - intros k'. rewrite (v_unload _ _ V). split; intros (d' & D' & ST').
    + destruct (Nat.eq_dec k k') as [<-|N]; [congruence|]. rewrite set_nth_other by exact N. eauto.
    + destruct (set_nth_cases _ _ _ _ _ D') as [(-> & -> & _)|[N X']]; simpl in *; [congruence | eauto].
  - exact (v_nodup _ _ V).
  - exact (v_good _ _ V).
Qed.
(** a closed handle gets a new library *)
Lemma load_inv : forall s tr i base, pinv s tr -> nth_error (p_handles s) i = Some HClosed -> sm_find (p_map s) base = None ->
  pinv (set_handle (mkp (p_datas s ++ [mkd base false 1 false]) (sm_insert (p_map s) base (length (p_datas s))) (p_handles s) (p_hung s)) i (HOpen (length (p_datas s)))) (tr ++ [ELoad (length (p_datas s))]).
Proof.
  intros s tr i base V H NF. set (n := length (p_datas s)).
  assert (NN : forall k d, nth_error (p_datas s) k = Some d -> Nat.eqb k n = false) by (intros k d X; apply nth_lt in X; apply Nat.eqb_neq; unfold n; lia).
  assert (CS : forall k', count k' (set_nth i (HOpen n) (p_handles s)) = count k' (p_handles s) + (if Nat.eqb k' n then 1 else 0)) by (intros k'; pose proof (count_set k' _ _ _ (HOpen n) H) as X; simpl in X; lia).
  assert (C0 : count n (p_handles s) = 0).
  { destruct (count n (p_handles s)) eqn:E; [reflexivity|]. destruct (count_pos n (p_handles s)) as [j X]; [lia|]. destruct (v_open _ _ V _ _ X) as (d & D & _). apply NN in D. rewrite Nat.eqb_refl in D. discriminate. }
  assert (NL : nth_error (p_datas s) n = None) by (apply nth_error_None; unfold n; lia).
  constructor; simpl; fold n.
  - intros k d X. rewrite nth_none_app in X. fold n in X. rewrite CS. destruct (Nat.eqb_spec k n) as [->|N]; [injection X as <-; simpl; lia|]. rewrite Nat.add_0_r. exact (v_refs _ _ V _ _ X).
  - intros j k X. rewrite nth_none_app. fold n. destruct (set_nth_cases _ _ _ _ _ X) as [(-> & Y & _)|[_ Y]]; [injection Y as ->; rewrite Nat.eqb_refl; eauto|].
    destruct (v_open _ _ V _ _ Y) as (d & D & FR). rewrite (NN _ _ D). eauto.
  - apply sm_insert_sorted. exact (v_sorted _ _ V).
  - intros name k. rewrite sm_find_insert by exact (v_sorted _ _ V). rewrite nth_none_app. fold n. destruct (str_eqb base name) eqn:SE.
    + apply str_eqb_eq in SE. subst name. rewrite NF. split.
      * intros X. injection X as <-. rewrite Nat.eqb_refl. eexists; split; [reflexivity | auto].
      * intros (d & D & NM & FR). destruct (Nat.eqb_spec k n) as [->|N]; [reflexivity|]. assert (X : sm_find (p_map s) base = Some k) by (apply (v_map _ _ V); eauto). congruence.
    + rewrite (v_map _ _ V). split; intros (d & D & NM & FR).
      * rewrite (NN _ _ D). eauto.
      * destruct (Nat.eqb_spec k n) as [->|N]; [injection D as <-; simpl in NM; subst name; rewrite str_eqb_refl in SE; discriminate | eauto].
  - intros k d X FR ST. rewrite nth_none_app in X. fold n in X. rewrite CS. destruct (Nat.eqb_spec k n) as [->|N]; [lia|]. pose proof (v_used _ _ V _ _ X FR ST). lia.
  - intros k d X FR. rewrite nth_none_app in X. fold n in X. destruct (Nat.eqb_spec k n) as [->|N]; [injection X as <-; reflexivity | eapply v_dead; eauto].
  - intros k. rewrite loads_app. simpl. rewrite in_app_iff, (v_load _ _ V). rewrite nth_none_app. fold n. split.
    + intros [(d & D & ST)|[<-|[]]]; [rewrite (NN _ _ D); eauto|]. rewrite Nat.eqb_refl. eexists; split; reflexivity.
    + intros (d & D & ST). destruct (Nat.eqb_spec k n) as [->|N]; [right; left; reflexivity | left; eauto].
  - intros k. rewrite unloads_app. simpl. rewrite app_nil_r, (v_unload _ _ V), nth_none_app. fold n. split; intros (d & D & ST).
    + rewrite (NN _ _ D). eauto.
    + destruct (Nat.eqb_spec k n) as [->|N]; [injection D as <-; discriminate | eauto].
  - rewrite loads_app, unloads_app. simpl. rewrite app_nil_r. destruct (v_nodup _ _ V) as [N1 N2]. split; [|exact N2]. apply nodup_snoc; [exact N1|]. rewrite (v_load _ _ V). intros (d & D & _). congruence.
  - rewrite in_app_iff. intros [X|[X|[]]]; [exact (v_good _ _ V X) | discriminate].
Qed.
(** only events that do not count, or handles that are not open, change *)
Lemma pinv_events : forall s tr e, pinv s tr -> loads e = [] -> unloads e = [] -> ~ In EBad e -> pinv s (tr ++ e).
Proof.
  intros s tr e [V1 V2 V3 V4 V5 V6 V7 V8 V9 V10] L U B. constructor; auto; rewrite ?loads_app, ?unloads_app, ?L, ?U, ?app_nil_r; auto. rewrite in_app_iff. tauto.
Qed.
Lemma pinv_handles : forall s tr hs hung, pinv s tr -> (forall k, count k hs = count k (p_handles s)) -> pinv (mkp (p_datas s) (p_map s) hs hung) tr.
Proof.
  intros s tr hs hung [V1 V2 V3 V4 V5 V6 V7 V8 V9 V10] C. constructor; simpl; auto.
  - intros k d X. rewrite C. auto.
  - intros i k X. assert (Y : count k (p_handles s) >= 1) by (rewrite <- C; eapply count_some; eauto). apply count_pos in Y. destruct Y as [j Y]. eauto.
  - intros k d X F S. rewrite C. eauto.
Qed.
Lemma count_closed : forall hs i h k, nth_error hs i = Some h -> opens k h = false -> forall h', opens k h' = false -> count k (set_nth i h' hs) = count k hs.
Proof. intros hs i h k E O h' O'. pose proof (count_set k _ _ _ h' E) as X. rewrite O, O' in X. lia. Qed.

Lemma alive_nth : forall s i, alive s i = true -> exists h, nth_error (p_handles s) i = Some h /\ h <> HGone.
Proof. intros s i A. unfold alive in A. destruct (nth_error (p_handles s) i) as [[| |k]|]; try discriminate; eexists; split; try reflexivity; discriminate. Qed.
Lemma few_set : forall s s1 i h, few s -> p_handles s1 = set_nth i h (p_handles s) -> few s1.
Proof. intros s s1 i h F E. unfold few in *. rewrite E, set_nth_length. exact F. Qed.
Definition add_ref_handles : forall s k, p_handles (add_ref s k) = p_handles s.
Proof. intros. unfold add_ref. destruct (nth_error _ _); reflexivity. Qed.
Definition add_ref_hung : forall s k, p_hung (add_ref s k) = p_hung s.
Proof. intros. unfold add_ref. destruct (nth_error _ _); reflexivity. Qed.

Lemma grab_inv : forall s tr i j h h2 s1 e, pinv s tr -> few s -> nth_error (p_handles s) i = Some h -> h <> HGone -> nth_error (p_handles s) j = Some h2 -> h2 <> HGone -> grab_data s i j = (s1, e) ->
  pinv s1 (tr ++ e) /\ p_handles s1 = set_nth i (if Nat.eqb i j then HClosed else h2) (p_handles s) /\ p_hung s1 = p_hung s.
Proof.
  intros s tr i j h h2 s1 e V F H NG H2 NG2 E. unfold grab_data in E. destruct (release_data s i) as [s0 e0] eqn:R.
  destruct (release_inv _ _ _ _ _ _ V F H NG R) as (V0 & HS & HU). pose proof (nth_lt _ _ _ H) as IL. rewrite HS in E.
  assert (F0 : few s0) by (eapply few_set; eauto). assert (H0 : nth_error (p_handles s0) i = Some HClosed) by (rewrite HS; apply set_nth_same; exact IL).
  destruct (Nat.eqb_spec i j) as [<-|N].
  - rewrite set_nth_same in E by exact IL. injection E as <- <-. simpl. rewrite HS, set_nth_twice. split; [|auto]. apply pinv_handles; [exact V0|]. intros k. rewrite HS. rewrite ?set_nth_twice. reflexivity.
  - rewrite set_nth_other, H2 in E by exact N. destruct h2 as [| |k]; [congruence| |].
    + injection E as <- <-. simpl. rewrite HS, set_nth_twice. split; [|auto]. apply pinv_handles; [exact V0|]. intros k. rewrite HS. apply (count_closed _ _ HClosed); auto. apply set_nth_same; exact IL.
    + injection E as <- <-. rewrite add_ref_handles, add_ref_hung. simpl. rewrite HS, set_nth_twice. split; [|auto].
      assert (HJ : nth_error (p_handles s0) j = Some (HOpen k)) by (rewrite HS, set_nth_other by exact N; exact H2).
      destruct (v_open _ _ V0 _ _ HJ) as (d & D & FR). eapply open_inv; eauto.
Qed.
Lemma open_file_inv : forall s tr i h base lds s1 e, pinv s tr -> few s -> nth_error (p_handles s) i = Some h -> h <> HGone -> open_file s i base lds = (s1, e) ->
  pinv s1 (tr ++ e) /\ (exists h', p_handles s1 = set_nth i h' (p_handles s) /\ h' <> HGone /\ (In EThrow e <-> h' = HClosed)) /\ p_hung s1 = p_hung s /\ ~ In EHang e.
Proof.
  intros s tr i h base lds s1 e V F H NG E. unfold open_file in E. destruct (release_data s i) as [s0 e0] eqn:R.
  destruct (release_inv _ _ _ _ _ _ V F H NG R) as (V0 & HS & HU). pose proof (nth_lt _ _ _ H) as IL.
  assert (F0 : few s0) by (eapply few_set; eauto). assert (H0 : nth_error (p_handles s0) i = Some HClosed) by (rewrite HS; apply set_nth_same; exact IL).
  assert (E0 : ~ In EThrow e0 /\ ~ In EHang e0).
  { clear - R. unfold release_data in R. destruct (nth_error (p_handles s) i) as [[| |k]|]; try (injection R as <- <-; simpl; tauto).
    destruct (nth_error (p_datas s) k) as [d|]; [|injection R as <- <-; simpl; intuition discriminate]. destruct (d_freed d); [injection R as <- <-; simpl; intuition discriminate|].
    destruct (_ && _); injection R as <- <-; simpl; intuition discriminate. }
  destruct E0 as [E1 E2].
  destruct (sm_find (p_map s0) base) as [k|] eqn:SF.
  - injection E as <- <-. rewrite add_ref_handles, add_ref_hung. simpl. rewrite HS, set_nth_twice.
    assert (SF' := SF). apply (v_map _ _ V0) in SF'. destruct SF' as (d & D & _ & FR). split; [eapply open_inv; eauto|]. split; [|auto]. exists (HOpen k). split; [reflexivity|]. split; [discriminate|]. split; [contradiction | discriminate].
  - destruct lds; injection E as <- <-; simpl; rewrite HS, ?set_nth_twice.
    + split; [rewrite app_assoc; rewrite <- HS; apply load_inv; auto|]. split; [|split; [exact HU|]].
      * eexists. split; [reflexivity|]. split; [discriminate|]. split; [|discriminate]. rewrite in_app_iff. intros [X|[X|[]]]; [contradiction | discriminate].
      * rewrite in_app_iff. intros [X|[X|[]]]; [contradiction | discriminate].
    + split; [rewrite app_assoc; apply pinv_events; auto; simpl; intuition discriminate|]. split; [|split; [exact HU|]].
      * exists HClosed. split; [reflexivity|]. split; [discriminate|]. split; [auto|]. intros _. rewrite in_app_iff. right. left. reflexivity.
      * rewrite in_app_iff. intros [X|[X|[]]]; [contradiction | discriminate].
Qed.

Lemma use_inv : forall s tr i, pinv s tr -> alive s i = true -> pinv s (tr ++ use s i) /\ ~ In EHang (use s i) /\
  ((exists k, use s i = [EUsed k] /\ nth_error (p_handles s) i = Some (HOpen k)) \/ (use s i = [EThrow] /\ nth_error (p_handles s) i = Some HClosed)).
Proof.
  intros s tr i V A. destruct (alive_nth _ _ A) as (h & H & NG). unfold use. rewrite H. destruct h as [| |k]; [congruence| |].
  - split; [apply pinv_events; auto; simpl; intuition discriminate|]. split; [simpl; intuition discriminate | auto].
  - destruct (v_open _ _ V _ _ H) as (d & D & FR). rewrite D, FR. split; [apply pinv_events; auto; simpl; intuition discriminate|]. split; [simpl; intuition discriminate | left; eauto].
Qed.
Lemma open_name_inv : forall s tr i h name found s1 e, pinv s tr -> few s -> nth_error (p_handles s) i = Some h -> h <> HGone -> open_name s i name found = (s1, e) ->
  pinv s1 (tr ++ e) /\ exists h', p_handles s1 = set_nth i h' (p_handles s) /\ h' <> HGone.
Proof.
  intros s tr i h name found s1 e V F H NG E. unfold open_name in E. pose proof (nth_lt _ _ _ H) as IL.
  assert (SAME : set_nth i h (p_handles s) = p_handles s).
  { clear - H. revert i H. induction (p_handles s) as [|x l IH]; intros [|i] H; simpl in *; try discriminate; [injection H as ->; reflexivity | f_equal; auto]. }
  destruct (sm_find (p_map s) name) as [k|] eqn:SF.
  - rewrite H in E. destruct h as [| |k']; [congruence| |].
    + injection E as <- <-. rewrite app_nil_r, add_ref_handles. simpl. assert (SF' := SF). apply (v_map _ _ V) in SF'. destruct SF' as (d & D & _ & FR).
      split; [eapply open_inv; eauto|]. eexists; split; [reflexivity | discriminate].
    + injection E as <- <-. simpl. split; [|exists (HOpen k'); rewrite SAME; split; [reflexivity | discriminate]].
      apply pinv_events; auto; [|simpl; intuition discriminate]. apply pinv_handles; auto.
  - destruct found as [[base lds]|].
    + destruct (open_file_inv _ _ _ _ _ _ _ _ V F H NG E) as (V1 & (h' & X & Y & _) & _ & _). eauto.
    + injection E as <- <-. split; [apply pinv_events; auto; simpl; intuition discriminate|]. exists h. rewrite SAME. auto.
Qed.
Lemma static_inv : forall s tr name, pinv s tr -> sm_find (p_map s) name = None ->
  pinv (mkp (p_datas s ++ [mkd name true 0 false]) (sm_insert (p_map s) name (length (p_datas s))) (p_handles s) (p_hung s)) tr.
Proof.
  intros s tr base V NF. set (n := length (p_datas s)).
  assert (NN : forall k d, nth_error (p_datas s) k = Some d -> Nat.eqb k n = false) by (intros k d X; apply nth_lt in X; apply Nat.eqb_neq; unfold n; lia).
  assert (C0 : count n (p_handles s) = 0).
  { destruct (count n (p_handles s)) eqn:E; [reflexivity|]. destruct (count_pos n (p_handles s)) as [j X]; [lia|]. destruct (v_open _ _ V _ _ X) as (d & D & _). apply NN in D. rewrite Nat.eqb_refl in D. discriminate. }
  assert (NL : nth_error (p_datas s) n = None) by (apply nth_error_None; unfold n; lia).
  constructor; simpl; fold n.
  - intros k d X. rewrite nth_none_app in X. fold n in X. destruct (Nat.eqb_spec k n) as [->|N]; [injection X as <-; simpl; lia|]. exact (v_refs _ _ V _ _ X).
  - intros j k X. rewrite nth_none_app. fold n. destruct (v_open _ _ V _ _ X) as (d & D & FR). rewrite (NN _ _ D). eauto.
  - apply sm_insert_sorted. exact (v_sorted _ _ V).
  - intros name k. rewrite sm_find_insert by exact (v_sorted _ _ V). rewrite nth_none_app. fold n. destruct (str_eqb base name) eqn:SE.
    + apply str_eqb_eq in SE. subst name. rewrite NF. split.
      * intros X. injection X as <-. rewrite Nat.eqb_refl. eexists; split; [reflexivity | auto].
      * intros (d & D & NM & FR). destruct (Nat.eqb_spec k n) as [->|N]; [reflexivity|]. assert (X : sm_find (p_map s) base = Some k) by (apply (v_map _ _ V); eauto). congruence.
    + rewrite (v_map _ _ V). split; intros (d & D & NM & FR).
      * rewrite (NN _ _ D). eauto.
      * destruct (Nat.eqb_spec k n) as [->|N]; [injection D as <-; simpl in NM; subst name; rewrite str_eqb_refl in SE; discriminate | eauto].
  - intros k d X FR ST. rewrite nth_none_app in X. fold n in X. destruct (Nat.eqb_spec k n) as [->|N]; [injection X as <-; discriminate|]. exact (v_used _ _ V _ _ X FR ST).
  - intros k d X FR. rewrite nth_none_app in X. fold n in X. destruct (Nat.eqb_spec k n) as [->|N]; [injection X as <-; discriminate | eapply v_dead; eauto].
  - intros k. rewrite (v_load _ _ V), nth_none_app. fold n. split; intros (d & D & ST).
    + rewrite (NN _ _ D). eauto.
    + destruct (Nat.eqb_spec k n) as [->|N]; [injection D as <-; discriminate | eauto].
  - intros k. rewrite (v_unload _ _ V), nth_none_app. fold n. split; intros (d & D & ST).
    + rewrite (NN _ _ D). eauto.
    + destruct (Nat.eqb_spec k n) as [->|N]; [injection D as <-; discriminate | eauto].
  - exact (v_nodup _ _ V).
  - exact (v_good _ _ V).
Qed.

Lemma release_len : forall s i, length (p_handles (fst (release_data s i))) = length (p_handles s).
Proof.
  intros. unfold release_data. destruct (nth_error (p_handles s) i) as [[| |k]|]; try reflexivity. destruct (nth_error (p_datas s) k) as [d|]; [|reflexivity].
  destruct (d_freed d); [apply set_nth_length|]. destruct (_ && _); apply set_nth_length.
Qed.
Lemma grab_len : forall s i j, length (p_handles (fst (grab_data s i j))) = length (p_handles s).
Proof.
  intros. unfold grab_data. pose proof (release_len s i) as R. destruct (release_data s i) as [s1 e]. simpl in R. rewrite <- R. destruct (nth_error (p_handles s1) j) as [[| |k]|]; simpl; rewrite ?add_ref_handles; apply set_nth_length.
Qed.
Lemma open_file_len : forall s i b l, length (p_handles (fst (open_file s i b l))) = length (p_handles s).
Proof.
  intros. unfold open_file. pose proof (release_len s i) as R. destruct (release_data s i) as [s1 e]. simpl in R. rewrite <- R. destruct (sm_find _ _); [|destruct l]; simpl; rewrite ?add_ref_handles; simpl; rewrite ?set_nth_length; reflexivity.
Qed.
Lemma open_name_len : forall s i n f, length (p_handles (fst (open_name s i n f))) = length (p_handles s).
Proof.
  intros. unfold open_name. destruct (sm_find _ _) as [k|].
  - destruct (nth_error (p_handles s) i) as [[| |k']|]; simpl; rewrite ?add_ref_handles; simpl; rewrite ?set_nth_length; reflexivity.
  - destruct f as [[b l]|]; [apply open_file_len | reflexivity].
Qed.
Lemma few_le : forall s s1, few s1 -> length (p_handles s) <= length (p_handles s1) -> few s.
Proof. unfold few. intros. lia. Qed.
Lemma p_step_len : forall s o s1 e, p_step s o = Some (s1, e) -> length (p_handles s) <= length (p_handles s1).
Proof.
  intros s o s1 e E. unfold p_step in E. destruct (p_hung s); [discriminate|].
  destruct o as [|j|i j|i|i|i|i name found|i base lds|name].
  - injection E as <- <-. simpl. rewrite app_length. lia.
  - destruct (alive s j); [|discriminate]. injection E as E. apply (f_equal fst) in E. simpl in E. rewrite <- E, grab_len. simpl. rewrite app_length. lia.
  - destruct (alive s i && alive s j); [|discriminate]. injection E as E. apply (f_equal fst) in E. simpl in E. rewrite <- E, grab_len. lia.
  - destruct (alive s i); [|discriminate]. injection E as E. apply (f_equal fst) in E. simpl in E. rewrite <- E, release_len. lia.
  - destruct (alive s i); [|discriminate]. pose proof (release_len s i) as R. destruct (release_data s i) as [s0 e0]. injection E as <- <-. simpl in *. rewrite set_nth_length. lia.
  - destruct (alive s i); [|discriminate]. injection E as <- <-. lia.
  - destruct (alive s i); [|discriminate]. injection E as E. apply (f_equal fst) in E. simpl in E. rewrite <- E, open_name_len. lia.
  - destruct (alive s i); [|discriminate]. injection E as E. apply (f_equal fst) in E. simpl in E. rewrite <- E, open_file_len. lia.
  - destruct (sm_find _ _); injection E as <- <-; simpl; lia.
Qed.
Lemma p_step_inv : forall s o s1 e tr, (few s -> pinv s tr) -> p_step s o = Some (s1, e) -> few s1 -> pinv s1 (tr ++ e).
Proof.
  intros s o s1 e tr V0 E F1. pose proof (p_step_len _ _ _ _ E) as LE. assert (F : few s) by (eapply few_le; eauto). specialize (V0 F). rename V0 into V.
  unfold p_step in E. destruct (p_hung s) eqn:HU; [discriminate|].
  destruct o as [|j|i j|i|i|i|i name found|i base lds|name].
  - injection E as <- <-. rewrite app_nil_r. apply pinv_handles; [exact V|]. intros k. rewrite count_app. unfold count. simpl. lia.
  - destruct (alive s j) eqn:A; [|discriminate]. injection E as E. destruct (alive_nth _ _ A) as (h & H & NG).
    assert (V1 : pinv (mkp (p_datas s) (p_map s) (p_handles s ++ [HClosed]) false) tr) by (apply pinv_handles; [exact V|]; intros k; rewrite count_app; unfold count; simpl; lia).
    refine (proj1 (grab_inv _ _ _ _ HClosed h _ _ V1 _ _ _ _ NG E)).
    + apply (few_le _ s1 F1). apply (f_equal fst) in E. simpl in E. rewrite <- E, grab_len. simpl. lia.
    + simpl. rewrite nth_none_app, Nat.eqb_refl. reflexivity.
    + discriminate.
    + simpl. apply nth_app_old. exact H.
  - destruct (alive s i) eqn:A; [|discriminate]. destruct (alive s j) eqn:B; [|discriminate]. injection E as E. destruct (alive_nth _ _ A) as (h & H & NG). destruct (alive_nth _ _ B) as (h2 & H2 & NG2).
    exact (proj1 (grab_inv _ _ _ _ _ _ _ _ V F H NG H2 NG2 E)).
  - destruct (alive s i) eqn:A; [|discriminate]. injection E as E. destruct (alive_nth _ _ A) as (h & H & NG). exact (proj1 (release_inv _ _ _ _ _ _ V F H NG E)).
  - destruct (alive s i) eqn:A; [|discriminate]. destruct (release_data s i) as [s0 e0] eqn:R. injection E as <- <-. destruct (alive_nth _ _ A) as (h & H & NG). destruct (release_inv _ _ _ _ _ _ V F H NG R) as (V1 & HS & _).
    apply pinv_handles; [exact V1|]. intros k. apply (count_closed _ _ HClosed); auto. rewrite HS. apply set_nth_same. exact (nth_lt _ _ _ H).
  - destruct (alive s i) eqn:A; [|discriminate]. injection E as <- <-. exact (proj1 (use_inv _ _ _ V A)).
  - destruct (alive s i) eqn:A; [|discriminate]. injection E as E. destruct (alive_nth _ _ A) as (h & H & NG). exact (proj1 (open_name_inv _ _ _ _ _ _ _ _ V F H NG E)).
  - destruct (alive s i) eqn:A; [|discriminate]. injection E as E. destruct (alive_nth _ _ A) as (h & H & NG). exact (proj1 (open_file_inv _ _ _ _ _ _ _ _ V F H NG E)).
  - destruct (sm_find (p_map s) name) eqn:SF; injection E as <- <-; rewrite app_nil_r; [exact V|]; pose proof (static_inv _ _ name V SF) as X; rewrite HU in X; exact X.
Qed.
Lemma pinv_init : forall hs, (forall h, In h hs -> h = HClosed) -> pinv (mkp [] [] hs false) [].
Proof.
  intros hs C. constructor; simpl; try (intros; destruct k; discriminate); auto; try tauto.
  - intros i k X. apply nth_error_In in X. apply C in X. discriminate.
  - intros name k. split; [discriminate|]. intros (d & D & _). destruct k; discriminate.
  - intros k. split; [tauto|]. intros (d & D & _). destruct k; discriminate.
  - intros k. split; [tauto|]. intros (d & D & _). destruct k; discriminate.
  - split; constructor.
Qed.
Theorem p_run_inv : forall ops s tr, run p_step p_init ops = Some (s, tr) -> few s -> pinv s tr.
Proof.
  intros ops s tr. apply (run_ind p_step (fun s tr => few s -> pinv s tr)).
  - intros _. apply pinv_init. intros h [].
  - intros. eapply p_step_inv; eauto.
Qed.
