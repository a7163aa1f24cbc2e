(** [std::map] and [std::set] with [std::string] keys, as lists sorted by key. *)
From Coq Require Import String ZArith List Bool Lia.
From Verif Require Import Base.
Import ListNotations.

(** [std::string::operator<]: bytes are compared as unsigned characters *)
Fixpoint lex_ltb (a b : list Z) : bool :=
  match a, b with
  | _, [] => false
  | [], _ :: _ => true
  | x :: a', y :: b' => (x <? y) || ((x =? y) && lex_ltb a' b')
  end.

Definition smap (A : Type) := list (list Z * A).
Section Ops.
Context {A : Type}.
(** [find] *)
Definition sm_find (m : smap A) (k : list Z) : option A :=
  match find (fun e => str_eqb (fst e) k) m with Some e => Some (snd e) | None => None end.
(** [insert]: an entry that is already there stays *)
Fixpoint sm_insert (m : smap A) (k : list Z) (v : A) : smap A :=
  match m with
  | [] => [(k, v)]
  | e :: m' => if lex_ltb k (fst e) then (k, v) :: m else if str_eqb (fst e) k then m else e :: sm_insert m' k v
  end.
(** assignment through an iterator or a reference to the entry of [k] *)
Definition sm_set (m : smap A) (k : list Z) (v : A) : smap A := map (fun e => if str_eqb (fst e) k then (k, v) else e) m.
(** [erase] by key *)
Definition sm_erase (m : smap A) (k : list Z) : smap A := filter (fun e => negb (str_eqb (fst e) k)) m.
(** the entries before [upper_bound(k)], the last one first: what a loop from there down to [begin()] visits *)
Fixpoint sm_upto (m : smap A) (k : list Z) : smap A :=
  match m with
  | [] => []
  | e :: m' => if lex_ltb k (fst e) then [] else e :: sm_upto m' k
  end.
Definition sm_down (m : smap A) (k : list Z) : smap A := rev (sm_upto m k).
End Ops.

Lemma lex_irrefl a : lex_ltb a a = false.
Proof. induction a as [|x a IH]; cbn; auto. rewrite Z.ltb_irrefl, Z.eqb_refl. auto. Qed.
Lemma lex_trans a : forall b c, lex_ltb a b = true -> lex_ltb b c = true -> lex_ltb a c = true.
Proof.
  induction a as [|x a IH]; intros [|y b] [|z c]; cbn; auto; try discriminate.
  intros H1 H2. apply orb_prop in H1 as [H1|H1]; apply orb_prop in H2 as [H2|H2];
    try (apply andb_prop in H1 as [H1 H1']); try (apply andb_prop in H2 as [H2 H2']); apply orb_true_intro; try (left; lia).
  right. apply andb_true_intro. split; [lia|]. eapply IH; eauto.
Qed.
Lemma lex_total a : forall b, lex_ltb a b = false -> lex_ltb b a = false -> a = b.
Proof.
  induction a as [|x a IH]; intros [|y b]; cbn; auto; try discriminate.
  intros H1 H2. apply orb_false_elim in H1 as [H1 H1']. apply orb_false_elim in H2 as [H2 H2'].
  assert (x = y) by lia. subst. rewrite Z.eqb_refl in *. cbn in *. f_equal. auto.
Qed.
Lemma lex_asym a b : lex_ltb a b = true -> lex_ltb b a = false.
Proof. intros H. destruct (lex_ltb b a) eqn:E; auto. pose proof (lex_trans _ _ _ H E) as X. rewrite lex_irrefl in X. discriminate. Qed.
(** a prefix is not greater; a proper one is smaller *)
Lemma lex_prefix a t : lex_ltb (a ++ t) a = false.
Proof. induction a as [|x a IH]; cbn; [destruct t; auto|]. rewrite Z.ltb_irrefl, Z.eqb_refl. auto. Qed.
Lemma lex_prefix_lt a c t : lex_ltb a (a ++ c :: t) = true.
Proof. induction a as [|x a IH]; cbn; auto. rewrite Z.ltb_irrefl, Z.eqb_refl. auto. Qed.

Section Facts.
Context {A : Type}.
Implicit Types (m : smap A) (k : list Z) (v : A).

(** strictly increasing keys *)
Fixpoint sorted m : Prop :=
  match m with
  | [] => True
  | e :: m' => (forall e', In e' m' -> lex_ltb (fst e) (fst e') = true) /\ sorted m'
  end.

Lemma sm_find_in m k v : sorted m -> (sm_find m k = Some v <-> In (k, v) m).
Proof.
  unfold sm_find. induction m as [|[k0 v0] m IH]; intros S; cbn [find fst snd]; [split; [discriminate|contradiction]|].
  destruct S as [S1 S2]. destruct (str_eqb k0 k) eqn:E.
  - apply str_eqb_eq in E. subst k0. cbn. split.
    + intros H. injection H as ->. left; auto.
    + intros [H|H]; [injection H as ->; auto|]. apply S1 in H. cbn in H. rewrite lex_irrefl in H. discriminate.
  - rewrite (IH S2). split; [right; auto|]. intros [H|H]; auto. injection H as -> ->. rewrite str_eqb_refl in E. discriminate.
Qed.
Lemma sm_insert_in m k v e : In e (sm_insert m k v) -> e = (k, v) \/ In e m.
Proof.
  induction m as [|e0 m IH]; cbn [sm_insert]; [intros [H|[]]; auto|].
  destruct (lex_ltb k (fst e0)); [intros [H|H]; auto|]. destruct (str_eqb (fst e0) k); [auto|].
  intros [H|H]; [right; left; auto|]. destruct (IH H); auto. right; right; auto.
Qed.
Lemma sm_insert_sorted m k v : sorted m -> sorted (sm_insert m k v).
Proof.
  induction m as [|e0 m IH]; cbn [sm_insert]; [cbn; tauto|]. intros [S1 S2].
  destruct (lex_ltb k (fst e0)) eqn:E1.
  - cbn [sorted]. split; [|split; auto]. intros e' [<-|H]; [exact E1|]. eapply lex_trans; [exact E1|]. apply S1; auto.
  - destruct (str_eqb (fst e0) k) eqn:E2; [split; auto|]. cbn [sorted]. split; [|auto].
    intros e' H. apply sm_insert_in in H as [->|H]; [|auto]. cbn [fst].
    destruct (lex_ltb (fst e0) k) eqn:E3; auto. apply str_eqb_neq in E2. exfalso. apply E2. apply lex_total; auto.
Qed.
Lemma sm_find_nil k : sm_find (@nil (list Z * A)) k = None. Proof. reflexivity. Qed.
Lemma sm_find_cons k0 v0 m k : sm_find ((k0, v0) :: m) k = if str_eqb k0 k then Some v0 else sm_find m k.
Proof. unfold sm_find. cbn. destruct (str_eqb k0 k); auto. Qed.
Lemma sm_find_insert m k v k' : sorted m ->
  sm_find (sm_insert m k v) k' = if str_eqb k k' then (match sm_find m k with Some w => Some w | None => Some v end) else sm_find m k'.
Proof.
  induction m as [|[k0 v0] m IH]; intros S; cbn [sm_insert fst].
  - rewrite sm_find_cons. cbn. destruct (str_eqb k k'); auto.
  - destruct S as [S1 S2]. destruct (lex_ltb k k0) eqn:E1.
    + rewrite !sm_find_cons. destruct (str_eqb k k') eqn:E; auto.
      assert (sm_find ((k0, v0) :: m) k = None) as X.
      { destruct (sm_find ((k0, v0) :: m) k) eqn:F; auto. apply sm_find_in in F; [|split; auto]. destruct F as [F|F].
        - injection F as -> ->. rewrite lex_irrefl in E1. discriminate.
        - pose proof (lex_trans _ _ _ E1 (S1 _ F)) as L. cbn in L. rewrite lex_irrefl in L. discriminate. }
      rewrite sm_find_cons in X. rewrite X. reflexivity.
    + rewrite !sm_find_cons. destruct (str_eqb k0 k) eqn:E2.
      * apply str_eqb_eq in E2. subst. rewrite sm_find_cons. destruct (str_eqb k k'); auto.
      * rewrite sm_find_cons. rewrite IH by auto. destruct (str_eqb k0 k') eqn:E3; auto.
        apply str_eqb_eq in E3. subst. destruct (str_eqb k k') eqn:E4; auto. apply str_eqb_eq in E4. subst. rewrite str_eqb_refl in E2. discriminate.
Qed.
Lemma sm_erase_sorted m k : sorted m -> sorted (sm_erase m k).
Proof.
  unfold sm_erase. induction m as [|e m IH]; cbn [filter]; auto. intros [S1 S2]. destruct (negb _); auto. split; auto.
  intros e' H. apply filter_In in H as [H _]. auto.
Qed.
Lemma sm_find_erase m k k' : sm_find (sm_erase m k) k' = if str_eqb k k' then None else sm_find m k'.
Proof.
  induction m as [|[k0 v0] m IH]; [destruct (str_eqb k k'); reflexivity|]. unfold sm_erase in *. cbn [filter fst]. destruct (str_eqb k0 k) eqn:E; cbn [negb].
  - apply str_eqb_eq in E. subst. rewrite IH, sm_find_cons. destruct (str_eqb k k'); auto.
  - rewrite !sm_find_cons, IH. destruct (str_eqb k0 k') eqn:E2; auto. destruct (str_eqb k k') eqn:E3; auto.
    apply str_eqb_eq in E2, E3. subst. rewrite str_eqb_refl in E. discriminate.
Qed.
Lemma sm_set_keys m k v : map fst (sm_set m k v) = map fst m.
Proof.
  unfold sm_set. rewrite map_map. apply map_ext. intros [k0 v0]. cbn. destruct (str_eqb k0 k) eqn:E; auto. apply str_eqb_eq in E. subst. reflexivity.
Qed.
Lemma sorted_keys m m' : map fst m = map fst m' -> sorted m -> sorted m'.
Proof.
  revert m'. induction m as [|e m IH]; intros [|e' m']; cbn [map]; try discriminate; auto. intros H [S1 S2]. injection H as H1 H2. split; auto.
  intros e2 I. assert (In (fst e2) (map fst m)) as J by (rewrite H2; apply in_map; auto). apply in_map_iff in J as (e3 & J1 & J2). rewrite <- J1, <- H1. auto.
Qed.
Lemma sm_set_sorted m k v : sorted m -> sorted (sm_set m k v).
Proof. apply sorted_keys. symmetry. apply sm_set_keys. Qed.
Lemma sm_find_set m k v k' : sm_find (sm_set m k v) k' = if str_eqb k k' then (match sm_find m k with Some _ => Some v | None => None end) else sm_find m k'.
Proof.
  induction m as [|[k0 v0] m IH]; [destruct (str_eqb k k'); reflexivity|]. unfold sm_set in *. cbn [map fst]. destruct (str_eqb k0 k) eqn:E.
  - apply str_eqb_eq in E. subst. rewrite !sm_find_cons, IH, str_eqb_refl. destruct (str_eqb k k'); auto.
  - rewrite !sm_find_cons, IH, E. destruct (str_eqb k0 k') eqn:E2; auto. destruct (str_eqb k k') eqn:E3; auto.
    apply str_eqb_eq in E2, E3. subst. rewrite str_eqb_refl in E. discriminate.
Qed.

Lemma sm_upto_in m k e : sorted m -> (In e (sm_upto m k) <-> In e m /\ lex_ltb k (fst e) = false).
Proof.
  induction m as [|e0 m IH]; cbn [sm_upto]; [cbn [In]; tauto|]. intros [S1 S2]. destruct (lex_ltb k (fst e0)) eqn:E.
  - split; [intros []|]. intros [[<-|H] L]; [congruence|]. rewrite (lex_trans _ _ _ E (S1 _ H)) in L. discriminate.
  - cbn [In]. rewrite (IH S2). split.
    + intros [<-|[H1 H2]]; auto.
    + intros [[H|H] L]; auto.
Qed.
Lemma sm_upto_sorted m k : sorted m -> sorted (sm_upto m k).
Proof.
  induction m as [|e0 m IH]; cbn [sm_upto]; auto. intros [S1 S2]. destruct (lex_ltb k (fst e0)); cbn [sorted]; auto. split; auto.
  intros e' H. apply sm_upto_in in H as [H _]; auto.
Qed.
Lemma sm_down_in m k e : sorted m -> (In e (sm_down m k) <-> In e m /\ lex_ltb k (fst e) = false).
Proof. intros S. unfold sm_down. rewrite <- in_rev. apply sm_upto_in; auto. Qed.
(** the loop downwards finds the greatest entry with a property *)
Lemma find_rev_sorted (f : list Z * A -> bool) m e : sorted m -> find f (rev m) = Some e ->
  In e m /\ f e = true /\ forall e', In e' m -> f e' = true -> e' = e \/ lex_ltb (fst e') (fst e) = true.
Proof.
  intros S H. pose proof (find_some _ _ H) as [H1 H2]. apply in_rev in H1. split; auto. split; auto.
  revert S H. induction m as [|e0 m IH]; [contradiction|]. intros [S1 S2] H e' I F. cbn [rev] in H.
  assert (find f (rev m ++ [e0]) = match find f (rev m) with Some x => Some x | None => find f [e0] end) as FA.
  { clear. induction (rev m) as [|x l IH]; cbn [find app]; auto. destruct (f x); auto. }
  rewrite FA in H. destruct (find f (rev m)) as [x|] eqn:FE.
  - injection H as ->. assert (In e m) as IE by (apply find_some in FE as [FE _]; apply in_rev in FE; auto).
    destruct I as [<-|I]; [right; auto|]. apply IH; auto.
  - cbn [find] in H. destruct (f e0) eqn:F0; [|discriminate]. injection H as <-. destruct I as [<-|I]; auto.
    exfalso. apply in_rev in I. pose proof (find_none _ _ FE _ I). congruence.
Qed.
End Facts.
