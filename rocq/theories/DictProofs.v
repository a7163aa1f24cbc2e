(** Dictionary proofs. *)
From Coq Require Import String ZArith List Bool Lia Permutation.
From Verif Require Import Base FormModel DictModel HttpModel HttpSpec HttpBody DictSpec.
Import ListNotations.

(** a caller running a history of operations; [pos] may depend on anything *)
Definition do_op (pos : dpos) (d : dict) (o : dict_op) : dict :=
  match o with
  | OpAdd n v => d_insert pos d (n, v)
  | OpChange n v => d_change pos d n v
  | OpDelete n => d_delete d n
  end.
Definition do_ops (pos : dpos) (d : dict) (l : list dict_op) : dict := fold_left (do_op pos) l d.

Lemma same_name_true a b : same_name a b = true <-> map ascii_low a = map ascii_low b.
Proof. unfold same_name. destruct (list_eq_dec _ _ _); split; congruence. Qed.
Lemma same_name_refl a : same_name a a = true.
Proof. apply same_name_true; auto. Qed.
Lemma same_name_sym a b : same_name a b = same_name b a.
Proof. unfold same_name. destruct (list_eq_dec _ (map ascii_low a) _), (list_eq_dec _ (map ascii_low b) _); congruence. Qed.
Lemma same_name_trans a b c : same_name a b = true -> same_name b c = same_name a c.
Proof. rewrite same_name_true. intros E. unfold same_name. rewrite E. reflexivity. Qed.

Lemma values_app n a b : values_of n (a ++ b) = values_of n a ++ values_of n b.
Proof. unfold values_of. rewrite filter_app, map_app. reflexivity. Qed.
Lemma values_cons n p l : values_of n (p :: l) = if same_name (fst p) n then snd p :: values_of n l else values_of n l.
Proof. unfold values_of. cbn [filter]. destruct (same_name (fst p) n); reflexivity. Qed.
Lemma values_insert pos d k v n :
  Permutation (values_of n (d_insert pos d (k, v))) (if same_name k n then values_of n d ++ [v] else values_of n d).
Proof.
  unfold d_insert. set (i := pos d (k, v)). rewrite values_app, values_cons. cbn [fst snd].
  assert (values_of n d = values_of n (firstn i d) ++ values_of n (skipn i d)) as -> by (rewrite <- values_app, firstn_skipn; auto).
  destruct (same_name k n); auto. rewrite <- app_assoc. apply Permutation_app_head. apply Permutation_cons_append.
Qed.
Lemma values_erase d k n : values_of n (d_erase d k) = if same_name k n then [] else values_of n d.
Proof.
  induction d as [|p d IH]; [destruct (same_name k n); reflexivity|]. unfold d_erase in *. cbn [filter]. rewrite same_name_match.
  destruct (same_name (fst p) k) eqn:E; cbn [negb].
  - rewrite IH, values_cons. rewrite (same_name_trans _ _ n E). destruct (same_name (fst p) n); reflexivity.
  - rewrite !values_cons, IH. destruct (same_name (fst p) n) eqn:E2; auto.
    destruct (same_name k n) eqn:E3; auto. rewrite same_name_sym in E3. rewrite same_name_true in E2, E3.
    assert (same_name (fst p) k = true) by (apply same_name_true; congruence). congruence.
Qed.
Lemma has_values d k : d_has d k = negb (match values_of k d with [] => true | _ => false end).
Proof.
  unfold d_has, d_find. induction d as [|p d IH]; [reflexivity|]. cbn [find]. rewrite values_cons, same_name_match.
  destruct (same_name (fst p) k); auto.
Qed.
Lemma find_values d k : d_find d k = match values_of k d with [] => None | v :: _ => Some v end.
Proof.
  unfold d_find. induction d as [|p d IH]; [reflexivity|]. cbn [find]. rewrite values_cons, same_name_match.
  destruct (same_name (fst p) k); auto.
Qed.
Lemma values_change_first d k v n : d_has d k = true ->
  values_of n (d_change_first d k v) = if same_name k n then [v] else values_of n d.
Proof.
  induction d as [|p d IH]; [discriminate|]. intros H. cbn [d_change_first]. rewrite same_name_match.
  destruct (same_name (fst p) k) eqn:E.
  - rewrite !values_cons. cbn [fst snd]. rewrite values_erase. rewrite <- (same_name_trans _ _ n E). destruct (same_name k n); auto.
  - assert (d_has d k = true) as H' by (revert H; unfold d_has, d_find; cbn [find]; rewrite same_name_match, E; auto).
    rewrite !values_cons, IH by auto. destruct (same_name (fst p) n) eqn:E2; auto.
    destruct (same_name k n) eqn:E3; auto. rewrite same_name_sym in E3. rewrite same_name_true in E2, E3.
    assert (same_name (fst p) k = true) by (apply same_name_true; congruence). congruence.
Qed.

Lemma do_op_values pos d o n vs : Permutation (values_of n d) vs ->
  Permutation (values_of n (do_op pos d o)) (values_after n vs [o]).
Proof.
  intros P. destruct o as [k v|k v|k]; cbn [do_op values_after].
  - etransitivity; [apply values_insert|]. destruct (same_name k n); auto. apply Permutation_app_tail; auto.
  - unfold d_change. destruct (d_has d k) eqn:H.
    + rewrite values_change_first by auto. destruct (same_name k n); auto.
    + etransitivity; [apply values_insert|]. destruct (same_name k n) eqn:E; auto.
      rewrite has_values in H. assert (values_of n d = values_of k d) as ->.
      { unfold values_of. f_equal. apply filter_ext. intros p. rewrite (same_name_sym _ n), (same_name_sym _ k). rewrite <- (same_name_trans _ _ (fst p) E). auto. }
      destruct (values_of k d); [auto|discriminate].
  - unfold d_delete. rewrite values_erase. destruct (same_name k n); auto.
Qed.

Lemma values_after_cons n vs o ops : values_after n vs (o :: ops) = values_after n (values_after n vs [o]) ops.
Proof. destruct o; reflexivity. Qed.

Lemma do_ops_values pos n ops : forall d vs, Permutation (values_of n d) vs ->
  Permutation (values_of n (do_ops pos d ops)) (values_after n vs ops).
Proof.
  induction ops as [|o ops IH]; intros d vs P; [exact P|]. rewrite values_after_cons. apply IH. apply do_op_values; auto.
Qed.

Lemma dict_history pos ops name :
  let d := do_ops pos [] ops in let vs := values_after name [] ops in
  Permutation (values_of name d) vs
  /\ d_has d name = (match vs with [] => false | _ => true end)
  /\ (vs = [] -> d_get d name = []) /\ (vs <> [] -> In (d_get d name) vs)
  /\ Permutation (map snd (d_range d name)) vs.
Proof.
  cbv zeta. assert (Permutation (values_of name (do_ops pos [] ops)) (values_after name [] ops)) as P by (apply do_ops_values; auto).
  split; [exact P|]. rewrite has_values. unfold d_get. rewrite find_values.
  assert (map snd (d_range (do_ops pos [] ops) name) = values_of name (do_ops pos [] ops)) as R.
  { unfold d_range, values_of. f_equal. apply filter_ext. intros. apply same_name_match. }
  rewrite R. split; [|split; [|split; [|exact P]]].
  - destruct (values_of name _) eqn:E, (values_after name [] ops) eqn:F; auto; apply Permutation_length in P; discriminate.
  - intros E. rewrite E in P. apply Permutation_sym, Permutation_nil in P. rewrite P. reflexivity.
  - intros E. destruct (values_of name (do_ops pos [] ops)) eqn:F.
    + apply Permutation_nil in P. congruence.
    + eapply Permutation_in; [exact P|]. left; auto.
Qed.

(** after changing, any capitalisation reads the new value *)
Lemma dict_change pos ops k v name : same_name k name = true -> d_get (do_ops pos [] (ops ++ [OpChange k v])) name = v
  /\ d_range (do_ops pos [] (ops ++ [OpChange k v])) name <> []  /\ length (d_range (do_ops pos [] (ops ++ [OpChange k v])) name) = 1%nat.
Proof.
  intros E. destruct (dict_history pos (ops ++ [OpChange k v]) name) as (A & _ & _ & C & D).
  assert (forall vs, values_after name vs (ops ++ [OpChange k v]) = [v]) as VA.
  { clear -E. induction ops as [|o ops IH]; intros vs; [cbn; rewrite E; auto|]. cbn [app]. rewrite values_after_cons. apply IH. }
  rewrite VA in *. specialize (C ltac:(discriminate)). destruct C as [C|[]]. split; auto.
  pose proof (Permutation_length D) as L. rewrite map_length in L. cbn in L. split; auto. intros X. rewrite X in L. discriminate.
Qed.
