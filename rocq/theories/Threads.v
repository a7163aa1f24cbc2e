(** Lists of threads, each with the stack of what it has to do (innermost first). No definition here models code. *)
From Coq Require Import List Bool Lia PeanoNat.
Import ListNotations.

Fixpoint set_nth {A} (i : nat) (x : A) (l : list A) : list A :=
  match l, i with
  | [], _ => []
  | _ :: l', O => x :: l'
  | y :: l', S i' => y :: set_nth i' x l'
  end.
Lemma set_nth_same {A} : forall i (x : A) l, i < length l -> nth_error (set_nth i x l) i = Some x.
Proof. induction i as [|i IH]; intros x [|y l] H; simpl in *; try lia; [reflexivity | apply IH; lia]. Qed.
Lemma set_nth_other {A} : forall i j (x : A) l, i <> j -> nth_error (set_nth i x l) j = nth_error l j.
Proof. induction i as [|i IH]; intros [|j] x [|y l] H; simpl; try reflexivity; try congruence. apply IH. congruence. Qed.
Lemma set_nth_length {A} : forall i (x : A) l, length (set_nth i x l) = length l.
Proof. induction i as [|i IH]; intros x [|y l]; simpl; congruence. Qed.
Lemma set_nth_cases {A} : forall i j (x y : A) l, nth_error (set_nth i x l) j = Some y -> (j = i /\ y = x /\ i < length l) \/ (j <> i /\ nth_error l j = Some y).
Proof.
  intros i j x y l H. destruct (Nat.eq_dec j i) as [->|N].
  - left. assert (i < length l) by (rewrite <- (set_nth_length i x l); apply nth_error_Some; congruence).
    rewrite set_nth_same in H by assumption. injection H as <-. auto.
  - right. rewrite set_nth_other in H by congruence. auto.
Qed.
Lemma nth_lt {A} : forall (l : list A) i x, nth_error l i = Some x -> i < length l.
Proof. intros l i x H. apply nth_error_Some. congruence. Qed.
Lemma nth_snoc {A} : forall (l : list A) x j y, nth_error (l ++ [x]) j = Some y -> nth_error l j = Some y \/ (j = length l /\ y = x).
Proof.
  intros l x j y H. destruct (Nat.lt_ge_cases j (length l)) as [L|L].
  - rewrite nth_error_app1 in H by exact L. auto.
  - rewrite nth_error_app2 in H by exact L. right. destruct (j - length l) as [|k] eqn:E; [injection H as <-; split; [lia | reflexivity] | destruct k; discriminate].
Qed.
Lemma nth_app_old {A} : forall (l m : list A) j y, nth_error l j = Some y -> nth_error (l ++ m) j = Some y.
Proof. intros l m j y H. rewrite nth_error_app1; [exact H | apply (nth_lt _ _ _ H)]. Qed.
Lemma set_nth_twice {A} : forall i (x y : A) l, set_nth i x (set_nth i y l) = set_nth i x l.
Proof. induction i as [|i IH]; intros x y [|z l]; simpl; congruence. Qed.
