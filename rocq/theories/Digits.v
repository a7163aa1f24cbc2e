(** Printing and reading of natural numbers in a base ([boost::lexical_cast<std::string>], stream output
    with [std::hex], digit-accumulating readers). *)
From Coq Require Import String ZArith List Lia Bool.
From Coq Require Import ZifyBool ZifyNat.
From Verif Require Import Base.
Import ListNotations.

(** Digit values of [n], most significant first, no leading zeros (0 is a single digit). *)
Fixpoint digits_fuel (base : Z) (f : nat) (n : Z) (acc : list Z) : list Z :=
  match f with
  | O => acc
  | S f' => let acc' := n mod base :: acc in
            if n / base =? 0 then acc' else digits_fuel base f' (n / base) acc'
  end.
Definition digits (base n : Z) : list Z := digits_fuel base (S (Z.to_nat (Z.log2 n))) n [].

(** Value of a digit list. *)
Fixpoint undigits (base acc : Z) (l : list Z) : Z :=
  match l with [] => acc | d :: l' => undigits base (acc * base + d) l' end.

(** Characters of the digits 0-9a-f, as decimal and [std::hex] output prints them. *)
Definition digit_char (d : Z) : Z := if d <? 10 then 48 + d else 87 + d.
Definition print_dec (n : Z) : list Z := map digit_char (digits 10 n).
Definition print_hex (n : Z) : list Z := map digit_char (digits 16 n).

Lemma undigits_app base l m acc : undigits base acc (l ++ m) = undigits base (undigits base acc l) m.
Proof. revert acc; induction l; intros; simpl; auto. Qed.

Lemma undigits_digits_fuel base f : forall n acc, 2 <= base -> 0 <= n < 2 ^ Z.of_nat f -> (f > 0)%nat ->
  undigits base 0 (digits_fuel base f n acc) = undigits base n acc.
Proof.
  induction f as [|f IH]; intros n acc Hb Hn Hf; [lia|]. cbn [digits_fuel].
  destruct (n / base =? 0) eqn:E.
  - cbn [undigits]. f_equal. rewrite (Z.div_mod n base) at 2 by lia. lia.
  - assert (2 ^ Z.of_nat (S f) = 2 * 2 ^ Z.of_nat f) as P.
    { replace (Z.of_nat (S f)) with (Z.succ (Z.of_nat f)) by lia. apply Z.pow_succ_r. lia. }
    assert (n / base < 2 ^ Z.of_nat f).
    { apply Z.div_lt_upper_bound; [lia|]. assert (0 < 2 ^ Z.of_nat f) by (apply Z.pow_pos_nonneg; lia). nia. }
    assert (0 <= n / base) by (apply Z.div_pos; lia).
    rewrite IH; try lia.
    + cbn [undigits]. f_equal. rewrite (Z.div_mod n base) at 3 by lia. lia.
    + destruct f; [|lia]. simpl in *. lia.
Qed.

Lemma undigits_digits base n : 2 <= base -> 0 <= n -> undigits base 0 (digits base n) = n.
Proof.
  intros Hb Hn. unfold digits. rewrite undigits_digits_fuel; [reflexivity | lia | | lia].
  split; auto. destruct (Z.eq_dec n 0) as [->|].
  - simpl. lia.
  - replace (Z.of_nat (S (Z.to_nat (Z.log2 n)))) with (Z.succ (Z.log2 n)) by (pose proof (Z.log2_nonneg n); lia).
    apply Z.log2_spec. lia.
Qed.

Lemma digits_fuel_range base f : forall n acc, 2 <= base -> 0 <= n ->
  Forall (fun d => 0 <= d < base) acc -> Forall (fun d => 0 <= d < base) (digits_fuel base f n acc).
Proof.
  induction f as [|f IH]; intros n acc Hb Hn Ha; cbn [digits_fuel]; auto.
  assert (Forall (fun d => 0 <= d < base) (n mod base :: acc)) by (constructor; auto; apply Z.mod_pos_bound; lia).
  destruct (n / base =? 0); auto. apply IH; auto. apply Z.div_pos; lia.
Qed.
Lemma digits_range base n : 2 <= base -> 0 <= n -> Forall (fun d => 0 <= d < base) (digits base n).
Proof. intros. apply digits_fuel_range; auto. Qed.

Lemma digits_fuel_nonempty base f : forall n acc, (f > 0)%nat -> digits_fuel base f n acc <> [].
Proof.
  assert (forall f n acc, acc <> [] -> digits_fuel base f n acc <> []) as X.
  { clear. induction f as [|f IH]; intros; cbn [digits_fuel]; auto.
    destruct (_ =? 0); [discriminate|]. apply IH. discriminate. }
  intros n acc H. destruct f; [lia|]. cbn [digits_fuel]. destruct (_ =? 0); [discriminate|]. apply X. discriminate.
Qed.
Lemma digits_nonempty base n : digits base n <> [].
Proof. apply digits_fuel_nonempty. lia. Qed.

(** The number of digits is bounded by the size of the number. *)
Lemma digits_fuel_len base k : forall f n acc, 2 <= base -> 0 <= n < base ^ Z.of_nat (S k) ->
  zlen (digits_fuel base f n acc) <= zlen acc + Z.of_nat (S k).
Proof.
  induction k as [|k IH]; intros f n acc Hb Hn.
  - destruct f; cbn [digits_fuel]; [lia|].
    replace (base ^ Z.of_nat 1) with base in Hn by (simpl; lia). rewrite Z.div_small by lia.
    cbn [Z.eqb]. rewrite zlen_cons. lia.
  - destruct f; cbn [digits_fuel]; [lia|]. destruct (n / base =? 0); [rewrite zlen_cons; lia|].
    etransitivity; [apply IH; auto|rewrite zlen_cons; lia].
    replace (Z.of_nat (S (S k))) with (Z.succ (Z.of_nat (S k))) in Hn by lia.
    rewrite Z.pow_succ_r in Hn by lia. split; [apply Z.div_pos; lia|].
    apply Z.div_lt_upper_bound; lia.
Qed.
Lemma digits_len base k n : 2 <= base -> 0 <= n < base ^ Z.of_nat (S k) -> zlen (digits base n) <= Z.of_nat (S k).
Proof. intros. unfold digits. pose proof (digits_fuel_len base k (S (Z.to_nat (Z.log2 n))) n [] H H0). rewrite zlen_nil in H1. lia. Qed.

Lemma print_dec_digits n : 0 <= n -> Forall (fun c => 48 <= c <= 57) (print_dec n).
Proof.
  intros H. pose proof (digits_range 10 n ltac:(lia) H) as R. unfold print_dec.
  induction R; simpl; constructor; auto. unfold digit_char. destruct (x <? 10) eqn:E; lia.
Qed.
Lemma print_dec_nonempty n : print_dec n <> [].
Proof. unfold print_dec. pose proof (digits_nonempty 10 n). destruct (digits 10 n); [congruence | discriminate]. Qed.
Lemma print_dec_value n : 0 <= n -> undigits 10 0 (map (fun c => c - 48) (print_dec n)) = n.
Proof.
  intros H. unfold print_dec. rewrite map_map.
  rewrite (map_ext_in _ (fun d => d)).
  - rewrite map_id. apply undigits_digits; lia.
  - intros d Hd. pose proof (digits_range 10 n ltac:(lia) H) as R. rewrite Forall_forall in R. apply R in Hd.
    unfold digit_char. destruct (d <? 10) eqn:E; lia.
Qed.
Lemma print_hex_nonempty n : print_hex n <> [].
Proof. unfold print_hex. pose proof (digits_nonempty 16 n). destruct (digits 16 n); [congruence | discriminate]. Qed.
Definition is_lower_hex (c : Z) : bool := ((48 <=? c) && (c <=? 57)) || ((97 <=? c) && (c <=? 102)).
Lemma print_hex_digits n : 0 <= n -> Forall (fun c => is_lower_hex c = true) (print_hex n).
Proof.
  intros H. pose proof (digits_range 16 n ltac:(lia) H) as R. unfold print_hex.
  induction R; simpl; constructor; auto. unfold digit_char, is_lower_hex. destruct (x <? 10) eqn:E; lia.
Qed.
