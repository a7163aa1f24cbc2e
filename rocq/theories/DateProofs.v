(** Proofs about dates. *)
From Coq Require Import String ZArith List Bool Lia ZifyBool.
From Verif Require Import Base Digits AlgModel DateModel DateSpec.
Import ListNotations.

Definition shift (k : Z) (x : Z * Z * Z) : Z * Z * Z := let '(y, m, d) := x in (y + 400 * k, m, d).
Lemma civil_shift n k : civil (n + 146097 * k) = shift k (civil n).
Proof.
  unfold civil, shift. replace (n + 146097 * k + 719468) with (n + 719468 + k * 146097) by lia. rewrite Z.div_add, Z.mod_add by lia.
  set (doe := (n + 719468) mod 146097). set (era := (n + 719468) / 146097).
  set (yoe := (doe - doe / 1460 + doe / 36524 - doe / 146096) / 365). set (doy := doe - _). set (mp := _ / 153).
  set (m := if mp <? 10 then _ else _). destruct (m <=? 2); f_equal; f_equal; lia.
Qed.
Definition eq3 (a b : Z * Z * Z) : bool := let '(x, y, z) := a in let '(x', y', z') := b in (x =? x') && (y =? y') && (z =? z').
Definition validb (x : Z * Z * Z) : bool := let '(y, m, d) := x in (1 <=? m) && (m <=? 12) && (1 <=? d) && (d <=? month_days y m).
(** the days of 400 years, one after the other *)
Definition walk_day (s : bool * Z * (Z * Z * Z)) : bool * Z * (Z * Z * Z) :=
  let '(b, n, x) := s in let x' := civil (n + 1) in ((if b then if eq3 x' (next_day x) then validb x else false else false), n + 1, x').
Lemma walk_ok p : let '(b, n, x) := Pos.iter walk_day (true, 0, civil 0) p in
  n = Zpos p /\ x = civil n /\ (b = true -> forall k, 0 <= k < n -> eq3 (civil (k + 1)) (next_day (civil k)) = true /\ validb (civil k) = true).
Proof.
  induction p as [|p IH] using Pos.peano_ind.
  - cbn [Pos.iter]. unfold walk_day. change (0 + 1) with 1. split; [reflexivity|]. split; [reflexivity|]. intros B k K. assert (k = 0) as -> by lia. change (0 + 1) with 1.
    destruct (eq3 (civil 1) (next_day (civil 0))); [auto|discriminate].
  - rewrite Pos.iter_succ. destruct (Pos.iter walk_day (true, 0, civil 0) p) as [[b n] x]. destruct IH as (N & X & IH). cbn [walk_day]. split; [lia|]. split; [reflexivity|].
    intros B k K. destruct b; [|discriminate]. destruct (Z.eq_dec k n) as [->|]; [|apply IH; auto; lia]. rewrite X in B. destruct (eq3 (civil (n + 1)) (next_day (civil n))); [auto|discriminate].
Qed.
Lemma period : fst (fst (Pos.iter walk_day (true, 0, civil 0) 146097)) = true.
Proof. vm_compute. reflexivity. Qed.
Lemma leap_shift y k : leap (y + 400 * k) = leap y.
Proof.
  unfold leap. replace (y + 400 * k) with (y + (100 * k) * 4) by lia. rewrite Z.mod_add by lia. replace (y + 100 * k * 4) with (y + (4 * k) * 100) by lia. rewrite Z.mod_add by lia.
  replace (y + 4 * k * 100) with (y + k * 400) by lia. rewrite Z.mod_add by lia. reflexivity.
Qed.
Lemma month_shift y m k : month_days (y + 400 * k) m = month_days y m.
Proof. unfold month_days. rewrite leap_shift. reflexivity. Qed.
Lemma next_shift k x : next_day (shift k x) = shift k (next_day x).
Proof. destruct x as [[y m] d]. cbn [shift next_day]. rewrite month_shift. destruct (d <? month_days y m); [reflexivity|]. destruct (m <? 12); cbn [shift]; [reflexivity|]. f_equal. f_equal. lia. Qed.
Lemma eq3_eq a b : eq3 a b = true -> a = b.
Proof. destruct a as [[x y] z], b as [[x' y'] z']. cbn. rewrite !andb_true_iff, !Z.eqb_eq. intros [[-> ->] ->]. reflexivity. Qed.
Lemma civil_good n : civil (n + 1) = next_day (civil n) /\ valid (civil n).
Proof.
  set (r := n mod 146097). set (q := n / 146097). assert (N : n = r + 146097 * q) by (unfold r, q; pose proof (Z_div_mod_eq_full n 146097); lia).
  assert (R : 0 <= r < 146097) by (apply Z.mod_pos_bound; lia).
  pose proof (walk_ok 146097) as G. pose proof period as GP. destruct (Pos.iter walk_day (true, 0, civil 0) 146097) as [[b k] x]. cbn [fst] in GP. cbv beta iota in G. destruct G as (K & _ & G).
  destruct (G GP r ltac:(lia)) as [G1 G2]. apply eq3_eq in G1. clear G GP K.
  replace (n + 1) with (r + 1 + 146097 * q) by lia. rewrite N, !civil_shift, next_shift, G1. split; [reflexivity|].
  clear G1 N R. destruct (civil r) as [[y m] d]. cbn [shift valid validb] in *. rewrite month_shift. rewrite !andb_true_iff, !Z.leb_le in G2. lia.
Qed.
Lemma month_pos y m : 28 <= month_days y m <= 31.
Proof. unfold month_days. destruct (m =? 2); [destruct (leap y); lia|]. destruct (_ || _); lia. Qed.
Lemma next_inj a b : valid a -> valid b -> next_day a = next_day b -> a = b.
Proof.
  destruct a as [[y m] d], b as [[y' m'] d']. cbn [valid next_day]. intros (A1 & A2) (B1 & B2).
  destruct (d <? month_days y m) eqn:D, (d' <? month_days y' m') eqn:D'; try apply Z.ltb_lt in D; try apply Z.ltb_lt in D'; try apply Z.ltb_ge in D; try apply Z.ltb_ge in D';
    try destruct (m <? 12) eqn:M; try destruct (m' <? 12) eqn:M'; try apply Z.ltb_lt in M; try apply Z.ltb_lt in M'; try apply Z.ltb_ge in M; try apply Z.ltb_ge in M'; intros E; pose proof (f_equal (fun x => fst (fst x)) E) as E1; pose proof (f_equal (fun x => snd (fst x)) E) as E2; pose proof (f_equal snd E) as E3; cbn in E1, E2, E3; clear E;
    try (exfalso; lia).
  all: assert (y' = y) by lia; assert (m' = m) by lia; subst; f_equal; lia.
Qed.
Theorem day_civil n : day n (civil n).
Proof.
  assert (Z0 : day 0 (civil 0)) by (replace (civil 0) with (1970, 1, 1) by (vm_compute; reflexivity); constructor).
  assert (P : forall k, day (Z.of_nat k) (civil (Z.of_nat k)) /\ day (- Z.of_nat k) (civil (- Z.of_nat k))).
  { induction k as [|k [IH1 IH2]]; [split; exact Z0|]. split.
    - replace (Z.of_nat (S k)) with (Z.of_nat k + 1) by lia. destruct (civil_good (Z.of_nat k)) as [-> _]. constructor. exact IH1.
    - apply day_before; [apply civil_good|]. destruct (civil_good (- Z.of_nat (S k))) as [<- _]. replace (- Z.of_nat (S k) + 1) with (- Z.of_nat k) by lia. exact IH2. }
  destruct (Z_lt_le_dec n 0); [replace n with (- Z.of_nat (Z.to_nat (- n))) by lia|replace n with (Z.of_nat (Z.to_nat n)) by lia]; apply P.
Qed.
Theorem civil_day n x : day n x -> x = civil n.
Proof.
  induction 1 as [|n x D IH|n x V D IH]; [vm_compute; reflexivity| |].
  - destruct (civil_good n) as [-> _]. rewrite IH. reflexivity.
  - destruct (civil_good n) as [E W]. rewrite E in IH. apply next_inj; auto.
Qed.
Lemma day_inj n n' x : day n x -> day n' x -> n = n'.
Proof.
  intros A B. apply civil_day in A. apply civil_day in B. rewrite A in B. clear A.
  (** later days have later dates *)
  assert (L : forall a k, civil a <> civil (a + Z.of_nat (S k))).
  { assert (LE : forall a k, let '(y, m, d) := civil a in let '(y', m', d') := civil (a + Z.of_nat (S k)) in 372 * y + 31 * m + d < 372 * y' + 31 * m' + d').
    { intros a k. revert a. induction k as [|k IH]; intros a.
      - destruct (civil_good a) as [E V]. replace (a + Z.of_nat 1) with (a + 1) by lia. rewrite E. destruct (civil a) as [[y m] d]. cbn [valid next_day] in V |- *. destruct (d <? month_days y m) eqn:Q; [lia|].
        pose proof (month_pos y m). destruct (m <? 12) eqn:M; lia.
      - specialize (IH a). destruct (civil a) as [[y m] d]. destruct (civil_good (a + Z.of_nat (S k))) as [E V]. replace (a + Z.of_nat (S (S k))) with (a + Z.of_nat (S k) + 1) by lia. rewrite E.
        destruct (civil (a + Z.of_nat (S k))) as [[y1 m1] d1]. cbn [valid next_day] in V |- *. destruct (d1 <? month_days y1 m1) eqn:Q; [lia|].
        pose proof (month_pos y1 m1). destruct (m1 <? 12) eqn:M; lia. }
    intros a k E. specialize (LE a k). rewrite <- E in LE. destruct (civil a) as [[y m] d]. lia. }
  destruct (Z.lt_trichotomy n n') as [C|[C|C]]; [|exact C|].
  - exfalso. apply (L n (Z.to_nat (n' - n - 1))). replace (n + Z.of_nat (S (Z.to_nat (n' - n - 1)))) with n' by lia. exact B.
  - exfalso. apply (L n' (Z.to_nat (n - n' - 1))). replace (n' + Z.of_nat (S (Z.to_nat (n - n' - 1)))) with n by lia. auto.
Qed.
