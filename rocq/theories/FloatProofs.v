(** Proofs about the floating point codecs. *)
From Coq Require Import ZArith List Bool Lia PeanoNat.
From Verif Require Import Base FloatModel FloatSpec.
Import ListNotations.

(* ------------------------------------------------------------------ bits *)

Definition byte_bits (x : Z) : list bool := map (fun k => Z.testbit x k) [7;6;5;4;3;2;1;0].

Lemma bits_of_cons x b : bits_of (x :: b) = byte_bits x ++ bits_of b.
Proof. reflexivity. Qed.

Lemma bits_of_app a b : bits_of (a ++ b) = bits_of a ++ bits_of b.
Proof. unfold bits_of. apply flat_map_app. Qed.

Lemma bits_of_length b : length (bits_of b) = (8 * length b)%nat.
Proof. induction b; [reflexivity|]. rewrite bits_of_cons, app_length, IHb. cbn [byte_bits map length]. lia. Qed.

Lemma bits_of_zero n : bits_of (repeat 0 n) = repeat false (8 * n).
Proof.
  induction n; [reflexivity|].
  cbn [repeat]. rewrite bits_of_cons, IHn. replace (8 * S n)%nat with (8 + 8 * n)%nat by lia.
  rewrite repeat_app. reflexivity.
Qed.

(** Bit number [i] as the code keeps it. *)
Definition pos (i : nat) : nat * Z := ((i / 8)%nat, 2 ^ (7 - Z.of_nat (i mod 8))).

Lemma div_mod8 q j : (j < 8)%nat -> ((8 * q + j) / 8 = q /\ (8 * q + j) mod 8 = j)%nat.
Proof.
  intros H. split.
  - symmetry. apply (Nat.div_unique _ 8 q j); lia.
  - symmetry. apply (Nat.mod_unique _ 8 q j); lia.
Qed.

Lemma pos_qj q j : (j < 8)%nat -> pos (8 * q + j) = (q, 2 ^ (7 - Z.of_nat j)).
Proof. intros H. unfold pos. destruct (div_mod8 q j H) as [-> ->]. reflexivity. Qed.

Lemma split8 i : exists q j, (j < 8)%nat /\ i = (8 * q + j)%nat.
Proof.
  exists (i / 8)%nat, (i mod 8)%nat. split; [apply Nat.mod_upper_bound; lia|apply Nat.div_mod; lia].
Qed.

Lemma shift_pos i : shift (pos i) = pos (S i).
Proof.
  destruct (split8 i) as (q & j & Hj & ->).
  rewrite pos_qj by lia.
  destruct (Nat.eq_dec j 7) as [->|Hn].
  - replace (S (8 * q + 7)) with (8 * S q + 0)%nat by lia. rewrite pos_qj by lia. reflexivity.
  - replace (S (8 * q + j)) with (8 * q + S j)%nat by lia. rewrite pos_qj by lia.
    do 7 (destruct j as [|j]; [reflexivity|]). lia.
Qed.

Lemma land_bit b k : 0 <= k -> negb (Z.land b (2 ^ k) =? 0) = Z.testbit b k.
Proof.
  intros Hk. destruct (Z.testbit b k) eqn:E.
  - apply negb_true_iff, Z.eqb_neq. intros H.
    assert (Z.testbit (Z.land b (2 ^ k)) k = false) by (rewrite H; apply Z.bits_0).
    rewrite Z.land_spec, E, Z.pow2_bits_true in H0 by lia. discriminate.
  - apply negb_false_iff, Z.eqb_eq. apply Z.bits_inj'. intros n Hn.
    rewrite Z.land_spec, Z.bits_0.
    destruct (Z.eq_dec n k) as [->|H].
    + rewrite E. reflexivity.
    + rewrite Z.pow2_bits_false by lia. apply andb_false_r.
Qed.

Lemma lor_bit b k i : 0 <= k -> 0 <= i -> Z.testbit (Z.lor b (2 ^ k)) i = (i =? k) || Z.testbit b i.
Proof.
  intros Hk Hi. rewrite Z.lor_spec. destruct (Z.eqb_spec i k) as [->|H].
  - rewrite Z.pow2_bits_true by lia. apply orb_true_r.
  - rewrite Z.pow2_bits_false by lia. apply orb_false_r.
Qed.

Lemma nth_byte_bits x j : (j < 8)%nat -> nth_error (byte_bits x) j = Some (Z.testbit x (7 - Z.of_nat j)).
Proof. intros H. do 8 (destruct j as [|j]; [reflexivity|]). lia. Qed.

Lemma rdbit_pos buf i : rdbit buf (pos i) = nth_error (bits_of buf) i.
Proof.
  destruct (split8 i) as (q & j & Hj & ->). rewrite pos_qj by lia.
  unfold rdbit. cbn [fst snd]. revert q. induction buf as [|x buf IH]; intros q.
  - rewrite !(proj2 (nth_error_None _ _)) by (cbn; lia). reflexivity.
  - rewrite bits_of_cons. destruct q.
    + cbn [nth_error]. rewrite nth_error_app1 by (cbn; lia).
      replace (8 * 0 + j)%nat with j by lia.
      rewrite nth_byte_bits by lia. rewrite land_bit by lia. reflexivity.
    + cbn [nth_error]. rewrite nth_error_app2 by (cbn [byte_bits map length]; lia).
      rewrite IH. f_equal. cbn [byte_bits map length]. lia.
Qed.

(** One bit of a bit string set. *)
Definition setb (l : list bool) (i : nat) : list bool := firstn i l ++ true :: skipn (S i) l.

Lemma byte_bits_set x j : (j < 8)%nat -> byte_bits (Z.lor x (2 ^ (7 - Z.of_nat j))) = setb (byte_bits x) j.
Proof.
  intros H. unfold byte_bits, setb.
  assert (T : forall k, 0 <= k -> Z.testbit (Z.lor x (2 ^ (7 - Z.of_nat j))) k = (k =? 7 - Z.of_nat j) || Z.testbit x k)
    by (intros; apply lor_bit; lia).
  cbn [map]. rewrite !T by lia.
  do 8 (destruct j as [|j]; [reflexivity|]). lia.
Qed.

Lemma setb_app1 a b i : (i < length a)%nat -> setb (a ++ b) i = setb a i ++ b.
Proof.
  intros H. unfold setb. rewrite firstn_app, skipn_app.
  replace (i - length a)%nat with 0%nat by lia. replace (S i - length a)%nat with 0%nat by lia.
  cbn. rewrite app_nil_r, <- app_assoc. reflexivity.
Qed.

Lemma setb_app2 a b i : setb (a ++ b) (length a + i) = a ++ setb b i.
Proof.
  unfold setb. rewrite firstn_app, skipn_app.
  rewrite firstn_all2 by lia. rewrite (skipn_all2 (n := S (length a + i)) a) by lia.
  replace (length a + i - length a)%nat with i by lia.
  replace (S (length a + i) - length a)%nat with (S i) by lia.
  rewrite <- app_assoc. reflexivity.
Qed.

Lemma lor_byte x k : 0 <= x < 256 -> 0 <= k < 8 -> 0 <= Z.lor x (2 ^ k) < 256.
Proof.
  intros Hx Hk. split; [apply Z.lor_nonneg; split; [lia|apply Z.pow_nonneg; lia]|].
  change 256 with (2 ^ 8).
  assert (P : 0 < 2 ^ k) by (apply Z.pow_pos_nonneg; lia).
  assert (G : 0 < Z.lor x (2 ^ k)).
  { assert (Hz : 0 <= Z.lor x (2 ^ k)) by (apply Z.lor_nonneg; split; lia).
    assert (Z.lor x (2 ^ k) <> 0) by (intros H; apply Z.lor_eq_0_iff in H; lia). lia. }
  apply Z.log2_lt_pow2; [assumption|]. rewrite Z.log2_lor by lia. apply Z.max_lub_lt.
  - destruct (Z.eq_dec x 0) as [->|]; [cbn; lia|]. apply Z.log2_lt_pow2; lia.
  - rewrite Z.log2_pow2; lia.
Qed.

Lemma orbit_pos buf i :
  bytes buf -> (i < 8 * length buf)%nat ->
  exists buf', orbit buf (pos i) = Some buf' /\ bytes buf' /\ length buf' = length buf /\
               bits_of buf' = setb (bits_of buf) i.
Proof.
  destruct (split8 i) as (q & j & Hj & ->). rewrite pos_qj by lia.
  unfold orbit. cbn [fst snd]. intros Hb Hi.
  assert (M1 : forall x, 0 <= x < 256 -> 0 <= Z.lor x (2 ^ (7 - Z.of_nat j)) < 256) by (intros; apply lor_byte; lia).
  assert (M2 : forall x, byte_bits (Z.lor x (2 ^ (7 - Z.of_nat j))) = setb (byte_bits x) j)
    by (intros; apply byte_bits_set; lia).
  generalize dependent (2 ^ (7 - Z.of_nat j)). intros msk M1 M2.
  revert q Hi. induction buf as [|x buf IH]; intros q Hi.
  - cbn in Hi. lia.
  - inversion Hb; subst. destruct q.
    + cbn [nth_error]. eexists. split; [reflexivity|]. unfold put. cbn [firstn skipn app].
      split; [constructor; [apply M1; lia|assumption]|]. split; [reflexivity|].
      rewrite !bits_of_cons. replace (8 * 0 + j)%nat with j by lia.
      rewrite M2. rewrite setb_app1 by (cbn; lia). reflexivity.
    + cbn [nth_error length] in *. destruct (IH H2 q) as (b' & E & B & L & S); [lia|].
      destruct (nth_error buf q) eqn:N; [|discriminate]. injection E as <-.
      eexists. split; [reflexivity|].
      change (put (x :: buf) (Datatypes.S q) (Z.lor z msk))
        with (x :: put buf q (Z.lor z msk)).
      split; [constructor; assumption|]. split; [cbn [length]; now rewrite L|].
      rewrite !bits_of_cons, S.
      replace (8 * Datatypes.S q + j)%nat with (length (byte_bits x) + (8 * q + j))%nat by (cbn [byte_bits map length]; lia).
      rewrite setb_app2. reflexivity.
Qed.

Lemma orbit_at buf A x B :
  bytes buf -> bits_of buf = A ++ x :: B ->
  exists buf', orbit buf (pos (length A)) = Some buf' /\ bytes buf' /\ length buf' = length buf /\
               bits_of buf' = A ++ true :: B.
Proof.
  intros Hb E.
  assert (L : (length A < 8 * length buf)%nat).
  { rewrite <- bits_of_length, E, app_length. cbn. lia. }
  destruct (orbit_pos buf (length A) Hb L) as (b' & O & B' & L' & S).
  exists b'. repeat (split; [assumption|]). rewrite S, E.
  unfold setb. rewrite firstn_app, skipn_app.
  rewrite firstn_all2, (skipn_all2 (n := Datatypes.S (length A)) A) by lia.
  replace (length A - length A)%nat with 0%nat by lia.
  replace (Datatypes.S (length A) - length A)%nat with 1%nat by lia.
  cbn. now rewrite app_nil_r.
Qed.

Lemma skip_pos k n q j :
  (n <= k)%nat -> (j < 8)%nat -> tb_skip k n (pos (8 * q + j)) = pos (8 * q + j + n).
Proof.
  revert n q j. induction k; intros n q j H Hj; cbn [tb_skip].
  - replace n with 0%nat by lia. now rewrite Nat.add_0_r.
  - destruct (Nat.eqb_spec n 0); [subst; now rewrite Nat.add_0_r|].
    destruct (Nat.leb_spec 8 n).
    + replace (S (fst (pos (8 * q + j))), snd (pos (8 * q + j))) with (pos (8 * S q + j))
        by (rewrite !pos_qj by lia; reflexivity).
      rewrite IHk by lia. f_equal. lia.
    + rewrite shift_pos.
      destruct (Nat.eq_dec j 7) as [->|].
      * replace (S (8 * q + 7)) with (8 * S q + 0)%nat by lia. rewrite IHk by lia. f_equal. lia.
      * replace (S (8 * q + j)) with (8 * q + S j)%nat by lia. rewrite IHk by lia. f_equal. lia.
Qed.

Lemma bits_length n x : length (bits n x) = n.
Proof. induction n; cbn; congruence. Qed.

Lemma bits_zero n : bits n 0 = repeat false n.
Proof. induction n; cbn; [reflexivity|]. now rewrite Z.bits_0, IHn. Qed.

Lemma testbit_div x k : 0 <= k -> Z.testbit x k = Z.odd (x / 2 ^ k).
Proof. intros. rewrite <- Z.bit0_odd. rewrite Z.div_pow2_bits by lia. f_equal. Qed.

Lemma bits_mod n x y : x mod 2 ^ Z.of_nat n = y mod 2 ^ Z.of_nat n -> bits n x = bits n y.
Proof.
  intros H.
  assert (forall k, (k <= n)%nat -> bits k x = bits k y) as G; [|apply G; lia].
  induction k; intros; [reflexivity|]. cbn [bits]. f_equal; [|apply IHk; lia].
  rewrite <- (Z.mod_pow2_bits_low x (Z.of_nat n)) by lia. rewrite H. apply Z.mod_pow2_bits_low. lia.
Qed.

(* ------------------------------------------------------------------ arithmetic *)

Lemma pow_add a b : 0 <= a -> 0 <= b -> 2 ^ (a + b) = 2 ^ a * 2 ^ b.
Proof. intros. apply Z.pow_add_r; assumption. Qed.

Lemma pow_pos a : 0 <= a -> 0 < 2 ^ a.
Proof. intros. apply Z.pow_pos_nonneg; lia. Qed.

Lemma rne_exact r d : 0 <= d -> rne (r * 2 ^ d) d = r.
Proof.
  intros H. unfold rne. destruct (Z.leb_spec d 0).
  - replace d with 0 by lia. cbn. lia.
  - pose proof (pow_pos d H). rewrite Z.div_mul by lia. rewrite Z.mod_mul by lia.
    destruct (Z.ltb_spec (2 * 0) (2 ^ d)); [reflexivity|lia].
Qed.

Lemma log2_lt m p : 0 <= m < 2 ^ p -> 0 < p -> Z.log2 m + 1 <= p.
Proof.
  intros H Hp. destruct (Z.eq_dec m 0) as [->|]; [cbn; lia|].
  assert (Z.log2 m < p) by (apply Z.log2_lt_pow2; lia). lia.
Qed.

Lemma fit_exact fp s r sc n :
  0 < fp_prec fp -> short fp r -> r < 2 ^ (fp_unit fp + fp_top fp) -> 0 <= sc -> n = r * 2 ^ sc ->
  fit fp s n sc = Fin s r.
Proof.
  intros Hp (m & j & Hm & Hj & ->) Ht Hs ->. unfold fit.
  set (d := Z.max sc _).
  assert (D : sc <= d <= j + sc \/ m = 0).
  { destruct (Z.eq_dec m 0); [tauto|left]. unfold d.
    rewrite <- Z.mul_assoc, <- pow_add by lia.
    rewrite Z.log2_mul_pow2 by lia. pose proof (log2_lt m (fp_prec fp) Hm Hp). lia. }
  assert (R : rne (m * 2 ^ j * 2 ^ sc) d * 2 ^ (d - sc) = m * 2 ^ j).
  { destruct D as [D| ->].
    - replace (m * 2 ^ j * 2 ^ sc) with (m * 2 ^ (j + sc - d) * 2 ^ d)
        by (rewrite <- !Z.mul_assoc, <- !pow_add by lia; f_equal; f_equal; lia).
      rewrite rne_exact by lia. rewrite <- Z.mul_assoc, <- pow_add by lia. f_equal. f_equal. lia.
    - replace (0 * 2 ^ j * 2 ^ sc) with (0 * 2 ^ d) by lia. rewrite rne_exact by (unfold d; lia). lia. }
  rewrite R. destruct (Z.leb_spec (2 ^ (fp_unit fp + fp_top fp)) (m * 2 ^ j)); [lia|reflexivity].
Qed.

Lemma short_scale fp n k : 0 <= k -> short fp n -> short fp (n * 2 ^ k).
Proof.
  intros Hk (m & j & Hm & Hj & ->). exists m, (j + k). repeat split; try lia.
  rewrite pow_add by lia. ring.
Qed.

(** A number that becomes short when multiplied by a power of two is short. *)
Lemma short_unscale fp n k : 0 <= n -> 0 <= k -> short fp (n * 2 ^ k) -> short fp n.
Proof.
  intros Hn Hk (m & j & Hm & Hj & E). pose proof (pow_pos k Hk). pose proof (pow_pos j Hj).
  destruct (Z_le_gt_dec k j).
  - exists m, (j - k). repeat split; try lia.
    apply (Z.mul_reg_r _ _ (2 ^ k)); [lia|]. rewrite <- Z.mul_assoc, <- pow_add by lia.
    rewrite E. f_equal. f_equal. lia.
  - exists n, 0. repeat split; try lia.
    assert (n * 2 ^ (k - j) = m).
    { apply (Z.mul_reg_r _ _ (2 ^ j)); [lia|]. rewrite <- Z.mul_assoc, <- pow_add by lia.
      rewrite <- E. f_equal. f_equal. lia. }
    pose proof (pow_pos (k - j) ltac:(lia)). nia.
Qed.

Lemma short_div fp n k : 0 <= n -> 0 <= k -> short fp n -> short fp (n / 2 ^ k).
Proof.
  intros Hn Hk (m & j & Hm & Hj & ->). pose proof (pow_pos k Hk). pose proof (pow_pos j Hj).
  destruct (Z_le_gt_dec k j).
  - exists m, (j - k). repeat split; try lia.
    replace (2 ^ j) with (2 ^ (j - k) * 2 ^ k) by (rewrite <- pow_add by lia; f_equal; lia).
    rewrite Z.mul_assoc, Z.div_mul by lia. reflexivity.
  - exists (m / 2 ^ (k - j)), 0. pose proof (pow_pos (k - j) ltac:(lia)). split; [split|split; [lia|]].
    + apply Z.div_pos; lia.
    + apply Z.le_lt_trans with m; [|lia]. apply Z.div_le_upper_bound; nia.
    + replace (2 ^ k) with (2 ^ (k - j) * 2 ^ j) by (rewrite <- pow_add by lia; f_equal; lia).
      rewrite Z.div_mul_cancel_r by lia. cbn. lia.
Qed.

(** The part of a short number below a power of two is short. *)
Lemma short_mod fp n k : 0 <= n -> 0 <= k -> short fp n -> short fp (n mod 2 ^ k).
Proof.
  intros Hn Hk (m & j & Hm & Hj & ->). pose proof (pow_pos k Hk). pose proof (pow_pos j Hj).
  destruct (Z_le_gt_dec k j).
  - exists 0, 0. repeat split; try lia.
    replace (2 ^ j) with (2 ^ (j - k) * 2 ^ k) by (rewrite <- pow_add by lia; f_equal; lia).
    rewrite Z.mul_assoc, Z.mod_mul by lia. reflexivity.
  - exists (m mod 2 ^ (k - j)), j. pose proof (pow_pos (k - j) ltac:(lia)). split; [|split; [lia|]].
    + pose proof (Z.mod_pos_bound m (2 ^ (k - j)) ltac:(lia)).
      pose proof (Z.mod_le m (2 ^ (k - j)) ltac:(lia) ltac:(lia)). lia.
    + replace (2 ^ k) with (2 ^ (k - j) * 2 ^ j) by (rewrite <- pow_add by lia; f_equal; lia).
      rewrite Z.mul_mod_distr_r by lia. reflexivity.
Qed.

Lemma s16_id z : -32768 <= z < 32768 -> s16 z = z.
Proof. intros. unfold s16. rewrite Z.mod_small by lia. lia. Qed.

Section FP.
Variable fp : fpu.
Notation U := (fp_unit fp).
Hypothesis Hprec : 0 < fp_prec fp.
Hypothesis HU : 0 <= U.
Hypothesis Htop : 1 <= fp_top fp.

Lemma top_bound n : n <= 2 ^ (U + 1) -> n < 2 ^ (U + fp_top fp) \/ n = 2 ^ (U + 1).
Proof.
  intros. assert (2 ^ (U + 1) <= 2 ^ (U + fp_top fp)) by (apply Z.pow_le_mono_r; lia). lia.
Qed.

Lemma below_top n : n < 2 ^ (U + 1) -> n < 2 ^ (U + fp_top fp).
Proof.
  intros. assert (2 ^ (U + 1) <= 2 ^ (U + fp_top fp)) by (apply Z.pow_le_mono_r; lia). lia.
Qed.

Lemma half_exact s n : short fp n -> 0 <= n -> 2 * n < 2 ^ (U + fp_top fp) -> half_of fp (Fin s (2 * n)) = Fin s n.
Proof. intros. cbn [half_of]. apply fit_exact; try assumption; try lia. Qed.

Lemma dbl_exact s n : short fp n -> 2 * n < 2 ^ (U + fp_top fp) -> dbl_of fp (Fin s n) = Fin s (2 * n).
Proof.
  intros. cbn [dbl_of]. apply fit_exact; try assumption; try lia.
  replace (2 * n) with (n * 2 ^ 1) by lia. apply short_scale; [lia|assumption].
Qed.

Lemma two_U : 2 ^ (U + 1) = 2 * 2 ^ U.
Proof. rewrite pow_add by lia. lia. Qed.

Lemma sub1_exact n : short fp n -> 2 ^ U <= n < 2 * 2 ^ U ->
  add_of fp (Fin false n) (neg_of (one fp)) = Fin false (n - 2 ^ U) /\ short fp (n - 2 ^ U).
Proof.
  intros Hs Hn. pose proof (pow_pos U HU).
  assert (E : n - 2 ^ U = n mod 2 ^ U).
  { apply Z.mod_unique_pos with 1; lia. }
  assert (S : short fp (n - 2 ^ U)) by (rewrite E; apply short_mod; try lia; assumption).
  split; [|assumption].
  cbn [add_of neg_of one negb].
  replace (n + - 2 ^ U) with (n - 2 ^ U) by lia.
  rewrite Z.abs_eq by lia.
  destruct (Z.ltb_spec (n - 2 ^ U) 0); [lia|].
  apply fit_exact; try assumption; try lia.
  apply below_top. rewrite two_U. lia.
Qed.

Lemma ge1_fin n : ge1 fp (Fin false n) = (2 ^ U <=? n).
Proof. reflexivity. Qed.

(* ------------------------------------------------------------------ float_to_bytes *)

Lemma down_ok k r ex fuel :
  (k < fuel)%nat -> short fp r -> 0 <= r < 2 ^ U -> (k <> 0%nat -> 2 ^ U <= 2 * r) ->
  r * 2 ^ Z.of_nat k < 2 ^ (U + fp_top fp) ->
  -32768 <= ex -> ex + Z.of_nat k < 32768 ->
  tb_down fp fuel (Fin false (r * 2 ^ Z.of_nat k)) ex = Some (Fin false r, ex + Z.of_nat k).
Proof.
  revert ex fuel. induction k; intros ex fuel Hf Hs Hr Hk Ht H1 H2.
  - destruct fuel; [lia|]. cbn [tb_down]. rewrite ge1_fin. cbn [Z.of_nat].
    rewrite Z.mul_1_r. destruct (Z.leb_spec (2 ^ U) r); [lia|]. now rewrite Z.add_0_r.
  - destruct fuel; [lia|]. cbn [tb_down]. rewrite ge1_fin.
    assert (P : 2 ^ Z.of_nat (S k) = 2 * 2 ^ Z.of_nat k)
      by (rewrite Nat2Z.inj_succ, Z.pow_succ_r by lia; reflexivity).
    pose proof (pow_pos (Z.of_nat k) ltac:(lia)).
    rewrite P in *. replace (r * (2 * 2 ^ Z.of_nat k)) with (2 * (r * 2 ^ Z.of_nat k)) in * by ring.
    specialize (Hk ltac:(lia)).
    destruct (Z.leb_spec (2 ^ U) (2 * (r * 2 ^ Z.of_nat k))); [|nia].
    rewrite half_exact; [|apply short_scale; [lia|assumption]|nia|assumption].
    rewrite s16_id by lia. rewrite IHk; try assumption; try lia; try nia.
    f_equal. f_equal. lia.
Qed.

(** The fraction bits of [x / 2^U], cut off after [n]. *)
Definition cut (n : nat) (x : Z) : Z := x * 2 ^ Z.of_nat n / 2 ^ U.

Lemma cut_0 n : cut n 0 = 0.
Proof. reflexivity. Qed.

Lemma cut_bound n x : 0 <= x < 2 ^ U -> 0 <= cut n x < 2 ^ Z.of_nat n.
Proof.
  intros H. unfold cut. pose proof (pow_pos U HU). pose proof (pow_pos (Z.of_nat n) ltac:(lia)). split.
  - apply Z.div_pos; nia.
  - apply Z.div_lt_upper_bound; nia.
Qed.

Lemma cut_step n x : 0 <= x < 2 ^ U ->
  bits (S n) (cut (S n) x) =
  (2 ^ U <=? 2 * x) :: bits n (cut n (if 2 ^ U <=? 2 * x then 2 * x - 2 ^ U else 2 * x)).
Proof.
  intros H. pose proof (pow_pos U HU). pose proof (pow_pos (Z.of_nat n) ltac:(lia)).
  set (y := if 2 ^ U <=? 2 * x then 2 * x - 2 ^ U else 2 * x).
  set (b := if 2 ^ U <=? 2 * x then 1 else 0).
  assert (Hy : 0 <= y < 2 ^ U /\ 2 * x = b * 2 ^ U + y).
  { unfold y, b. destruct (Z.leb_spec (2 ^ U) (2 * x)); lia. }
  assert (C : cut (S n) x = b * 2 ^ Z.of_nat n + cut n y).
  { unfold cut. rewrite Nat2Z.inj_succ, Z.pow_succ_r by lia.
    replace (x * (2 * 2 ^ Z.of_nat n)) with (b * 2 ^ Z.of_nat n * 2 ^ U + y * 2 ^ Z.of_nat n) by nia.
    rewrite Z.div_add_l by lia. reflexivity. }
  pose proof (cut_bound n y ltac:(lia)) as Cb.
  cbn [bits]. f_equal.
  - rewrite testbit_div by lia. rewrite C, Z.div_add_l, Z.div_small by lia.
    unfold b. destruct (2 ^ U <=? 2 * x); reflexivity.
  - apply bits_mod. rewrite C. rewrite Z.add_comm, Z.mod_add by lia. reflexivity.
Qed.

Lemma frac_ok n : forall F buf A C x nb ex,
  bytes buf -> bits_of buf = A ++ repeat false n ++ C ->
  short fp x -> 0 <= x < 2 ^ U -> Z.of_nat F < 65536 -> 0 <= nb -> nb + Z.of_nat n = Z.of_nat F ->
  exists buf',
    (forall fuel, (n < fuel)%nat ->
       tb_frac fp fuel F buf (pos (length A)) (Fin false x) true nb ex = SDone buf' true ex) /\
    bytes buf' /\ length buf' = length buf /\ bits_of buf' = A ++ bits n (cut n x) ++ C.
Proof.
  induction n; intros F buf A C x nb ex Hb Hbits Hs Hx HF Hnb Hn.
  - exists buf. split; [|auto]. intros fuel Hf. destruct fuel; [lia|]. cbn [tb_frac].
    destruct (Z.ltb_spec nb (Z.of_nat F)); [lia|]. rewrite andb_false_r. reflexivity.
  - destruct (Z.eqb_spec x 0) as [->|Hx0].
    { exists buf. split; [|rewrite cut_0, bits_zero; auto].
      intros fuel Hf. destruct fuel; [lia|]. reflexivity. }
    pose proof (pow_pos U HU).
    assert (H2 : 2 * x < 2 ^ (U + fp_top fp)) by (apply below_top; rewrite two_U; lia).
    assert (S2 : short fp (2 * x)).
    { replace (2 * x) with (x * 2 ^ 1) by lia. apply short_scale; [lia|assumption]. }
    assert (ST : forall fuel, tb_frac fp (S fuel) F buf (pos (length A)) (Fin false x) true nb ex =
      if 2 ^ U <=? 2 * x then
        match orbit buf (pos (length A)) with
        | None => SBad
        | Some buf => tb_frac fp fuel F buf (pos (S (length A))) (add_of fp (Fin false (2 * x)) (neg_of (one fp))) true (nb + 1) ex
        end
      else tb_frac fp fuel F buf (pos (S (length A))) (Fin false (2 * x)) true (nb + 1) ex).
    { intros fuel. cbn [tb_frac truth].
      destruct (Z.ltb_spec nb (Z.of_nat F)); [|lia].
      destruct (Z.eqb_spec x 0); [lia|]. cbn [negb andb].
      rewrite dbl_exact by assumption. rewrite ge1_fin. rewrite shift_pos.
      rewrite (Z.mod_small (nb + 1)) by lia. reflexivity. }
    rewrite cut_step by assumption.
    destruct (Z.leb_spec (2 ^ U) (2 * x)).
    + destruct (orbit_at buf A false (repeat false n ++ C) Hb) as (b1 & O & B1 & L1 & T1);
        [exact Hbits|].
      destruct (sub1_exact (2 * x) S2 ltac:(lia)) as [Q3 S3].
      destruct (IHn F b1 (A ++ [true]) C (2 * x - 2 ^ U) (nb + 1) ex) as (b2 & R & B2 & L2 & T2);
        try assumption; try lia.
      { rewrite T1, <- app_assoc. reflexivity. }
      rewrite app_length, Nat.add_1_r in R.
      exists b2. split.
      { intros fuel Hf. destruct fuel; [lia|]. rewrite ST, O, Q3. apply R. lia. }
      split; [assumption|]. split; [congruence|].
      rewrite T2, <- app_assoc. reflexivity.
    + destruct (IHn F buf (A ++ [false]) C (2 * x) (nb + 1) ex) as (b2 & R & B2 & L2 & T2);
        try assumption; try lia.
      { rewrite Hbits, <- app_assoc. reflexivity. }
      rewrite app_length, Nat.add_1_r in R.
      exists b2. split.
      { intros fuel Hf. destruct fuel; [lia|]. rewrite ST. apply R. lia. }
      split; [assumption|]. split; [assumption|].
      rewrite T2, <- app_assoc. reflexivity.
Qed.

(** The loop until the leading one bit. *)
Lemma lead_ok k : forall fuel F buf p x ex,
  (F <> 0)%nat -> short fp x -> 0 < x -> 2 ^ U <= x * 2 ^ Z.of_nat (S k) < 2 * 2 ^ U ->
  -32768 <= ex - Z.of_nat (S k) -> ex < 32768 ->
  tb_frac fp (S k + fuel) F buf p (Fin false x) false 0 ex =
  tb_frac fp fuel F buf p (Fin false (x * 2 ^ Z.of_nat (S k) - 2 ^ U)) true 0 (ex - Z.of_nat (S k)) /\
  short fp (x * 2 ^ Z.of_nat (S k) - 2 ^ U).
Proof.
  induction k; intros fuel F buf p x ex HF Hs Hx Hr He1 He2.
  - cbn [Nat.add tb_frac truth].
    destruct (Z.eqb_spec x 0); [lia|]. destruct (Z.ltb_spec 0 (Z.of_nat F)); [|lia]. cbn [negb andb].
    change (2 ^ Z.of_nat 1) with 2 in *. rewrite (Z.mul_comm x 2) in *.
    assert (S2 : short fp (2 * x)).
    { replace (2 * x) with (x * 2 ^ 1) by lia. apply short_scale; [lia|assumption]. }
    rewrite dbl_exact; [|assumption|apply below_top; rewrite two_U; lia].
    rewrite ge1_fin. destruct (Z.leb_spec (2 ^ U) (2 * x)); [|lia].
    destruct (sub1_exact (2 * x) S2 ltac:(lia)) as [-> S3].
    rewrite s16_id by lia. split; [reflexivity|assumption].
  - change (S (S k) + fuel)%nat with (S (S k + fuel)). cbn [tb_frac truth].
    destruct (Z.eqb_spec x 0); [lia|]. destruct (Z.ltb_spec 0 (Z.of_nat F)); [|lia]. cbn [negb andb].
    assert (P : x * 2 ^ Z.of_nat (S (S k)) = 2 * x * 2 ^ Z.of_nat (S k))
      by (rewrite (Nat2Z.inj_succ (S k)), Z.pow_succ_r by lia; ring).
    rewrite P in *.
    pose proof (pow_pos U HU).
    assert (2 <= 2 ^ Z.of_nat (S k)).
    { change 2 with (2 ^ 1) at 1. apply Z.pow_le_mono_r; lia. }
    assert (Hlt : 2 * x < 2 ^ U) by nia.
    assert (S2 : short fp (2 * x)).
    { replace (2 * x) with (x * 2 ^ 1) by lia. apply short_scale; [lia|assumption]. }
    rewrite dbl_exact; [|assumption|apply below_top; rewrite two_U; lia].
    rewrite ge1_fin. destruct (Z.leb_spec (2 ^ U) (2 * x)); [lia|].
    rewrite s16_id by lia.
    destruct (IHk fuel F buf p (2 * x) (ex - 1)) as [-> S3]; try assumption; try lia.
    split; [|assumption]. f_equal. lia.
Qed.

Lemma exp_ok n : forall buf A C ex,
  bytes buf -> bits_of buf = A ++ repeat false n ++ C -> A <> [] -> 0 <= ex < 2 ^ Z.of_nat n ->
  ex < 32768 ->
  exists buf', tb_exp n buf (pos (length A - 1)) ex (2 ^ (Z.of_nat n - 1)) = Some buf' /\
    bytes buf' /\ length buf' = length buf /\ bits_of buf' = A ++ bits n ex ++ C.
Proof.
  induction n; intros buf A C ex Hb Hbits HA Hex Hex2.
  - exists buf. cbn. auto.
  - cbn [tb_exp]. rewrite shift_pos.
    assert (LA : S (length A - 1) = length A) by (destruct A; [congruence|cbn; lia]). rewrite LA.
    replace (Z.of_nat (S n) - 1) with (Z.of_nat n) by lia.
    assert (Pn : 0 < 2 ^ Z.of_nat n) by (apply pow_pos; lia).
    assert (P : 2 ^ Z.of_nat (S n) = 2 * 2 ^ Z.of_nat n)
      by (rewrite Nat2Z.inj_succ, Z.pow_succ_r by lia; reflexivity).
    rewrite P in Hex.
    assert (Q : n <> 0%nat -> Z.quot (2 ^ Z.of_nat n) 2 = 2 ^ (Z.of_nat n - 1)).
    { intros. rewrite Z.quot_div_nonneg by lia.
      replace (Z.of_nat n) with (Z.of_nat n - 1 + 1) at 1 by lia. rewrite pow_add by lia.
      change (2 ^ 1) with 2. rewrite Z.div_mul by lia. reflexivity. }
    assert (G : forall b A' e', bytes b -> length b = length buf -> bits_of b = A' ++ repeat false n ++ C ->
      length A' = S (length A) -> 0 <= e' < 2 ^ Z.of_nat n -> e' < 32768 ->
      exists buf', tb_exp n b (pos (length A)) e' (Z.quot (2 ^ Z.of_nat n) 2) = Some buf' /\
        bytes buf' /\ length buf' = length buf /\ bits_of buf' = A' ++ bits n e' ++ C).
    { intros b A' e' B1 B2 B3 B4 B5 B6. destruct (Nat.eq_dec n 0) as [->|Hn].
      - cbn [tb_exp]. exists b. cbn. cbn in B3. auto.
      - rewrite Q by assumption.
        destruct (IHn b A' C e') as (b' & R & R1 & R2 & R3); try assumption.
        { intros ->. discriminate. }
        replace (length A' - 1)%nat with (length A) in R by lia.
        exists b'. rewrite R2, B2. auto. }
    cbn [bits]. rewrite testbit_div by lia.
    destruct (Z.leb_spec (2 ^ Z.of_nat n) ex).
    + destruct (orbit_at buf A false (repeat false n ++ C) Hb) as (b1 & O & B1 & L1 & T1);
        [exact Hbits|].
      rewrite O. rewrite s16_id by lia.
      destruct (G b1 (A ++ [true]) (ex - 2 ^ Z.of_nat n)) as (b2 & R & R1 & R2 & R3); try assumption; try lia.
      { rewrite T1, <- app_assoc. reflexivity. }
      { rewrite app_length. cbn. lia. }
      exists b2. split; [exact R|]. split; [assumption|]. split; [assumption|].
      rewrite R3, <- app_assoc. cbn [app].
      replace (ex / 2 ^ Z.of_nat n) with 1 by (apply Z.div_unique_pos with (ex - 2 ^ Z.of_nat n); lia).
      cbn [Z.odd app]. f_equal. f_equal. f_equal. apply bits_mod.
      replace ex with (ex - 2 ^ Z.of_nat n + 1 * 2 ^ Z.of_nat n) at 2 by lia.
      rewrite Z.mod_add by lia. reflexivity.
    + destruct (G buf (A ++ [false]) ex) as (b2 & R & R1 & R2 & R3); try assumption; try lia.
      { rewrite Hbits, <- app_assoc. reflexivity. }
      { rewrite app_length. cbn. lia. }
      exists b2. split; [exact R|]. split; [assumption|]. split; [assumption|].
      rewrite R3, <- app_assoc. cbn [app]. rewrite Z.div_small by lia. reflexivity.
Qed.


(** The exponent field the writer produces for any exponent. *)
Definition clamp (n : nat) (ex : Z) : Z := Z.max 0 (Z.min ex (2 ^ Z.of_nat n - 1)).

Lemma exp_zeros n : forall buf p ex hb, ex < 0 -> 0 <= hb -> tb_exp n buf p ex hb = Some buf.
Proof.
  induction n; intros buf p ex hb H1 H2; [reflexivity|]. cbn [tb_exp].
  destruct (Z.leb_spec hb ex); [lia|]. apply IHn; [assumption|apply Z.quot_pos; lia].
Qed.

Lemma exp_ones n : forall buf A C ex,
  bytes buf -> bits_of buf = A ++ repeat false n ++ C -> A <> [] -> 2 ^ Z.of_nat n - 1 <= ex < 32768 ->
  exists buf', tb_exp n buf (pos (length A - 1)) ex (2 ^ (Z.of_nat n - 1)) = Some buf' /\
    bytes buf' /\ length buf' = length buf /\ bits_of buf' = A ++ bits n (2 ^ Z.of_nat n - 1) ++ C.
Proof.
  induction n; intros buf A C ex Hb Hbits HA Hex.
  - exists buf. cbn. auto.
  - cbn [tb_exp]. rewrite shift_pos.
    assert (LA : S (length A - 1) = length A) by (destruct A; [congruence|cbn; lia]). rewrite LA.
    replace (Z.of_nat (S n) - 1) with (Z.of_nat n) by lia.
    assert (Pn : 0 < 2 ^ Z.of_nat n) by (apply pow_pos; lia).
    assert (P : 2 ^ Z.of_nat (S n) = 2 * 2 ^ Z.of_nat n)
      by (rewrite Nat2Z.inj_succ, Z.pow_succ_r by lia; reflexivity).
    rewrite P in *.
    assert (Q : n <> 0%nat -> Z.quot (2 ^ Z.of_nat n) 2 = 2 ^ (Z.of_nat n - 1)).
    { intros. rewrite Z.quot_div_nonneg by lia.
      replace (Z.of_nat n) with (Z.of_nat n - 1 + 1) at 1 by lia. rewrite pow_add by lia.
      change (2 ^ 1) with 2. rewrite Z.div_mul by lia. reflexivity. }
    destruct (Z.leb_spec (2 ^ Z.of_nat n) ex); [|lia].
    destruct (orbit_at buf A false (repeat false n ++ C) Hb) as (b1 & O & B1 & L1 & T1); [exact Hbits|].
    rewrite O, s16_id by lia.
    assert (T : bits (S n) (2 * 2 ^ Z.of_nat n - 1) = true :: bits n (2 ^ Z.of_nat n - 1)).
    { cbn [bits]. f_equal.
      - rewrite testbit_div by lia. replace ((2 * 2 ^ Z.of_nat n - 1) / 2 ^ Z.of_nat n) with 1; [reflexivity|].
        apply Z.div_unique_pos with (2 ^ Z.of_nat n - 1); lia.
      - apply bits_mod. replace (2 * 2 ^ Z.of_nat n - 1) with (2 ^ Z.of_nat n - 1 + 1 * 2 ^ Z.of_nat n) by ring.
        rewrite Z.mod_add by lia. reflexivity. }
    rewrite T.
    destruct (Nat.eq_dec n 0) as [->|Hn].
    + exists b1. cbn [tb_exp bits app]. cbn [repeat app] in T1. auto.
    + rewrite Q by assumption.
      destruct (IHn b1 (A ++ [true]) C (ex - 2 ^ Z.of_nat n)) as (b2 & R & R1 & R2 & R3); try assumption; try lia.
      { rewrite T1, <- app_assoc. reflexivity. }
      { intros H0. destruct A; discriminate. }
      rewrite app_length, Nat.add_1_r in R. cbn [Nat.sub] in R. rewrite Nat.sub_0_r in R.
      exists b2. split; [exact R|]. split; [assumption|]. split; [congruence|].
      rewrite R3, <- app_assoc. reflexivity.
Qed.

Lemma exp_clamp n buf A C ex :
  bytes buf -> bits_of buf = A ++ repeat false n ++ C -> A <> [] -> ex < 32768 -> (1 <= n)%nat ->
  exists buf', tb_exp n buf (pos (length A - 1)) ex (2 ^ (Z.of_nat n - 1)) = Some buf' /\
    bytes buf' /\ length buf' = length buf /\ bits_of buf' = A ++ bits n (clamp n ex) ++ C.
Proof.
  intros Hb Hbits HA Hex Hn. unfold clamp. pose proof (pow_pos (Z.of_nat n) ltac:(lia)).
  destruct (Z_lt_le_dec ex 0).
  - exists buf. rewrite exp_zeros by (try lia; apply Z.pow_nonneg; lia).
    rewrite Z.max_l by lia. rewrite bits_zero. auto.
  - destruct (Z_lt_le_dec ex (2 ^ Z.of_nat n)).
    + rewrite Z.min_l, Z.max_r by lia. apply exp_ok; try assumption; lia.
    + rewrite Z.min_r, Z.max_r by lia. apply exp_ones; try assumption; lia.
Qed.

(** The least number of bits below the sign, exponent and fraction in the last byte. *)
Definition pad (E F : nat) : nat := (8 * size_of E F - (1 + E + F))%nat.

Lemma size_spec E F : (8 * size_of E F = 1 + E + F + pad E F /\ 0 < size_of E F)%nat.
Proof.
  unfold pad, size_of. pose proof (Nat.div_mod (E + F + 8) 8 ltac:(lia)).
  pose proof (Nat.mod_upper_bound (E + F + 8) 8 ltac:(lia)). lia.
Qed.

(** The buffer after the first lines. *)
Definition start (s : bool) (buf : list Z) (E F : nat) : list Z :=
  let b := repeat 0 (size_of E F) ++ skipn (size_of E F) buf in if s then put b 0 128 else b.

Lemma start_ok s buf E F :
  bytes buf -> (size_of E F <= length buf)%nat ->
  bytes (start s buf E F) /\ length (start s buf E F) = length buf /\
  bits_of (start s buf E F) = (s :: repeat false E) ++ repeat false F ++ repeat false (pad E F) ++ bits_of (skipn (size_of E F) buf).
Proof.
  intros Hb Hl. destruct (size_spec E F) as [S1 S2].
  assert (B1 : bytes (skipn (size_of E F) buf)).
  { apply Forall_forall. intros x Hx. rewrite <- (firstn_skipn (size_of E F) buf) in Hb.
    apply Forall_app in Hb. destruct Hb as [_ Hb]. rewrite Forall_forall in Hb. auto. }
  assert (B2 : forall k, bytes (repeat 0 k)).
  { intros k. apply Forall_forall. intros x Hx. apply repeat_spec in Hx. lia. }
  unfold start. cbn zeta.
  assert (LR : (size_of E F + length (skipn (size_of E F) buf) = length buf)%nat) by (rewrite skipn_length; lia).
  revert B1 LR. generalize (skipn (size_of E F) buf). intros rest B1 LR.
  destruct (size_of E F) as [|k] eqn:Ek; [lia|].
  assert (Z8 : repeat false 7 ++ repeat false (8 * k) = repeat false E ++ repeat false F ++ repeat false (pad E F)).
  { rewrite <- !repeat_app. f_equal. lia. }
  destruct s; unfold put; cbn [repeat app firstn skipn].
  - split; [constructor; [lia|apply Forall_app; split; [apply B2|assumption]]|].
    split; [cbn [length app]; rewrite ?app_length, ?repeat_length; lia|].
    rewrite bits_of_cons, bits_of_app, bits_of_zero.
    change (byte_bits 128) with (true :: repeat false 7). cbn [app]. f_equal.
    rewrite app_assoc, Z8, <- !app_assoc. reflexivity.
  - split; [constructor; [lia|apply Forall_app; split; [apply B2|assumption]]|].
    split; [cbn [length app]; rewrite ?app_length, ?repeat_length; lia|].
    rewrite bits_of_cons, bits_of_app, bits_of_zero.
    change (byte_bits 0) with (false :: repeat false 7). cbn [app]. f_equal.
    rewrite app_assoc, Z8, <- !app_assoc. reflexivity.
Qed.

Lemma to_bytes_eq fuel s n buf E F :
  0 < n -> (size_of E F <= length buf)%nat ->
  float_to_bytes fp fuel (Fin s n) buf E F =
  match tb_down fp fuel (Fin false n) 0 with
  | None => WRunning
  | Some (v, ex) =>
      match tb_frac fp fuel F (start s buf E F) (pos (1 + E)) v false 0 ex with
      | SRunning => WRunning
      | SBad => WBad
      | SDone buf got ex =>
          let hb := 2 ^ (Z.of_nat E - 1) in
          match tb_exp E buf (O, 128) (if got then s16 (ex + (hb - 1)) else 0) hb with
          | None => WBad
          | Some buf => WOk buf
          end
      end
  end.
Proof.
  intros Hn Hl. unfold float_to_bytes. destruct (Nat.ltb_spec (length buf) (size_of E F)); [lia|].
  cbn [lt0]. destruct (Z.ltb_spec 0 n); [|lia]. rewrite andb_true_r.
  replace (tb_skip E E (0%nat, 64)) with (pos (1 + E)).
  2:{ change (0%nat, 64) with (pos (8 * 0 + 1)). rewrite skip_pos by lia. reflexivity. }
  destruct s; reflexivity.
Qed.

Lemma div_eq a b c d : 0 < b -> 0 < d -> a * d = c * b -> a / b = c / d.
Proof.
  intros Hb Hd H. rewrite <- (Z.div_mul_cancel_r a b d), <- (Z.div_mul_cancel_r c d b) by lia.
  rewrite H, (Z.mul_comm d b). reflexivity.
Qed.

(** Everything the writer does with a number that is not zero: sign, exponent (brought into the range of the
    field) and the first bits of the fraction. *)
Lemma write_gen s n buf E F :
  fp_prec fp <= U -> U <= 32768 -> fp_top fp < 32768 ->
  (1 <= E <= 15)%nat -> (0 < F)%nat -> Z.of_nat F < 65536 ->
  is_num fp n -> 0 < n -> bytes buf -> (size_of E F <= length buf)%nat ->
  let L := Z.log2 n in
  let e := L - U + bias E in
  e < 32768 ->
  exists fuel0 out, (forall fuel, (fuel0 <= fuel)%nat -> float_to_bytes fp fuel (Fin s n) buf E F = WOk out) /\
    bytes out /\ length out = length buf /\
    bits_of out = layout E F s (clamp E e) (n * 2 ^ Z.of_nat F / 2 ^ L - 2 ^ Z.of_nat F)
                  ++ repeat false (pad E F) ++ bits_of (skipn (size_of E F) buf).
Proof.
  intros HpU HU2 Ht2 HE HF HF2 [Hs Hn] Hn0 Hb Hl L e He.
  assert (HL : 2 ^ L <= n < 2 ^ (L + 1)) by (apply Z.log2_spec; lia).
  assert (HL0 : 0 <= L) by apply Z.log2_nonneg.
  assert (HLt : L < U + fp_top fp) by (apply Z.log2_lt_pow2; lia).
  pose proof (pow_pos U HU) as PU. pose proof (pow_pos L HL0) as PL.
  pose proof (pow_pos (Z.of_nat F) ltac:(lia)) as PF.
  rewrite pow_add in HL by lia. change (2 ^ 1) with 2 in HL.
  (* the state before the fraction bits *)
  assert (K : exists k r k2, short fp r /\ 0 < r < 2 ^ U /\ (k <> 0%nat -> 2 ^ U <= 2 * r) /\
             n = r * 2 ^ Z.of_nat k /\ 2 ^ U <= r * 2 ^ Z.of_nat (S k2) < 2 * 2 ^ U /\
             Z.of_nat k - Z.of_nat (S k2) = L - U /\ Z.of_nat k < 32768 /\ Z.of_nat (S k2) <= 32768).
  { destruct (Z_lt_le_dec L U) as [Hlt|Hge].
    - exists 0%nat, n, (Z.to_nat (U - L - 1)).
      replace (Z.of_nat (S (Z.to_nat (U - L - 1)))) with (U - L) by lia.
      assert (P : 2 ^ U = 2 ^ L * 2 ^ (U - L)) by (rewrite <- pow_add by lia; f_equal; lia).
      pose proof (pow_pos (U - L) ltac:(lia)).
      assert (2 * 2 ^ L <= 2 ^ U).
      { rewrite <- Z.pow_succ_r by lia. apply Z.pow_le_mono_r; lia. }
      split; [assumption|]. split; [lia|]. split; [congruence|]. split; [cbn; lia|].
      split; [nia|]. lia.
    - destruct Hs as (m & j & Hm & Hj & En).
      assert (Hm0 : 0 < m) by (destruct (Z.eq_dec m 0); [subst; lia|lia]).
      assert (LL : L = Z.log2 m + j) by (unfold L; rewrite En; rewrite Z.log2_mul_pow2 by lia; lia).
      pose proof (log2_lt m (fp_prec fp) Hm Hprec) as Lm.
      set (k := L - U + 1) in *. assert (Hk : 0 <= k <= j) by lia.
      exists (Z.to_nat k), (m * 2 ^ (j - k)), 0%nat. rewrite Z2Nat.id by lia. change (Z.of_nat 1) with 1.
      assert (N : n = m * 2 ^ (j - k) * 2 ^ k)
        by (rewrite En, <- Z.mul_assoc, <- pow_add by lia; f_equal; f_equal; lia).
      pose proof (pow_pos (j - k) ltac:(lia)). pose proof (pow_pos k ltac:(lia)).
      assert (P : 2 * 2 ^ L = 2 ^ U * 2 ^ k).
      { rewrite <- Z.pow_succ_r by lia. rewrite <- pow_add by lia. f_equal. lia. }
      change (2 ^ 1) with 2.
      split; [exists m, (j - k); repeat split; lia|].
      assert (R : 2 ^ U <= m * 2 ^ (j - k) * 2 < 2 * 2 ^ U) by nia.
      split; [nia|]. split; [lia|]. split; [assumption|]. split; [assumption|]. lia. }
  destruct K as (k & r & k2 & Sr & Hr & Hk & En & Hr2 & Ekk & Bk & Bk2).
  set (x := r * 2 ^ Z.of_nat (S k2) - 2 ^ U).
  destruct (start_ok s buf E F Hb Hl) as (B0 & L0 & T0).
  assert (Hx : 0 <= x < 2 ^ U) by (unfold x; lia).
  destruct (lead_ok k2 (S F) F (start s buf E F) (pos (1 + E)) r (0 + Z.of_nat k)) as [_ Sx];
    try assumption; try lia.
  fold x in Sx.
  destruct (frac_ok F F (start s buf E F) (s :: repeat false E)
             (repeat false (pad E F) ++ bits_of (skipn (size_of E F) buf)) x 0 (L - U))
    as (b1 & R1 & B1 & L1 & T1); try assumption; try lia.
  (* the fraction *)
  assert (CF : cut F x = n * 2 ^ Z.of_nat F / 2 ^ L - 2 ^ Z.of_nat F).
  { unfold cut. set (y := r * 2 ^ Z.of_nat (S k2)) in *.
    assert (Y : y * 2 ^ L = n * 2 ^ U).
    { unfold y. rewrite En. pose proof (pow_pos (Z.of_nat k) ltac:(lia)).
      rewrite <- !Z.mul_assoc, <- !pow_add by lia. f_equal. f_equal. lia. }
    replace (x * 2 ^ Z.of_nat F) with (y * 2 ^ Z.of_nat F + (- 2 ^ Z.of_nat F) * 2 ^ U) by (unfold x; ring).
    rewrite Z.div_add by lia.
    rewrite (div_eq (y * 2 ^ Z.of_nat F) (2 ^ U) (n * 2 ^ Z.of_nat F) (2 ^ L)) by (try lia; nia). lia. }
  pose proof (cut_bound F x Hx) as CB.
  rewrite CF in *.
  (* the exponent *)
  destruct (exp_clamp E b1 [s] (bits F (n * 2 ^ Z.of_nat F / 2 ^ L - 2 ^ Z.of_nat F) ++ repeat false (pad E F) ++ bits_of (skipn (size_of E F) buf)) e)
    as (b2 & R2 & B2 & L2 & T2); try assumption; try congruence; try lia.
  exists (S k + S k2 + S F)%nat, b2. split.
  - intros fuel Hfuel. rewrite to_bytes_eq by assumption.
    rewrite En at 1. rewrite down_ok; try assumption; try lia.
    replace fuel with (S k2 + (fuel - S k2))%nat by lia.
    destruct (lead_ok k2 (fuel - S k2) F (start s buf E F) (pos (1 + E)) r (0 + Z.of_nat k)) as [-> _];
      try assumption; try lia.
    fold x. replace (0 + Z.of_nat k - Z.of_nat (S k2)) with (L - U) by lia.
    replace (length (s :: repeat false E)) with (1 + E)%nat in R1 by (cbn; now rewrite repeat_length).
    rewrite R1 by lia. cbn zeta.
    rewrite s16_id.
    2:{ unfold e, bias in He. pose proof (pow_pos (Z.of_nat E - 1) ltac:(lia)). lia. }
    replace (L - U + (2 ^ (Z.of_nat E - 1) - 1)) with e by (unfold e, bias; lia).
    change (pos (length [s] - 1)) with (0%nat, 128) in R2. rewrite R2. reflexivity.
  - split; [assumption|]. split; [congruence|]. rewrite T2. unfold layout. cbn [app]. rewrite <- app_assoc. reflexivity.
Qed.

(** Zero. *)
Lemma write_zero s buf E F :
  (1 <= E <= 15)%nat -> bytes buf -> (size_of E F <= length buf)%nat ->
  exists out, (forall fuel, (0 < fuel)%nat -> float_to_bytes fp fuel (Fin s 0) buf E F = WOk out) /\
    bytes out /\ length out = length buf /\
    bits_of out = layout E F false 0 0 ++ repeat false (pad E F) ++ bits_of (skipn (size_of E F) buf).
Proof.
  intros HE Hb Hl. destruct (start_ok false buf E F Hb Hl) as (B0 & L0 & T0).
  destruct (exp_ok E (start false buf E F) [false] (repeat false F ++ repeat false (pad E F) ++ bits_of (skipn (size_of E F) buf)) 0)
    as (b2 & R2 & B2 & L2 & T2); try assumption; try congruence; try lia.
  exists b2. split.
  - intros fuel Hf. destruct fuel; [lia|]. unfold float_to_bytes.
    destruct (Nat.ltb_spec (length buf) (size_of E F)); [lia|].
    cbn [lt0]. rewrite andb_false_r. cbn [tb_down].
    assert (G : ge1 fp (Fin s 0) = false).
    { cbn [ge1]. pose proof (pow_pos U HU). destruct (Z.leb_spec (2 ^ U) 0); [lia|]. apply andb_false_r. }
    rewrite G. cbn [tb_frac truth Z.eqb negb andb]. cbn zeta.
    change (pos (length [false] - 1)) with (0%nat, 128) in R2. unfold start in R2. cbn zeta in R2. rewrite R2. reflexivity.
  - split; [assumption|]. split; [congruence|]. rewrite T2. unfold layout.
    rewrite !bits_zero. cbn [app]. rewrite <- app_assoc. reflexivity.
Qed.

(* ------------------------------------------------------------------ float_from_bytes *)

Lemma bits_cons n x : bits (S n) x = Z.odd (x / 2 ^ Z.of_nat n) :: bits n x.
Proof. cbn [bits]. rewrite testbit_div by lia. reflexivity. Qed.

Lemma fb_exp_ok n : forall buf A C e acc,
  bits_of buf = A ++ bits n e ++ C -> A <> [] -> 0 <= acc ->
  acc * 2 ^ Z.of_nat n + e mod 2 ^ Z.of_nat n < 32768 ->
  fb_exp n buf (pos (length A - 1)) acc =
  Some (pos (length A - 1 + n), acc * 2 ^ Z.of_nat n + e mod 2 ^ Z.of_nat n).
Proof.
  induction n; intros buf A C e acc Hb HA Hacc Hlt.
  - cbn [fb_exp]. rewrite Nat.add_0_r. cbn [Z.of_nat]. change (2 ^ 0) with 1. rewrite Z.mod_1_r.
    repeat f_equal. lia.
  - cbn [fb_exp]. rewrite shift_pos.
    assert (LA : S (length A - 1) = length A) by (destruct A; [congruence|cbn; lia]). rewrite LA.
    rewrite bits_cons in Hb.
    rewrite rdbit_pos, Hb, nth_error_app2 by lia. rewrite Nat.sub_diag. cbn [app nth_error].
    assert (Pn : 0 < 2 ^ Z.of_nat n) by (apply pow_pos; lia).
    rewrite Nat2Z.inj_succ, Z.pow_succ_r in Hlt |- * by lia.
    set (b := Z.odd (e / 2 ^ Z.of_nat n)) in *.
    assert (M : e mod (2 * 2 ^ Z.of_nat n) = (if b then 1 else 0) * 2 ^ Z.of_nat n + e mod 2 ^ Z.of_nat n).
    { rewrite (Z.mul_comm 2), Z.rem_mul_r by lia. rewrite Zmod_odd. fold b. lia. }
    pose proof (Z.mod_pos_bound e (2 ^ Z.of_nat n) Pn).
    rewrite M in Hlt |- *.
    assert (W : s16 (acc * 2) = acc * 2) by (apply s16_id; destruct b; nia).
    rewrite W.
    replace (if b then s16 (acc * 2 + 1) else acc * 2) with (acc * 2 + (if b then 1 else 0)).
    2:{ destruct b; [rewrite s16_id by nia; reflexivity|lia]. }
    specialize (IHn buf (A ++ [b]) C e (acc * 2 + (if b then 1 else 0))).
    rewrite app_length, Nat.add_1_r in IHn. cbn [Nat.sub] in IHn. rewrite Nat.sub_0_r in IHn.
    rewrite IHn.
    + f_equal. f_equal; [f_equal; lia|ring].
    + rewrite Hb, <- app_assoc. reflexivity.
    + intros H0. destruct A; discriminate.
    + destruct b; lia.
    + destruct b; nia.
Qed.

Lemma fb_sig_ok n : forall buf A C x k,
  bits_of buf = A ++ bits n x ++ C -> A <> [] -> 0 <= x -> short fp x ->
  0 <= k -> k + Z.of_nat n <= U -> x < 2 * 2 ^ (k + Z.of_nat n) ->
  fb_sig fp n buf (pos (length A - 1)) (Fin false (2 ^ (U - k))) (Fin false (x / 2 ^ Z.of_nat n * 2 ^ (U - k))) =
  Some (Fin false (x * 2 ^ (U - k - Z.of_nat n))).
Proof.
  induction n; intros buf A C x k Hb HA Hx Hs Hk HkU Hlt.
  - cbn [fb_sig Z.of_nat]. change (2 ^ 0) with 1. rewrite Z.div_1_r, Z.sub_0_r. reflexivity.
  - cbn [fb_sig]. rewrite shift_pos.
    assert (LA : S (length A - 1) = length A) by (destruct A; [congruence|cbn; lia]). rewrite LA.
    rewrite bits_cons in Hb.
    rewrite rdbit_pos, Hb, nth_error_app2 by lia. rewrite Nat.sub_diag. cbn [app nth_error].
    assert (Pn : 0 < 2 ^ Z.of_nat n) by (apply pow_pos; lia).
    assert (PS : 2 ^ Z.of_nat (S n) = 2 ^ Z.of_nat n * 2)
      by (rewrite Nat2Z.inj_succ, Z.pow_succ_r by lia; ring).
    assert (PU : 2 ^ (U - k) = 2 * 2 ^ (U - (k + 1))).
    { rewrite <- Z.pow_succ_r by lia. f_equal. lia. }
    pose proof (pow_pos (U - (k + 1)) ltac:(lia)) as PK.
    assert (PK1 : 2 ^ (U - (k + 1)) * 2 ^ (k + 1) = 2 ^ U) by (rewrite <- pow_add by lia; f_equal; lia).
    set (b := Z.odd (x / 2 ^ Z.of_nat n)) in *.
    assert (D : x / 2 ^ Z.of_nat n = 2 * (x / 2 ^ Z.of_nat (S n)) + (if b then 1 else 0)).
    { rewrite PS, <- Z.div_div by lia. rewrite (Z.div_mod (x / 2 ^ Z.of_nat n) 2) at 1 by lia.
      rewrite Zmod_odd. fold b. reflexivity. }
    assert (Y : 0 <= x / 2 ^ Z.of_nat n < 2 * 2 ^ (k + 1)).
    { split; [apply Z.div_pos; lia|]. apply Z.div_lt_upper_bound; [lia|].
      replace (k + Z.of_nat (S n)) with (k + 1 + Z.of_nat n) in Hlt by lia.
      rewrite pow_add in Hlt by lia. lia. }
    assert (B : x / 2 ^ Z.of_nat n * 2 ^ (U - (k + 1)) < 2 ^ (U + fp_top fp)).
    { apply below_top. rewrite two_U. nia. }
    assert (P1 : 2 <= 2 ^ (k + 1)) by (rewrite pow_add by lia; pose proof (pow_pos k ltac:(lia)); lia).
    rewrite PU. rewrite half_exact.
    2:{ exists 1, (U - (k + 1)). split; [|split; lia]. split; [lia|]. apply Z.pow_gt_1; lia. }
    2:{ lia. }
    2:{ apply below_top. rewrite two_U, <- PK1. clear - PK P1. nia. }
    replace (if b then add_of fp (Fin false (x / 2 ^ Z.of_nat (S n) * (2 * 2 ^ (U - (k + 1))))) (Fin false (2 ^ (U - (k + 1))))
             else Fin false (x / 2 ^ Z.of_nat (S n) * (2 * 2 ^ (U - (k + 1)))))
      with (Fin false (x / 2 ^ Z.of_nat n * 2 ^ (U - (k + 1)))).
    2:{ assert (0 <= x / 2 ^ Z.of_nat (S n)) by (apply Z.div_pos; lia).
        destruct b.
        - cbn [add_of].
          replace (x / 2 ^ Z.of_nat (S n) * (2 * 2 ^ (U - (k + 1))) + 2 ^ (U - (k + 1)))
            with (x / 2 ^ Z.of_nat n * 2 ^ (U - (k + 1))) by (rewrite D; ring).
          assert (NN : 0 <= x / 2 ^ Z.of_nat n * 2 ^ (U - (k + 1))) by (apply Z.mul_nonneg_nonneg; lia).
          rewrite Z.abs_eq by lia. destruct (Z.ltb_spec (x / 2 ^ Z.of_nat n * 2 ^ (U - (k + 1))) 0); [lia|].
          symmetry. apply fit_exact; try assumption; try lia.
          apply short_scale; [lia|]. apply short_div; try lia. assumption.
        - f_equal. rewrite D. ring. }
    specialize (IHn buf (A ++ [b]) C x (k + 1)).
    rewrite app_length, Nat.add_1_r in IHn. cbn [Nat.sub] in IHn. rewrite Nat.sub_0_r in IHn.
    rewrite IHn; try assumption; try lia.
    + do 4 f_equal. lia.
    + rewrite Hb, <- app_assoc. reflexivity.
    + intros H0. destruct A; discriminate.
    + replace (k + 1 + Z.of_nat n) with (k + Z.of_nat (S n)) by lia. assumption.
Qed.

Lemma mul_exact s t n m r :
  short fp r -> r < 2 ^ (U + fp_top fp) -> n * m = r * 2 ^ U -> mul_of fp (Fin s n) (Fin t m) = Fin (xorb s t) r.
Proof. intros. cbn [mul_of]. apply fit_exact; try assumption. Qed.

(** Everything the reader does with a bit string whose significand has no more bits than the platform. *)
Lemma read_gen s e f buf E F C :
  fp_top fp < 32768 ->
  (1 <= E <= 15)%nat -> Z.of_nat F <= U ->
  bits_of buf = layout E F s e f ++ C -> 0 <= e < 2 ^ Z.of_nat E -> 0 <= f < 2 ^ Z.of_nat F ->
  let x := (if e =? 0 then 0 else 2 ^ Z.of_nat F) + f in
  short fp x ->
  float_from_bytes fp buf E F =
  Some (mul_of fp (Fin s (x * 2 ^ (U - Z.of_nat F))) (pow2 fp (e - bias E))).
Proof.
  intros Ht2 HE HF Hb He Hf x Hs. unfold float_from_bytes.
  assert (E15 : 2 ^ Z.of_nat E <= 2 ^ 15) by (apply Z.pow_le_mono_r; lia). change (2 ^ 15) with 32768 in E15.
  pose proof (rdbit_pos buf 0) as R0. rewrite Hb in R0. cbn [layout app nth_error] in R0.
  unfold rdbit in R0. change (fst (pos 0)) with 0%nat in R0. change (snd (pos 0)) with 128 in R0.
  destruct (nth_error buf 0) as [b0|]; [|discriminate]. injection R0 as R0.
  unfold layout in Hb. cbn [app] in Hb. rewrite <- app_assoc in Hb.
  pose proof (fb_exp_ok E buf [s] (bits F f ++ C) e 0) as X.
  rewrite Z.mod_small in X by lia. cbn [length Nat.sub] in X. rewrite Z.mul_0_l, Z.add_0_l in X.
  change (pos 0) with (0%nat, 128) in X. rewrite X; try lia; try congruence; [|exact Hb].
  clear X. cbn [Nat.add].
  pose proof (pow_pos (Z.of_nat F) ltac:(lia)) as PF.
  assert (Dx : x / 2 ^ Z.of_nat F = if e =? 0 then 0 else 1).
  { unfold x. destruct (e =? 0).
    - rewrite Z.add_0_l. apply Z.div_small. lia.
    - symmetry. apply Z.div_unique_pos with f; lia. }
  pose proof (fb_sig_ok F buf (s :: bits E e) C x 0) as X.
  replace (length (s :: bits E e) - 1)%nat with E in X by (cbn; rewrite bits_length; lia).
  rewrite Dx, Z.sub_0_r, Z.add_0_l in X.
  replace (if e =? 0 then zero else one fp) with (Fin false ((if e =? 0 then 0 else 1) * 2 ^ U)).
  2:{ unfold zero, one. destruct (e =? 0); f_equal; lia. }
  unfold one at 1.
  rewrite X; try lia; try congruence.
  2:{ rewrite Hb. cbn [app]. do 3 f_equal. apply bits_mod. unfold x.
      destruct (e =? 0); [reflexivity|].
      replace (2 ^ Z.of_nat F + f) with (f + 1 * 2 ^ Z.of_nat F) by ring. rewrite Z.mod_add by lia. reflexivity. }
  2:{ unfold x. destruct (e =? 0); lia. }
  2:{ unfold x. destruct (e =? 0); lia. }
  f_equal. clear X.
  assert (B1 : 0 <= 2 ^ (Z.of_nat E - 1) <= 16384).
  { split; [apply Z.pow_nonneg; lia|]. change 16384 with (2 ^ 14). apply Z.pow_le_mono_r; lia. }
  unfold bias. rewrite (s16_id (2 ^ (Z.of_nat E - 1) - 1)) by lia. rewrite s16_id by lia.
  f_equal. rewrite R0.
  replace (if s then neg_of (one fp) else one fp) with (Fin s (2 ^ U)) by (destruct s; reflexivity).
  pose proof (pow_pos (U - Z.of_nat F) ltac:(lia)) as PUF.
  assert (x * 2 ^ (U - Z.of_nat F) < 2 ^ (U + fp_top fp)).
  { apply below_top. rewrite two_U. replace U with (Z.of_nat F + (U - Z.of_nat F)) at 2 by lia.
    rewrite pow_add by lia. unfold x. destruct (e =? 0); nia. }
  rewrite (mul_exact s false _ _ (x * 2 ^ (U - Z.of_nat F))); [|apply short_scale; [lia|assumption]|assumption|ring].
  now rewrite xorb_false_r.
Qed.

End FP.

(* ------------------------------------------------------------------ normal numbers *)

Lemma same_elim fp n m q : same fp n m q ->
  exists a b, 0 <= a /\ 0 <= b /\ b - a = fp_unit fp + q /\ n * 2 ^ a = m * 2 ^ b.
Proof.
  unfold same. intros H. exists (Z.max 0 (- (fp_unit fp + q))), (Z.max 0 (fp_unit fp + q)).
  split; [lia|]. split; [lia|]. split; [lia|assumption].
Qed.

Lemma normal_facts fp E F n e f :
  is_num fp n -> normal fp E F n e f ->
  0 < n /\ Z.log2 n = e - bias E + fp_unit fp /\
  n * 2 ^ Z.of_nat F = (2 ^ Z.of_nat F + f) * 2 ^ Z.log2 n /\ short fp (2 ^ Z.of_nat F + f).
Proof.
  intros [Hs Hn] (He & Hf & H). apply same_elim in H. destruct H as (a & b & Ha & Hb & D & H).
  pose proof (pow_pos a Ha). pose proof (pow_pos b Hb). pose proof (pow_pos (Z.of_nat F) ltac:(lia)).
  assert (Hn0 : 0 < n) by nia.
  assert (LX : Z.log2 (2 ^ Z.of_nat F + f) = Z.of_nat F).
  { apply Z.log2_unique; [lia|]. rewrite Z.pow_succ_r by lia. lia. }
  assert (LL : Z.log2 n + a = Z.of_nat F + b).
  { assert (K : Z.log2 (n * 2 ^ a) = Z.log2 ((2 ^ Z.of_nat F + f) * 2 ^ b)) by now rewrite H.
    rewrite !Z.log2_mul_pow2 in K by lia. lia. }
  assert (L : Z.log2 n = e - bias E + fp_unit fp) by lia.
  assert (L0 : 0 <= Z.log2 n) by apply Z.log2_nonneg.
  assert (M : n * 2 ^ Z.of_nat F = (2 ^ Z.of_nat F + f) * 2 ^ Z.log2 n).
  { apply (Z.mul_reg_r _ _ (2 ^ a)); [lia|].
    replace (n * 2 ^ Z.of_nat F * 2 ^ a) with (n * 2 ^ a * 2 ^ Z.of_nat F) by ring.
    rewrite H, <- !Z.mul_assoc, <- !pow_add by lia. f_equal. f_equal. lia. }
  split; [assumption|]. split; [assumption|]. split; [assumption|].
  apply (short_unscale fp _ (Z.log2 n)); [lia|lia|].
  rewrite <- M. apply short_scale; [lia|assumption].
Qed.

Lemma bias_bound E : (1 <= E <= 15)%nat -> 0 <= bias E <= 16383 /\ 2 ^ Z.of_nat E = 2 * bias E + 2.
Proof.
  intros H. unfold bias.
  assert (2 ^ (Z.of_nat E - 1) <= 2 ^ 14) by (apply Z.pow_le_mono_r; lia). change (2 ^ 14) with 16384 in *.
  pose proof (pow_pos (Z.of_nat E - 1) ltac:(lia)).
  replace (Z.of_nat E) with (1 + (Z.of_nat E - 1)) at 3 by lia. rewrite pow_add by lia. lia.
Qed.

Lemma log2_num fp n : sane fp -> is_num fp n -> 0 < n -> 0 <= Z.log2 n < fp_unit fp + fp_top fp.
Proof.
  intros (S1 & S2 & S3 & _) [_ H] H0. split; [apply Z.log2_nonneg|]. apply Z.log2_lt_pow2; lia.
Qed.

(** [write_gen] for the platforms. *)
Lemma write_any fp s n buf E F :
  sane fp -> (1 <= E <= 15)%nat -> (0 < F)%nat -> Z.of_nat F < 65536 ->
  is_num fp n -> 0 < n -> bytes buf -> (size_of E F <= length buf)%nat ->
  exists fuel0 out, (forall fuel, (fuel0 <= fuel)%nat -> float_to_bytes fp fuel (Fin s n) buf E F = WOk out) /\
    bytes out /\ length out = length buf /\
    bits_of out = layout E F s (clamp E (Z.log2 n - fp_unit fp + bias E))
                    (n * 2 ^ Z.of_nat F / 2 ^ Z.log2 n - 2 ^ Z.of_nat F)
                  ++ repeat false (pad E F) ++ bits_of (skipn (size_of E F) buf).
Proof.
  intros S HE HF HF2 Hn Hn0 Hb Hl. pose proof (log2_num fp n S Hn Hn0).
  destruct S as (S1 & S2 & S3 & _). pose proof (bias_bound E HE).
  apply write_gen; try assumption; lia.
Qed.

Lemma write_normal fp s n e f buf E F :
  sane fp -> usable fp E F -> is_num fp n -> normal fp E F n e f -> bytes buf -> (size_of E F <= length buf)%nat ->
  exists fuel0 out, (forall fuel, (fuel0 <= fuel)%nat -> float_to_bytes fp fuel (Fin s n) buf E F = WOk out) /\
    bytes out /\ length out = length buf /\
    bits_of out = layout E F s e f ++ repeat false (pad E F) ++ bits_of (skipn (size_of E F) buf).
Proof.
  intros S (V1 & V2 & V3) Hn N Hb Hl.
  destruct (normal_facts _ _ _ _ _ _ Hn N) as (H1 & H2 & H3 & H4).
  destruct N as (He & Hf & _). pose proof (bias_bound E ltac:(lia)) as BB.
  assert (F65 : Z.of_nat F < 65536) by (destruct S; lia).
  destruct (write_any fp s n buf E F S ltac:(lia) V2 F65 Hn H1 Hb Hl) as (f0 & out & W & B & L & T).
  exists f0, out. split; [assumption|]. split; [assumption|]. split; [assumption|]. rewrite T. f_equal.
  pose proof (pow_pos (Z.log2 n) (Z.log2_nonneg n)).
  rewrite H3, Z.div_mul by lia. f_equal; [unfold clamp; lia|lia].
Qed.

Lemma pow2_in fp k : fp_lo fp <= k <= fp_hi fp -> pow2 fp k = Fin false (2 ^ (fp_unit fp + k)).
Proof.
  intros H. unfold pow2. destruct (Z.ltb_spec k (fp_lo fp)); [lia|]. destruct (Z.ltb_spec (fp_hi fp) k); [lia|reflexivity].
Qed.

Lemma read_normal fp s n e f buf E F C :
  sane fp -> serves fp E F -> is_num fp n -> normal fp E F n e f ->
  bits_of buf = layout E F s e f ++ C ->
  float_from_bytes fp buf E F = Some (Fin s n).
Proof.
  intros S ((V1 & V2 & V3) & V4 & V5) Hn N T.
  destruct (normal_facts _ _ _ _ _ _ Hn N) as (H1 & H2 & H3 & H4).
  destruct N as (He & Hf & _). pose proof (bias_bound E ltac:(lia)) as BB.
  pose proof (log2_num fp n S Hn H1) as LN.
  destruct S as (S1 & S2 & S3 & S4 & S5).
  assert (E0 : (e =? 0) = false) by (apply Z.eqb_neq; lia).
  rewrite (read_gen fp ltac:(lia) ltac:(lia) ltac:(lia) s e f buf E F C); try assumption; try lia;
    [|rewrite E0; assumption].
  rewrite E0, pow2_in by lia.
  replace (fp_unit fp + (e - bias E)) with (Z.log2 n) by lia.
  f_equal. destruct Hn as [Hs Hn].
  rewrite (mul_exact fp ltac:(lia) ltac:(lia) s false _ _ n); [now rewrite xorb_false_r|assumption|lia|].
  replace ((2 ^ Z.of_nat F + f) * 2 ^ (fp_unit fp - Z.of_nat F) * 2 ^ Z.log2 n)
    with ((2 ^ Z.of_nat F + f) * 2 ^ Z.log2 n * 2 ^ (fp_unit fp - Z.of_nat F)) by ring.
  rewrite <- H3, <- Z.mul_assoc, <- pow_add by lia. f_equal. f_equal. lia.
Qed.

(* ------------------------------------------------------------------ the other numbers *)

Lemma read_zero_field fp s f buf E F C :
  sane fp -> serves fp E F -> fp_lo fp <= - bias E -> bias E + Z.of_nat F <= fp_unit fp ->
  short fp f -> 0 <= f < 2 ^ Z.of_nat F ->
  bits_of buf = layout E F s 0 f ++ C ->
  float_from_bytes fp buf E F = Some (Fin s (f * 2 ^ (fp_unit fp - Z.of_nat F - bias E))).
Proof.
  intros S ((V1 & V2 & V3) & V4 & V5) Hlo HU Hs Hf T.
  pose proof (bias_bound E ltac:(lia)) as BB. destruct S as (S1 & S2 & S3 & S4 & S5).
  rewrite (read_gen fp ltac:(lia) ltac:(lia) ltac:(lia) s 0 f buf E F C); try assumption; try lia.
  cbn [Z.eqb]. rewrite Z.add_0_l. rewrite pow2_in by lia. f_equal.
  pose proof (pow_pos (fp_unit fp - Z.of_nat F - bias E) ltac:(lia)).
  assert (PU : 2 ^ fp_unit fp = 2 ^ (fp_unit fp - Z.of_nat F - bias E) * 2 ^ (Z.of_nat F + bias E))
    by (rewrite <- pow_add by lia; f_equal; lia).
  assert (PF : 2 ^ (Z.of_nat F + bias E) = 2 ^ Z.of_nat F * 2 ^ bias E) by (apply pow_add; lia).
  pose proof (pow_pos (bias E) ltac:(lia)). pose proof (pow_pos (Z.of_nat F) ltac:(lia)).
  assert (f * 2 ^ (fp_unit fp - Z.of_nat F - bias E) < 2 ^ (fp_unit fp + fp_top fp)).
  { apply below_top; [lia|lia|]. rewrite pow_add by lia. change (2 ^ 1) with 2. rewrite PU, PF.
    revert Hf H H0 H1. clear. generalize (2 ^ Z.of_nat F), (2 ^ bias E), (2 ^ (fp_unit fp - Z.of_nat F - bias E)).
    intros. assert (z1 * z <= z1 * (z * z0)) by nia. nia. }
  rewrite (mul_exact fp ltac:(lia) ltac:(lia) s false _ _ (f * 2 ^ (fp_unit fp - Z.of_nat F - bias E)));
    [now rewrite xorb_false_r|apply short_scale; [lia|assumption]|assumption|].
  rewrite <- !Z.mul_assoc, <- !pow_add by lia. f_equal. f_equal. lia.
Qed.

Lemma read_ones_field fp s f buf E F C :
  sane fp -> serves fp E F -> bias E + 1 <= fp_hi fp -> bias E + 1 < fp_top fp ->
  short fp (2 ^ Z.of_nat F + f) -> 0 <= f < 2 ^ Z.of_nat F ->
  bits_of buf = layout E F s (2 ^ Z.of_nat E - 1) f ++ C ->
  float_from_bytes fp buf E F =
  Some (Fin s ((2 ^ Z.of_nat F + f) * 2 ^ (fp_unit fp - Z.of_nat F + bias E + 1))).
Proof.
  intros S ((V1 & V2 & V3) & V4 & V5) Hhi Htop Hs Hf T.
  pose proof (bias_bound E ltac:(lia)) as BB. destruct S as (S1 & S2 & S3 & S4 & S5).
  assert (E0 : (2 ^ Z.of_nat E - 1 =? 0) = false) by (apply Z.eqb_neq; lia).
  rewrite (read_gen fp ltac:(lia) ltac:(lia) ltac:(lia) s (2 ^ Z.of_nat E - 1) f buf E F C); try assumption; try lia;
    [|rewrite E0; assumption].
  rewrite E0. rewrite pow2_in by lia. f_equal.
  pose proof (pow_pos (fp_unit fp - Z.of_nat F + bias E + 1) ltac:(lia)).
  assert (PU : 2 ^ (fp_unit fp + bias E + 2) = 2 ^ (fp_unit fp - Z.of_nat F + bias E + 1) * (2 * 2 ^ Z.of_nat F)).
  { rewrite <- Z.pow_succ_r, <- pow_add by lia. f_equal. lia. }
  pose proof (pow_pos (Z.of_nat F) ltac:(lia)).
  assert (2 ^ (fp_unit fp + bias E + 2) <= 2 ^ (fp_unit fp + fp_top fp)) by (apply Z.pow_le_mono_r; lia).
  rewrite (mul_exact fp ltac:(lia) ltac:(lia) s false _ _ ((2 ^ Z.of_nat F + f) * 2 ^ (fp_unit fp - Z.of_nat F + bias E + 1)));
    [now rewrite xorb_false_r|apply short_scale; [lia|assumption]|nia|].
  rewrite <- !Z.mul_assoc, <- !pow_add by lia. f_equal. f_equal. lia.
Qed.

Lemma subnormal_facts fp E F n f :
  is_num fp n -> subnormal fp E F n f -> bias E + Z.of_nat F <= fp_unit fp ->
  0 < n /\ n = f * 2 ^ (fp_unit fp + 1 - bias E - Z.of_nat F) /\ short fp f /\
  Z.log2 n - fp_unit fp + bias E = Z.log2 f + 1 - Z.of_nat F /\ 0 <= Z.log2 f < Z.of_nat F /\
  n * 2 ^ Z.of_nat F = f * 2 ^ (Z.of_nat F - Z.log2 f) * 2 ^ Z.log2 n.
Proof.
  intros [Hs Hn] [Hf H] HU. unfold same in H.
  rewrite Z.max_l, Z.max_r in H by lia. change (2 ^ 0) with 1 in H. rewrite Z.mul_1_r in H.
  replace (fp_unit fp + (1 - bias E - Z.of_nat F)) with (fp_unit fp + 1 - bias E - Z.of_nat F) in H by lia.
  set (t := fp_unit fp + 1 - bias E - Z.of_nat F) in *. assert (0 <= t) by lia.
  pose proof (pow_pos t ltac:(lia)).
  assert (LF : 0 <= Z.log2 f < Z.of_nat F) by (split; [apply Z.log2_nonneg|apply Z.log2_lt_pow2; lia]).
  assert (LN : Z.log2 n = Z.log2 f + t) by (rewrite H, Z.log2_mul_pow2 by lia; lia).
  split; [nia|]. split; [assumption|]. split; [|split; [lia|split; [assumption|]]].
  - apply (short_unscale fp f t); [lia|lia|]. now rewrite <- H.
  - rewrite LN, H. rewrite <- !Z.mul_assoc, <- !pow_add by lia. f_equal. f_equal. lia.
Qed.

(** What a subnormal number becomes. *)
Lemma subnormal_trip fp s n f buf E F :
  sane fp -> serves fp E F -> fp_lo fp <= - bias E -> bias E + Z.of_nat F <= fp_unit fp ->
  is_num fp n -> subnormal fp E F n f -> bytes buf -> (size_of E F <= length buf)%nat ->
  exists fuel0 out, (forall fuel, (fuel0 <= fuel)%nat -> float_to_bytes fp fuel (Fin s n) buf E F = WOk out) /\
    float_from_bytes fp out E F =
    Some (Fin s ((f - 2 ^ Z.log2 f) * 2 ^ (fp_unit fp - bias E - Z.log2 f))).
Proof.
  intros S V Hlo HU Hn Sn Hb Hl.
  destruct (subnormal_facts _ _ _ _ _ Hn Sn HU) as (H1 & H2 & H3 & H4 & H5 & H6).
  destruct Sn as [Hf _].
  assert (F65 : Z.of_nat F < 65536) by (destruct S, V as [[] _]; lia).
  assert (HE : (2 <= E <= 15)%nat) by (destruct V as [[] _]; lia).
  pose proof (bias_bound E ltac:(lia)) as BB.
  destruct (write_any fp s n buf E F S ltac:(lia) ltac:(lia) F65 Hn H1 Hb Hl) as (f0 & out & W & B & L & T).
  exists f0, out. split; [assumption|].
  set (p := Z.log2 f) in *.
  pose proof (pow_pos (Z.log2 n) (Z.log2_nonneg n)).
  assert (LS : 2 ^ p <= f < 2 ^ Z.succ p) by (apply Z.log2_spec; lia). rewrite Z.pow_succ_r in LS by lia.
  assert (PF : 2 ^ Z.of_nat F = 2 ^ p * 2 ^ (Z.of_nat F - p)) by (rewrite <- pow_add by lia; f_equal; lia).
  pose proof (pow_pos (Z.of_nat F - p) ltac:(lia)).
  rewrite H6, Z.div_mul in T by lia.
  replace (f * 2 ^ (Z.of_nat F - p) - 2 ^ Z.of_nat F) with ((f - 2 ^ p) * 2 ^ (Z.of_nat F - p)) in T by (rewrite PF; ring).
  replace (clamp E (Z.log2 n - fp_unit fp + bias E)) with 0 in T by (unfold clamp; lia).
  rewrite (read_zero_field fp s _ out E F _ S V Hlo HU) with (3 := T).
  - rewrite <- Z.mul_assoc, <- pow_add by lia. do 4 f_equal. lia.
  - apply short_scale; [lia|]. replace (f - 2 ^ p) with (f mod 2 ^ p).
    + apply short_mod; try lia. assumption.
    + symmetry. apply Z.mod_unique_pos with 1; lia.
  - nia.
Qed.

Lemma pow2_odd_factor k m x : 0 < k -> 0 <= m -> 0 < x -> x * (2 ^ k - 1) = 2 ^ m -> k = 1.
Proof.
  intros Hk Hm Hx H.
  assert (P : 2 ^ k = 2 * 2 ^ (k - 1)) by (rewrite <- Z.pow_succ_r by lia; f_equal; lia).
  pose proof (pow_pos (k - 1) ltac:(lia)).
  destruct (Z.eq_dec k 1) as [|Hk1]; [assumption|exfalso].
  assert (2 <= 2 ^ (k - 1)).
  { change 2 with (2 ^ 1) at 1. apply Z.pow_le_mono_r; lia. }
  revert x Hx H. pattern m. apply natlike_ind; [| |assumption].
  - intros x Hx Heq. change (2 ^ 0) with 1 in Heq. nia.
  - intros i Hi IH x Hx Heq. rewrite Z.pow_succ_r in Heq by lia.
    assert (Ev : Z.even x = true).
    { assert (Q : Z.even (x * (2 ^ k - 1)) = true) by (rewrite Heq, Z.even_mul; reflexivity).
      rewrite Z.even_mul in Q. rewrite P in Q.
      replace (2 * 2 ^ (k - 1) - 1) with (2 * (2 ^ (k - 1) - 1) + 1) in Q by ring.
      rewrite Z.even_add_mul_2 in Q || (rewrite Z.add_comm, Z.even_add_mul_2 in Q).
      now rewrite orb_false_r in Q. }
    apply Z.even_spec in Ev. destruct Ev as [y ->].
    apply (IH y); [lia|]. nia.
Qed.

Lemma subnormal_lost f p F : 0 < f -> 2 ^ p <= f < 2 * 2 ^ p -> 0 <= p < F -> (f - 2 ^ p) * 2 ^ (F - p) <> 2 * f.
Proof.
  intros Hf Hp HF H.
  assert (P : 2 ^ (F - p) = 2 * 2 ^ (F - p - 1)) by (rewrite <- Z.pow_succ_r by lia; f_equal; lia).
  assert (K : f * (2 ^ (F - p - 1) - 1) = 2 ^ (p + (F - p - 1))) by (rewrite pow_add by lia; nia).
  destruct (Z.eq_dec (F - p - 1) 0) as [Hz|Hz].
  - rewrite Hz in K. change (2 ^ 0) with 1 in K. pose proof (pow_pos (p + 0) ltac:(lia)). lia.
  - assert (k1 : F - p - 1 = 1) by (apply (pow2_odd_factor (F - p - 1) (p + (F - p - 1)) f); try lia; assumption).
    rewrite k1 in K. change (2 ^ 1) with 2 in K. rewrite pow_add in K by lia. change (2 ^ 1) with 2 in K. lia.
Qed.

(* ------------------------------------------------------------------ infinities and NaNs *)

Lemma down_inf fp fuel ex : tb_down fp fuel (Inf false) ex = None.
Proof. revert ex. induction fuel; intros; [reflexivity|]. cbn. apply IHfuel. Qed.

Lemma frac_nan fp fuel F buf p nb ex : nb < Z.of_nat F -> tb_frac fp fuel F buf p NaN false nb ex = SRunning.
Proof.
  revert ex. induction fuel; intros ex H; [reflexivity|]. cbn.
  destruct (Z.ltb_spec nb (Z.of_nat F)); [|lia]. apply IHfuel. assumption.
Qed.

Lemma write_endless fp fuel v buf E F :
  (0 < F)%nat -> (size_of E F <= length buf)%nat -> (v = NaN \/ exists s, v = Inf s) ->
  float_to_bytes fp fuel v buf E F = WRunning.
Proof.
  intros HF Hl H. unfold float_to_bytes. destruct (Nat.ltb_spec (length buf) (size_of E F)); [lia|].
  destruct H as [->|[s ->]].
  - cbn [lt0]. destruct fuel; [reflexivity|]. cbn [tb_down ge1]. rewrite frac_nan by lia. reflexivity.
  - destruct s; cbn [lt0 neg_of negb]; rewrite down_inf; reflexivity.
Qed.
