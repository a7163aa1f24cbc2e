(** Properties of the floating point codecs. *)
From Coq Require Import ZArith List Bool Lia.
From Verif Require Import Base FloatModel FloatSpec FloatProofs.
Import ListNotations.

Lemma holds_intro E F s e f buf out :
  length out = length buf ->
  bits_of out = layout E F s e f ++ repeat false (pad E F) ++ bits_of (skipn (size_of E F) buf) ->
  holds E F s e f buf out.
Proof.
  intros L T. split; [assumption|]. exists (pad E F), (size_of E F). destruct (size_spec E F) as [S1 S2].
  split; [|split; assumption].
  unfold pad, size_of. pose proof (Nat.div_mod (E + F + 8) 8 ltac:(lia)).
  pose proof (Nat.mod_upper_bound (E + F + 8) 8 ltac:(lia)). lia.
Qed.

Lemma usable_serves fp E F : serves fp E F -> usable fp E F.
Proof. intros [H _]. exact H. Qed.

Lemma served_ok fp E F : In (fp, (E, F)) served -> sane fp /\ serves fp E F.
Proof.
  unfold served. cbn [In]. intros H.
  repeat (destruct H as [H|H]; [injection H as <- <- <-; unfold sane, serves, usable, bias; cbn; lia|]). destruct H.
Qed.

Lemma sane_all : sane x87 /\ sane x87_narrow /\ sane quad /\ sane dbl.
Proof. unfold sane. cbn. lia. Qed.

(** ** C77 *)

(** A normal number is written as IEEE 754 has it, and nothing outside its bytes is touched. *)
Theorem C77_layout fp E F s n e f buf :
  sane fp -> usable fp E F -> is_num fp n -> normal fp E F n e f -> bytes buf -> (size_of E F <= length buf)%nat ->
  exists out, writes fp (Fin s n) buf E F out /\ holds E F s e f buf out.
Proof.
  intros. destruct (write_normal fp s n e f buf E F) as (f0 & out & W & B & L & T); try assumption.
  exists out. split; [exists f0; exact W|]. apply holds_intro; assumption.
Qed.
Print Assumptions C77_layout.

(** What was written is read back, whenever the powers of two the reader needs exist. *)
Theorem C77_round_trip_partial fp E F s n e f buf :
  sane fp -> serves fp E F -> is_num fp n -> normal fp E F n e f -> bytes buf -> (size_of E F <= length buf)%nat ->
  exists out, writes fp (Fin s n) buf E F out /\ float_from_bytes fp out E F = Some (Fin s n).
Proof.
  intros S V N M B L. destruct (write_normal fp s n e f buf E F) as (f0 & out & W & B' & L' & T); try assumption.
  { apply usable_serves; assumption. }
  exists out. split; [exists f0; exact W|]. apply (read_normal fp s n e f out E F _ S V N M T).
Qed.
Print Assumptions C77_round_trip_partial.

(** That is the case for the formats of the library on the platforms listed in [served]. *)
Theorem C77_formats_partial fp E F s n e f buf :
  In (fp, (E, F)) served -> is_num fp n -> normal fp E F n e f -> bytes buf -> (size_of E F <= length buf)%nat ->
  exists out, writes fp (Fin s n) buf E F out /\ float_from_bytes fp out E F = Some (Fin s n).
Proof. intros V. destruct (served_ok fp E F V) as [S V']. apply C77_round_trip_partial; assumption. Qed.
Print Assumptions C77_formats_partial.

(** Where the powers do not reach (128 bits, the [double] function), larger numbers are read as infinite and
    smaller ones as zero. *)
Theorem C77_reach_partial fp E F s n e f buf :
  sane fp -> usable fp E F -> is_num fp n -> normal fp E F n e f -> bytes buf -> (size_of E F <= length buf)%nat ->
  exists out, writes fp (Fin s n) buf E F out /\
    (fp_hi fp < e - bias E -> float_from_bytes fp out E F = Some (Inf s)) /\
    (e - bias E < fp_lo fp -> float_from_bytes fp out E F = Some (Fin s 0)).
Proof.
  intros S V N M B L. destruct (write_normal fp s n e f buf E F) as (f0 & out & W & B' & L' & T); try assumption.
  exists out. split; [exists f0; exact W|].
  destruct (normal_facts _ _ _ _ _ _ N M) as (H1 & H2 & H3 & H4).
  destruct M as (He & Hf & _). destruct V as (V1 & V2 & V3). pose proof (bias_bound E ltac:(lia)) as BB.
  destruct S as (S1 & S2 & S3 & S4 & S5).
  assert (E0 : (e =? 0) = false) by (apply Z.eqb_neq; lia).
  assert (R : float_from_bytes fp out E F = Some (mul_of fp (Fin s ((2 ^ Z.of_nat F + f) * 2 ^ (fp_unit fp - Z.of_nat F))) (pow2 fp (e - bias E)))).
  { rewrite (read_gen fp ltac:(lia) ltac:(lia) ltac:(lia) s e f out E F _ ltac:(lia) ltac:(lia) V3 T);
      rewrite ?E0; try assumption; try lia. reflexivity. }
  pose proof (pow_pos (Z.of_nat F) ltac:(lia)). pose proof (pow_pos (fp_unit fp - Z.of_nat F) ltac:(lia)).
  rewrite R. unfold pow2. split; intros K.
  - destruct (Z.ltb_spec (e - bias E) (fp_lo fp)).
    { lia. }
    destruct (Z.ltb_spec (fp_hi fp) (e - bias E)); [|lia]. cbn [mul_of].
    destruct (Z.eqb_spec ((2 ^ Z.of_nat F + f) * 2 ^ (fp_unit fp - Z.of_nat F)) 0); [nia|].
    now rewrite xorb_false_l.
  - destruct (Z.ltb_spec (e - bias E) (fp_lo fp)); [|lia]. unfold zero.
    rewrite (mul_exact fp ltac:(lia) ltac:(lia) s false _ _ 0); [now rewrite xorb_false_r| | |lia].
    + exists 0, 0. pose proof (pow_pos (fp_prec fp) ltac:(lia)). lia.
    + apply pow_pos. lia.
Qed.
Print Assumptions C77_reach_partial.

Lemma short_pow fp k : sane fp -> 0 <= k -> short fp (2 ^ k).
Proof.
  intros (S1 & _) Hk. exists 1, k. split; [split; [lia|apply Z.pow_gt_1; lia]|]. split; [assumption|lia].
Qed.

(** With the [double] function the claim fails for the 128-bit format. *)
Theorem C77_quad_refuted :
  ~ (forall E F s n e f buf, In (E, F) formats -> is_num x87_narrow n -> normal x87_narrow E F n e f -> bytes buf ->
       (size_of E F <= length buf)%nat ->
       exists out, writes x87_narrow (Fin s n) buf E F out /\ float_from_bytes x87_narrow out E F = Some (Fin s n)).
Proof.
  intros H.
  assert (B : bytes (repeat 0 16)) by (apply Forall_forall; intros x Hx; apply repeat_spec in Hx; lia).
  assert (SN : sane x87_narrow) by apply sane_all.
  assert (exists n, is_num x87_narrow n /\ normal x87_narrow 15 112 n (1024 + bias 15) 0) as (n & N & M).
  { exists (2 ^ (fp_unit x87_narrow + 1024)). split; [split|].
    - apply short_pow; [assumption|cbn; lia].
    - split; [apply Z.pow_nonneg; lia|]. apply Z.pow_lt_mono_r; cbn; lia.
    - unfold normal. split; [cbn; lia|]. split; [split; [lia|apply pow_pos; lia]|].
      unfold same. rewrite Z.max_l, Z.max_r by (cbn; lia). change (2 ^ 0) with 1. rewrite Z.mul_1_r, Z.add_0_r.
      rewrite <- pow_add by (cbn; lia). f_equal. }
  destruct (H 15%nat 112%nat false n _ 0 (repeat 0 16) ltac:(right; right; left; reflexivity) N M B) as (out & W & R).
  { cbn. lia. }
  destruct (C77_reach_partial x87_narrow 15 112 false n _ 0 (repeat 0 16) SN ltac:(unfold usable; cbn; lia) N M B)
    as (out' & W' & R' & _).
  { cbn. lia. }
  assert (out' = out) as ->.
  { destruct W as [f1 W], W' as [f2 W']. specialize (W (f1 + f2)%nat ltac:(lia)). specialize (W' (f1 + f2)%nat ltac:(lia)).
    congruence. }
  rewrite R' in R by (cbn; lia). discriminate.
Qed.
Print Assumptions C77_quad_refuted.

(** -13021 as a 32-bit number into the first four of five bytes, as in tests/algorithm_tests.cpp; [long double]
    being [double] keeps the numbers small. *)
Example C77_case :
  float_to_bytes dbl 40 (Fin true (13021 * 2 ^ 1074)) [7; 7; 7; 7; 9] 8 23 = WOk [198; 75; 116; 0; 9] /\
  float_from_bytes dbl [198; 75; 116; 0; 9] 8 23 = Some (Fin true (13021 * 2 ^ 1074)) /\
  is_num dbl (13021 * 2 ^ 1074) /\ normal dbl 8 23 (13021 * 2 ^ 1074) 140 4944896.
Proof.
  split; [vm_compute; reflexivity|]. split; [vm_compute; reflexivity|]. split; [split|].
  - exists 13021, 1074. split; [cbn; lia|]. split; [lia|reflexivity].
  - split; [apply Z.mul_nonneg_nonneg; [lia|apply Z.pow_nonneg; lia]|]. vm_compute. reflexivity.
  - unfold normal. split; [cbn; lia|]. split; [cbn; lia|]. vm_compute. reflexivity.
Qed.

(** ** C109 *)

(** The claim that writing a number ends fails. *)
Theorem C109_ends_refuted :
  ~ (forall v buf, bytes buf -> (size_of 8 23 <= length buf)%nat ->
       exists fuel, float_to_bytes x87 fuel v buf 8 23 <> WRunning).
Proof.
  intros H. destruct (H (Inf false) [0;0;0;0]) as [fuel K].
  - repeat constructor; lia.
  - cbn. lia.
  - apply K. apply write_endless; [lia|cbn; lia|]. right. exists false. reflexivity.
Qed.
Print Assumptions C109_ends_refuted.

(** It ends exactly for the finite numbers, on every platform and for every format, and then never leaves the
    buffer. *)
Theorem C109_ends_partial fp E F v buf :
  sane fp -> (1 <= E <= 15)%nat -> (0 < F)%nat -> Z.of_nat F < 65536 ->
  (forall s n, v = Fin s n -> is_num fp n) -> bytes buf -> (size_of E F <= length buf)%nat ->
  ((exists fuel, float_to_bytes fp fuel v buf E F <> WRunning) <-> exists s n, v = Fin s n) /\
  ((exists s n, v = Fin s n) -> exists out, writes fp v buf E F out /\ length out = length buf).
Proof.
  intros S HE HF HF2 Hv Hb Hl.
  assert (G : (exists s n, v = Fin s n) -> exists out, writes fp v buf E F out /\ length out = length buf).
  { intros (s & n & ->). specialize (Hv s n eq_refl).
    destruct (Z.eq_dec n 0) as [->|Hn].
    - destruct S as (S1 & S2 & S3 & _).
      destruct (write_zero fp ltac:(lia) s buf E F HE Hb Hl) as (out & W & B & L & _).
      exists out. split; [|assumption]. exists 1%nat. intros fuel Hf. apply W. lia.
    - destruct (write_any fp s n buf E F S HE HF HF2 Hv ltac:(destruct Hv; lia) Hb Hl) as (f0 & out & W & B & L & _).
      exists out. split; [|assumption]. exists f0. exact W. }
  split; [|exact G]. split.
  - intros [fuel K]. destruct v as [|s|s n]; [exfalso|exfalso|eauto]; apply K; apply write_endless; auto.
    right. exists s. reflexivity.
  - intros K. destruct (G K) as (out & (f0 & W) & _). exists f0. rewrite W by lia. discriminate.
Qed.
Print Assumptions C109_ends_partial.
Example C109_case :
  float_to_bytes dbl 3 (Fin false (2 ^ 1074)) [7; 7; 7; 7] 8 23 = WOk [63; 128; 0; 0] /\
  float_to_bytes dbl 3000 (Inf true) [7; 7; 7; 7] 8 23 = WRunning /\
  float_to_bytes dbl 3000 NaN [7; 7; 7; 7] 8 23 = WRunning.
Proof. vm_compute. auto. Qed.

(** ** C110 *)

(** Zero is written as a positive zero and read as that. *)
Theorem C110_zero fp E F s buf :
  sane fp -> serves fp E F -> fp_lo fp <= - bias E -> bias E + Z.of_nat F <= fp_unit fp ->
  bytes buf -> (size_of E F <= length buf)%nat ->
  exists out, writes fp (Fin s 0) buf E F out /\ holds E F false 0 0 buf out /\
    float_from_bytes fp out E F = Some (Fin false 0).
Proof.
  intros S V H1 H2 Hb Hl. assert (S' := S). destruct S' as (S1 & S2 & S3 & _).
  assert (HE : (1 <= E <= 15)%nat) by (destruct V as [[] _]; lia).
  destruct (write_zero fp ltac:(lia) s buf E F HE Hb Hl) as (out & W & B & L & T).
  exists out. split; [exists 1%nat; intros; apply W; lia|]. split; [apply holds_intro; assumption|].
  rewrite (read_zero_field fp false 0 out E F _ S V H1 H2) with (3 := T).
  - reflexivity.
  - exists 0, 0. pose proof (pow_pos (fp_prec fp) ltac:(lia)). lia.
  - pose proof (pow_pos (Z.of_nat F) ltac:(lia)). lia.
Qed.
Print Assumptions C110_zero.

(** Bytes of a subnormal number are read as half of it. *)
Theorem C110_half_partial fp E F s n f buf C :
  sane fp -> serves fp E F -> fp_lo fp <= - bias E -> bias E + Z.of_nat F <= fp_unit fp ->
  is_num fp n -> subnormal fp E F n f -> bits_of buf = layout E F s 0 f ++ C ->
  exists r, float_from_bytes fp buf E F = Some (Fin s r) /\ 2 * r = n.
Proof.
  intros S V H1 H2 N Sn T.
  destruct (subnormal_facts _ _ _ _ _ N Sn H2) as (K1 & K2 & K3 & _). destruct Sn as [Hf _].
  pose proof (read_zero_field fp s f buf E F C S V H1 H2 K3 ltac:(lia) T) as R.
  eexists. split; [exact R|]. rewrite K2.
  replace (fp_unit fp + 1 - bias E - Z.of_nat F) with (Z.succ (fp_unit fp - Z.of_nat F - bias E)) by lia.
  rewrite Z.pow_succ_r by lia. ring.
Qed.
Print Assumptions C110_half_partial.

(** No subnormal number survives being written and read. *)
Theorem C110_lost_partial fp E F s n f buf :
  sane fp -> serves fp E F -> fp_lo fp <= - bias E -> bias E + Z.of_nat F <= fp_unit fp ->
  is_num fp n -> subnormal fp E F n f -> bytes buf -> (size_of E F <= length buf)%nat ->
  exists out r, writes fp (Fin s n) buf E F out /\ float_from_bytes fp out E F = Some (Fin s r) /\ r <> n.
Proof.
  intros S V H1 H2 N Sn Hb Hl.
  destruct (subnormal_facts _ _ _ _ _ N Sn H2) as (K1 & K2 & K3 & K4 & K5 & _).
  destruct (subnormal_trip fp s n f buf E F S V H1 H2 N Sn Hb Hl) as (f0 & out & W & R).
  exists out, ((f - 2 ^ Z.log2 f) * 2 ^ (fp_unit fp - bias E - Z.log2 f)).
  split; [exists f0; exact W|]. split; [exact R|]. destruct Sn as [Hf _].
  intros Q. rewrite K2 in Q.
  assert (LS : 2 ^ Z.log2 f <= f < 2 ^ Z.succ (Z.log2 f)) by (apply Z.log2_spec; lia).
  rewrite Z.pow_succ_r in LS by lia.
  apply (subnormal_lost f (Z.log2 f) (Z.of_nat F)); try lia.
  set (t := fp_unit fp - bias E - Z.of_nat F) in *.
  apply (Z.mul_reg_r _ _ (2 ^ t)); [pose proof (pow_pos t ltac:(lia)); lia|].
  replace (fp_unit fp - bias E - Z.log2 f) with (Z.of_nat F - Z.log2 f + t) in Q by lia.
  replace (fp_unit fp + 1 - bias E - Z.of_nat F) with (1 + t) in Q by lia.
  rewrite !pow_add in Q by lia. change (2 ^ 1) with 2 in Q. lia.
Qed.
Print Assumptions C110_lost_partial.

(** The claim that they do fails, for example for the [float] 2^-127, which becomes zero. *)
Theorem C110_subnormal_refuted :
  ~ (forall s n f buf, is_num dbl n -> subnormal dbl 8 23 n f -> bytes buf -> (size_of 8 23 <= length buf)%nat ->
       exists out, writes dbl (Fin s n) buf 8 23 out /\ float_from_bytes dbl out 8 23 = Some (Fin s n)).
Proof.
  intros H. assert (SD : sane dbl) by apply sane_all.
  assert (N : is_num dbl (2 ^ (1074 - 127))).
  { split; [apply short_pow; [assumption|lia]|]. split; [apply Z.pow_nonneg; lia|vm_compute; reflexivity]. }
  assert (M : subnormal dbl 8 23 (2 ^ (1074 - 127)) (2 ^ 22)).
  { split; [cbn; lia|]. vm_compute. reflexivity. }
  assert (B : bytes [0;0;0;0]) by (repeat constructor; lia).
  destruct (H false _ _ [0;0;0;0] N M B ltac:(cbn; lia)) as (out & (f0 & W) & R).
  assert (V : serves dbl 8 23) by (unfold serves, usable, bias; cbn; lia).
  destruct (C110_lost_partial dbl 8 23 false _ _ [0;0;0;0] SD V ltac:(cbn; lia) ltac:(cbn; lia) N M B ltac:(cbn; lia))
    as (out' & r & (f1 & W') & R' & Q).
  specialize (W (f0 + f1)%nat ltac:(lia)). specialize (W' (f0 + f1)%nat ltac:(lia)).
  assert (out' = out) as -> by congruence. rewrite R in R'. congruence.
Qed.
Print Assumptions C110_subnormal_refuted.
Example C110_case :
  float_to_bytes dbl 200 (Fin false (3 * 2 ^ (1074 - 128))) [7; 7; 7; 7] 8 23 = WOk [0; 64; 0; 0] /\
  float_from_bytes dbl [0; 64; 0; 0] 8 23 = Some (Fin false (2 ^ (1074 - 128))).
Proof. vm_compute. auto. Qed.

(** ** C111 *)

(** A number within the range of the format is cut off towards zero. *)
Theorem C111_cut_partial fp E F s n buf :
  sane fp -> usable fp E F -> is_num fp n -> 0 < n -> bytes buf -> (size_of E F <= length buf)%nat ->
  2 ^ (fp_unit fp + 1) <= n * 2 ^ bias E -> n < 2 ^ (fp_unit fp + bias E + 1) ->
  exists out e f, writes fp (Fin s n) buf E F out /\ holds E F s e f buf out /\
    1 <= e <= 2 ^ Z.of_nat E - 2 /\ 0 <= f < 2 ^ Z.of_nat F /\
    (2 ^ Z.of_nat F + f) * 2 ^ (e + fp_unit fp) <= n * 2 ^ (bias E + Z.of_nat F)
      < (2 ^ Z.of_nat F + f + 1) * 2 ^ (e + fp_unit fp).
Proof.
  intros S V N Hn Hb Hl Hlo Hhi. assert (V' := V). destruct V' as (V1 & V2 & V3).
  assert (F65 : Z.of_nat F < 65536) by (destruct S; lia).
  pose proof (bias_bound E ltac:(lia)) as BB.
  destruct (write_any fp s n buf E F S ltac:(lia) V2 F65 N Hn Hb Hl) as (f0 & out & W & B & L & T).
  set (Lg := Z.log2 n) in *.
  assert (L0 : 0 <= Lg) by apply Z.log2_nonneg.
  assert (LS : 2 ^ Lg <= n < 2 ^ Z.succ Lg) by (apply Z.log2_spec; lia).
  assert (U0 : 0 <= fp_unit fp) by (destruct S; lia).
  set (e := Lg - fp_unit fp + bias E) in *.
  assert (E1 : 1 <= e).
  { assert (fp_unit fp + 1 < Z.succ Lg + bias E); [|lia].
    apply (Z.pow_lt_mono_r_iff 2); [lia|lia|]. rewrite (pow_add (Z.succ Lg)) by lia.
    pose proof (pow_pos (bias E) ltac:(lia)). nia. }
  assert (E2 : e <= 2 ^ Z.of_nat E - 2).
  { assert (Lg < fp_unit fp + bias E + 1); [|lia].
    apply (Z.pow_lt_mono_r_iff 2); [lia|lia|]. lia. }
  replace (clamp E e) with e in T by (unfold clamp; lia).
  pose proof (pow_pos Lg L0) as PL. pose proof (pow_pos (Z.of_nat F) ltac:(lia)) as PF.
  set (g := n * 2 ^ Z.of_nat F / 2 ^ Lg) in *.
  assert (G : g * 2 ^ Lg <= n * 2 ^ Z.of_nat F < (g + 1) * 2 ^ Lg).
  { unfold g. pose proof (Z.div_mod (n * 2 ^ Z.of_nat F) (2 ^ Lg) ltac:(lia)).
    pose proof (Z.mod_pos_bound (n * 2 ^ Z.of_nat F) (2 ^ Lg) ltac:(lia)). lia. }
  rewrite Z.pow_succ_r in LS by lia.
  exists out, e, (g - 2 ^ Z.of_nat F). split; [exists f0; exact W|]. split; [apply holds_intro; assumption|].
  split; [lia|].
  assert (GF : 2 ^ Z.of_nat F <= g < 2 * 2 ^ Z.of_nat F) by nia.
  split; [lia|].
  replace (e + fp_unit fp) with (Lg + bias E) by (unfold e; lia).
  rewrite !pow_add by lia. pose proof (pow_pos (bias E) ltac:(lia)).
  replace (2 ^ Z.of_nat F + (g - 2 ^ Z.of_nat F)) with g by lia. nia.
Qed.
Print Assumptions C111_cut_partial.

(** A number too large for the format is written with the exponent of an infinity and some fraction. *)
Theorem C111_large_partial fp E F s n buf :
  sane fp -> usable fp E F -> is_num fp n -> bytes buf -> (size_of E F <= length buf)%nat ->
  2 ^ (fp_unit fp + bias E + 1) <= n ->
  exists out f, writes fp (Fin s n) buf E F out /\ holds E F s (2 ^ Z.of_nat E - 1) f buf out /\
    0 <= f < 2 ^ Z.of_nat F /\ (2 ^ Z.of_nat F + f) * 2 ^ Z.log2 n <= n * 2 ^ Z.of_nat F < (2 ^ Z.of_nat F + f + 1) * 2 ^ Z.log2 n.
Proof.
  intros S V N Hb Hl Hlo. assert (V' := V). destruct V' as (V1 & V2 & V3).
  assert (F65 : Z.of_nat F < 65536) by (destruct S; lia).
  pose proof (bias_bound E ltac:(lia)) as BB.
  assert (U0 : 0 <= fp_unit fp) by (destruct S; lia).
  pose proof (pow_pos (fp_unit fp + bias E + 1) ltac:(lia)).
  destruct (write_any fp s n buf E F S ltac:(lia) V2 F65 N ltac:(lia) Hb Hl) as (f0 & out & W & B & L & T).
  set (Lg := Z.log2 n) in *.
  assert (L0 : 0 <= Lg) by apply Z.log2_nonneg.
  assert (LS : 2 ^ Lg <= n < 2 ^ Z.succ Lg) by (apply Z.log2_spec; lia).
  assert (E2 : fp_unit fp + bias E + 1 <= Lg) by (apply Z.log2_le_pow2; lia).
  replace (clamp E (Lg - fp_unit fp + bias E)) with (2 ^ Z.of_nat E - 1) in T by (unfold clamp; lia).
  pose proof (pow_pos Lg L0) as PL. pose proof (pow_pos (Z.of_nat F) ltac:(lia)) as PF.
  set (g := n * 2 ^ Z.of_nat F / 2 ^ Lg) in *.
  assert (G : g * 2 ^ Lg <= n * 2 ^ Z.of_nat F < (g + 1) * 2 ^ Lg).
  { unfold g. pose proof (Z.div_mod (n * 2 ^ Z.of_nat F) (2 ^ Lg) ltac:(lia)).
    pose proof (Z.mod_pos_bound (n * 2 ^ Z.of_nat F) (2 ^ Lg) ltac:(lia)). lia. }
  rewrite Z.pow_succ_r in LS by lia.
  exists out, (g - 2 ^ Z.of_nat F). split; [exists f0; exact W|]. split; [apply holds_intro; assumption|].
  assert (GF : 2 ^ Z.of_nat F <= g < 2 * 2 ^ Z.of_nat F) by nia.
  split; [lia|]. replace (2 ^ Z.of_nat F + (g - 2 ^ Z.of_nat F)) with g by lia. lia.
Qed.
Print Assumptions C111_large_partial.

(** So the written number is not always the nearest one of the format: 2^26 - 1 becomes 2^26 - 4. *)
Theorem C111_nearest_refuted :
  ~ (forall s n buf out e f e' f', is_num dbl n -> bytes buf ->
       writes dbl (Fin s n) buf 8 23 out -> holds 8 23 s e f buf out ->
       1 <= e <= 254 -> 0 <= f < 2 ^ 23 -> 1 <= e' <= 254 -> 0 <= f' < 2 ^ 23 ->
       Z.abs (n * 2 ^ (127 + 23) - (2 ^ 23 + f) * 2 ^ (e + 1074)) <=
       Z.abs (n * 2 ^ (127 + 23) - (2 ^ 23 + f') * 2 ^ (e' + 1074))).
Proof.
  intros H. assert (SD : sane dbl) by apply sane_all.
  assert (N : is_num dbl ((2 ^ 26 - 1) * 2 ^ 1074)).
  { split; [exists (2 ^ 26 - 1), 1074; split; [cbn; lia|]; split; [lia|reflexivity]|].
    split; [vm_compute; discriminate|vm_compute; reflexivity]. }
  assert (B : bytes [0;0;0;0]) by (repeat constructor; lia).
  assert (V : usable dbl 8 23) by (unfold usable; cbn; lia).
  assert (R : exists out, writes dbl (Fin false ((2 ^ 26 - 1) * 2 ^ 1074)) [0;0;0;0] 8 23 out /\ holds 8 23 false 152 (2 ^ 23 - 1) [0;0;0;0] out).
  { destruct (write_any dbl false ((2 ^ 26 - 1) * 2 ^ 1074) [0;0;0;0] 8 23 SD ltac:(lia) ltac:(lia) ltac:(lia) N ltac:(reflexivity) B ltac:(cbn; lia))
      as (f0 & out & W & B' & L & T).
    exists out. split; [exists f0; exact W|]. apply holds_intro; [assumption|]. rewrite T. vm_compute. reflexivity. }
  destruct R as (out & W & Hh).
  specialize (H _ _ _ _ _ _ 153 0 N B W Hh ltac:(lia) ltac:(cbn; lia) ltac:(lia) ltac:(cbn; lia)).
  revert H. vm_compute. intros H. apply H. reflexivity.
Qed.
Print Assumptions C111_nearest_refuted.

(** And a number too large is not always written as an infinity: 3 * 2^200 is written as a NaN. *)
Theorem C111_large_refuted :
  ~ (forall s n buf out e f, is_num dbl n -> 2 ^ (1074 + 128) <= n -> bytes buf ->
       writes dbl (Fin s n) buf 8 23 out -> holds 8 23 s e f buf out -> 0 <= e < 2 ^ 8 -> 0 <= f < 2 ^ 23 -> e = 255 /\ f = 0).
Proof.
  intros H. assert (SD : sane dbl) by apply sane_all.
  assert (N : is_num dbl (3 * 2 ^ 1274)).
  { split; [exists 3, 1274; split; [cbn; lia|]; split; [lia|reflexivity]|].
    split; [vm_compute; discriminate|vm_compute; reflexivity]. }
  assert (B : bytes [0;0;0;0]) by (repeat constructor; lia).
  assert (R : exists out, writes dbl (Fin false (3 * 2 ^ 1274)) [0;0;0;0] 8 23 out /\ holds 8 23 false 255 (2 ^ 22) [0;0;0;0] out).
  { destruct (write_any dbl false (3 * 2 ^ 1274) [0;0;0;0] 8 23 SD ltac:(lia) ltac:(lia) ltac:(lia) N ltac:(reflexivity) B ltac:(cbn; lia))
      as (f0 & out & W & B' & L & T).
    exists out. split; [exists f0; exact W|]. apply holds_intro; [assumption|]. rewrite T. vm_compute. reflexivity. }
  destruct R as (out & W & Hh).
  destruct (H _ _ _ _ _ _ N ltac:(vm_compute; discriminate) B W Hh ltac:(lia) ltac:(cbn; lia)). lia.
Qed.
Print Assumptions C111_large_refuted.
Example C111_case :
  float_to_bytes dbl 40 (Fin false ((2 ^ 26 - 1) * 2 ^ 1074)) [7; 7; 7; 7] 8 23 = WOk [76; 127; 255; 255] /\
  float_to_bytes dbl 240 (Fin false (3 * 2 ^ 1274)) [7; 7; 7; 7] 8 23 = WOk [127; 192; 0; 0].
Proof. vm_compute. auto. Qed.

(** ** C112 *)

(** Where [long double] has more exponents than the format, the bytes of infinities and NaNs are read as
    ordinary numbers. *)
Theorem C112_special_partial fp E F s f buf C :
  sane fp -> serves fp E F -> bias E + 1 <= fp_hi fp -> bias E + 1 < fp_top fp ->
  short fp (2 ^ Z.of_nat F + f) -> 0 <= f < 2 ^ Z.of_nat F ->
  bits_of buf = layout E F s (2 ^ Z.of_nat E - 1) f ++ C ->
  exists n, float_from_bytes fp buf E F = Some (Fin s n) /\ same fp n (2 ^ Z.of_nat F + f) (bias E + 1 - Z.of_nat F).
Proof.
  intros S V H1 H2 H3 H4 T. pose proof (read_ones_field fp s f buf E F C S V H1 H2 H3 H4 T) as R.
  eexists. split; [exact R|]. destruct V as [(V1 & V2 & V3) _]. pose proof (bias_bound E ltac:(lia)) as BB.
  unfold same. rewrite Z.max_l, Z.max_r by lia. change (2 ^ 0) with 1. rewrite Z.mul_1_r. f_equal. f_equal. lia.
Qed.
Print Assumptions C112_special_partial.

(** Where powers of two end with the format, both are read as infinities. *)
Theorem C112_infinite_partial fp E F s f buf C :
  sane fp -> serves fp E F -> fp_hi fp <= bias E ->
  short fp (2 ^ Z.of_nat F + f) -> 0 <= f < 2 ^ Z.of_nat F ->
  bits_of buf = layout E F s (2 ^ Z.of_nat E - 1) f ++ C ->
  float_from_bytes fp buf E F = Some (Inf s).
Proof.
  intros S V H1 H3 H4 T. destruct V as [(V1 & V2 & V3) [V4 V5]]. pose proof (bias_bound E ltac:(lia)) as BB.
  destruct S as (S1 & S2 & S3 & S4 & S5).
  assert (E0 : (2 ^ Z.of_nat E - 1 =? 0) = false) by (apply Z.eqb_neq; lia).
  rewrite (read_gen fp ltac:(lia) ltac:(lia) ltac:(lia) s (2 ^ Z.of_nat E - 1) f buf E F C); try assumption; try lia;
    [|rewrite E0; assumption].
  rewrite E0. unfold pow2. destruct (Z.ltb_spec (2 ^ Z.of_nat E - 1 - bias E) (fp_lo fp)); [lia|].
  destruct (Z.ltb_spec (fp_hi fp) (2 ^ Z.of_nat E - 1 - bias E)); [|lia]. cbn [mul_of].
  pose proof (pow_pos (Z.of_nat F) ltac:(lia)). pose proof (pow_pos (fp_unit fp - Z.of_nat F) ltac:(lia)).
  destruct (Z.eqb_spec ((2 ^ Z.of_nat F + f) * 2 ^ (fp_unit fp - Z.of_nat F)) 0); [nia|]. now rewrite xorb_false_l.
Qed.
Print Assumptions C112_infinite_partial.

(** So neither claim holds: the bytes of a NaN are never read as one, those of an infinity not always. *)
Theorem C112_nan_refuted :
  ~ (forall s f buf C, 0 < f < 2 ^ 23 -> bits_of buf = layout 8 23 s 255 f ++ C -> float_from_bytes x87 buf 8 23 = Some NaN).
Proof.
  intros H. assert (SX : sane x87) by apply sane_all.
  assert (T : bits_of [127; 192; 0; 0] = layout 8 23 false 255 (2 ^ 22) ++ []) by reflexivity.
  destruct (C112_special_partial x87 8 23 false (2 ^ 22) [127; 192; 0; 0] [] SX) as (n & R & _); try (cbn; lia); try assumption.
  - unfold serves, usable, bias. cbn. lia.
  - exists 3, 22. cbn. lia.
  - rewrite (H false (2 ^ 22) _ [] ltac:(cbn; lia) T) in R. discriminate.
Qed.
Print Assumptions C112_nan_refuted.
Theorem C112_inf_refuted :
  ~ (forall s buf C, bits_of buf = layout 8 23 s 255 0 ++ C -> float_from_bytes x87 buf 8 23 = Some (Inf s)).
Proof.
  intros H. assert (SX : sane x87) by apply sane_all.
  assert (T : bits_of [127; 128; 0; 0] = layout 8 23 false 255 0 ++ []) by reflexivity.
  destruct (C112_special_partial x87 8 23 false 0 [127; 128; 0; 0] [] SX) as (n & R & _); try (cbn; lia); try assumption.
  - unfold serves, usable, bias. cbn. lia.
  - exists 1, 23. cbn. lia.
  - rewrite (H _ _ _ T) in R. discriminate.
Qed.
Print Assumptions C112_inf_refuted.
Example C112_case :
  float_from_bytes dbl [127; 192; 0; 0] 8 23 = Some (Fin false (3 * 2 ^ (1074 + 127))) /\
  float_from_bytes dbl [127; 248; 0; 0; 0; 0; 0; 0] 11 52 = Some (Inf false).
Proof. vm_compute. auto. Qed.
