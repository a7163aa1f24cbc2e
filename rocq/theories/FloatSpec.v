(** What the floating point codecs should do, stated from IEEE 754 alone. *)
From Coq Require Import ZArith List Bool.
From Verif Require Import Base FloatModel.
Import ListNotations.

(** The bits of a byte string, first byte first, most significant bit of each byte first. *)
Definition bits_of (b : list Z) : list bool :=
  flat_map (fun x => map (fun k => Z.testbit x k) [7;6;5;4;3;2;1;0]) b.

(** The [n] low bits of [x], most significant first. *)
Fixpoint bits (n : nat) (x : Z) : list bool :=
  match n with O => [] | S k => Z.testbit x (Z.of_nat k) :: bits k x end.

(** [n * 2^-unit = m * 2^q]. *)
Definition same (fp : fpu) (n m q : Z) : Prop :=
  n * 2 ^ Z.max 0 (- (fp_unit fp + q)) = m * 2 ^ Z.max 0 (fp_unit fp + q).

(** [n] is [m * 2^j] with no more bits in [m] than a significand has. *)
Definition short (fp : fpu) (n : Z) : Prop :=
  exists m j, 0 <= m < 2 ^ fp_prec fp /\ 0 <= j /\ n = m * 2 ^ j.

(** [Fin s n] is a value of the [long double] of the platform. *)
Definition is_num (fp : fpu) (n : Z) : Prop := short fp n /\ 0 <= n < 2 ^ (fp_unit fp + fp_top fp).

(** IEEE 754: the bias of a format with [E] exponent bits. *)
Definition bias (E : nat) : Z := 2 ^ (Z.of_nat E - 1) - 1.

(** IEEE 754: [Fin s n] is the normal number with biased exponent [e] and fraction [f] of the format with [E]
    exponent bits and [F] fraction bits, (1 + f / 2^F) * 2^(e - bias). *)
Definition normal (fp : fpu) (E F : nat) (n e f : Z) : Prop :=
  1 <= e <= 2 ^ Z.of_nat E - 2 /\ 0 <= f < 2 ^ Z.of_nat F /\
  same fp n (2 ^ Z.of_nat F + f) (e - bias E - Z.of_nat F).

(** IEEE 754: [Fin s n] is the subnormal number with fraction [f], (f / 2^F) * 2^(1 - bias). *)
Definition subnormal (fp : fpu) (E F : nat) (n f : Z) : Prop :=
  0 < f < 2 ^ Z.of_nat F /\ same fp n f (1 - bias E - Z.of_nat F).

(** IEEE 754: the bit string of a format: sign, exponent field, fraction field. *)
Definition layout (E F : nat) (s : bool) (e f : Z) : list bool := s :: bits E e ++ bits F f.

(** A platform as they are: the smallest value is far below the rounding of one, exponents fit into 16 bits,
    and no power of two below the smallest value is claimed exact. *)
Definition sane (fp : fpu) : Prop :=
  0 < fp_prec fp <= fp_unit fp /\ fp_unit fp <= 32768 /\ 1 <= fp_top fp <= 16384 /\
  0 <= fp_unit fp + fp_lo fp /\ fp_lo fp <= fp_hi fp < fp_top fp.

(** The sizes of a format are within what the code and the platform can count: one can be halved for every
    fraction bit. *)
Definition usable (fp : fpu) (E F : nat) : Prop :=
  (2 <= E <= 15)%nat /\ (0 < F)%nat /\ Z.of_nat F <= fp_unit fp.

(** Moreover powers of two reach from the least to the greatest exponent of a normal number. *)
Definition serves (fp : fpu) (E F : nat) : Prop :=
  usable fp E F /\ fp_lo fp <= 1 - bias E /\ bias E <= fp_hi fp.

(** The platforms and the formats of the library that they serve. *)
Definition served : list (fpu * (nat * nat)) :=
  [(x87, (8, 23)); (x87, (11, 52)); (x87, (15, 112)); (x87_narrow, (8, 23)); (x87_narrow, (11, 52));
   (quad, (8, 23)); (quad, (11, 52)); (quad, (15, 112)); (dbl, (8, 23)); (dbl, (11, 52))]%nat.

(** The call returns, with [out] in the memory it was given. *)
Definition writes (fp : fpu) (v : num) (buf : list Z) (E F : nat) (out : list Z) : Prop :=
  exists fuel0, forall fuel, (fuel0 <= fuel)%nat -> float_to_bytes fp fuel v buf E F = WOk out.

(** The memory afterwards: the bit string, zeros up to the end of its last byte, and the rest untouched. *)
Definition holds (E F : nat) (s : bool) (e f : Z) (buf out : list Z) : Prop :=
  length out = length buf /\ exists k z, (k < 8)%nat /\ (8 * z = 1 + E + F + k)%nat /\
  bits_of out = layout E F s e f ++ repeat false k ++ bits_of (skipn z buf).

(** The buffers a call may be given: bytes, enough of them. *)
Definition bytes (b : list Z) : Prop := Forall (fun x => 0 <= x < 256) b.
