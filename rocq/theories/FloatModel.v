(** Model of the floating point codecs of /repo/src/algorithm.cpp (float_from_bytes, float_to_bytes) and of
    their callers in /repo/include/pion/algorithm.hpp. *)
From Coq Require Import ZArith List Bool.
From Verif Require Import Base.
Import ListNotations.

(* ------------------------------------------------------------------ long double *)

(** The C++ type [long double] is not part of /repo and differs between platforms; it is a parameter of the
    model. [fp_prec] is the number of bits of a significand, [2^-fp_unit] the smallest positive value,
    [2^fp_top] the first value too large to be held, and [fp_lo], [fp_hi] are the least and greatest [k] for
    which [::pow((long double)2, k)] is the exact power (below it is 0, above it infinity). The call at
    src/algorithm.cpp:340 is to the global [pow]; whether that is the [double] function or the [long double]
    overload depends on the headers, hence the two separate limits. *)
Record fpu := { fp_prec : Z; fp_unit : Z; fp_top : Z; fp_lo : Z; fp_hi : Z }.

(** x86: 80-bit extended precision, with [pow] on [long double] and with [pow] on [double]. the platform: [long double] as algorithm.cpp:312-413 uses it *)
Definition x87 : fpu := {| fp_prec := 64; fp_unit := 16445; fp_top := 16384; fp_lo := -16445; fp_hi := 16383 |}.
(** the platform: [long double] as algorithm.cpp:312-413 uses it *)
Definition x87_narrow : fpu := {| fp_prec := 64; fp_unit := 16445; fp_top := 16384; fp_lo := -1074; fp_hi := 1023 |}.
(** Platforms where [long double] is the 128-bit format. the platform: [long double] as algorithm.cpp:312-413 uses it *)
Definition quad : fpu := {| fp_prec := 113; fp_unit := 16494; fp_top := 16384; fp_lo := -16494; fp_hi := 16383 |}.
(** Platforms where [long double] is [double]. the platform: [long double] as algorithm.cpp:312-413 uses it *)
Definition dbl : fpu := {| fp_prec := 53; fp_unit := 1074; fp_top := 1024; fp_lo := -1074; fp_hi := 1023 |}.

(** A [long double]: [Fin s n] is [n * 2^-unit], negated if [s]. a [long double], algorithm.cpp:312-413 *)
Inductive num := NaN | Inf (s : bool) | Fin (s : bool) (n : Z).

(** IEEE 754 round to nearest, ties to even: [n / 2^d] as an integer. used by the operations of algorithm.cpp:312-413 *)
Definition rne (n d : Z) : Z :=
  if d <=? 0 then n * 2 ^ (- d) else
  let q := n / 2 ^ d in
  let r := n mod 2 ^ d in
  if 2 * r <? 2 ^ d then q
  else if 2 ^ d <? 2 * r then q + 1
  else if Z.even q then q else q + 1.

Section Arith.
Variable fp : fpu.

(** IEEE 754: the exact value [n * 2^-(unit + sc)] brought into the format ([sc >= 0]). used by the operations of algorithm.cpp:312-413 *)
Definition fit (s : bool) (n sc : Z) : num :=
  let d := Z.max sc (Z.log2 n + 1 - fp_prec fp) in
  let r := rne n d * 2 ^ (d - sc) in
  if 2 ^ (fp_unit fp + fp_top fp) <=? r then Inf s else Fin s r.

(** [v * 2]. algorithm.cpp:377 *)
Definition dbl_of (v : num) : num :=
  match v with Fin s n => fit s (2 * n) 0 | _ => v end.
(** [v / 2]. algorithm.cpp:332, 358 *)
Definition half_of (v : num) : num :=
  match v with Fin s n => fit s n 1 | _ => v end.
(** [v * -1]. algorithm.cpp:340, 352 *)
Definition neg_of (v : num) : num :=
  match v with Fin s n => Fin (negb s) n | Inf s => Inf (negb s) | NaN => NaN end.
(** [a + b]. A sum of opposite infinities is a NaN; an exact zero sum is a positive zero, as round to nearest
    has it, except that two negative zeros (which the code never adds) would also give a positive one. algorithm.cpp:334 *)
Definition add_of (a b : num) : num :=
  match a, b with
  | NaN, _ | _, NaN => NaN
  | Inf s, Inf t => if eqb s t then Inf s else NaN
  | Inf s, _ | _, Inf s => Inf s
  | Fin s n, Fin t m =>
      let z := (if s then - n else n) + (if t then - m else m) in
      fit (z <? 0) (Z.abs z) 0
  end.
(** [a * b]. algorithm.cpp:340 *)
Definition mul_of (a b : num) : num :=
  match a, b with
  | NaN, _ | _, NaN => NaN
  | Inf s, Inf t => Inf (xorb s t)
  | Inf s, Fin t m | Fin t m, Inf s => if m =? 0 then NaN else Inf (xorb s t)
  | Fin s n, Fin t m => fit (xorb s t) (n * m) (fp_unit fp)
  end.
(** [1.0], [0.0]. algorithm.cpp:328-329 *)
Definition one : num := Fin false (2 ^ fp_unit fp).
(** algorithm.cpp:328-329 *)
Definition zero : num := Fin false 0.
(** [::pow((long double)2, k)]. algorithm.cpp:339-340, 396 *)
Definition pow2 (k : Z) : num :=
  if k <? fp_lo fp then zero else if fp_hi fp <? k then Inf false else Fin false (2 ^ (fp_unit fp + k)).

(** [v < 0], [v >= 1], and [v] as a condition. algorithm.cpp:350, 357, 376, 379, 387 *)
Definition lt0 (v : num) : bool := match v with Fin s n => s && (0 <? n) | Inf s => s | NaN => false end.
(** algorithm.cpp:350, 357, 376, 379, 387 *)
Definition ge1 (v : num) : bool :=
  match v with Fin s n => negb s && (2 ^ fp_unit fp <=? n) | Inf s => negb s | NaN => false end.
(** algorithm.cpp:350, 357, 376, 379, 387 *)
Definition truth (v : num) : bool := match v with Fin _ n => negb (n =? 0) | _ => true end.

(* ------------------------------------------------------------------ positions in the buffer *)

(** Conversion to [boost::int16_t] (two's complement). algorithm.cpp:319, 339, 356 *)
Definition s16 (z : Z) : Z := (z + 32768) mod 65536 - 32768.

(** src/algorithm.cpp:18, SHIFT_BITMASK on [ptr] (an index into the buffer) and [mask]. *)
Definition shift (p : nat * Z) : nat * Z :=
  let '(i, m) := p in if Z.odd m then (S i, 128) else (i, m / 2).

(** [*ptr & mask] as a condition; [None] is a read outside the buffer. algorithm.cpp:323, 333 *)
Definition rdbit (buf : list Z) (p : nat * Z) : option bool :=
  match nth_error buf (fst p) with
  | Some b => Some (negb (Z.land b (snd p) =? 0))
  | None => None
  end.

(** [buf] with element [i] replaced. a write to the buffer, algorithm.cpp:347-412 *)
Definition put (buf : list Z) (i : nat) (b : Z) : list Z := firstn i buf ++ b :: skipn (S i) buf.

(** [*ptr |= mask]; [None] is a write outside the buffer. algorithm.cpp:380, 408 *)
Definition orbit (buf : list Z) (p : nat * Z) : option (list Z) :=
  match nth_error buf (fst p) with
  | Some b => Some (put buf (fst p) (Z.lor b (snd p)))
  | None => None
  end.

(* ------------------------------------------------------------------ float_from_bytes *)

(** src/algorithm.cpp:320-325, the exponent bits. *)
Fixpoint fb_exp (n : nat) (buf : list Z) (p : nat * Z) (ex : Z) : option ((nat * Z) * Z) :=
  match n with
  | O => Some (p, ex)
  | S n' =>
      let p := shift p in
      let ex := s16 (ex * 2) in
      match rdbit buf p with
      | None => None
      | Some b => fb_exp n' buf p (if b then s16 (ex + 1) else ex)
      end
  end.

(** src/algorithm.cpp:330-336, the fraction bits: [sv] is [significand_value]. *)
Fixpoint fb_sig (n : nat) (buf : list Z) (p : nat * Z) (sv sig : num) : option num :=
  match n with
  | O => Some sig
  | S n' =>
      let p := shift p in
      let sv := half_of sv in
      match rdbit buf p with
      | None => None
      | Some b => fb_sig n' buf p sv (if b then add_of sig sv else sig)
      end
  end.

(** src/algorithm.cpp:312-341, [algorithm::float_from_bytes] ([E] is [num_exp_bits], [F]
    [num_fraction_bits]). The power subtracted from the exponent at line 339 is taken as exact, which it is
    for every [E] up to 16. *)
Definition float_from_bytes (buf : list Z) (E F : nat) : option num :=
  match nth_error buf 0 with
  | None => None
  | Some b0 =>
      let neg := negb (Z.land b0 128 =? 0) in
      match fb_exp E buf (O, 128) 0 with
      | None => None
      | Some (p, ex) =>
          match fb_sig F buf p one (if ex =? 0 then zero else one) with
          | None => None
          | Some sig =>
              let ex := s16 (ex - s16 (2 ^ (Z.of_nat E - 1) - 1)) in
              Some (mul_of (mul_of (if neg then neg_of one else one) sig) (pow2 ex))
          end
      end
  end.

(* ------------------------------------------------------------------ float_to_bytes *)

(** The result of a call: the buffer afterwards, an access outside the buffer, or still running when the
    given number of loop iterations is used up. algorithm.cpp:343-413 *)
Inductive wres := WOk (buf : list Z) | WBad | WRunning.

(** src/algorithm.cpp:357-360, the loop for values of one and more; [None] is still running. *)
Fixpoint tb_down (fuel : nat) (v : num) (ex : Z) : option (num * Z) :=
  match fuel with
  | O => None
  | S k => if ge1 v then tb_down k (half_of v) (s16 (ex + 1)) else Some (v, ex)
  end.

(** src/algorithm.cpp:363-371, the exponent bits are skipped: [n] counts down from [num_exp_bits]; the first
    argument is an upper bound of the number of iterations. *)
Fixpoint tb_skip (k n : nat) (p : nat * Z) : nat * Z :=
  match k with
  | O => p
  | S k' =>
      if (n =? 0)%nat then p
      else if (8 <=? n)%nat then tb_skip k' (n - 7 - 1) (S (fst p), snd p)
      else tb_skip k' (n - 1) (shift p)
  end.

(** algorithm.cpp:363-371 *)
Inductive sres := SDone (buf : list Z) (got : bool) (ex : Z) | SBad | SRunning.

(** src/algorithm.cpp:374-392, the fraction is written; [nb] is [num_bits], a 16-bit unsigned number. *)
Fixpoint tb_frac (fuel F : nat) (buf : list Z) (p : nat * Z) (v : num) (got : bool) (nb ex : Z) : sres :=
  match fuel with
  | O => SRunning
  | S k =>
      if truth v && (nb <? Z.of_nat F) then
        let v := dbl_of v in
        if got then
          if ge1 v then
            match orbit buf p with
            | None => SBad
            | Some buf => tb_frac k F buf (shift p) (add_of v (neg_of one)) true ((nb + 1) mod 65536) ex
            end
          else tb_frac k F buf (shift p) v true ((nb + 1) mod 65536) ex
        else
          let ex := s16 (ex - 1) in
          if ge1 v then tb_frac k F buf p (add_of v (neg_of one)) true nb ex
          else tb_frac k F buf p v false nb ex
      else SDone buf got ex
  end.

(** src/algorithm.cpp:405-412, the exponent bits are written; [hb] is [high_bit]. *)
Fixpoint tb_exp (n : nat) (buf : list Z) (p : nat * Z) (ex hb : Z) : option (list Z) :=
  match n with
  | O => Some buf
  | S n' =>
      let p := shift p in
      if hb <=? ex then
        match orbit buf p with
        | None => None
        | Some buf => tb_exp n' buf p (s16 (ex - hb)) (Z.quot hb 2)
        end
      else tb_exp n' buf p ex (Z.quot hb 2)
  end.

(** src/algorithm.cpp:347, the number of bytes set to zero: the [ceil] of the quotient, which is computed in
    single precision and exact for every total below 2^24. *)
Definition size_of (E F : nat) : nat := ((E + F + 8) / 8)%nat.

(** src/algorithm.cpp:343-413, [algorithm::float_to_bytes]: [buf] is the memory at [buf]; [fuel] limits the
    iterations of each of the two loops that depend on the value. *)
Definition float_to_bytes (fuel : nat) (v : num) (buf : list Z) (E F : nat) : wres :=
  if (length buf <? size_of E F)%nat then WBad else
  let buf := repeat 0 (size_of E F) ++ skipn (size_of E F) buf in
  let '(v, buf) := if lt0 v then (neg_of v, put buf 0 128) else (v, buf) in
  match tb_down fuel v 0 with
  | None => WRunning
  | Some (v, ex) =>
      match tb_frac fuel F buf (tb_skip E E (O, 64)) v false 0 ex with
      | SRunning => WRunning
      | SBad => WBad
      | SDone buf got ex =>
          let hb := 2 ^ (Z.of_nat E - 1) in
          match tb_exp E buf (O, 128) (if got then s16 (ex + (hb - 1)) else 0) hb with
          | None => WBad
          | Some buf => WOk buf
          end
      end
  end.
End Arith.

(** include/pion/algorithm.hpp:341-387: the formats behind [to_float]/[from_float],
    [to_double]/[from_double] and [to_long_double]/[from_long_double]. The conversion of the [long double]
    to the narrower result type on return is not modelled. *)
Definition formats : list (nat * nat) := [(8, 23); (11, 52); (15, 112)]%nat.
