(** Bytes, byte strings and machine arithmetic shared by all model files. *)
From Coq Require Import String Ascii ZArith List Lia Bool.
From Coq Require Import ZifyBool ZifyNat.
Import ListNotations.
Global Open Scope Z_scope.
Global Open Scope list_scope.

(** A byte is an integer in [0,256); a C++ [std::string] or character buffer is a list of bytes. *)
Definition is_byte (b : Z) : Prop := 0 <= b < 256.
Definition is_byteb (b : Z) : bool := (0 <=? b) && (b <? 256).
Definition str := list Z.

(** String literals. *)
Fixpoint bs (s : string) : list Z :=
  match s with
  | EmptyString => []
  | String c s' => Z.of_N (N_of_ascii c) :: bs s'
  end.

(** Character literals. *)
Definition ch (s : string) : Z := match bs s with c :: _ => c | [] => 0 end.

(** Length as an unbounded integer. *)
Definition zlen {A} (l : list A) : Z := Z.of_nat (List.length l).

(** [char] is signed on the platform of the library (x86-64 gcc). *)
Definition schar (b : Z) : Z := if b <? 128 then b else b - 256.
(** Conversion of an integer to [unsigned char] / storing it into a [char]. *)
Definition to_u8 (z : Z) : Z := z mod 256.

Definition two64 : Z := 18446744073709551616.
Definition two32 : Z := 4294967296.
Definition wrap64 (z : Z) : Z := z mod two64.
Definition wrap32 (z : Z) : Z := z mod two32.
(** two's complement reinterpretation of an n-bit pattern *)
Definition to_signed (n : Z) (z : Z) : Z :=
  let m := z mod 2 ^ n in if m <? 2 ^ (n - 1) then m else m - 2 ^ n.

(** [std::string] comparison for equality. *)
Fixpoint str_eqb (a b : list Z) : bool :=
  match a, b with
  | [], [] => true
  | x :: a', y :: b' => (x =? y) && str_eqb a' b'
  | _, _ => false
  end.

(** [p] is a prefix of [s] ([s.compare(0, p.size(), p) == 0]). *)
Fixpoint is_prefix (p s : list Z) : bool :=
  match p, s with
  | [], _ => true
  | x :: p', y :: s' => (x =? y) && is_prefix p' s'
  | _ :: _, [] => false
  end.

Lemma str_eqb_refl a : str_eqb a a = true.
Proof. induction a; simpl; rewrite ?Z.eqb_refl; auto. Qed.

Lemma str_eqb_eq a b : str_eqb a b = true <-> a = b.
Proof.
  revert b; induction a as [|x a IH]; destruct b as [|y b]; simpl; split; try discriminate; auto.
  - intros H. apply andb_true_iff in H as [H1 H2]. apply Z.eqb_eq in H1. apply IH in H2. congruence.
  - intros H. inversion H; subst. rewrite Z.eqb_refl. apply IH. reflexivity.
Qed.

Lemma str_eqb_neq a b : str_eqb a b = false <-> a <> b.
Proof.
  rewrite <- not_true_iff_false. rewrite str_eqb_eq. reflexivity.
Qed.

Lemma is_prefix_spec p s : is_prefix p s = true <-> exists t, s = p ++ t.
Proof.
  revert s; induction p as [|x p IH]; intros s; simpl.
  - split; eauto.
  - destruct s as [|y s].
    + split; [discriminate | intros [t H]; discriminate].
    + rewrite andb_true_iff, Z.eqb_eq, IH. split.
      * intros [-> [t ->]]. eauto.
      * intros [t H]. inversion H; subst. eauto.
Qed.

Lemma zlen_nonneg {A} (l : list A) : 0 <= zlen l.
Proof. unfold zlen. lia. Qed.
Lemma zlen_nil (A : Type) : zlen (@nil A) = 0.
Proof. reflexivity. Qed.
Lemma zlen_cons {A} (x : A) l : zlen (x :: l) = 1 + zlen l.
Proof. unfold zlen. cbn [List.length]. lia. Qed.
Lemma zlen_app {A} (l m : list A) : zlen (l ++ m) = zlen l + zlen m.
Proof. unfold zlen. rewrite app_length. lia. Qed.

(** All byte values, for exhaustive sweeps lifted to universally quantified statements. *)
Definition all_bytes : list Z := map Z.of_nat (seq 0 256).

Lemma all_bytes_in b : is_byte b -> In b all_bytes.
Proof.
  intros H. unfold all_bytes. apply in_map_iff. exists (Z.to_nat b).
  unfold is_byte in H. split; [lia | apply in_seq; lia].
Qed.

Lemma byte_sweep (P : Z -> bool) : forallb P all_bytes = true -> forall b, is_byte b -> P b = true.
Proof. intros H b Hb. rewrite forallb_forall in H. apply H. apply all_bytes_in, Hb. Qed.

Lemma is_byteb_spec b : is_byteb b = true <-> is_byte b.
Proof. unfold is_byteb, is_byte. rewrite andb_true_iff, Z.leb_le, Z.ltb_lt. lia. Qed.

Lemma bs_bytes s : Forall is_byte (bs s).
Proof.
  induction s as [|c s IH]; simpl; constructor; auto.
  unfold is_byte. pose proof (N_ascii_bounded c). lia.
Qed.

Lemma bs_app a b : bs (a ++ b)%string = bs a ++ bs b.
Proof. induction a; simpl; congruence. Qed.

Lemma Forall_app_iff {A} (P : A -> Prop) l m : Forall P (l ++ m) <-> Forall P l /\ Forall P m.
Proof. apply Forall_app. Qed.

(** [x | y] of disjoint bit patterns is [x + y]. *)
Lemma lor_add_disjoint a b : Z.land a b = 0 -> Z.lor a b = a + b.
Proof. intros H. rewrite Z.add_nocarry_lxor by assumption. rewrite Z.lxor_lor by assumption. reflexivity. Qed.

Lemma land_shiftl_small x y n : 0 <= n -> 0 <= y < 2 ^ n -> Z.land (Z.shiftl x n) y = 0.
Proof.
  intros Hn Hy. apply Z.bits_inj'. intros k Hk. rewrite Z.land_spec, Z.bits_0.
  destruct (Z.lt_ge_cases k n).
  - rewrite Z.shiftl_spec_low by lia. reflexivity.
  - assert (Z.testbit y k = false) as ->.
    { destruct (Z.eq_dec y 0) as [->|Hy0]. apply Z.bits_0.
      apply Z.bits_above_log2; [lia|].
      apply Z.log2_lt_pow2; [lia|]. apply Z.lt_le_trans with (2 ^ n); [lia|]. apply Z.pow_le_mono_r; lia. }
    apply andb_false_r.
Qed.

Lemma lor_shiftl_add x y n : 0 <= n -> 0 <= y < 2 ^ n -> Z.lor (Z.shiftl x n) y = x * 2 ^ n + y.
Proof.
  intros Hn Hy. rewrite lor_add_disjoint by (apply land_shiftl_small; auto).
  rewrite Z.shiftl_mul_pow2 by lia. reflexivity.
Qed.

(** Strong induction on the length of a list. *)
Lemma list_len_ind {A} (P : list A -> Prop) :
  (forall l, (forall m, (List.length m < List.length l)%nat -> P m) -> P l) -> forall l, P l.
Proof.
  intros H. assert (forall n l, (List.length l < n)%nat -> P l) as K.
  { induction n; intros l Hl; [lia|]. apply H. intros m Hm. apply IHn. lia. }
  intros l. apply (K (S (List.length l))). lia.
Qed.

Lemma app_inj_len {A} (a b c d : list A) :
  List.length a = List.length c -> a ++ b = c ++ d -> a = c /\ b = d.
Proof.
  revert c; induction a as [|x a IH]; destruct c as [|y c]; simpl; intros HL H; try discriminate; auto.
  inversion H; subst. injection HL as HL. destruct (IH _ HL H2) as [-> ->]. auto.
Qed.
