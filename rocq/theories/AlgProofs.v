(** Lemmas about the algorithm area. *)
From Coq Require Import String ZArith List Lia Bool.
From Coq Require Import ZifyBool ZifyNat.
From Verif Require Import Base AlgModel AlgSpec.
Import ListNotations.

(* ------------------------------------------------------------------ Base64 *)

Lemma b64_lookup_table c : is_byte c ->
  b64_lookup c = if c <? 128 then Some (nth (Z.to_nat c) b64_table (-1)) else None.
Proof.
  intros H. pose proof (byte_sweep (fun c => match b64_lookup c, (if c <? 128 then Some (nth (Z.to_nat c) b64_table (-1)) else None) with
    | Some x, Some y => x =? y | None, None => true | _, _ => false end)) as S.
  specialize (S ltac:(vm_compute; reflexivity) c H). cbv beta in S.
  destruct (b64_lookup c), (c <? 128); try discriminate; auto.
  apply Z.eqb_eq in S. congruence.
Qed.

(** Classification of one character by the table. *)
Inductive b64_class (c : Z) : option Z -> Prop :=
| bc_high : 128 <= c -> is_b64_char c = false -> c <> ch "=" -> b64_class c None
| bc_bad : is_b64_char c = false -> c < 128 -> b64_class c (Some (-1))
| bc_ok v : is_b64_char c = true -> c < 128 -> c <> ch "=" -> 0 <= v < 64 -> b64_class c (Some v).

Lemma b64_lookup_class c : is_byte c -> b64_class c (b64_lookup c).
Proof.
  intros H.
  pose proof (byte_sweep (fun c => match b64_lookup c with
     | None => (128 <=? c) && negb (is_b64_char c) && negb (c =? ch "=")
     | Some v => (c <? 128) && (if v =? -1 then negb (is_b64_char c) else is_b64_char c && negb (c =? ch "=") && (0 <=? v) && (v <? 64))
     end) ltac:(vm_compute; reflexivity) c H) as S.
  cbv beta in S. destruct (b64_lookup c) as [v|].
  - apply andb_true_iff in S as [S1 S2]. destruct (v =? -1) eqn:E.
    + assert (v = -1) by lia. subst. constructor; [apply negb_true_iff; auto | lia].
    + constructor; lia.
  - constructor; lia.
Qed.

Lemma b64_enc_lookup v : 0 <= v < 64 ->
  b64_lookup (b64_enc v) = Some v /\ b64_enc v <> ch "=" /\ is_b64_char (b64_enc v) = true.
Proof.
  intros H. assert (is_byte v) as Hb by (unfold is_byte; lia).
  pose proof (byte_sweep (fun v => if v <? 64 then match b64_lookup (b64_enc v) with Some w => (w =? v) && negb (b64_enc v =? ch "=") && is_b64_char (b64_enc v) | None => false end else true)
     ltac:(vm_compute; reflexivity) v Hb) as S.
  cbv beta in S. replace (v <? 64) with true in S by lia.
  destruct (b64_lookup (b64_enc v)); [|discriminate].
  rewrite !andb_true_iff, negb_true_iff, Z.eqb_eq, Z.eqb_neq in S. intuition congruence.
Qed.

(** Encoding as arithmetic on the bytes. *)
Lemma enc_hi b : is_byte b -> Z.land (Z.shiftr (schar b) 2) 63 = b / 4.
Proof. intros H. apply Z.eqb_eq. revert b H. apply byte_sweep. vm_compute. reflexivity. Qed.
Lemma enc_lo2 b : is_byte b -> Z.land (Z.shiftl (schar b) 4) 63 = (b mod 4) * 16.
Proof. intros H. apply Z.eqb_eq. revert b H. apply byte_sweep. vm_compute. reflexivity. Qed.
Lemma enc_hi4 b : is_byte b -> Z.land (Z.shiftr (schar b) 4) 15 = b / 16.
Proof. intros H. apply Z.eqb_eq. revert b H. apply byte_sweep. vm_compute. reflexivity. Qed.
Lemma enc_lo4 b : is_byte b -> Z.land (Z.shiftl (schar b) 2) 63 = (b mod 16) * 4.
Proof. intros H. apply Z.eqb_eq. revert b H. apply byte_sweep. vm_compute. reflexivity. Qed.
Lemma enc_hi2 b : is_byte b -> Z.land (Z.shiftr (schar b) 6) 3 = b / 64.
Proof. intros H. apply Z.eqb_eq. revert b H. apply byte_sweep. vm_compute. reflexivity. Qed.
Lemma enc_lo6 b : is_byte b -> Z.land (schar b) 63 = b mod 64.
Proof. intros H. apply Z.eqb_eq. revert b H. apply byte_sweep. vm_compute. reflexivity. Qed.
Lemma dec_hi2 c : 0 <= c < 64 -> Z.land (Z.shiftr c 4) 3 = c / 16.
Proof.
  intros H. rewrite Z.shiftr_div_pow2 by lia. change (Z.land (c / 2 ^ 4) 3) with (Z.land (c / 2^4) (Z.ones 2)).
  rewrite Z.land_ones by lia. change (2^4) with 16. change (2^2) with 4. rewrite Z.mod_small; auto.
  Z.div_mod_to_equations; lia.
Qed.
Lemma dec_mid4 c : 0 <= c < 64 -> Z.land (Z.shiftl c 4) 240 = (c mod 16) * 16.
Proof.
  intros H. assert (is_byte c) as Hb by (unfold is_byte; lia).
  assert ((if c <? 64 then Z.land (Z.shiftl c 4) 240 =? c mod 16 * 16 else true) = true) as S.
  { revert c Hb H. intros c Hb _. revert c Hb. apply byte_sweep. vm_compute. reflexivity. }
  replace (c <? 64) with true in S by lia. lia.
Qed.
Lemma dec_hi4 c : 0 <= c < 64 -> Z.land (Z.shiftr c 2) 15 = c / 4.
Proof.
  intros H. rewrite Z.shiftr_div_pow2 by lia. change 15 with (Z.ones 4).
  rewrite Z.land_ones by lia. change (2^4) with 16. change (2^2) with 4. rewrite Z.mod_small; auto.
  Z.div_mod_to_equations; lia.
Qed.
Lemma dec_lo2 c : 0 <= c < 64 -> Z.land (Z.shiftl c 6) 192 = (c mod 4) * 64.
Proof.
  intros H. assert (is_byte c) as Hb by (unfold is_byte; lia).
  assert ((if c <? 64 then Z.land (Z.shiftl c 6) 192 =? c mod 4 * 64 else true) = true) as S.
  { revert c Hb H. intros c Hb _. revert c Hb. apply byte_sweep. vm_compute. reflexivity. }
  replace (c <? 64) with true in S by lia. lia.
Qed.

Lemma lor_mul_add x y n m : m = 2 ^ n -> 0 <= n -> 0 <= y < m -> Z.lor (x * m) y = x * m + y.
Proof.
  intros -> Hn Hy. rewrite <- Z.shiftl_mul_pow2 by lia. rewrite lor_shiftl_add by lia.
  rewrite Z.shiftl_mul_pow2 by lia. reflexivity.
Qed.

Ltac dm := Z.div_mod_to_equations; lia.

Lemma b64_roundtrip_loop s : Forall is_byte s -> b64_decode_loop (b64_encode_loop s) = (B64True, s).
Proof.
  induction s as [s IH] using list_len_ind. intros HF.
  destruct s as [|a [|b [|c s]]].
  - reflexivity.
  - inversion HF as [|? ? Ha _]; subst. cbn [b64_encode_loop].
    rewrite enc_hi, enc_lo2 by auto. unfold is_byte in Ha.
    destruct (b64_enc_lookup (a / 4) ltac:(dm)) as (L0 & _ & _).
    destruct (b64_enc_lookup (a mod 4 * 16) ltac:(dm)) as (L1 & _ & _).
    cbn [b64_decode_loop]. rewrite L0, L1.
    replace (a / 4 =? -1) with false by (symmetry; apply Z.eqb_neq; dm).
    replace (a mod 4 * 16 =? -1) with false by (symmetry; apply Z.eqb_neq; dm).
    rewrite Z.eqb_refl. rewrite dec_hi2 by dm.
    rewrite lor_shiftl_add by dm.
    do 2 f_equal. unfold to_u8. change (2^2) with 4. dm.
  - inversion HF as [|? ? Ha HF']; subst. inversion HF' as [|? ? Hb _]; subst. cbn [b64_encode_loop].
    rewrite enc_hi, enc_lo2, enc_hi4, enc_lo4 by auto. unfold is_byte in Ha, Hb.
    rewrite (lor_mul_add _ _ 4) by dm.
    destruct (b64_enc_lookup (a / 4) ltac:(dm)) as (L0 & _ & _).
    destruct (b64_enc_lookup (a mod 4 * 16 + b / 16) ltac:(dm)) as (L1 & _ & _).
    destruct (b64_enc_lookup (b mod 16 * 4) ltac:(dm)) as (L2 & N2 & _).
    cbn [b64_decode_loop]. rewrite L0, L1.
    replace (a / 4 =? -1) with false by (symmetry; apply Z.eqb_neq; dm).
    replace (a mod 4 * 16 + b / 16 =? -1) with false by (symmetry; apply Z.eqb_neq; dm).
    apply Z.eqb_neq in N2. rewrite N2, L2.
    replace (b mod 16 * 4 =? -1) with false by (symmetry; apply Z.eqb_neq; dm).
    rewrite Z.eqb_refl. rewrite dec_hi2, dec_mid4, dec_hi4 by dm.
    rewrite lor_shiftl_add by dm. rewrite (lor_mul_add _ _ 4) by dm.
    unfold to_u8. change (2^2) with 4.
    assert (forall x y z w : Z, x = y -> z = w -> (B64True, [x; z]) = (B64True, [y; w])) as E by congruence.
    apply E; dm.
  - inversion HF as [|? ? Ha HF']; subst. inversion HF' as [|? ? Hb HF'']; subst.
    inversion HF'' as [|? ? Hc HFs]; subst. cbn [b64_encode_loop].
    rewrite enc_hi, enc_lo2, enc_hi4, enc_lo4, enc_hi2, enc_lo6 by auto. unfold is_byte in Ha, Hb, Hc.
    rewrite (lor_mul_add _ _ 4) by dm. rewrite (lor_mul_add _ _ 2) by dm.
    destruct (b64_enc_lookup (a / 4) ltac:(dm)) as (L0 & _ & _).
    destruct (b64_enc_lookup (a mod 4 * 16 + b / 16) ltac:(dm)) as (L1 & _ & _).
    destruct (b64_enc_lookup (b mod 16 * 4 + c / 64) ltac:(dm)) as (L2 & N2 & _).
    destruct (b64_enc_lookup (c mod 64) ltac:(dm)) as (L3 & N3 & _).
    cbn [b64_decode_loop]. rewrite L0, L1.
    replace (a / 4 =? -1) with false by (symmetry; apply Z.eqb_neq; dm).
    replace (a mod 4 * 16 + b / 16 =? -1) with false by (symmetry; apply Z.eqb_neq; dm).
    apply Z.eqb_neq in N2. rewrite N2, L2.
    replace (b mod 16 * 4 + c / 64 =? -1) with false by (symmetry; apply Z.eqb_neq; dm).
    apply Z.eqb_neq in N3. rewrite N3, L3.
    replace (c mod 64 =? -1) with false by (symmetry; apply Z.eqb_neq; dm).
    rewrite IH by (auto; cbn [List.length]; lia).
    rewrite dec_hi2, dec_mid4, dec_hi4, dec_lo2 by dm.
    rewrite lor_shiftl_add by dm. rewrite (lor_mul_add _ _ 4) by dm. rewrite (lor_mul_add _ _ 6) by dm.
    unfold to_u8. change (2^2) with 4.
    assert (forall x y z w p q : Z, x = y -> z = w -> p = q -> (B64True, x :: z :: p :: s) = (B64True, y :: w :: q :: s)) as E by congruence.
    apply E; dm.
Qed.

Lemma b64_encode_len_loop s : zlen (b64_encode_loop s) = 4 * ((zlen s + 2) / 3).
Proof.
  induction s as [s IH] using list_len_ind.
  destruct s as [|a [|b [|c s]]]; try reflexivity.
  cbn [b64_encode_loop]. rewrite !zlen_cons. rewrite IH by (cbn [List.length]; lia). dm.
Qed.

Lemma trunc32_id s : zlen s < two32 -> trunc32 s = s.
Proof.
  intros H. unfold trunc32, wrap32. rewrite Z.mod_small by (pose proof (zlen_nonneg s); lia).
  apply firstn_all2. unfold zlen. lia.
Qed.

Lemma b64_roundtrip s : Forall is_byte s -> 4 * ((zlen s + 2) / 3) < two32 ->
  b64_decode (b64_encode s) = (B64True, s).
Proof.
  intros HF HL. pose proof (zlen_nonneg s).
  assert (zlen s < two32) by (unfold two32 in *; dm).
  unfold b64_decode, b64_encode. rewrite (trunc32_id s) by auto.
  rewrite trunc32_id by (rewrite b64_encode_len_loop; auto).
  apply b64_roundtrip_loop; auto.
Qed.

Lemma b64_encode_len s : zlen s < two32 -> zlen (b64_encode s) = 4 * ((zlen s + 2) / 3).
Proof. intros H. unfold b64_encode. rewrite trunc32_id by auto. apply b64_encode_len_loop. Qed.

(** Shape: alphabet characters followed by at most two '='. *)
Lemma b64_encode_shape_loop s : Forall is_byte s ->
  exists p k, b64_encode_loop s = p ++ repeat (ch "=") k /\ Forall (fun c => is_b64_char c = true) p /\ (k <= 2)%nat
   /\ Z.of_nat k = (- zlen s) mod 3.
Proof.
  induction s as [s IH] using list_len_ind. intros HF.
  destruct s as [|a [|b [|c s]]].
  - exists [], 0%nat. repeat split; auto.
  - inversion HF as [|? ? Ha _]; subst. cbn [b64_encode_loop].
    rewrite enc_hi, enc_lo2 by auto. unfold is_byte in Ha.
    exists [b64_enc (a / 4); b64_enc (a mod 4 * 16)], 2%nat. split; [reflexivity|].
    split; [|split; [lia | reflexivity]].
    repeat constructor; apply b64_enc_lookup; dm.
  - inversion HF as [|? ? Ha HF']; subst. inversion HF' as [|? ? Hb _]; subst. cbn [b64_encode_loop].
    rewrite enc_hi, enc_lo2, enc_hi4, enc_lo4 by auto. unfold is_byte in Ha, Hb.
    rewrite (lor_mul_add _ _ 4) by dm.
    eexists [_; _; _], 1%nat. split; [reflexivity|].
    split; [|split; [lia | reflexivity]].
    repeat constructor; apply b64_enc_lookup; dm.
  - inversion HF as [|? ? Ha HF']; subst. inversion HF' as [|? ? Hb HF'']; subst.
    inversion HF'' as [|? ? Hc HFs]; subst. cbn [b64_encode_loop].
    rewrite enc_hi, enc_lo2, enc_hi4, enc_lo4, enc_hi2, enc_lo6 by auto. unfold is_byte in Ha, Hb, Hc.
    rewrite (lor_mul_add _ _ 4) by dm. rewrite (lor_mul_add _ _ 2) by dm.
    destruct (IH s ltac:(cbn [List.length]; lia) HFs) as (p & k & E & Hp & Hk & Hm). rewrite E.
    eexists (_ :: _ :: _ :: _ :: p), k. split; [reflexivity|].
    split; [|split; [lia | rewrite !zlen_cons; dm]].
    repeat constructor; auto; apply b64_enc_lookup; dm.
Qed.

Lemma b64_encode_inj s t : Forall is_byte s -> Forall is_byte t ->
  4 * ((zlen s + 2) / 3) < two32 -> 4 * ((zlen t + 2) / 3) < two32 ->
  b64_encode s = b64_encode t -> s = t.
Proof.
  intros Hs Ht Ls Lt E. pose proof (b64_roundtrip s Hs Ls) as A. pose proof (b64_roundtrip t Ht Lt) as B.
  rewrite E, B in A. congruence.
Qed.

(** Beyond 4 GiB the length is truncated. *)
Lemma b64_encode_4gib s : zlen s = two32 -> b64_encode s = [].
Proof.
  intros H. unfold b64_encode, trunc32, wrap32. rewrite H. rewrite Z.mod_same by (unfold two32; lia).
  reflexivity.
Qed.

Lemma b64_4gib_refuted : exists s, Forall is_byte s /\ b64_decode (b64_encode s) <> (B64True, s).
Proof.
  assert (0 <= two32) as P by (unfold two32; lia). assert (0 < two32) as P' by (unfold two32; lia).
  assert (forall s, zlen s = two32 -> b64_decode (b64_encode s) <> (B64True, s)) as X.
  { intros s L E. rewrite b64_encode_4gib in E by auto. change (b64_decode []) with (B64True, @nil Z) in E.
    injection E as E. subst s. rewrite zlen_nil in L. lia. }
  exists (repeat 0 (Z.to_nat two32)). split.
  - apply Forall_forall. intros x H. apply repeat_spec in H. subst. unfold is_byte. lia.
  - apply X. unfold zlen. rewrite repeat_length. apply Z2Nat.id, P.
Qed.

(** Exact classification of the decoder's result by the first non-alphabet character. *)
Definition all_b64 := Forall (fun c => is_b64_char c = true).

Inductive b64_scan : list Z -> b64_result -> Prop :=
| bsc_end p : all_b64 p -> b64_scan p (if zlen p mod 4 =? 1 then B64False else B64True)
| bsc_pad p j : all_b64 p -> b64_scan (p ++ ch "=" :: j) (if 2 <=? zlen p mod 4 then B64True else B64False)
| bsc_bad p c j : all_b64 p -> is_b64_char c = false -> c < 128 -> c <> ch "=" -> b64_scan (p ++ c :: j) B64False
| bsc_high p c j : all_b64 p -> 128 <= c -> b64_scan (p ++ c :: j) B64UB.

Lemma b64_scan_extend a b c d s r : all_b64 [a; b; c; d] -> b64_scan s r -> b64_scan (a :: b :: c :: d :: s) r.
Proof.
  intros H S. assert (forall p, all_b64 p -> all_b64 (a :: b :: c :: d :: p)) as X.
  { intros p Hp. change (all_b64 ([a; b; c; d] ++ p)). apply Forall_app. auto. }
  inversion S; subst.
  - replace (zlen s mod 4) with (zlen (a :: b :: c :: d :: s) mod 4) by (rewrite !zlen_cons; dm).
    constructor; auto.
  - replace (zlen p mod 4) with (zlen (a :: b :: c :: d :: p) mod 4) by (rewrite !zlen_cons; dm).
    apply (bsc_pad (a :: b :: c :: d :: p)); auto.
  - apply (bsc_bad (a :: b :: c :: d :: p)); auto.
  - apply (bsc_high (a :: b :: c :: d :: p)); auto.
Qed.

Lemma b64_decode_scan s : Forall is_byte s -> b64_scan s (fst (b64_decode_loop s)).
Proof.
  induction s as [s IH] using list_len_ind. intros HF.
  destruct s as [|a s1]; [exact (bsc_end [] (Forall_nil _))|].
  inversion HF as [|? ? Ha HF1]; subst. cbn [b64_decode_loop].
  destruct (b64_lookup_class a Ha) as [A1 A2 A3|A1 A2|va A1 A2 A3 A4].
  { apply (bsc_high []); [constructor | auto]. }
  { rewrite Z.eqb_refl. destruct (Z.eq_dec a (ch "=")) as [->|].
    - apply (bsc_pad []); constructor.
    - apply (bsc_bad []); auto; constructor. }
  replace (va =? -1) with false by lia.
  assert (all_b64 [a]) as Pa by (repeat constructor; auto).
  destruct s1 as [|b s2]; [exact (bsc_end [a] Pa)|].
  inversion HF1 as [|? ? Hb HF2]; subst.
  destruct (b64_lookup_class b Hb) as [B1 B2 B3|B1 B2|vb B1 B2 B3 B4].
  { apply (bsc_high [a]); auto. }
  { rewrite Z.eqb_refl. destruct (Z.eq_dec b (ch "=")) as [->|].
    - apply (bsc_pad [a]); auto.
    - apply (bsc_bad [a]); auto. }
  replace (vb =? -1) with false by lia.
  assert (all_b64 [a; b]) as Pb by (repeat constructor; auto).
  destruct s2 as [|c s3]; [exact (bsc_end [a; b] Pb)|].
  inversion HF2 as [|? ? Hc HF3]; subst.
  destruct (c =? ch "=") eqn:Ec.
  { apply Z.eqb_eq in Ec. subst c. exact (bsc_pad [a; b] s3 Pb). }
  apply Z.eqb_neq in Ec.
  destruct (b64_lookup_class c Hc) as [C1 C2 C3|C1 C2|vc C1 C2 C3 C4].
  { apply (bsc_high [a; b]); auto. }
  { rewrite Z.eqb_refl. apply (bsc_bad [a; b]); auto. }
  replace (vc =? -1) with false by lia.
  assert (all_b64 [a; b; c]) as Pc by (repeat constructor; auto).
  destruct s3 as [|d s4]; [exact (bsc_end [a; b; c] Pc)|].
  inversion HF3 as [|? ? Hd HF4]; subst.
  destruct (d =? ch "=") eqn:Ed.
  { apply Z.eqb_eq in Ed. subst d. exact (bsc_pad [a; b; c] s4 Pc). }
  apply Z.eqb_neq in Ed.
  destruct (b64_lookup_class d Hd) as [D1 D2 D3|D1 D2|vd D1 D2 D3 D4].
  { apply (bsc_high [a; b; c]); auto. }
  { rewrite Z.eqb_refl. apply (bsc_bad [a; b; c]); auto. }
  replace (vd =? -1) with false by lia.
  destruct (b64_decode_loop s4) as [r out] eqn:E. cbn [fst].
  apply b64_scan_extend; [repeat constructor; auto|].
  specialize (IH s4 ltac:(cbn [List.length]; lia) HF4). rewrite E in IH. exact IH.
Qed.

(** A list splits in at most one way at its first non-alphabet character. *)
Lemma all_b64_split_unique p c j p' c' j' :
  all_b64 p -> all_b64 p' -> is_b64_char c = false -> is_b64_char c' = false ->
  p ++ c :: j = p' ++ c' :: j' -> p = p' /\ c = c' /\ j = j'.
Proof.
  revert p'; induction p as [|x p IH]; destruct p' as [|y p']; simpl; intros Hp Hp' Hc Hc' E.
  - inversion E; auto.
  - inversion E; subst. inversion Hp'; subst. congruence.
  - inversion E; subst. inversion Hp; subst. congruence.
  - inversion E; subst. inversion Hp; inversion Hp'; subst.
    destruct (IH p') as (-> & -> & ->); auto.
Qed.

Lemma is_b64_char_high c : 128 <= c -> is_b64_char c = false.
Proof. unfold is_b64_char. lia. Qed.

Lemma all_b64_no_split p p' c' j' : all_b64 p -> is_b64_char c' = false -> p <> p' ++ c' :: j'.
Proof.
  intros Hp Hc E. subst p. apply Forall_app in Hp as [_ H]. inversion H; subst. congruence.
Qed.

Lemma b64_scan_accept s r : b64_scan s r -> (r = B64True <-> b64_accepted s).
Proof.
  intros S. assert (is_b64_char (ch "=") = false) as Heq by reflexivity. unfold b64_accepted. inversion S; subst.
  - destruct (zlen s mod 4 =? 1) eqn:E.
    + split; [discriminate|]. intros [[_ K]|(p & j & E1 & _)]; [lia|].
      exfalso. eapply all_b64_no_split; eauto.
    + split; auto. intros _. left. split; auto. lia.
  - destruct (2 <=? zlen p mod 4) eqn:E.
    + split; auto. intros _. right. exists p, j. repeat split; auto. lia.
    + split; [discriminate|]. intros [[K _]|(p' & j' & E1 & P' & L)].
      * apply Forall_app in K as [_ K]. inversion K; subst. discriminate.
      * apply all_b64_split_unique in E1 as (-> & _ & _); auto. lia.
  - split; [discriminate|]. intros [[K _]|(p' & j' & E1 & P' & L)].
    + apply Forall_app in K as [_ K]. inversion K; subst. congruence.
    + apply all_b64_split_unique in E1 as (-> & -> & _); auto. congruence.
  - split; [discriminate|]. pose proof (is_b64_char_high c H0). intros [[K _]|(p' & j' & E1 & P' & L)].
    + apply Forall_app in K as [_ K]. inversion K; subst. congruence.
    + apply all_b64_split_unique in E1 as (-> & -> & _); auto. vm_compute in H0; intuition congruence.
Qed.

Lemma b64_scan_ub s r : b64_scan s r -> (r = B64UB <-> b64_high_byte_reached s).
Proof.
  intros S. unfold b64_high_byte_reached. inversion S; subst.
  - split; [destruct (zlen s mod 4 =? 1); discriminate|]. intros (p & c & j & E & _ & Hc).
    exfalso. eapply all_b64_no_split; eauto. apply is_b64_char_high; auto.
  - split; [destruct (2 <=? zlen p mod 4); discriminate|]. intros (p' & c & j' & E & P' & Hc).
    apply all_b64_split_unique in E as (-> & <- & _); auto. vm_compute in Hc; intuition congruence. apply is_b64_char_high; auto.
  - split; [discriminate|]. intros (p' & c' & j' & E & P' & Hc).
    apply all_b64_split_unique in E as (-> & <- & _); auto. lia. apply is_b64_char_high; auto.
  - split; auto. intros _. exists p, c, j. auto.
Qed.

Lemma b64_decode_accept s : Forall is_byte s -> zlen s < two32 ->
  (fst (b64_decode s) = B64True <-> b64_accepted s).
Proof.
  intros H L. unfold b64_decode. rewrite trunc32_id by auto. apply b64_scan_accept, b64_decode_scan, H.
Qed.
Lemma b64_decode_ub s : Forall is_byte s -> zlen s < two32 ->
  (fst (b64_decode s) = B64UB <-> b64_high_byte_reached s).
Proof.
  intros H L. unfold b64_decode. rewrite trunc32_id by auto. apply b64_scan_ub, b64_decode_scan, H.
Qed.

(* ------------------------------------------------------------------ URL coding *)

Lemma url_encode1_plain c : is_byte c -> url_keep c = true -> url_plain c = true.
Proof.
  intros H K. assert ((if url_keep c then url_plain c else true) = true) as S.
  { revert c H K. intros c H _. revert c H. apply byte_sweep. vm_compute. reflexivity. }
  rewrite K in S. exact S.
Qed.
Lemma url_encode_written s : Forall is_byte s -> url_encode s = flat_map url_written s.
Proof.
  induction 1 as [|c s B _ IH]; [reflexivity|]. cbn [url_encode flat_map]. rewrite IH. f_equal.
  assert (str_eqb (url_encode1 c) (url_written c) = true) as S. { revert c B. apply byte_sweep. vm_compute. reflexivity. }
  apply str_eqb_eq. exact S.
Qed.
Lemma url_keep_dec c : is_byte c -> url_keep c = true -> c <> ch "+" /\ c <> ch "%".
Proof.
  intros H K. assert ((if url_keep c then negb (c =? ch "+") && negb (c =? ch "%") else true) = true) as S.
  { revert c H K. intros c H _. revert c H. apply byte_sweep. vm_compute. reflexivity. }
  rewrite K in S. rewrite andb_true_iff, !negb_true_iff, !Z.eqb_neq in S. exact S.
Qed.
Lemma url_hex_dec c : is_byte c -> to_u8 (strtol16 [hex_digit (c / 16); hex_digit (c mod 16)]) = c.
Proof. intros H. apply Z.eqb_eq. revert c H. apply byte_sweep. vm_compute. reflexivity. Qed.
Lemma url_hex_upper c : is_byte c -> is_upper_hex (hex_digit (c / 16)) = true /\ is_upper_hex (hex_digit (c mod 16)) = true.
Proof. intros H. apply andb_true_iff. revert c H. apply byte_sweep. vm_compute. reflexivity. Qed.

Lemma url_text_app a b : url_text a -> url_text b -> url_text (a ++ b).
Proof. induction 1; cbn [app]; intros; auto; [apply ut_plain | apply ut_esc]; auto. Qed.

Lemma url_encode_text s : Forall is_byte s -> url_text (url_encode s).
Proof.
  induction 1 as [|c s Hc _ IH]; cbn [url_encode]; [constructor|].
  apply url_text_app; auto. unfold url_encode1. destruct (url_keep c) eqn:K.
  - constructor; [apply url_encode1_plain; auto | constructor].
  - destruct (url_hex_upper c Hc). unfold url_escape. apply ut_esc; auto. constructor.
Qed.

Lemma url_encode_app a b : url_encode (a ++ b) = url_encode a ++ url_encode b.
Proof. induction a; cbn [url_encode app]; auto. rewrite IHa, app_assoc. reflexivity. Qed.

Lemma url_decode_escape c t : is_byte c -> c <> 0 -> url_decode (url_escape c ++ t) = c :: url_decode t.
Proof.
  intros H N. unfold url_escape. cbn [app url_decode].
  replace (ch "%" =? ch "+") with false by reflexivity. rewrite Z.eqb_refl.
  rewrite url_hex_dec by auto. replace (c =? 0) with false by lia. reflexivity.
Qed.

Lemma url_decode_encode1 c t : is_byte c -> c <> 0 -> url_decode (url_encode1 c ++ t) = c :: url_decode t.
Proof.
  intros H N. unfold url_encode1. destruct (url_keep c) eqn:K.
  - destruct (url_keep_dec c H K) as [N1 N2]. cbn [app url_decode].
    apply Z.eqb_neq in N1, N2. rewrite N1, N2. reflexivity.
  - apply url_decode_escape; auto.
Qed.

Lemma url_decode_encode_app s t : Forall is_byte s -> ~ In 0 s -> url_decode (url_encode s ++ t) = s ++ url_decode t.
Proof.
  induction 1 as [|c s Hc Hs IH]; intros N; cbn [url_encode]; auto.
  rewrite <- app_assoc, url_decode_encode1; auto.
  - rewrite IH; auto. intro; apply N; right; auto.
  - intro; apply N; left; auto.
Qed.

Lemma url_roundtrip s : Forall is_byte s -> ~ In 0 s -> url_decode (url_encode s) = s.
Proof.
  intros H N. rewrite <- (app_nil_r (url_encode s)), url_decode_encode_app; auto.
  cbn. apply app_nil_r.
Qed.

(** A NUL byte comes back as the three characters %00. *)
Lemma url_decode_encode_general s : Forall is_byte s ->
  url_decode (url_encode s) = concat (map (fun c => if c =? 0 then bs "%00" else [c]) s).
Proof.
  induction 1 as [|c s Hc Hs IH]; auto. cbn [url_encode map concat].
  destruct (c =? 0) eqn:E.
  - apply Z.eqb_eq in E. subst c. change (url_encode1 0) with (bs "%00").
    cbn [app bs]. change (bs "%00") with [37; 48; 48]. cbn [app url_decode].
    change (37 =? ch "+") with false. change (37 =? ch "%") with true.
    change (to_u8 (strtol16 [48; 48]) =? 0) with true. cbn iota.
    change (48 =? ch "+") with false. change (48 =? ch "%") with false. cbn iota.
    rewrite IH. reflexivity.
  - apply Z.eqb_neq in E. rewrite url_decode_encode1 by auto. rewrite IH. reflexivity.
Qed.

Lemma url_roundtrip_conv s : Forall is_byte s -> url_decode (url_encode s) = s -> ~ In 0 s.
Proof.
  intros H E. rewrite url_decode_encode_general in E by auto.
  assert (forall s, zlen s <= zlen (concat (map (fun c => if c =? 0 then bs "%00" else [c]) s))) as L.
  { clear. induction s as [|c s IH]; cbn [map concat]; [lia|]. rewrite zlen_app, zlen_cons.
    destruct (c =? 0); [change (zlen (bs "%00")) with 3 | change (zlen [c]) with 1]; lia. }
  induction s as [|c s IH]; auto. cbn [map concat] in E. inversion H; subst.
  destruct (c =? 0) eqn:Ec.
  - exfalso. apply (f_equal zlen) in E. rewrite zlen_app, zlen_cons in E. change (zlen (bs "%00")) with 3 in E.
    pose proof (L s). lia.
  - cbn [app] in E. inversion E as [E']. apply Z.eqb_neq in Ec.
    intros [K|K]; [congruence|]. rewrite E' in *. revert K. apply IH; auto.
Qed.

Lemma url_decode_len s : zlen (url_decode s) <= zlen s.
Proof.
  induction s as [s IH] using list_len_ind. destruct s as [|c s1]; [cbn; lia|].
  assert (zlen (url_decode s1) <= zlen s1) by (apply IH; cbn [List.length]; lia).
  cbn [url_decode]. destruct (c =? ch "+"); [rewrite !zlen_cons; lia|].
  destruct (c =? ch "%"); [|rewrite !zlen_cons; lia].
  destruct s1 as [|a [|b s3]]; try (rewrite !zlen_cons in *; lia).
  destruct (to_u8 _ =? 0); [rewrite zlen_cons, (zlen_cons c); lia|].
  assert (zlen (url_decode s3) <= zlen s3) by (apply IH; cbn [List.length]; lia).
  rewrite !zlen_cons. lia.
Qed.

Lemma url_decode_id s : ~ In (ch "+") s -> ~ In (ch "%") s -> url_decode s = s.
Proof.
  induction s as [|c s IH]; auto. intros A B. cbn [url_decode].
  assert (c <> ch "+") by (intro; apply A; left; auto). assert (c <> ch "%") by (intro; apply B; left; auto).
  apply Z.eqb_neq in H, H0. rewrite H, H0. rewrite IH; auto; intro; [apply A | apply B]; right; auto.
Qed.

Lemma to_u8_byte z : is_byte (to_u8 z).
Proof. unfold to_u8, is_byte. apply Z.mod_pos_bound. lia. Qed.

Lemma url_decode_bytes s : Forall is_byte s -> Forall is_byte (url_decode s).
Proof.
  induction s as [s IH] using list_len_ind. intros HF. destruct s as [|c s1]; [constructor|].
  inversion HF as [|? ? Hc HF1]; subst.
  assert (Forall is_byte (url_decode s1)) by (apply IH; auto; cbn [List.length]; lia).
  assert (is_byte (ch " ") /\ is_byte (ch "%")) as [? ?] by (unfold is_byte; cbn; lia).
  cbn [url_decode]. destruct (c =? ch "+"); [constructor; auto|].
  destruct (c =? ch "%"); [|constructor; auto].
  destruct s1 as [|a [|b s3]]; try (constructor; auto).
  destruct (to_u8 _ =? 0); [constructor; auto|]. constructor; [apply to_u8_byte|].
  inversion HF1; subst. inversion H5; subst. apply IH; auto. cbn [List.length]; lia.
Qed.

(* ------------------------------------------------------------------ XML *)

Lemma nth_error_cstr (rest : list Z) i : Nat.ltb i (List.length rest) = true ->
  exists c, nth_error rest i = Some c.
Proof.
  intros H. apply Nat.ltb_lt in H. destruct (nth_error rest i) eqn:E; eauto.
  apply nth_error_None in E. lia.
Qed.

(** Continuation checks never leave the string: a NUL ends them. *)
Lemma xml_conts_total (rest : list Z) n i : (i <= List.length rest)%nat -> exists r, xml_conts rest i n = Some r.
Proof.
  revert i; induction n as [|n IH]; intros i Hi; simpl; [eauto|].
  unfold cstr_at. destruct (Nat.ltb i (List.length rest)) eqn:E.
  - destruct (nth_error_cstr rest i E) as [c ->]. destruct (xml_cont c); eauto.
    apply IH. apply Nat.ltb_lt in E. lia.
  - apply Nat.ltb_ge in E. replace (Nat.eqb i (List.length rest)) with true by (symmetry; apply Nat.eqb_eq; lia).
    simpl. eauto.
Qed.

Lemma xml_encode_loop_total s : forall skip, exists o, xml_encode_loop skip s = Some o.
Proof.
  induction s as [|c s IH]; intros skip; cbn [xml_encode_loop]; [eauto|].
  destruct skip as [|k].
  - destruct (IH O) as [o0 E0]. rewrite E0. destruct (xml_ascii c); [eauto|].
    destruct (xml_need c) as [n|]; [|eauto].
    destruct (xml_conts_total s n 0) as [r Er]; [lia|]. rewrite Er.
    destruct r; [|eauto]. destruct (IH n) as [o E]. rewrite E. eauto.
  - destruct (IH k) as [o E]. rewrite E. eauto.
Qed.

Lemma xml_conts_split rest n : forall i, xml_conts rest i n = Some true ->
  exists u r, skipn i rest = u ++ r /\ List.length u = n /\ Forall (fun c => 128 <= c <= 191) u.
Proof.
  induction n as [|n IH]; intros i H.
  - exists [], (skipn i rest). auto.
  - cbn [xml_conts] in H. destruct (cstr_at rest i) as [c|] eqn:Ec; [|discriminate].
    destruct (xml_cont c) eqn:K; [|discriminate].
    destruct (IH _ H) as (u & r & E1 & E2 & E3).
    unfold cstr_at in Ec. destruct (Nat.ltb i (List.length rest)) eqn:L.
    + exists (c :: u), r. split.
      * rewrite <- app_comm_cons, <- E1. clear - Ec. revert i Ec. induction rest as [|x rest IHr]; intros i Ec.
        -- destruct i; discriminate.
        -- destruct i; simpl in *; [congruence|]. apply IHr; auto.
      * split; [simpl; lia|]. constructor; auto. unfold xml_cont in K. lia.
    + destruct (Nat.eqb i (List.length rest)); [|discriminate]. inversion Ec; subst. discriminate.
Qed.

Lemma xml_conts_false rest n u r :
  xml_conts rest 0 n = Some false -> List.length u = n -> Forall (fun c => 128 <= c <= 191) u -> rest <> u ++ r.
Proof.
  intros H L F E. assert (forall v, (Forall (fun c => 128 <= c <= 191) v) -> forall pre w, 
     xml_conts (pre ++ v ++ w) (List.length pre) (List.length v) = Some true) as X.
  { intros v Hv. induction Hv as [|c v Hc Hv IH]; intros pre w; [reflexivity|].
    cbn [List.length xml_conts]. unfold cstr_at.
    replace (Nat.ltb (List.length pre) (List.length (pre ++ (c :: v) ++ w))) with true
      by (symmetry; apply Nat.ltb_lt; rewrite !app_length; simpl; lia).
    rewrite nth_error_app2 by lia. rewrite Nat.sub_diag. cbn [nth_error app].
    replace (xml_cont c) with true by (symmetry; unfold xml_cont; lia).
    specialize (IH (pre ++ [c]) w). rewrite app_length in IH. simpl in IH.
    rewrite <- app_assoc in IH. cbn [app] in IH.
    replace (S (List.length pre)) with (List.length pre + 1)%nat by lia. exact IH. }
  specialize (X u F [] r). simpl in X. subst rest n. congruence.
Qed.

(** Recursion over whole characters. *)
Lemma xml_encode_loop_skip u s : xml_encode_loop (List.length u) (u ++ s) =
  match xml_encode_loop O s with Some o => Some (u ++ o) | None => None end.
Proof.
  induction u as [|c u IH]; cbn [List.length app].
  - destruct (xml_encode_loop 0 s); reflexivity.
  - cbn [xml_encode_loop]. rewrite IH. destruct (xml_encode_loop 0 s); reflexivity.
Qed.

Definition xml_escape_unit (u : list Z) : list Z := match u with [c] => xml_escape c | _ => u end.

Inductive xml_enc_rel : list Z -> list Z -> Prop :=
| xe_nil : xml_enc_rel [] []
| xe_unit u s o : xml_unit u -> xml_enc_rel s o -> xml_enc_rel (u ++ s) (xml_escape_unit u ++ o)
| xe_bad c s o : (forall u r, xml_unit u -> c :: s <> u ++ r) -> xml_enc_rel s o ->
                 xml_enc_rel (c :: s) (utf8_replacement ++ o).

Lemma xml_encode_rel s : exists o, xml_encode s = Some o /\ xml_enc_rel s o.
Proof.
  unfold xml_encode.
  induction s as [s IH] using list_len_ind. destruct s as [|c s]; [exists []; split; [auto | constructor]|].
  destruct (IH s ltac:(cbn [List.length]; lia)) as (o & E & R).
  cbn [xml_encode_loop]. rewrite E.
  destruct (xml_ascii c) eqn:A.
  { eexists; split; [reflexivity|]. apply (xe_unit [c]); auto. constructor. unfold xml_ascii in A. lia. }
  destruct (xml_need c) as [n|] eqn:N.
  - destruct (xml_conts_total s n 0 ltac:(lia)) as [r Er]. rewrite Er. destruct r.
    + destruct (xml_conts_split _ _ _ Er) as (u & r & E1 & L & F). cbn [skipn] in E1. subst s.
      destruct (IH r ltac:(cbn [List.length]; rewrite app_length; lia)) as (o' & E' & R').
      rewrite <- L, xml_encode_loop_skip, E'. eexists; split; [reflexivity|].
      assert (xml_unit (c :: u) /\ xml_escape_unit (c :: u) = c :: u) as [U1 U2].
      { unfold xml_need in N.
        destruct ((194 <=? c) && (c <=? 223)) eqn:R1; [|destruct ((224 <=? c) && (c <=? 239)) eqn:R2; [|destruct ((240 <=? c) && (c <=? 244)) eqn:R3; [|discriminate]]];
        inversion N; subst n; repeat (destruct u as [|? u]; try discriminate);
        repeat match goal with H : Forall _ (_ :: _) |- _ => inversion H; clear H; subst end;
        (split; [constructor; lia | reflexivity]). }
      pose proof (xe_unit _ _ _ U1 R') as K. rewrite U2 in K. exact K.
    + eexists; split; [reflexivity|]. apply xe_bad; auto. intros u r U EQ.
      unfold xml_ascii in A. unfold xml_need in N.
      assert (exists v, u = c :: v /\ s = v ++ r) as (v & -> & Hs).
      { inversion U; subst; inversion EQ; subst; eexists; split; reflexivity. }
      assert (List.length v = n /\ Forall (fun c => 128 <= c <= 191) v) as [Hl Hf].
      { destruct ((194 <=? c) && (c <=? 223)) eqn:R1; [|destruct ((224 <=? c) && (c <=? 239)) eqn:R2; [|destruct ((240 <=? c) && (c <=? 244)) eqn:R3; [|discriminate]]];
        inversion N; subst n; inversion U; subst; try lia; (split; [reflexivity | repeat constructor; lia]). }
      exact (xml_conts_false _ _ _ _ Er Hl Hf Hs).
  - eexists; split; [reflexivity|]. apply xe_bad; auto. intros u r U EQ.
    unfold xml_ascii in A. unfold xml_need in N.
    destruct ((194 <=? c) && (c <=? 223)) eqn:R1; [discriminate|].
    destruct ((224 <=? c) && (c <=? 239)) eqn:R2; [discriminate|].
    destruct ((240 <=? c) && (c <=? 244)) eqn:R3; [discriminate|].
    inversion U; subst; inversion EQ; subst; lia.
Qed.

(** Output safety. *)
Lemma xml_safe_high u o : Forall (fun c => 128 <= c) u -> xml_safe o = true -> xml_safe (u ++ o) = true.
Proof.
  induction 1 as [|c u Hc Hu IH]; auto. intros S. cbn [app xml_safe].
  rewrite IH by auto. replace (c =? 38) with false by lia. cbn [existsb].
  replace (c =? 60) with false by lia. replace (c =? 62) with false by lia.
  replace (c =? 34) with false by lia. replace (c =? 39) with false by lia. reflexivity.
Qed.

Lemma xml_escape_cases c : 
  (c = 38 /\ xml_escape c = bs "&amp;") \/ (c = 60 /\ xml_escape c = bs "&lt;") \/ (c = 62 /\ xml_escape c = bs "&gt;")
  \/ (c = 34 /\ xml_escape c = bs "&quot;") \/ (c = 39 /\ xml_escape c = bs "&apos;")
  \/ (c <> 38 /\ c <> 60 /\ c <> 62 /\ c <> 34 /\ c <> 39 /\ xml_escape c = [c]).
Proof.
  unfold xml_escape. change (ch "&") with 38. change (ch "<") with 60. change (ch ">") with 62.
  destruct (c =? 38) eqn:E1; [left; split; [lia | auto]|]. right.
  destruct (c =? 60) eqn:E2; [left; split; [lia | auto]|]. right.
  destruct (c =? 62) eqn:E3; [left; split; [lia | auto]|]. right.
  destruct (c =? 34) eqn:E4; [left; split; [lia | auto]|]. right.
  destruct (c =? 39) eqn:E5; [left; split; [lia | auto]|]. right. repeat split; lia || auto.
Qed.

Lemma xml_safe_escape c o : xml_safe o = true -> xml_safe (xml_escape c ++ o) = true.
Proof.
  intros S. destruct (xml_escape_cases c) as [[_ ->]|[[_ ->]|[[_ ->]|[[_ ->]|[[_ ->]|(N1 & N2 & N3 & N4 & N5 & ->)]]]]];
    try (cbn; exact S).
  cbn [app xml_safe existsb]. rewrite S.
  replace (c =? 38) with false by lia. replace (c =? 60) with false by lia. replace (c =? 62) with false by lia.
  replace (c =? 34) with false by lia. replace (c =? 39) with false by lia. reflexivity.
Qed.

Lemma xml_unit_high u : xml_unit u -> (exists c, u = [c] /\ c <= 127) \/ (xml_escape_unit u = u /\ Forall (fun c => 128 <= c) u).
Proof.
  inversion 1; subst.
  - left. eexists; split; [reflexivity | lia].
  - right. split; [reflexivity | repeat constructor; lia].
  - right. split; [reflexivity | repeat constructor; lia].
  - right. split; [reflexivity | repeat constructor; lia].
Qed.

Lemma xml_enc_rel_safe s o : xml_enc_rel s o -> xml_safe o = true.
Proof.
  induction 1 as [|u s o U R IH|c s o N R IH]; [reflexivity | |].
  - destruct (xml_unit_high u U) as [(c & -> & _)|[E F]].
    + apply xml_safe_escape; auto.
    + rewrite E. apply xml_safe_high; auto.
  - apply xml_safe_high; auto. unfold utf8_replacement. repeat constructor; lia.
Qed.

Lemma xml_encode_safe s o : xml_encode s = Some o -> xml_safe o = true.
Proof.
  intros H. destruct (xml_encode_rel s) as (o' & E & R). rewrite E in H. inversion H; subst.
  eapply xml_enc_rel_safe; eauto.
Qed.

(** Unescaping. *)
Lemma xml_unescape_fuel_enough n m o : (List.length o <= n)%nat -> (List.length o <= m)%nat ->
  xml_unescape_fuel n o = xml_unescape_fuel m o.
Proof.
  revert m o; induction n as [|n IH]; intros m o Hn Hm.
  - destruct o; [destruct m; reflexivity | simpl in Hn; lia].
  - destruct m as [|m]; [destruct o; [reflexivity | simpl in Hm; lia]|].
    cbn [xml_unescape_fuel]. destruct o as [|c r]; auto.
    unfold xml_entity_at. destruct (find _ _) as [[e v]|] eqn:F.
    + apply find_some in F as [F _]. simpl in F.
      assert (1 <= List.length e)%nat by (destruct F as [F|[F|[F|[F|[F|[]]]]]]; inversion F; subst; simpl; lia).
      f_equal. apply IH; rewrite skipn_length; cbn [List.length] in *; lia.
    + f_equal. apply IH; simpl in *; lia.
Qed.

Lemma xml_unescape_cons_other c o : c <> 38 -> xml_unescape (c :: o) = c :: xml_unescape o.
Proof.
  intros H. unfold xml_unescape. cbn [List.length xml_unescape_fuel].
  unfold xml_entity_at, xml_entities. cbn [find fst].
  assert (forall p, is_prefix (38 :: p) (c :: o) = false) as X
    by (intros; cbn [is_prefix]; replace (38 =? c) with false by lia; reflexivity).
  change (bs "&amp;") with (38 :: bs "amp;"). change (bs "&lt;") with (38 :: bs "lt;").
  change (bs "&gt;") with (38 :: bs "gt;"). change (bs "&quot;") with (38 :: bs "quot;").
  change (bs "&apos;") with (38 :: bs "apos;"). rewrite !X.
  reflexivity.
Qed.

Lemma xml_unescape_high u o : Forall (fun c => 128 <= c) u -> xml_unescape (u ++ o) = u ++ xml_unescape o.
Proof.
  induction 1; auto. cbn [app]. rewrite xml_unescape_cons_other by lia. congruence.
Qed.

Lemma xml_unescape_entity e v o : In (e, v) xml_entities -> xml_unescape (e ++ o) = v :: xml_unescape o.
Proof.
  intros H. assert (xml_entity_at (e ++ o) = Some (e, v)) as E
    by (destruct H as [H|[H|[H|[H|[H|[]]]]]]; inversion H; subst; reflexivity).
  assert (exists x l, e = x :: l) as (x & l & Hx) by (destruct H as [H|[H|[H|[H|[H|[]]]]]]; inversion H; subst; cbn; eauto).
  unfold xml_unescape. rewrite Hx in *. cbn [app List.length xml_unescape_fuel]. cbn [app] in E. rewrite E.
  f_equal. cbn [List.length skipn].
  replace (skipn (List.length l) (l ++ o)) with o.
  - apply xml_unescape_fuel_enough; [rewrite app_length; lia | lia].
  - clear. induction l; auto.
Qed.

Lemma xml_unescape_escape c o : xml_unescape (xml_escape c ++ o) = c :: xml_unescape o.
Proof.
  destruct (xml_escape_cases c) as [[-> ->]|[[-> ->]|[[-> ->]|[[-> ->]|[[-> ->]|(N1 & N2 & N3 & N4 & N5 & ->)]]]]];
    try (apply xml_unescape_entity; unfold xml_entities; simpl; tauto).
  cbn [app]. apply xml_unescape_cons_other; auto.
Qed.

Lemma xml_enc_rel_clean s o : xml_enc_rel s o -> xml_clean s (xml_unescape o).
Proof.
  induction 1 as [|u s o U R IH|c s o N R IH]; [constructor | |].
  - destruct (xml_unit_high u U) as [(c & -> & _)|[E F]].
    + cbn [xml_escape_unit]. rewrite xml_unescape_escape. apply (xc_unit [c]); auto.
    + rewrite E. rewrite xml_unescape_high by auto. apply xc_unit; auto.
  - rewrite xml_unescape_high by (unfold utf8_replacement; repeat constructor; lia). apply xc_bad; auto.
Qed.

(** Units are prefix-free, so cleaning is a function and text is unchanged by it. *)
Lemma xml_unit_prefix_free u v r r' : xml_unit u -> xml_unit v -> u ++ r = v ++ r' -> u = v /\ r = r'.
Proof.
  intros U V E. inversion U; subst; inversion V; subst; simpl in E; inversion E; subst; auto; lia.
Qed.

Lemma xml_clean_text s o : xml_text s -> xml_clean s o -> o = s.
Proof.
  intros T. revert o. induction T as [|u s U T IH]; intros o C.
  - inversion C as [E|u s o1 U C1 E|]; subst; auto. destruct U; discriminate E.
  - inversion C as [E|u' s' o' U' C' E|c s' o' N C' E]; subst.
    + inversion U; subst; discriminate.
    + destruct (xml_unit_prefix_free _ _ _ _ U' U E) as [-> ->]. f_equal. auto.
    + exfalso. symmetry in E. eapply N; eauto.
Qed.

(** Cleaning always yields text: the output is structurally well-formed. *)
Lemma xml_clean_is_text s o : xml_clean s o -> xml_text o.
Proof.
  induction 1; [constructor | constructor; auto |].
  apply (xt_unit [239; 191; 189]); auto. apply xu3; lia.
Qed.

Lemma xml_escape_unit_text u o : xml_unit u -> xml_text o -> xml_text (xml_escape_unit u ++ o).
Proof.
  intros U T. assert (forall l, Forall (fun c => 32 <= c <= 127) l -> xml_text (l ++ o)) as X.
  { induction 1; auto. apply (xt_unit [x]); auto. constructor. lia. }
  destruct (xml_unit_high u U) as [(c & -> & L)|[E F]].
  - cbn [xml_escape_unit]. destruct (xml_escape_cases c) as [[_ ->]|[[_ ->]|[[_ ->]|[[_ ->]|[[_ ->]|(_ & _ & _ & _ & _ & ->)]]]]];
      try (apply X; cbn; repeat constructor; lia).
    apply (xt_unit [c]); auto.
  - rewrite E. constructor; auto.
Qed.

Lemma xml_enc_rel_text s o : xml_enc_rel s o -> xml_text o.
Proof.
  induction 1; [constructor | apply xml_escape_unit_text; auto |].
  apply (xt_unit [239; 191; 189]); auto. apply xu3; lia.
Qed.

Lemma xml_encode_full s : exists o, xml_encode s = Some o /\ xml_clean s (xml_unescape o) /\ xml_text o.
Proof.
  destruct (xml_encode_rel s) as (o & E & R). exists o. split; auto. split.
  apply xml_enc_rel_clean; auto. eapply xml_enc_rel_text; eauto.
Qed.

Lemma xml_encode_roundtrip s : xml_text s -> exists o, xml_encode s = Some o /\ xml_unescape o = s.
Proof.
  intros T. destruct (xml_encode_full s) as (o & E & C & _). exists o. split; auto.
  eapply xml_clean_text; eauto.
Qed.

(* ------------------------------------------------------------------ integers *)

Lemma land255 n : Z.land n 255 = n mod 256.
Proof. change 255 with (Z.ones 8). rewrite Z.land_ones by lia. reflexivity. Qed.
Lemma byte_at_eq n k : 0 <= k -> byte_at n k = n / 2 ^ k mod 256.
Proof. intros. unfold byte_at. rewrite land255, Z.shiftr_div_pow2 by auto. reflexivity. Qed.

Ltac bytes_inv H :=
  repeat match type of H with
  | Forall is_byte (_ :: _) => let H1 := fresh "Hb" in let H2 := fresh "Hr" in inversion H as [|? ? H1 H2]; subst; clear H; rename H2 into H
  end.

Lemma or2_value a b : is_byte b -> Z.lor (Z.shiftl a 8) b = a * 256 + b.
Proof. intros H. rewrite lor_shiftl_add by (unfold is_byte in H; lia). reflexivity. Qed.

(** [(x << k) | rest] accumulates big-endian. *)
Lemma shiftl_lor_value x y k m : 0 <= k -> m = 2 ^ k -> 0 <= y < m -> Z.lor (Z.shiftl x k) y = x * m + y.
Proof. intros Hk -> Hy. apply lor_shiftl_add; auto. Qed.

Lemma or3_value a b c : is_byte a -> is_byte b -> is_byte c ->
  Z.lor (Z.lor (Z.shiftl a 16) (Z.shiftl b 8)) c = be_value [a; b; c].
Proof.
  unfold is_byte; intros Ha Hb Hc. rewrite <- Z.lor_assoc.
  rewrite (shiftl_lor_value b c 8 256) by lia.
  rewrite (shiftl_lor_value a _ 16 65536) by lia. cbn; lia.
Qed.
Lemma or4_value a b c d : is_byte a -> is_byte b -> is_byte c -> is_byte d -> or4 [a; b; c; d] = be_value [a; b; c; d].
Proof.
  unfold is_byte, or4; intros Ha Hb Hc Hd. cbn [nth]. rewrite <- !Z.lor_assoc.
  rewrite (shiftl_lor_value c d 8 256) by lia.
  rewrite (shiftl_lor_value b _ 16 65536) by lia.
  rewrite (shiftl_lor_value a _ 24 16777216) by lia. cbn; lia.
Qed.
Lemma or8_value a b c d e f g h : is_byte a -> is_byte b -> is_byte c -> is_byte d ->
  is_byte e -> is_byte f -> is_byte g -> is_byte h -> or8 [a; b; c; d; e; f; g; h] = be_value [a; b; c; d; e; f; g; h].
Proof.
  unfold is_byte, or8; intros. cbn [nth]. rewrite <- !Z.lor_assoc.
  rewrite (shiftl_lor_value g h 8 (2^8)) by lia.
  rewrite (shiftl_lor_value f _ 16 (2^16)) by lia.
  rewrite (shiftl_lor_value e _ 24 (2^24)) by lia.
  rewrite (shiftl_lor_value d _ 32 (2^32)) by lia.
  rewrite (shiftl_lor_value c _ 40 (2^40)) by lia.
  rewrite (shiftl_lor_value b _ 48 (2^48)) by lia.
  rewrite (shiftl_lor_value a _ 56 (2^56)) by lia. unfold be_value, be_value_acc. lia.
Qed.

Lemma be_value_bound b : Forall is_byte b -> 0 <= be_value b < 2 ^ (8 * zlen b).
Proof.
  assert (forall b acc, Forall is_byte b -> 0 <= acc -> acc * 2 ^ (8 * zlen b) <= be_value_acc acc b < (acc + 1) * 2 ^ (8 * zlen b)) as X.
  { clear. induction b as [|x b IH]; intros acc H Ha; cbn [be_value_acc].
    - rewrite zlen_nil. simpl. lia.
    - inversion H as [|? ? Hx H2]; subst. unfold is_byte in Hx.
      specialize (IH (acc * 256 + x) H2 ltac:(lia)). rewrite zlen_cons.
      replace (8 * (1 + zlen b)) with (8 + 8 * zlen b) by lia.
      rewrite Z.pow_add_r by (pose proof (zlen_nonneg b); lia).
      assert (0 < 2 ^ (8 * zlen b)) by (apply Z.pow_pos_nonneg; pose proof (zlen_nonneg b); lia).
      change (2 ^ 8) with 256. nia. }
  intros H. specialize (X b 0 H ltac:(lia)). unfold be_value. lia.
Qed.

(** Reading: each reader is the big-endian value. *)
Ltac rd H L :=
  repeat match goal with b : list Z |- _ => destruct b as [|? b]; try discriminate L end;
  bytes_inv H.

Lemma read_u8 b : Forall is_byte b -> List.length b = 1%nat -> to_uint8 b = be_value b /\ to_int8 b = be_signed b.
Proof.
  intros H L. destruct b as [|a [|? ?]]; try discriminate L. bytes_inv H. unfold is_byte in *.
  unfold to_uint8, to_int8, to_signed, be_signed, be_value. cbn [nth be_value_acc].
  change (zlen [a]) with 1. change (8 * 1) with 8. change (2 ^ 8) with 256. rewrite Z.mod_small by lia.
  split; [lia|]. replace (0 * 256 + a) with a by lia. reflexivity.
Qed.
Lemma read_u16 b : Forall is_byte b -> List.length b = 2%nat -> to_uint16 b = be_value b /\ to_int16 b = be_signed b.
Proof.
  intros H L. pose proof (be_value_bound b H) as B. destruct b as [|a [|a0 [|? ?]]]; try discriminate L. bytes_inv H.
  unfold to_uint16, to_int16, be_signed, to_signed in *. cbn [nth]. rewrite or2_value by auto.
  change (zlen [a; a0]) with 2 in *. change (8 * 2) with 16 in *.
  replace (be_value [a; a0]) with (a * 256 + a0) in * by (cbn; lia).
  rewrite Z.mod_small by auto. split; auto.
Qed.
Lemma read_u24 b : Forall is_byte b -> List.length b = 3%nat -> to_uint24 b = be_value b /\ to_int24 b = be_value b.
Proof.
  intros H L. pose proof (be_value_bound b H) as B. destruct b as [|a [|a0 [|a1 [|? ?]]]]; try discriminate L. bytes_inv H.
  unfold to_uint24, to_int24, to_signed in *. cbn [nth]. rewrite or3_value by auto.
  change (zlen [a; a0; a1]) with 3 in *. change (2 ^ (8 * 3)) with 16777216 in *.
  change (2 ^ 32) with 4294967296. change (2 ^ (32 - 1)) with 2147483648.
  rewrite Z.mod_small by lia. split; auto.
  replace (be_value [a; a0; a1] <? 2147483648) with true by lia. reflexivity.
Qed.
Lemma read_u32 b : Forall is_byte b -> List.length b = 4%nat -> to_uint32 b = be_value b /\ to_int32 b = be_signed b.
Proof.
  intros H L. pose proof (be_value_bound b H) as B. destruct b as [|a [|a0 [|a1 [|a2 [|? ?]]]]]; try discriminate L. bytes_inv H.
  unfold to_uint32, to_int32, to_signed, be_signed in *. rewrite or4_value by auto.
  change (zlen [a; a0; a1; a2]) with 4 in *. change (8 * 4) with 32 in *.
  rewrite Z.mod_small by lia. split; auto.
Qed.
Lemma read_u64 b : Forall is_byte b -> List.length b = 8%nat -> to_uint64 b = be_value b /\ to_int64 b = be_signed b.
Proof.
  intros H L. pose proof (be_value_bound b H) as B.
  destruct b as [|a [|a0 [|a1 [|a2 [|a3 [|a4 [|a5 [|a6 [|? ?]]]]]]]]]; try discriminate L. bytes_inv H.
  unfold to_uint64, to_int64, to_signed, be_signed in *. rewrite or8_value by auto.
  change (zlen [a; a0; a1; a2; a3; a4; a5; a6]) with 8 in *. change (8 * 8) with 64 in *.
  rewrite Z.mod_small by lia. split; auto.
Qed.

(** Writing: the bytes have the value modulo the width. *)
Lemma write_bytes n : Forall is_byte (from_int8 n) /\ Forall is_byte (from_int16 n) /\ Forall is_byte (from_int24 n)
  /\ Forall is_byte (from_int32 n) /\ Forall is_byte (from_int64 n).
Proof.
  assert (forall k, is_byte (byte_at n k)) by (intros; unfold byte_at; rewrite land255; apply (to_u8_byte _)).
  assert (is_byte (Z.land n 255)) by (rewrite land255; apply (to_u8_byte _)).
  unfold from_int8, from_int16, from_int24, from_int32, from_int64.
  repeat match goal with |- _ /\ _ => split end; repeat (apply Forall_cons; [auto|]); apply Forall_nil.
Qed.
Lemma wb8 n : Forall is_byte (from_int8 n). Proof. exact (proj1 (write_bytes n)). Qed.
Lemma wb16 n : Forall is_byte (from_int16 n). Proof. exact (proj1 (proj2 (write_bytes n))). Qed.
Lemma wb24 n : Forall is_byte (from_int24 n). Proof. exact (proj1 (proj2 (proj2 (write_bytes n)))). Qed.
Lemma wb32 n : Forall is_byte (from_int32 n). Proof. exact (proj1 (proj2 (proj2 (proj2 (write_bytes n))))). Qed.
Lemma wb64 n : Forall is_byte (from_int64 n). Proof. exact (proj2 (proj2 (proj2 (proj2 (write_bytes n))))). Qed.
Lemma write_value n :
  be_value (from_int8 n) = n mod 2 ^ 8 /\ be_value (from_int16 n) = n mod 2 ^ 16 /\ be_value (from_int24 n) = n mod 2 ^ 24
  /\ be_value (from_int32 n) = n mod 2 ^ 32 /\ be_value (from_int64 n) = n mod 2 ^ 64.
Proof.
  unfold from_int8, from_int16, from_int24, from_int32, from_int64.
  rewrite !byte_at_eq, !land255 by lia. unfold be_value, be_value_acc.
  assert (forall k, 0 <= k -> n mod 2 ^ (k + 8) = (n / 2 ^ k mod 256) * 2 ^ k + n mod 2 ^ k) as X.
  { intros k Hk. rewrite Z.pow_add_r by lia. change (2 ^ 8) with 256.
    assert (0 < 2 ^ k) by (apply Z.pow_pos_nonneg; lia).
    rewrite Z.rem_mul_r by lia. lia. }
  assert (n mod 2 ^ 16 = n / 2 ^ 8 mod 256 * 2 ^ 8 + n mod 2 ^ 8) as X8 by exact (X 8 ltac:(lia)).
  assert (n mod 2 ^ 24 = n / 2 ^ 16 mod 256 * 2 ^ 16 + n mod 2 ^ 16) as X16 by exact (X 16 ltac:(lia)).
  assert (n mod 2 ^ 32 = n / 2 ^ 24 mod 256 * 2 ^ 24 + n mod 2 ^ 24) as X24 by exact (X 24 ltac:(lia)).
  assert (n mod 2 ^ 40 = n / 2 ^ 32 mod 256 * 2 ^ 32 + n mod 2 ^ 32) as X32 by exact (X 32 ltac:(lia)).
  assert (n mod 2 ^ 48 = n / 2 ^ 40 mod 256 * 2 ^ 40 + n mod 2 ^ 40) as X40 by exact (X 40 ltac:(lia)).
  assert (n mod 2 ^ 56 = n / 2 ^ 48 mod 256 * 2 ^ 48 + n mod 2 ^ 48) as X48 by exact (X 48 ltac:(lia)).
  assert (n mod 2 ^ 64 = n / 2 ^ 56 mod 256 * 2 ^ 56 + n mod 2 ^ 56) as X56 by exact (X 56 ltac:(lia)).
  rewrite X56, X48, X40, X32, X24, X16, X8. change (n mod 256) with (n mod 2 ^ 8).
  clear. generalize (n / 2 ^ 56 mod 256), (n / 2 ^ 48 mod 256), (n / 2 ^ 40 mod 256), (n / 2 ^ 32 mod 256),
    (n / 2 ^ 24 mod 256), (n / 2 ^ 16 mod 256), (n / 2 ^ 8 mod 256), (n mod 2 ^ 8).
  intros. repeat match goal with |- _ /\ _ => split end; ring.
Qed.

Lemma to_signed_id k n : 0 < k -> - 2 ^ (k - 1) <= n < 2 ^ (k - 1) -> to_signed k n = n.
Proof.
  intros Hk H. unfold to_signed.
  assert (2 ^ k = 2 * 2 ^ (k - 1)) as E by (rewrite <- Z.pow_succ_r by lia; f_equal; lia).
  rewrite E. destruct (Z.lt_ge_cases n 0).
  - replace (n mod (2 * 2 ^ (k - 1))) with (n + 2 * 2 ^ (k - 1)).
    + replace (n + 2 * 2 ^ (k - 1) <? 2 ^ (k - 1)) with false by lia. lia.
    + symmetry. rewrite <- (Z.mod_add n 1) by lia. rewrite Z.mod_small by lia. lia.
  - rewrite Z.mod_small by lia. replace (n <? 2 ^ (k - 1)) with true by lia. reflexivity.
Qed.

Lemma be_signed_eq b k : k = 8 * zlen b -> 0 < k -> Forall is_byte b -> be_signed b = to_signed k (be_value b).
Proof.
  intros -> Hk H. unfold be_signed, to_signed. pose proof (be_value_bound b H).
  rewrite Z.mod_small by auto. 
  replace (2 ^ (8 * zlen b) / 2) with (2 ^ (8 * zlen b - 1)).
  { reflexivity. }
  replace (2 ^ (8 * zlen b)) with (2 ^ (8 * zlen b - 1) * 2).
  - rewrite Z.div_mul by lia. reflexivity.
  - rewrite Z.mul_comm, <- Z.pow_succ_r by lia. f_equal. lia.
Qed.

Lemma to_signed_mod k n : 0 < k -> to_signed k (n mod 2 ^ k) = to_signed k n.
Proof. intros H. unfold to_signed. rewrite Z.mod_mod by (apply Z.pow_nonzero; lia). reflexivity. Qed.

Lemma uint_roundtrip n :
  (0 <= n < 2 ^ 8 -> to_uint8 (from_uint8 n) = n) /\ (0 <= n < 2 ^ 16 -> to_uint16 (from_uint16 n) = n)
  /\ (0 <= n < 2 ^ 24 -> to_uint24 (from_uint24 n) = n) /\ (0 <= n < 2 ^ 32 -> to_uint32 (from_uint32 n) = n)
  /\ (0 <= n < 2 ^ 64 -> to_uint64 (from_uint64 n) = n).
Proof.
  destruct (write_bytes n) as (B8 & B16 & B24 & B32 & B64). destruct (write_value n) as (V8 & V16 & V24 & V32 & V64).
  repeat split; intros H.
  - destruct (read_u8 _ B8 eq_refl) as [R _]. unfold from_uint8. rewrite R, V8. apply Z.mod_small; auto.
  - destruct (read_u16 _ B16 eq_refl) as [R _]. unfold from_uint16. rewrite R, V16. apply Z.mod_small; auto.
  - destruct (read_u24 _ B24 eq_refl) as [R _]. unfold from_uint24. rewrite R, V24. apply Z.mod_small; auto.
  - destruct (read_u32 _ B32 eq_refl) as [R _]. unfold from_uint32. rewrite R, V32. apply Z.mod_small; auto.
  - destruct (read_u64 _ B64 eq_refl) as [R _]. unfold from_uint64. rewrite R, V64. apply Z.mod_small; auto.
Qed.

Lemma int_roundtrip n :
  (- 2 ^ 7 <= n < 2 ^ 7 -> to_int8 (from_int8 n) = n) /\ (- 2 ^ 15 <= n < 2 ^ 15 -> to_int16 (from_int16 n) = n)
  /\ (- 2 ^ 31 <= n < 2 ^ 31 -> to_int32 (from_int32 n) = n) /\ (- 2 ^ 63 <= n < 2 ^ 63 -> to_int64 (from_int64 n) = n).
Proof.
  destruct (write_bytes n) as (B8 & B16 & B24 & B32 & B64). destruct (write_value n) as (V8 & V16 & V24 & V32 & V64).
  repeat split; intros H.
  - destruct (read_u8 _ B8 eq_refl) as [_ R]. rewrite R, (be_signed_eq _ 8) by (auto; lia). rewrite V8, to_signed_mod by lia.
    apply to_signed_id; auto; lia.
  - destruct (read_u16 _ B16 eq_refl) as [_ R]. rewrite R, (be_signed_eq _ 16) by (auto; lia). rewrite V16, to_signed_mod by lia.
    apply to_signed_id; auto; lia.
  - destruct (read_u32 _ B32 eq_refl) as [_ R]. rewrite R, (be_signed_eq _ 32) by (auto; lia). rewrite V32, to_signed_mod by lia.
    apply to_signed_id; auto; lia.
  - destruct (read_u64 _ B64 eq_refl) as [_ R]. rewrite R, (be_signed_eq _ 64) by (auto; lia). rewrite V64, to_signed_mod by lia.
    apply to_signed_id; auto; lia.
Qed.

Lemma int24_roundtrip n : - 2 ^ 23 <= n < 2 ^ 23 -> to_int24 (from_int24 n) = if n <? 0 then n + 2 ^ 24 else n.
Proof.
  intros H. destruct (write_bytes n) as (B8 & B16 & B24 & B32 & B64). destruct (write_value n) as (V8 & V16 & V24 & V32 & V64).
  destruct (read_u24 _ B24 eq_refl) as [_ R]. rewrite R, V24.
  destruct (n <? 0) eqn:E.
  - rewrite <- (Z.mod_add n 1) by lia. rewrite Z.mod_small; lia.
  - apply Z.mod_small; lia.
Qed.

(** Bytes to value to bytes. *)
Lemma be_value_inj b c : Forall is_byte b -> Forall is_byte c -> List.length b = List.length c -> be_value b = be_value c -> b = c.
Proof.
  assert (forall b acc, be_value_acc acc b = acc * 2 ^ (8 * zlen b) + be_value b) as X.
  { clear. unfold be_value. induction b as [|x b IH]; intros acc; cbn [be_value_acc].
    - rewrite zlen_nil. simpl. lia.
    - rewrite (IH (acc * 256 + x)), (IH (0 * 256 + x)), zlen_cons.
      replace (8 * (1 + zlen b)) with (8 + 8 * zlen b) by lia.
      rewrite Z.pow_add_r by (pose proof (zlen_nonneg b); lia). change (2 ^ 8) with 256. lia. }
  revert c; induction b as [|x b IH]; destruct c as [|y c]; intros Hb Hc L E; try discriminate L; auto.
  inversion Hb as [|? ? Hx Hb']; inversion Hc as [|? ? Hy Hc']; subst. injection L as L.
  unfold be_value in E. cbn [be_value_acc] in E. rewrite !X in E.
  assert (zlen b = zlen c) as Lz by (unfold zlen; congruence). rewrite Lz in E.
  pose proof (be_value_bound b Hb'). pose proof (be_value_bound c Hc'). rewrite Lz in *.
  assert (0 < 2 ^ (8 * zlen c)) by (apply Z.pow_pos_nonneg; pose proof (zlen_nonneg c); lia).
  assert (x = y) by nia. subst y. f_equal. apply IH; auto. lia.
Qed.

Lemma read_write_u8 b : Forall is_byte b -> List.length b = 1%nat -> from_uint8 (to_uint8 b) = b /\ from_int8 (to_int8 b) = b.
Proof.
  intros H L. destruct (read_u8 b H L) as [R S]. pose proof (be_value_bound b H) as B.
  assert (zlen b = 1) as Lz by (unfold zlen; lia). rewrite Lz in B.
  split; (apply be_value_inj; [apply wb8 | exact H | rewrite L; reflexivity |]).
  - unfold from_uint8. destruct (write_value (to_uint8 b)) as (-> & _). rewrite R. apply Z.mod_small; auto.
  - destruct (write_value (to_int8 b)) as (-> & _). rewrite S. unfold be_signed. rewrite Lz.
    destruct (be_value b <? _); [apply Z.mod_small; auto|].
    rewrite <- (Z.mod_add _ 1) by (cbn; lia). rewrite Z.mod_small; lia.
Qed.
Ltac rw_tac b H L R S lz wb :=
  pose proof (be_value_bound b H) as B;
  assert (zlen b = lz) as Lz by (unfold zlen; lia); rewrite Lz in B;
  split; (apply be_value_inj; [apply wb | exact H | rewrite L; reflexivity |]).
Lemma read_write_u16 b : Forall is_byte b -> List.length b = 2%nat -> from_uint16 (to_uint16 b) = b /\ from_int16 (to_int16 b) = b.
Proof.
  intros H L. destruct (read_u16 b H L) as [R S]. rw_tac b H L R S 2 wb16.
  - unfold from_uint16. destruct (write_value (to_uint16 b)) as (_ & -> & _). rewrite R. apply Z.mod_small; auto.
  - destruct (write_value (to_int16 b)) as (_ & -> & _). rewrite S. unfold be_signed. rewrite Lz.
    destruct (be_value b <? _); [apply Z.mod_small; auto|].
    rewrite <- (Z.mod_add _ 1) by (cbn; lia). rewrite Z.mod_small; lia.
Qed.
Lemma read_write_u24 b : Forall is_byte b -> List.length b = 3%nat -> from_uint24 (to_uint24 b) = b.
Proof.
  intros H L. destruct (read_u24 b H L) as [R S]. pose proof (be_value_bound b H) as B.
  assert (zlen b = 3) as Lz by (unfold zlen; lia). rewrite Lz in B.
  apply be_value_inj; [apply wb24 | exact H | rewrite L; reflexivity |].
  unfold from_uint24. destruct (write_value (to_uint24 b)) as (_ & _ & -> & _). rewrite R. apply Z.mod_small; auto.
Qed.
Lemma read_write_u32 b : Forall is_byte b -> List.length b = 4%nat -> from_uint32 (to_uint32 b) = b /\ from_int32 (to_int32 b) = b.
Proof.
  intros H L. destruct (read_u32 b H L) as [R S]. rw_tac b H L R S 4 wb32.
  - unfold from_uint32. destruct (write_value (to_uint32 b)) as (_ & _ & _ & -> & _). rewrite R. apply Z.mod_small; auto.
  - destruct (write_value (to_int32 b)) as (_ & _ & _ & -> & _). rewrite S. unfold be_signed. rewrite Lz.
    destruct (be_value b <? _); [apply Z.mod_small; auto|].
    rewrite <- (Z.mod_add _ 1) by (cbn; lia). rewrite Z.mod_small; lia.
Qed.
Lemma read_write_u64 b : Forall is_byte b -> List.length b = 8%nat -> from_uint64 (to_uint64 b) = b /\ from_int64 (to_int64 b) = b.
Proof.
  intros H L. destruct (read_u64 b H L) as [R S]. rw_tac b H L R S 8 wb64.
  - unfold from_uint64. destruct (write_value (to_uint64 b)) as (_ & _ & _ & _ & ->). rewrite R. apply Z.mod_small; auto.
  - destruct (write_value (to_int64 b)) as (_ & _ & _ & _ & ->). rewrite S. unfold be_signed. rewrite Lz.
    destruct (be_value b <? _); [apply Z.mod_small; auto|].
    rewrite <- (Z.mod_add _ 1) by (cbn; lia). rewrite Z.mod_small; lia.
Qed.
