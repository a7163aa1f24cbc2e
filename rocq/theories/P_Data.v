(** Reading back the text form of uploaded files (C128). Definitions used in the statements: MultipartModel.v ([binary_2base64]), DataModel.v
    ([base64_2binary]). *)
From Coq Require Import String ZArith List Bool Lia.
From Verif Require Import Base AlgModel AlgSpec AlgProofs MultipartModel UriProofs HttpModel DataModel.
Import ListNotations.

Lemma from_enc v : 0 <= v < 64 -> from_base64 (b64_enc v) = Some v.
Proof.
  intros H. assert (is_byte v) as Hb by (unfold is_byte; lia).
  pose proof (byte_sweep (fun v => if v <? 64 then match from_base64 (b64_enc v) with Some w => w =? v | None => false end else true)
     ltac:(vm_compute; reflexivity) v Hb) as S.
  cbv beta in S. replace (v <? 64) with true in S by lia.
  destruct (from_base64 (b64_enc v)); [|discriminate]. apply Z.eqb_eq in S. congruence.
Qed.

(** the characters of an encoding without its padding, and the padding *)
Lemma encode_parts s : Forall is_byte s ->
  exists t p, b64_encode_loop s = t ++ p /\ Forall (fun c => c <> ch "=") t /\ group_bytes t = Ok s
    /\ zlen t * 6 / 8 = zlen s /\ (s = [] -> t = []) /\ (s <> [] -> exists t' c, t = t' ++ [c])
    /\ (p = [] \/ p = [ch "="] \/ p = [ch "="; ch "="]).
Proof.
  assert (forall n s, (List.length s < n)%nat -> Forall is_byte s -> exists t p, b64_encode_loop s = t ++ p /\ Forall (fun c => c <> ch "=") t /\ group_bytes t = Ok s
    /\ zlen t * 6 / 8 = zlen s /\ (s = [] -> t = []) /\ (s <> [] -> exists t' c, t = t' ++ [c]) /\ (p = [] \/ p = [ch "="] \/ p = [ch "="; ch "="])) as G.
  { clear s. induction n as [|n IH]; intros s HL HF; [lia|].
    destruct s as [|a s1].
    - exists [], []. repeat split; auto. congruence.
    - inversion HF as [|? ? Ha HF1]; subst. destruct s1 as [|b s2].
      + cbn [b64_encode_loop]. rewrite enc_hi, enc_lo2 by auto.
        assert (0 <= a / 4 < 64 /\ 0 <= a mod 4 * 16 < 64) as (R1 & R2) by (unfold is_byte in Ha; pose proof (Z.mod_pos_bound a 4 ltac:(lia)); split; [split; [apply Z.div_pos; lia|apply Z.div_lt_upper_bound; lia]|lia]).
        exists [b64_enc (a / 4); b64_enc (a mod 4 * 16)], [ch "="; ch "="]. split; [reflexivity|].
        split; [repeat constructor; apply b64_enc_lookup; auto|].
        split. { cbn [group_bytes]. rewrite !from_enc by auto. do 2 f_equal. rewrite Z.div_mul by lia. pose proof (Z.div_mod a 4). lia. }
        split; [reflexivity|]. split; [congruence|]. split; [intros _; exists [b64_enc (a / 4)]; eexists; reflexivity|auto].
      + inversion HF1 as [|? ? Hb HF2]; subst. destruct s2 as [|c s3].
        * cbn [b64_encode_loop]. rewrite enc_hi, enc_lo2, enc_hi4, enc_lo4 by auto.
          assert (0 <= a / 4 < 64 /\ 0 <= a mod 4 < 4 /\ 0 <= b / 16 < 16 /\ 0 <= b mod 16 < 16) as (R1 & R2 & R3 & R4).
          { unfold is_byte in *. repeat split; try apply Z.div_pos; try apply Z.div_lt_upper_bound; try apply Z.mod_pos_bound; lia. }
          rewrite (lor_mul_add (a mod 4) (b / 16) 4 16) by (try reflexivity; lia).
          exists [b64_enc (a / 4); b64_enc (a mod 4 * 16 + b / 16); b64_enc (b mod 16 * 4)], [ch "="]. split; [reflexivity|].
          split; [repeat constructor; apply b64_enc_lookup; lia|].
          split. { cbn [group_bytes]. rewrite !from_enc by lia. do 2 f_equal; [|f_equal].
            - rewrite Z.div_add_l, (Z.div_small (b / 16)) by lia. pose proof (Z.div_mod a 4). lia.
            - rewrite (Z.add_comm (a mod 4 * 16)), Z.mod_add, (Z.mod_small (b / 16)), Z.div_mul by lia. pose proof (Z.div_mod b 16). lia. }
          split; [reflexivity|]. split; [congruence|]. split; [intros _; exists [b64_enc (a / 4); b64_enc (a mod 4 * 16 + b / 16)]; eexists; reflexivity|auto].
        * inversion HF2 as [|? ? Hc HF3]; subst. cbn [List.length] in HL. destruct (IH s3) as (t & p & E & T1 & T2 & T3 & T4 & T5 & T6); [lia|auto|].
          cbn [b64_encode_loop]. rewrite enc_hi, enc_lo2, enc_hi4, enc_lo4, enc_hi2, enc_lo6 by auto.
          assert (0 <= a / 4 < 64 /\ 0 <= a mod 4 < 4 /\ 0 <= b / 16 < 16 /\ 0 <= b mod 16 < 16 /\ 0 <= c / 64 < 4 /\ 0 <= c mod 64 < 64) as (R1 & R2 & R3 & R4 & R5 & R6).
          { unfold is_byte in *. repeat split; try apply Z.div_pos; try apply Z.div_lt_upper_bound; try apply Z.mod_pos_bound; lia. }
          rewrite (lor_mul_add (a mod 4) (b / 16) 4 16), (lor_mul_add (b mod 16) (c / 64) 2 4) by (try reflexivity; lia).
          exists (b64_enc (a / 4) :: b64_enc (a mod 4 * 16 + b / 16) :: b64_enc (b mod 16 * 4 + c / 64) :: b64_enc (c mod 64) :: t), p.
          split; [rewrite E; reflexivity|]. split; [repeat constructor; try apply b64_enc_lookup; auto; lia|].
          split. { cbn [group_bytes]. rewrite !from_enc by lia. rewrite T2. cbn [obind]. f_equal. f_equal; [|f_equal; [|f_equal]].
            - rewrite Z.div_add_l, (Z.div_small (b / 16)) by lia. pose proof (Z.div_mod a 4). lia.
            - rewrite (Z.add_comm (a mod 4 * 16)), Z.mod_add, (Z.mod_small (b / 16)), Z.div_add_l, (Z.div_small (c / 64)) by lia. pose proof (Z.div_mod b 16). lia.
            - rewrite (Z.add_comm (b mod 16 * 4)), Z.mod_add, (Z.mod_small (c / 64)) by lia. pose proof (Z.div_mod c 64). lia. }
          split. { rewrite !zlen_cons. rewrite <- T3. replace ((1 + (1 + (1 + (1 + zlen t)))) * 6) with (zlen t * 6 + 3 * 8) by lia. rewrite Z.div_add by lia. lia. }
          split; [congruence|]. split; [|exact T6]. intros _.
          destruct s3 as [|x s3]; [rewrite T4 by reflexivity; exists [b64_enc (a / 4); b64_enc (a mod 4 * 16 + b / 16); b64_enc (b mod 16 * 4 + c / 64)]; eexists; reflexivity|].
          destruct (T5 ltac:(discriminate)) as (t' & d & ->).
          exists (b64_enc (a / 4) :: b64_enc (a mod 4 * 16 + b / 16) :: b64_enc (b mod 16 * 4 + c / 64) :: b64_enc (c mod 64) :: t'), d. reflexivity. }
  intros HF. exact (G _ s (Nat.lt_succ_diag_r _) HF).
Qed.

Lemma strip_padding s c p : c <> ch "=" -> (p = [] \/ p = [ch "="] \/ p = [ch "="; ch "="]) -> without_padding ((s ++ [c]) ++ p) = s ++ [c].
Proof.
  intros N [-> |[-> | ->]]; unfold without_padding; rewrite !rev_app_distr; cbn [rev app];
    change (ch "=" =? ch "=") with true; cbv iota; apply Z.eqb_neq in N; rewrite ?N; rewrite ?app_nil_r; auto.
  - cbn [rev]. rewrite rev_involutive. reflexivity.
  - cbn [rev]. rewrite rev_involutive. reflexivity.
Qed.

Lemma mark_in_type typ a b : bs "data:" ++ typ = a ++ data_mark ++ b -> exists z, typ = z ++ data_mark ++ b.
Proof.
  intros E. destruct a as [|a0 [|a1 [|a2 [|a3 [|a4 a]]]]]; try (exfalso; clear - E; discriminate E).
  injection E as _ _ _ _ _ E. exists a. exact E.
Qed.
Lemma mark_first typ rest : (~ exists a b, typ = a ++ data_mark ++ b) ->
  search data_mark (bs "data:" ++ typ ++ data_mark ++ rest) = (5 + List.length typ)%nat.
Proof.
  intros N. assert ((5 + List.length typ)%nat = List.length (bs "data:" ++ typ)) as -> by (rewrite app_length; reflexivity).
  rewrite app_assoc. eapply search_first; [reflexivity|]. intros a b E.
  destruct (Nat.le_gt_cases (List.length (bs "data:" ++ typ)) (List.length a)) as [L|L]; auto. exfalso.
  apply app_eq_app in E as (l & [[E1 E2]|[E1 E2]]); [|rewrite E1, app_length in L; lia].
  assert (l <> []) as NL by (intros ->; rewrite app_nil_r in E1; rewrite E1 in L; lia).
  symmetry in E2. apply app_eq_app in E2 as (k & [[F1 F2]|[F1 F2]]).
  - rewrite F1 in E1. apply mark_in_type in E1 as (z & E1). apply N. eauto.
  - destruct k as [|y k].
    + rewrite app_nil_r in F1. rewrite <- F1, <- (app_nil_r data_mark) in E1. apply mark_in_type in E1 as (z & E1). apply N. eauto.
    + assert (y = 59) as -> by (change data_mark with (59 :: bs " base64, ") in F2; cbn [app] in F2; injection F2 as F2 _; congruence).
      destruct l as [|x l]; [congruence|]. pose proof (f_equal (@tl Z) F1) as F3. cbn [tl app] in F3.
      assert (In 59 (tl data_mark)) as I by (rewrite F3; apply in_app_iff; right; left; reflexivity).
      vm_compute in I. clear - I. intuition discriminate.
Qed.

Lemma data_text typ s : Forall is_byte s ->
  exists t p, binary_2base64 s typ = bs "data:" ++ typ ++ data_mark ++ t ++ p /\ without_padding (binary_2base64 s typ) = bs "data:" ++ typ ++ data_mark ++ t
    /\ group_bytes t = Ok s /\ zlen t * 6 / 8 = zlen s.
Proof.
  intros HF. destruct (encode_parts s HF) as (t & p & E & T1 & T2 & T3 & T4 & T5 & T6). exists t, p. unfold binary_2base64. rewrite E. fold data_mark.
  split; [reflexivity|]. split; [|auto].
  assert (exists u c, bs "data:" ++ typ ++ data_mark ++ t = u ++ [c] /\ c <> ch "=") as (u & c & EU & NC).
  { destruct s as [|x s].
    - rewrite T4 by reflexivity. exists (bs "data:" ++ typ ++ bs "; base64,"), 32. split; [|vm_compute; discriminate]. rewrite <- !app_assoc. reflexivity.
    - destruct (T5 ltac:(discriminate)) as (t' & c & ->). exists (bs "data:" ++ typ ++ data_mark ++ t'), c. rewrite <- !app_assoc. split; [reflexivity|].
      rewrite Forall_app in T1. destruct T1 as (_ & T1). inversion T1; auto. }
  replace (bs "data:" ++ typ ++ data_mark ++ t ++ p) with ((u ++ [c]) ++ p) by (rewrite <- EU, <- !app_assoc; reflexivity).
  rewrite strip_padding by auto. auto.
Qed.

Lemma skipn_after {A} (a b : list A) n : n = List.length a -> skipn n (a ++ b) = b.
Proof. intros ->. rewrite skipn_app, skipn_all, Nat.sub_diag. reflexivity. Qed.

Lemma read_back buf room typ s : Forall is_byte s -> (~ exists a b, typ = a ++ data_mark ++ b) ->
  base64_2binary buf room (binary_2base64 s typ)
  = Ok (if (room <? zlen (without_padding (binary_2base64 s typ))) || negb buf
        then {| un_ok := false; un_size := zlen s + 1; un_type := Some typ; un_out := [] |}
        else {| un_ok := true; un_size := zlen s + 1; un_type := Some typ; un_out := s ++ [0] |}).
Proof.
  intros HF N. destruct (data_text typ s HF) as (t & p & E & W & G & L). unfold base64_2binary. rewrite W, E.
  assert (is_prefix (bs "data:") (bs "data:" ++ typ ++ data_mark ++ t ++ p) = true) as -> by (apply is_prefix_spec; eauto).
  assert (contains data_mark (bs "data:" ++ typ ++ data_mark ++ t ++ p) = true) as -> by (apply contains_iff; exists (bs "data:" ++ typ), (t ++ p); rewrite <- !app_assoc; reflexivity).
  cbn [negb]. rewrite mark_first by auto. cbv zeta.
  rewrite (skipn_after (bs "data:") _ 5 eq_refl). replace (5 + List.length typ - 5)%nat with (List.length typ) by lia.
  rewrite firstn_app, firstn_all, Nat.sub_diag. cbn [firstn]. rewrite app_nil_r.
  replace (bs "data:" ++ typ ++ data_mark ++ t) with ((bs "data:" ++ typ ++ data_mark) ++ t) by (rewrite <- !app_assoc; reflexivity).
  rewrite (skipn_after (bs "data:" ++ typ ++ data_mark) t) by (rewrite !app_length; change (List.length (bs "data:")) with 5%nat; change (List.length data_mark) with 10%nat; lia).
  rewrite L, G. destruct (_ || _); reflexivity.
Qed.

(** C128. What [binary_2base64] makes of any bytes and any type without the mark in it is read back, with the type, into a buffer at least as long as the text. *)
Theorem C128_round_trip room typ s : Forall is_byte s -> (~ exists a b, typ = a ++ bs "; base64, " ++ b) -> zlen (binary_2base64 s typ) <= room ->
  base64_2binary true room (binary_2base64 s typ) = Ok {| un_ok := true; un_size := zlen s + 1; un_type := Some typ; un_out := s ++ [0] |}.
Proof.
  intros HF N R. rewrite read_back by auto. destruct (data_text typ s HF) as (t & p & E & W & _).
  assert (zlen (without_padding (binary_2base64 s typ)) <= room) as L.
  { rewrite W. rewrite E in R. rewrite !zlen_app in *. pose proof (zlen_nonneg p). lia. }
  replace (room <? _) with false by lia. reflexivity.
Qed.
Print Assumptions C128_round_trip.
(** The size reported is the number of bytes and one. A buffer of this size, "required" according to the documentation, is never accepted: it would have to be as long as the text. *)
Theorem C128_required_partial buf room typ s : Forall is_byte s -> (~ exists a b, typ = a ++ bs "; base64, " ++ b) -> room <= zlen s + 1 ->
  base64_2binary buf room (binary_2base64 s typ) = Ok {| un_ok := false; un_size := zlen s + 1; un_type := Some typ; un_out := [] |}.
Proof.
  intros HF N R. rewrite read_back by auto. destruct (data_text typ s HF) as (t & p & E & W & G & L). rewrite W, !zlen_app.
  change (zlen (bs "data:")) with 5. change (zlen data_mark) with 10. pose proof (zlen_nonneg typ). pose proof (zlen_nonneg t).
  assert (zlen s <= zlen t) by (rewrite <- L; apply Z.div_le_upper_bound; lia).
  replace (room <? _) with true by lia. reflexivity.
Qed.
Print Assumptions C128_required_partial.
Definition C128_required : Prop := forall typ s room u, Forall is_byte s ->
  base64_2binary true room (binary_2base64 s typ) = Ok u -> un_ok u = false -> exists u', base64_2binary true (un_size u) (binary_2base64 s typ) = Ok u' /\ un_ok u' = true.
Theorem C128_required_refuted : ~ C128_required.
Proof.
  intros H. pose proof (fun room => C128_required_partial true room (bs "image/png") (bs "abc")) as P.
  assert (Forall is_byte (bs "abc")) as HF by (cbn [bs]; repeat constructor; vm_compute; intuition discriminate).
  assert (~ exists a b, bs "image/png" = a ++ bs "; base64, " ++ b) as N.
  { intros (a & b & E). assert (In 59 (bs "image/png")) as I by (rewrite E; apply in_app_iff; right; left; reflexivity). vm_compute in I. clear - I. intuition discriminate. }
  destruct (H (bs "image/png") (bs "abc") 0 _ HF (P 0 HF N ltac:(vm_compute; discriminate)) eq_refl) as (u' & E & T).
  cbn [un_size] in E. rewrite (P (zlen (bs "abc") + 1) HF N (Z.le_refl _)) in E. injection E as <-. discriminate T.
Qed.
Print Assumptions C128_required_refuted.
(** A type with the mark in it - the client chooses it - is not read back, and what follows it is taken for the content. *)
Theorem C128_type_refuted : ~ forall typ s, Forall is_byte s -> exists u, base64_2binary true (zlen (binary_2base64 s typ)) (binary_2base64 s typ) = Ok u /\ un_type u = Some typ.
Proof.
  intros H. destruct (H (bs "a; base64, b") (bs "abc")) as (u & E & _).
  - cbn [bs]; repeat constructor; vm_compute; intuition discriminate.
  - vm_compute in E. discriminate E.
Qed.
Print Assumptions C128_type_refuted.
Example C128_case : Forall is_byte [0; 255; 128; 10] /\ (~ exists a b, bs "image/png" = a ++ bs "; base64, " ++ b)
  /\ binary_2base64 [0; 255; 128; 10] (bs "image/png") = bs "data:image/png; base64, AP+ACg=="
  /\ base64_2binary true 100 (bs "data:image/png; base64, AP+ACg==") = Ok {| un_ok := true; un_size := 5; un_type := Some (bs "image/png"); un_out := [0; 255; 128; 10; 0] |}.
Proof.
  split; [repeat constructor; vm_compute; intuition discriminate|]. split; [|split; vm_compute; reflexivity].
  intros (a & b & E). assert (In 59 (bs "image/png")) as I by (rewrite E; apply in_app_iff; right; left; reflexivity). vm_compute in I. clear - I. intuition discriminate.
Qed.
