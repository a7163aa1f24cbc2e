(** Properties of pion::algorithm (C01-C10, C79). *)
From Coq Require Import String ZArith List.
From Verif Require Import Base AlgModel AlgSpec AlgProofs.
Import ListNotations.

(** C01. The bound says that the encoded text is below 4 GiB, the range of the 32-bit length. *)
Theorem C01_base64_round_trip : forall s, Forall is_byte s -> 4 * ((zlen s + 2) / 3) < two32 ->
  b64_decode (b64_encode s) = (B64True, s).
Proof. exact b64_roundtrip. Qed.
Print Assumptions C01_base64_round_trip.
Example C01_case : Forall is_byte [0; 255; 128; 61] /\ 4 * ((zlen [0; 255; 128; 61] + 2) / 3) < two32
  /\ b64_encode [0; 255; 128; 61] = bs "AP+APQ==".
Proof. split; [repeat constructor; discriminate | split; reflexivity]. Qed.

(** C01, limit: a string of exactly 4 GiB encodes to the empty text, so the bound cannot be dropped. *)
Theorem C01_base64_round_trip_4gib_refuted : exists s, Forall is_byte s /\ b64_decode (b64_encode s) <> (B64True, s).
Proof. exact b64_4gib_refuted. Qed.
Print Assumptions C01_base64_round_trip_4gib_refuted.

(** C02. Expected: no input makes the decoder leave its table. Refuted by a single byte 0x80. *)
Theorem C02_base64_decode_safe_refuted : exists s, Forall is_byte s /\ fst (b64_decode s) = B64UB.
Proof. exists [128]. split; [repeat constructor; discriminate | reflexivity]. Qed.
Print Assumptions C02_base64_decode_safe_refuted.
(** C02, what holds: the out-of-bounds read happens exactly for a byte >= 0x80 right after a run of alphabet
    characters, and success exactly for the accepted texts. Missing: memory safety for all inputs. *)
Theorem C02_base64_decode_exact_partial : forall s, Forall is_byte s -> zlen s < two32 ->
  (fst (b64_decode s) = B64UB <-> b64_high_byte_reached s) /\ (fst (b64_decode s) = B64True <-> b64_accepted s).
Proof. exact (fun s H L => conj (b64_decode_ub s H L) (b64_decode_accept s H L)). Qed.
Print Assumptions C02_base64_decode_exact_partial.
Example C02_case : b64_accepted (bs "QUI=rest") /\ fst (b64_decode (bs "QUI=rest")) = B64True
  /\ fst (b64_decode (bs "QUJ*")) = B64False.
Proof.
  split; [|split; reflexivity]. right. exists (bs "QUI"), (bs "rest"). repeat split; try discriminate.
  repeat constructor.
Qed.

(** C03 *)
Theorem C03_base64_encode_length : forall s, zlen s < two32 -> zlen (b64_encode s) = 4 * ((zlen s + 2) / 3).
Proof. exact b64_encode_len. Qed.
Print Assumptions C03_base64_encode_length.
Theorem C03_base64_encode_shape : forall s, Forall is_byte s -> zlen s < two32 ->
  exists p k, b64_encode s = p ++ repeat (ch "=") k /\ Forall (fun c => is_b64_char c = true) p /\ (k <= 2)%nat
   /\ Z.of_nat k = (- zlen s) mod 3.
Proof. exact (fun s H L => eq_ind_r (fun t => exists p k, b64_encode_loop t = p ++ repeat (ch "=") k /\ _ p /\ (k <= 2)%nat /\ Z.of_nat k = _) (b64_encode_shape_loop s H) (trunc32_id s L)). Qed.
Print Assumptions C03_base64_encode_shape.
Theorem C03_base64_encode_injective : forall s t, Forall is_byte s -> Forall is_byte t ->
  4 * ((zlen s + 2) / 3) < two32 -> 4 * ((zlen t + 2) / 3) < two32 -> b64_encode s = b64_encode t -> s = t.
Proof. exact b64_encode_inj. Qed.
Print Assumptions C03_base64_encode_injective.
Example C03_case : b64_encode (bs "pion!") = bs "cGlvbiE=" /\ b64_encode (bs "pion") <> b64_encode (bs "pion!").
Proof. split; [reflexivity | discriminate]. Qed.

(** C04 *)
Theorem C04_url_round_trip : forall s, Forall is_byte s -> (url_decode (url_encode s) = s <-> ~ In 0 s).
Proof. exact (fun s H => conj (url_roundtrip_conv s H) (url_roundtrip s H)). Qed.
Print Assumptions C04_url_round_trip.
Example C04_case : Forall is_byte [65; 0; 37; 255] /\ url_encode [65; 37; 255; 32] = bs "A%25%FF%20"
  /\ url_decode (url_encode [65; 0]) = bs "A%00".
Proof. split; [repeat constructor; discriminate | split; reflexivity]. Qed.

(** C05 *)
Theorem C05_url_encode_safe : forall s, Forall is_byte s -> url_text (url_encode s).
Proof. exact url_encode_text. Qed.
Print Assumptions C05_url_encode_safe.
(** C05: byte by byte, what is written and which characters stand for themselves. *)
Theorem C05_url_encode_exact : forall s, Forall is_byte s -> url_encode s = flat_map url_written s.
Proof. exact url_encode_written. Qed.
Print Assumptions C05_url_encode_exact.
Example C05_case : url_encode (bs "a&b=c;d") = bs "a%26b%3Dc%3Bd" /\ url_plain (ch "&") = false /\ url_plain (ch ";") = false.
Proof. repeat split. Qed.

(** C06. The result is at most as long as the input, stays a byte string, and is the input itself if there
    is nothing to decode. (Termination is by construction: the model is a total function.) *)
Theorem C06_url_decode_bounded : forall s, zlen (url_decode s) <= zlen s.
Proof. exact url_decode_len. Qed.
Print Assumptions C06_url_decode_bounded.
Theorem C06_url_decode_bytes : forall s, Forall is_byte s -> Forall is_byte (url_decode s).
Proof. exact url_decode_bytes. Qed.
Print Assumptions C06_url_decode_bytes.
Theorem C06_url_decode_plain : forall s, ~ In (ch "+") s -> ~ In (ch "%") s -> url_decode s = s.
Proof. exact url_decode_id. Qed.
Print Assumptions C06_url_decode_plain.
Example C06_case : url_decode (bs "100%+%4") = bs "100% %4" /\ url_decode (bs "%zz%2") = bs "%zz%2" /\ url_decode (bs "%-1") = [255].
Proof. repeat split. Qed.

(** C07 *)
Theorem C07_xml_encode_safe : forall s o, xml_encode s = Some o -> xml_safe o = true.
Proof. exact xml_encode_safe. Qed.
Print Assumptions C07_xml_encode_safe.
Example C07_case : xml_encode (bs "<a b='&'>") = Some (bs "&lt;a b=&apos;&amp;&apos;&gt;") /\ xml_safe (bs "a&b;") = false.
Proof. split; reflexivity. Qed.

(** C08. No read leaves the string and its terminator ([xml_encode] is never [None]); undoing the entities
    gives the cleaned text, which is the text itself if it was well formed. *)
Theorem C08_xml_encode_clean : forall s, exists o, xml_encode s = Some o /\ xml_clean s (xml_unescape o) /\ xml_text o.
Proof. exact xml_encode_full. Qed.
Print Assumptions C08_xml_encode_clean.
Theorem C08_xml_encode_round_trip : forall s, xml_text s -> exists o, xml_encode s = Some o /\ xml_unescape o = s.
Proof. exact xml_encode_roundtrip. Qed.
Print Assumptions C08_xml_encode_round_trip.
Example C08_case : xml_text [60; 195; 169] /\ xml_encode [60; 195; 169] = Some [38; 108; 116; 59; 195; 169]
  /\ xml_encode [226; 130] = Some [239; 191; 189; 239; 191; 189].
Proof.
  split; [|split; reflexivity]. apply (xt_unit [60]); [constructor; left; split; discriminate|].
  apply (xt_unit [195; 169]); [constructor; split; discriminate | constructor].
Qed.

(** C09 *)
Theorem C09_unsigned_round_trip : forall n,
  (0 <= n < 2 ^ 8 -> to_uint8 (from_uint8 n) = n) /\ (0 <= n < 2 ^ 16 -> to_uint16 (from_uint16 n) = n)
  /\ (0 <= n < 2 ^ 24 -> to_uint24 (from_uint24 n) = n) /\ (0 <= n < 2 ^ 32 -> to_uint32 (from_uint32 n) = n)
  /\ (0 <= n < 2 ^ 64 -> to_uint64 (from_uint64 n) = n).
Proof. exact uint_roundtrip. Qed.
Print Assumptions C09_unsigned_round_trip.
Theorem C09_signed_round_trip : forall n,
  (- 2 ^ 7 <= n < 2 ^ 7 -> to_int8 (from_int8 n) = n) /\ (- 2 ^ 15 <= n < 2 ^ 15 -> to_int16 (from_int16 n) = n)
  /\ (- 2 ^ 31 <= n < 2 ^ 31 -> to_int32 (from_int32 n) = n) /\ (- 2 ^ 63 <= n < 2 ^ 63 -> to_int64 (from_int64 n) = n).
Proof. exact int_roundtrip. Qed.
Print Assumptions C09_signed_round_trip.
(** Reading is the big-endian value, so the byte order is fixed. *)
Theorem C09_big_endian : forall b, Forall is_byte b ->
  (List.length b = 1%nat -> to_uint8 b = be_value b /\ to_int8 b = be_signed b)
  /\ (List.length b = 2%nat -> to_uint16 b = be_value b /\ to_int16 b = be_signed b)
  /\ (List.length b = 3%nat -> to_uint24 b = be_value b)
  /\ (List.length b = 4%nat -> to_uint32 b = be_value b /\ to_int32 b = be_signed b)
  /\ (List.length b = 8%nat -> to_uint64 b = be_value b /\ to_int64 b = be_signed b).
Proof.
  exact (fun b H => conj (read_u8 b H) (conj (read_u16 b H) (conj (fun L => proj1 (read_u24 b H L))
    (conj (read_u32 b H) (read_u64 b H))))).
Qed.
Print Assumptions C09_big_endian.
Theorem C09_bytes_round_trip : forall b, Forall is_byte b ->
  (List.length b = 1%nat -> from_uint8 (to_uint8 b) = b /\ from_int8 (to_int8 b) = b)
  /\ (List.length b = 2%nat -> from_uint16 (to_uint16 b) = b /\ from_int16 (to_int16 b) = b)
  /\ (List.length b = 3%nat -> from_uint24 (to_uint24 b) = b)
  /\ (List.length b = 4%nat -> from_uint32 (to_uint32 b) = b /\ from_int32 (to_int32 b) = b)
  /\ (List.length b = 8%nat -> from_uint64 (to_uint64 b) = b /\ from_int64 (to_int64 b) = b).
Proof.
  exact (fun b H => conj (read_write_u8 b H) (conj (read_write_u16 b H) (conj (read_write_u24 b H)
    (conj (read_write_u32 b H) (read_write_u64 b H))))).
Qed.
Print Assumptions C09_bytes_round_trip.
Example C09_case : to_int16 [255; 254] = -2 /\ from_int64 (-2) = [255; 255; 255; 255; 255; 255; 255; 254].
Proof. split; reflexivity. Qed.

(** C10. Expected: round trip for every signed 24-bit value. Refuted by -1. *)
Theorem C10_int24_round_trip_refuted : exists n, - 2 ^ 23 <= n < 2 ^ 23 /\ to_int24 (from_int24 n) <> n.
Proof. exists (-1). repeat split; discriminate. Qed.
Print Assumptions C10_int24_round_trip_refuted.
(** C10, exact result: non-negative values survive, negative ones come back 2^24 too large. *)
Theorem C10_int24_exact_partial : forall n, - 2 ^ 23 <= n < 2 ^ 23 ->
  to_int24 (from_int24 n) = if n <? 0 then n + 2 ^ 24 else n.
Proof. exact int24_roundtrip. Qed.
Print Assumptions C10_int24_exact_partial.
Example C10_case : to_int24 (from_int24 (-1)) = 16777215 /\ to_int24 (from_int24 8388607) = 8388607.
Proof. split; reflexivity. Qed.

(** C79. Expected: the output is valid UTF-8. Refuted by an overlong form and by a surrogate. *)
Theorem C79_xml_encode_utf8_refuted : exists s o, Forall is_byte s /\ xml_encode s = Some o /\ utf8_valid o = false.
Proof. exists [224; 128; 128], [224; 128; 128]. repeat split; repeat constructor; discriminate. Qed.
Print Assumptions C79_xml_encode_utf8_refuted.
(** C79, what holds: the output is always a sequence of structurally well-formed characters. Missing: the
    second byte of E0, ED, F0 and F4 sequences is not restricted. *)
Theorem C79_xml_encode_structure_partial : forall s o, xml_encode s = Some o -> xml_text o.
Proof.
  intros s o H. destruct (xml_encode_full s) as (o' & E & _ & T). congruence.
Qed.
Print Assumptions C79_xml_encode_structure_partial.
Example C79_case : xml_encode [237; 160; 128] = Some [237; 160; 128] /\ utf8_valid [226; 130; 172] = true /\ utf8_valid [237; 160; 128] = false.
Proof. repeat split. Qed.
