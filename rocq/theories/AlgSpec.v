(** Specifications for the algorithm area. Nothing here refers to the model of the code. *)
From Coq Require Import String ZArith List Bool.
From Verif Require Import Base.
Import ListNotations.

(** The Base64 alphabet (RFC 4648). *)
Definition is_b64_char (c : Z) : bool :=
  ((65 <=? c) && (c <=? 90)) || ((97 <=? c) && (c <=? 122)) || ((48 <=? c) && (c <=? 57))
  || (c =? 43) || (c =? 47).

(** Texts that the decoder takes: alphabet characters only, without a single left-over character; or such
    characters up to a '=' at the third or fourth place of a group, followed by anything. *)
Definition b64_accepted (s : list Z) : Prop :=
  (Forall (fun c => is_b64_char c = true) s /\ zlen s mod 4 <> 1)
  \/ exists p junk, s = p ++ ch "=" :: junk /\ Forall (fun c => is_b64_char c = true) p /\ 2 <= zlen p mod 4.

(** A byte with the high bit set right after a run of alphabet characters. *)
Definition b64_high_byte_reached (s : list Z) : Prop :=
  exists p c junk, s = p ++ c :: junk /\ Forall (fun c => is_b64_char c = true) p /\ 128 <= c.

(** Hexadecimal digits, upper case. *)
Definition is_upper_hex (c : Z) : bool := ((48 <=? c) && (c <=? 57)) || ((65 <=? c) && (c <=? 70)).
(** Characters that stand for themselves in URL encoded text: letters, digits and !'()*-._ *)
Definition url_plain (c : Z) : bool :=
  ((65 <=? c) && (c <=? 90)) || ((97 <=? c) && (c <=? 122)) || ((48 <=? c) && (c <=? 57))
  || existsb (Z.eqb c) (bs "!'()*-._").
(** How each byte is written: itself, or % and its number with two hexadecimal digits. *)
Definition url_written (c : Z) : list Z :=
  if url_plain c then [c] else [ch "%"; nth (Z.to_nat (c / 16)) (bs "0123456789ABCDEF") 0; nth (Z.to_nat (c mod 16)) (bs "0123456789ABCDEF") 0].
(** Escaped text: plain characters and %XX. *)
Inductive url_text : list Z -> Prop :=
| ut_nil : url_text []
| ut_plain c s : url_plain c = true -> url_text s -> url_text (c :: s)
| ut_esc a b s : is_upper_hex a = true -> is_upper_hex b = true -> url_text s -> url_text (ch "%" :: a :: b :: s).

(** The five predefined XML entities. *)
Definition xml_entities : list (list Z * Z) :=
  [(bs "&amp;", 38); (bs "&lt;", 60); (bs "&gt;", 62); (bs "&quot;", 34); (bs "&apos;", 39)].

(** No markup characters; every '&' begins one of the five entities. *)
Fixpoint xml_safe (o : list Z) : bool :=
  match o with
  | [] => true
  | c :: r =>
    negb (existsb (Z.eqb c) [60; 62; 34; 39])
    && (if c =? 38 then existsb (fun e => is_prefix (fst e) o) xml_entities else true)
    && xml_safe r
  end.

(** Replace entities by the characters they denote. *)
Definition xml_entity_at (o : list Z) : option (list Z * Z) :=
  find (fun e => is_prefix (fst e) o) xml_entities.
Fixpoint xml_unescape_fuel (n : nat) (o : list Z) : list Z :=
  match n with
  | O => []
  | S n' =>
    match o with
    | [] => []
    | c :: r => match xml_entity_at o with
                | Some (e, v) => v :: xml_unescape_fuel n' (skipn (List.length e) o)
                | None => c :: xml_unescape_fuel n' r
                end
    end
  end.
Definition xml_unescape (o : list Z) : list Z := xml_unescape_fuel (List.length o) o.

(** One character of XML text in (structurally well-formed) UTF-8. *)
Inductive xml_unit : list Z -> Prop :=
| xu1 c : 32 <= c <= 127 \/ c = 9 \/ c = 10 \/ c = 13 -> xml_unit [c]
| xu2 a b : 194 <= a <= 223 -> 128 <= b <= 191 -> xml_unit [a; b]
| xu3 a b c : 224 <= a <= 239 -> 128 <= b <= 191 -> 128 <= c <= 191 -> xml_unit [a; b; c]
| xu4 a b c d : 240 <= a <= 244 -> 128 <= b <= 191 -> 128 <= c <= 191 -> 128 <= d <= 191 -> xml_unit [a; b; c; d].
(** Text made of such characters. *)
Inductive xml_text : list Z -> Prop :=
| xt_nil : xml_text []
| xt_unit u s : xml_unit u -> xml_text s -> xml_text (u ++ s).
(** Cleaning: characters stay, a byte that does not start a character becomes U+FFFD. *)
Inductive xml_clean : list Z -> list Z -> Prop :=
| xc_nil : xml_clean [] []
| xc_unit u s o : xml_unit u -> xml_clean s o -> xml_clean (u ++ s) (u ++ o)
| xc_bad c s o : (forall u r, xml_unit u -> c :: s <> u ++ r) -> xml_clean s o ->
                 xml_clean (c :: s) ([239; 191; 189] ++ o).

(** UTF-8 as defined by the Unicode standard (table 3-7): no overlong forms, no surrogates, <= 10FFFF. *)
Definition cont (c : Z) : bool := (128 <=? c) && (c <=? 191).
Fixpoint utf8_valid_fuel (n : nat) (s : list Z) : bool :=
  match n with
  | O => match s with [] => true | _ => false end
  | S n' =>
    match s with
    | [] => true
    | a :: r =>
      if (0 <=? a) && (a <=? 127) then utf8_valid_fuel n' r
      else match r with
      | b :: r2 =>
        if (194 <=? a) && (a <=? 223) then cont b && utf8_valid_fuel n' r2
        else match r2 with
        | c :: r3 =>
          if a =? 224 then (160 <=? b) && (b <=? 191) && cont c && utf8_valid_fuel n' r3
          else if a =? 237 then (128 <=? b) && (b <=? 159) && cont c && utf8_valid_fuel n' r3
          else if (225 <=? a) && (a <=? 239) then cont b && cont c && utf8_valid_fuel n' r3
          else match r3 with
          | d :: r4 =>
            if a =? 240 then (144 <=? b) && (b <=? 191) && cont c && cont d && utf8_valid_fuel n' r4
            else if (241 <=? a) && (a <=? 243) then cont b && cont c && cont d && utf8_valid_fuel n' r4
            else if a =? 244 then (128 <=? b) && (b <=? 143) && cont c && cont d && utf8_valid_fuel n' r4
            else false
          | [] => false
          end
        | [] => false
        end
      | [] => false
      end
    end
  end.
Definition utf8_valid (s : list Z) : bool := utf8_valid_fuel (List.length s) s.

(** Big-endian value of a byte sequence. *)
Fixpoint be_value_acc (acc : Z) (b : list Z) : Z :=
  match b with [] => acc | x :: b' => be_value_acc (acc * 256 + x) b' end.
Definition be_value (b : list Z) : Z := be_value_acc 0 b.
(** Big-endian value as a signed number of the same width. *)
Definition be_signed (b : list Z) : Z :=
  let v := be_value b in
  let m := 2 ^ (8 * zlen b) in if v <? m / 2 then v else v - m.
