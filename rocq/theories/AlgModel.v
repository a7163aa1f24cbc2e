(** Model of /repo/src/algorithm.cpp and the integer codecs of /repo/include/pion/algorithm.hpp. *)
From Coq Require Import String ZArith List Bool.
From Verif Require Import Base.
Import ListNotations.

(* ------------------------------------------------------------------ Base64 *)

(** src/algorithm.cpp:27-45, the table [decoding_data]; -1 is [nop]. *)
Definition b64_table : list Z :=
  [-1;-1;-1;-1; -1;-1;-1;-1; -1;-1;-1;-1; -1;-1;-1;-1;
   -1;-1;-1;-1; -1;-1;-1;-1; -1;-1;-1;-1; -1;-1;-1;-1;
   -1;-1;-1;-1; -1;-1;-1;-1; -1;-1;-1; 62; -1;-1;-1; 63;
   52; 53; 54;  55;  56; 57; 58; 59;  60; 61;-1;-1; -1;-1;-1;-1;
   -1; 0;  1;   2;   3;  4;  5;  6;   7;  8;  9; 10;  11; 12; 13; 14;
   15; 16; 17;  18;  19; 20; 21; 22;  23; 24; 25;-1; -1;-1;-1;-1;
   -1;26; 27;  28;  29; 30; 31; 32;  33; 34; 35; 36;  37; 38; 39; 40;
   41; 42; 43;  44;  45; 46; 47; 48;  49; 50; 51;-1; -1;-1;-1;-1;
   -1;-1;-1;-1; -1;-1;-1;-1; -1;-1;-1;-1; -1;-1;-1;-1;
   -1;-1;-1;-1; -1;-1;-1;-1; -1;-1;-1;-1; -1;-1;-1;-1;
   -1;-1;-1;-1; -1;-1;-1;-1; -1;-1;-1;-1; -1;-1;-1;-1;
   -1;-1;-1;-1; -1;-1;-1;-1; -1;-1;-1;-1; -1;-1;-1;-1;
   -1;-1;-1;-1; -1;-1;-1;-1; -1;-1;-1;-1; -1;-1;-1;-1;
   -1;-1;-1;-1; -1;-1;-1;-1; -1;-1;-1;-1; -1;-1;-1;-1;
   -1;-1;-1;-1; -1;-1;-1;-1; -1;-1;-1;-1; -1;-1;-1;-1;
   -1;-1;-1;-1; -1;-1;-1;-1; -1;-1;-1;-1; -1;-1;-1;-1].

(** src/algorithm.cpp:63, [decoding_data[static_cast<int>(input_ptr[i])]]: the index is the value of a
    signed [char]. [None] is an access outside the table (undefined behaviour). *)
Definition b64_lookup (c : Z) : option Z :=
  let i := schar c in
  if i <? 0 then None else nth_error b64_table (Z.to_nat i).

(** what the function gives back: false, true and the output, or a read outside the table; algorithm.cpp:25-103 *)
Inductive b64_result := B64True | B64False | B64UB.

(** src/algorithm.cpp:57-100, the loop of [base64_decode] (result and [output]). The BOOST_ASSERTs on the
    unused bits before '=' (lines 77 and 90) are modelled as disabled (release build). *)
Fixpoint b64_decode_loop (s : list Z) : b64_result * list Z :=
  match s with
  | [] => (B64True, [])
  | a :: s1 =>
    match b64_lookup a with
    | None => (B64UB, [])
    | Some c0 =>
      if c0 =? -1 then (B64False, []) else
      match s1 with
      | [] => (B64False, [])
      | b :: s2 =>
        match b64_lookup b with
        | None => (B64UB, [])
        | Some c1 =>
          if c1 =? -1 then (B64False, []) else
          let o1 := to_u8 (Z.lor (Z.shiftl c0 2) (Z.land (Z.shiftr c1 4) 3)) in
          match s2 with
          | [] => (B64True, [o1])
          | c :: s3 =>
            if c =? ch "=" then (B64True, [o1]) else
            match b64_lookup c with
            | None => (B64UB, [o1])
            | Some c2 =>
              if c2 =? -1 then (B64False, [o1]) else
              let o2 := to_u8 (Z.lor (Z.land (Z.shiftl c1 4) 240) (Z.land (Z.shiftr c2 2) 15)) in
              match s3 with
              | [] => (B64True, [o1; o2])
              | d :: s4 =>
                if d =? ch "=" then (B64True, [o1; o2]) else
                match b64_lookup d with
                | None => (B64UB, [o1; o2])
                | Some c3 =>
                  if c3 =? -1 then (B64False, [o1; o2]) else
                  let o3 := to_u8 (Z.lor (Z.land (Z.shiftl c2 6) 192) c3) in
                  let (r, out) := b64_decode_loop s4 in
                  (r, o1 :: o2 :: o3 :: out)
                end
              end
            end
          end
        end
      end
    end
  end.

(** The part of a string an [unsigned int] length lets the loops see: src/algorithm.cpp:47 and 110,
    [unsigned int input_length=input.size()]. (The counter [i] itself can only wrap when the truncated
    length is 2^32-1 or 2^32-2; the theorems exclude lengths that large.) *)
Definition trunc32 (s : list Z) : list Z := firstn (Z.to_nat (wrap32 (zlen s))) s.

(** src/algorithm.cpp:25-103 *)
Definition b64_decode (s : list Z) : b64_result * list Z := b64_decode_loop (trunc32 s).

(** src/algorithm.cpp:107-108 *)
Definition b64_chars : list Z :=
  bs "ABCDEFGHIJKLMNOPQRSTUVWXYZabcdefghijklmnopqrstuvwxyz0123456789+/".
(** the output of an encoding, algorithm.cpp:105-152 *)
Definition b64_enc (i : Z) : Z := nth (Z.to_nat i) b64_chars 0.

(** src/algorithm.cpp:120-148, the loop of [base64_encode]; the operands are signed [char]s. *)
Fixpoint b64_encode_loop (s : list Z) : list Z :=
  match s with
  | [] => []
  | a :: s1 =>
    let c0 := Z.land (Z.shiftr (schar a) 2) 63 in
    let c1 := Z.land (Z.shiftl (schar a) 4) 63 in
    match s1 with
    | [] => [b64_enc c0; b64_enc c1; ch "="; ch "="]
    | b :: s2 =>
      let c1 := Z.lor c1 (Z.land (Z.shiftr (schar b) 4) 15) in
      let c2 := Z.land (Z.shiftl (schar b) 2) 63 in
      match s2 with
      | [] => [b64_enc c0; b64_enc c1; b64_enc c2; ch "="]
      | c :: s3 =>
        let c2 := Z.lor c2 (Z.land (Z.shiftr (schar c) 6) 3) in
        let c3 := Z.land (schar c) 63 in
        b64_enc c0 :: b64_enc c1 :: b64_enc c2 :: b64_enc c3 :: b64_encode_loop s3
      end
    end
  end.

(** src/algorithm.cpp:105-152 *)
Definition b64_encode (s : list Z) : list Z := b64_encode_loop (trunc32 s).

(* ------------------------------------------------------------------ URL coding *)

(** C [isspace] in the "C" locale, used by [strtol]. C library, used at algorithm.cpp:173 *)
Definition c_isspace (c : Z) : bool := (c =? 32) || ((9 <=? c) && (c <=? 13)).

(** Value of a hexadecimal digit, as [strtol] with base 16 reads it. C library, used at algorithm.cpp:173 *)
Definition hex_val (c : Z) : option Z :=
  if (48 <=? c) && (c <=? 57) then Some (c - 48)
  else if (65 <=? c) && (c <=? 70) then Some (c - 55)
  else if (97 <=? c) && (c <=? 102) then Some (c - 87)
  else None.

(** [strtol(buf, 0, 16)] on a two character buffer: optional white space, optional sign, digits. A prefix
    "0x" needs a third character to have an effect, so it reads as 0, which the digit loop gives. C library, used at algorithm.cpp:173 *)
Fixpoint strtol_digits (acc : Z) (l : list Z) : Z :=
  match l with
  | [] => acc
  | c :: l' => match hex_val c with Some v => strtol_digits (acc * 16 + v) l' | None => acc end
  end.
(** C library, used at algorithm.cpp:173 *)
Definition strtol_signed (l : list Z) : Z :=
  match l with
  | c :: l' => if c =? ch "-" then - strtol_digits 0 l'
               else if c =? ch "+" then strtol_digits 0 l' else strtol_digits 0 l
  | [] => 0
  end.
(** C library, used at algorithm.cpp:173 *)
Fixpoint strtol16 (l : list Z) : Z :=
  match l with
  | c :: l' => if c_isspace c then strtol16 l' else strtol_signed l
  | [] => 0
  end.

(** src/algorithm.cpp:154-195. [decoded_char] is the low byte of the [strtol] result. On failure the code
    emits '%' and steps back to just after it. *)
Fixpoint url_decode (s : list Z) : list Z :=
  match s with
  | [] => []
  | c :: s1 =>
    if c =? ch "+" then ch " " :: url_decode s1
    else if c =? ch "%" then
      match s1 with
      | a :: (b :: s3) =>
        let d := to_u8 (strtol16 [a; b]) in
        if d =? 0 then ch "%" :: url_decode s1 else d :: url_decode s3
      | _ => ch "%" :: url_decode s1
      end
    else c :: url_decode s1
  end.

(** src/algorithm.cpp:210-219, the characters that are always escaped. *)
Definition url_escaped_chars : list Z :=
  bs " $&+,/:;=?@" ++ [34] ++ bs "<>#%{}|\^~[]`".
(** src/algorithm.cpp:206-219 *)
Definition url_keep (c : Z) : bool :=
  negb (existsb (Z.eqb c) url_escaped_chars) && ((32 <? schar c) && (schar c <? 127)).

(** [sprintf("%.2X")] of a byte. C library, used at algorithm.cpp:222 *)
Definition hex_digit (v : Z) : Z := if v <? 10 then 48 + v else 55 + v.
(** src/algorithm.cpp:221 *)
Definition url_escape (c : Z) : list Z := [ch "%"; hex_digit (c / 16); hex_digit (c mod 16)].
(** src/algorithm.cpp:205-225, one iteration *)
Definition url_encode1 (c : Z) : list Z := if url_keep c then [c] else url_escape c.
(** src/algorithm.cpp:197-229 *)
Fixpoint url_encode (s : list Z) : list Z :=
  match s with
  | [] => []
  | c :: s' => url_encode1 c ++ url_encode s'
  end.

(* ------------------------------------------------------------------ XML encoding *)

(** src/algorithm.cpp:22 *)
Definition utf8_replacement : list Z := [239; 191; 189].

(** src/algorithm.cpp:247-268 *)
Definition xml_ascii (c : Z) : bool :=
  ((32 <=? c) && (c <=? 127)) || (c =? 9) || (c =? 10) || (c =? 13).
(** algorithm.cpp:249-268 *)
Definition xml_escape (c : Z) : list Z :=
  if c =? ch "&" then bs "&amp;"
  else if c =? ch "<" then bs "&lt;"
  else if c =? ch ">" then bs "&gt;"
  else if c =? 34 then bs "&quot;"
  else if c =? 39 then bs "&apos;"
  else [c].
(** src/algorithm.cpp:271 and following: continuation byte test *)
Definition xml_cont (c : Z) : bool := (128 <=? c) && (c <=? 191).

(** Memory of [str.c_str()]: the bytes of the string followed by one NUL; anything further is out of
    bounds ([None]). [rest] is the part of the string after the current byte. algorithm.cpp:240-241, 271, 280-281, 291-293 *)
Definition cstr_at (rest : list Z) (i : nat) : option Z :=
  if Nat.ltb i (List.length rest) then nth_error rest i
  else if Nat.eqb i (List.length rest) then Some 0 else None.

(** The condition of src/algorithm.cpp:271, 280-281 and 291-293, with && short-circuit: the next [n] bytes are
    continuation bytes; [None] if a byte outside the buffer was read. *)
Fixpoint xml_conts (rest : list Z) (i n : nat) : option bool :=
  match n with
  | O => Some true
  | S n' => match cstr_at rest i with
            | None => None
            | Some c => if xml_cont c then xml_conts rest (S i) n' else Some false
            end
  end.

(** src/algorithm.cpp:269-305, number of continuation bytes that must follow a lead byte *)
Definition xml_need (c : Z) : option nat :=
  if (194 <=? c) && (c <=? 223) then Some 1%nat
  else if (224 <=? c) && (c <=? 239) then Some 2%nat
  else if (240 <=? c) && (c <=? 244) then Some 3%nat
  else None.

(** src/algorithm.cpp:236-310; [None] is a read outside the string and its terminator. The argument [skip]
    counts the bytes already copied together with an earlier lead byte ([*(++ptr)]). *)
Fixpoint xml_encode_loop (skip : nat) (s : list Z) : option (list Z) :=
  match s with
  | [] => Some []
  | c :: rest =>
    match skip with
    | S k => match xml_encode_loop k rest with Some o => Some (c :: o) | None => None end
    | O =>
      if xml_ascii c then
        match xml_encode_loop O rest with Some o => Some (xml_escape c ++ o) | None => None end
      else
        match xml_need c with
        | Some n =>
          match xml_conts rest 0 n with
          | None => None
          | Some true => match xml_encode_loop n rest with Some o => Some (c :: o) | None => None end
          | Some false => match xml_encode_loop O rest with
                          | Some o => Some (utf8_replacement ++ o) | None => None end
          end
        | None => match xml_encode_loop O rest with
                  | Some o => Some (utf8_replacement ++ o) | None => None end
        end
    end
  end.
(** algorithm.cpp:236-310, from the first byte *)
Definition xml_encode (s : list Z) : option (list Z) := xml_encode_loop O s.

(* ------------------------------------------------------------------ integer codecs *)

(** include/pion/algorithm.hpp:60-77, 81-129 (and the pointer overloads 202-266). Left shifts into the sign
    bit are modelled as two's complement. *)
Definition to_uint8 (b : list Z) : Z := nth 0 b 0 mod 256.
(** algorithm.hpp:66, 76 *)
Definition to_int8 (b : list Z) : Z := to_signed 8 (nth 0 b 0).
(** algorithm.hpp:81, 124 *)
Definition to_uint16 (b : list Z) : Z := Z.lor (Z.shiftl (nth 0 b 0) 8) (nth 1 b 0) mod 2 ^ 16.
(** algorithm.hpp:86, 130 *)
Definition to_int16 (b : list Z) : Z := to_signed 16 (Z.lor (Z.shiftl (nth 0 b 0) 8) (nth 1 b 0)).
(** algorithm.hpp:91, 136 *)
Definition to_uint24 (b : list Z) : Z :=
  Z.lor (Z.lor (Z.shiftl (nth 0 b 0) 16) (Z.shiftl (nth 1 b 0) 8)) (nth 2 b 0) mod 2 ^ 32.
(** algorithm.hpp:96, 144 *)
Definition to_int24 (b : list Z) : Z :=
  to_signed 32 (Z.lor (Z.lor (Z.shiftl (nth 0 b 0) 16) (Z.shiftl (nth 1 b 0) 8)) (nth 2 b 0)).
(** the shifts and ors of algorithm.hpp:152-157 *)
Definition or4 (b : list Z) : Z :=
  Z.lor (Z.lor (Z.lor (Z.shiftl (nth 0 b 0) 24) (Z.shiftl (nth 1 b 0) 16)) (Z.shiftl (nth 2 b 0) 8)) (nth 3 b 0).
(** algorithm.hpp:101, 152 *)
Definition to_uint32 (b : list Z) : Z := or4 b mod 2 ^ 32.
(** algorithm.hpp:106, 161 *)
Definition to_int32 (b : list Z) : Z := to_signed 32 (or4 b).
(** the shifts and ors of algorithm.hpp:170-179 *)
Definition or8 (b : list Z) : Z :=
  Z.lor (Z.lor (Z.lor (Z.lor (Z.lor (Z.lor (Z.lor
    (Z.shiftl (nth 0 b 0) 56) (Z.shiftl (nth 1 b 0) 48)) (Z.shiftl (nth 2 b 0) 40)) (Z.shiftl (nth 3 b 0) 32))
    (Z.shiftl (nth 4 b 0) 24)) (Z.shiftl (nth 5 b 0) 16)) (Z.shiftl (nth 6 b 0) 8)) (nth 7 b 0).
(** algorithm.hpp:111, 170 *)
Definition to_uint64 (b : list Z) : Z := or8 b mod 2 ^ 64.
(** algorithm.hpp:117, 183 *)
Definition to_int64 (b : list Z) : Z := to_signed 64 (or8 b).

(** include/pion/algorithm.hpp:268-339. [>>] of a negative number is arithmetic (gcc). *)
Definition byte_at (n sh : Z) : Z := Z.land (Z.shiftr n sh) 255.
(** algorithm.hpp:263 *)
Definition from_int8 (n : Z) : list Z := [Z.land n 255].
(** algorithm.hpp:276 *)
Definition from_int16 (n : Z) : list Z := [byte_at n 8; Z.land n 255].
(** algorithm.hpp:291 *)
Definition from_int24 (n : Z) : list Z := [byte_at n 16; byte_at n 8; Z.land n 255].
(** algorithm.hpp:308 *)
Definition from_int32 (n : Z) : list Z := [byte_at n 24; byte_at n 16; byte_at n 8; Z.land n 255].
(** algorithm.hpp:330 *)
Definition from_int64 (n : Z) : list Z :=
  [byte_at n 56; byte_at n 48; byte_at n 40; byte_at n 32; byte_at n 24; byte_at n 16; byte_at n 8; Z.land n 255].
(** the unsigned writers have the same bodies; algorithm.hpp:257 *)
Definition from_uint8 := from_int8.
(** algorithm.hpp:269 *)
Definition from_uint16 := from_int16.
(** algorithm.hpp:283 *)
Definition from_uint24 := from_int24.
(** algorithm.hpp:299 *)
Definition from_uint32 := from_int32.
(** algorithm.hpp:317 *)
Definition from_uint64 := from_int64.
