(** Model of the query string / cookie formatters (src/http_types.cpp) and of the URL-encoded form and
    cookie parsers (src/http_parser.cpp). *)
From Coq Require Import String ZArith List Bool.
From Verif Require Import Base Digits AlgModel.
Import ListNotations.

(** include/pion/http/parser.hpp:712-743; the arguments are signed [char]s converted to [int]. *)
Definition is_char (c : Z) : bool := let i := schar c in (0 <=? i) && (i <=? 127).
(** http/parser.hpp:717 *)
Definition is_control (c : Z) : bool := let i := schar c in ((0 <=? i) && (i <=? 31)) || (i =? 127).
(** http/parser.hpp:722 *)
Definition is_special (c : Z) : bool :=
  existsb (Z.eqb c) (bs "()<>@,;:\" ++ [34] ++ bs "/[]?={} " ++ [9]).
(** http/parser.hpp:735 *)
Definition is_digit (c : Z) : bool := (48 <=? c) && (c <=? 57).
(** http/parser.hpp:740 *)
Definition is_hex_digit (c : Z) : bool :=
  ((48 <=? c) && (c <=? 57)) || ((97 <=? c) && (c <=? 102)) || ((65 <=? c) && (c <=? 70)).

(** ASCII lower case ([boost::algorithm::iequals], [ihash], [iequal_to] with the "C" locale). used at hash_map.hpp:82, 100, http/parser.hpp:745-765, http_parser.cpp:1168-1172 *)
Definition lower (c : Z) : Z := if (65 <=? c) && (c <=? 90) then c + 32 else c.
(** used at hash_map.hpp:82, 100, http/parser.hpp:745-765, http_parser.cpp:1168-1172 *)
Definition lower_str (s : list Z) : list Z := map lower s.
(** used at hash_map.hpp:82, 100, http/parser.hpp:745-765, http_parser.cpp:1168-1172 *)
Definition iequals (a b : list Z) : bool := str_eqb (lower_str a) (lower_str b).

(** src/http_parser.cpp:38-48 *)
Definition QUERY_NAME_MAX : Z := 1024.
(** http_parser.cpp:45 *)
Definition QUERY_VALUE_MAX : Z := 1024 * 1024.
(** http_parser.cpp:46 *)
Definition COOKIE_NAME_MAX : Z := 1024.
(** http_parser.cpp:47 *)
Definition COOKIE_VALUE_MAX : Z := 1024 * 1024.

(** A character-driven parser: run until the input ends or a step fails. the loops of http_parser.cpp:925-977, 1261-1343 *)
Fixpoint run {S : Type} (step : S -> Z -> bool * S) (st : S) (s : list Z) : bool * S :=
  match s with
  | [] => (true, st)
  | c :: s' => let (ok, st') := step st c in if ok then run step st' s' else (false, st')
  end.

(* ------------------------------------------------------------------ formatters *)

(** src/http_types.cpp:114-125. The dictionary is given as the list of its entries in iteration order. *)
Definition query_pair (p : list Z * list Z) : list Z := url_encode (fst p) ++ ch "=" :: url_encode (snd p).
(** http_types.cpp:117-123 *)
Fixpoint make_query_tail (l : list (list Z * list Z)) : list Z :=
  match l with [] => [] | p :: l' => ch "&" :: query_pair p ++ make_query_tail l' end.
(** http_types.cpp:114-125 *)
Definition make_query_string (l : list (list Z * list Z)) : list Z :=
  match l with [] => [] | p :: l' => query_pair p ++ make_query_tail l' end.

(** src/http_types.cpp:127-147 *)
Definition make_set_cookie_header (name value path : list Z) (has_max_age : bool) (max_age : Z) : list Z :=
  name ++ ch "=" :: 34 :: value ++ (34 :: bs "; Version=1")
  ++ (match path with [] => [] | _ => bs "; Path=" ++ path end)
  ++ (if has_max_age then bs "; Max-Age=" ++ print_dec max_age else []).

(* ------------------------------------------------------------------ parse_url_encoded *)

(** Local variables of src/http_parser.cpp:914-922; [u_out] are the pairs inserted so far, in order. *)
Record ustate := { u_value_state : bool; u_name : list Z; u_value : list Z; u_out : list (list Z * list Z) }.
(** http_parser.cpp:914-922 *)
Definition u_init : ustate := {| u_value_state := false; u_name := []; u_value := []; u_out := [] |}.

(** [dict.insert(make_pair(url_decode(query_name), url_decode(query_value)))] if the name is not empty; http_parser.cpp:935-939, 955-958, 963-964, 982-983 *)
Definition u_insert (st : ustate) : list (list Z * list Z) :=
  match u_name st with
  | [] => u_out st
  | _ => u_out st ++ [(url_decode (u_name st), url_decode (u_value st))]
  end.

(** used at http_parser.cpp:940, 966 *)
Definition is_crlftab (c : Z) : bool := (c =? 13) || (c =? 10) || (c =? 9).

(** src/http_parser.cpp:925-977, one character *)
Definition u_step (st : ustate) (c : Z) : bool * ustate :=
  if u_value_state st then
    if c =? ch "&" then
      (true, {| u_value_state := false; u_name := []; u_value := []; u_out := u_insert st |})
    else if c =? ch "," then
      (true, {| u_value_state := true; u_name := u_name st; u_value := []; u_out := u_insert st |})
    else if is_crlftab c then (true, st)
    else if is_control c || (QUERY_VALUE_MAX <=? zlen (u_value st)) then (false, st)
    else (true, {| u_value_state := true; u_name := u_name st; u_value := u_value st ++ [c]; u_out := u_out st |})
  else
    if c =? ch "=" then
      (true, {| u_value_state := true; u_name := u_name st; u_value := u_value st; u_out := u_out st |})
    else if c =? ch "&" then
      (true, {| u_value_state := false; u_name := []; u_value := u_value st; u_out := u_insert st |})
    else if is_crlftab c then (true, st)
    else if is_control c || (QUERY_NAME_MAX <=? zlen (u_name st)) then (false, st)
    else (true, {| u_value_state := false; u_name := u_name st ++ [c]; u_value := u_value st; u_out := u_out st |}).

(** src/http_parser.cpp:907-986: result and the pairs inserted. (In line 945 [query_name] is already empty
    when the name is empty, so erasing it unconditionally is the same.) *)
Definition parse_url_encoded (s : list Z) : bool * list (list Z * list Z) :=
  match s with
  | [] => (true, [])
  | _ => let (ok, st) := run u_step u_init s in if ok then (true, u_insert st) else (false, u_out st)
  end.

(* ------------------------------------------------------------------ parse_cookie_header *)

(** http_parser.cpp:1250-1253 *)
Inductive cphase := CName | CValue | CIgnore.
(** Local variables of src/http_parser.cpp:1250-1258 *)
Record cstate := { c_phase : cphase; c_name : list Z; c_value : list Z; c_quote : Z; c_out : list (list Z * list Z) }.
(** http_parser.cpp:1253-1258 *)
Definition c_init : cstate := {| c_phase := CName; c_name := []; c_value := []; c_quote := 0; c_out := [] |}.

(** include/pion/http/parser.hpp:745-765 *)
Definition cookie_attributes : list (list Z) :=
  [bs "Comment"; bs "Domain"; bs "Max-Age"; bs "Path"; bs "Secure"; bs "Version"; bs "Expires"; bs "HttpOnly"].
(** http/parser.hpp:745-765 *)
Definition is_cookie_attribute (name : list Z) (set_cookie : bool) : bool :=
  match name with
  | [] => true
  | c :: _ => (c =? ch "$") || (set_cookie && existsb (iequals name) cookie_attributes)
  end.

(** [if (!is_cookie_attribute(..)) dict.insert(..)]; http_parser.cpp:1275-1276, 1294-1295, 1321-1322, 1347-1348 *)
Definition c_insert (sc : bool) (st : cstate) : list (list Z * list Z) :=
  if is_cookie_attribute (c_name st) sc then c_out st else c_out st ++ [(c_name st, c_value st)].

(** http_parser.cpp:1270, 1292, 1338 *)
Definition is_sep (c : Z) : bool := (c =? ch ";") || (c =? ch ",").

(** src/http_parser.cpp:1261-1343, one character *)
Definition c_step (sc : bool) (st : cstate) (c : Z) : bool * cstate :=
  match c_phase st with
  | CName =>
    if c =? ch "=" then
      (true, {| c_phase := CValue; c_name := c_name st; c_value := c_value st; c_quote := 0; c_out := c_out st |})
    else if is_sep c then
      match c_name st with
      | [] => (true, st)
      | _ => (true, {| c_phase := CName; c_name := []; c_value := c_value st; c_quote := c_quote st; c_out := c_insert sc st |})
      end
    else if negb (c =? ch " ") then
      if is_control c || (COOKIE_NAME_MAX <=? zlen (c_name st)) then (false, st)
      else (true, {| c_phase := CName; c_name := c_name st ++ [c]; c_value := c_value st; c_quote := c_quote st; c_out := c_out st |})
    else (true, st)
  | CValue =>
    if c_quote st =? 0 then
      if is_sep c then
        (true, {| c_phase := CName; c_name := []; c_value := []; c_quote := c_quote st; c_out := c_insert sc st |})
      else if (c =? 39) || (c =? 34) then
        match c_value st with
        | [] => (true, {| c_phase := CValue; c_name := c_name st; c_value := c_value st; c_quote := c; c_out := c_out st |})
        | _ => if COOKIE_VALUE_MAX <=? zlen (c_value st) then (false, st)
               else (true, {| c_phase := CValue; c_name := c_name st; c_value := c_value st ++ [c]; c_quote := 0; c_out := c_out st |})
        end
      else if negb (c =? ch " ") || negb (match c_value st with [] => true | _ => false end) then
        if is_control c || (COOKIE_VALUE_MAX <=? zlen (c_value st)) then (false, st)
        else (true, {| c_phase := CValue; c_name := c_name st; c_value := c_value st ++ [c]; c_quote := 0; c_out := c_out st |})
      else (true, st)
    else
      if c =? c_quote st then
        (true, {| c_phase := CIgnore; c_name := []; c_value := []; c_quote := c_quote st; c_out := c_insert sc st |})
      else if COOKIE_VALUE_MAX <=? zlen (c_value st) then (false, st)
      else (true, {| c_phase := CValue; c_name := c_name st; c_value := c_value st ++ [c]; c_quote := c_quote st; c_out := c_out st |})
  | CIgnore =>
    if is_sep c then (true, {| c_phase := CName; c_name := c_name st; c_value := c_value st; c_quote := c_quote st; c_out := c_out st |})
    else (true, st)
  end.

(** src/http_parser.cpp:1239-1351: result and the cookies inserted, in order *)
Definition parse_cookie_header (sc : bool) (s : list Z) : bool * list (list Z * list Z) :=
  let (ok, st) := run (c_step sc) c_init s in if ok then (true, c_insert sc st) else (false, c_out st).
