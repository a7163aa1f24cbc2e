(** Properties of query strings, forms and cookies (C11-C14, C80). *)
From Coq Require Import String ZArith List.
From Verif Require Import Base Digits AlgModel AlgSpec FormModel FormSpec FormProofs.
Import ListNotations.

(** Decides the side conditions of the examples. *)
Ltac oks :=
  repeat match goal with
  | |- _ /\ _ => split
  | |- Forall _ (_ :: _) => apply Forall_cons; cbn [fst snd]
  | |- Forall _ [] => apply Forall_nil
  | |- Forall is_byte (bs _) => apply bs_bytes
  | |- Forall _ (bs _) => cbn [bs]
  | |- is_byte _ => vm_compute; split; [discriminate | reflexivity]
  | |- _ <= _ => vm_compute; discriminate
  | |- ~ In _ _ => vm_compute; intuition discriminate
  | |- _ <> _ => vm_compute; discriminate
  | |- _ = _ => vm_compute; reflexivity
  end.

(** C11. [query_pair_ok] (FormProofs.v): bytes, non-empty name, no NUL bytes, encoded name at most 1024
    characters, encoded value at most 1 MiB. *)
Theorem C11_query_string_round_trip : forall l, Forall query_pair_ok l ->
  parse_url_encoded (make_query_string l) = (true, l).
Proof. exact query_roundtrip. Qed.
Print Assumptions C11_query_string_round_trip.
Example C11_case :
  let l := [(bs "q", bs "a&b=c,d"); (bs "x y", []); (bs "q", [255; 10])] in
  Forall query_pair_ok l /\ make_query_string l = bs "q=a%26b%3Dc%2Cd&x%20y=&q=%FF%0A".
Proof.
  cbv zeta. unfold query_pair_ok. oks.
Qed.

(** C12. Name: legal characters, at most 1024, not starting with '$', not one of the reserved attribute
    names; value: no double quote; path: no separators or control characters. *)
Theorem C12_set_cookie_round_trip : forall name value path has_age age,
  cookie_name_ok name -> not_reserved name -> cookie_quoted_ok value -> (path <> [] -> cookie_path_ok path) ->
  0 <= age < two64 ->
  parse_cookie_header true (make_set_cookie_header name value path has_age age) = (true, [(name, value)]).
Proof. exact set_cookie_roundtrip. Qed.
Print Assumptions C12_set_cookie_round_trip.
Example C12_case : cookie_name_ok (bs "sid") /\ not_reserved (bs "sid") /\ cookie_quoted_ok (bs "a;b, c") /\ cookie_path_ok (bs "/x y")
  /\ make_set_cookie_header (bs "sid") (bs "a;b, c") (bs "/x y") true 3600
     = bs "sid=" ++ [34] ++ bs "a;b, c" ++ [34] ++ bs "; Version=1; Path=/x y; Max-Age=3600".
Proof.
  unfold cookie_name_ok, cookie_quoted_ok, cookie_path_ok, cookie_value_ok, not_reserved.
  oks.
Qed.
(** C12, limit: a double quote in the value makes the parser store something else, so the hypothesis on the
    value cannot be dropped; the formatter does not check it. *)
Theorem C12_set_cookie_quote_refuted : exists name value,
  cookie_name_ok name /\ not_reserved name
  /\ parse_cookie_header true (make_set_cookie_header name value [] false 0) = (true, [(name, bs "a"); (bs "evil", bs "1")]).
Proof.
  exists (bs "sid"), (bs "a" ++ [34] ++ bs "; evil=1; Path=").
  unfold cookie_name_ok, not_reserved.
  oks.
Qed.
Print Assumptions C12_set_cookie_quote_refuted.

(** C13 *)
Theorem C13_cookie_header_round_trip : forall l,
  Forall (fun p => cookie_name_ok (fst p) /\ cookie_value_ok (snd p)) l ->
  parse_cookie_header false (cookie_header l) = (true, l).
Proof. exact cookie_roundtrip. Qed.
Print Assumptions C13_cookie_header_round_trip.
Example C13_case : parse_cookie_header false (cookie_header [(bs "a", bs "1"); (bs "b", []); (bs "a", bs "x y=z")])
   = (true, [(bs "a", bs "1"); (bs "b", []); (bs "a", bs "x y=z")])
   /\ cookie_header [(bs "a", bs "1"); (bs "b", []); (bs "a", bs "x y=z")] = bs "a=1; b=; a=x y=z"
   /\ cookie_name_ok (bs "a") /\ cookie_value_ok (bs "x y=z").
Proof.
  unfold cookie_name_ok, cookie_value_ok.
  oks.
Qed.

(** C14. Whatever the input, also when parsing fails half way. *)
Theorem C14_form_bounds : forall s,
  Forall (fun p => fst p <> [] /\ zlen (fst p) <= 1024 /\ zlen (snd p) <= 1048576) (snd (parse_url_encoded s)).
Proof. exact parse_form_bounds. Qed.
Print Assumptions C14_form_bounds.
Theorem C14_cookie_bounds : forall set_cookie s,
  Forall (fun p => fst p <> [] /\ hd 0 (fst p) <> ch "$" /\ zlen (fst p) <= 1024 /\ zlen (snd p) <= 1048576
                   /\ (set_cookie = true -> not_reserved (fst p))) (snd (parse_cookie_header set_cookie s)).
Proof. exact parse_cookie_bounds. Qed.
Print Assumptions C14_cookie_bounds.
Example C14_case : parse_cookie_header true (bs "$v=1; a=b; path=/; SECURE; c") = (true, [(bs "a", bs "b"); (bs "c", [])])
  /\ parse_url_encoded (bs "a=1&b" ++ [0] ++ bs "=2") = (false, [(bs "a", bs "1")]).
Proof. split; reflexivity. Qed.

(** C80. The form parser is exactly the specification: fields separated by '&', "name=v1,v2,...", URL decoded,
    tabs and line breaks dropped; failure exactly for control characters and over-long parts. *)
Theorem C80_form_parser_exact : forall s, Forall is_byte s ->
  fst (parse_url_encoded s) = form_ok s /\ (form_ok s = true -> snd (parse_url_encoded s) = form_pairs s).
Proof. exact parse_form_spec. Qed.
Print Assumptions C80_form_parser_exact.
Example C80_case : form_ok (bs "a=1,2&&b&=x&c=%41=") = true
  /\ form_pairs (bs "a=1,2&&b&=x&c=%41=") = [(bs "a", bs "1"); (bs "a", bs "2"); (bs "b", []); (bs "c", bs "A=")].
Proof. split; reflexivity. Qed.
