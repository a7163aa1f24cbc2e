(** Model of reading only the content of a message whose headers the caller has set: parser::skip_header_parsing,
    include/pion/http/parser.hpp:225-233, on top of [finish_headers] of HttpModel.v. *)
From Coq Require Import ZArith List Bool.
From Verif Require Import Base HttpModel.

(** http/parser.hpp:230-233: what [finish_header_parsing] answers and its error code are thrown away; parser and message stay as it left them *)
Definition skip_header_parsing (cf : pcfg) (st : pst) (m : msg) : outcome (pst * msg) :=
  obind (finish_headers cf st m) (fun x => Ok (snd x)).
(** http/parser.hpp:230-233, then [parse] (http_parser.cpp:55-132) with one buffer after the other ([feed], HttpSpec.v) *)
Definition skip_and_feed (feed : pcfg -> pst -> msg -> list (list Z) -> outcome (option presult)) (cf : pcfg) (m : msg) (pieces : list (list Z)) : outcome (option presult) :=
  obind (skip_header_parsing cf (p_init cf) m) (fun x => feed cf (fst x) (snd x) pieces).
