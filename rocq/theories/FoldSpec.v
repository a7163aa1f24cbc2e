(** Specification of header lines with blanks in other places, and of requests without a version. *)
From Coq Require Import String ZArith List Bool.
From Verif Require Import Base HttpModel HttpSpec.
Import ListNotations.

Definition blank (c : Z) : Prop := c = 32 \/ c = 9.
Definition blanks (s : list Z) : Prop := Forall blank s.

(** lines of blanks only *)
Definition empty_lines (w : list Z) : Prop := exists ls, Forall (fun l => l <> [] /\ blanks l) ls /\ w = concat (map (fun l => l ++ CRLF) ls).

(** the header [p] behind lines of blanks, indented, with or without the blank behind the colon; without it, the value does not begin with a separator *)
Definition lax_hdr (p : hdr) (w : list Z) : Prop :=
  exists e b v, empty_lines e /\ blanks b /\ w = e ++ b ++ fst p ++ bs ":" ++ v ++ CRLF
    /\ (v = bs " " ++ snd p \/ v = snd p /\ match snd p with [] => True | c :: _ => token_char c end).
Definition first_line_of (hd : head) : list Z := match hd with HReq r _ => wire_reqline r | HResp r _ => wire_statline r end.
Definition lax_headers (hd : head) (w : list Z) : Prop :=
  exists ws e, Forall2 lax_hdr (hdrs_of hd) ws /\ empty_lines e /\ w = first_line_of hd ++ concat ws ++ e ++ CRLF.

(** a request line without version *)
Definition simple_line (r : reqline) : list Z := rl_method r ++ bs " " ++ rl_resource r ++ match rl_query r with Some q => bs "?" ++ q | None => [] end.
