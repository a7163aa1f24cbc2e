(** Specification of first lines that are not legal HTTP but are read as if they were. *)
From Coq Require Import String ZArith List Bool.
From Verif Require Import Base HttpModel HttpSpec.
Import ListNotations.

Definition no_blanks (s : list Z) : list Z := filter (fun c => negb (c =? 32)) s.

(** Written instead of the version [v]: the first letter may be a CR or LF, the numbers are any that are the same modulo
    65536, and there may be blanks behind the first digit of the second number. The CR, the LF and the blanks only in requests. *)
Definition lax_version (request : bool) (v : version) (w : list Z) : Prop :=
  exists c a e b, w = c :: bs "TTP/" ++ a ++ bs "." ++ e :: b
    /\ (c = ch "H" \/ request = true /\ (c = 13 \/ c = 10))
    /\ a <> [] /\ Forall is_dec a /\ dec_value a mod 65536 = dec_value (v_maj v)
    /\ is_dec e /\ Forall (fun c => is_dec c \/ request = true /\ c = 32) b /\ dec_value (e :: no_blanks b) mod 65536 = dec_value (v_min v).

Definition request_target (r : reqline) : list Z :=
  rl_method r ++ bs " " ++ rl_resource r ++ match rl_query r with Some q => bs "?" ++ q | None => [] end ++ bs " ".
(** written instead of the head [hd]; also the status code may be any that is the same modulo 65536 *)
Definition lax_head (hd : head) (w : list Z) : Prop :=
  match hd with
  | HReq r l => exists u, lax_version true (rl_version r) u /\ w = request_target r ++ u ++ CRLF ++ wire_hdrs l ++ CRLF
  | HResp r l => exists u k, lax_version false (sl_version r) u /\ k <> [] /\ Forall is_dec k /\ dec_value k mod 65536 = dec_value (sl_code r)
      /\ w = u ++ bs " " ++ k ++ bs " " ++ sl_reason r ++ CRLF ++ wire_hdrs l ++ CRLF
  end.
