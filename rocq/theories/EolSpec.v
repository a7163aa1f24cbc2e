(** Specification of line endings in a message head: CR LF, and what the parser takes for it. *)
From Coq Require Import String ZArith List Bool.
From Verif Require Import Base HttpModel HttpSpec.
Import ListNotations.

Inductive eol := EolCRLF | EolLF | EolCR | EolLFCR.
Definition eol_bytes (e : eol) : list Z := match e with EolCRLF => [13; 10] | EolLF => [10] | EolCR => [13] | EolLFCR => [10; 13] end.

(** lines without their endings *)
Definition request_start (r : reqline) : list Z :=
  rl_method r ++ bs " " ++ rl_resource r ++ match rl_query r with Some q => bs "?" ++ q | None => [] end
  ++ bs " " ++ wire_version (rl_version r).
Definition status_start (r : statline) : list Z := wire_version (sl_version r) ++ bs " " ++ sl_code r ++ bs " " ++ sl_reason r.
Definition header_start (p : hdr) : list Z := fst p ++ bs ": " ++ snd p.
Definition wire_hdrs_eol (l : list (hdr * eol)) : list Z := concat (map (fun x => header_start (fst x) ++ eol_bytes (snd x)) l).

(** a head whose first line ends in [e0], the headers in [es], the empty line in [ef] *)
Definition wire_head_eol (hd : head) (e0 : eol) (es : list eol) (ef : eol) : list Z :=
  match hd with HReq r _ => request_start r | HResp r _ => status_start r end
  ++ eol_bytes e0 ++ wire_hdrs_eol (combine (hdrs_of hd) es) ++ eol_bytes ef.

(** the empty line can be told from the line before it (ending in [e]) and from the bytes behind it *)
Definition end_ok (e ef : eol) (after : list Z) : Prop :=
  match e, ef with
  | (EolCRLF | EolLFCR), (EolCRLF | EolLFCR) => True
  | (EolCRLF | EolLFCR), EolCR => match after with x :: _ => x <> 10 | [] => False end
  | (EolCRLF | EolLFCR), EolLF => match after with x :: _ => x <> 13 | [] => False end
  | EolCR, EolCR | EolLF, EolLF => True
  | _, _ => False
  end.

(** the same message, result, error, unread bytes and payload handed out *)
Definition same_reading (a b : outcome (option presult)) : Prop :=
  match a, b with
  | Ok (Some x), Ok (Some y) => r_rc x = r_rc y /\ r_err x = r_err y /\ r_msg x = r_msg y /\ r_rest x = r_rest y
                                /\ (r_rc x <> TFalse -> p_payload (r_st x) = p_payload (r_st y))
  | Bad x, Bad y => x = y
  | _, _ => False
  end.
