(** Specification of multipart/form-data bodies (RFC 7578). *)
From Coq Require Import String ZArith List.
From Verif Require Import Base HttpSpec.
Import ListNotations.

Definition no_eol (s : list Z) : Prop := ~ In 13 s /\ ~ In 10 s.
Definition occurs (p s : list Z) : Prop := exists a b, s = a ++ p ++ b.

(** a form field: name, further parameters of its disposition (such as a file name), content type, other part
    headers, value *)
Record field := {
  fd_name : list Z; fd_params : list Z; fd_type : option (list Z); fd_more : list (list Z * list Z); fd_value : list Z }.
Definition line (n v : list Z) : list Z := n ++ bs ": " ++ v ++ CRLF.
Definition disposition (f : field) : list Z := bs "form-data; name=" ++ [34] ++ fd_name f ++ [34] ++ fd_params f.
Definition part (boundary : list Z) (f : field) : list Z :=
  bs "--" ++ boundary ++ CRLF
  ++ line (bs "Content-Disposition") (disposition f)
  ++ match fd_type f with Some t => line (bs "Content-Type") t | None => [] end
  ++ List.concat (map (fun h => line (fst h) (snd h)) (fd_more f))
  ++ CRLF ++ fd_value f ++ CRLF.
Definition form_body (boundary : list Z) (fs : list field) (epilogue : list Z) : list Z :=
  List.concat (map (part boundary) fs) ++ bs "--" ++ boundary ++ bs "--" ++ epilogue.

Definition text_ok (s : list Z) : Prop := s <> [] /\ no_eol s /\ hd 0 s <> 32.
Definition field_ok (boundary : list Z) (f : field) : Prop :=
  fd_name f <> [] /\ no_eol (fd_name f) /\ ~ In 34 (fd_name f) /\ no_eol (fd_params f)
  /\ match fd_type f with Some t => text_ok t | None => True end
  /\ Forall (fun h => fst h <> [] /\ no_eol (fst h) /\ ~ In 58 (fst h) /\ text_ok (snd h)
                      /\ same_name (fst h) (bs "Content-Type") = false /\ same_name (fst h) (bs "Content-Disposition") = false) (fd_more f)
  /\ ~ occurs (bs "--" ++ boundary) (fd_value f).
(** fields that are text, or do not say, keep their value; others become a data URL *)
Definition is_text (f : field) : bool := match fd_type f with Some t => same_name (firstn 5 t) (bs "text/") | None => true end.
