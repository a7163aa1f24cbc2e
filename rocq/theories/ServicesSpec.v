(** Specification of the services: what their pages are to say. *)
From Coq Require Import String ZArith List Bool Permutation.
From Verif Require Import Base DictModel HttpModel HttpSpec MessageModel MessageSpec.
Import ListNotations.

(** the newest [n] of a list in order of age *)
Definition newest {A} (n : Z) (l : list A) : list A := skipn (length l - Z.to_nat n) l.

(** a line, a list of pairs, and a section of a page *)
Definition line (s : list Z) : list Z := s ++ [13; 10].
Definition pairs (l : list (list Z * list Z)) : list Z := concat (map (fun p => line (fst p ++ bs ": " ++ snd p)) l).
Definition section (title body : list Z) : list Z := line title ++ line [] ++ body.

(** the page that mirrors the request [m] with content [c] *)
Definition mirror (m : msg) (orig c : list Z) (user : option (list Z)) (page : list Z) : Prop :=
  exists maj min len, numeral (m_vmaj m) maj /\ numeral (m_vmin m) min /\ numeral (zlen c) len /\
  page = section (bs "[Request Echo]")
           (line (bs "Request method: " ++ m_method m) ++ line (bs "Resource originally requested: " ++ orig) ++ line (bs "Resource delivered: " ++ m_resource m)
            ++ line (bs "Query string: " ++ m_query_string m) ++ line (bs "HTTP version: " ++ maj ++ bs "." ++ min) ++ line (bs "Content length: " ++ len) ++ line [])
    ++ section (bs "[Request Headers]") (pairs (m_headers m) ++ line [])
    ++ section (bs "[Query Parameters]") (pairs (m_queries m) ++ line [])
    ++ section (bs "[Cookie Parameters]") (pairs (m_cookies m) ++ line [])
    ++ section (bs "[POST Content]") (match c with [] => [] | _ => line c ++ line [] end)
    ++ match user with None => [] | Some u => section (bs "[USER Info]") (line (bs "User authenticated, username: " ++ u)) end.

(** What a client reads: code, content and headers. The headers are those given and the two that say how long the content is and whether the connection is kept. *)
Definition page_read (r : msg) (code : Z) (body : list Z) (hs : list (list Z * list Z)) : Prop :=
  m_valid r = true /\ m_code r = code /\ content_of r = Ok body
  /\ (exists v, values_of (bs "Content-Length") (m_headers r) = [v] /\ numeral (zlen body) v)
  /\ (exists v, values_of (bs "Connection") (m_headers r) = [v] /\ In v [bs "Keep-Alive"; bs "close"])
  /\ forall n, same_name n (bs "Connection") = false -> same_name n (bs "Content-Length") = false -> Permutation (values_of n (m_headers r)) (values_of n hs).
