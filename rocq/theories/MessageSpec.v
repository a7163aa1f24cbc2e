(** Specification of message serialisation: legal fields, and what a receiver is to see. *)
From Coq Require Import String ZArith List Bool Permutation.
From Verif Require Import Base DictModel HttpModel HttpSpec MessageModel.
Import ListNotations.

(** a decimal numeral of [n] *)
Definition numeral (n : Z) (s : list Z) : Prop := s <> [] /\ Forall is_dec s /\ dec_value s = n.

(** fields that HTTP allows and that are within the limits of the parser *)
Definition cookie_ok (c : list Z * list Z) : Prop := Forall value_char (fst c) /\ Forall value_char (snd c) /\ zlen (fst c) + zlen (snd c) <= 1000000.
Definition legal (o : omsg) : Prop :=
  let m := o_msg o in
  (if o_request o then
     m_method m <> [] /\ Forall token_char (m_method m) /\ zlen (m_method m) <= 1024
     /\ Forall uri_char (m_resource m) /\ zlen (m_resource m) <= 262144
     /\ Forall query_char (m_query_string m) /\ zlen (m_query_string m) <= 1048576 /\ 0 < m_vmaj m
   else 0 <= m_code m < 65536 /\ Forall text_char (m_reason m) /\ zlen (m_reason m) <= 1024)
  /\ 0 <= m_vmaj m < 65536 /\ 0 <= m_vmin m < 65536 /\ Forall hdr_ok (m_headers m) /\ Forall cookie_ok (m_cookies m).

(** [change_resource] leaves a first line made before it; every other operation keeps it in step *)
Definition keeps_line (x : mop) : Prop := match x with MsgChangeResource _ => False | _ => True end.

(** a response the receiver takes to have no body *)
Definition no_body_expected (receiver : msg) (o : omsg) : Prop :=
  o_request o = false /\ let c := m_code (o_msg o) in
  (m_req_method receiver = bs "HEAD" \/ 100 <= c <= 199 \/ c = 204 \/ c = 205 \/ c = 304).

(** the first line fields of the sent message *)
Definition same_first_line (request : bool) (a b : msg) : Prop :=
  m_vmaj a = m_vmaj b /\ m_vmin a = m_vmin b
  /\ if request then m_method a = m_method b /\ m_resource a = m_resource b /\ m_query_string a = m_query_string b
     else m_code a = m_code b /\ m_reason a = m_reason b.

(** the header line that carries a cookie *)
Definition cookie_line (request : bool) (c : list Z * list Z) : list Z :=
  if request then fst c ++ bs "=" ++ snd c else fst c ++ bs "=" ++ [34] ++ snd c ++ [34] ++ bs "; Version=1; Path=/".
Definition cookie_name (request : bool) : list Z := if request then bs "Cookie" else bs "Set-Cookie".

(** The headers the receiver sees: one Connection header, one header [len_name] (Content-Length or Transfer-Encoding) whose
    value satisfies [len_ok], and under every other name the values of the message, with the cookies added. *)
Definition headers_received (o : omsg) (keep_alive : bool) (len_name : list Z) (len_ok : list Z -> Prop) (hs : list hdr) : Prop :=
  values_of (bs "Connection") hs = [if keep_alive then bs "Keep-Alive" else bs "close"]
  /\ (exists v, values_of len_name hs = [v] /\ len_ok v)
  /\ forall name, same_name name (bs "Connection") = false -> same_name name len_name = false ->
     Permutation (values_of name hs)
       (values_of name (m_headers (o_msg o))
        ++ (if same_name name (cookie_name (o_request o)) then map (cookie_line (o_request o)) (m_cookies (o_msg o)) else [])).

(** the body is not taken for a multipart form *)
Definition not_multipart (m : msg) : Prop :=
  forall v, In v (values_of (bs "Content-Type") (m_headers m)) -> ~ exists t, v = bs "multipart/form-data" ++ t.

(** the text of a first line, from the fields of the message *)
Definition first_line_text (request : bool) (m : msg) (line : list Z) : Prop :=
  exists maj min code, numeral (m_vmaj m) maj /\ numeral (m_vmin m) min /\ numeral (m_code m) code /\
  line = if request then m_method m ++ bs " " ++ m_resource m ++ (match m_query_string m with [] => [] | q => bs "?" ++ q end) ++ bs " HTTP/" ++ maj ++ bs "." ++ min
         else bs "HTTP/" ++ maj ++ bs "." ++ min ++ bs " " ++ code ++ bs " " ++ m_reason m.
(** the first line of a head on the wire *)
Definition starts_with_line (line bytes : list Z) : Prop := exists rest, bytes = line ++ [13; 10] ++ rest.
