(** Specification of messages whose fields are what HTTP allows. *)
From Coq Require Import String ZArith List Bool.
From Verif Require Import Base HttpModel HttpSpec.
Import ListNotations.

(** no separators or control characters in the method and the names of headers, no blanks or control characters in the resource and the query string,
    no control characters in the status message and, tabs excepted, in the values of headers; all within the limits *)
Definition well_formed (m : msg) : Prop :=
  Forall token_char (m_method m) /\ Forall uri_char (m_resource m) /\ Forall query_char (m_query_string m) /\ Forall text_char (m_reason m)
  /\ Forall hdr_ok (m_headers m).
