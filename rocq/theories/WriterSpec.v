(** Specification of the writer: what the receiver of the bytes is to see. *)
From Coq Require Import String ZArith List Bool.
From Verif Require Import Base DictModel HttpModel HttpSpec MessageModel MessageSpec WriterModel.
Import ListNotations.

(** the payload of a call *)
Definition payload (x : wop) : list Z := match x with WText s | WBinary s | WNoCopy s => s | _ => [] end.
Definition is_write (x : wop) : Prop := match x with WText _ | WBinary _ | WNoCopy _ => True | _ => False end.
(** calls before anything is sent: payload, [clear], and changes of the message other than [change_resource] *)
Definition is_setup (x : wop) : Prop := match x with WText _ | WBinary _ | WNoCopy _ | WClear => True | WMsg x => keeps_line x | _ => False end.
(** the payload collected by a sequence of calls that starts with [acc] *)
Fixpoint collected (acc : list Z) (l : list wop) : list Z :=
  match l with
  | [] => acc
  | WClear :: l => collected [] l
  | x :: l => collected (acc ++ payload x) l
  end.

(** a chunked message: the writer is cleared after each chunk, as writer.hpp:186-193 asks for *)
Inductive wstep := SWrite (x : wop) | SChunk.
Definition step_ops (s : wstep) : list wop := match s with SWrite x => [x] | SChunk => [WSendChunk; WClear] end.
Definition chunked_ops (l : list wstep) : list wop := concat (map step_ops l) ++ [WSendFinal].
Definition step_ok (s : wstep) : Prop := match s with SWrite x => is_write x | SChunk => True end.
Definition steps_payload (l : list wstep) : list Z := concat (map (fun s => match s with SWrite x => payload x | SChunk => [] end) l).

(** the content does not begin with a NUL byte *)
Definition no_nul (s : list Z) : Prop := forall t, s <> 0 :: t.

(** the head says where the body ends, or that the connection is closed at its end *)
Definition delimited (hs : list hdr) (life : lifecycle) : Prop :=
  (exists v n, values_of (bs "Content-Length") hs = [v] /\ numeral n v)
  \/ values_of (bs "Transfer-Encoding") hs = [bs "chunked"]
  \/ (values_of (bs "Connection") hs = [bs "close"] /\ life = LClose).

(** The writers a user can create, with the content they start with: for a message made by any history of calls (but
    [change_resource]) whose content does not begin with NUL, for a response to a request, for a new request. *)
Inductive created (pos : dpos) : wst -> list Z -> Prop :=
  | created_message request mops life w body : Forall keeps_line mops ->
      content_of (o_msg (msg_ops pos (o_new request) mops)) = Ok body -> no_nul body ->
      w_create (msg_ops pos (o_new request) mops) life = Ok w -> created pos w body
  | created_response method vmaj vmin life : created pos (w_respond method vmaj vmin life) []
  | created_request life : created pos (w_new (o_new true) life true) [].
