(** Model of copies and assignments of messages: include/pion/http/message.hpp:104-142, http/response.hpp:55-60. *)
From Coq Require Import ZArith List Bool.
From Verif Require Import Base DictModel HttpModel MessageModel Threads.
Import ListNotations.

(** The copy constructors: of http::message (message.hpp:104-122), of http::response (response.hpp:55-60) and the one the compiler makes for
    http::request (request.hpp:27-164 declares none), member by member. The content buffer is copied as a value (message.hpp:510-517, see
    [BufferModel]); a copied container keeps the order of its elements. The remote address, the original resource and the user record
    are left out, as in [msg]. *)
Definition o_copy (o : omsg) : omsg :=
  let m := o_msg o in
  mkomsg (o_request o)
    {| m_valid := m_valid m; m_chunked := m_chunked m; m_vmaj := m_vmaj m; m_vmin := m_vmin m; m_clen := m_clen m; m_buf := m_buf m;
       m_cache := m_cache m; m_headers := m_headers m; m_cookies := m_cookies m; m_status := m_status m; m_missing := m_missing m;
       m_after := m_after m; m_method := m_method m; m_resource := m_resource m; m_query_string := m_query_string m;
       m_queries := m_queries m; m_code := m_code m; m_reason := m_reason m; m_req_method := m_req_method m |}
    (o_line o) (o_chunks o) (o_nolen o).

(** The assignment operators: of http::message (message.hpp:125-142) and those the compiler makes for the derived classes, whose own members
    follow (request.hpp:196-212, response.hpp:225-232). [same]: the message is assigned to itself; the buffer is then replaced by a new one
    of its size before it is copied (message.hpp:520-528), and every other member keeps its value. *)
Definition o_assign (same : bool) (dst src : omsg) : omsg :=
  let m := o_msg src in
  mkomsg (o_request dst)
    {| m_valid := m_valid m; m_chunked := m_chunked m; m_vmaj := m_vmaj m; m_vmin := m_vmin m; m_clen := m_clen m;
       m_buf := if same then map (fun _ => None) (m_buf m) else m_buf m;
       m_cache := m_cache m; m_headers := m_headers m; m_cookies := m_cookies m; m_status := m_status m; m_missing := m_missing m;
       m_after := m_after m; m_method := m_method m; m_resource := m_resource m; m_query_string := m_query_string m;
       m_queries := m_queries m; m_code := m_code m; m_reason := m_reason m; m_req_method := m_req_method m |}
    (o_line src) (o_chunks src) (o_nolen src).

(** A program with several messages: a new one, a copy of one, an assignment, a call. message.hpp:96-142 *)
Inductive sop := SNew (request : bool) | SCopy (j : nat) | SAssign (i j : nat) | SCall (i : nat) (x : mop).

(** One step; [None] if a message is not there or a request is assigned to a response, which does not compile. message.hpp:96-142 *)
Definition s_op (pos : dpos) (s : list omsg) (x : sop) : option (list omsg) :=
  match x with
  | SNew r => Some (s ++ [o_new r])
  | SCopy j => match nth_error s j with Some o => Some (s ++ [o_copy o]) | None => None end
  | SAssign i j => match nth_error s i, nth_error s j with
                   | Some d, Some o => if Bool.eqb (o_request d) (o_request o) then Some (set_nth i (o_assign (Nat.eqb i j) d o) s) else None
                   | _, _ => None
                   end
  | SCall i c => match nth_error s i with Some o => Some (set_nth i (msg_op pos o c) s) | None => None end
  end.
(** one after the other, message.hpp:96-142 *)
Fixpoint s_ops (pos : dpos) (s : list omsg) (l : list sop) : option (list omsg) :=
  match l with [] => Some s | x :: l' => match s_op pos s x with Some s' => s_ops pos s' l' | None => None end end.
