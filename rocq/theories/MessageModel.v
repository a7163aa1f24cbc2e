(** Model of the sending side of http::message, http::request and http::response:
    include/pion/http/message.hpp, request.hpp, response.hpp, src/http_message.cpp, src/http_types.cpp. *)
From Coq Require Import String ZArith List Bool.
From Verif Require Import Base Digits DictModel HttpModel.
Import ListNotations.

(** A message with the members that only matter for sending (message.hpp:681-733): the cached first line,
    [m_chunks_supported], [m_do_not_send_content_length]. [o_request]: the object is an http::request. *)
Record omsg := mkomsg { o_request : bool; o_msg : msg; o_line : list Z; o_chunks : bool; o_nolen : bool }.
(** assignment to a member, http/message.hpp:681-733 *)
Definition o_with (o : omsg) (m : msg) : omsg := mkomsg (o_request o) m (o_line o) (o_chunks o) (o_nolen o).
(** the setters that call [clear_first_line] (message.hpp:670-673) *)
Definition o_change (o : omsg) (m : msg) : omsg := mkomsg (o_request o) m [] (o_chunks o) (o_nolen o).

(** message.hpp:96-101, request.hpp:36-40, response.hpp:36-67 *)
Definition o_new (request : bool) : omsg := mkomsg request msg_init [] false false.

(** message.hpp:149-165, request.hpp:46-54, response.hpp:73-78. The remote address and the user record are left out.
    A cleared request has an empty method. *)
Definition o_clear (o : omsg) : omsg :=
  mkomsg (o_request o) (if o_request o then set_m_method [] msg_init else msg_init) [] false false.

(** message.hpp:186-192 *)
Definition version_string (m : msg) : list Z := bs "HTTP/" ++ print_dec (m_vmaj m) ++ bs "." ++ print_dec (m_vmin m).

(** request.hpp:166-180, response.hpp:204-213 *)
Definition update_first_line (o : omsg) : list Z :=
  let m := o_msg o in
  if o_request o then
    m_method m ++ bs " " ++ m_resource m ++ match m_query_string m with [] => [] | q => bs "?" ++ q end ++ bs " " ++ version_string m
  else version_string m ++ bs " " ++ print_dec (m_code m) ++ bs " " ++ m_reason m.

(** message.hpp:266-270 *)
Definition get_first_line (o : omsg) : list Z * omsg :=
  match o_line o with
  | [] => let l := update_first_line o in (l, mkomsg (o_request o) (o_msg o) l (o_chunks o) (o_nolen o))
  | l => (l, o)
  end.

(** http/message.hpp:366-368 *)
Definition add_hdr (pos : dpos) (o : omsg) (name value : list Z) : omsg :=
  o_with o (set_m_headers (d_insert pos (m_headers (o_msg o)) (name, value)) (o_msg o)).
(** http/message.hpp:628-651 *)
Definition change_hdr (pos : dpos) (o : omsg) (name value : list Z) : omsg :=
  o_with o (set_m_headers (d_change pos (m_headers (o_msg o)) name value) (o_msg o)).

(** message.hpp:571-581 *)
Definition prepare_headers (pos : dpos) (o : omsg) (keep_alive using_chunks : bool) : omsg :=
  let o1 := change_hdr pos o HEADER_CONNECTION (if keep_alive then bs "Keep-Alive" else bs "close") in
  if using_chunks then
    if o_chunks o1 then change_hdr pos o1 HEADER_TRANSFER_ENCODING (bs "chunked") else o1
  else if negb (o_nolen o1) then change_hdr pos o1 HEADER_CONTENT_LENGTH (print_dec (m_clen (o_msg o1)))
  else o1.

(** src/http_types.cpp:127-147 without max_age *)
Definition set_cookie_header (name value path : list Z) : list Z :=
  name ++ bs "=" ++ [34] ++ value ++ [34] ++ bs "; Version=1" ++ match path with [] => [] | _ => bs "; Path=" ++ path end.

(** request.hpp:183-191, response.hpp:216-220 and 152-155 *)
Definition append_cookies (pos : dpos) (o : omsg) : omsg :=
  fold_left (fun o c =>
    if o_request o then add_hdr pos o HEADER_COOKIE (fst c ++ bs "=" ++ snd c)
    else add_hdr pos o HEADER_SET_COOKIE (set_cookie_header (fst c) (snd c) (bs "/"))) (m_cookies (o_msg o)) o.

(** message.hpp:588-598: the dictionary is written in the order in which it is visited *)
Definition header_lines (d : dict) : list Z := concat (map (fun p => fst p ++ bs ": " ++ snd p ++ [13; 10]) d) ++ [13; 10].

(** message.hpp:394-407. The write buffers are given as the bytes they refer to when they are sent: the strings they
    point to are not changed before that. *)
Definition prepare_buffers (pos : dpos) (o : omsg) (keep_alive using_chunks : bool) : list Z * omsg :=
  let o1 := prepare_headers pos o keep_alive using_chunks in
  let (line, o2) := get_first_line o1 in
  let o3 := append_cookies pos o2 in
  (line ++ [13; 10] ++ header_lines (m_headers (o_msg o3)), o3).

(** src/http_message.cpp:33-46 [send] ([keep_alive] of the connection) and 141-167 [write] ([keep_alive] true):
    the bytes written if no write fails. [get_content()] is never null. *)
Definition msg_send (pos : dpos) (o : omsg) (keep_alive headers_only : bool) : outcome (list Z * omsg) :=
  let (head, o') := prepare_buffers pos o keep_alive false in
  if negb headers_only && (0 <? m_clen (o_msg o')) then
    obind (content_of (o_msg o')) (fun body => Ok (head ++ body, o'))
  else Ok (head, o').

(** What a user can do to a message before and between sends. Requests have no status, responses no method; the model
    allows both on either. [MsgChunks]: [set_chunks_supported], [MsgNoLength]: [set_do_not_send_content_length],
    [MsgSend]: serialisation by [send]/[write] or by a writer. http/message.hpp:165-379, http/request.hpp:86-145, http/response.hpp:95-198 *)
Inductive mop :=
  | MsgMethod (s : list Z) | MsgResource (s : list Z) | MsgChangeResource (s : list Z) | MsgQueryString (s : list Z)
  | MsgCode (n : Z) | MsgReason (s : list Z) | MsgMajor (n : Z) | MsgMinor (n : Z)
  | MsgAddHeader (n v : list Z) | MsgChangeHeader (n v : list Z) | MsgDeleteHeader (n : list Z)
  | MsgAddCookie (n v : list Z) | MsgChangeCookie (n v : list Z) | MsgDeleteCookie (n : list Z)
  | MsgContent (s : list Z) | MsgClearContent | MsgContentType (s : list Z) | MsgContentLength (n : Z)
  | MsgChunks (b : bool) | MsgNoLength | MsgClear | MsgSend (keep_alive using_chunks : bool).

(** message.hpp:347-351, request.hpp:139-145: the buffer then holds exactly the content. (A string of 2^64-1 bytes
    does not exist, so the allocation size does not wrap.) *)
Definition set_content (s : list Z) (m : msg) : msg := set_m_buf (map Some s) (set_m_clen (zlen s) m).

(** request.hpp:87-120, response.hpp:109-118, message.hpp:249-263, 284-379. [MsgDeleteCookie] is [message::delete_cookie] (a response hides it). *)
Definition msg_op (pos : dpos) (o : omsg) (x : mop) : omsg :=
  let m := o_msg o in
  match x with
  | MsgMethod s => o_change o (set_m_method s m)
  | MsgResource s => o_change o (set_m_resource s m)
  | MsgChangeResource s => o_with o (set_m_resource s m)
  | MsgQueryString s => o_change o (set_m_query_string s m)
  | MsgCode n => o_change o (set_m_code (wrap32 n) m)
  | MsgReason s => o_change o (set_m_reason s m)
  | MsgMajor n => o_change o (set_m_vmaj (n mod 65536) m)
  | MsgMinor n => o_change o (set_m_vmin (n mod 65536) m)
  | MsgAddHeader n v => add_hdr pos o n v
  | MsgChangeHeader n v => change_hdr pos o n v
  | MsgDeleteHeader n => o_with o (set_m_headers (d_delete (m_headers m) n) m)
  | MsgAddCookie n v => o_with o (set_m_cookies (d_insert pos (m_cookies m) (n, v)) m)
  | MsgChangeCookie n v => o_with o (set_m_cookies (d_change pos (m_cookies m) n v) m)
  | MsgDeleteCookie n => o_with o (set_m_cookies (d_delete (m_cookies m) n) m)
  | MsgContent s => o_with o (set_content s m)
  | MsgClearContent => let m1 := set_content [] m in o_with o (set_m_headers (d_delete (m_headers m1) (bs "Content-Type")) m1)
  | MsgContentType s => change_hdr pos o (bs "Content-Type") s
  | MsgContentLength n => o_with o (set_m_clen (wrap64 n) m)
  | MsgChunks b => mkomsg (o_request o) m (o_line o) b (o_nolen o)
  | MsgNoLength => mkomsg (o_request o) m (o_line o) (o_chunks o) true
  | MsgClear => o_clear o
  | MsgSend ka ch => snd (prepare_buffers pos o ka ch)
  end.
(** one call after the other: http/message.hpp:165-379 *)
Definition msg_ops (pos : dpos) (o : omsg) (l : list mop) : omsg := fold_left (msg_op pos) l o.

(* ------------------------------------------------------------------ reading from a stream *)

(** src/http_message.cpp:184-221 [message::read] with the default parser, from a stream that holds [s]: the bytes are
    parsed one at a time until the parser is done. The result is the message, whether an error was reported (a parser error
    or the input/output error set at the end of the stream), and the bytes left in the stream. *)
Fixpoint read_loop (cf : pcfg) (st : pst) (m : msg) (s : list Z) : outcome (option (tri * bool * pst * msg * list Z)) :=
  match s with
  | [] => Ok (Some (TIndet, true, st, m, []))
  | c :: s' =>
    match parse cf st m [c] with
    | Ok (Some r) =>
      match r_rc r with
      | TIndet => read_loop cf (r_st r) (r_msg r) s'
      | rc => Ok (Some (rc, match r_err r with Some _ => true | None => false end, r_st r, r_msg r, s'))
      end
    | Ok None => Ok None
    | Bad b => Bad b
    end
  end.
(** On an empty stream [parse_result] keeps the value of a new [tribool], false. http_message.cpp:184-221 *)
Definition msg_read (cf : pcfg) (m : msg) (s : list Z) : outcome (option (bool * msg * list Z)) :=
  match s with
  | [] => Ok (Some (true, m, []))
  | _ =>
    match read_loop cf (p_init cf) m s with
    | Ok (Some (TIndet, e, st, m', rest)) =>
      obind (check_premature_eof cf st m') (fun x => match x with (premature, _, m2) => Ok (Some (premature, m2, rest)) end)
    | Ok (Some (_, e, st, m', rest)) => Ok (Some (e, m', rest))
    | Ok None => Ok None
    | Bad b => Bad b
    end
  end.
