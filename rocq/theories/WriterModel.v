(** Model of http::writer with its two subclasses: include/pion/http/writer.hpp, response_writer.hpp, request_writer.hpp,
    src/http_writer.cpp. Writes on the connection succeed and are complete; handlers are the caller's next step. *)
From Coq Require Import String ZArith List Bool.
From Verif Require Import Base Digits DictModel HttpModel MessageModel.
Import ListNotations.

(** include/pion/tcp/connection.hpp:45-50 *)
Inductive lifecycle := LClose | LKeep | LPipelined.
(** connection.hpp:607-609 [get_keep_alive] *)
Definition keeps (l : lifecycle) : bool := match l with LClose => false | _ => true end.

(** writer.hpp:327-361 with the message of the subclass (response_writer.hpp:169, request_writer.hpp:161) and the
    connection: [w_life], [w_open], and [w_out], the bytes sent on it. [w_bufs]: the bytes that [m_content_buffers] refer
    to. [w_cache]: the number of copies in [m_binary_cache]; [w_copies]: the copies allocated and not freed. *)
Record wst := mkwst {
  w_msg : omsg; w_life : lifecycle; w_open : bool; w_out : list Z;
  w_bufs : list Z; w_stream : list Z; w_stream_empty : bool; w_len : Z;
  w_chunks : bool; w_chunking : bool; w_sent_headers : bool; w_cache : Z; w_copies : Z }.

(** writer.hpp:293-304 *)
Definition w_flush (w : wst) : wst :=
  if w_stream_empty w then w else
  match w_stream w with
  | [] => mkwst (w_msg w) (w_life w) (w_open w) (w_out w) (w_bufs w) [] true (w_len w) (w_chunks w) (w_chunking w) (w_sent_headers w) (w_cache w) (w_copies w)
  | s => mkwst (w_msg w) (w_life w) (w_open w) (w_out w) (w_bufs w ++ s) [] true (wrap64 (w_len w + zlen s))
           (w_chunks w) (w_chunking w) (w_sent_headers w) (w_cache w) (w_copies w)
  end.

(** writer.hpp:105-114 [write(T)]: [s] is what the data prints *)
Definition w_text (w : wst) (s : list Z) : wst :=
  mkwst (w_msg w) (w_life w) (w_open w) (w_out w) (w_bufs w) (w_stream w ++ s) false (w_len w) (w_chunks w) (w_chunking w) (w_sent_headers w) (w_cache w) (w_copies w).
(** writer.hpp:122-128 [write(data, length)] *)
Definition w_binary (w : wst) (s : list Z) : wst :=
  match s with [] => w | _ =>
    let w := w_flush w in
    mkwst (w_msg w) (w_life w) (w_open w) (w_out w) (w_bufs w ++ s) (w_stream w) (w_stream_empty w) (wrap64 (w_len w + zlen s))
      (w_chunks w) (w_chunking w) (w_sent_headers w) (w_cache w + 1) (w_copies w + 1)
  end.
(** writer.hpp:137-158 [write_no_copy]: the caller keeps the data in place *)
Definition w_no_copy (w : wst) (s : list Z) : wst :=
  match s with [] => w | _ =>
    let w := w_flush w in
    mkwst (w_msg w) (w_life w) (w_open w) (w_out w) (w_bufs w ++ s) (w_stream w) (w_stream_empty w) (wrap64 (w_len w + zlen s))
      (w_chunks w) (w_chunking w) (w_sent_headers w) (w_cache w) (w_copies w)
  end.
(** writer.hpp:91-98 [clear]: the vector of copies is emptied, the copies are freed by its destructor only (310-314) *)
Definition w_clear (w : wst) : wst :=
  mkwst (w_msg w) (w_life w) (w_open w) (w_out w) [] [] true 0 (w_chunks w) (w_chunking w) (w_sent_headers w) 0 (w_copies w).
(** writer.hpp:310-314: what is left allocated when the writer is destroyed *)
Definition w_destroy (w : wst) : Z := w_copies w - w_cache w.

(** response_writer.hpp:126-132, request_writer.hpp:118-124 *)
Definition w_head (pos : dpos) (w : wst) : list Z * omsg :=
  let o := if 0 <? w_len w then o_with (w_msg w) (set_m_clen (w_len w) (o_msg (w_msg w))) else w_msg w in
  prepare_buffers pos o (keeps (w_life w)) (w_chunking w).

(** writer.hpp:266-281 [send_more_data] and src/http_writer.cpp:21-74 [prepare_write_buffers]. The length of a chunk is
    cast to long and printed as unsigned long. Without a connection only the handler is told. *)
Definition w_send_more (pos : dpos) (w : wst) (final : bool) : wst :=
  if negb (w_open w) then w else
  let w := w_flush w in
  let (head, o) := if w_sent_headers w then ([], w_msg w) else w_head pos w in
  let chunked := w_chunks w && w_chunking w in
  let content :=
    if 0 <? w_len w then
      if chunked then print_hex (w_len w) ++ [13; 10] ++ w_bufs w ++ [13; 10] else w_bufs w
    else [] in
  let last := if final && chunked then bs "0" ++ [13; 10; 13; 10] else [] in
  mkwst o (w_life w) (w_open w) (w_out w ++ head ++ content ++ last) (w_bufs w) (w_stream w) (w_stream_empty w) (w_len w)
    (w_chunks w) (w_chunking w) true (w_cache w) (w_copies w).

(** writer.hpp:196-201, 219, 231 *)
Definition w_start_chunks (l : lifecycle) (w : wst) : wst :=
  mkwst (w_msg w) l (w_open w) (w_out w) (w_bufs w) (w_stream w) (w_stream_empty w) (w_len w)
    (w_chunks w) true (w_sent_headers w) (w_cache w) (w_copies w).
(** writer.hpp:166-182 *)
Definition w_send (pos : dpos) (w : wst) : wst := w_send_more pos w false.
(** writer.hpp:194-204 *)
Definition w_send_chunk (pos : dpos) (w : wst) : wst :=
  w_send_more pos (w_start_chunks (if w_chunks w then w_life w else LClose) w) false.
(** writer.hpp:217-233 *)
Definition w_send_final (pos : dpos) (w : wst) : wst := w_send_more pos (w_start_chunks (w_life w) w) true.

(** writer.hpp:52-57 on an open connection *)
Definition w_new (o : omsg) (life : lifecycle) (chunks : bool) : wst := mkwst o life true [] [] [] true 0 chunks false false 0 0.

(** response_writer.hpp:87-103 and request_writer.hpp:96-109: the writer of a message the caller made. [m_clen] bytes of the
    content are read, the first one first. *)
Definition w_create (o : omsg) (life : lifecycle) : outcome wst :=
  let w := w_new o life (if o_request o then true else o_chunks o) in
  if 0 <? m_clen (o_msg o) then
    match m_buf (o_msg o) with
    | Some c :: _ => if c =? 0 then Ok w else obind (content_of (o_msg o)) (fun s => Ok (w_no_copy w s))
    | _ => Bad BadMemory
    end
  else Ok w.

(** response.hpp:36-42, 95-106: a response made for a request *)
Definition response_to (method : list Z) (vmaj vmin : Z) : omsg :=
  let m := set_m_req_method method msg_init in
  if (vmaj =? 1) && (1 <=? vmin) then mkomsg false m [] true false
  else if vmaj =? 0 then mkomsg false (set_m_vmin 0 (set_m_vmaj 0 (set_m_reason [] (set_m_code 0 m)))) [] false false
  else mkomsg false m [] false false.
(** response_writer.hpp:111-117 *)
Definition w_respond (method : list Z) (vmaj vmin : Z) (life : lifecycle) : wst :=
  w_new (response_to method vmaj vmin) life (o_chunks (response_to method vmaj vmin)).

(** The calls a user can make. [WMsg] changes the message through [get_response()]/[get_request()]; [WSupports] is
    [supports_chunked_messages(bool)]. http/writer.hpp:91-233, http/response_writer.hpp:87-117 *)
Inductive wop := WText (s : list Z) | WBinary (s : list Z) | WNoCopy (s : list Z) | WClear | WMsg (x : mop) | WSupports (b : bool)
  | WSend | WSendChunk | WSendFinal.
(** http/writer.hpp:91-233, http/response_writer.hpp:87-117 *)
Definition w_op (pos : dpos) (w : wst) (x : wop) : wst :=
  match x with
  | WText s => w_text w s
  | WBinary s => w_binary w s
  | WNoCopy s => w_no_copy w s
  | WClear => w_clear w
  | WMsg x => mkwst (msg_op pos (w_msg w) x) (w_life w) (w_open w) (w_out w) (w_bufs w) (w_stream w) (w_stream_empty w) (w_len w)
                (w_chunks w) (w_chunking w) (w_sent_headers w) (w_cache w) (w_copies w)
  | WSupports b => mkwst (w_msg w) (w_life w) (w_open w) (w_out w) (w_bufs w) (w_stream w) (w_stream_empty w) (w_len w)
                b (w_chunking w) (w_sent_headers w) (w_cache w) (w_copies w)
  | WSend => w_send pos w
  | WSendChunk => w_send_chunk pos w
  | WSendFinal => w_send_final pos w
  end.
(** one call after the other: http/writer.hpp:91-233 *)
Definition w_ops (pos : dpos) (w : wst) (l : list wop) : wst := fold_left (w_op pos) l w.
