(** C32-C35, C82-C86: messages and the bytes they are sent as. *)
From Coq Require Import String ZArith List Bool Permutation.
From Verif Require Import Base DictModel HttpModel HttpSpec HttpFeeds MessageModel MessageSpec MessageProofs WriterModel WriterSpec WriterProofs.
Import ListNotations.

(** C32. A request or response made by any sequence of calls, also sent in between, and sent with [send]/[write]: however the
    bytes are cut and whatever follows, the parser returns the first line, headers, cookies and content of the message. *)
Theorem C32_round_trip pos request ops ka cf m body :
  let o := msg_ops pos (o_new request) ops in
  Forall keeps_line ops -> legal o -> o_nolen o = false ->
  content_of (o_msg o) = Ok body -> zlen body < two64 - 1 ->
  values_of (bs "Transfer-Encoding") (m_headers (o_msg o)) = [] -> not_multipart (o_msg o) ->
  storing cf -> cf_request cf = request -> zlen body <= cf_max cf ->
  m_headers m = [] -> m_missing m = false -> ~ no_body_expected m o ->
  exists bytes o', msg_send pos o ka false = Ok (bytes, o') /\
  forall pieces more, cut pieces (bytes ++ more) ->
  exists r, feed cf (p_init cf) m pieces = Ok (Some r) /\ r_rc r = TTrue /\ r_err r = None /\ r_rest r = more
    /\ m_valid (r_msg r) = true /\ content_of (r_msg r) = Ok body /\ same_first_line request (r_msg r) (o_msg o)
    /\ headers_received o ka (bs "Content-Length") (numeral (zlen body)) (m_headers (r_msg r)).
Proof. exact (message_round_trip pos request ops ka cf m body). Qed.
Print Assumptions C32_round_trip.
(** the same through [write] and [read] on a stream *)
Theorem C32_write_read pos request ops cf m body more :
  let o := msg_ops pos (o_new request) ops in
  Forall keeps_line ops -> legal o -> o_nolen o = false ->
  content_of (o_msg o) = Ok body -> zlen body < two64 - 1 ->
  values_of (bs "Transfer-Encoding") (m_headers (o_msg o)) = [] -> not_multipart (o_msg o) ->
  storing cf -> cf_request cf = request -> zlen body <= cf_max cf ->
  m_headers m = [] -> m_missing m = false -> ~ no_body_expected m o ->
  exists bytes o', msg_send pos o true false = Ok (bytes, o') /\
  exists m', msg_read cf m (bytes ++ more) = Ok (Some (false, m', more))
    /\ m_valid m' = true /\ content_of m' = Ok body /\ same_first_line request m' (o_msg o)
    /\ headers_received o true (bs "Content-Length") (numeral (zlen body)) (m_headers m').
Proof. exact (write_read_round_trip pos request ops cf m body more). Qed.
Print Assumptions C32_write_read.
Example C32_case : let o := msg_ops pos0 (o_new true) post_ops in
  Forall keeps_line post_ops /\ legal o /\ o_nolen o = false /\ content_of (o_msg o) = Ok (bs "hello") /\ values_of (bs "Transfer-Encoding") (m_headers (o_msg o)) = []
  /\ values_of (bs "X-A") (m_headers (o_msg o)) = [bs "1"; bs "2"] /\ m_cookies (o_msg o) = [(bs "id", bs "7")].
Proof.
  cbv zeta. split; [repeat constructor|]. split; [apply legalb_ok; vm_compute; reflexivity|]. vm_compute. auto.
Qed.
Example C32_case_wire : exists o', msg_send pos0 (msg_ops pos0 (o_new false) reply_ops) false false =
  Ok (bs "HTTP/1.1 404 Not Found" ++ CRLF ++ bs "Content-Type: text/html" ++ CRLF ++ bs "Connection: close" ++ CRLF ++ bs "Content-Length: 3" ++ CRLF
      ++ bs "Set-Cookie: id=" ++ [34] ++ bs "7" ++ [34] ++ bs "; Version=1; Path=/" ++ CRLF ++ CRLF ++ bs "<p>", o').
Proof. eexists. vm_compute. reflexivity. Qed.

(** C33. Chunked writing: for every sequence of payload calls cut into chunks, by a client or server that announced support. *)
Theorem C33_chunked_writer pos request mops life steps cf m body0 :
  let o := msg_ops pos (o_new request) mops in
  let content := body0 ++ steps_payload steps in
  Forall keeps_line mops -> legal o -> o_chunks o = true ->
  content_of (o_msg o) = Ok body0 -> no_nul body0 -> Forall step_ok steps -> zlen content < 9223372036854775808 ->
  not_multipart (o_msg o) -> storing cf -> cf_request cf = request -> zlen content <= cf_max cf ->
  m_headers m = [] -> m_missing m = false -> m_cache m = [] ->
  exists w, w_create o life = Ok w /\ w_life (w_ops pos w (chunked_ops steps)) = life /\
  forall pieces more, cut pieces (w_out (w_ops pos w (chunked_ops steps)) ++ more) ->
  exists r, feed cf (p_init cf) m pieces = Ok (Some r) /\ r_rc r = TTrue /\ r_err r = None /\ r_rest r = more
    /\ m_valid (r_msg r) = true /\ content_of (r_msg r) = Ok content /\ same_first_line request (r_msg r) (o_msg o)
    /\ headers_received o (keeps life) (bs "Transfer-Encoding") (eq (bs "chunked")) (m_headers (r_msg r)).
Proof. exact (chunked_round_trip pos request mops life steps cf m body0). Qed.
Print Assumptions C33_chunked_writer.
(** without [clear] between the chunks (which the interface asks for) earlier payload is sent again *)
Theorem C33_without_clear_refuted : let w := w_ops pos0 (w_respond (bs "GET") 1 1 LKeep) [WText (bs "a"); WSendChunk; WText (bs "b"); WSendFinal] in
  exists r, feed (cf_in false) (p_init (cf_in false)) msg_init [w_out w] = Ok (Some r) /\ r_rc r = TTrue /\ content_of (r_msg r) = Ok (bs "aab").
Proof. exact no_clear_example. Qed.
Print Assumptions C33_without_clear_refuted.
Example C33_case : let o := msg_ops pos0 (o_new false) (MsgChunks true :: reply_ops) in
  let steps := [SWrite (WText (bs "one")); SWrite (WBinary [0; 255]); SChunk; SChunk; SWrite (WNoCopy (bs "two"))] in
  legal o /\ o_chunks o = true /\ content_of (o_msg o) = Ok (bs "<p>") /\ no_nul (bs "<p>") /\ Forall step_ok steps /\ not_multipart (o_msg o)
  /\ exists w, w_create o LKeep = Ok w /\ exists head, w_out (w_ops pos0 w (chunked_ops steps)) =
     head ++ bs "8" ++ CRLF ++ bs "<p>one" ++ [0; 255] ++ CRLF ++ bs "3" ++ CRLF ++ bs "two" ++ CRLF ++ bs "0" ++ CRLF ++ CRLF.
Proof.
  cbv zeta. split; [apply legalb_ok; vm_compute; reflexivity|]. split; [reflexivity|]. split; [vm_compute; reflexivity|]. split; [intros t; discriminate|].
  split; [repeat constructor|]. split; [intros v H [t E]; vm_compute in H; destruct H as [H|[]]; subst v; discriminate|].
  eexists. split; [vm_compute; reflexivity|]. exists (firstn 142 (w_out (w_ops pos0 (w_new (msg_ops pos0 (o_new false) (MsgChunks true :: reply_ops)) LKeep true) [WSendFinal]))).
  vm_compute. reflexivity.
Qed.

(** C34. The announced length is the sent length exactly when something is sent or the message itself has no content length.
    (Missing from the full statement: a message whose content begins with NUL, and [clear] on a writer whose message has content.) *)
Theorem C34_length_partial pos w0 body0 l : created pos w0 body0 -> Forall is_setup l ->
  let w := w_ops pos w0 l in let body := collected body0 l in
  zlen body < two64 -> o_nolen (w_msg w) = false ->
  exists hd announced v, w_out (w_send pos w) = wire_head hd ++ body /\ values_of (bs "Content-Length") (hdrs_of hd) = [v] /\ numeral announced v
    /\ (announced = zlen body <-> body <> [] \/ m_clen (o_msg (w_msg w)) = 0).
Proof. exact (announced_length pos w0 body0 l). Qed.
Print Assumptions C34_length_partial.
Theorem C34_send_round_trip_partial pos w0 body0 l cf m : created pos w0 body0 -> Forall is_setup l ->
  let w := w_ops pos w0 l in let o := w_msg w in let body := collected body0 l in
  legal o -> o_nolen o = false -> body <> [] \/ m_clen (o_msg o) = 0 -> zlen body < two64 - 1 ->
  values_of (bs "Transfer-Encoding") (m_headers (o_msg o)) = [] -> not_multipart (o_msg o) ->
  storing cf -> cf_request cf = o_request o -> zlen body <= cf_max cf ->
  m_headers m = [] -> m_missing m = false -> ~ no_body_expected m o ->
  forall pieces more, cut pieces (w_out (w_send pos w) ++ more) ->
  exists r, feed cf (p_init cf) m pieces = Ok (Some r) /\ r_rc r = TTrue /\ r_err r = None /\ r_rest r = more
    /\ m_valid (r_msg r) = true /\ content_of (r_msg r) = Ok body /\ same_first_line (o_request o) (r_msg r) (o_msg o)
    /\ headers_received o (keeps (w_life w0)) (bs "Content-Length") (numeral (zlen body)) (m_headers (r_msg r)).
Proof. exact (writer_round_trip pos w0 body0 l cf m). Qed.
Print Assumptions C34_send_round_trip_partial.
Theorem C34_nul_refuted : exists w hd, w_create nul_response LKeep = Ok w /\ w_out (w_send pos0 w) = wire_head hd /\ values_of (bs "Content-Length") (hdrs_of hd) = [bs "3"].
Proof. exact nul_example. Qed.
Print Assumptions C34_nul_refuted.
Theorem C34_clear_refuted : let o := msg_ops pos0 (o_new false) [MsgContent (bs "abc")] in
  exists w hd, w_create o LKeep = Ok w /\ w_out (w_send pos0 (w_ops pos0 w [WClear])) = wire_head hd /\ values_of (bs "Content-Length") (hdrs_of hd) = [bs "3"].
Proof. exact clear_example. Qed.
Print Assumptions C34_clear_refuted.
Example C34_case : let l := [WText (bs "a"); WBinary [0; 1]; WMsg (MsgCode 201); WClear; WText (bs "bc"); WNoCopy (bs "d")] in
  created pos0 http10_writer [] /\ Forall is_setup l /\ collected [] l = bs "bcd" /\ legal (w_msg (w_ops pos0 http10_writer l)).
Proof.
  cbv zeta. split; [apply created_response|]. split; [repeat constructor|]. split; [reflexivity|]. apply legalb_ok. vm_compute. reflexivity.
Qed.

(** C35. If the first part of a message is sent with [send] or [send_chunk], then its head has a Content-Length, or says chunked,
    or the connection is closed after it and the head says so, whatever calls follow. (Missing from the full statement:
    [send_final_chunk] as the first call, and responses told not to send a length.) *)
Theorem C35_delimited_partial pos w0 body0 l x after : created pos w0 body0 -> Forall is_setup l -> x = WSend \/ x = WSendChunk ->
  let w := w_ops pos w0 l in
  zlen (collected body0 l) < two64 -> o_nolen (w_msg w) = false -> o_chunks (w_msg w) = w_chunks w ->
  exists hd rest, w_out (w_ops pos w (x :: after)) = wire_head hd ++ rest /\ delimited (hdrs_of hd) (w_life (w_ops pos w (x :: after))).
Proof. exact (delimited_writer pos w0 body0 l x after). Qed.
Print Assumptions C35_delimited_partial.
(** a client without chunks finds the content at the end of the connection *)
Theorem C35_close_partial pos mops life steps cf m body0 :
  let o := msg_ops pos (o_new false) mops in
  let content := body0 ++ steps_payload steps in
  Forall keeps_line mops -> legal o -> o_chunks o = false ->
  content_of (o_msg o) = Ok body0 -> no_nul body0 -> Forall step_ok steps -> In SChunk steps -> zlen content < two64 - 1 ->
  values_of (bs "Transfer-Encoding") (m_headers (o_msg o)) = [] -> values_of (bs "Content-Length") (m_headers (o_msg o)) = [] ->
  storing cf -> cf_request cf = false -> zlen content <= cf_max cf ->
  m_headers m = [] -> m_missing m = false -> ~ no_body_expected m o ->
  exists w, w_create o life = Ok w /\ w_life (w_ops pos w (chunked_ops steps)) = LClose /\
  forall pieces, cut pieces (w_out (w_ops pos w (chunked_ops steps))) ->
  exists r st m', feed cf (p_init cf) m pieces = Ok (Some r) /\ r_rc r = TIndet /\ r_err r = None /\ r_rest r = []
    /\ check_premature_eof cf (r_st r) (r_msg r) = Ok (false, st, m')
    /\ m_valid m' = true /\ content_of m' = Ok content /\ same_first_line false m' (o_msg o)
    /\ values_of (bs "Connection") (m_headers m') = [bs "close"]
    /\ forall name, same_name name (bs "Connection") = false -> Permutation (values_of name (m_headers m'))
       (values_of name (m_headers (o_msg o)) ++ (if same_name name (cookie_name false) then map (cookie_line false) (m_cookies (o_msg o)) else [])).
Proof. exact (unchunked_round_trip pos mops life steps cf m body0). Qed.
Print Assumptions C35_close_partial.
Theorem C35_final_chunk_refuted : let w := w_ops pos0 http10_writer [WText (bs "abc"); WSendFinal] in
  exists hd, w_out w = wire_head hd ++ bs "abc" /\ ~ delimited (hdrs_of hd) (w_life w).
Proof. exact final_example. Qed.
Print Assumptions C35_final_chunk_refuted.
Theorem C35_no_length_refuted : let w := w_ops pos0 http10_writer [WText (bs "abc"); WMsg MsgNoLength; WSend] in
  exists hd, w_out w = wire_head hd ++ bs "abc" /\ ~ delimited (hdrs_of hd) (w_life w).
Proof. exact nolen_example. Qed.
Print Assumptions C35_no_length_refuted.
Example C35_case : created pos0 http10_writer [] /\ Forall is_setup [WText (bs "abc"); WMsg (MsgContentType (bs "text/plain"))]
  /\ o_chunks (w_msg http10_writer) = w_chunks http10_writer /\ o_chunks (w_msg head_writer) = true
  /\ w_life (w_ops pos0 http10_writer [WText (bs "abc"); WSendChunk; WClear; WSendFinal]) = LClose.
Proof. split; [apply created_response|]. split; [repeat constructor|]. vm_compute. auto. Qed.

(** C82. The first line on the wire is made from the current fields, for every history of calls but [change_resource]
    (the redirect function of the server). *)
Theorem C82_first_line_partial pos request ops ka ch : Forall keeps_line ops ->
  let o := msg_ops pos (o_new request) ops in
  exists line, first_line_text request (o_msg o) line /\ starts_with_line line (fst (prepare_buffers pos o ka ch)).
Proof. exact (first_line_follows pos request ops ka ch). Qed.
Print Assumptions C82_first_line_partial.
Theorem C82_change_resource_refuted : m_resource (o_msg redirected) = bs "/b"
  /\ forall line, first_line_text true (o_msg redirected) line -> ~ starts_with_line line (fst (prepare_buffers pos0 redirected true false)).
Proof. exact stale_line_example. Qed.
Print Assumptions C82_change_resource_refuted.
Example C82_case : Forall keeps_line post_ops /\ exists rest, fst (prepare_buffers pos0 (msg_ops pos0 (o_new true) post_ops) true false) = bs "POST /form?a=b HTTP/1.1" ++ CRLF ++ rest.
Proof.
  split; [repeat constructor|]. exists (skipn 25 (fst (prepare_buffers pos0 (msg_ops pos0 (o_new true) post_ops) true false))). vm_compute. reflexivity.
Qed.

(** C83. Sending a message without cookies again sends the same bytes. *)
Theorem C83_resend_partial pos o ka ho bytes o' : m_cookies (o_msg o) = [] -> msg_send pos o ka ho = Ok (bytes, o') -> msg_send pos o' ka ho = Ok (bytes, o').
Proof. exact (send_again pos o ka ho bytes o'). Qed.
Print Assumptions C83_resend_partial.
Theorem C83_cookies_refuted : exists b1 o1 b2 o2, msg_send pos0 cookie_message true false = Ok (b1, o1) /\ msg_send pos0 o1 true false = Ok (b2, o2)
  /\ b1 <> b2 /\ length (values_of (bs "Set-Cookie") (m_headers (o_msg o1))) = 1%nat /\ length (values_of (bs "Set-Cookie") (m_headers (o_msg o2))) = 2%nat.
Proof. exact resend_example. Qed.
Print Assumptions C83_cookies_refuted.
Example C83_case : let o := msg_ops pos0 (o_new true) (post_ops ++ [MsgDeleteCookie (bs "ID")]) in
  m_cookies (o_msg o) = [] /\ exists b o', msg_send pos0 o false false = Ok (b, o').
Proof. cbv zeta. split; [vm_compute; reflexivity|]. do 2 eexists. vm_compute. reflexivity. Qed.

(** C84. A request written in chunks by request_writer with its default settings is not read back: the content is lost and its
    bytes are left over. (With [set_chunks_supported(true)] on the request C33 applies.) *)
Theorem C84_request_chunks_refuted : let steps := [SWrite (WText (bs "abc")); SChunk] in
  let w := w_ops pos0 (w_new (o_new true) LKeep true) (chunked_ops steps) in
  exists r, feed (cf_in true) (p_init (cf_in true)) msg_init [w_out w] = Ok (Some r) /\ r_rc r = TTrue /\ content_of (r_msg r) = Ok []
    /\ r_rest r = bs "3" ++ [13; 10] ++ bs "abc" ++ [13; 10] ++ bs "0" ++ [13; 10; 13; 10].
Proof. exact request_chunks_example. Qed.
Print Assumptions C84_request_chunks_refuted.

(** C85. Copies of binary payload are freed with the writer, if [clear] was not called. *)
Theorem C85_copies_partial pos o life c l : ~ In WClear l -> w_destroy (w_ops pos (w_new o life c) l) = 0.
Proof. exact (no_leak pos o life c l). Qed.
Print Assumptions C85_copies_partial.
Theorem C85_clear_refuted : w_destroy (w_ops pos0 http10_writer [WBinary [1; 2]; WSendChunk; WClear; WBinary [3]; WSendFinal]) = 1.
Proof. exact leak_example. Qed.
Print Assumptions C85_clear_refuted.
Example C85_case : w_copies (w_ops pos0 http10_writer [WBinary [1; 2]; WText (bs "a"); WBinary [3]; WSend]) = 2.
Proof. vm_compute. reflexivity. Qed.

(** C86. A response that is to have no body (to HEAD, or by its status) leaves nothing behind it on the connection, if the
    handler writes no payload; payload is sent all the same. *)
Theorem C86_bodiless_partial pos w0 body0 l cf m : created pos w0 body0 -> Forall is_setup l ->
  let w := w_ops pos w0 l in let o := w_msg w in
  collected body0 l = [] -> legal o -> m_clen (o_msg o) < two64 ->
  values_of (bs "Transfer-Encoding") (m_headers (o_msg o)) = [] ->
  0 <= cf_max cf -> cf_request cf = o_request o -> m_headers m = [] -> m_missing m = false -> no_body_expected m o ->
  forall pieces more, cut pieces (w_out (w_send pos w) ++ more) ->
  exists r, feed cf (p_init cf) m pieces = Ok (Some r) /\ r_rc r = TTrue /\ r_err r = None /\ r_rest r = more
    /\ m_valid (r_msg r) = true /\ content_of (r_msg r) = Ok [] /\ same_first_line (o_request o) (r_msg r) (o_msg o).
Proof. exact (writer_bodiless pos w0 body0 l cf m). Qed.
Print Assumptions C86_bodiless_partial.
(** In general the payload is what is left behind. *)
Theorem C86_left_partial pos w0 body0 l cf m : created pos w0 body0 -> Forall is_setup l ->
  let w := w_ops pos w0 l in let o := w_msg w in let body := collected body0 l in
  legal o -> m_clen (o_msg o) < two64 -> zlen body < two64 - 1 ->
  values_of (bs "Transfer-Encoding") (m_headers (o_msg o)) = [] ->
  0 <= cf_max cf -> cf_request cf = o_request o -> m_headers m = [] -> m_missing m = false -> no_body_expected m o ->
  forall pieces more, cut pieces (w_out (w_send pos w) ++ more) ->
  exists r, feed cf (p_init cf) m pieces = Ok (Some r) /\ r_rc r = TTrue /\ r_err r = None /\ r_rest r = body ++ more
    /\ m_valid (r_msg r) = true /\ content_of (r_msg r) = Ok [] /\ same_first_line (o_request o) (r_msg r) (o_msg o).
Proof. exact (writer_left pos w0 body0 l cf m). Qed.
Print Assumptions C86_left_partial.
Theorem C86_head_refuted : let w := w_ops pos0 head_writer [WText (bs "abc"); WSend] in
  exists r, feed (cf_in false) (p_init (cf_in false)) (set_m_req_method (bs "HEAD") msg_init) [w_out w] = Ok (Some r) /\ r_rc r = TTrue /\ r_rest r = bs "abc".
Proof. exact head_example. Qed.
Print Assumptions C86_head_refuted.
Example C86_case : let l := [WMsg (MsgContentLength 42); WMsg (MsgContentType (bs "text/html"))] in
  created pos0 head_writer [] /\ Forall is_setup l /\ legal (w_msg (w_ops pos0 head_writer l)) /\ m_clen (o_msg (w_msg (w_ops pos0 head_writer l))) = 42
  /\ no_body_expected (set_m_req_method (bs "HEAD") msg_init) (w_msg (w_ops pos0 head_writer l)).
Proof.
  cbv zeta. split; [apply created_response|]. split; [repeat constructor|]. split; [apply legalb_ok; vm_compute; reflexivity|]. split; [reflexivity|].
  split; [reflexivity|]. left. reflexivity.
Qed.
