(** Properties of the HTTP parser (C15-C31, C75, C81). Definitions used in the statements: HttpModel.v ([parse],
    [p_init], [p_reset], [content_of]), HttpSpec.v (wire format, [reach], [feed], [cut], [finished], [streamed]). *)
From Coq Require Import String ZArith Lia List Permutation.
From Verif Require Import Base DictModel HttpModel HttpSpec DictSpec HttpProofs HttpLimits HttpTooLong HttpReset HttpStatus HttpBody HttpFeeds DictProofs HttpExamples EolSpec HttpEol.
Import ListNotations.

(** C15. [do_ops] runs a history of add / change / delete, [values_after] is what it is to leave under a name;
    [pos] is where the hash container puts new entries. *)
Theorem C15_dictionary_history : forall pos ops name,
  let d := do_ops pos [] ops in let vs := values_after name [] ops in
  Permutation (values_of name d) vs
  /\ d_has d name = (match vs with [] => false | _ => true end)
  /\ (vs = [] -> d_get d name = []) /\ (vs <> [] -> In (d_get d name) vs)
  /\ Permutation (map snd (d_range d name)) vs.
Proof. exact dict_history. Qed.
Print Assumptions C15_dictionary_history.
Theorem C15_change_replaces_all : forall pos ops k v name, same_name k name = true ->
  d_get (do_ops pos [] (ops ++ [OpChange k v])) name = v
  /\ d_range (do_ops pos [] (ops ++ [OpChange k v])) name <> []
  /\ length (d_range (do_ops pos [] (ops ++ [OpChange k v])) name) = 1%nat.
Proof. exact dict_change. Qed.
Print Assumptions C15_change_replaces_all.
Example C15_case :
  let ops := [OpAdd (bs "Host") (bs "a"); OpAdd (bs "hOST") (bs "b"); OpAdd (bs "X") (bs "1"); OpChange (bs "HOST") (bs "c"); OpDelete (bs "x")] in
  values_after (bs "host") [] ops = [bs "c"] /\ values_after (bs "X") [] ops = []
  /\ do_ops (fun _ _ => 1%nat) [] ops = [(bs "Host", bs "c")].
Proof. vm_compute. auto. Qed.

(** C16 *)
Theorem C16_segmentation_independence : forall cf st m pieces, 0 <= cf_max cf -> reach any_msg true cf st m ->
  pieces <> [] -> Forall (fun s => s <> []) pieces ->
  same_outcome (feed cf st m pieces) (parse cf st m (concat pieces)).
Proof. exact (segmentation any_msg true). Qed.
Print Assumptions C16_segmentation_independence.
Example C16_case : exists r, feed (ex_cf true false) (p_init (ex_cf true false)) ex_msg
    (map (fun c => [c]) (wire_head ex_post ++ bs "hello world" ++ bs "GET")) = Ok (Some r)
  /\ r_rc r = TTrue /\ content_of (r_msg r) = Ok (bs "hello world") /\ r_rest r = bs "GET".
Proof. eexists. split; [vm_compute; reflexivity|]. vm_compute. auto. Qed.

(** C17 *)
Theorem C17_consumed_and_unread : forall cf st m s r, 0 <= cf_max cf -> reach any_msg true cf st m ->
  parse cf st m s = Ok (Some r) ->
  exists p, s = p ++ r_rest r /\ (r_rc r <> TFalse -> p_last (r_st r) = zlen p).
Proof. exact (parse_consumed any_msg true). Qed.
Print Assumptions C17_consumed_and_unread.
Theorem C17_following_bytes_untouched : forall cf st m s r more, 0 <= cf_max cf -> reach any_msg true cf st m ->
  parse cf st m s = Ok (Some r) -> r_rc r <> TIndet ->
  same_outcome (parse cf st m (s ++ more)) (Ok (Some (mkpres (r_rc r) (r_err r) (r_st r) (r_msg r) (r_rest r ++ more)))).
Proof. exact (parse_extend any_msg true). Qed.
Print Assumptions C17_following_bytes_untouched.
Example C17_case : exists r, parse (ex_cf true false) (p_init (ex_cf true false)) ex_msg (wire_head ex_get ++ bs "POST /") = Ok (Some r)
  /\ r_rc r = TTrue /\ r_rest r = bs "POST /" /\ p_last (r_st r) = zlen (wire_head ex_get).
Proof. eexists. split; [vm_compute; reflexivity|]. vm_compute. auto. Qed.

(** C18 *)
Theorem C18_content_length_body : forall cf m hd pieces, m_headers m = [] -> m_missing m = false -> head_ok cf hd ->
  forall v body more, storing cf -> ~ bodiless m hd -> no_chunks hd ->
  values_of (bs "Content-Length") (hdrs_of hd) = [v] -> v <> [] -> Forall is_dec v -> dec_value v = zlen body ->
  zlen body <= cf_max cf -> zlen body < two64 - 1 -> no_multipart hd ->
  cut pieces (wire_head hd ++ body ++ more) ->
  finished hd (feed cf (p_init cf) m pieces) body (hdrs_of hd) more.
Proof. exact feed_length. Qed.
Print Assumptions C18_content_length_body.
Example C18_case : head_ok (ex_cf true false) ex_post /\ storing (ex_cf true false) /\ ~ bodiless ex_msg ex_post
  /\ values_of (bs "Content-Length") (hdrs_of ex_post) = [bs "11"] /\ dec_value (bs "11") = zlen (bs "hello world")
  /\ no_chunks ex_post /\ no_multipart ex_post
  /\ cut [wire_head ex_post; bs "hello"; bs " worldGET"] (wire_head ex_post ++ bs "hello world" ++ bs "GET").
Proof.
  split; [apply ex_post_ok|]. split; [apply ex_storing|]. split; [exact (fun x => x)|].
  repeat (split; [vm_compute; reflexivity|]). split; [apply no_te; reflexivity|]. split.
  - intros v H. vm_compute in H. destruct H as [<-|[]]. intros [t E]. vm_compute in E. discriminate.
  - split; [repeat constructor; vm_compute; discriminate|vm_compute; reflexivity].
Qed.

(** C19, with trailers, chunk extensions and any way of writing the sizes *)
Theorem C19_chunked_body : forall cf m hd pieces, m_headers m = [] -> m_missing m = false -> head_ok cf hd ->
  forall v l size ext tr more, storing cf -> m_cache m = [] ->
  values_of (bs "Transfer-Encoding") (hdrs_of hd) = [v] -> says_chunked v ->
  Forall chunk_ok l -> last_ok size ext -> zlen (chunk_data l) <= cf_max cf -> zlen (chunk_data l) < two64 - 1 -> Forall hdr_ok tr ->
  (forall v, In v (values_of (bs "Content-Type") (tr ++ hdrs_of hd)) -> ~ exists t, v = bs "multipart/form-data" ++ t) ->
  cut pieces (wire_head hd ++ wire_chunks l size ext tr ++ more) ->
  finished hd (feed cf (p_init cf) m pieces) (chunk_data l) (tr ++ hdrs_of hd) more.
Proof. exact feed_chunked. Qed.
Print Assumptions C19_chunked_body.
Example C19_case : head_ok (ex_cf true false) ex_chunked /\ says_chunked (bs "Chunked") /\ Forall chunk_ok ex_chunks /\ last_ok (bs "0") []
  /\ chunk_data ex_chunks = bs "hello0123456789" /\ values_of (bs "Transfer-Encoding") (hdrs_of ex_chunked) = [bs "Chunked"].
Proof.
  split; [apply ex_chunked_ok|]. split; [apply ex_says|]. split; [apply ex_chunks_ok|]. split; [apply ex_last_ok|]. split; vm_compute; reflexivity.
Qed.

(** C20 is false of the code: every chunked message whose body exceeds the maximum is never finished and never
    refused, and all that follows is swallowed. *)
Theorem C20_oversized_chunked_refuted : forall cf m hd pieces, m_headers m = [] -> m_missing m = false -> head_ok cf hd ->
  forall v l more, storing cf -> m_cache m = [] ->
  values_of (bs "Transfer-Encoding") (hdrs_of hd) = [v] -> says_chunked v ->
  Forall chunk_ok l -> cf_max cf < zlen (chunk_data l) ->
  cut pieces (wire_head hd ++ concat (map wire_chunk l) ++ more) ->
  exists r, feed cf (p_init cf) m pieces = Ok (Some r) /\ r_rc r = TIndet /\ r_err r = None /\ r_rest r = [].
Proof. exact feed_oversized. Qed.
Print Assumptions C20_oversized_chunked_refuted.
(** C20, the part that holds: within the maximum a chunked body is parsed to its end. *)
Theorem C20_chunked_within_maximum_partial : forall cf m hd pieces, m_headers m = [] -> m_missing m = false -> head_ok cf hd ->
  forall v l size ext tr more, storing cf -> m_cache m = [] ->
  values_of (bs "Transfer-Encoding") (hdrs_of hd) = [v] -> says_chunked v ->
  Forall chunk_ok l -> last_ok size ext -> zlen (chunk_data l) <= cf_max cf -> zlen (chunk_data l) < two64 - 1 -> Forall hdr_ok tr ->
  (forall v, In v (values_of (bs "Content-Type") (tr ++ hdrs_of hd)) -> ~ exists t, v = bs "multipart/form-data" ++ t) ->
  cut pieces (wire_head hd ++ wire_chunks l size ext tr ++ more) ->
  finished hd (feed cf (p_init cf) m pieces) (chunk_data l) (tr ++ hdrs_of hd) more.
Proof. exact feed_chunked. Qed.
Print Assumptions C20_chunked_within_maximum_partial.
Example C20_case : let cf := {| cf_request := true; cf_max := 9; cf_headers_only := false; cf_save_raw := false; cf_handler := false; cf_pos := fun _ _ => 0%nat |} in
  storing cf /\ head_ok cf ex_chunked /\ Forall chunk_ok ex_chunks /\ cf_max cf < zlen (chunk_data ex_chunks).
Proof. split; [repeat split; vm_compute; auto; discriminate|]. split; [exact (ex_chunked_ok false)|]. split; [apply ex_chunks_ok|]. vm_compute. reflexivity. Qed.

(** C21: chunks collected so far, the recorded length and the content a caller can read *)
Theorem C21_content_bounded : forall cf st m l, 0 <= cf_max cf < two64 - 1 -> reach new_msg false cf st m ->
  zlen (m_cache m) <= cf_max cf /\ m_clen m <= cf_max cf /\ (content_of m = Ok l -> zlen l <= cf_max cf).
Proof. exact reach_content. Qed.
Print Assumptions C21_content_bounded.
Example C21_case : let cf := {| cf_request := true; cf_max := 5; cf_headers_only := false; cf_save_raw := false; cf_handler := false; cf_pos := fun _ _ => 0%nat |} in
  new_msg ex_msg /\ exists r, parse cf (p_init cf) ex_msg (wire_head ex_post ++ bs "hello world") = Ok (Some r)
    /\ reach new_msg false cf (r_st r) (r_msg r) /\ r_rc r = TTrue /\ content_of (r_msg r) = Ok (bs "hello").
Proof.
  intros cf. split; [repeat split|].
  assert (match parse cf (p_init cf) ex_msg (wire_head ex_post ++ bs "hello world") with
          | Ok (Some r) => r_rc r = TTrue /\ content_of (r_msg r) = Ok (bs "hello") | _ => False end) as H by (vm_compute; auto).
  destruct (parse cf (p_init cf) ex_msg (wire_head ex_post ++ bs "hello world")) as [[r|]|] eqn:E; try contradiction.
  exists r. split; [reflexivity|]. split; [|exact H].
  apply (reach_parse new_msg false cf (p_init cf) ex_msg (wire_head ex_post ++ bs "hello world") r);
    [apply reach_new; repeat split|vm_compute; discriminate|exact E].
Qed.

(** C22 *)
Theorem C22_fields_within_limits : forall cf st m, 0 <= cf_max cf -> reach within_limits true cf st m -> within_limits m.
Proof. exact (fun cf st m H R => proj2 (reach_lim true cf st m H R)). Qed.
Print Assumptions C22_fields_within_limits.
Theorem C22_longer_ones_rejected : forall cf m p e more pieces, 0 <= cf_max cf -> too_long cf p e ->
  Forall (fun s => s <> []) pieces -> concat pieces = p ++ more ->
  exists r, feed cf (p_init cf) m pieces = Ok (Some r) /\ r_rc r = TFalse /\ r_err r = Some e.
Proof. exact too_long_feed. Qed.
Print Assumptions C22_longer_ones_rejected.
Example C22_case : too_long (ex_cf true false) (repeat 65 1025) E_METHOD_SIZE /\ too_long (ex_cf false false) (wire_statline {| sl_version := v11; sl_code := bs "200"; sl_reason := bs "OK" |} ++ wire_hdrs [(bs "Server", bs "pion")] ++ repeat 65 1025) E_HEADER_NAME_SIZE.
Proof.
  assert (Forall token_char (repeat 65 1025)) as F.
  { apply Forall_forall. intros x H. apply repeat_spec in H. subst. split; [split; vm_compute; discriminate|vm_compute; intuition discriminate]. }
  split.
  - apply TL_method; auto; vm_compute; reflexivity.
  - apply (TL_name (ex_cf false false) ex_200); auto; [apply ex_200_ok|vm_compute; reflexivity].
Qed.

(** C23: outcomes [Bad BadMemory] (access outside the supplied buffer or the content buffer, or use of bytes never written)
    and [Ok None] (no end) are not possible. [Bad BadException] stands for the multipart form parser leaving its input
    (see C72); it needs a request parser that stores bodies. *)
Theorem C23_memory_safety : forall cf st m s, 0 <= cf_max cf < two64 - 1 -> reach new_msg false cf st m -> s <> [] ->
  (exists r, parse cf st m s = Ok (Some r))
  \/ parse cf st m s = Bad BadException /\ cf_request cf = true /\ cf_handler cf = false /\ cf_headers_only cf = false.
Proof. exact parse_safe_total. Qed.
Print Assumptions C23_memory_safety.
Theorem C23_payload_blocks_inside_buffer : forall cf k ca pa c s n k' ca' pa',
  k_char cf k ca pa c s = KCont n k' ca' pa' -> (1 <= n <= S (length s))%nat.
Proof. exact k_char_within. Qed.
Print Assumptions C23_payload_blocks_inside_buffer.
Example C23_case : reach new_msg false (ex_cf true false) (p_init (ex_cf true false)) ex_msg
  /\ exists k' pa', k_char (ex_cf true true) {| k_state := KChunk; k_size_str := bs "5"; k_size := 5; k_read := 2 |} [] (bs "he") 108 (bs "lo") = KCont 3 k' [] pa' /\ pa' = bs "hello".
Proof. split; [apply reach_new; repeat split|]. do 2 eexists. split; vm_compute; reflexivity. Qed.

(** C24 is false of the code for the largest maximum, which the library uses by default when it reads a message
    into an object; below it, it holds ([C23_memory_safety]). *)
Theorem C24_huge_content_length_refuted : forall cf m hd v more, cf_max cf = two64 - 1 -> cf_headers_only cf = false -> head_ok cf hd ->
  m_headers m = [] -> m_missing m = false ->
  ~ bodiless m hd -> no_chunks hd ->
  values_of (bs "Content-Length") (hdrs_of hd) = [v] -> (v = bs "-1" \/ v = bs "18446744073709551615") ->
  parse cf (p_init cf) m (wire_head hd ++ more) = Bad BadMemory.
Proof. exact wrapping_length. Qed.
Print Assumptions C24_huge_content_length_refuted.
(** C24, the part that holds: with any smaller maximum no header value and no input at all leads outside a buffer. *)
Theorem C24_smaller_maximum_partial : forall cf st m s, 0 <= cf_max cf < two64 - 1 -> reach new_msg false cf st m -> s <> [] ->
  parse cf st m s <> Bad BadMemory.
Proof. exact parse_no_memory_error. Qed.
Print Assumptions C24_smaller_maximum_partial.
Example C24_case : let cf := {| cf_request := true; cf_max := two64 - 1; cf_headers_only := false; cf_save_raw := false; cf_handler := false; cf_pos := fun _ _ => 0%nat |} in
  head_ok cf ex_huge /\ values_of (bs "Content-Length") (hdrs_of ex_huge) = [bs "-1"] /\ parse cf (p_init cf) ex_msg (wire_head ex_huge) = Bad BadMemory.
Proof. split; [apply ex_huge_ok; reflexivity|]. split; vm_compute; reflexivity. Qed.

(** C25, C27 *)
Theorem C25_error_iff_false : forall cf st m s, 0 <= cf_max cf -> reach any_msg true cf st m ->
  match parse cf st m s with
  | Ok (Some r) => (r_rc r = TFalse <-> r_err r <> None) /\ (r_rc r = TIndet -> r_rest r = [])
  | Ok None => False
  | Bad _ => True
  end.
Proof. exact (parse_result any_msg true). Qed.
Print Assumptions C25_error_iff_false.
Theorem C25_status : forall cf st m s r, parse cf st m s = Ok (Some r) ->
  (r_rc r = TTrue -> m_valid (r_msg r) = true /\ m_status (r_msg r) = if m_missing m then STATUS_PARTIAL else STATUS_OK)
  /\ (r_rc r = TFalse -> m_status (r_msg r) = if m_missing m then STATUS_PARTIAL else STATUS_TRUNCATED).
Proof. exact parse_status. Qed.
Print Assumptions C25_status.
Example C25_case : exists r, parse (ex_cf true false) (p_init (ex_cf true false)) ex_msg (bs "GET /[" ++ [1] ++ bs " HTTP") = Ok (Some r)
  /\ r_rc r = TFalse /\ r_err r = Some E_URI_CHAR /\ m_status (r_msg r) = STATUS_TRUNCATED.
Proof. eexists. split; [vm_compute; reflexivity|]. vm_compute. auto. Qed.

(** C26 *)
Theorem C26_reset_is_fresh : forall cf st m pieces,
  match feed cf (p_reset cf st) m pieces, feed cf (p_init cf) m pieces with
  | Ok (Some x), Ok (Some y) =>
    r_rc x = r_rc y /\ r_err x = r_err y /\ r_msg x = r_msg y /\ r_rest x = r_rest y
    /\ p_payload (r_st x) = p_payload (r_st y) /\ p_total (r_st x) = p_total (r_st y)
    /\ p_content_read (r_st x) = p_content_read (r_st y) /\ h_raw (p_h (r_st x)) = h_raw (p_h (r_st y))
  | Ok None, Ok None => True
  | Bad x, Bad y => x = y
  | _, _ => False
  end.
Proof. exact reset_fresh. Qed.
Print Assumptions C26_reset_is_fresh.
Example C26_case : exists r, parse (ex_cf true false) (p_init (ex_cf true false)) ex_msg (wire_head ex_chunked ++ bs "1f;x") = Ok (Some r)
  /\ p_reset (ex_cf true false) (r_st r) <> p_init (ex_cf true false).
Proof. eexists. split; [vm_compute; reflexivity|]. vm_compute. discriminate. Qed.

(** C27 *)
Theorem C27_unfinished_means_all_consumed : forall cf st m s r, 0 <= cf_max cf -> reach any_msg true cf st m ->
  parse cf st m s = Ok (Some r) -> r_rc r = TIndet -> r_rest r = [] /\ p_last (r_st r) = zlen s.
Proof. exact unfinished_consumed. Qed.
Print Assumptions C27_unfinished_means_all_consumed.
Example C27_case : exists r, parse (ex_cf true false) (p_init (ex_cf true false)) ex_msg (wire_head ex_post ++ bs "hel") = Ok (Some r)
  /\ r_rc r = TIndet.
Proof. eexists. split; [vm_compute; reflexivity|]. vm_compute. auto. Qed.

(** C28 is false of the code: with a payload handler every message with trailers ends before them. *)
Theorem C28_trailers_with_handler_refuted : forall cf m hd pieces, m_headers m = [] -> m_missing m = false -> head_ok cf hd ->
  forall v l size ext tr more, streaming cf -> m_cache m = [] -> m_buf m = [] ->
  values_of (bs "Transfer-Encoding") (hdrs_of hd) = [v] -> says_chunked v -> Forall chunk_ok l -> last_ok size ext -> Forall hdr_ok tr -> tr <> [] ->
  cut pieces (wire_head hd ++ wire_chunks l size ext tr ++ more) ->
  streamed hd (feed cf (p_init cf) m pieces) (chunk_data l) (hdrs_of hd) (wire_hdrs tr ++ CRLF ++ more).
Proof. exact feed_stream_trailers. Qed.
Print Assumptions C28_trailers_with_handler_refuted.
(** C28, the part that holds: messages without trailers. *)
Theorem C28_no_trailers_partial : forall cf m hd pieces, m_headers m = [] -> m_missing m = false -> head_ok cf hd ->
  forall v l size ext more, streaming cf -> m_cache m = [] -> m_buf m = [] ->
  values_of (bs "Transfer-Encoding") (hdrs_of hd) = [v] -> says_chunked v -> Forall chunk_ok l -> last_ok size ext ->
  cut pieces (wire_head hd ++ wire_chunks l size ext [] ++ more) ->
  streamed hd (feed cf (p_init cf) m pieces) (chunk_data l) (hdrs_of hd) more.
Proof. exact feed_stream_chunks. Qed.
Print Assumptions C28_no_trailers_partial.
Example C28_case : streaming (ex_cf true true) /\ exists r, parse (ex_cf true true) (p_init (ex_cf true true)) ex_msg
    (wire_head ex_chunked ++ wire_chunks ex_chunks (bs "0") [] [(bs "X", bs "y")] ++ bs "GET") = Ok (Some r)
  /\ r_rc r = TTrue /\ r_rest r = bs "X: y" ++ CRLF ++ CRLF ++ bs "GET".
Proof. split; [apply ex_streaming|]. eexists. split; [vm_compute; reflexivity|]. vm_compute. auto. Qed.

(** C29 *)
Theorem C29_handler_sees_length_body : forall cf m hd pieces, m_headers m = [] -> m_missing m = false -> head_ok cf hd ->
  forall v body more, streaming cf -> m_cache m = [] -> m_buf m = [] ->
  ~ bodiless m hd -> no_chunks hd ->
  values_of (bs "Content-Length") (hdrs_of hd) = [v] -> v <> [] -> Forall is_dec v -> dec_value v = zlen body ->
  zlen body < two64 - 1 ->
  cut pieces (wire_head hd ++ body ++ more) ->
  streamed hd (feed cf (p_init cf) m pieces) body (hdrs_of hd) more.
Proof. exact feed_stream_length. Qed.
Print Assumptions C29_handler_sees_length_body.
Theorem C29_handler_sees_chunked_body : forall cf m hd pieces, m_headers m = [] -> m_missing m = false -> head_ok cf hd ->
  forall v l size ext more, streaming cf -> m_cache m = [] -> m_buf m = [] ->
  values_of (bs "Transfer-Encoding") (hdrs_of hd) = [v] -> says_chunked v -> Forall chunk_ok l -> last_ok size ext ->
  cut pieces (wire_head hd ++ wire_chunks l size ext [] ++ more) ->
  streamed hd (feed cf (p_init cf) m pieces) (chunk_data l) (hdrs_of hd) more.
Proof. exact feed_stream_chunks. Qed.
Print Assumptions C29_handler_sees_chunked_body.
(** a response that ends with the connection *)
Theorem C29_handler_sees_rest : forall cf m hd pieces, m_headers m = [] -> m_missing m = false -> head_ok cf hd ->
  forall body, streaming cf -> cf_request cf = false ->
  ~ bodiless m hd -> no_chunks hd -> values_of (bs "Content-Length") (hdrs_of hd) = [] ->
  cut pieces (wire_head hd ++ body) ->
  exists r st m', feed cf (p_init cf) m pieces = Ok (Some r) /\ r_rc r = TIndet /\ r_err r = None /\ r_rest r = []
    /\ p_payload (r_st r) = body
    /\ check_premature_eof cf (r_st r) (r_msg r) = Ok (false, st, m')
    /\ m_valid m' = true /\ m_buf m' = [] /\ m_cache m' = [] /\ first_line hd m' /\ Permutation (hdrs_of hd) (m_headers m').
Proof. exact feed_stream_close. Qed.
Print Assumptions C29_handler_sees_rest.
Example C29_case : head_ok (ex_cf true true) ex_chunked /\ streaming (ex_cf true true) /\ exists r, feed (ex_cf true true) (p_init (ex_cf true true)) ex_msg
    (map (fun c => [c]) (wire_head ex_chunked ++ wire_chunks ex_chunks (bs "0") [] [] ++ bs "GET")) = Ok (Some r)
  /\ p_payload (r_st r) = bs "hello0123456789" /\ r_rest r = bs "GET".
Proof. split; [apply ex_chunked_ok|]. split; [apply ex_streaming|]. eexists. split; [vm_compute; reflexivity|]. vm_compute. auto. Qed.
Example C29_rest_case : head_ok (ex_cf false true) ex_200 /\ streaming (ex_cf false true) /\ ~ bodiless ex_msg ex_200 /\ exists r,
    feed (ex_cf false true) (p_init (ex_cf false true)) ex_msg [wire_head ex_200 ++ bs "he"; bs "llo"] = Ok (Some r)
  /\ r_rc r = TIndet /\ p_payload (r_st r) = bs "hello" /\ m_cache (r_msg r) = [].
Proof.
  split; [apply ex_200_ok|]. split; [apply ex_streaming|]. split; [vm_compute; intuition congruence|].
  eexists. split; [vm_compute; reflexivity|]. vm_compute. auto.
Qed.

(** C30, C31: first line and headers are part of [finished]. Requests here; responses in C75, messages with bodies in C18, C19. *)
Theorem C30_request_line_and_headers : forall cf m hd pieces, m_headers m = [] -> m_missing m = false -> head_ok cf hd ->
  forall more, 0 <= cf_max cf -> cf_headers_only cf = false -> cf_request cf = true ->
  no_chunks hd -> values_of (bs "Content-Length") (hdrs_of hd) = [] -> no_multipart hd ->
  cut pieces (wire_head hd ++ more) -> finished hd (feed cf (p_init cf) m pieces) [] (hdrs_of hd) more.
Proof. exact feed_request. Qed.
Print Assumptions C30_request_line_and_headers.
Theorem C31_headers_of_responses : forall cf m hd pieces, m_headers m = [] -> m_missing m = false -> head_ok cf hd ->
  forall body, storing cf -> cf_request cf = false ->
  ~ bodiless m hd -> no_chunks hd -> values_of (bs "Content-Length") (hdrs_of hd) = [] ->
  zlen body <= cf_max cf -> zlen body < two64 - 1 ->
  cut pieces (wire_head hd ++ body) ->
  exists r st m', feed cf (p_init cf) m pieces = Ok (Some r) /\ r_rc r = TIndet /\ r_err r = None /\ r_rest r = []
    /\ check_premature_eof cf (r_st r) (r_msg r) = Ok (false, st, m')
    /\ m_valid m' = true /\ content_of m' = Ok body /\ first_line hd m' /\ Permutation (hdrs_of hd) (m_headers m').
Proof. exact feed_close. Qed.
Print Assumptions C31_headers_of_responses.
Theorem C31_headers_of_requests : forall cf m hd pieces, m_headers m = [] -> m_missing m = false -> head_ok cf hd ->
  forall more, 0 <= cf_max cf -> cf_headers_only cf = false -> cf_request cf = true ->
  no_chunks hd -> values_of (bs "Content-Length") (hdrs_of hd) = [] -> no_multipart hd ->
  cut pieces (wire_head hd ++ more) -> finished hd (feed cf (p_init cf) m pieces) [] (hdrs_of hd) more.
Proof. exact feed_request. Qed.
Print Assumptions C31_headers_of_requests.
Example C30_case : head_ok (ex_cf true false) ex_get /\ exists r, parse (ex_cf true false) (p_init (ex_cf true false)) ex_msg (wire_head ex_get) = Ok (Some r)
  /\ m_method (r_msg r) = bs "GET" /\ m_resource (r_msg r) = bs "/a/b" /\ m_query_string (r_msg r) = bs "x=1&y=" /\ m_vmaj (r_msg r) = 1
  /\ m_headers (r_msg r) = [(bs "accept", []); (bs "Accept", bs "*/*"); (bs "Host", bs "example.org")].
Proof. split; [apply ex_get_ok|]. eexists. split; [vm_compute; reflexivity|]. vm_compute. auto. Qed.
Example C31_case : head_ok (ex_cf false false) ex_200 /\ storing (ex_cf false false) /\ ~ bodiless ex_msg ex_200
  /\ cut [wire_head ex_200 ++ bs "bo"; bs "dy"] (wire_head ex_200 ++ bs "body").
Proof.
  split; [apply ex_200_ok|]. split; [apply ex_storing|]. split; [|split; [repeat constructor; vm_compute; discriminate|vm_compute; reflexivity]].
  intros [H|[[H1 H2]|[H|[H|H]]]]; vm_compute in *; congruence.
Qed.

(** C75: with C18, C19 and [C31_headers_of_responses] (body up to the end of the connection). Not for bodiless responses whose transfer coding is chunked. *)
Theorem C75_bodiless_partial : forall cf m hd pieces, m_headers m = [] -> m_missing m = false -> head_ok cf hd ->
  forall more, 0 <= cf_max cf -> no_chunks hd -> bodiless m hd ->
  cut pieces (wire_head hd ++ more) -> finished hd (feed cf (p_init cf) m pieces) [] (hdrs_of hd) more.
Proof. exact feed_bodiless. Qed.
Print Assumptions C75_bodiless_partial.
(** These wait for chunks, and take what follows for them: the next response if it begins like one, here "1" of "1<CR><LF>x<CR><LF>0..." *)
Theorem C75_chunked_partial : forall cf m hd pieces, m_headers m = [] -> m_missing m = false -> head_ok cf hd ->
  forall v l size ext tr more, storing cf -> m_cache m = [] -> bodiless m hd ->
  values_of (bs "Transfer-Encoding") (hdrs_of hd) = [v] -> says_chunked v ->
  Forall chunk_ok l -> last_ok size ext -> zlen (chunk_data l) <= cf_max cf -> zlen (chunk_data l) < two64 - 1 -> Forall hdr_ok tr ->
  (forall v, In v (values_of (bs "Content-Type") (tr ++ hdrs_of hd)) -> ~ exists t, v = bs "multipart/form-data" ++ t) ->
  cut pieces (wire_head hd ++ wire_chunks l size ext tr ++ more) ->
  finished hd (feed cf (p_init cf) m pieces) (chunk_data l) (tr ++ hdrs_of hd) more.
Proof. intros. eapply feed_chunked; eauto. Qed.
Print Assumptions C75_chunked_partial.
Definition ex_304c : head := HResp {| sl_version := v11; sl_code := bs "304"; sl_reason := bs "Not Modified" |} [(bs "Transfer-Encoding", bs "chunked")].
Lemma ex_304c_ok : head_ok (ex_cf false false) ex_304c.
Proof. unfold head_ok, ex_304c. http_ok. Qed.
Theorem C75_bodiless_refuted : ~ forall cf m hd pieces more, m_headers m = [] -> m_missing m = false -> head_ok cf hd -> 0 <= cf_max cf -> bodiless m hd ->
  cut pieces (wire_head hd ++ more) -> finished hd (feed cf (p_init cf) m pieces) [] (hdrs_of hd) more.
Proof.
  intros H. destruct (H (ex_cf false false) ex_msg ex_304c [wire_head ex_304c] []) as (r & E & T & _).
  - reflexivity.
  - reflexivity.
  - apply ex_304c_ok.
  - vm_compute. discriminate.
  - right; right; right; right; vm_compute; reflexivity.
  - split; [constructor; [vm_compute; discriminate|constructor]|reflexivity].
  - assert (exists q, feed (ex_cf false false) (p_init (ex_cf false false)) ex_msg [wire_head ex_304c] = Ok (Some q) /\ r_rc q = TIndet) as (q & E2 & T2) by (eexists; split; vm_compute; reflexivity).
    rewrite E in E2. injection E2 as ->. rewrite T in T2. discriminate T2.
Qed.
Print Assumptions C75_bodiless_refuted.
Theorem C75_until_close : forall cf m hd pieces, m_headers m = [] -> m_missing m = false -> head_ok cf hd ->
  forall body, storing cf -> cf_request cf = false ->
  ~ bodiless m hd -> no_chunks hd -> values_of (bs "Content-Length") (hdrs_of hd) = [] ->
  zlen body <= cf_max cf -> zlen body < two64 - 1 ->
  cut pieces (wire_head hd ++ body) ->
  exists r st m', feed cf (p_init cf) m pieces = Ok (Some r) /\ r_rc r = TIndet /\ r_err r = None /\ r_rest r = []
    /\ check_premature_eof cf (r_st r) (r_msg r) = Ok (false, st, m')
    /\ m_valid m' = true /\ content_of m' = Ok body /\ first_line hd m' /\ Permutation (hdrs_of hd) (m_headers m').
Proof. exact feed_close. Qed.
Print Assumptions C75_until_close.
Example C75_case : head_ok (ex_cf false false) ex_304 /\ bodiless ex_msg ex_304 /\ exists r, parse (ex_cf false false) (p_init (ex_cf false false)) ex_msg (wire_head ex_304 ++ bs "HTTP/1.1") = Ok (Some r)
  /\ r_rc r = TTrue /\ r_rest r = bs "HTTP/1.1".
Proof.
  split; [apply ex_304_ok|]. split; [right; right; right; right; vm_compute; reflexivity|].
  eexists. split; [vm_compute; reflexivity|]. vm_compute. auto.
Qed.

(** C81: a head with other line endings is read like the one with CR LF, and what follows is untouched *)
Theorem C81_line_endings : forall cf m hd e0 es ef more, 0 <= cf_max cf -> head_ok cf hd -> List.length es = List.length (hdrs_of hd) ->
  end_ok (last es e0) ef more ->
  same_reading (parse cf (p_init cf) m (wire_head_eol hd e0 es ef ++ more)) (parse cf (p_init cf) m (wire_head hd ++ more)).
Proof. exact wire_head_eol_parse. Qed.
Print Assumptions C81_line_endings.
Example C81_case : head_ok (ex_cf true false) ex_post /\ end_ok EolLFCR EolCR (bs "hello world")
  /\ wire_head_eol ex_post EolLF [EolCR; EolLFCR] EolCR = bs "POST /p HTTP/1.1" ++ [10] ++ bs "content-LENGTH: 11" ++ [13] ++ bs "Content-Type: text/plain" ++ [10;13;13]
  /\ exists r, parse (ex_cf true false) (p_init (ex_cf true false)) ex_msg (wire_head_eol ex_post EolLF [EolCR; EolLFCR] EolCR ++ bs "hello world") = Ok (Some r)
  /\ r_rc r = TTrue /\ content_of (r_msg r) = Ok (bs "hello world").
Proof.
  split; [apply ex_post_ok|]. split; [vm_compute; discriminate|]. split; [vm_compute; reflexivity|].
  eexists. split; [vm_compute; reflexivity|]. vm_compute. auto.
Qed.
