(** Model of the HTTP parser: src/http_parser.cpp, include/pion/http/parser.hpp, and of the message state it
    fills: include/pion/http/message.hpp, request.hpp, response.hpp. *)
From Coq Require Import String ZArith List Bool.
From Verif Require Import Base Digits AlgModel FormModel DictModel MultipartModel.
Import ListNotations.

(** [boost::tribool]; used as the result of http_parser.cpp:55-696 *)
Inductive tri := TTrue | TFalse | TIndet.

(** include/pion/http/parser.hpp:52-71 *)
Inductive perr :=
  | E_METHOD_CHAR | E_METHOD_SIZE | E_URI_CHAR | E_URI_SIZE | E_QUERY_CHAR | E_QUERY_SIZE | E_VERSION_EMPTY
  | E_VERSION_CHAR | E_STATUS_EMPTY | E_STATUS_CHAR | E_HEADER_CHAR | E_HEADER_NAME_SIZE | E_HEADER_VALUE_SIZE
  | E_INVALID_CONTENT_LENGTH | E_CHUNK_CHAR | E_MISSING_CHUNK_DATA | E_MISSING_HEADER_DATA | E_MISSING_TOO_MUCH_CONTENT.

(** src/http_parser.cpp:38-42 *)
Definition STATUS_MESSAGE_MAX : Z := 1024.
(** http_parser.cpp:39 *)
Definition METHOD_MAX : Z := 1024.
(** http_parser.cpp:40 *)
Definition RESOURCE_MAX : Z := 262144.
(** http_parser.cpp:41 *)
Definition QUERY_STRING_MAX : Z := 1048576.
(** http_parser.cpp:42 *)
Definition HEADER_NAME_MAX : Z := 1024.
(** http_parser.cpp:43 *)
Definition HEADER_VALUE_MAX : Z := 1048576.

(** src/http_types.cpp:31-35, 41, 53-54 *)
Definition HEADER_CONTENT_LENGTH : list Z := bs "Content-Length".
(** http_types.cpp:41 *)
Definition HEADER_TRANSFER_ENCODING : list Z := bs "Transfer-Encoding".
(** http_types.cpp:31 *)
Definition HEADER_COOKIE : list Z := bs "Cookie".
(** http_types.cpp:32 *)
Definition HEADER_SET_COOKIE : list Z := bs "Set-Cookie".
(** http_types.cpp:33 *)
Definition HEADER_CONNECTION : list Z := bs "Connection".
(** http_types.cpp:53 *)
Definition CONTENT_TYPE_URLENCODED : list Z := bs "application/x-www-form-urlencoded".
(** http_types.cpp:54 *)
Definition CONTENT_TYPE_MULTIPART : list Z := bs "multipart/form-data".

(** Outcome of code that may misbehave: a value, an access outside allocated memory (or of bytes never
    written), or an exception that escapes from the library. for all of http_parser.cpp:55-1661 *)
Inductive bad := BadMemory | BadException.
(** for all of http_parser.cpp:55-1661 *)
Inductive outcome (A : Type) := Ok (a : A) | Bad (b : bad).
Arguments Ok {A} a. Arguments Bad {A} b.
(** for all of http_parser.cpp:55-1661 *)
Definition obind {A B} (x : outcome A) (f : A -> outcome B) : outcome B :=
  match x with Ok a => f a | Bad b => Bad b end.

(** include/pion/http/message.hpp:87-93 *)
Inductive data_status := STATUS_NONE | STATUS_TRUNCATED | STATUS_PARTIAL | STATUS_OK.

(* ------------------------------------------------------------------ messages *)

(** The members of http::message (message.hpp:686-733), http::request and http::response that the parser uses.
    One record serves requests and responses; the first-line cache, the remote address, the copy of the
    original resource and the user record are left out. [m_buf] is the content buffer of [content_buffer_t]
    (message.hpp:501-563): one entry per allocated content byte, [None] for bytes never written. *)
Record msg := {
  m_valid : bool;
  m_chunked : bool;
  m_vmaj : Z;
  m_vmin : Z;
  m_clen : Z;
  m_buf : list (option Z);
  m_cache : list Z;
  m_headers : dict;
  m_cookies : dict;
  m_status : data_status;
  m_missing : bool;
  m_after : bool;
  m_method : list Z;
  m_resource : list Z;
  m_query_string : list Z;
  m_queries : dict;
  m_code : Z;
  m_reason : list Z;
  m_req_method : list Z }.
(** assignment to the member of http/message.hpp:690 *)
Definition set_m_valid (x : bool) (r : msg) : msg := {| m_valid := x; m_chunked := m_chunked r; m_vmaj := m_vmaj r; m_vmin := m_vmin r; m_clen := m_clen r; m_buf := m_buf r; m_cache := m_cache r; m_headers := m_headers r; m_cookies := m_cookies r; m_status := m_status r; m_missing := m_missing r; m_after := m_after r; m_method := m_method r; m_resource := m_resource r; m_query_string := m_query_string r; m_queries := m_queries r; m_code := m_code r; m_reason := m_reason r; m_req_method := m_req_method r |}.
(** assignment to the member of http/message.hpp:693 *)
Definition set_m_chunked (x : bool) (r : msg) : msg := {| m_valid := m_valid r; m_chunked := x; m_vmaj := m_vmaj r; m_vmin := m_vmin r; m_clen := m_clen r; m_buf := m_buf r; m_cache := m_cache r; m_headers := m_headers r; m_cookies := m_cookies r; m_status := m_status r; m_missing := m_missing r; m_after := m_after r; m_method := m_method r; m_resource := m_resource r; m_query_string := m_query_string r; m_queries := m_queries r; m_code := m_code r; m_reason := m_reason r; m_req_method := m_req_method r |}.
(** assignment to the member of http/message.hpp:705 *)
Definition set_m_vmaj (x : Z) (r : msg) : msg := {| m_valid := m_valid r; m_chunked := m_chunked r; m_vmaj := x; m_vmin := m_vmin r; m_clen := m_clen r; m_buf := m_buf r; m_cache := m_cache r; m_headers := m_headers r; m_cookies := m_cookies r; m_status := m_status r; m_missing := m_missing r; m_after := m_after r; m_method := m_method r; m_resource := m_resource r; m_query_string := m_query_string r; m_queries := m_queries r; m_code := m_code r; m_reason := m_reason r; m_req_method := m_req_method r |}.
(** assignment to the member of http/message.hpp:708 *)
Definition set_m_vmin (x : Z) (r : msg) : msg := {| m_valid := m_valid r; m_chunked := m_chunked r; m_vmaj := m_vmaj r; m_vmin := x; m_clen := m_clen r; m_buf := m_buf r; m_cache := m_cache r; m_headers := m_headers r; m_cookies := m_cookies r; m_status := m_status r; m_missing := m_missing r; m_after := m_after r; m_method := m_method r; m_resource := m_resource r; m_query_string := m_query_string r; m_queries := m_queries r; m_code := m_code r; m_reason := m_reason r; m_req_method := m_req_method r |}.
(** assignment to the member of http/message.hpp:711 *)
Definition set_m_clen (x : Z) (r : msg) : msg := {| m_valid := m_valid r; m_chunked := m_chunked r; m_vmaj := m_vmaj r; m_vmin := m_vmin r; m_clen := x; m_buf := m_buf r; m_cache := m_cache r; m_headers := m_headers r; m_cookies := m_cookies r; m_status := m_status r; m_missing := m_missing r; m_after := m_after r; m_method := m_method r; m_resource := m_resource r; m_query_string := m_query_string r; m_queries := m_queries r; m_code := m_code r; m_reason := m_reason r; m_req_method := m_req_method r |}.
(** assignment to the member of http/message.hpp:714 *)
Definition set_m_buf (x : list (option Z)) (r : msg) : msg := {| m_valid := m_valid r; m_chunked := m_chunked r; m_vmaj := m_vmaj r; m_vmin := m_vmin r; m_clen := m_clen r; m_buf := x; m_cache := m_cache r; m_headers := m_headers r; m_cookies := m_cookies r; m_status := m_status r; m_missing := m_missing r; m_after := m_after r; m_method := m_method r; m_resource := m_resource r; m_query_string := m_query_string r; m_queries := m_queries r; m_code := m_code r; m_reason := m_reason r; m_req_method := m_req_method r |}.
(** assignment to the member of http/message.hpp:717 *)
Definition set_m_cache (x : list Z) (r : msg) : msg := {| m_valid := m_valid r; m_chunked := m_chunked r; m_vmaj := m_vmaj r; m_vmin := m_vmin r; m_clen := m_clen r; m_buf := m_buf r; m_cache := x; m_headers := m_headers r; m_cookies := m_cookies r; m_status := m_status r; m_missing := m_missing r; m_after := m_after r; m_method := m_method r; m_resource := m_resource r; m_query_string := m_query_string r; m_queries := m_queries r; m_code := m_code r; m_reason := m_reason r; m_req_method := m_req_method r |}.
(** assignment to the member of http/message.hpp:720 *)
Definition set_m_headers (x : dict) (r : msg) : msg := {| m_valid := m_valid r; m_chunked := m_chunked r; m_vmaj := m_vmaj r; m_vmin := m_vmin r; m_clen := m_clen r; m_buf := m_buf r; m_cache := m_cache r; m_headers := x; m_cookies := m_cookies r; m_status := m_status r; m_missing := m_missing r; m_after := m_after r; m_method := m_method r; m_resource := m_resource r; m_query_string := m_query_string r; m_queries := m_queries r; m_code := m_code r; m_reason := m_reason r; m_req_method := m_req_method r |}.
(** assignment to the member of http/message.hpp:723 *)
Definition set_m_cookies (x : dict) (r : msg) : msg := {| m_valid := m_valid r; m_chunked := m_chunked r; m_vmaj := m_vmaj r; m_vmin := m_vmin r; m_clen := m_clen r; m_buf := m_buf r; m_cache := m_cache r; m_headers := m_headers r; m_cookies := x; m_status := m_status r; m_missing := m_missing r; m_after := m_after r; m_method := m_method r; m_resource := m_resource r; m_query_string := m_query_string r; m_queries := m_queries r; m_code := m_code r; m_reason := m_reason r; m_req_method := m_req_method r |}.
(** assignment to the member of http/message.hpp:726 *)
Definition set_m_status (x : data_status) (r : msg) : msg := {| m_valid := m_valid r; m_chunked := m_chunked r; m_vmaj := m_vmaj r; m_vmin := m_vmin r; m_clen := m_clen r; m_buf := m_buf r; m_cache := m_cache r; m_headers := m_headers r; m_cookies := m_cookies r; m_status := x; m_missing := m_missing r; m_after := m_after r; m_method := m_method r; m_resource := m_resource r; m_query_string := m_query_string r; m_queries := m_queries r; m_code := m_code r; m_reason := m_reason r; m_req_method := m_req_method r |}.
(** assignment to the member of http/message.hpp:729 *)
Definition set_m_missing (x : bool) (r : msg) : msg := {| m_valid := m_valid r; m_chunked := m_chunked r; m_vmaj := m_vmaj r; m_vmin := m_vmin r; m_clen := m_clen r; m_buf := m_buf r; m_cache := m_cache r; m_headers := m_headers r; m_cookies := m_cookies r; m_status := m_status r; m_missing := x; m_after := m_after r; m_method := m_method r; m_resource := m_resource r; m_query_string := m_query_string r; m_queries := m_queries r; m_code := m_code r; m_reason := m_reason r; m_req_method := m_req_method r |}.
(** assignment to the member of http/message.hpp:732 *)
Definition set_m_after (x : bool) (r : msg) : msg := {| m_valid := m_valid r; m_chunked := m_chunked r; m_vmaj := m_vmaj r; m_vmin := m_vmin r; m_clen := m_clen r; m_buf := m_buf r; m_cache := m_cache r; m_headers := m_headers r; m_cookies := m_cookies r; m_status := m_status r; m_missing := m_missing r; m_after := x; m_method := m_method r; m_resource := m_resource r; m_query_string := m_query_string r; m_queries := m_queries r; m_code := m_code r; m_reason := m_reason r; m_req_method := m_req_method r |}.
(** assignment to the member, http/request.hpp:86-105 *)
Definition set_m_method (x : list Z) (r : msg) : msg := {| m_valid := m_valid r; m_chunked := m_chunked r; m_vmaj := m_vmaj r; m_vmin := m_vmin r; m_clen := m_clen r; m_buf := m_buf r; m_cache := m_cache r; m_headers := m_headers r; m_cookies := m_cookies r; m_status := m_status r; m_missing := m_missing r; m_after := m_after r; m_method := x; m_resource := m_resource r; m_query_string := m_query_string r; m_queries := m_queries r; m_code := m_code r; m_reason := m_reason r; m_req_method := m_req_method r |}.
(** assignment to the member, http/request.hpp:86-105 *)
Definition set_m_resource (x : list Z) (r : msg) : msg := {| m_valid := m_valid r; m_chunked := m_chunked r; m_vmaj := m_vmaj r; m_vmin := m_vmin r; m_clen := m_clen r; m_buf := m_buf r; m_cache := m_cache r; m_headers := m_headers r; m_cookies := m_cookies r; m_status := m_status r; m_missing := m_missing r; m_after := m_after r; m_method := m_method r; m_resource := x; m_query_string := m_query_string r; m_queries := m_queries r; m_code := m_code r; m_reason := m_reason r; m_req_method := m_req_method r |}.
(** assignment to the member, http/request.hpp:86-105 *)
Definition set_m_query_string (x : list Z) (r : msg) : msg := {| m_valid := m_valid r; m_chunked := m_chunked r; m_vmaj := m_vmaj r; m_vmin := m_vmin r; m_clen := m_clen r; m_buf := m_buf r; m_cache := m_cache r; m_headers := m_headers r; m_cookies := m_cookies r; m_status := m_status r; m_missing := m_missing r; m_after := m_after r; m_method := m_method r; m_resource := m_resource r; m_query_string := x; m_queries := m_queries r; m_code := m_code r; m_reason := m_reason r; m_req_method := m_req_method r |}.
(** assignment to the member, http/request.hpp:86-105 *)
Definition set_m_queries (x : dict) (r : msg) : msg := {| m_valid := m_valid r; m_chunked := m_chunked r; m_vmaj := m_vmaj r; m_vmin := m_vmin r; m_clen := m_clen r; m_buf := m_buf r; m_cache := m_cache r; m_headers := m_headers r; m_cookies := m_cookies r; m_status := m_status r; m_missing := m_missing r; m_after := m_after r; m_method := m_method r; m_resource := m_resource r; m_query_string := m_query_string r; m_queries := x; m_code := m_code r; m_reason := m_reason r; m_req_method := m_req_method r |}.
(** assignment to the member, http/response.hpp:109-118 *)
Definition set_m_code (x : Z) (r : msg) : msg := {| m_valid := m_valid r; m_chunked := m_chunked r; m_vmaj := m_vmaj r; m_vmin := m_vmin r; m_clen := m_clen r; m_buf := m_buf r; m_cache := m_cache r; m_headers := m_headers r; m_cookies := m_cookies r; m_status := m_status r; m_missing := m_missing r; m_after := m_after r; m_method := m_method r; m_resource := m_resource r; m_query_string := m_query_string r; m_queries := m_queries r; m_code := x; m_reason := m_reason r; m_req_method := m_req_method r |}.
(** assignment to the member, http/response.hpp:109-118 *)
Definition set_m_reason (x : list Z) (r : msg) : msg := {| m_valid := m_valid r; m_chunked := m_chunked r; m_vmaj := m_vmaj r; m_vmin := m_vmin r; m_clen := m_clen r; m_buf := m_buf r; m_cache := m_cache r; m_headers := m_headers r; m_cookies := m_cookies r; m_status := m_status r; m_missing := m_missing r; m_after := m_after r; m_method := m_method r; m_resource := m_resource r; m_query_string := m_query_string r; m_queries := m_queries r; m_code := m_code r; m_reason := x; m_req_method := m_req_method r |}.
(** assignment to the member, http/response.hpp:95-98 *)
Definition set_m_req_method (x : list Z) (r : msg) : msg := {| m_valid := m_valid r; m_chunked := m_chunked r; m_vmaj := m_vmaj r; m_vmin := m_vmin r; m_clen := m_clen r; m_buf := m_buf r; m_cache := m_cache r; m_headers := m_headers r; m_cookies := m_cookies r; m_status := m_status r; m_missing := m_missing r; m_after := m_after r; m_method := m_method r; m_resource := m_resource r; m_query_string := m_query_string r; m_queries := m_queries r; m_code := m_code r; m_reason := m_reason r; m_req_method := x |}.

(** message.hpp:96-101, request.hpp:40, response.hpp:64-67, and the state after [clear()] up to the default
    method and status texts *)
Definition msg_init : msg := {|
  m_valid := false; m_chunked := false; m_vmaj := 1; m_vmin := 1; m_clen := 0; m_buf := []; m_cache := [];
  m_headers := []; m_cookies := []; m_status := STATUS_NONE; m_missing := false; m_after := false;
  m_method := bs "GET"; m_resource := []; m_query_string := []; m_queries := []; m_code := 200; m_reason := bs "OK"; m_req_method := [] |}.

(** message.hpp:543-553, 341-344: [new char[len+1]] and [m_buf[len] = 0]. The size [len+1] wraps to 0 for the
    largest [size_t], and the store is then outside the allocation. Memory is taken to be unlimited
    ([std::bad_alloc] is not modelled). *)
Definition create_content_buffer (m : msg) : outcome msg :=
  if wrap64 (m_clen m + 1) <=? m_clen m then Bad BadMemory
  else Ok (set_m_buf (repeat None (Z.to_nat (m_clen m))) m).

(** [memcpy(get_content() + off, bytes, n)]; writing past the [m_len] content bytes is a memory error; used at http_parser.cpp:1540-1548, http_message.cpp:234-240 *)
Definition buf_write (m : msg) (off : Z) (bytes : list Z) : outcome msg :=
  if off + zlen bytes <=? zlen (m_buf m) then
    Ok (set_m_buf (firstn (Z.to_nat off) (m_buf m) ++ map Some bytes ++ skipn (Z.to_nat (off + zlen bytes)) (m_buf m)) m)
  else Bad BadMemory.

(** The [n] content bytes as [get_content()] gives them; reading outside or bytes never written is an error; http/message.hpp:207-210, 543-553 *)
Fixpoint all_some (l : list (option Z)) : option (list Z) :=
  match l with
  | [] => Some []
  | None :: _ => None
  | Some b :: l' => match all_some l' with Some r => Some (b :: r) | None => None end
  end.
(** http/message.hpp:207-210, 543-553 *)
Definition content_of (m : msg) : outcome (list Z) :=
  if m_clen m <=? zlen (m_buf m) then
    match all_some (firstn (Z.to_nat (m_clen m)) (m_buf m)) with Some l => Ok l | None => Bad BadMemory end
  else Bad BadMemory.

(** src/http_message.cpp:234-240 *)
Definition concatenate_chunks (m : msg) : outcome msg :=
  let m1 := set_m_clen (zlen (m_cache m)) m in
  obind (create_content_buffer m1) (fun m2 => buf_write m2 0 (m_cache m)).

(** [boost::algorithm::trim]; Boost, used at http/message.hpp:322-324 *)
Fixpoint trim_left (s : list Z) : list Z :=
  match s with [] => [] | c :: s' => if c_isspace c then trim_left s' else s end.
(** Boost, used at http/message.hpp:322-324 *)
Definition trim (s : list Z) : list Z := rev (trim_left (rev (trim_left s))).

(** [boost::lexical_cast<size_t>]: optional sign, then digits only; a value above 2^64-1 is refused, a minus sign
    negates modulo 2^64; Boost, used at http/message.hpp:322-324 *)
Definition dec_digits (s : list Z) : option Z :=
  match s with
  | [] => None
  | _ => if forallb is_digit s
         then let v := undigits 10 0 (map (fun c => c - 48) s) in if v <? two64 then Some v else None
         else None
  end.
(** Boost, used at http/message.hpp:322-324 *)
Definition lexical_cast_size (s : list Z) : option Z :=
  match s with
  | c :: s' =>
    if c =? ch "-" then match dec_digits s' with Some v => Some (wrap64 (- v)) | None => None end
    else if c =? ch "+" then dec_digits s'
    else dec_digits s
  | [] => None
  end.

(** message.hpp:317-326; [None]: the cast throws *)
Definition update_content_length (m : msg) : option msg :=
  match d_find (m_headers m) HEADER_CONTENT_LENGTH with
  | None => Some (set_m_clen 0 m)
  | Some v => match lexical_cast_size (trim v) with Some n => Some (set_m_clen n m) | None => None end
  end.

(** message.hpp:329-337, src/http_message.cpp:28: regex ".*chunked.*" ignoring case *)
Definition update_transfer_encoding (m : msg) : msg :=
  set_m_chunked (match d_find (m_headers m) HEADER_TRANSFER_ENCODING with
                 | Some v => contains (bs "chunked") (lower_str v) | None => false end) m.

(** request.hpp:57, response.hpp:81-87 *)
Definition is_content_length_implied (is_request : bool) (m : msg) : bool :=
  if is_request then false
  else str_eqb (m_req_method m) (bs "HEAD") || ((100 <=? m_code m) && (m_code m <=? 199))
       || (m_code m =? 204) || (m_code m =? 205) || (m_code m =? 304).

(* ------------------------------------------------------------------ parser state *)

(** http/parser.hpp:603-633 *)
Inductive phase := PStart | PHeaders | PFooters | PContent | PContentNoLength | PChunks | PEnd.
(** http/parser.hpp:610-621 *)
Inductive hstate :=
  | HMethodStart | HMethod | HUriStem | HUriQuery | HVersionH | HVersionT1 | HVersionT2 | HVersionP | HVersionSlash
  | HVersionMajorStart | HVersionMajor | HVersionMinorStart | HVersionMinor | HStatusCodeStart | HStatusCode
  | HStatusMessage | HExpectingNewline | HExpectingCR | HHeaderWhitespace | HHeaderStart | HHeaderName
  | HSpaceBeforeValue | HHeaderValue | HFinalNewline | HFinalCR.
(** http/parser.hpp:625-633 *)
Inductive kstate :=
  | KSizeStart | KSize | KIgnored | KCRAfterSize | KLFAfterSize | KChunk | KCRAfterChunk | KLFAfterChunk
  | KFinalCROrFooters | KFinalLF.

(** http/parser.hpp:636-700, split into the members used while parsing headers, chunks and the rest. [p_payload] are
    the bytes handed to the payload handler since the parser was made or reset (the boundaries of the blocks are not kept). *)
Record hdrs := {
  h_state : hstate;
  h_method : list Z;
  h_resource : list Z;
  h_query : list Z;
  h_code : Z;
  h_reason : list Z;
  h_name : list Z;
  h_value : list Z;
  h_raw : list Z }.
(** assignment to the member of http/parser.hpp:640 *)
Definition set_h_state (x : hstate) (r : hdrs) : hdrs := {| h_state := x; h_method := h_method r; h_resource := h_resource r; h_query := h_query r; h_code := h_code r; h_reason := h_reason r; h_name := h_name r; h_value := h_value r; h_raw := h_raw r |}.
(** assignment to the member of http/parser.hpp:655 *)
Definition set_h_method (x : list Z) (r : hdrs) : hdrs := {| h_state := h_state r; h_method := x; h_resource := h_resource r; h_query := h_query r; h_code := h_code r; h_reason := h_reason r; h_name := h_name r; h_value := h_value r; h_raw := h_raw r |}.
(** assignment to the member of http/parser.hpp:658 *)
Definition set_h_resource (x : list Z) (r : hdrs) : hdrs := {| h_state := h_state r; h_method := h_method r; h_resource := x; h_query := h_query r; h_code := h_code r; h_reason := h_reason r; h_name := h_name r; h_value := h_value r; h_raw := h_raw r |}.
(** assignment to the member of http/parser.hpp:661 *)
Definition set_h_query (x : list Z) (r : hdrs) : hdrs := {| h_state := h_state r; h_method := h_method r; h_resource := h_resource r; h_query := x; h_code := h_code r; h_reason := h_reason r; h_name := h_name r; h_value := h_value r; h_raw := h_raw r |}.
(** assignment to the member of http/parser.hpp:649 *)
Definition set_h_code (x : Z) (r : hdrs) : hdrs := {| h_state := h_state r; h_method := h_method r; h_resource := h_resource r; h_query := h_query r; h_code := x; h_reason := h_reason r; h_name := h_name r; h_value := h_value r; h_raw := h_raw r |}.
(** assignment to the member of http/parser.hpp:652 *)
Definition set_h_reason (x : list Z) (r : hdrs) : hdrs := {| h_state := h_state r; h_method := h_method r; h_resource := h_resource r; h_query := h_query r; h_code := h_code r; h_reason := x; h_name := h_name r; h_value := h_value r; h_raw := h_raw r |}.
(** assignment to the member of http/parser.hpp:667 *)
Definition set_h_name (x : list Z) (r : hdrs) : hdrs := {| h_state := h_state r; h_method := h_method r; h_resource := h_resource r; h_query := h_query r; h_code := h_code r; h_reason := h_reason r; h_name := x; h_value := h_value r; h_raw := h_raw r |}.
(** assignment to the member of http/parser.hpp:670 *)
Definition set_h_value (x : list Z) (r : hdrs) : hdrs := {| h_state := h_state r; h_method := h_method r; h_resource := h_resource r; h_query := h_query r; h_code := h_code r; h_reason := h_reason r; h_name := h_name r; h_value := x; h_raw := h_raw r |}.
(** assignment to the member of http/parser.hpp:664 *)
Definition set_h_raw (x : list Z) (r : hdrs) : hdrs := {| h_state := h_state r; h_method := h_method r; h_resource := h_resource r; h_query := h_query r; h_code := h_code r; h_reason := h_reason r; h_name := h_name r; h_value := h_value r; h_raw := x |}.

(** the members of http/parser.hpp:643, 673-679 *)
Record chk := {
  k_state : kstate;
  k_size_str : list Z;
  k_size : Z;
  k_read : Z }.
(** assignment to the member of http/parser.hpp:643 *)
Definition set_k_state (x : kstate) (r : chk) : chk := {| k_state := x; k_size_str := k_size_str r; k_size := k_size r; k_read := k_read r |}.
(** assignment to the member of http/parser.hpp:673 *)
Definition set_k_size_str (x : list Z) (r : chk) : chk := {| k_state := k_state r; k_size_str := x; k_size := k_size r; k_read := k_read r |}.
(** assignment to the member of http/parser.hpp:676 *)
Definition set_k_size (x : Z) (r : chk) : chk := {| k_state := k_state r; k_size_str := k_size_str r; k_size := x; k_read := k_read r |}.
(** assignment to the member of http/parser.hpp:679 *)
Definition set_k_read (x : Z) (r : chk) : chk := {| k_state := k_state r; k_size_str := k_size_str r; k_size := k_size r; k_read := x |}.

(** the members of http/parser.hpp:637-700 *)
Record pst := {
  p_phase : phase;
  p_h : hdrs;
  p_k : chk;
  p_remaining : Z;
  p_content_read : Z;
  p_last : Z;
  p_total : Z;
  p_payload : list Z }.
(** assignment to the member of http/parser.hpp:637 *)
Definition set_p_phase (x : phase) (r : pst) : pst := {| p_phase := x; p_h := p_h r; p_k := p_k r; p_remaining := p_remaining r; p_content_read := p_content_read r; p_last := p_last r; p_total := p_total r; p_payload := p_payload r |}.
(** assignment to the member of http/parser.hpp:640 *)
Definition set_p_h (x : hdrs) (r : pst) : pst := {| p_phase := p_phase r; p_h := x; p_k := p_k r; p_remaining := p_remaining r; p_content_read := p_content_read r; p_last := p_last r; p_total := p_total r; p_payload := p_payload r |}.
(** assignment to the member of http/parser.hpp:643 *)
Definition set_p_k (x : chk) (r : pst) : pst := {| p_phase := p_phase r; p_h := p_h r; p_k := x; p_remaining := p_remaining r; p_content_read := p_content_read r; p_last := p_last r; p_total := p_total r; p_payload := p_payload r |}.
(** assignment to the member of http/parser.hpp:682 *)
Definition set_p_remaining (x : Z) (r : pst) : pst := {| p_phase := p_phase r; p_h := p_h r; p_k := p_k r; p_remaining := x; p_content_read := p_content_read r; p_last := p_last r; p_total := p_total r; p_payload := p_payload r |}.
(** assignment to the member of http/parser.hpp:685 *)
Definition set_p_content_read (x : Z) (r : pst) : pst := {| p_phase := p_phase r; p_h := p_h r; p_k := p_k r; p_remaining := p_remaining r; p_content_read := x; p_last := p_last r; p_total := p_total r; p_payload := p_payload r |}.
(** assignment to the member of http/parser.hpp:688 *)
Definition set_p_last (x : Z) (r : pst) : pst := {| p_phase := p_phase r; p_h := p_h r; p_k := p_k r; p_remaining := p_remaining r; p_content_read := p_content_read r; p_last := x; p_total := p_total r; p_payload := p_payload r |}.
(** assignment to the member of http/parser.hpp:691 *)
Definition set_p_total (x : Z) (r : pst) : pst := {| p_phase := p_phase r; p_h := p_h r; p_k := p_k r; p_remaining := p_remaining r; p_content_read := p_content_read r; p_last := p_last r; p_total := x; p_payload := p_payload r |}.
(** assignment to the member of http/parser.hpp:646 *)
Definition set_p_payload (x : list Z) (r : pst) : pst := {| p_phase := p_phase r; p_h := p_h r; p_k := p_k r; p_remaining := p_remaining r; p_content_read := p_content_read r; p_last := p_last r; p_total := p_total r; p_payload := x |}.

(** Configuration: constructor arguments (http/parser.hpp:129), [parse_headers_only], [set_save_raw_headers], whether a
    payload handler is installed, and the placement of new dictionary entries. *)
Record pcfg := { cf_request : bool; cf_max : Z; cf_headers_only : bool; cf_save_raw : bool; cf_handler : bool; cf_pos : dpos }.

(** http/parser.hpp:129-139 *)
Definition h_init (cf : pcfg) : hdrs := {|
  h_state := if cf_request cf then HMethodStart else HVersionH; h_method := []; h_resource := []; h_query := []; h_code := 0;
  h_reason := []; h_name := []; h_value := []; h_raw := [] |}.
(** http/parser.hpp:129-139 *)
Definition k_init : chk := {| k_state := KSizeStart; k_size_str := []; k_size := 0; k_read := 0 |}.
(** http/parser.hpp:129-139 *)
Definition p_init (cf : pcfg) : pst := {|
  p_phase := PStart; p_h := h_init cf; p_k := k_init; p_remaining := 0; p_content_read := 0; p_last := 0; p_total := 0; p_payload := [] |}.

(** http/parser.hpp:236-247 *)
Definition p_reset (cf : pcfg) (st : pst) : pst := {|
  p_phase := PStart;
  p_h := {| h_state := if cf_request cf then HMethodStart else HVersionH; h_method := []; h_resource := []; h_query := [];
            h_code := 0; h_reason := []; h_name := h_name (p_h st); h_value := h_value (p_h st); h_raw := [] |};
  p_k := {| k_state := KSizeStart; k_size_str := k_size_str (p_k st); k_size := k_size (p_k st); k_read := k_read (p_k st) |};
  p_remaining := p_remaining st; p_content_read := 0; p_last := 0; p_total := 0; p_payload := [] |}.

(* ------------------------------------------------------------------ parse_headers *)

(** What one character does in [parse_headers]: go on behind it, fail at it, or finish behind or before it. http_parser.cpp:261-690 *)
Inductive hres := HCont (h : hdrs) (m : msg) | HFail (e : perr) | HDone (consumed : bool) (h : hdrs) (m : msg).

(** the test of http_parser.cpp:269, 284, 541, 566, 584, 603, 619, 641 *)
Definition bad_token (c : Z) : bool := negb (is_char c) || is_control c || is_special c.
(** a [boost::uint16_t], http/message.hpp:705, 708 *)
Definition u16 (z : Z) : Z := z mod 65536.
(** assignment to the state, http_parser.cpp:266-688 *)
Definition goto (h : hdrs) (s : hstate) : hdrs := set_h_state s h.
(** http_parser.cpp:303-304, 307-308, 326-327, 330-331, 352-353, 361-362 *)
Definition version00 (m : msg) : msg := set_m_vmin 0 (set_m_vmaj 0 m).
(** [m_header_name.erase(); push_back(c); state = PARSE_HEADER_NAME]; http_parser.cpp:546-548, 571-573, 589-591, 608-610 *)
Definition begin_name (h : hdrs) (c : Z) : hdrs := goto (set_h_name [c] h) HHeaderName.
(** [http_msg.add_header(m_header_name, m_header_value)]; http_parser.cpp:636, 639, 654, 657 *)
Definition add_header (cf : pcfg) (h : hdrs) (m : msg) : msg :=
  set_m_headers (d_insert (cf_pos cf) (m_headers m) (h_name h, h_value h)) m.

(** src/http_parser.cpp:266-688, the switch *)
Definition h_char (cf : pcfg) (h : hdrs) (m : msg) (c : Z) : hres :=
  match h_state h with
  | HMethodStart =>
    if negb (c =? 32) && negb (c =? 13) && negb (c =? 10) then
      if bad_token c then HFail E_METHOD_CHAR else HCont (goto (set_h_method [c] h) HMethod) m
    else HCont h m
  | HMethod =>
    if c =? 32 then HCont (goto (set_h_resource [] h) HUriStem) m
    else if bad_token c then HFail E_METHOD_CHAR
    else if METHOD_MAX <=? zlen (h_method h) then HFail E_METHOD_SIZE
    else HCont (set_h_method (h_method h ++ [c]) h) m
  | HUriStem =>
    if c =? 32 then HCont (goto h HVersionH) m
    else if c =? ch "?" then HCont (goto (set_h_query [] h) HUriQuery) m
    else if c =? 13 then HCont (goto h HExpectingNewline) (version00 m)
    else if c =? 10 then HCont (goto h HExpectingCR) (version00 m)
    else if is_control c then HFail E_URI_CHAR
    else if RESOURCE_MAX <=? zlen (h_resource h) then HFail E_URI_SIZE
    else HCont (set_h_resource (h_resource h ++ [c]) h) m
  | HUriQuery =>
    if c =? 32 then HCont (goto h HVersionH) m
    else if c =? 13 then HCont (goto h HExpectingNewline) (version00 m)
    else if c =? 10 then HCont (goto h HExpectingCR) (version00 m)
    else if is_control c then HFail E_QUERY_CHAR
    else if QUERY_STRING_MAX <=? zlen (h_query h) then HFail E_QUERY_SIZE
    else HCont (set_h_query (h_query h ++ [c]) h) m
  | HVersionH =>
    (* lines 350-373: after a CR or LF control falls out of the if-chain to the assignment of VERSION_T_1 *)
    if (c =? 13) || (c =? 10) then
      if cf_request cf then HCont (goto h HVersionT1) (version00 m) else HFail E_VERSION_EMPTY
    else if negb (c =? ch "H") then HFail E_VERSION_CHAR
    else HCont (goto h HVersionT1) m
  | HVersionT1 => if c =? ch "T" then HCont (goto h HVersionT2) m else HFail E_VERSION_CHAR
  | HVersionT2 => if c =? ch "T" then HCont (goto h HVersionP) m else HFail E_VERSION_CHAR
  | HVersionP => if c =? ch "P" then HCont (goto h HVersionSlash) m else HFail E_VERSION_CHAR
  | HVersionSlash => if c =? ch "/" then HCont (goto h HVersionMajorStart) m else HFail E_VERSION_CHAR
  | HVersionMajorStart =>
    if is_digit c then HCont (goto h HVersionMajor) (set_m_vmaj (c - 48) m) else HFail E_VERSION_CHAR
  | HVersionMajor =>
    if c =? ch "." then HCont (goto h HVersionMinorStart) m
    else if is_digit c then HCont h (set_m_vmaj (u16 (m_vmaj m * 10 + (c - 48))) m)
    else HFail E_VERSION_CHAR
  | HVersionMinorStart =>
    if is_digit c then HCont (goto h HVersionMinor) (set_m_vmin (c - 48) m) else HFail E_VERSION_CHAR
  | HVersionMinor =>
    if c =? 32 then (if cf_request cf then HCont h m else HCont (goto h HStatusCodeStart) m)
    else if c =? 13 then (if cf_request cf then HCont (goto h HExpectingNewline) m else HFail E_STATUS_EMPTY)
    else if c =? 10 then (if cf_request cf then HCont (goto h HExpectingCR) m else HFail E_STATUS_EMPTY)
    else if is_digit c then HCont h (set_m_vmin (u16 (m_vmin m * 10 + (c - 48))) m)
    else HFail E_VERSION_CHAR
  | HStatusCodeStart =>
    if is_digit c then HCont (goto (set_h_code (c - 48) h) HStatusCode) m else HFail E_STATUS_CHAR
  | HStatusCode =>
    if c =? 32 then HCont (goto (set_h_reason [] h) HStatusMessage) m
    else if is_digit c then HCont (set_h_code (u16 (h_code h * 10 + (c - 48))) h) m
    else if c =? 13 then HCont (goto (set_h_reason [] h) HExpectingNewline) m
    else if c =? 10 then HCont (goto (set_h_reason [] h) HExpectingCR) m
    else HFail E_STATUS_CHAR
  | HStatusMessage =>
    if c =? 13 then HCont (goto h HExpectingNewline) m
    else if c =? 10 then HCont (goto h HExpectingCR) m
    else if is_control c then HFail E_STATUS_CHAR
    else if STATUS_MESSAGE_MAX <=? zlen (h_reason h) then HFail E_STATUS_CHAR
    else HCont (set_h_reason (h_reason h ++ [c]) h) m
  | HExpectingNewline =>
    if c =? 10 then
      if cf_request cf && (m_vmaj m =? 0) then HDone true h m else HCont (goto h HHeaderStart) m
    else if c =? 13 then HDone true h m
    else if (c =? 9) || (c =? 32) then HCont (goto h HHeaderWhitespace) m
    else if bad_token c then HFail E_HEADER_CHAR
    else HCont (begin_name h c) m
  | HExpectingCR =>
    if c =? 13 then HCont (goto h HHeaderStart) m
    else if c =? 10 then HDone true h m
    else if (c =? 9) || (c =? 32) then HCont (goto h HHeaderWhitespace) m
    else if bad_token c then HFail E_HEADER_CHAR
    else HCont (begin_name h c) m
  | HHeaderWhitespace =>
    if c =? 13 then HCont (goto h HExpectingNewline) m
    else if c =? 10 then HCont (goto h HExpectingCR) m
    else if negb (c =? 9) && negb (c =? 32) then
      if bad_token c then HFail E_HEADER_CHAR else HCont (begin_name h c) m
    else HCont h m
  | HHeaderStart =>
    if c =? 13 then HCont (goto h HFinalNewline) m
    else if c =? 10 then HCont (goto h HFinalCR) m
    else if (c =? 9) || (c =? 32) then HCont (goto h HHeaderWhitespace) m
    else if bad_token c then HFail E_HEADER_CHAR
    else HCont (begin_name h c) m
  | HHeaderName =>
    if c =? ch ":" then HCont (goto (set_h_value [] h) HSpaceBeforeValue) m
    else if bad_token c then HFail E_HEADER_CHAR
    else if HEADER_NAME_MAX <=? zlen (h_name h) then HFail E_HEADER_NAME_SIZE
    else HCont (set_h_name (h_name h ++ [c]) h) m
  | HSpaceBeforeValue =>
    if c =? 32 then HCont (goto h HHeaderValue) m
    else if c =? 13 then HCont (goto h HExpectingNewline) (add_header cf h m)
    else if c =? 10 then HCont (goto h HExpectingCR) (add_header cf h m)
    else if bad_token c then HFail E_HEADER_CHAR
    else HCont (goto (set_h_value (h_value h ++ [c]) h) HHeaderValue) m
  | HHeaderValue =>
    if c =? 13 then HCont (goto h HExpectingNewline) (add_header cf h m)
    else if c =? 10 then HCont (goto h HExpectingCR) (add_header cf h m)
    else if negb (c =? 9) && is_control c then HFail E_HEADER_CHAR
    else if HEADER_VALUE_MAX <=? zlen (h_value h) then HFail E_HEADER_VALUE_SIZE
    else HCont (set_h_value (h_value h ++ [c]) h) m
  | HFinalNewline => HDone (c =? 10) h m
  | HFinalCR => HDone (c =? 13) h m
  end.

(** Result of a sub-parser: result, error, unread bytes. http_parser.cpp:248-696, 1353-1517 *)
Record sub (S : Type) := mksub { s_rc : tri; s_err : option perr; s_st : S; s_rest : list Z }.
Arguments mksub {S}. Arguments s_rc {S}. Arguments s_err {S}. Arguments s_st {S}. Arguments s_rest {S}.

(** http_parser.cpp:262-263 *)
Definition save_raw (cf : pcfg) (h : hdrs) (c : Z) : hdrs := if cf_save_raw cf then set_h_raw (h_raw h ++ [c]) h else h.

(** src/http_parser.cpp:261-695, the loop over the read buffer *)
Fixpoint h_loop (cf : pcfg) (h : hdrs) (m : msg) (s : list Z) : sub (hdrs * msg) :=
  match s with
  | [] => mksub TIndet None (h, m) []
  | c :: s' =>
    let h1 := save_raw cf h c in
    match h_char cf h1 m c with
    | HCont h2 m2 => h_loop cf h2 m2 s'
    | HFail e => mksub TFalse (Some e) (h1, m) (c :: s')
    | HDone true h2 m2 => mksub TTrue None (h2, m2) s'
    | HDone false h2 m2 => mksub TTrue None (h2, m2) (c :: s')
    end
  end.

(** number of bytes consumed; counters are not updated on errors (every [return false] of http_parser.cpp:266-688) *)
Definition used (rc : tri) (before after : list Z) : Z :=
  match rc with TFalse => 0 | _ => zlen before - zlen after end.

(** src/http_parser.cpp:248-696 *)
Definition parse_headers (cf : pcfg) (st : pst) (m : msg) (s : list Z) : sub (pst * msg) :=
  let r := h_loop cf (p_h st) m s in
  let n := used (s_rc r) s (s_rest r) in
  mksub (s_rc r) (s_err r)
        (set_p_total (wrap64 (p_total st + n)) (set_p_last n (set_p_h (fst (s_st r)) st)), snd (s_st r)) (s_rest r).

(* ------------------------------------------------------------------ parse_chunks *)

(** What one iteration of the loop of [parse_chunks] does: it consumed [n] bytes and goes on, fails, or finishes
    (behind the byte, or before it because of footers). http_parser.cpp:1365-1511 *)
Inductive kres := KCont (n : nat) (k : chk) (cache payload : list Z) | KFail | KDone | KFooters.

(** http_parser.cpp:1374, 1389, 1412 *)
Definition is_blank (c : Z) : bool := (c =? 32) || (c =? 9).

(** [strtol(str, 0, 16)] of hex digits: saturates at LONG_MAX; C library, used at http_parser.cpp:1427 *)
Definition hex_value (c : Z) : Z := match hex_val c with Some v => v | None => 0 end.
(** C library, used at http_parser.cpp:1427 *)
Definition strtol_hex (s : list Z) : Z := Z.min (undigits 16 0 (map hex_value s)) 9223372036854775807.

(** src/http_parser.cpp:1366-1508 at character [c] of the remaining buffer [c :: s'] *)
Definition k_char (cf : pcfg) (k : chk) (cache payload : list Z) (c : Z) (s' : list Z) : kres :=
  match k_state k with
  | KSizeStart =>
    if is_hex_digit c then KCont 1 (set_k_state KSize (set_k_size_str [c] k)) cache payload
    else if is_blank c || (c =? 13) || (c =? 10) then KCont 1 k cache payload
    else KFail
  | KSize =>
    if is_hex_digit c then KCont 1 (set_k_size_str (k_size_str k ++ [c]) k) cache payload
    else if c =? 13 then KCont 1 (set_k_state KLFAfterSize k) cache payload
    else if is_blank c then KCont 1 (set_k_state KCRAfterSize k) cache payload
    else if c =? ch ";" then KCont 1 (set_k_state KIgnored k) cache payload
    else KFail
  | KIgnored => KCont 1 (if c =? 13 then set_k_state KLFAfterSize k else k) cache payload
  | KCRAfterSize =>
    if c =? 13 then KCont 1 (set_k_state KLFAfterSize k) cache payload
    else if is_blank c then KCont 1 k cache payload
    else KFail
  | KLFAfterSize =>
    if c =? 10 then
      let sz := strtol_hex (k_size_str k) in
      KCont 1 (set_k_state (if sz =? 0 then KFinalCROrFooters else KChunk) (set_k_size sz (set_k_read 0 k))) cache payload
    else KFail
  | KChunk =>
    let avail := 1 + zlen s' in
    let r :=
      if k_read k <? k_size k then
        if cf_handler cf then
          let len := if avail <? k_size k - k_read k then avail else k_size k - k_read k in
          (Z.to_nat len, set_k_read (k_read k + len) k, cache, payload ++ firstn (Z.to_nat len) (c :: s'))
        else if zlen cache <? cf_max cf then (1%nat, set_k_read (k_read k + 1) k, cache ++ [c], payload)
        else (1%nat, k, cache, payload)
      else (1%nat, k, cache, payload) in
    match r with
    | (n, k1, cache1, payload1) =>
      KCont n (if k_read k1 =? k_size k1 then set_k_state KCRAfterChunk k1 else k1) cache1 payload1
    end
  | KCRAfterChunk => if c =? 13 then KCont 1 (set_k_state KLFAfterChunk k) cache payload else KFail
  | KLFAfterChunk => if c =? 10 then KCont 1 (set_k_state KSizeStart k) cache payload else KFail
  | KFinalCROrFooters => if c =? 13 then KCont 1 (set_k_state KFinalLF k) cache payload else KFooters
  | KFinalLF => if c =? 10 then KDone else KFail
  end.

(** what the loop leaves, http_parser.cpp:1365-1517 *)
Record kout := mkkout { ko_k : chk; ko_cache : list Z; ko_payload : list Z; ko_footers : bool }.

(** src/http_parser.cpp:1365-1511, the loop over the read buffer; every iteration consumes at least one byte, so the
    length of the buffer is enough fuel *)
Fixpoint k_loop (fuel : nat) (cf : pcfg) (k : chk) (cache payload : list Z) (s : list Z) : sub kout :=
  match s with
  | [] => mksub TIndet None (mkkout k cache payload false) []
  | c :: s' =>
    match fuel with
    | O => mksub TIndet None (mkkout k cache payload false) s
    | S f =>
      match k_char cf k cache payload c s' with
      | KCont n k1 cache1 payload1 => k_loop f cf k1 cache1 payload1 (skipn n s)
      | KFail => mksub TFalse (Some E_CHUNK_CHAR) (mkkout k cache payload false) s
      | KDone => mksub TTrue None (mkkout k cache payload false) s'
      | KFooters => mksub TTrue None (mkkout k cache payload true) s
      end
    end
  end.

(** src/http_parser.cpp:1353-1517 *)
Definition parse_chunks (cf : pcfg) (st : pst) (m : msg) (s : list Z) : sub (pst * msg) :=
  let r := k_loop (List.length s) cf (p_k st) (m_cache m) (p_payload st) s in
  let o := s_st r in
  let n := used (s_rc r) s (s_rest r) in
  let st1 := set_p_payload (ko_payload o) (set_p_k (ko_k o) st) in
  let st2 := if ko_footers o then set_p_phase PFooters (set_p_h (goto (p_h st1) HHeaderStart) st1) else st1 in
  mksub (s_rc r) (s_err r)
        (set_p_content_read (wrap64 (p_content_read st + n)) (set_p_total (wrap64 (p_total st + n)) (set_p_last n st2)),
         set_m_cache (ko_cache o) m) (s_rest r).

(* ------------------------------------------------------------------ content *)

(** src/http_parser.cpp:1519-1562 *)
Definition consume_content (cf : pcfg) (st : pst) (m : msg) (s : list Z) : outcome (sub (pst * msg)) :=
  if p_remaining st =? 0 then Ok (mksub TTrue None (st, m) s)
  else
    let all := p_remaining st <=? zlen s in
    let n := if all then p_remaining st else zlen s in
    if zlen s <? n then Bad BadMemory (* the copy would read past the buffer *) else
    let bytes := firstn (Z.to_nat n) s in
    let stm :=
      if cf_handler cf then Ok (set_p_payload (p_payload st ++ bytes) st, m)
      else if p_content_read st <? cf_max cf then
        obind (if cf_max cf <? wrap64 (p_content_read st + n)
               then buf_write m (p_content_read st) (firstn (Z.to_nat (cf_max cf - p_content_read st)) bytes)
               else buf_write m (p_content_read st) bytes) (fun m' => Ok (st, m'))
      else Ok (st, m) in
    obind stm (fun x =>
      let st1 := fst x in
      Ok (mksub (if all then TTrue else TIndet) None
            (set_p_remaining (p_remaining st - n)
               (set_p_content_read (wrap64 (p_content_read st + n))
                  (set_p_total (wrap64 (p_total st + n)) (set_p_last n st1))), snd x)
            (skipn (Z.to_nat n) s))).

(** src/http_parser.cpp:1564-1585: of every byte [if (chunks.size() < max) push_back] *)
Definition cache_fill (cf : pcfg) (cache bytes : list Z) : list Z :=
  cache ++ firstn (Z.to_nat (cf_max cf - zlen cache)) bytes.
(** http_parser.cpp:1564-1585 *)
Definition consume_no_length (cf : pcfg) (st : pst) (m : msg) (s : list Z) : pst * msg :=
  let n := zlen s in
  let st1 := set_p_content_read (wrap64 (p_content_read st + n)) (set_p_total (wrap64 (p_total st + n)) (set_p_last n st)) in
  if cf_handler cf then (set_p_payload (p_payload st ++ s) st1, m)
  else (st1, set_m_cache (cache_fill cf (m_cache m) s) m).

(* ------------------------------------------------------------------ header data, finish *)

(** [parse_cookie_header] for every Cookie / Set-Cookie header in range order; http_parser.cpp:716-745 *)
Definition add_cookies (cf : pcfg) (set_cookie : bool) (headers : dict) (cookies : dict) : dict :=
  fold_left (fun d p => d_insert_all (cf_pos cf) d (snd (parse_cookie_header set_cookie (snd p)))) headers cookies.

(** src/http_parser.cpp:698-750 *)
Definition update_message (cf : pcfg) (h : hdrs) (m : msg) : msg :=
  if cf_request cf then
    let m1 := set_m_query_string (h_query h) (set_m_resource (h_resource h) (set_m_method (h_method h) m)) in
    let m2 := match h_query h with
              | [] => m1
              | _ => set_m_queries (d_insert_all (cf_pos cf) (m_queries m1) (snd (parse_url_encoded (h_query h)))) m1
              end in
    set_m_cookies (add_cookies cf false (d_range (m_headers m2) HEADER_COOKIE) (m_cookies m2)) m2
  else
    let m1 := set_m_reason (h_reason h) (set_m_code (h_code h) m) in
    set_m_cookies (add_cookies cf true (d_range (m_headers m1) HEADER_SET_COOKIE) (m_cookies m1)) m1.

(** src/http_parser.cpp:1649-1661 *)
Definition compute_status (m : msg) (ok : bool) : msg :=
  set_m_status (if m_missing m then (if m_after m then STATUS_PARTIAL else STATUS_TRUNCATED)
                else if ok then STATUS_OK else STATUS_TRUNCATED) m.

(** src/http_parser.cpp:752-837 ([finished_parsing_headers] is a hook, empty by default). The sub-result has the
    phase set; [None] as error unless the Content-Length is malformed. *)
Definition finish_headers (cf : pcfg) (st : pst) (m : msg) : outcome (tri * option perr * (pst * msg)) :=
  let st0 := set_p_remaining 0 (set_p_content_read 0 st) in
  let m0 := update_message cf (p_h st) (update_transfer_encoding (set_m_clen 0 m)) in
  let ho := if cf_headers_only cf then TTrue else TIndet in
  if m_chunked m0 then Ok (ho, None, (set_p_phase PChunks st0, m0))
  else if is_content_length_implied (cf_request cf) m0 then Ok (TTrue, None, (set_p_phase PEnd st0, m0))
  else if d_has (m_headers m0) HEADER_CONTENT_LENGTH then
    match update_content_length m0 with
    | None => Ok (TFalse, Some E_INVALID_CONTENT_LENGTH, (st0, m0))
    | Some m1 =>
      if m_clen m1 =? 0 then Ok (TTrue, None, (set_p_phase PEnd st0, m1))
      else
        let st1 := set_p_remaining (m_clen m1) (set_p_phase PContent st0) in
        let m2 := if cf_max cf <? m_clen m1 then set_m_clen (cf_max cf) m1 else m1 in
        if cf_headers_only cf then Ok (TTrue, None, (st1, m2))
        else obind (create_content_buffer m2) (fun m3 => Ok (TIndet, None, (st1, m3)))
    end
  else if cf_request cf then Ok (TTrue, None, (set_p_phase PEnd st0, m0))
  else Ok (ho, None, (set_p_phase PContentNoLength st0, set_m_cache [] m0)).

(** src/http_parser.cpp:1622-1646: form data of a request *)
Definition finish_forms (cf : pcfg) (m : msg) : outcome msg :=
  if cf_request cf && negb (cf_handler cf) && negb (cf_headers_only cf) then
    let ct := d_get (m_headers m) HEADER_CONTENT_TYPE in
    if is_prefix CONTENT_TYPE_URLENCODED ct then
      obind (content_of m) (fun body =>
        Ok (set_m_queries (d_insert_all (cf_pos cf) (m_queries m) (snd (parse_url_encoded body))) m))
    else if is_prefix CONTENT_TYPE_MULTIPART ct then
      obind (content_of m) (fun body =>
        match parse_multipart ct body with
        | MPOk _ out => Ok (set_m_queries (d_insert_all (cf_pos cf) (m_queries m) out) m)
        | _ => Bad BadException
        end)
    else Ok m
  else Ok m.

(** src/http_parser.cpp:1587-1647 *)
Definition finish (cf : pcfg) (st : pst) (m : msg) : outcome msg :=
  let tail m' := finish_forms cf (compute_status m' (m_valid m')) in
  match p_phase st with
  | PStart => create_content_buffer (set_m_clen 0 (set_m_valid false m))
  | PEnd => tail (set_m_valid true m)
  | PHeaders | PFooters =>
    obind (create_content_buffer (set_m_clen 0 (update_message cf (p_h st) (set_m_valid false m)))) tail
  | PContent =>
    let m1 := set_m_valid false m in
    tail (if p_content_read st <? cf_max cf then set_m_clen (p_content_read st) m1 else m1)
  | PChunks =>
    let m1 := set_m_valid (match k_state (p_k st) with KSizeStart => true | _ => false end) m in
    if cf_handler cf then tail m1 else obind (concatenate_chunks m1) tail
  | PContentNoLength =>
    let m1 := set_m_valid true m in
    if cf_handler cf then tail m1 else obind (concatenate_chunks m1) tail
  end.

(* ------------------------------------------------------------------ parse *)

(** One round of the do-while loop, src/http_parser.cpp:68-114. *)
Definition p_round (cf : pcfg) (st : pst) (m : msg) (s : list Z) : outcome (sub (pst * msg)) :=
  match p_phase st with
  | PStart | PHeaders =>
    let r := parse_headers cf (set_p_phase PHeaders st) m s in
    match s_rc r with
    | TTrue =>
      obind (finish_headers cf (fst (s_st r)) (snd (s_st r))) (fun x =>
        match x with (rc, e, stm) => Ok (mksub rc e stm (s_rest r)) end)
    | _ => Ok r
    end
  | PFooters => Ok (parse_headers cf st m s)
  | PChunks =>
    let r := parse_chunks cf st m s in
    match s_rc r with
    | TTrue =>
      if cf_handler cf then Ok r
      else obind (concatenate_chunks (snd (s_st r))) (fun m' =>
             Ok (mksub (match p_phase (fst (s_st r)) with PFooters => TIndet | _ => TTrue end) (s_err r)
                       (fst (s_st r), m') (s_rest r)))
    | _ => Ok r
    end
  | PContent => consume_content cf st m s
  | PContentNoLength => Ok (mksub TIndet None (consume_no_length cf st m s) [])
  | PEnd => Ok (mksub TTrue None (st, m) s)
  end.

(** [total_bytes_parsed += m_bytes_last_read] of the round that just ended; http_parser.cpp:78, 90, 104, 110 *)
Definition round_bytes (st : pst) (st' : pst) : Z := match p_phase st with PEnd => 0 | _ => p_last st' end.

(** The loop: while indeterminate and bytes are left. Three rounds are the most there can be (headers, chunks,
    footers); one more is allowed for, and running out gives [None]. http_parser.cpp:67-118 *)
Fixpoint p_loop (fuel : nat) (cf : pcfg) (st : pst) (m : msg) (s : list Z) (total : Z) : outcome (option (sub (pst * msg) * Z)) :=
  match fuel with
  | O => Ok None
  | S f =>
    obind (p_round cf st m s) (fun r =>
      let total' := total + round_bytes st (fst (s_st r)) in
      match s_rc r, s_rest r with
      | TIndet, _ :: _ => p_loop f cf (fst (s_st r)) (snd (s_st r)) (s_rest r) total'
      | _, _ => Ok (Some (r, total'))
      end)
  end.

(** What [parse] gives back: result, error code, parser and message afterwards, unread bytes. http_parser.cpp:55-132 *)
Record presult := mkpres { r_rc : tri; r_err : option perr; r_st : pst; r_msg : msg; r_rest : list Z }.

(** src/http_parser.cpp:55-132. [None] (never reached, see [parse_total]) if the loop does not end. The read buffer
    is not empty (line 58). *)
Definition parse (cf : pcfg) (st : pst) (m : msg) (s : list Z) : outcome (option presult) :=
  let m0 := if m_missing m then set_m_after true m else m in
  obind (p_loop 4 cf st m0 s 0) (fun o =>
    match o with
    | None => Ok None
    | Some (r, total) =>
      match s_rc r with
      | TTrue =>
        let st1 := set_p_phase PEnd (fst (s_st r)) in
        obind (finish cf st1 (snd (s_st r))) (fun m1 =>
          Ok (Some (mkpres TTrue (s_err r) (set_p_last total st1) m1 (s_rest r))))
      | TFalse =>
        Ok (Some (mkpres TFalse (s_err r) (set_p_last total (fst (s_st r))) (compute_status (snd (s_st r)) false) (s_rest r)))
      | TIndet => Ok (Some (mkpres TIndet (s_err r) (set_p_last total (fst (s_st r))) (snd (s_st r)) (s_rest r)))
      end
    end).

(** http/parser.hpp:209-216 *)
Definition check_premature_eof (cf : pcfg) (st : pst) (m : msg) : outcome (bool * pst * msg) :=
  match p_phase st with
  | PContentNoLength =>
    let st1 := set_p_phase PEnd st in
    obind (concatenate_chunks m) (fun m1 => obind (finish cf st1 m1) (fun m2 => Ok (false, st1, m2)))
  | _ => Ok (true, st, m)
  end.

(* ------------------------------------------------------------------ parse_missing_data *)

(** the bytes [parse_missing_data] puts in place of those missing, http_parser.cpp:137, 151-240 *)
Definition missing_bytes (n : Z) : list Z := repeat (ch "X") (Z.to_nat n).

(** src/http_parser.cpp:134-246 *)
Definition missing_step (cf : pcfg) (st : pst) (m : msg) (len : Z) : outcome (tri * option perr * pst * msg) :=
  match p_phase st with
  | PStart | PHeaders | PFooters => Ok (TFalse, Some E_MISSING_HEADER_DATA, st, m)
  | PChunks =>
    let k := p_k st in
    if match k_state k with KChunk => true | _ => false end && (k_read k <? k_size k) && (len <=? k_size k - k_read k) then
      let st1 := if cf_handler cf then set_p_payload (p_payload st ++ missing_bytes len) st else st in
      let m1 := if cf_handler cf then m else set_m_cache (cache_fill cf (m_cache m) (missing_bytes len)) m in
      let k1 := set_k_read (k_read k + len) k in
      let k2 := if k_read k1 =? k_size k1 then set_k_state KCRAfterChunk k1 else k1 in
      Ok (TIndet, None,
          set_p_content_read (wrap64 (p_content_read st + len))
            (set_p_total (wrap64 (p_total st + len)) (set_p_last len (set_p_k k2 st1))), m1)
    else Ok (TFalse, Some E_MISSING_CHUNK_DATA, st, m)
  | PContent =>
    if p_remaining st =? 0 then Ok (TTrue, None, st, m)
    else if p_remaining st <? len then Ok (TFalse, Some E_MISSING_TOO_MUCH_CONTENT, st, m)
    else
      let stm :=
        if cf_handler cf then Ok (set_p_payload (p_payload st ++ missing_bytes len) st, m)
        else if wrap64 (p_content_read st + len) <=? cf_max cf then
          obind (buf_write m (p_content_read st) (missing_bytes len)) (fun m' =>
            Ok (set_p_content_read (wrap64 (p_content_read st + len)) st, m'))
        else Ok (set_p_content_read (wrap64 (p_content_read st + len)) st, m) in
      obind stm (fun x =>
        let rem := p_remaining st - len in
        Ok (if rem =? 0 then TTrue else TIndet, None,
            set_p_remaining rem (set_p_total (wrap64 (p_total st + len)) (set_p_last len (fst x))), snd x))
  | PContentNoLength =>
    let st1 := if cf_handler cf then set_p_payload (p_payload st ++ missing_bytes len) st else st in
    let m1 := if cf_handler cf then m else set_m_cache (cache_fill cf (m_cache m) (missing_bytes len)) m in
    Ok (TIndet, None,
        set_p_content_read (wrap64 (p_content_read st + len)) (set_p_total (wrap64 (p_total st + len)) (set_p_last len st1)), m1)
  | PEnd => Ok (TTrue, None, st, m)
  end.
(** http_parser.cpp:134-246 *)
Definition parse_missing_data (cf : pcfg) (st : pst) (m : msg) (len : Z) : outcome (tri * option perr * pst * msg) :=
  obind (missing_step cf st (set_m_missing true m) len) (fun x =>
    match x with
    | (TTrue, e, st1, m1) => let st2 := set_p_phase PEnd st1 in obind (finish cf st2 m1) (fun m2 => Ok (TTrue, e, st2, m2))
    | (TFalse, e, st1, m1) => Ok (TFalse, e, st1, compute_status m1 false)
    | (TIndet, e, st1, m1) => Ok (TIndet, e, st1, m1)
    end).
