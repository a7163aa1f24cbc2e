(** Model of the texts of errors: include/pion/http/parser.hpp:51-118, include/pion/spdy/parser.hpp:44-73. *)
From Coq Require Import String ZArith List Bool.
From Verif Require Import Base HttpModel SpdyModel.
Import ListNotations.

(** the values of the enumeration, http/parser.hpp:51-71 *)
Definition err_value (e : perr) : Z :=
  match e with
  | E_METHOD_CHAR => 1 | E_METHOD_SIZE => 2 | E_URI_CHAR => 3 | E_URI_SIZE => 4 | E_QUERY_CHAR => 5 | E_QUERY_SIZE => 6
  | E_VERSION_EMPTY => 7 | E_VERSION_CHAR => 8 | E_STATUS_EMPTY => 9 | E_STATUS_CHAR => 10 | E_HEADER_CHAR => 11
  | E_HEADER_NAME_SIZE => 12 | E_HEADER_VALUE_SIZE => 13 | E_INVALID_CONTENT_LENGTH => 14 | E_CHUNK_CHAR => 15
  | E_MISSING_CHUNK_DATA => 16 | E_MISSING_HEADER_DATA => 17 | E_MISSING_TOO_MUCH_CONTENT => 18
  end.
(** [error_category_t::message()], http/parser.hpp:79-118 *)
Definition err_message (ev : Z) : list Z :=
  if ev =? err_value E_METHOD_CHAR then bs "invalid method character"
  else if ev =? err_value E_METHOD_SIZE then bs "method exceeds maximum size"
  else if ev =? err_value E_URI_CHAR then bs "invalid URI character"
  else if ev =? err_value E_URI_SIZE then bs "method exceeds maximum size"
  else if ev =? err_value E_QUERY_CHAR then bs "invalid query string character"
  else if ev =? err_value E_QUERY_SIZE then bs "query string exceeds maximum size"
  else if ev =? err_value E_VERSION_EMPTY then bs "HTTP version undefined"
  else if ev =? err_value E_VERSION_CHAR then bs "invalid version character"
  else if ev =? err_value E_STATUS_EMPTY then bs "HTTP status undefined"
  else if ev =? err_value E_STATUS_CHAR then bs "invalid status character"
  else if ev =? err_value E_HEADER_CHAR then bs "invalid header character"
  else if ev =? err_value E_HEADER_NAME_SIZE then bs "header name exceeds maximum size"
  else if ev =? err_value E_HEADER_VALUE_SIZE then bs "header value exceeds maximum size"
  else if ev =? err_value E_INVALID_CONTENT_LENGTH then bs "invalid Content-Length header"
  else if ev =? err_value E_CHUNK_CHAR then bs "invalid chunk character"
  else if ev =? err_value E_MISSING_HEADER_DATA then bs "missing header data"
  else if ev =? err_value E_MISSING_CHUNK_DATA then bs "missing chunk data"
  else if ev =? err_value E_MISSING_TOO_MUCH_CONTENT then bs "missing too much content"
  else bs "parser error".
(** What the server writes to its log when a request is refused, http_server.cpp:45 *)
Definition log_invalid (e : perr) : list Z := bs "Invalid HTTP request (" ++ err_message (err_value e) ++ bs ")".

(** spdy/parser.hpp:44-51 *)
Definition serr_value (e : serr) : Z := match e with EFrame => 1 | EVersion => 2 | EDecompress => 3 | EProtocol => 4 | EInternal => 5 end.
(** spdy/parser.hpp:59-73; 6 is ERROR_MISSING_HEADER_DATA, which is never raised *)
Definition serr_message (ev : Z) : list Z :=
  if ev =? serr_value EFrame then bs "invalid spdy frame"
  else if ev =? serr_value EVersion then bs "invalid spdy version"
  else if ev =? serr_value EDecompress then bs "error in decompression"
  else if ev =? 6 then bs "missing header data"
  else bs "SPDYParser error".
