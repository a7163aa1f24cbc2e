(** Specification of the HTTP parser properties: how callers drive the parser and what they see of it. *)
From Coq Require Import String ZArith List Bool Permutation.
From Verif Require Import Base DictModel HttpModel.
Import ListNotations.

(** States of a parser and the message it fills that a caller can reach: a new or reset parser with a message that
    satisfies [ok], what any call of [parse] (on a non-empty buffer) leaves and, if [miss], what any call of
    [parse_missing_data] leaves. *)
Inductive reach (ok : msg -> Prop) (miss : bool) (cf : pcfg) : pst -> msg -> Prop :=
  | reach_new m : ok m -> reach ok miss cf (p_init cf) m
  | reach_reset st m m' : reach ok miss cf st m -> ok m' -> reach ok miss cf (p_reset cf st) m'
  | reach_parse st m s r : reach ok miss cf st m -> s <> [] -> parse cf st m s = Ok (Some r) ->
      reach ok miss cf (r_st r) (r_msg r)
  | reach_missing st m len rc e st' m' : reach ok miss cf st m -> miss = true -> 0 <= len < two64 ->
      parse_missing_data cf st m len = Ok (rc, e, st', m') -> reach ok miss cf st' m'.

(** any message, and one without left-over chunks (a new or cleared one) *)
Definition any_msg (_ : msg) : Prop := True.
Definition clean_msg (m : msg) : Prop := m_cache m = [].
(** a new or cleared message: no content, no headers *)
Definition new_msg (m : msg) : Prop := m_cache m = [] /\ m_buf m = [] /\ m_clen m = 0 /\ m_headers m = [] /\ m_missing m = false.

(** A caller that hands over one buffer after the other until the parser reports success or an error; the bytes
    not yet handed over then follow the unread ones. *)
Fixpoint feed (cf : pcfg) (st : pst) (m : msg) (pieces : list (list Z)) : outcome (option presult) :=
  match pieces with
  | [] => Ok (Some (mkpres TIndet None st m []))
  | s :: ps =>
    match parse cf st m s with
    | Ok (Some r) =>
      match r_rc r with
      | TIndet => feed cf (r_st r) (r_msg r) ps
      | _ => Ok (Some (mkpres (r_rc r) (r_err r) (r_st r) (r_msg r) (r_rest r ++ concat ps)))
      end
    | o => o
    end
  end.

(** pieces of a byte stream: non-empty and together the stream *)
Definition cut (pieces : list (list Z)) (s : list Z) : Prop := Forall (fun p => p <> []) pieces /\ concat pieces = s.

(** Two results look alike: same answer, error code, message, unread bytes, payload handed out, saved raw headers;
    and the same parser state up to the byte count of the last call. After an error, the counters
    of bytes read are not compared. *)
Definition same_state (rc : tri) (a b : pst) : Prop :=
  p_phase a = p_phase b /\ p_h a = p_h b /\ p_k a = p_k b /\ p_remaining a = p_remaining b /\ p_payload a = p_payload b
  /\ (rc <> TFalse -> p_total a = p_total b /\ p_content_read a = p_content_read b).
Definition same_result (a b : presult) : Prop :=
  r_rc a = r_rc b /\ r_err a = r_err b /\ r_msg a = r_msg b /\ r_rest a = r_rest b /\ same_state (r_rc a) (r_st a) (r_st b).
Definition same_outcome (a b : outcome (option presult)) : Prop :=
  match a, b with
  | Ok (Some x), Ok (Some y) => same_result x y
  | Bad x, Bad y => x = y
  | _, _ => False
  end.

(* ------------------------------------------------------------------ legal messages on the wire *)

Definition CRLF : list Z := [13; 10].

(** RFC 2616 separators (with space and tab) and token characters *)
Definition separators : list Z := bs "()<>@,;:\" ++ [34] ++ bs "/[]?={} " ++ [9].
Definition token_char (c : Z) : Prop := 33 <= c <= 126 /\ ~ In c separators.
(** visible bytes of a URI, not the question mark *)
Definition uri_char (c : Z) : Prop := 33 <= c < 256 /\ c <> 127 /\ c <> 63.
Definition query_char (c : Z) : Prop := 33 <= c < 256 /\ c <> 127.
(** text without control characters; header values may have tabs *)
Definition text_char (c : Z) : Prop := 32 <= c < 256 /\ c <> 127.
Definition value_char (c : Z) : Prop := text_char c \/ c = 9.

Definition digit_val (c : Z) : Z := c - 48.
Definition is_dec (c : Z) : Prop := 48 <= c <= 57.
(** value of a decimal numeral *)
Definition dec_value (s : list Z) : Z := fold_left (fun a c => a * 10 + digit_val c) s 0.

Definition hdr := (list Z * list Z)%type.
Definition hdr_ok (p : hdr) : Prop :=
  fst p <> [] /\ Forall token_char (fst p) /\ zlen (fst p) <= 1024 /\ Forall value_char (snd p) /\ zlen (snd p) <= 1048576.
(** "name: value" lines *)
Definition wire_hdr (p : hdr) : list Z := fst p ++ bs ": " ++ snd p ++ CRLF.
Definition wire_hdrs (l : list hdr) : list Z := concat (map wire_hdr l).

Record version := { v_maj : list Z; v_min : list Z }.
Definition version_ok (v : version) : Prop :=
  v_maj v <> [] /\ v_min v <> [] /\ Forall is_dec (v_maj v) /\ Forall is_dec (v_min v)
  /\ dec_value (v_maj v) < 65536 /\ dec_value (v_min v) < 65536.
Definition wire_version (v : version) : list Z := bs "HTTP/" ++ v_maj v ++ bs "." ++ v_min v.

Record reqline := { rl_method : list Z; rl_resource : list Z; rl_query : option (list Z); rl_version : version }.
Definition reqline_ok (r : reqline) : Prop :=
  rl_method r <> [] /\ Forall token_char (rl_method r) /\ zlen (rl_method r) <= 1024
  /\ Forall uri_char (rl_resource r) /\ zlen (rl_resource r) <= 262144
  /\ match rl_query r with Some q => Forall query_char q /\ zlen q <= 1048576 | None => True end
  /\ version_ok (rl_version r) /\ 0 < dec_value (v_maj (rl_version r)).
Definition wire_reqline (r : reqline) : list Z :=
  rl_method r ++ bs " " ++ rl_resource r ++ match rl_query r with Some q => bs "?" ++ q | None => [] end
  ++ bs " " ++ wire_version (rl_version r) ++ CRLF.

Record statline := { sl_version : version; sl_code : list Z; sl_reason : list Z }.
Definition statline_ok (r : statline) : Prop :=
  version_ok (sl_version r) /\ sl_code r <> [] /\ Forall is_dec (sl_code r) /\ dec_value (sl_code r) < 65536
  /\ Forall text_char (sl_reason r) /\ zlen (sl_reason r) <= 1024.
Definition wire_statline (r : statline) : list Z :=
  wire_version (sl_version r) ++ bs " " ++ sl_code r ++ bs " " ++ sl_reason r ++ CRLF.

(** names are compared without regard to case *)
Definition ascii_low (c : Z) : Z := if (65 <=? c) && (c <=? 90) then c + 32 else c.
Definition same_name (a b : list Z) : bool := if list_eq_dec Z.eq_dec (map ascii_low a) (map ascii_low b) then true else false.
(** the values of the headers of a name *)
Definition values_of (name : list Z) (l : list hdr) : list (list Z) := map snd (filter (fun p => same_name (fst p) name) l).

(** a message head: first line, headers, empty line *)
Inductive head := HReq (r : reqline) (l : list hdr) | HResp (r : statline) (l : list hdr).
Definition hdrs_of (hd : head) : list hdr := match hd with HReq _ l => l | HResp _ l => l end.
Definition head_ok (cf : pcfg) (hd : head) : Prop :=
  match hd with
  | HReq r l => cf_request cf = true /\ reqline_ok r /\ Forall hdr_ok l
  | HResp r l => cf_request cf = false /\ statline_ok r /\ Forall hdr_ok l
  end.
Definition wire_head (hd : head) : list Z :=
  match hd with HReq r _ => wire_reqline r | HResp r _ => wire_statline r end ++ wire_hdrs (hdrs_of hd) ++ CRLF.

(** a response that never has a body, whatever its headers say *)
Definition bodiless (m : msg) (hd : head) : Prop :=
  match hd with
  | HReq _ _ => False
  | HResp r _ => let c := dec_value (sl_code r) in
      m_req_method m = bs "HEAD" \/ 100 <= c <= 199 \/ c = 204 \/ c = 205 \/ c = 304
  end.

(** no body that [finish] would take for a multipart form *)
Definition no_multipart (hd : head) : Prop :=
  forall v, In v (values_of (bs "Content-Type") (hdrs_of hd)) -> ~ exists t, v = bs "multipart/form-data" ++ t.

(** a chunked body: sizes in hexadecimal, optional blanks or an extension after the size, trailers after the last *)
Definition hex_char (c : Z) : Prop := 48 <= c <= 57 \/ 65 <= c <= 70 \/ 97 <= c <= 102.
Definition hex_digit_val (c : Z) : Z := if c <=? 57 then c - 48 else if c <=? 70 then c - 55 else c - 87.
Definition hex_number (s : list Z) : Z := fold_left (fun a c => a * 16 + hex_digit_val c) s 0.
Definition ext_ok (e : list Z) : Prop := Forall (fun c => c = 32 \/ c = 9) e \/ exists t, e = bs ";" ++ t /\ Forall (fun c => c <> 13) t.
Record chunk := { c_size : list Z; c_ext : list Z; c_data : list Z }.
Definition chunk_ok (c : chunk) : Prop :=
  c_size c <> [] /\ Forall hex_char (c_size c) /\ ext_ok (c_ext c)
  /\ hex_number (c_size c) = zlen (c_data c) /\ 0 < zlen (c_data c) < 9223372036854775808.
Definition last_ok (size ext : list Z) : Prop :=
  size <> [] /\ Forall hex_char size /\ ext_ok ext /\ hex_number size = 0.
Definition wire_chunk (c : chunk) : list Z := c_size c ++ c_ext c ++ CRLF ++ c_data c ++ CRLF.
Definition chunk_data (l : list chunk) : list Z := concat (map c_data l).
Definition wire_chunks (l : list chunk) (size ext : list Z) (trailers : list hdr) : list Z :=
  concat (map wire_chunk l) ++ size ++ ext ++ CRLF ++ wire_hdrs trailers ++ CRLF.

(** the value of a Transfer-Encoding header that means chunked (as the library reads it) *)
Definition says_chunked (v : list Z) : Prop := exists a b, map ascii_low v = a ++ bs "chunked" ++ b.
(** no transfer coding that means chunked: none at all, or others only *)
Definition no_chunks (hd : head) : Prop := forall v, In v (values_of (bs "Transfer-Encoding") (hdrs_of hd)) -> ~ says_chunked v.

(** a parser that stores the content, one that hands it to a payload handler *)
Definition storing (cf : pcfg) : Prop := 0 <= cf_max cf < two64 /\ cf_headers_only cf = false /\ cf_handler cf = false.
Definition streaming (cf : pcfg) : Prop := 0 <= cf_max cf < two64 /\ cf_headers_only cf = false /\ cf_handler cf = true.

(** the first line of a message was recovered *)
Definition first_line (hd : head) (m : msg) : Prop :=
  match hd with
  | HReq r _ => m_method m = rl_method r /\ m_resource m = rl_resource r
                /\ m_query_string m = match rl_query r with Some q => q | None => [] end
                /\ m_vmaj m = dec_value (v_maj (rl_version r)) /\ m_vmin m = dec_value (v_min (rl_version r))
  | HResp r _ => m_code m = dec_value (sl_code r) /\ m_reason m = sl_reason r
                /\ m_vmaj m = dec_value (v_maj (sl_version r)) /\ m_vmin m = dec_value (v_min (sl_version r))
  end.

(** what the caller gets for a finished message: result, no error, a valid message with status "ok", its content, first line
    and headers (in some order), and the bytes behind it *)
Definition finished (hd : head) (o : outcome (option presult)) (content : list Z) (hs : list hdr) (rest : list Z) : Prop :=
  exists r, o = Ok (Some r) /\ r_rc r = TTrue /\ r_err r = None /\ m_valid (r_msg r) = true /\ m_status (r_msg r) = STATUS_OK
            /\ content_of (r_msg r) = Ok content /\ first_line hd (r_msg r) /\ Permutation hs (m_headers (r_msg r)) /\ r_rest r = rest.
(** the same with a payload handler: the handler got [payload], the message stores nothing *)
Definition streamed (hd : head) (o : outcome (option presult)) (payload : list Z) (hs : list hdr) (rest : list Z) : Prop :=
  exists r, o = Ok (Some r) /\ r_rc r = TTrue /\ r_err r = None /\ m_valid (r_msg r) = true /\ m_status (r_msg r) = STATUS_OK
            /\ p_payload (r_st r) = payload /\ Forall (fun b => b = None) (m_buf (r_msg r)) /\ m_cache (r_msg r) = []
            /\ first_line hd (r_msg r) /\ Permutation hs (m_headers (r_msg r)) /\ r_rest r = rest.

(** the documented limits on what is kept of the head of a message *)
Definition within_limits (m : msg) : Prop :=
  zlen (m_method m) <= 1024 /\ zlen (m_resource m) <= 262144 /\ zlen (m_query_string m) <= 1048576 /\ zlen (m_reason m) <= 1024
  /\ Forall (fun p => zlen (fst p) <= 1024 /\ zlen (snd p) <= 1048576) (m_headers m).

(** the beginning of a message in which one field is longer than allowed, and the error this is to give *)
Inductive too_long (cf : pcfg) : list Z -> perr -> Prop :=
  | TL_method s : cf_request cf = true -> Forall token_char s -> 1024 < zlen s -> too_long cf s E_METHOD_SIZE
  | TL_resource me s : cf_request cf = true -> me <> [] -> Forall token_char me -> zlen me <= 1024 ->
      Forall uri_char s -> 262144 < zlen s -> too_long cf (me ++ bs " " ++ s) E_URI_SIZE
  | TL_query me re s : cf_request cf = true -> me <> [] -> Forall token_char me -> zlen me <= 1024 ->
      Forall uri_char re -> zlen re <= 262144 -> Forall query_char s -> 1048576 < zlen s ->
      too_long cf (me ++ bs " " ++ re ++ bs "?" ++ s) E_QUERY_SIZE
  | TL_reason v co s : cf_request cf = false -> version_ok v -> co <> [] -> Forall is_dec co -> dec_value co < 65536 ->
      Forall text_char s -> 1024 < zlen s ->
      too_long cf (wire_version v ++ bs " " ++ co ++ bs " " ++ s) E_STATUS_CHAR
  | TL_name hd s : head_ok cf hd -> Forall token_char s -> 1024 < zlen s ->
      too_long cf (match hd with HReq r _ => wire_reqline r | HResp r _ => wire_statline r end ++ wire_hdrs (hdrs_of hd) ++ s) E_HEADER_NAME_SIZE
  | TL_value hd na s : head_ok cf hd -> na <> [] -> Forall token_char na -> zlen na <= 1024 -> Forall value_char s -> 1048576 < zlen s ->
      too_long cf (match hd with HReq r _ => wire_reqline r | HResp r _ => wire_statline r end ++ wire_hdrs (hdrs_of hd) ++ na ++ bs ": " ++ s) E_HEADER_VALUE_SIZE.
