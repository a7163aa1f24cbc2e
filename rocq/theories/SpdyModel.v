(** Model of pion::spdy::parser and pion::spdy::decompressor: src/spdy_parser.cpp, src/spdy_decompressor.cpp,
    include/pion/spdy/{parser,decompressor,types}.hpp. Every read of the packet and of the decompressor's buffer goes
    through [rd] and [rdb], so a read outside is the distinct outcome [SRead]. zlib is a parameter. Logging is left out. *)
From Coq Require Import String ZArith List Bool.
From Verif Require Import Base SMap AlgModel HttpModel.
Import ListNotations.

(** returns; reads memory outside the packet or the buffer, or a byte never written; fails a [BOOST_ASSERT]; for spdy_parser.cpp:57-558 *)
Inductive sres (A : Type) := SOk (a : A) | SRead | SAssert.
Arguments SOk {A}. Arguments SRead {A}. Arguments SAssert {A}.
(** for spdy_parser.cpp:57-558 *)
Definition sbind {A B} (x : sres A) (f : A -> sres B) : sres B :=
  match x with SOk a => f a | SRead => SRead | SAssert => SAssert end.
Notation "'do' x <- a ; b" := (sbind a (fun x => b)) (at level 200, x pattern, a at level 100, b at level 200).

(** [n] bytes at offset [p] of the memory the packet is in. Computing a pointer outside is not an error, reading through it is. reads through [m_read_ptr], spdy_parser.cpp:71-558, algorithm.hpp:197-239 *)
Definition rd (mem : list Z) (p n : Z) : sres (list Z) :=
  if (0 <=? p) && (p + n <=? zlen mem) then SOk (firstn (Z.to_nat n) (skipn (Z.to_nat p) mem)) else SRead.
(** reads through [m_read_ptr], spdy_parser.cpp:71-558, algorithm.hpp:197-239 *)
Definition rd16 mem p := do b <- rd mem p 2; SOk (to_uint16 b).
(** reads through [m_read_ptr], spdy_parser.cpp:71-558, algorithm.hpp:197-239 *)
Definition rd32 mem p := do b <- rd mem p 4; SOk (to_uint32 b).
(** reads through [m_read_ptr], spdy_parser.cpp:71-558, algorithm.hpp:197-239 *)
Definition rd8 mem p := do b <- rd mem p 1; SOk (nth 0 b 0).

(** spdy/types.hpp:24-45 *)
Definition SPDY_DATA := 0.
(** spdy/types.hpp:25 *)
Definition SPDY_SYN_STREAM := 1.
(** spdy/types.hpp:26 *)
Definition SPDY_SYN_REPLY := 2.
(** spdy/types.hpp:27 *)
Definition SPDY_RST_STREAM := 3.
(** spdy/types.hpp:28 *)
Definition SPDY_SETTINGS := 4.
(** spdy/types.hpp:29 *)
Definition SPDY_PING := 6.
(** spdy/types.hpp:30 *)
Definition SPDY_GOAWAY := 7.
(** spdy/types.hpp:31 *)
Definition SPDY_HEADERS := 8.
(** spdy/types.hpp:32 *)
Definition SPDY_WINDOW_UPDATE := 9.
(** spdy/types.hpp:33 *)
Definition SPDY_CREDENTIAL := 10.
(** spdy/types.hpp:34 *)
Definition SPDY_INVALID := 11.
(** spdy/types.hpp:21 *)
Definition MIN_SPDY_VERSION := 3.
(** spdy/types.hpp:41-45 *)
Inductive htype := NON_SPDY | HTTP_REQUEST | HTTP_RESPONSE | HTTP_DATA | SPDY_CONTROL.

(** spdy/types.hpp:48-54 *)
Record frame := mkf { f_control : bool; f_version : Z; f_type : Z; f_flags : Z; f_length : Z }.
(** spdy/types.hpp:69-84 *)
Record info := mki { i_headers : smap (list Z); i_type : htype; i_stream : Z; i_offset : Z; i_size : Z; i_last : bool }.
(** spdy/types.hpp:77-82 *)
Definition info_init : info := mki [] NON_SPDY 0 0 0 false.
(** assignment to the member of spdy/types.hpp:71 *)
Definition set_i_type t i := mki (i_headers i) t (i_stream i) (i_offset i) (i_size i) (i_last i).
(** assignment to the member of spdy/types.hpp:72 *)
Definition set_i_stream s i := mki (i_headers i) (i_type i) s (i_offset i) (i_size i) (i_last i).
(** assignment to the member of spdy/types.hpp:70 *)
Definition set_i_headers h i := mki h (i_type i) (i_stream i) (i_offset i) (i_size i) (i_last i).
(** assignment to the member of spdy/types.hpp:75 *)
Definition set_i_last i := mki (i_headers i) (i_type i) (i_stream i) (i_offset i) (i_size i) true.
(** spdy/parser.hpp:45-52; ERROR_MISSING_HEADER_DATA is never raised *)
Inductive serr := EFrame | EVersion | EDecompress | EProtocol | EInternal.

(** spdy_parser.cpp:71-105 *)
Definition is_spdy_control_frame (mem : list Z) (p : Z) : sres bool :=
  do v <- rd16 mem p;
  if Z.shiftr v 15 =? 0 then SOk false
  else let version := Z.land v 32767 in
  if (version <? 1) || (3 <? version) then SOk false
  else do type <- rd16 mem (p + 2);
  if SPDY_INVALID <=? type then SOk false else SOk true.

(** spdy_parser.cpp:107-131; spdy/types.hpp:86-90 *)
Inductive ftype := FData | FControl | FInvalid.
(** spdy_parser.cpp:107-131 *)
Definition get_spdy_frame_type (mem : list Z) (p : Z) : sres ftype :=
  do b <- rd8 mem p;
  SOk (if b =? 128 then FControl else if b =? 0 then FData else FInvalid).

(** spdy_parser.cpp:133-140 *)
Definition get_control_frame_stream_id (mem : list Z) (p : Z) : sres Z :=
  do v <- rd32 mem (p + 8); SOk (Z.land v 2147483647).

(** What [populate_frame] leaves: [None] for the error return with ERROR_INVALID_SPDY_FRAME; spdy_parser.cpp:264-346 *)
Record populated := mkp { p_frame : frame; p_stream : Z; p_info : info; p_len : Z; p_read : Z }.
(** spdy_parser.cpp:264-346. [p] is [m_read_ptr]; [length_packet] and [data_offset] are 32 bit unsigned. *)
Definition populate_frame (mem : list Z) (p len : Z) (i : info) : sres (option populated) :=
  do v <- rd16 mem p;
  let control := negb (Z.shiftr v 15 =? 0) in
  let skip n i := mki (i_headers i) (i_type i) (i_stream i) (wrap32 (i_offset i + n)) (i_size i) (i_last i) in
  let tail version type stream i1 :=
    let len2 := wrap32 (wrap32 (len - 2) - 2) in
    let i2 := skip 2 i1 in
    do flags <- rd8 mem (p + 4);
    do v4 <- rd32 mem (p + 4);
    let length := Z.land v4 16777215 in
    let i3 := skip 4 i2 in
    let i4 := mki (i_headers i3) (i_type i3) (i_stream i3) (i_offset i3) length (i_last i3) in
    let fr := mkf control version type flags length in
    if control then do s4 <- rd32 mem (p + 8); SOk (Some (mkp fr (Z.land s4 2147483647) i4 (wrap32 (len2 - 4)) (p + 8)))
    else SOk (Some (mkp fr stream i4 (wrap32 (len2 - 4)) (p + 8))) in
  if control then
    do type <- rd16 mem (p + 2);
    if SPDY_INVALID <=? type then SOk None else tail (Z.land v 32767) type 0 (skip 2 i)
  else
    do s4 <- rd32 mem p;
    let stream := Z.land s4 2147483647 in
    tail 0 SPDY_DATA stream (skip 2 (set_i_stream stream i)).

(** MAX_UNCOMPRESSED_DATA_BUF_SIZE, decompressor.hpp:36 *)
Definition BUF_SIZE : Z := 16384.

Section Zlib.
(** [I] is the state of a zlib stream. [inflate s z] stands for spdy_decompressor.cpp:138-176 without the choice of buffer: the
    new state of the stream, the bytes written to the output buffer, and whether the call returned [true] (Z_OK with all input consumed). *)
Variable I : Type.
Variable inflate : I -> list Z -> I * list Z * bool.

(** decompressor.hpp:71-81; [d_buf] has a cell for each byte of [m_uncompressed_header], [None] as long as it was never written *)
Record dec := mkd { d_request : I; d_response : I; d_buf : list (option Z) }.
(** spdy_decompressor.cpp:42-79 *)
Definition dec_init (s : I) : dec := mkd s s (repeat None (Z.to_nat BUF_SIZE)).
(** spdy_decompressor.cpp:138-142: zlib writes from the begin of the buffer *)
Definition overwrite (buf : list (option Z)) (out : list Z) : list (option Z) := map Some out ++ skipn (List.length out) buf.

(** spdy_decompressor.cpp:89-129, 131-177: the header block is the [hlen] bytes at [p], which zlib requires to be readable.
    The assertions at 111-113 are reached only for other frame types than the three that [parse_header_payload] lets through. *)
Definition decompress (mem : list Z) (p stream type hlen : Z) (d : dec) : sres (dec * bool) :=
  do z <- rd mem p hlen;
  let request := negb (stream mod 2 =? 0) && negb (type =? SPDY_HEADERS) && (type =? SPDY_SYN_STREAM) in
  let response := (stream mod 2 =? 0) || (type =? SPDY_HEADERS) || (type =? SPDY_SYN_REPLY) in
  if request then
    let '(s, out, ok) := inflate (d_request d) z in SOk (mkd s (d_response d) (overwrite (d_buf d) out), ok)
  else if response then
    let '(s, out, ok) := inflate (d_response d) z in SOk (mkd (d_request d) s (overwrite (d_buf d) out), ok)
  else SAssert.

(** a read of the decompressor's buffer; used at spdy_parser.cpp:420-457 *)
Fixpoint cells (l : list (option Z)) : sres (list Z) :=
  match l with
  | [] => SOk []
  | Some b :: l' => do r <- cells l'; SOk (b :: r)
  | None :: _ => SRead
  end.
(** used at spdy_parser.cpp:420-457 *)
Definition rdb (buf : list (option Z)) (p n : Z) : sres (list Z) :=
  if (0 <=? p) && (p + n <=? zlen buf) then cells (firstn (Z.to_nat n) (skipn (Z.to_nat p) buf)) else SRead.

(** spdy_parser.cpp:427-458: [n] more pairs from [p]; [std::map::insert] keeps an entry that is there *)
Fixpoint read_pairs (buf : list (option Z)) (p : Z) (n : nat) (h : smap (list Z)) : sres (smap (list Z)) :=
  match n with
  | O => SOk h
  | S n' =>
    do ln <- rdb buf p 2;
    do name <- rdb buf (p + 2) (to_uint16 ln);
    do lv <- rdb buf (p + 2 + to_uint16 ln) 2;
    do value <- rdb buf (p + 4 + to_uint16 ln) (to_uint16 lv);
    read_pairs buf (p + 4 + to_uint16 ln + to_uint16 lv) n' (sm_insert h name value)
  end.

(** spdy_parser.cpp:348-459: the error, the structure, the decompressor and the read pointer afterwards *)
Definition parse_header_payload (mem : list Z) (p : Z) (f : frame) (i : info) (d : dec) : sres (option serr * info * dec * Z) :=
  do s4 <- rd32 mem p;
  let stream := Z.land s4 2147483647 in
  let i1 := set_i_stream stream i in
  let p1 := if f_type f =? SPDY_SYN_STREAM then p + 10 else if (f_type f =? SPDY_SYN_REPLY) || (f_type f =? SPDY_HEADERS) then p + 6 else p + 4 in
  if negb ((f_type f =? SPDY_SYN_STREAM) || (f_type f =? SPDY_SYN_REPLY) || (f_type f =? SPDY_HEADERS)) then SOk (Some EFrame, i1, d, p1)
  else
    let hlen := wrap32 (if f_type f =? SPDY_SYN_STREAM then f_length f - 10 else f_length f - 6) in
    do (d1, ok) <- decompress mem p1 stream (f_type f) hlen d;
    if negb ok then SOk (Some EDecompress, i1, d1, p1)
    else
      do n <- rdb (d_buf d1) 0 2;
      do h <- read_pairs (d_buf d1) 2 (Z.to_nat (to_uint16 n)) (i_headers i1);
      SOk (None, set_i_headers h i1, d1, p1).

(** spdy_parser.cpp:472-496 and 498-517: the read pointer afterwards; the values read are only logged *)
Definition parse_rst_stream (mem : list Z) (p : Z) (f : frame) : sres Z :=
  if negb (f_flags f =? 0) || negb (f_length f =? 8) then SOk p else do _ <- rd32 mem (p + 4); SOk (p + 4).
(** spdy_parser.cpp:498-517 *)
Definition parse_ping (mem : list Z) (p : Z) (f : frame) : sres Z :=
  if negb (f_length f =? 4) then SOk p else do _ <- rd32 mem p; SOk (p + 4).
(** spdy_parser.cpp:525-558 *)
Definition parse_goaway (mem : list Z) (p : Z) (f : frame) : sres (option serr * Z) :=
  if negb (f_length f =? 4) then SOk (None, p)
  else do status <- rd32 mem (p + 4);
  SOk (if status =? 1 then Some EProtocol else if status =? 11 then Some EInternal else None, p + 4).

(** What a call of [parse] leaves: its value, the error code, the structure, [length_packet], the decompressor,
    [get_spdy_read_pointer()] and [get_spdy_data_content()] (the latter only where this call assigns it); spdy_parser.cpp:57-69 *)
Record parsed := mkr { r_value : tri; r_error : option serr; r_info : info; r_len : Z; r_dec : dec; r_read : Z; r_content : option Z }.

(** spdy_parser.cpp:208-247: the switch, after 200-206 set the type for three kinds *)
Definition parse_body (mem : list Z) (p : Z) (f : frame) (i : info) (d : dec) : sres (option serr * info * dec * Z) :=
  let t := f_type f in
  let i1 := if t =? SPDY_SYN_STREAM then set_i_type HTTP_REQUEST i else if t =? SPDY_SYN_REPLY then set_i_type HTTP_RESPONSE i
            else if t =? SPDY_DATA then set_i_type HTTP_DATA i else i in
  if (t =? SPDY_SYN_STREAM) || (t =? SPDY_SYN_REPLY) || (t =? SPDY_HEADERS) then parse_header_payload mem p f i1 d
  else if t =? SPDY_RST_STREAM then do q <- parse_rst_stream mem p f; SOk (None, set_i_type SPDY_CONTROL i1, d, q)
  else if t =? SPDY_SETTINGS then SOk (None, set_i_type SPDY_CONTROL i1, d, p)
  else if t =? SPDY_PING then do q <- parse_ping mem p f; SOk (None, set_i_type SPDY_CONTROL i1, d, q)
  else if t =? SPDY_GOAWAY then do (e, q) <- parse_goaway mem p f; SOk (e, set_i_type SPDY_CONTROL i1, d, q)
  else if t =? SPDY_WINDOW_UPDATE then SOk (None, set_i_type SPDY_CONTROL i1, d, p)
  else if t =? SPDY_CREDENTIAL then SOk (None, set_i_type SPDY_CONTROL i1, d, p)
  else SOk (None, i1, d, p).

(** spdy_parser.cpp:57-69, 142-256: [parse] called with the packet at offset [at] of [mem]. [asserts]: the library was built with
    assertions (without NDEBUG); the assertions that pointers are not null are left out. *)
Definition parse (asserts : bool) (mem : list Z) (at_ len : Z) (i : info) (d : dec) : sres parsed :=
  do b <- rd8 mem at_;
  if negb (b =? 128) && negb (b =? 0) then SOk (mkr TFalse (Some EFrame) i len d at_ None)
  else
    do pf <- populate_frame mem at_ len i;
    match pf with
    | None => SOk (mkr TFalse (Some EFrame)
        (mki (i_headers i) (i_type i) (i_stream i) (wrap32 (i_offset i + 2)) (i_size i) (i_last i)) (wrap32 (len - 2)) d (at_ + 2) None)
    | Some (mkp f stream i1 len1 p1) =>
      if asserts && (stream =? 0) then SAssert
      else
        let more := f_length f <? len1 in
        let chunk := if more then p1 + f_length f else at_ in
        let len2 := if more then wrap32 (len1 - f_length f) else len1 in
        let i2 := if negb (f_control f) && negb (Z.land (f_flags f) 1 =? 0) then set_i_last i1 else i1 in
        if MIN_SPDY_VERSION <? f_version f then SOk (mkr TFalse (Some EVersion) i2 len2 d p1 None)
        else
          do (e, i3, d1, q) <- parse_body mem p1 f i2 d;
          match e with
          | Some e => SOk (mkr TFalse (Some e) i3 len2 d1 q None)
          | None => SOk (mkr (if more then TIndet else TTrue) None i3 len2 d1 chunk (Some q))
          end
    end.

(** How a packet that may hold several frames is parsed (spdy/parser.hpp:82-101, spdy_parser.cpp:179-184): as long as the value is
    indeterminate, [parse] is called again with the read pointer and the length it left, here with a new structure each time. [n] bounds the calls. *)
Fixpoint parse_all (n : nat) (asserts : bool) (mem : list Z) (at_ len : Z) (d : dec) : sres (list parsed) :=
  match n with
  | O => SOk []
  | S n' =>
    do r <- parse asserts mem at_ len info_init d;
    match r_value r with
    | TIndet => do l <- parse_all n' asserts mem (r_read r) (r_len r) (r_dec r); SOk (r :: l)
    | _ => SOk [r]
    end
  end.
End Zlib.
Arguments mkd {I}. Arguments d_request {I}. Arguments d_response {I}. Arguments d_buf {I}. Arguments mkr {I}.
Arguments r_value {I}. Arguments r_error {I}. Arguments r_info {I}. Arguments r_len {I}. Arguments r_dec {I}. Arguments r_read {I}. Arguments r_content {I}.
Arguments parse {I}. Arguments parse_all {I}. Arguments parse_body {I}. Arguments parse_header_payload {I}. Arguments decompress {I}.
Arguments dec_init {I}.
