(** Specification for the SPDY parser: where the fields of a frame are, what a frame is, and when parsing may read. *)
From Coq Require Import String ZArith List Bool.
From Verif Require Import Base SMap AlgSpec HttpModel SpdyModel.
Import ListNotations.

(** [n] bytes from offset [p] are there; their value, most significant first *)
Definition has (mem : list Z) (p n : Z) : Prop := 0 <= p /\ p + n <= zlen mem.
Definition bytes_at (mem : list Z) (p n : Z) : list Z := firstn (Z.to_nat n) (skipn (Z.to_nat p) mem).
Definition field (mem : list Z) (p n : Z) : Z := be_value (bytes_at mem p n).
(** the header of the frame at [p]: control bit and 15 bit version, or stream; type; flags; 24 bit length; 31 bit stream of control frames *)
Definition h_control (mem : list Z) (p : Z) : Prop := 32768 <= field mem p 2.
Definition h_version (mem : list Z) (p : Z) : Z := field mem p 2 mod 32768.
Definition h_type (mem : list Z) (p : Z) : Z := field mem (p + 2) 2.
Definition h_flags (mem : list Z) (p : Z) : Z := field mem (p + 4) 1.
Definition h_length (mem : list Z) (p : Z) : Z := field mem (p + 5) 3.
Definition h_stream (mem : list Z) (p : Z) : Z := field mem (p + 8) 4 mod 2147483648.
(** control types of SPDY version 2 and 3 *)
Definition control_type (t : Z) : Prop := 1 <= t <= 4 \/ 6 <= t <= 10.

(** [v] in [k] bytes *)
Fixpoint be (k : nat) (v : Z) : list Z := match k with O => [] | S k' => (v / 256 ^ Z.of_nat k') mod 256 :: be k' v end.
(** a block of names and values: their number, then each with its length *)
Definition pair_bytes (e : list Z * list Z) : list Z := be 2 (zlen (fst e)) ++ fst e ++ be 2 (zlen (snd e)) ++ snd e.
Definition block_of (ps : list (list Z * list Z)) : list Z := be 2 (zlen ps) ++ concat (map pair_bytes ps).
Definition pair_ok (e : list Z * list Z) : Prop := Forall is_byte (fst e) /\ Forall is_byte (snd e) /\ zlen (fst e) < 65536 /\ zlen (snd e) < 65536.
Definition block_ok (ps : list (list Z * list Z)) : Prop := Forall pair_ok ps /\ zlen ps < 65536.
(** the first value given for a name *)
Fixpoint first_value (ps : list (list Z * list Z)) (k : list Z) : option (list Z) :=
  match ps with [] => None | (n, v) :: ps' => if list_eq_dec Z.eq_dec n k then Some v else first_value ps' k end.

(** a buffer whose bytes begin with a whole block *)
Definition holds_block (buf : list (option Z)) : Prop := exists ps rest, block_ok ps /\ buf = map Some (block_of ps) ++ rest.
(** [buf] after [out] was written to its start *)
Definition written (buf : list (option Z)) (out : list Z) : list (option Z) := map Some out ++ skipn (List.length out) buf.

(** a 16 KB buffer of bytes; a zlib that writes bytes, no more than fit *)
Definition buf_ok (buf : list (option Z)) : Prop := zlen buf = 16384 /\ Forall (fun c => match c with Some b => is_byte b | None => True end) buf.
Definition zlib_ok {I} (inflate : I -> list Z -> I * list Z * bool) : Prop :=
  forall s z s' out ok, inflate s z = (s', out, ok) -> Forall is_byte out /\ zlen out <= 16384.

Section Zlib.
Context {I : Type}.
Variable inflate : I -> list Z -> I * list Z * bool.

(** the context that decompresses a header block: the client's for SYN_STREAM frames of odd streams, else the server's *)
Definition context (d : dec I) (type stream : Z) : I := if (type =? 1) && (stream mod 2 =? 1) then d_request d else d_response d.
(** A header block [k] bytes into the payload is in the packet, by the declared length, and if it can be decompressed the buffer holds a whole block. *)
Definition block_inside (mem : list Z) (p k : Z) (d : dec I) : Prop :=
  let n := (h_length mem p - k) mod 4294967296 in
  has mem (p + 8 + k) n
  /\ forall s out, inflate (context d (h_type mem p) (h_stream mem p)) (bytes_at mem (p + 8 + k) n) = (s, out, true) -> holds_block (written (d_buf d) out).
(** What a call of [parse] for the frame at [p] needs to be in the packet. *)
Definition body_inside (mem : list Z) (p : Z) (d : dec I) : Prop :=
  (h_type mem p = 1 -> block_inside mem p 10 d)
  /\ (h_type mem p = 2 \/ h_type mem p = 8 -> block_inside mem p 6 d)
  /\ (h_type mem p = 3 -> h_flags mem p = 0 -> h_length mem p = 8 -> has mem p 16)
  /\ (h_type mem p = 7 -> h_length mem p = 4 -> has mem p 16).
Definition inside (mem : list Z) (p : Z) (d : dec I) : Prop :=
  has mem p 1
  /\ (field mem p 1 = 0 -> has mem p 8)
  /\ (field mem p 1 = 128 -> has mem p 4 /\ (h_type mem p <= 10 -> has mem p 12 /\ (h_version mem p <= 3 -> body_inside mem p d))).

(** Frames. [Head]: SYN_STREAM (1), SYN_REPLY (2) and HEADERS (8) frames in the layout of version 2, with the bytes between the
    stream and the block; [ps] are the names and values, [z] the block as compressed. *)
Inductive sframe :=
  | Data (stream flags : Z) (data : list Z)
  | Head (type version flags stream : Z) (extra : list Z) (ps : list (list Z * list Z)) (z : list Z)
  | Other (type version flags : Z) (payload : list Z).
Definition payload_of (f : sframe) : list Z :=
  match f with Data _ _ x => x | Head _ _ _ s x _ z => be 4 s ++ x ++ z | Other _ _ _ x => x end.
Definition enc (f : sframe) : list Z :=
  match f with
  | Data s fl _ => be 4 s ++ be 1 fl
  | Head t v fl _ _ _ _ | Other t v fl _ => be 2 (32768 + v) ++ be 2 t ++ be 1 fl
  end ++ be 3 (zlen (payload_of f)) ++ payload_of f.
(** Well-formed frames; of GOAWAY frames (7) only those of version 3, with status. [asserts]: and without stream or first word 0 *)
Definition wf (asserts : bool) (f : sframe) : Prop :=
  Forall is_byte (payload_of f) /\ zlen (payload_of f) < 16777216 /\
  match f with
  | Data s fl _ => 0 <= s < 16777216 /\ is_byte fl /\ (asserts = true -> s <> 0)
  | Head t v fl s x ps z => (t = 1 /\ zlen x = 6 \/ (t = 2 \/ t = 8) /\ zlen x = 2) /\ 0 <= v <= 3 /\ is_byte fl /\ 0 <= s < 2147483648
      /\ block_ok ps /\ zlen (block_of ps) <= 16384 /\ (asserts = true -> s <> 0)
  | Other t v fl x => (t = 3 \/ t = 4 \/ t = 6 \/ t = 7 \/ t = 9 \/ t = 10) /\ 0 <= v <= 3 /\ is_byte fl
      /\ (t = 7 -> zlen x = 8) /\ 4 <= zlen x /\ (asserts = true -> be_value (firstn 4 x) mod 2147483648 <> 0)
  end.
(** Header blocks in the order sent, each compressed in the context of its sender, [a] the client's and [b] the server's *)
Inductive sent : I -> I -> list sframe -> Prop :=
  | S_nil a b : sent a b []
  | S_data a b s fl x fs : sent a b fs -> sent a b (Data s fl x :: fs)
  | S_other a b t v fl x fs : sent a b fs -> sent a b (Other t v fl x :: fs)
  | S_client a b a' v fl s x ps z fs : s mod 2 = 1 -> inflate a z = (a', block_of ps, true) -> sent a' b fs -> sent a b (Head 1 v fl s x ps z :: fs)
  | S_server a b b' t v fl s x ps z fs : ~ (t = 1 /\ s mod 2 = 1) -> inflate b z = (b', block_of ps, true) -> sent a b' fs -> sent a b (Head t v fl s x ps z :: fs).

(** what the caller is told about a frame *)
Definition told (mem : list Z) (f : sframe) (r : parsed I) : Prop :=
  r_error r = None /\ i_size (r_info r) = zlen (payload_of f) /\
  match f with
  | Data s fl x => i_type (r_info r) = HTTP_DATA /\ i_stream (r_info r) = s /\ i_last (r_info r) = Z.odd fl /\ i_headers (r_info r) = []
      /\ exists c, r_content r = Some c /\ has mem c (zlen x) /\ bytes_at mem c (zlen x) = x
  | Head t _ _ s _ ps _ => i_type (r_info r) = (if t =? 1 then HTTP_REQUEST else if t =? 2 then HTTP_RESPONSE else NON_SPDY)
      /\ i_stream (r_info r) = s /\ i_last (r_info r) = false /\ forall k, sm_find (i_headers (r_info r)) k = first_value ps k
  | Other _ _ _ _ => i_type (r_info r) = SPDY_CONTROL /\ i_last (r_info r) = false /\ i_headers (r_info r) = []
  end.
(** all results but the last are indeterminate, the last is true *)
Fixpoint in_progress (rs : list (parsed I)) : Prop :=
  match rs with [] => False | [r] => r_value r = TTrue | r :: rs' => r_value r = TIndet /\ in_progress rs' end.
End Zlib.
