(** Model of reading back the text form of a file of a multipart form (src/http_parser.cpp:1019-1062). *)
From Coq Require Import String ZArith List Bool.
From Verif Require Import Base AlgModel MultipartModel HttpModel.
Import ListNotations.

(** Boost's table for [binary_from_base64]; a character that is not in it makes the iterator throw. Simplified: some versions
    of Boost read "=" as zero; here it is not in the table. used at http_parser.cpp:1021-1028 *)
Definition from_base64 (c : Z) : option Z :=
  if (65 <=? c) && (c <=? 90) then Some (c - 65)
  else if (97 <=? c) && (c <=? 122) then Some (c - 71)
  else if (48 <=? c) && (c <=? 57) then Some (c + 4)
  else if c =? 43 then Some 62
  else if c =? 47 then Some 63
  else None.

(** src/http_parser.cpp:1021-1028, 1054-1058: [transform_width] makes bytes of groups of six bits as long as characters are left.
    With one character left over it reads behind the end. *)
Fixpoint group_bytes (s : list Z) : outcome (list Z) :=
  match s with
  | [] => Ok []
  | [_] => Bad BadMemory
  | a :: b :: s2 =>
    match from_base64 a, from_base64 b with
    | Some x, Some y =>
      match s2 with
      | [] => Ok [x * 4 + y / 16]
      | c :: s3 =>
        match from_base64 c with
        | Some z =>
          match s3 with
          | [] => Ok [x * 4 + y / 16; (y mod 16) * 16 + z / 4]
          | d :: s4 =>
            match from_base64 d with
            | Some u => obind (group_bytes s4) (fun l => Ok (x * 4 + y / 16 :: (y mod 16) * 16 + z / 4 :: (z mod 4) * 64 + u :: l))
            | None => Bad BadException
            end
          end
        | None => Bad BadException
        end
      end
    | _, _ => Bad BadException
    end
  end.

(** src/http_parser.cpp:1042-1046: up to two "=" at the end do not count *)
Definition without_padding (s : list Z) : list Z :=
  match rev s with
  | c :: r => if c =? ch "=" then match r with d :: r2 => if d =? ch "=" then rev r2 else rev r | [] => [] end else s
  | [] => []
  end.

(** http_parser.cpp:1034-1036 *)
Definition data_mark : list Z := bs "; base64, ".
(** the result, [out_size], [out_stream_type] if it is assigned, and what is written to the buffer; http_parser.cpp:1019-1020 *)
Record unpacked := { un_ok : bool; un_size : Z; un_type : option (list Z); un_out : list Z }.
(** src/http_parser.cpp:1019-1062; [room] is [buf_size], [buf] says if there is a buffer. The length without padding is not less than the
    position behind the prefix, which ends in a blank; it is not 0 (line 1049 is never true). *)
Definition base64_2binary (buf : bool) (room : Z) (text : list Z) : outcome unpacked :=
  if negb (is_prefix (bs "data:") text) then Ok {| un_ok := false; un_size := 0; un_type := None; un_out := [] |}
  else if negb (contains data_mark text) then Ok {| un_ok := false; un_size := 0; un_type := None; un_out := [] |}
  else
    let pos := search data_mark text in
    let typ := firstn (pos - 5) (skipn 5 text) in
    let t := without_padding text in
    let data := skipn (pos + 10) t in
    let n := zlen data * 6 / 8 + 1 in
    if (room <? zlen t) || negb buf then Ok {| un_ok := false; un_size := n; un_type := Some typ; un_out := [] |}
    else obind (group_bytes data) (fun l => Ok {| un_ok := true; un_size := n; un_type := Some typ; un_out := l ++ [0] |}).
