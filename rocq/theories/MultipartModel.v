(** Model of the multipart/form-data parser (src/http_parser.cpp:988-1017, 1064-1237). *)
From Coq Require Import String ZArith List Bool.
From Verif Require Import Base AlgModel FormModel.
Import ListNotations.

(** [std::search], [std::string::find]: offset of the first occurrence, or the length if there is none; used at http_parser.cpp:1096, 1174, 1200, 1207 *)
Fixpoint search (pat s : list Z) : nat :=
  if is_prefix pat s then O else match s with [] => O | _ :: s' => S (search pat s') end.
(** used at http_parser.cpp:1096, 1174, 1200, 1207 *)
Fixpoint contains (pat s : list Z) : bool :=
  is_prefix pat s || match s with [] => false | _ :: s' => contains pat s' end.

(** src/http_parser.cpp:988-1017. The Boost iterators are taken to pad the last group with zero bits. *)
Definition binary_2base64 (bytes stream_type : list Z) : list Z :=
  bs "data:" ++ stream_type ++ bs "; base64, " ++ b64_encode_loop bytes.

(** states of src/http_parser.cpp:1079-1084 *)
Inductive mpstate := MPStart | MPHeaderCR | MPHeaderLF | MPHeaderName | MPHeaderSpace | MPHeaderValue | MPLastLF | MPFieldData.

(** local variables of src/http_parser.cpp:1086-1093; [mp_out] are the pairs inserted into the dictionary *)
Record mpvars := {
  mp_hname : list Z; mp_hvalue : list Z; mp_fname : list Z; mp_ctype : list Z; mp_b64 : bool; mp_found : bool;
  mp_out : list (list Z * list Z) }.
(** http_parser.cpp:1086-1093 *)
Definition mp_init : mpvars :=
  {| mp_hname := []; mp_hvalue := []; mp_fname := []; mp_ctype := []; mp_b64 := false; mp_found := false; mp_out := [] |}.
(** assignment to the variables, http_parser.cpp:1146-1187 *)
Definition mp_hdr (v : mpvars) (n x : list Z) : mpvars :=
  {| mp_hname := n; mp_hvalue := x; mp_fname := mp_fname v; mp_ctype := mp_ctype v; mp_b64 := mp_b64 v;
     mp_found := mp_found v; mp_out := mp_out v |}.
(** http_parser.cpp:1102-1107 *)
Definition mp_clear (v : mpvars) : mpvars :=
  {| mp_hname := []; mp_hvalue := []; mp_fname := []; mp_ctype := []; mp_b64 := false; mp_found := mp_found v; mp_out := mp_out v |}.

(** http_types.cpp:34 *)
Definition HEADER_CONTENT_TYPE : list Z := bs "Content-Type".
(** http_types.cpp:38 *)
Definition HEADER_CONTENT_DISPOSITION : list Z := bs "Content-Disposition".

(** src/http_parser.cpp:1174-1179: characters up to the closing quote *)
Fixpoint until_quote (s : list Z) : list Z :=
  match s with [] => [] | c :: s' => if c =? 34 then [] else c :: until_quote s' end.
(** http_parser.cpp:1174-1179 *)
Definition name_param : list Z := bs "name=" ++ [34].
(** src/http_parser.cpp:1166-1184: a part header is complete *)
Definition mp_header_done (v : mpvars) : mpvars :=
  if iequals (mp_hname v) HEADER_CONTENT_TYPE then
    {| mp_hname := []; mp_hvalue := []; mp_fname := mp_fname v; mp_ctype := mp_hvalue v;
       mp_b64 := negb (iequals (firstn 5 (mp_hvalue v)) (bs "text/")); mp_found := mp_found v; mp_out := mp_out v |}
  else if iequals (mp_hname v) HEADER_CONTENT_DISPOSITION then
    {| mp_hname := []; mp_hvalue := [];
       mp_fname := if contains name_param (mp_hvalue v)
                   then mp_fname v ++ until_quote (skipn (search name_param (mp_hvalue v) + 6) (mp_hvalue v))
                   else mp_fname v;
       mp_ctype := mp_ctype v; mp_b64 := mp_b64 v; mp_found := mp_found v; mp_out := mp_out v |}
  else mp_hdr v [] [].

(** [MPOk b out]: the function returns [b]; [MPBad]: it reads before the body or asks [std::string] (or the Base64
    copy loop) for a negative number of characters (an exception escapes, or the read runs away);
    [MPFuel]: not reachable. http_parser.cpp:1064-1237 *)
Inductive mpres := MPOk (ret : bool) (out : list (list Z * list Z)) | MPBad | MPFuel.

(** The body is [rev pre ++ suf], [ptr] points at the start of [suf]. src/http_parser.cpp:1098-1234 *)
Fixpoint mp_loop (fuel : nat) (boundary pre suf : list Z) (st : mpstate) (v : mpvars) : mpres :=
  match fuel with
  | O => MPFuel
  | S f =>
    match suf with
    | [] => MPOk (mp_found v) (mp_out v)
    | c :: suf' =>
      let next st' v' := mp_loop f boundary (c :: pre) suf' st' v' in
      match st with
      | MPStart =>
        let n := List.length boundary in
        mp_loop f boundary (rev (firstn n suf) ++ pre) (skipn n suf) MPHeaderCR (mp_clear v)
      | MPHeaderCR =>
        if c =? 13 then next MPHeaderLF v
        else if c =? 10 then next MPHeaderName v
        else if (c =? ch "-") && match suf' with d :: _ => d =? ch "-" | [] => false end then MPOk true (mp_out v)
        else MPOk false (mp_out v)
      | MPHeaderLF => if c =? 10 then next MPHeaderName v else MPOk false (mp_out v)
      | MPHeaderName =>
        if (c =? 13) || (c =? 10) then
          match mp_hname v with
          | [] => next (if c =? 13 then MPLastLF else MPFieldData) v
          | _ => next (if c =? 13 then MPHeaderLF else MPHeaderName) v
          end
        else if c =? ch ":" then next MPHeaderSpace v
        else next MPHeaderName (mp_hdr v (mp_hname v ++ [c]) (mp_hvalue v))
      | MPHeaderSpace =>
        if c =? 13 then next MPHeaderLF v
        else if c =? 10 then next MPHeaderName v
        else if negb (c =? ch " ") then next MPHeaderValue (mp_hdr v (mp_hname v) (mp_hvalue v ++ [c]))
        else next MPHeaderSpace v
      | MPHeaderValue =>
        if (c =? 13) || (c =? 10) then next (if c =? 13 then MPHeaderLF else MPHeaderName) (mp_header_done v)
        else next MPHeaderValue (mp_hdr v (mp_hname v) (mp_hvalue v ++ [c]))
      | MPLastLF =>
        if c =? 10 then
          match mp_fname v with
          | [] => let n := search boundary suf in
                  mp_loop f boundary (rev (firstn n suf) ++ pre) (skipn n suf) MPStart v
          | _ => next MPFieldData v
          end
        else MPOk false (mp_out v)
      | MPFieldData =>
        let n := search boundary suf in
        let pre' := rev (firstn n suf) ++ pre in
        match pre' with
        | c1 :: c0 :: _ =>
          let crlf := (c0 =? 13) && (c1 =? 10) in
          if crlf && Nat.ltb n 2 then MPBad
          else
            let data := firstn (if crlf then n - 2 else n) suf in
            let value := if mp_b64 v then binary_2base64 data (mp_ctype v) else data in
            mp_loop f boundary pre' (skipn n suf) MPStart
              {| mp_hname := mp_hname v; mp_hvalue := mp_hvalue v; mp_fname := mp_fname v; mp_ctype := mp_ctype v;
                 mp_b64 := mp_b64 v; mp_found := true; mp_out := mp_out v ++ [(mp_fname v, value)] |}
        | _ => MPBad
        end
      end
    end
  end.

(** src/http_parser.cpp:1064-1237 *)
Definition boundary_param : list Z := bs "boundary=".
(** http_parser.cpp:1064-1237 *)
Definition parse_multipart (content_type body : list Z) : mpres :=
  match body with
  | [] => MPOk true []
  | _ =>
    if contains boundary_param content_type then
      let boundary := bs "--" ++ skipn (search boundary_param content_type + 9) content_type in
      let n := search boundary body in
      mp_loop (2 * List.length body + 2) boundary (rev (firstn n body)) (skipn n body) MPStart mp_init
    else MPOk false []
  end.
