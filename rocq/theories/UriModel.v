(** Model of [parser::parse_uri] and [parser::parse_forwarded_for] (src/http_parser.cpp:839-905, 1669-1705). *)
From Coq Require Import String ZArith List Bool.
From Verif Require Import Base Digits AlgModel FormModel MultipartModel HttpModel.
Import ListNotations.

(** [std::string::find] of a character: the part before it and the part from it on; used at http_parser.cpp:842-893 *)
Fixpoint split_at (c : Z) (s : list Z) : list Z * option (list Z) :=
  match s with
  | [] => ([], None)
  | x :: s' => if x =? c then ([], Some s) else let r := split_at c s' in (x :: fst r, snd r)
  end.

(** [boost::lexical_cast<int>]: optional sign, then digits only; a value outside [int] is refused; Boost, used at http_parser.cpp:877 *)
Definition lexical_cast_int (s : list Z) : option Z :=
  let check (neg : bool) (ds : list Z) :=
    match ds with
    | [] => None
    | _ => if forallb is_digit ds
           then let v := undigits 10 0 (map (fun c => c - 48) ds) in
                let w := if neg then - v else v in
                if (-2147483648 <=? w) && (w <=? 2147483647) then Some w else None
           else None
    end in
  match s with
  | c :: s' => if c =? ch "-" then check true s' else if c =? ch "+" then check false s' else check false s
  | [] => None
  end.

(** the output parameters: their values before the call are kept where the code does not assign them; http_parser.cpp:839-841 *)
Record uri_out := { u_proto : list Z; u_host : list Z; u_port : Z; u_path : list Z; u_query : list Z }.

(** src/http_parser.cpp:839-905. [port = lexical_cast<int>(...)] converts to 16 bits. *)
Definition parse_uri (uri : list Z) (o : uri_out) : bool * uri_out :=
  let has_proto := contains (bs "://") uri in
  let n := search (bs "://") uri in
  let proto := if has_proto then firstn n uri else [] in
  let rest := if has_proto then skipn (n + 3) uri else uri in
  let t := fst (split_at (ch "/") rest) in
  let tail := snd (split_at (ch "/") rest) in
  let path1 := match tail with None => bs "/" | Some _ => u_path o end in
  let host := fst (split_at (ch ":") t) in
  match host with
  | [] => (false, {| u_proto := proto; u_host := []; u_port := u_port o; u_path := path1; u_query := u_query o |})
  | _ =>
    let port :=
      match snd (split_at (ch ":") t) with
      | Some p => match lexical_cast_int (tl p) with Some v => Some (v mod 65536) | None => None end
      | None => Some (if str_eqb proto (bs "http") || str_eqb proto (bs "HTTP") then 80
                      else if str_eqb proto (bs "https") || str_eqb proto (bs "HTTPS") then 443 else 0)
      end in
    match port with
    | None => (false, {| u_proto := proto; u_host := host; u_port := u_port o; u_path := path1; u_query := u_query o |})
    | Some pn =>
      match tail with
      | Some p =>
        (true, {| u_proto := proto; u_host := host; u_port := pn; u_path := fst (split_at (ch "?") p);
                  u_query := match snd (split_at (ch "?") p) with Some q => tl q | None => [] end |})
      | None => (true, {| u_proto := proto; u_host := host; u_port := pn; u_path := path1; u_query := u_query o |})
      end
    end
  end.

(** "[0-9]{1,3}": one to three digits, as many as there are. What follows in the patterns is a dot or nothing, so
    taking fewer digits never helps. Boost.Regex, for the patterns of http_parser.cpp:1672-1679 *)
Definition octet (s : list Z) : option (list Z * list Z) :=
  match s with
  | a :: s1 =>
    if is_digit a then
      match s1 with
      | b :: s2 =>
        if is_digit b then
          match s2 with
          | c :: s3 => if is_digit c then Some ([a; b; c], s3) else Some ([a; b], s2)
          | [] => Some ([a; b], [])
          end
        else Some ([a], s1)
      | [] => Some ([a], [])
      end
    else None
  | [] => None
  end.
(** Boost.Regex, for the patterns of http_parser.cpp:1672-1679 *)
Definition dot (s : list Z) : option (list Z) :=
  match s with c :: s' => if c =? ch "." then Some s' else None | [] => None end.

(** IPV4_ADDR_RX (http_parser.cpp:1672) anchored at the start of [s]: the four groups and what follows *)
Definition ipv4_at (s : list Z) : option (list Z * list Z * list Z * list Z * list Z) :=
  match octet s with
  | None => None
  | Some (a, r0) =>
    match dot r0 with
    | None => None
    | Some r1 =>
      match octet r1 with
      | None => None
      | Some (b, r2) =>
        match dot r2 with
        | None => None
        | Some r3 =>
          match octet r3 with
          | None => None
          | Some (c, r4) =>
            match dot r4 with
            | None => None
            | Some r5 => match octet r5 with None => None | Some (d, r6) => Some (a, b, c, d, r6) end
            end
          end
        end
      end
    end
  end.

(** [regex_search]: the leftmost match; used at http_parser.cpp:1690 *)
Fixpoint ipv4_search (s : list Z) : option (list Z * list Z * list Z * list Z * list Z) :=
  match ipv4_at s with
  | Some x => Some x
  | None => match s with [] => None | _ :: s' => ipv4_search s' end
  end.

(** PRIVATE_NET_RX (http_parser.cpp:1679) as a full match of a text made of four groups of digits *)
Definition private_net (a b : list Z) : bool :=
  str_eqb a (bs "10") || str_eqb a (bs "127") || (str_eqb a (bs "192") && str_eqb b (bs "168"))
  || (str_eqb a (bs "172") &&
      match b with
      | [x; y] => ((x =? 49) && (54 <=? y) && (y <=? 57)) || ((x =? 50) && is_digit y) || ((x =? 51) && (48 <=? y) && (y <=? 49))
      | _ => false
      end).

(** Boost.Regex, for the patterns of http_parser.cpp:1672-1679 *)
Definition dotted (a b c d : list Z) : list Z := a ++ bs "." ++ b ++ bs "." ++ c ++ bs "." ++ d.

(** src/http_parser.cpp:1669-1705; [None]: returns false. Every match is non-empty, so the length of the header is
    enough fuel. *)
Fixpoint forwarded_loop (fuel : nat) (s : list Z) : option (list Z) :=
  match fuel with
  | O => None
  | S f =>
    match ipv4_search s with
    | None => None
    | Some (a, b, c, d, rest) => if private_net a b then forwarded_loop f rest else Some (dotted a b c d)
    end
  end.
(** http_parser.cpp:1669-1705 *)
Definition parse_forwarded_for (header : list Z) : option (list Z) := forwarded_loop (S (List.length header)) header.
