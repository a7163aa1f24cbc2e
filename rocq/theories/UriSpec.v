(** Specification of URI splitting and of addresses in X-Forwarded-For headers. *)
From Coq Require Import String ZArith List Bool.
From Verif Require Import Base HttpSpec.
Import ListNotations.

(** a URI: scheme://host:port/path?query with optional scheme, port, path and query *)
Record uri := { ur_scheme : option (list Z); ur_host : list Z; ur_port : option (list Z); ur_path : option (list Z * option (list Z)) }.
Definition no_chars (cs : list Z) (s : list Z) : Prop := Forall (fun c => ~ In c cs) s.
Definition wire_uri (u : uri) : list Z :=
  match ur_scheme u with Some s => s ++ bs "://" | None => [] end
  ++ ur_host u ++ match ur_port u with Some p => bs ":" ++ p | None => [] end
  ++ match ur_path u with Some (p, q) => bs "/" ++ p ++ match q with Some q => bs "?" ++ q | None => [] end | None => [] end.
Definition uri_ok (u : uri) : Prop :=
  match ur_scheme u with Some s => no_chars (bs ":/") s
  | None => ~ exists a b, wire_uri u = a ++ bs "://" ++ b end
  /\ ur_host u <> [] /\ no_chars (bs ":/") (ur_host u)
  /\ match ur_port u with Some p => p <> [] /\ Forall is_dec p | None => True end
  /\ match ur_path u with Some (p, _) => no_chars (bs "?") p | None => True end.
Definition default_port (scheme : option (list Z)) : Z :=
  match scheme with
  | Some s => if list_eq_dec Z.eq_dec s (bs "http") then 80 else if list_eq_dec Z.eq_dec s (bs "HTTP") then 80
              else if list_eq_dec Z.eq_dec s (bs "https") then 443 else if list_eq_dec Z.eq_dec s (bs "HTTPS") then 443 else 0
  | None => 0
  end.

(** IPv4 addresses as four numbers, written without leading zeros *)
Definition ip := (Z * Z * Z * Z)%type.
Definition is_private (i : ip) : Prop :=
  match i with (a, b, _, _) => a = 10 \/ a = 127 \/ (a = 192 /\ b = 168) \/ (a = 172 /\ 16 <= b <= 31) end.
(** [t] is the decimal notation of [n] without leading zeros *)
Definition dec_text (t : list Z) (n : Z) : Prop :=
  t <> [] /\ Forall is_dec t /\ dec_value t = n /\ (zlen t = 1 \/ hd 0 t <> 48).
Definition ip_text (t : list Z) (i : ip) : Prop :=
  match i with (a, b, c, d) =>
    exists ta tb tc td, dec_text ta a /\ dec_text tb b /\ dec_text tc c /\ dec_text td d
      /\ 0 <= a <= 255 /\ 0 <= b <= 255 /\ 0 <= c <= 255 /\ 0 <= d <= 255
      /\ t = ta ++ bs "." ++ tb ++ bs "." ++ tc ++ bs "." ++ td
  end.
(** addresses as proxies list them: separated and surrounded by commas, blanks or other text without digits and dots *)
Inductive ip_list : list Z -> list ip -> Prop :=
  | ip_nil : ip_list [] []
  | ip_skip c s l : ~ is_dec c -> c <> 46 -> ip_list s l -> ip_list (c :: s) l
  | ip_last t i : ip_text t i -> ip_list t [i]
  | ip_cons t i c s l : ip_text t i -> ~ is_dec c -> c <> 46 -> ip_list s l -> ip_list (t ++ c :: s) (i :: l).
