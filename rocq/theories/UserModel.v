(** Model of users and the user manager: include/pion/user.hpp. *)
From Coq Require Import String ZArith List Bool.
From Verif Require Import Base SMap AlgModel HttpModel.
Import ListNotations.

(** How the library was built: with OpenSSL (PION_HAVE_SSL) or without. The two hash functions of OpenSSL are parameters. user.hpp:47-57, 77-109 *)
Record build := mkbuild { b_ssl : bool; b_sha256 : list Z -> list Z; b_sha1 : list Z -> list Z }.

(** user.hpp:38-177: the stored password ([m_password]; with OpenSSL the hash in hexadecimal), the type of the hash, and the 32
    bytes of [m_password_hash], [None] while not set. The last two exist only with OpenSSL. *)
Inductive htype := HtEmpty | HtSha1 | HtSha256.
(** user.hpp:144-156 *)
Record user := mkuser { u_password : list Z; u_type : htype; u_hash : list (option Z) }.
(** user.hpp:45-60 *)
Definition u_new : user := mkuser [] HtEmpty (repeat None 32).

(** two lower case hexadecimal digits, as [sprintf] with %.2x writes a byte; C library, used at user.hpp:104 *)
Definition hex_digit (v : Z) : Z := if v <? 10 then 48 + v else 87 + v.
(** C library, used at user.hpp:104 *)
Definition hex2 (v : Z) : list Z := [hex_digit (v / 16); hex_digit (v mod 16)].

(** writing [bytes] at the begin of the array; user.hpp:97, 135 *)
Definition put_bytes (h : list (option Z)) (bytes : list Z) : list (option Z) := map Some bytes ++ skipn (List.length bytes) h.

(** user.hpp:94-110 *)
Definition set_password (b : build) (u : user) (pw : list Z) : user :=
  if b_ssl b then mkuser (flat_map hex2 (b_sha256 b pw)) HtSha256 (put_bytes (u_hash u) (b_sha256 b pw))
  else mkuser pw (u_type u) (u_hash u).

(** user.hpp:126-136: the loop over pairs of characters; [strtoul] gives an unsigned 64 bit number, [numeric_cast] throws if it
    is over 255. The bytes written, and whether it ended without an exception. (The length is even there.) *)
Fixpoint hash_bytes (s : list Z) : list Z * bool :=
  match s with
  | a :: b :: s' =>
    let v := wrap64 (strtol16 [a; b]) in
    if 255 <? v then ([], false) else let (l, ok) := hash_bytes s' in (v :: l, ok)
  | _ => ([], true)
  end.
(** user.hpp:114-137. [false]: an exception was thrown. *)
Definition set_password_hash (u : user) (s : list Z) : user * bool :=
  if zlen s =? 64 then let (l, ok) := hash_bytes s in (mkuser s HtSha256 (put_bytes (u_hash u) l), ok)
  else if zlen s =? 40 then let (l, ok) := hash_bytes s in (mkuser s HtSha1 (put_bytes (u_hash u) l), ok)
  else (u, false).

(** [memcmp] of the first [n] bytes of the array with a hash; bytes not set are an error; user.hpp:81, 85 *)
Fixpoint init_bytes (h : list (option Z)) : option (list Z) :=
  match h with
  | [] => Some []
  | Some v :: h' => match init_bytes h' with Some l => Some (v :: l) | None => None end
  | None :: _ => None
  end.
(** user.hpp:81, 85 *)
Definition hash_equal (n : nat) (hash : list Z) (h : list (option Z)) : outcome bool :=
  match init_bytes (firstn n h) with Some l => Ok (str_eqb hash l) | None => Bad BadMemory end.
(** user.hpp:76-91 *)
Definition match_password (b : build) (u : user) (pw : list Z) : outcome bool :=
  if b_ssl b then
    match u_type u with
    | HtSha256 => hash_equal 32 (b_sha256 b pw) (u_hash u)
    | HtSha1 => hash_equal 20 (b_sha1 b pw) (u_hash u)
    | HtEmpty => Ok false
    end
  else Ok (str_eqb (u_password u) pw).

(** The user manager. Every method holds [m_mutex], so calls happen one after the other. [add_user_hash] and [update_user_hash]
    exist only with OpenSSL; the model then does nothing. user.hpp:179-302 *)
Inductive uop := UAdd (name pw : list Z) | UUpdate (name pw : list Z) | UAddHash (name hash : list Z) | UUpdateHash (name hash : list Z) | URemove (name : list Z).
(** user.hpp:179-302 *)
Inductive ures := UTrue | UFalse | UThrow.
(** user.hpp:179-300 *)
Definition u_step (b : build) (us : smap user) (o : uop) : smap user * ures :=
  match o with
  | UAdd n p =>
    match sm_find us n with Some _ => (us, UFalse) | None => (sm_insert us n (set_password b u_new p), UTrue) end
  | UUpdate n p =>
    match sm_find us n with None => (us, UFalse) | Some u => (sm_set us n (set_password b u p), UTrue) end
  | UAddHash n h =>
    if b_ssl b then
      match sm_find us n with
      | Some _ => (us, UFalse)
      | None => let (u, ok) := set_password_hash u_new h in if ok then (sm_insert us n u, UTrue) else (us, UThrow)
      end
    else (us, UFalse)
  | UUpdateHash n h =>
    if b_ssl b then
      match sm_find us n with
      | None => (us, UFalse)
      | Some u => let (u', ok) := set_password_hash u h in (sm_set us n u', if ok then UTrue else UThrow)
      end
    else (us, UFalse)
  | URemove n => match sm_find us n with None => (us, UFalse) | Some _ => (sm_erase us n, UTrue) end
  end.
(** user.hpp:179-302 *)
Definition u_run (b : build) (us : smap user) (ops : list uop) : smap user := fold_left (fun us o => fst (u_step b us o)) ops us.

(** user.hpp:282-288 [get_user(username, password)] *)
Definition get_user (b : build) (us : smap user) (n pw : list Z) : outcome bool :=
  match sm_find us n with None => Ok false | Some u => match_password b u pw end.
