(** Model of authentication: src/http_auth.cpp, src/http_basic_auth.cpp, src/http_cookie_auth.cpp. *)
From Coq Require Import String ZArith List Bool.
From Verif Require Import Base SMap AlgModel DictModel HttpModel MessageModel WriterModel ServerModel UserModel.
Import ListNotations.

(** The users, the lists of auth.hpp:155-162, and of basic_auth or cookie_auth: the cache (key, time of the last use, name of the
    user) and the time it was last cleaned; the paths of cookie_auth. Times are seconds ([second_clock]). The cache holds
    pointers to users; the model keeps their names, which do not change. Basic authentication does not use [w_login] and so
    on. Every access to a set or map holds its mutex; [m_cache_cleanup_time], read and written without, is taken to be
    accessed by one request at a time. *)
Record aworld := mkw { w_users : smap user; w_restrict : smap unit; w_permit : smap unit; w_cache : smap (Z * list Z); w_cleanup : Z;
  w_login : list Z; w_logout : list Z; w_redirect : list Z }.
(** the cache of sessions gets another value: http_basic_auth.cpp:47-55, 70, 82; http_cookie_auth.cpp:83, 143, 152, 268-276 *)
Definition set_cache (w : aworld) (c : smap (Z * list Z)) (t : Z) : aworld :=
  mkw (w_users w) (w_restrict w) (w_permit w) c t (w_login w) (w_logout w) (w_redirect w).

(** http_auth.cpp:65-81 *)
Definition find_resource (l : smap unit) (s : list Z) : bool :=
  match find (fun e => entry_matches (fst e) s) (sm_down l s) with Some _ => true | None => false end.
(** http_auth.cpp:37-63 *)
Definition need_authentication (w : aworld) (m : msg) : bool :=
  match w_users w, w_restrict w with
  | [], _ | _, [] => false
  | _, _ =>
    let s := strip_slash (m_resource m) in
    if find_resource (w_restrict w) s then match w_permit w with [] => true | _ => negb (find_resource (w_permit w) s) end else false
  end.

(** http_basic_auth.cpp:41-56 and http_cookie_auth.cpp:261-278 [expire_cache] *)
Definition expire (limit t : Z) (w : aworld) : aworld :=
  if w_cleanup w + limit <? t then set_cache w (filter (fun e => negb (fst (snd e) + limit <? t)) (w_cache w)) t else w.

(* ------------------------------------------------------------------ Basic *)

(** http_basic_auth.cpp:23 *)
Definition BASIC_EXPIRATION : Z := 300.
(** http_basic_auth.cpp:104-112 *)
Definition parse_authorization (a : list Z) : option (list Z) :=
  if is_prefix (bs "Basic ") a then match skipn 6 a with [] => None | c => Some c end else None.
(** [std::string::find] of a character: what is before and what is after; used at http_basic_auth.cpp:123-128 *)
Fixpoint split_at (c : Z) (s : list Z) : option (list Z * list Z) :=
  match s with
  | [] => None
  | x :: s' => if x =? c then Some ([], s') else match split_at c s' with Some (a, b) => Some (x :: a, b) | None => None end
  end.
(** http_basic_auth.cpp:114-131 *)
Definition parse_credentials (cred : list Z) : outcome (option (list Z * list Z)) :=
  match b64_decode cred with
  | (B64UB, _) => Bad BadMemory
  | (B64False, _) => Ok None
  | (B64True, s) => match split_at (ch ":") s with None | Some ([], _) => Ok None | Some (u, p) => Ok (Some (u, p)) end
  end.
(** http_basic_auth.cpp:35-94 at time [t]: whether the request may go on, as which user ([set_user]), and the new state. The
    response 401 is left out. *)
Definition basic_handle (b : build) (t : Z) (w : aworld) (m : msg) : outcome (bool * option (list Z) * aworld) :=
  if negb (need_authentication w m) then Ok (true, None, w) else
  let w := expire BASIC_EXPIRATION t w in
  match d_get (m_headers m) (bs "Authorization") with
  | [] => Ok (false, None, w)
  | a =>
    match parse_authorization a with
    | None => Ok (false, None, w)
    | Some cred =>
      match sm_find (w_cache w) cred with
      | Some (_, u) => Ok (true, Some u, set_cache w (sm_set (w_cache w) cred (t, u)) (w_cleanup w))
      | None =>
        obind (parse_credentials cred) (fun o =>
          match o with
          | None => Ok (false, None, w)
          | Some (u, p) =>
            obind (get_user b (w_users w) u p) (fun ok =>
              if ok then Ok (true, Some u, set_cache w (sm_insert (w_cache w) cred (t, u)) (w_cleanup w)) else Ok (false, None, w))
          end)
      end
    end
  end.

(* ------------------------------------------------------------------ cookies *)

(** http_cookie_auth.cpp:24 *)
Definition COOKIE_EXPIRATION : Z := 3600.
(** http_cookie_auth.cpp:26 *)
Definition AUTH_COOKIE : list Z := bs "pion_session_id".
(** What cookie_auth answers instead of letting the request go on: 401 or a redirect to the login page; 204 or a redirect, with
    the new cookie or, [None], the cookie deleted. http_cookie_auth.cpp:88-90, 105-259 *)
Inductive cresp := CUnauthorized | CRedirect (url : list Z) | CDone (url : list Z) (cookie : option (list Z)).
(** http_cookie_auth.cpp:171-197, the begin of [handle_unauthorized] *)
Definition c_refuse (w : aworld) : cresp := match w_redirect w with [] => CUnauthorized | r => CRedirect r end.
(** http_cookie_auth.cpp:105-169 [process_login]; [rnd] are the 20 bytes the random generator gives, used if a session starts *)
Definition process_login (b : build) (t : Z) (rnd : list Z) (w : aworld) (m : msg) : outcome (option cresp * aworld) :=
  let s := strip_slash (m_resource m) in
  if negb (str_eqb s (w_login w)) && negb (str_eqb s (w_logout w)) then Ok (None, w) else
  let url := d_get (m_queries m) (bs "url") in
  if str_eqb s (w_login w) then
    let u := d_get (m_queries m) (bs "user") in
    obind (get_user b (w_users w) u (d_get (m_queries m) (bs "pass"))) (fun ok =>
      if ok then let c := b64_encode rnd in Ok (Some (CDone url (Some c)), set_cache w (sm_insert (w_cache w) c (t, u)) (w_cleanup w))
      else Ok (Some (c_refuse w), w))
  else
    Ok (Some (CDone url None),
      match d_get (m_cookies m) AUTH_COOKIE with [] => w | c => set_cache w (sm_erase (w_cache w) c) (w_cleanup w) end).
(** http_cookie_auth.cpp:53-91; the last component of the result: the answer if the request may not go on *)
Definition cookie_handle (b : build) (t : Z) (rnd : list Z) (w : aworld) (m : msg) : outcome (bool * option (list Z) * aworld * option cresp) :=
  obind (process_login b t rnd w m) (fun x =>
  match x with
  | (Some r, w) => Ok (false, None, w, Some r)
  | (None, w) =>
    if negb (need_authentication w m) then Ok (true, None, w, None) else
    if negb (str_eqb (w_redirect w) []) && str_eqb (w_redirect w) (m_resource m) then Ok (true, None, w, None) else
    let w := expire COOKIE_EXPIRATION t w in
    match d_get (m_cookies m) AUTH_COOKIE with
    | [] => Ok (false, None, w, Some (c_refuse w))
    | c =>
      match sm_find (w_cache w) c with
      | Some (_, u) => Ok (true, Some u, set_cache w (sm_set (w_cache w) c (t, u)) (w_cleanup w), None)
      | None => Ok (false, None, w, Some (c_refuse w))
      end
    end
  end).

(* ------------------------------------------------------------------ histories *)

(** What happens to an authentication object: changes of the users (whose results play no role here), of the lists
    (http_auth.cpp:21-35), of the options (http_cookie_auth.cpp:93-103), requests. *)
Inductive aop := OUser (o : uop) | ORestrict (r : list Z) | OPermit (r : list Z) | OOption (name value : list Z) | ORequest (t : Z) (rnd : list Z) (m : msg).
(** set_option throws for other names; the state is then unchanged; http_basic_auth.cpp:96-102, http_cookie_auth.cpp:93-103 *)
Definition set_option (w : aworld) (n v : list Z) : aworld :=
  if str_eqb n (bs "login") then mkw (w_users w) (w_restrict w) (w_permit w) (w_cache w) (w_cleanup w) v (w_logout w) (w_redirect w)
  else if str_eqb n (bs "logout") then mkw (w_users w) (w_restrict w) (w_permit w) (w_cache w) (w_cleanup w) (w_login w) v (w_redirect w)
  else if str_eqb n (bs "redirect") then mkw (w_users w) (w_restrict w) (w_permit w) (w_cache w) (w_cleanup w) (w_login w) (w_logout w) v
  else w.
Section Run.
Variables (b : build) (cookies : bool).
(** one request: allowed, the user, the new state; http_server.cpp:86-92, with the two kinds of http_basic_auth.cpp:35-94 and http_cookie_auth.cpp:53-91 *)
Definition a_handle (t : Z) (rnd : list Z) (w : aworld) (m : msg) : outcome (bool * option (list Z) * aworld) :=
  if cookies then obind (cookie_handle b t rnd w m) (fun x => Ok (fst x)) else basic_handle b t w m.
(** one operation: http_auth.cpp:21-35, http_basic_auth.cpp:35-102, http_cookie_auth.cpp:53-103 *)
Definition a_step (w : aworld) (o : aop) : outcome aworld :=
  match o with
  | OUser o => Ok (mkw (fst (u_step b (w_users w) o)) (w_restrict w) (w_permit w) (w_cache w) (w_cleanup w) (w_login w) (w_logout w) (w_redirect w))
  | ORestrict r => Ok (mkw (w_users w) (sm_insert (w_restrict w) (strip_slash r) tt) (w_permit w) (w_cache w) (w_cleanup w) (w_login w) (w_logout w) (w_redirect w))
  | OPermit r => Ok (mkw (w_users w) (w_restrict w) (sm_insert (w_permit w) (strip_slash r) tt) (w_cache w) (w_cleanup w) (w_login w) (w_logout w) (w_redirect w))
  | OOption n v => Ok (if cookies then set_option w n v else w)
  | ORequest t rnd m => obind (a_handle t rnd w m) (fun x => Ok (snd x))
  end.
(** operations one after the other (http_auth.cpp:23, 31, http_basic_auth.cpp:44, 64, http_cookie_auth.cpp:76: each holds a mutex where it uses what others change) *)
Fixpoint a_run (w : aworld) (ops : list aop) : outcome aworld :=
  match ops with [] => Ok w | o :: ops' => obind (a_step w o) (fun w' => a_run w' ops') end.
End Run.
(** a new object at time [t], with the paths given to the constructor of cookie_auth; http_basic_auth.cpp:28-33, http_cookie_auth.cpp:31-51 *)
Definition a_init (t : Z) (login logout redirect : list Z) : aworld := mkw [] [] [] [] t login logout redirect.
