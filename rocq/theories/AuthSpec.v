(** Specification of authentication. *)
From Coq Require Import String ZArith List.
From Verif Require Import Base AlgModel DictModel HttpModel HttpSpec ServerModel ServerSpec UserModel UserSpec AuthModel.
Import ListNotations.

(** the calls of the user manager in a history, and the times of its requests *)
Definition user_ops (ops : list aop) : list uop := flat_map (fun o => match o with OUser u => [u] | _ => [] end) ops.
Definition times (ops : list aop) : list Z := flat_map (fun o => match o with ORequest t _ _ => [t] | _ => [] end) ops.
(** the clock does not go back *)
Fixpoint ordered (start : Z) (l : list Z) : Prop := match l with [] => True | t :: l' => start <= t /\ ordered t l' end.

(** Authentication is needed: there is a user, and the resource is or lies below a restricted name, and not so for a permitted
    one. *)
Definition somebody (b : build) (ops : list uop) : Prop := exists f rs n, calls b nobody ops f rs /\ f n <> None.
Definition restricted (ops : list aop) (path : list Z) : Prop := exists r c, In (ORestrict r) ops /\ cleaned r c /\ covers c path.
Definition permitted (ops : list aop) (path : list Z) : Prop := exists r c, In (OPermit r) ops /\ cleaned r c /\ covers c path.
Definition needs (b : build) (ops : list aop) (m : msg) : Prop :=
  somebody b (user_ops ops) /\ exists path, cleaned (m_resource m) path /\ restricted ops path /\ ~ permitted ops path.

(** Basic: the request carries the credential; the credential stands for a user name and a password *)
Definition presents (m : msg) (cred : list Z) : Prop := In (bs "Basic " ++ cred) (values_of (bs "Authorization") (m_headers m)) /\ cred <> [].
Definition presents_only (m : msg) (cred : list Z) : Prop :=
  presents m cred /\ Forall (eq (bs "Basic " ++ cred)) (values_of (bs "Authorization") (m_headers m)).
Definition stands_for (cred u p : list Z) : Prop := b64_decode cred = (B64True, u ++ ch ":" :: p) /\ u <> [] /\ ~ In (ch ":") u.

(** a request that was let through as user [u] after the history [before] *)
Definition let_through (b : build) (cookies : bool) (w0 : aworld) (before : list aop) (t : Z) (rnd : list Z) (m : msg) (u : list Z) : Prop :=
  exists w w', a_run b cookies w0 before = Ok w /\ a_handle b cookies t rnd w m = Ok (true, Some u, w').

(** cookies: the session of the request *)
Definition session (m : msg) (c : list Z) : Prop := In c (values_of AUTH_COOKIE (m_cookies m)) /\ c <> [].
(** a request that was a successful login with which session [c] of [u] began *)
Definition logged_in (b : build) (w0 : aworld) (before : list aop) (t : Z) (rnd : list Z) (m : msg) (c u : list Z) : Prop :=
  exists w w' url, a_run b true w0 before = Ok w /\ cookie_handle b t rnd w m = Ok (false, None, w', Some (CDone url (Some c)))
    /\ u = d_get (m_queries m) (bs "user").
(** a request for the logout page that carries this session and no other; a session that was so ended somewhere in [after],
    which follows [before] *)
Definition session_only (m : msg) (c : list Z) : Prop := session m c /\ Forall (eq c) (values_of AUTH_COOKIE (m_cookies m)).
Definition logged_out (b : build) (w0 : aworld) (before : list aop) (t : Z) (rnd : list Z) (m : msg) (c : list Z) : Prop :=
  session_only m c /\ exists w w' url, a_run b true w0 before = Ok w /\ cookie_handle b t rnd w m = Ok (false, None, w', Some (CDone url None)).
Definition ended (b : build) (w0 : aworld) (before after : list aop) (c : list Z) : Prop :=
  exists l t rnd m l', after = l ++ ORequest t rnd m :: l' /\ logged_out b w0 (before ++ l) t rnd m c.

(** The credentials of a request at time [t] after the history [ops] are good for user [u]: they are those of a user now; or
    they were at an earlier time, and a request with them was let through not more than 600 seconds ago. *)
Definition basic_good (b : build) (w0 : aworld) (ops : list aop) (t : Z) (m : msg) (u : list Z) : Prop :=
  exists cred p, presents m cred /\ stands_for cred u p /\
    (knows b (user_ops ops) u p
     \/ (exists before t1 rnd1 m1 after, ops = before ++ ORequest t1 rnd1 m1 :: after /\ presents m1 cred /\ knows b (user_ops before) u p)
        /\ exists before t0 rnd0 m0 after, ops = before ++ ORequest t0 rnd0 m0 :: after /\ presents m0 cred
             /\ let_through b false w0 before t0 rnd0 m0 u /\ t <= t0 + 600).
(** The session of a request is good for user [u]: it began with a login of [u] with a right password, was not ended since, and
    that login or a request with the session was let through not more than 7200 seconds ago. *)
Definition session_good (b : build) (w0 : aworld) (ops : list aop) (t : Z) (m : msg) (u : list Z) : Prop :=
  exists c, session m c
    /\ (exists before t1 rnd1 m1 after, ops = before ++ ORequest t1 rnd1 m1 :: after /\ logged_in b w0 before t1 rnd1 m1 c u
          /\ knows b (user_ops before) u (d_get (m_queries m1) (bs "pass")) /\ ~ ended b w0 (before ++ [ORequest t1 rnd1 m1]) after c)
    /\ exists before t0 rnd0 m0 after, ops = before ++ ORequest t0 rnd0 m0 :: after
         /\ (logged_in b w0 before t0 rnd0 m0 c u \/ session m0 c /\ let_through b true w0 before t0 rnd0 m0 u) /\ t <= t0 + 7200.
(** the value of an option of cookie authentication: the last one set *)
Definition setting (name init : list Z) (ops : list aop) : list Z :=
  fold_left (fun v o => match o with OOption n v' => if list_eq_dec Z.eq_dec n name then v' else v | _ => v end) ops init.
(** the page that unauthorized requests are sent to *)
Definition redirect_page (red : list Z) (ops : list aop) (m : msg) : Prop := setting (bs "redirect") red ops <> [] /\ m_resource m = setting (bs "redirect") red ops.
(** a session id that no login in [ops] gave *)
Definition never_given (b : build) (w0 : aworld) (ops : list aop) (c : list Z) : Prop :=
  forall before t rnd m after u, ops = before ++ ORequest t rnd m :: after -> ~ logged_in b w0 before t rnd m c u.
(** no request for the logout page with this session among [after] *)
Definition not_ended (b : build) (w0 : aworld) (before after : list aop) (c : list Z) : Prop :=
  forall l t rnd m l' w w' url, after = l ++ ORequest t rnd m :: l' -> session m c -> a_run b true w0 (before ++ l) = Ok w ->
    cookie_handle b t rnd w m <> Ok (false, None, w', Some (CDone url None)).
