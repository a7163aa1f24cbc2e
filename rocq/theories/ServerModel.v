(** Model of the dispatch of http::server: src/http_server.cpp, include/pion/http/server.hpp. *)
From Coq Require Import String ZArith List Bool.
From Verif Require Import Base SMap HttpModel.
Import ListNotations.

(** http/server.hpp:160-165 [strip_trailing_slash] *)
Definition strip_slash (s : list Z) : list Z :=
  match s with [] => [] | _ => if last s 0 =? ch "/" then removelast s else s end.

(** The tables of the server. A handler is a number. [m_resource_mutex] is held by every access to the resources, so they
    happen one after the other; the redirects are read without it, which the model does not show. http/server.hpp:268-283 *)
Record tables := mktables { t_resources : smap nat; t_redirects : smap (list Z) }.
(** http/server.hpp:268-283 *)
Definition t_init : tables := mktables [] [].
(** http_server.cpp:160-185, http/server.hpp:147-151 *)
Inductive top := TAdd (resource : list Z) (handler : nat) | TRemove (resource : list Z) | TRedirect (from to : list Z) | TClear.
(** http_server.cpp:160-185 [add_resource], 177-183 [remove_resource], 185-194 [add_redirect]; http/server.hpp:147-151 [clear] *)
Definition t_step (t : tables) (o : top) : tables :=
  match o with
  | TAdd r h => mktables (sm_insert (t_resources t) (strip_slash r) h) (t_redirects t)
  | TRemove r => mktables (sm_erase (t_resources t) (strip_slash r)) (t_redirects t)
  | TRedirect a b => mktables (t_resources t) (sm_insert (t_redirects t) (strip_slash a) (strip_slash b))
  | TClear => mktables [] (t_redirects t)
  end.
(** http_server.cpp:160-185, http/server.hpp:147-151 *)
Definition t_run (ops : list top) : tables := fold_left t_step ops t_init.

(** The test of http_server.cpp:146-149, http_auth.cpp:72-76: [r] is the entry, [s] the resource of the request *)
Definition entry_matches (r s : list Z) : bool :=
  (str_eqb r [] || is_prefix r s) && ((zlen s =? zlen r) || (nth (Z.to_nat (zlen r)) s 0 =? ch "/")).
(** http_server.cpp:134-158 *)
Definition find_request_handler (t : tables) (s : list Z) : option nat :=
  match t_resources t with
  | [] => None
  | _ => match find (fun e => entry_matches (fst e) s) (sm_down (t_resources t) s) with Some e => Some (snd e) | None => None end
  end.

(** http_server.cpp:72-83, with [k] redirects still allowed; the second component is the resource of the request. [None]: too
    many redirects. [MAX_REDIRECTS] is 10 (http_server.cpp:22). *)
Definition MAX_REDIRECTS : nat := 10.
(** http_server.cpp:69-83 *)
Fixpoint follow (k : nat) (t : tables) (res req : list Z) : option (list Z) * list Z :=
  match sm_find (t_redirects t) res with
  | None => (Some res, req)
  | Some res' => match k with O => (None, req) | S k' => follow k' t res' res' end
  end.

(** What the server calls for a request: its handlers, or the response of the authentication. A handler that throws
    [std::exception] or [boost::exception] ([throws]) is followed by the handler for server errors. http_server.cpp:38-132 *)
Inductive hact := ABad | AFinish | ATooMany | AAuth | AHandler (h : nat) | AServerError | ANotFound.
(** http_server.cpp:38-132. [auth] is [m_auth_ptr->handle_request] on the request after the redirects, if one is set; [W] is the
    state of the authentication object. The connection is taken to be open. Logging is left out. *)
Definition handle_request {W} (t : tables) (auth : option (W -> msg -> outcome (bool * W))) (throws : nat -> bool) (ec : option bool) (w : W) (m : msg)
    : outcome (list hact * msg * W) :=
  match ec, m_valid m with
  | Some is_parser_error, _ => Ok ([if is_parser_error : bool then ABad else AFinish], m, w)
  | None, false => Ok ([AFinish], m, w)
  | None, true =>
    match follow MAX_REDIRECTS t (strip_slash (m_resource m)) (m_resource m) with
    | (None, q) => Ok ([ATooMany], set_m_resource q m, w)
    | (Some res, q) =>
      let m' := set_m_resource q m in
      obind (match auth with Some a => a w m' | None => Ok (true, w) end) (fun x =>
        Ok (if fst x then
              match find_request_handler t res with
              | Some h => if throws h then [AHandler h; AServerError] else [AHandler h]
              | None => [ANotFound]
              end
            else [AAuth], m', snd x))
    end
  end.
