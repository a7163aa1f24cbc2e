(** Model of http::plugin_server, the server with web services: src/http_plugin_server.cpp, include/pion/http/plugin_server.hpp, with the parts of
    include/pion/plugin_manager.hpp, src/http_server.cpp and src/tcp_server.cpp that it uses. *)
From Coq Require Import ZArith List Bool.
From Verif Require Import Base SMap HttpModel ServerModel Runs Threads.
Import ListNotations.

(** A web service or another handler of requests, by number in [w_objs]: whether it is a web service, and what get_resource returns
    (plugin_service.hpp:65-68). *)
Record wobj := mko { o_service : bool; o_resource : list Z }.
(** A call of a handler: it runs; it runs and the connection it was called for is finished; it has returned. http_server.cpp:95-131 *)
Inductive wcall := CRuns (o : nat) | CFinished (o : nat) | CReturned (o : nat).
(** [w_services]: m_services (plugin_server.hpp:157); [w_tables]: the tables of http::server; [w_listening]: m_is_listening of tcp::server;
    [w_loading]: services whose load_service has not called set_resource yet; [w_calls]: all calls of handlers, by number. *)
Record web := mkw { w_services : smap nat; w_tables : tables; w_objs : list wobj; w_listening : bool; w_loading : list (nat * list Z); w_calls : list wcall }.
(** http/plugin_server.hpp:45-90 *)
Definition w_init : web := mkw [] t_init [] false [] [].

(** What is seen: a method of service [o] is called; it is destroyed; a request is given to service [o], whose get_resource is [res], in call [k],
    or to another handler; the call returns; service [o] is given to the server or made by it for resource [r]; a function of the server throws; no handler is found; there are too many redirects. http/plugin_server.hpp:65-157, http_server.cpp:38-132 *)
Inductive wev := EStart (o : nat) | EStop (o : nat) | EOption (o : nat) (name value : list Z) | EDestroyed (o : nat)
| EHandled (k o : nat) (res : list Z) | ECalled (k o : nat) | EReturned (k : nat) | EGiven (o : nat) (r : list Z) | EThrow | ENotFound | ETooMany.

(** What is done. [WAdd]: add_service with a new object; [WAgain]: with one that was given before; [WLoad], [WLoaded]: load_service up to
    add_resource, and its end; [WHandler], [WUnbind], [WRedirect]: add_resource, remove_resource, add_redirect of http::server; [fails]: the services
    whose method throws; [binds]: the acceptor is set up; [WRequest]: a request with resource [p] is dispatched; [WFinish]: the connection of call [k] is finished
    while the handler runs; [WReturn]: the handler returns. http/plugin_server.hpp:65-157, http_server.cpp:38-132 *)
Inductive wop := WAdd (r : list Z) | WAgain (r : list Z) (o : nat) | WLoad (r : list Z) (opens : bool) | WLoaded (o : nat) | WHandler (r : list Z) | WUnbind (r : list Z)
| WRedirect (a b : list Z) | WOption (r name value : list Z) (fails : bool) | WStart (fails : nat -> bool) (binds : bool) | WStop (fails : nat -> bool) | WClear (fails : nat -> bool)
| WRequest (p : list Z) | WFinish (k : nat) | WReturn (k : nat).

(** plugin_manager::run, plugin_manager.hpp:337-344: a method that throws ends the loop *)
Fixpoint call_all (fails : nat -> bool) (ev : nat -> wev) (l : list nat) : list wev * bool :=
  match l with
  | [] => ([], true)
  | o :: l' => if fails o then ([ev o], false) else let (e, b) := call_all fails ev l' in (ev o :: e, b)
  end.
(** a change of the state, for http/plugin_server.hpp:65-157 *)
Definition set_objs (s : web) (l : list wobj) : web := mkw (w_services s) (w_tables s) l (w_listening s) (w_loading s) (w_calls s).
(** a change of the state, for http/plugin_server.hpp:65-157 *)
Definition set_calls (s : web) (l : list wcall) : web := mkw (w_services s) (w_tables s) (w_objs s) (w_listening s) (w_loading s) l.
(** a change of the state, for http/plugin_server.hpp:65-157 *)
Definition set_tables (s : web) (t : tables) : web := mkw (w_services s) t (w_objs s) (w_listening s) (w_loading s) (w_calls s).
(** a change of the state, for http/plugin_server.hpp:65-157 *)
Definition set_listening (s : web) (b : bool) : web := mkw (w_services s) (w_tables s) (w_objs s) b (w_loading s) (w_calls s).
(** plugin_service::set_resource, plugin_service.hpp:65 *)
Definition set_resource (l : list wobj) (o : nat) (r : list Z) : list wobj :=
  match nth_error l o with Some x => set_nth o (mko (o_service x) r) l | None => l end.
(** plugin_server::add_service, http_plugin_server.cpp:25-33, after set_resource; plugin_manager::add, plugin_manager.hpp:188-195, and add_resource keep
    the entry that is there *)
Definition bind_service (s : web) (r : list Z) (o : nat) : web :=
  mkw (sm_insert (w_services s) r o) (t_step (w_tables s) (TAdd r o)) (w_objs s) (w_listening s) (w_loading s) (w_calls s).
(** tcp::server::start, tcp_server.cpp:71-111, with before_starting, plugin_server.hpp:139-142. The result tells whether it throws nothing. *)
Definition w_start (s : web) (fails : nat -> bool) (binds : bool) : web * list wev :=
  if w_listening s then (s, [])
  else let (e, well) := call_all fails EStart (map snd (w_services s)) in
       if well && binds then (set_listening s true, e) else (s, e ++ [EThrow]).
(** Whether stop can return, tcp_server.cpp:133-140: a handler that runs holds its connection, which is in the pool until it is finished (TcpModel). *)
Definition all_finished (s : web) : bool := forallb (fun c => match c with CRuns _ => false | _ => true end) (w_calls s).
(** tcp::server::stop, tcp_server.cpp:113-149, with after_stopping, plugin_server.hpp:145-148; taken as one step, when the wait is over *)
Definition w_stop (s : web) (fails : nat -> bool) : option (web * list wev * bool) :=
  if w_listening s then
    if all_finished s then
      let (e, well) := call_all fails EStop (map snd (w_services s)) in
      Some (set_listening s false, if well then e else e ++ [EThrow], well)
    else None
  else Some (s, [], true).
(** plugin_server::clear, plugin_server.hpp:127-131; plugin_manager.hpp:386-402; http::server::clear, http/server.hpp:147-151 *)
Definition w_clear (s : web) (fails : nat -> bool) : option (web * list wev) :=
  match w_stop s fails with
  | None => None
  | Some (s1, e, false) => Some (s1, e)
  | Some (s1, e, true) =>
    Some (mkw [] (t_step (w_tables s1) TClear) (w_objs s1) (w_listening s1) (w_loading s1) (w_calls s1), e ++ map EDestroyed (map snd (w_services s1)))
  end.
(** http::server::handle_request, http_server.cpp:38-132, for a request that parsed well and needs no authentication (ServerModel.handle_request).
    Requests come from connections of a server that listens, or that stop waits for. *)
Definition w_request (s : web) (p : list Z) : option (web * list wev) :=
  if w_listening s then
    match fst (follow MAX_REDIRECTS (w_tables s) (strip_slash p) p) with
    | None => Some (s, [ETooMany])
    | Some res =>
      match find_request_handler (w_tables s) res with
      | None => Some (s, [ENotFound])
      | Some o =>
        match nth_error (w_objs s) o with
        | None => None
        | Some x => Some (set_calls s (w_calls s ++ [CRuns o]),
                          [if o_service x then EHandled (length (w_calls s)) o (o_resource x) else ECalled (length (w_calls s)) o])
        end
      end
    end
  else None.
(** http/plugin_server.hpp:65-157, http_server.cpp:38-132 *)
Definition w_step (s : web) (l : wop) : option (web * list wev) :=
  match l with
  | WAdd r => let r' := strip_slash r in Some (bind_service (set_objs s (w_objs s ++ [mko true r'])) r' (length (w_objs s)), [EGiven (length (w_objs s)) r])
  | WAgain r o =>
    match nth_error (w_objs s) o with
    | Some x => if o_service x then let r' := strip_slash r in Some (bind_service (set_objs s (set_resource (w_objs s) o r')) r' o, [EGiven o r]) else None
    | None => None
    end
  | WLoad r opens => (* http_plugin_server.cpp:35-40; plugin_manager::load, plugin_manager.hpp:239-259 *)
    let r' := strip_slash r in
    match sm_find (w_services s) r' with
    | Some _ => Some (s, [EThrow])
    | None =>
      if opens then
        let o := length (w_objs s) in
        let s1 := bind_service (set_objs s (w_objs s ++ [mko true []])) r' o in
        Some (mkw (w_services s1) (w_tables s1) (w_objs s1) (w_listening s1) ((o, r') :: w_loading s1) (w_calls s1), [EGiven o r])
      else Some (s, [EThrow])
    end
  | WLoaded o => (* http_plugin_server.cpp:41-43 *)
    match find (fun e => Nat.eqb o (fst e)) (w_loading s) with
    | Some (_, r) => Some (mkw (w_services s) (w_tables s) (set_resource (w_objs s) o r) (w_listening s)
                              (filter (fun e => negb (Nat.eqb o (fst e))) (w_loading s)) (w_calls s), [])
    | None => None
    end
  | WHandler r => (* http_server.cpp:160-167 *)
    Some (set_tables (set_objs s (w_objs s ++ [mko false []])) (t_step (w_tables s) (TAdd r (length (w_objs s)))), [])
  | WUnbind r => (* http_server.cpp:169-175 *) Some (set_tables s (t_step (w_tables s) (TRemove r)), [])
  | WRedirect a b => (* http_server.cpp:177-185 *) Some (set_tables s (t_step (w_tables s) (TRedirect a b)), [])
  | WOption r n v fails => (* http_plugin_server.cpp:45-52; plugin_manager.hpp:348-356 *)
    match sm_find (w_services s) (strip_slash r) with
    | Some o => Some (s, EOption o n v :: if fails then [EThrow] else [])
    | None => Some (s, [EThrow])
    end
  | WStart fails binds => Some (w_start s fails binds)
  | WStop fails => match w_stop s fails with Some (s1, e, _) => Some (s1, e) | None => None end
  | WClear fails => w_clear s fails
  | WRequest p => w_request s p
  | WFinish k => match nth_error (w_calls s) k with Some (CRuns o) => Some (set_calls s (set_nth k (CFinished o) (w_calls s)), []) | _ => None end
  | WReturn k =>
    match nth_error (w_calls s) k with
    | Some (CRuns o) | Some (CFinished o) => Some (set_calls s (set_nth k (CReturned o) (w_calls s)), [EReturned k])
    | _ => None
    end
  end.
