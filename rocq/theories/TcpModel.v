(** Model of the connection management of tcp::server with any number of threads: src/tcp_server.cpp, include/pion/tcp/server.hpp,
    include/pion/tcp/connection.hpp. *)
From Coq Require Import ZArith List Bool.
From Verif Require Import Base Runs Threads.
Import ListNotations.

(** What a thread has to do. [FUser]: code of the user, with the connection it was called for; it may call any function of the
    server. [FUnlock]: the end of the scoped lock of finish_connection. [FHandle]: the call of handle_connection, for a connection
    just accepted ([new]) or one kept alive. tcp_server.cpp:71-267 *)
Inductive frame :=
| FStart | FListen | FAddUser | FStop | FStopLoop | FStopSleep | FJoin | FJoinWait | FCount
| FAccept (c : nat) (ok : bool) | FShake (c : nat) (ok : bool) | FHandle (new : bool) (c : nat) | FFinish (c : nat) | FUnlock | FUser (c : option nat).

(** A connection is a number. The acceptor is open exactly when [m_is_listening]: both change in the same critical sections
    (tcp_server.cpp:76-110, 118-148). [v_pending]: the accept operations waiting; [v_events]: those completed, with or without a
    connection, whose handler has not run; [v_shaking]: SSL handshakes waiting; [v_kept]: references to connections kept by
    user code, for example by read operations that wait; [v_alive]: the connections whose lifecycle is not close; [v_users]: the
    active users of the scheduler. The scheduler itself is modelled in SchedModel. *)
Record tsrv := mkv { v_mutex : option nat; v_listening : bool; v_pool : list nat; v_next : nat;
  v_pending : list nat; v_events : list (nat * bool); v_shaking : list nat; v_kept : list nat; v_alive : list nat; v_users : Z;
  v_threads : list (list frame) }.
(** tcp/server.hpp:205-235: as constructed *)
Definition v_init : tsrv := mkv None false [] 0 [] [] [] [] [] 0 [].

(** What is seen. [VStarted], [VStopping]: start or stop took effect; [VStopped true]: stop returns after stopping the server, [VStopped false]:
    because the server did not listen; [VAccepted]: the acceptor accepts a connection, [VFailed]: an accept operation ends without one; [VHandled]:
    handle_connection is called; [VCount]: the result of get_connections; [VUsers]: the number of active users changed. tcp_server.cpp:71-293 *)
Inductive vev := VStarted | VStopping | VStopped (effect : bool) | VJoined | VAccepted (c : nat) | VFailed (c : nat) | VHandled (c : nat) | VCount (n : Z) | VUsers (n : Z).

(** What user code may do: return; call a function; keep or drop a reference; change the lifecycle. tcp/server.hpp:47-130, tcp/connection.hpp:595-611 *)
Inductive uact := UReturn | UStart | UStop | UJoin | UCount | UFinish | UKeep | ULife (keep : bool).
(** A step: thread [i] goes on, in user code with an action, in handle_accept with or without SSL; the acceptor accepts or
    fails; a worker runs the handler of a completed accept or handshake; a reference kept is dropped, or used: a callback of the
    user is called. [LMain]: a new thread of the user. tcp_server.cpp:71-293, a step of it *)
Inductive vlab := LThread (i : nat) | LUser (i : nat) (a : uact) | LAcceptEnd (i : nat) (ssl : bool) | LIncoming (c : nat) (ok : bool) | LEvent (c : nat) (ok : bool)
  | LShaken (c : nat) (ok : bool) | LDrop (c : nat) | LCallback (c : nat) | LMain.

(** membership in the pool and removal, tcp_server.cpp:189, 259-261 *)
Definition hasn (c : nat) (l : list nat) : bool := existsb (Nat.eqb c) l.
(** membership in the pool and removal, tcp_server.cpp:189, 259-261 *)
Definition del (c : nat) (l : list nat) : list nat := filter (fun d => negb (Nat.eqb c d)) l.
(** the connection a frame is about, tcp_server.cpp:199-267 *)
Definition conn_of (f : frame) : option nat :=
  match f with FAccept c _ | FShake c _ | FHandle _ c | FFinish c => Some c | FUser o => o | _ => None end.
(** the connection a frame is about, tcp_server.cpp:199-267 *)
Definition frame_has (c : nat) (f : frame) : bool := match conn_of f with Some d => Nat.eqb c d | None => false end.
(** whether there is a reference to the connection outside the pool: the contrary of shared_ptr::unique; tcp_server.cpp:274 *)
Definition referenced (s : tsrv) (c : nat) : bool :=
  hasn c (v_pending s) || hasn c (map fst (v_events s)) || hasn c (v_shaking s) || hasn c (v_kept s) || existsb (existsb (frame_has c)) (v_threads s).
(** tcp_server.cpp:269-287 *)
Definition prune (s : tsrv) : list nat := filter (referenced s) (v_pool s).

(** a change of the state, for tcp_server.cpp:71-293 *)
Definition set_threads (s : tsrv) (th : list (list frame)) : tsrv :=
  mkv (v_mutex s) (v_listening s) (v_pool s) (v_next s) (v_pending s) (v_events s) (v_shaking s) (v_kept s) (v_alive s) (v_users s) th.
(** a change of the state, for tcp_server.cpp:71-293 *)
Definition set_stack (s : tsrv) (i : nat) (st : list frame) : tsrv := set_threads s (set_nth i st (v_threads s)).
(** boost::mutex, used at tcp_server.cpp:74, 105, 116, 153, 176, 249, 291 *)
Definition set_mutex (s : tsrv) (m : option nat) : tsrv :=
  mkv m (v_listening s) (v_pool s) (v_next s) (v_pending s) (v_events s) (v_shaking s) (v_kept s) (v_alive s) (v_users s) (v_threads s).
(** a change of the state, for tcp_server.cpp:71-293 *)
Definition set_pool (s : tsrv) (p : list nat) : tsrv :=
  mkv (v_mutex s) (v_listening s) p (v_next s) (v_pending s) (v_events s) (v_shaking s) (v_kept s) (v_alive s) (v_users s) (v_threads s).
(** a change of the state, for tcp_server.cpp:71-293 *)
Definition set_users (s : tsrv) (u : Z) : tsrv :=
  mkv (v_mutex s) (v_listening s) (v_pool s) (v_next s) (v_pending s) (v_events s) (v_shaking s) (v_kept s) (v_alive s) u (v_threads s).
(** a change of the state, for tcp_server.cpp:71-293 *)
Definition set_ops (s : tsrv) (pend : list nat) (evs : list (nat * bool)) (shak kept alive : list nat) : tsrv :=
  mkv (v_mutex s) (v_listening s) (v_pool s) (v_next s) pend evs shak kept alive (v_users s) (v_threads s).
(** boost::mutex, used at tcp_server.cpp:74, 105, 116, 153, 176, 249, 291 *)
Definition unlocked (s : tsrv) : bool := match v_mutex s with None => true | Some _ => false end.
(** boost::mutex, used at tcp_server.cpp:74, 105, 116, 153, 176, 249, 291 *)
Definition owns (s : tsrv) (i : nat) : bool := match v_mutex s with Some j => Nat.eqb i j | None => false end.

(** tcp_server.cpp:71-111, the critical section of start. Binding is taken to succeed; before_starting does nothing. *)
Definition do_start (s : tsrv) (i : nat) (st : list frame) : tsrv * list vev :=
  if v_listening s then (set_stack s i st, [])
  else (set_stack (mkv (v_mutex s) true (v_pool s) (v_next s) (v_pending s) (v_events s) (v_shaking s) (v_kept s) (v_alive s) (v_users s) (v_threads s))
          i (FListen :: FAddUser :: st), [VStarted]).
(** tcp_server.cpp:173-197 *)
Definition do_listen (s : tsrv) (i : nat) (st : list frame) : tsrv * list vev :=
  if v_listening s then
    let c := v_next s in
    (set_stack (mkv (v_mutex s) true (c :: prune s) (S c) (c :: v_pending s) (v_events s) (v_shaking s) (v_kept s) (v_alive s) (v_users s) (v_threads s)) i st, [])
  else (set_stack s i st, []).
(** tcp_server.cpp:113-130. Closing the acceptor ends the accept operations. That stop(false) closes the sockets is left out: the operations of
    the connections then end, as they may at any time. *)
Definition do_stop (s : tsrv) (i : nat) (st : list frame) : tsrv * list vev :=
  if v_listening s then
    (set_stack (mkv (Some i) false (v_pool s) (v_next s) [] (map (fun c => (c, false)) (v_pending s) ++ v_events s) (v_shaking s) (v_kept s) (v_alive s) (v_users s) (v_threads s))
       i (FStopLoop :: st), VStopping :: map VFailed (v_pending s))
  else (set_stack s i st, [VStopped false]).
(** tcp_server.cpp:142-148; after_stopping does nothing. The threads in join are woken. *)
Definition stop_end (s : tsrv) (i : nat) (st : list frame) : tsrv * list vev :=
  let u := wrap32 (v_users s - 1) in
  let th := map (map (fun f => match f with FJoinWait => FJoin | _ => f end)) (v_threads s) in
  (set_stack (set_threads (set_mutex (set_users s u) None) th) i st, [VUsers u; VStopped true]).
(** tcp_server.cpp:133-140, one pass of the loop *)
Definition do_stop_loop (s : tsrv) (i : nat) (st : list frame) : tsrv * list vev :=
  match v_pool s with
  | [] => stop_end s i st
  | _ => match prune s with
         | [] => stop_end (set_pool s []) i st
         | p => (set_stack (set_mutex (set_pool s p) None) i (FStopSleep :: st), [])
         end
  end.
(** tcp_server.cpp:247-267. The handler is called with the mutex held. *)
Definition do_finish (s : tsrv) (i c : nat) (st : list frame) : tsrv * list vev :=
  if v_listening s && hasn c (v_alive s) then (set_stack (set_mutex s (Some i)) i (FHandle false c :: FUnlock :: st), [])
  else (set_stack (set_pool s (del c (v_pool s))) i st, []).
(** tcp_server.cpp:289-293, size_t of 64 bits *)
Definition do_count (s : tsrv) : Z := if v_listening s then wrap64 (zlen (v_pool s) - 1) else zlen (v_pool s).

(** thread [i], whose innermost frame is [f], goes on; tcp_server.cpp:71-267 *)
Definition thread_step (s : tsrv) (i : nat) (f : frame) (st : list frame) : option (tsrv * list vev) :=
  match f with
  | FStart => if unlocked s then Some (do_start s i st) else None
  | FListen => if unlocked s then Some (do_listen s i st) else None
  | FAddUser => (* 105 *) let u := wrap32 (v_users s + 1) in Some (set_stack (set_users s u) i st, [VUsers u])
  | FStop => if unlocked s then Some (do_stop s i st) else None
  | FStopLoop => if owns s i then Some (do_stop_loop s i st) else None
  | FStopSleep => if unlocked s then Some (set_stack (set_mutex s (Some i)) i (FStopLoop :: st), []) else None
  | FJoin => (* 150-157 *) if unlocked s then Some (if v_listening s then (set_stack s i (FJoinWait :: st), []) else (set_stack s i st, [VJoined])) else None
  | FJoinWait => None
  | FCount => if unlocked s then Some (set_stack s i st, [VCount (do_count s)]) else None
  | FAccept _ _ => None
  | FShake c ok => (* 230-244 *) Some (set_stack s i ((if ok then FHandle true c else FFinish c) :: st), [])
  | FHandle _ c => Some (set_stack s i (FUser (Some c) :: st), [VHandled c])
  | FFinish c => if unlocked s then Some (do_finish s i c st) else None
  | FUnlock => if owns s i then Some (set_stack (set_mutex s None) i st, []) else None
  | FUser _ => None
  end.
(** handle_accept, tcp_server.cpp:199-230: the flag is read without the mutex *)
Definition accept_step (s : tsrv) (i c : nat) (ok ssl : bool) (st : list frame) : tsrv :=
  let st1 := if ok then if ssl then st else FHandle true c :: st else FFinish c :: st in
  let s1 := if ok && ssl then set_ops s (v_pending s) (v_events s) (c :: v_shaking s) (v_kept s) (v_alive s) else s in
  set_stack s1 i (if v_listening s then FListen :: st1 else st1).
(** what code of the user may do with tcp/server.hpp:47-130 *)
Definition user_step (s : tsrv) (i : nat) (o : option nat) (a : uact) (st : list frame) : option tsrv :=
  let call f := Some (set_stack s i (f :: FUser o :: st)) in
  match a, o with
  | UReturn, _ => Some (set_stack s i st)
  | UStart, _ => call FStart
  | UStop, _ => call FStop
  | UJoin, _ => call FJoin
  | UCount, _ => call FCount
  | UFinish, Some c => call (FFinish c)
  | UKeep, Some c => Some (set_ops s (v_pending s) (v_events s) (v_shaking s) (c :: v_kept s) (v_alive s))
  | ULife k, Some c => Some (set_ops s (v_pending s) (v_events s) (v_shaking s) (v_kept s) (if k then c :: v_alive s else del c (v_alive s)))
  | _, None => None
  end.
(** new threads of the user or of the scheduler, scheduler.cpp:136-141 *)
Definition spawn (s : tsrv) (f : frame) : tsrv := set_threads s (v_threads s ++ [[f]]).
(** the completions of tcp_server.cpp:192-195 *)
Definition same_event (c : nat) (ok : bool) (e : nat * bool) : bool := Nat.eqb c (fst e) && Bool.eqb ok (snd e).
(** tcp_server.cpp:71-293 *)
Definition v_step (s : tsrv) (l : vlab) : option (tsrv * list vev) :=
  match l with
  | LThread i => match nth_error (v_threads s) i with Some (f :: st) => thread_step s i f st | _ => None end
  | LUser i a => match nth_error (v_threads s) i with
                 | Some (FUser o :: st) => match user_step s i o a st with Some s' => Some (s', []) | None => None end
                 | _ => None end
  | LAcceptEnd i ssl => match nth_error (v_threads s) i with Some (FAccept c ok :: st) => Some (accept_step s i c ok ssl st, []) | _ => None end
  | LIncoming c ok =>
    if hasn c (v_pending s) then
      Some (set_ops s (del c (v_pending s)) ((c, ok) :: v_events s) (v_shaking s) (v_kept s) (v_alive s), [if ok then VAccepted c else VFailed c])
    else None
  | LEvent c ok =>
    if existsb (same_event c ok) (v_events s) then
      Some (spawn (set_ops s (v_pending s) (filter (fun e => negb (same_event c ok e)) (v_events s)) (v_shaking s) (v_kept s) (v_alive s)) (FAccept c ok), [])
    else None
  | LShaken c ok =>
    if hasn c (v_shaking s) then Some (spawn (set_ops s (v_pending s) (v_events s) (del c (v_shaking s)) (v_kept s) (v_alive s)) (FShake c ok), []) else None
  | LDrop c => Some (set_ops s (v_pending s) (v_events s) (v_shaking s) (del c (v_kept s)) (v_alive s), [])
  | LCallback c => if hasn c (v_kept s) then Some (spawn s (FUser (Some c)), []) else None
  | LMain => Some (spawn s (FUser None), [])
  end.
