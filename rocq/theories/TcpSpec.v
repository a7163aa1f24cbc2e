(** Specification for tcp::server: predicates on what is seen of an execution. No definition here models code. *)
From Coq Require Import ZArith List.
From Verif Require Import TcpModel.
Import ListNotations.

(** nothing is accepted, handed to a handler or counted *)
Definition quiet_event (e : vev) : Prop :=
  match e with VAccepted _ | VFailed _ | VHandled _ => False | VCount n => n = 0%Z | _ => True end.
Definition is_accepted (e : vev) : bool := match e with VAccepted _ => true | _ => false end.
Definition is_failed (e : vev) : bool := match e with VFailed _ => true | _ => false end.
Definition is_started (e : vev) : bool := match e with VStarted => true | _ => false end.
Definition is_stopping (e : vev) : bool := match e with VStopping => true | _ => false end.
Definition is_stopped (e : vev) : bool := match e with VStopped true => true | _ => false end.
Definition is_users (e : vev) : bool := match e with VUsers _ => true | _ => false end.
Definition many (p : vev -> bool) (tr : list vev) : nat := length (filter p tr).
(** somebody besides the pool has a reference to the connection: an operation that waits or has ended, user code, a thread *)
Definition held (s : tsrv) (c : nat) : Prop :=
  In c (v_pending s) \/ (exists b, In (c, b) (v_events s)) \/ In c (v_shaking s) \/ In c (v_kept s)
  \/ exists i st f, nth_error (v_threads s) i = Some st /\ In f st /\ conn_of f = Some c.
(** the thread has called stop, which ended listening and has not returned, and is to do [st] then *)
Definition in_stop (s : tsrv) (i : nat) (st : list frame) : Prop :=
  nth_error (v_threads s) i = Some (FStopLoop :: st) \/ nth_error (v_threads s) i = Some (FStopSleep :: st).
(** the only references to the connection besides the pool are those of thread [i] *)
Definition only_holder (s : tsrv) (i c : nat) : Prop :=
  ~ In c (v_pending s) /\ (forall b, ~ In (c, b) (v_events s)) /\ ~ In c (v_shaking s) /\ ~ In c (v_kept s)
  /\ forall j st f, j <> i -> nth_error (v_threads s) j = Some st -> In f st -> conn_of f <> Some c.
