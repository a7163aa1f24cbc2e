(** Model of the timer that keeps the services of a scheduler from running out of work, for one service: src/scheduler.cpp:77-86,
    include/pion/scheduler.hpp. [one] chooses one_to_one_scheduler; otherwise single_service_scheduler. *)
From Coq Require Import ZArith List Bool.
From Verif Require Import Runs.
Import ListNotations.
Local Open Scope Z_scope.

(** [k_pend]: the wait that is pending on the timer, with its time of expiry; [k_ready]: handlers of waits that ended, for which
    keep_running is not yet called; [k_now]: the time in seconds. scheduler.hpp:279, 353; scheduler.cpp:77-86 *)
Record kst := mkk { k_running : bool; k_pend : option Z; k_ready : nat; k_now : Z }.
(** scheduler.hpp:279, 353; scheduler.cpp:77-86 *)
Definition k_init : kst := mkk false None 0 0.
(** startup; shutdown (with the joins: no handler is run meanwhile); time passes; the pending wait expires; a thread calls keep_running for a wait
    that ended; scheduler.cpp:27-66, 77-86, 123-175 *)
Inductive kop := KStartup | KShutdown | KTick (d : Z) | KExpire | KHandler.
(** scheduler.cpp:27-66, 77-86, 123-175 *)
Inductive kev := KStart | KCall | KTime (d : Z).
(** scheduler.cpp:77-86 when the scheduler runs; KEEP_RUNNING_TIMER_SECONDS is 5 (22). expires_from_now ends the wait that is
    pending; its handler is then called too, with an error that keep_running does not get. *)
Definition keep_running (s : kst) (ready : nat) : kst :=
  mkk (k_running s) (Some (k_now s + 5)) (match k_pend s with Some _ => S ready | None => ready end) (k_now s).
(** scheduler.cpp:27-66, 77-86, 123-175 *)
Definition k_step (one : bool) (s : kst) (o : kop) : option (kst * list kev) :=
  match o with
  | KStartup => (* scheduler.cpp:123-134, 148-166 *)
    if k_running s then Some (s, []) else Some (keep_running (mkk true (k_pend s) (k_ready s) (k_now s)) (k_ready s), [KStart; KCall])
  | KShutdown => (* scheduler.cpp:42-47: the one-to-one scheduler destroys its services and timers (scheduler.hpp:338), the single service keeps the wait and
                    the handlers (269-272) *)
    Some (if one then mkk false None 0 (k_now s) else mkk false (k_pend s) (k_ready s) (k_now s), [])
  | KTick d => if 0 <? d then Some (mkk (k_running s) (k_pend s) (k_ready s) (k_now s + d), [KTime d]) else None
  | KExpire =>
    match k_pend s with
    | Some e => if e <=? k_now s then Some (mkk (k_running s) None (S (k_ready s)) (k_now s), []) else None
    | None => None
    end
  | KHandler =>
    match k_ready s with
    | S r => Some (if k_running s then keep_running s r else mkk false (k_pend s) r (k_now s), [KCall])
    | O => None
    end
  end.
