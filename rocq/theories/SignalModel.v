(** Model of process::shutdown, wait_for_shutdown and the handlers of signals: src/process.cpp:34-50, 222-237 (not on Windows). Here single steps of threads are seen, as a signal may come
    between any two of them; TimerModel.v has the two functions as a whole. *)
From Coq Require Import List Bool ZArith.
From Verif Require Import Threads.
Import ListNotations.

(** What initialize (process.cpp:227-237) does with signals; others keep what they had. *)
Inductive signal := SIGPIPE | SIGCHLD | SIGTSTP | SIGTTOU | SIGTTIN | SIGHUP | SIGINT | SIGTERM | SIGOTHER (n : nat).
(** process.cpp:229-236 *)
Inductive disposition := Ignored | Handled | Unchanged.
(** process.cpp:229-236 *)
Definition disposed (g : signal) : disposition :=
  match g with SIGPIPE | SIGCHLD | SIGTSTP | SIGTTOU | SIGTTIN | SIGHUP => Ignored | SIGINT | SIGTERM => Handled | SIGOTHER _ => Unchanged end.

(** A call that has not returned and how far it is. wait_for_shutdown (process.cpp:44-50): it wants the mutex, has it and is about to test the flag, waits in the condition (without the mutex), or has been
    woken and wants the mutex again. shutdown (34-42), called by a program or by handle_signal (222-225): it wants the mutex, or has it. *)
Inductive frame := WWant | WHold | WBlocked | WWoken | SWant | SHold.
(** [g_flag]: shutdown_now (process.hpp:97); [g_owner]: the thread that has shutdown_mutex (process.hpp:103), a mutex that is not recursive; [g_threads]: the calls of each thread, innermost first *)
Record gstate := mkg { g_flag : bool; g_owner : option nat; g_threads : list (list frame) }.
(** process.hpp:93; [n] threads *)
Definition g_init (n : nat) : gstate := mkg false None (repeat [] n).
(** A thread without a call makes one; a signal is delivered to a thread, which runs the handler above what it is doing; a thread goes one step; a thread in the condition wakes without a reason (process.cpp:34-50, 222-237) *)
Inductive glab := GWait (i : nat) | GShutdown (i : nat) | GSignal (i : nat) (g : signal) | GStep (i : nat) | GSpurious (i : nat).
(** a call of shutdown is made; a handled signal is delivered; wait_for_shutdown returns (process.cpp:34-50, 222-237) *)
Inductive gev := VRequest (i : nat) | VSignal (i : nat) | VReturn (i : nat).

(** notify_all, process.cpp:40 *)
Definition woken (f : frame) : frame := match f with WBlocked => WWoken | _ => f end.
(** process.cpp:40 *)
Definition notify_all (l : list (list frame)) : list (list frame) := map (map woken) l.
(** the calls of a thread change; process.cpp:34-50 *)
Definition put_frames (s : gstate) (i : nat) (st : list frame) : gstate := mkg (g_flag s) (g_owner s) (set_nth i st (g_threads s)).
(** One step of the innermost call of a thread: process.cpp:34-50. [None]: the thread waits for the mutex or in the condition, or has no call. *)
Definition thread_step (s : gstate) (i : nat) : option (gstate * list gev) :=
  match nth_error (g_threads s) i with
  | Some (WWant :: st) | Some (WWoken :: st) => (* 47, 49 *)
    match g_owner s with None => Some (mkg (g_flag s) (Some i) (set_nth i (WHold :: st) (g_threads s)), []) | Some _ => None end
  | Some (WHold :: st) => (* 48-50 *)
    if g_flag s then Some (mkg true None (set_nth i st (g_threads s)), [VReturn i]) else Some (mkg false None (set_nth i (WBlocked :: st) (g_threads s)), [])
  | Some (SWant :: st) => (* 37 *)
    match g_owner s with None => Some (mkg (g_flag s) (Some i) (set_nth i (SHold :: st) (g_threads s)), []) | Some _ => None end
  | Some (SHold :: st) => (* 38-42 *)
    if g_flag s then Some (mkg true None (set_nth i st (g_threads s)), []) else Some (mkg true None (notify_all (set_nth i st (g_threads s))), [])
  | Some (WBlocked :: _) | Some [] | None => None
  end.
(** process.cpp:34-50, 222-237 *)
Definition g_step (s : gstate) (l : glab) : option (gstate * list gev) :=
  match l with
  | GWait i => match nth_error (g_threads s) i with Some [] => Some (put_frames s i [WWant], []) | _ => None end
  | GShutdown i => match nth_error (g_threads s) i with Some [] => Some (put_frames s i [SWant], [VRequest i]) | _ => None end
  | GSignal i g =>
    match nth_error (g_threads s) i with
    | Some st => match disposed g with Handled => Some (put_frames s i (SWant :: st), [VSignal i]) | Ignored => Some (s, []) | Unchanged => None end
    | None => None
    end
  | GStep i => thread_step s i
  | GSpurious i => match nth_error (g_threads s) i with Some (WBlocked :: st) => Some (put_frames s i (WWoken :: st), []) | _ => None end
  end.
