(** Model of tcp::timer (src/tcp_timer.cpp) and of the shutdown condition of process (src/process.cpp). *)
From Coq Require Import ZArith List Bool.
From Verif Require Import Runs.
Import ListNotations.
Local Open Scope Z_scope.

(** tcp_timer.cpp:20-49. [ti_pending]: the waits of the deadline timer that have not completed, with the times they end at;
    [ti_ready]: the number of completed or aborted waits whose callback has not run. Every method holds [m_mutex], so a
    method is one step. The clock is exact and counts seconds. *)
Record timer := mktimer { ti_now : Z; ti_active : bool; ti_cancelled : bool; ti_pending : list Z; ti_ready : nat }.
(** tcp_timer.cpp:20-24 *)
Definition ti_init (now : Z) : timer := mktimer now false false [] 0.
(** tcp_timer.cpp:26-49 *)
Inductive tlab := TStart (seconds : Z) | TCancel | TTick (d : Z) | TFire | TCallback.
(** what is seen: the calls, and that the connection is cancelled; tcp_timer.cpp:26-49 *)
Inductive tev := EStart (now seconds : Z) | ECancel | EConn (now : Z).
(** [expires_from_now] and [cancel] of the deadline timer abort the waits there are: their callbacks run too, with an error. tcp_timer.cpp:26-49 *)
Definition ti_step (t : timer) (l : tlab) : option (timer * list tev) :=
  match l with
  | TStart sec => (* 27-34 *)
    if 0 <=? sec then Some (mktimer (ti_now t) true (ti_cancelled t) [ti_now t + sec] (length (ti_pending t) + ti_ready t), [EStart (ti_now t) sec]) else None
  | TCancel => (* 36-42 *)
    Some (if ti_active t then mktimer (ti_now t) true true [] (length (ti_pending t) + ti_ready t)
          else mktimer (ti_now t) false true (ti_pending t) (ti_ready t), [ECancel])
  | TTick d => if 0 <=? d then Some (mktimer (ti_now t + d) (ti_active t) (ti_cancelled t) (ti_pending t) (ti_ready t), []) else None
  | TFire => (* a wait is over *)
    match ti_pending t with
    | e :: p => if e <=? ti_now t then Some (mktimer (ti_now t) (ti_active t) (ti_cancelled t) p (S (ti_ready t)), []) else None
    | [] => None
    end
  | TCallback => (* 44-49 *)
    match ti_ready t with
    | O => None
    | S n => Some (mktimer (ti_now t) false (ti_cancelled t) (ti_pending t) n, if ti_cancelled t then [] else [EConn (ti_now t)])
    end
  end.

(** process.cpp:34-50. [ps_waiting]: the threads blocked in the condition; [ps_woken]: those that have left it and want the
    mutex to test again. Condition variables may wake without a notification ([PSpurious]). *)
Record proc := mkproc { ps_flag : bool; ps_waiting : list nat; ps_woken : list nat }.
(** process.cpp:52-55 *)
Definition ps_init : proc := mkproc false [] [].
(** process.cpp:34-50 *)
Inductive plab := PShutdown | PWait (thread : nat) | PSpurious (thread : nat) | PTest (thread : nat).
(** process.cpp:34-50 *)
Inductive pev := EShutdown | EWait (thread : nat) | EReturn (thread : nat).
(** process.cpp:34-50 *)
Definition remove1 (i : nat) (l : list nat) : list nat := filter (fun j => negb (Nat.eqb i j)) l.
(** process.cpp:34-50 *)
Definition has (i : nat) (l : list nat) : bool := existsb (Nat.eqb i) l.
(** process.cpp:34-50 *)
Definition ps_step (p : proc) (l : plab) : option (proc * list pev) :=
  match l with
  | PShutdown => Some (if ps_flag p then p else mkproc true [] (ps_waiting p ++ ps_woken p), [EShutdown])
  | PWait i =>
    if has i (ps_waiting p) || has i (ps_woken p) then None
    else Some (if ps_flag p then (p, [EWait i; EReturn i]) else (mkproc false (i :: ps_waiting p) (ps_woken p), [EWait i]))
  | PSpurious i => if has i (ps_waiting p) then Some (mkproc (ps_flag p) (remove1 i (ps_waiting p)) (i :: ps_woken p), []) else None
  | PTest i =>
    if has i (ps_woken p) then
      Some (if ps_flag p then (mkproc true (ps_waiting p) (remove1 i (ps_woken p)), [EReturn i])
            else (mkproc false (i :: ps_waiting p) (remove1 i (ps_woken p)), []))
    else None
  end.
