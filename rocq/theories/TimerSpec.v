(** Specification for timers and for process shutdown: predicates on what is seen of an execution. No definition here models code. *)
From Coq Require Import ZArith List.
From Verif Require Import TimerModel.
Import ListNotations.
Local Open Scope Z_scope.

(** No start while an earlier start has not led to a cancelled connection yet; [o] is the time the earlier one ends. *)
Fixpoint proper (o : option Z) (tr : list tev) : Prop :=
  match tr with
  | [] => True
  | EStart t sec :: r => o = None /\ proper (Some (t + sec)) r
  | EConn _ :: r => proper None r
  | ECancel :: r => proper o r
  end.
(** A connection is cancelled only when the time of the last start is over, once for a start, and never after a cancel. *)
Fixpoint timely (o : option Z) (tr : list tev) : Prop :=
  match tr with
  | [] => True
  | EStart t sec :: r => timely (Some (t + sec)) r
  | EConn t :: r => (exists d, o = Some d /\ d <= t) /\ timely None r
  | ECancel :: r => timely None r
  end.
(** started, and since then not gone off *)
Definition running (tr : list tev) : Prop := exists a t sec b, tr = a ++ EStart t sec :: b /\ forall u, ~ In (EConn u) b.

(** called wait_for_shutdown and has not come back *)
Definition waits (i : nat) (tr : list pev) : Prop := exists a b, tr = a ++ EWait i :: b /\ ~ In (EReturn i) b.
