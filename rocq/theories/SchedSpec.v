(** Specification for the schedulers: predicates on what is seen of an execution. No definition here models code. *)
From Coq Require Import ZArith List.
From Verif Require Import SchedModel.
Import ListNotations.

Definition is_added (e : gev) : bool := match e with SAdded => true | _ => false end.
Definition is_removed (e : gev) : bool := match e with SRemoved => true | _ => false end.
Definition many (p : gev -> bool) (tr : list gev) : nat := length (filter p tr).
(** registered users *)
Definition registered (tr : list gev) : Z := Z.of_nat (many is_added tr) - Z.of_nat (many is_removed tr).
(** shutdown began to stop the threads and has not ended *)
Fixpoint open_from (o : bool) (tr : list gev) : bool :=
  match tr with
  | [] => o
  | SStopping :: tr' => open_from true tr'
  | SDown :: tr' => open_from false tr'
  | _ :: tr' => open_from o tr'
  end.
Definition shutting_down (tr : list gev) : bool := open_from false tr.
Definition chosen (tr : list gev) : list nat := flat_map (fun e => match e with SChosen k => [k] | _ => [] end) tr.
Definition posted (tr : list gev) : list nat := flat_map (fun e => match e with SPosted k => [k] | _ => [] end) tr.
Definition ran (tr : list gev) : list nat := flat_map (fun e => match e with SRun k => [k] | _ => [] end) tr.
Definition dropped (tr : list gev) : list nat := flat_map (fun e => match e with SDropped k => [k] | _ => [] end) tr.
