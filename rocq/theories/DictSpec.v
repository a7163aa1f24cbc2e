(** Specification of the header, query and cookie dictionaries: histories of operations and the values they leave
    under a name. *)
From Coq Require Import ZArith List.
From Verif Require Import Base HttpSpec.
Import ListNotations.

Inductive dict_op := OpAdd (name value : list Z) | OpChange (name value : list Z) | OpDelete (name : list Z).

(** the values under [name] after a history, the oldest first *)
Fixpoint values_after (name : list Z) (vs : list (list Z)) (ops : list dict_op) : list (list Z) :=
  match ops with
  | [] => vs
  | OpAdd n v :: ops' => values_after name (if same_name n name then vs ++ [v] else vs) ops'
  | OpChange n v :: ops' => values_after name (if same_name n name then [v] else vs) ops'
  | OpDelete n :: ops' => values_after name (if same_name n name then [] else vs) ops'
  end.
