(** Specification for plug-ins: predicates on what is seen. No definition here models code. *)
From Coq Require Import ZArith List Bool.
From Verif Require Import Base PluginModel.
Import ListNotations.

(** the library with number [k] is loaded *)
Definition loads (tr : list pev) : list nat := flat_map (fun e => match e with ELoad k => [k] | _ => [] end) tr.
Definition unloads (tr : list pev) : list nat := flat_map (fun e => match e with EUnload k => [k] | _ => [] end) tr.
Definition loaded (tr : list pev) (k : nat) : Prop := In k (loads tr) /\ ~ In k (unloads tr).
(** instances *)
Definition created (tr : list iev) : list nat := flat_map (fun e => match e with ICreated n => [n] | _ => [] end) tr.
Definition destroyed (tr : list iev) : list nat := flat_map (fun e => match e with IDestroyed n => [n] | _ => [] end) tr.
(** objects of a manager *)
Definition made (tr : list mev) : list nat := flat_map (fun e => match e with GMade n _ => [n] | _ => [] end) tr.
Definition gone (tr : list mev) : list nat := flat_map (fun e => match e with GDestroyed n _ => [n] | _ => [] end) tr.
(** [id] is [res] or an ancestor of it *)
Definition covers (id res : list Z) : Prop := res = id \/ exists t, res = id ++ 47%Z :: t.
(** dictionary order of strings *)
Definition lex_lt (a b : list Z) : Prop :=
  (exists c t, b = a ++ c :: t) \/ (exists p x y t u, a = p ++ x :: t /\ b = p ++ y :: u /\ (x < y)%Z).
(** [z] is the identifier before [y] *)
Definition before {A} (m : list (list Z * A)) (z y : list Z) : Prop :=
  In z (map fst m) /\ lex_lt z y /\ forall w, In w (map fst m) -> lex_lt w y -> w = z \/ lex_lt w z.
