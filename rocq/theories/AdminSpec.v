(** Specification of user ids and of the files that list them. *)
From Coq Require Import String ZArith List Bool.
From Verif Require Import Base FormSpec HttpSpec MessageSpec.
Import ListNotations.

(** the fields of a line, and the lines of a file *)
Definition fields (l : list Z) : list (list Z) := split_on (ch ":") l.
Definition lines (s : list Z) : list (list Z) := split_on 10 s.
(** the file lists [name] with the id [n]: its first line for that name has a numeral of [n] as third field *)
Definition listed (file name : list Z) (n : Z) : Prop :=
  exists before l after x v rest, lines file = before ++ l :: after /\ fields l = name :: x :: v :: rest /\ numeral n v
    /\ forall l', In l' before -> forall r, fields l' <> name :: r.
(** a file none of whose lines has an empty name, password or id *)
Definition regular (file : list Z) : Prop := forall l, In l (lines file) -> l = [] \/ forall f, In f (firstn 3 (fields l)) -> f <> [].
(** ids that a [boost::int16_t] holds *)
Definition short_id (u : Z) : Prop := 0 <= u < 32768 \/ two32 - 32768 <= u < two32 - 1.
