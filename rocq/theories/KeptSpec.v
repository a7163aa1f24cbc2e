(** What a message and its parser hold of the text they were given (independent of how the parser works). *)
From Coq Require Import String ZArith List.
From Verif Require Import Base.
Import ListNotations.

(** characters of all the names and values of a dictionary; message.hpp:590-592, request.hpp:164 *)
Fixpoint text_size (d : list (list Z * list Z)) : Z :=
  match d with [] => 0 | p :: d' => zlen (fst p) + zlen (snd p) + text_size d' end.
