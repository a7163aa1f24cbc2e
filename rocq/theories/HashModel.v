(** Model of the hash table behind the dictionaries of headers, queries and cookies: include/pion/hash_map.hpp:75-144. *)
From Coq Require Import String ZArith List Bool.
From Verif Require Import Base.
Import ListNotations.

(** [std::toupper(c, std::locale())] for each byte: the global locale of the program; hash_map.hpp:100 *)
Definition toupper := Z -> Z.
Section Table.
(** [boost::hash_combine], and whether the table keeps the hash of each entry (both kinds are in use) *)
Variables (mix : Z -> Z -> Z) (cached : bool).
(** hash_map.hpp:76-84 [iequal_to]: [boost::algorithm::iequals] compares the texts in upper case, byte by byte *)
Definition iequal_to (up : toupper) (x y : list Z) : bool := str_eqb (map up x) (map up y).
(** hash_map.hpp:89-105 [ihash] *)
Definition ihash (up : toupper) (x : list Z) : Z := fold_left (fun seed c => mix seed (up c)) x 0.

(** hash_map.hpp:138: a hash multimap, an array of at least one bucket; each entry with its hash. (Standard library or Boost; from the documentation. A new entry
    comes first in its bucket here.) *)
Definition entry : Type := Z * (list Z * list Z).
(** a hash table by buckets, hash_map.hpp:138 *)
Definition table : Type := list (list entry).
(** a hash table by buckets, hash_map.hpp:138 *)
Definition slot (t : table) (h : Z) : nat := Z.to_nat (h mod zlen t).
(** a hash table by buckets, hash_map.hpp:138 *)
Definition put (t : table) (e : entry) : table :=
  firstn (slot t (fst e)) t ++ (e :: nth (slot t (fst e)) t []) :: skipn (S (slot t (fst e))) t.
(** hash_map.hpp:76-84 *)
Definition matches (up : toupper) (k : list Z) (e : entry) : bool := (if cached then fst e =? ihash up k else true) && iequal_to up (fst (snd e)) k.
(** [find] and [equal_range] look into one bucket; used at message.hpp:615, 635, 664 *)
Definition t_range (up : toupper) (t : table) (k : list Z) : list (list Z) := map (fun e => snd (snd e)) (filter (matches up k) (nth (slot t (ihash up k)) t [])).
(** the first entry found gets the new value, the others go; message.hpp:641-649 *)
Fixpoint change_first (f : entry -> bool) (v : list Z) (l : list entry) : list entry :=
  match l with [] => [] | e :: l' => if f e then (fst e, (fst (snd e), v)) :: filter (fun e => negb (f e)) l' else e :: change_first f v l' end.
(** hash_map.hpp:138: an operation on one bucket *)
Definition on_bucket (t : table) (i : nat) (f : list entry -> list entry) : table := firstn i t ++ f (nth i t []) :: skipn (S i) t.
(** message.hpp:250, 628-651, 659-667 *)
Inductive hop := HAdd (k v : list Z) | HChange (k v : list Z) | HDelete (k : list Z) | HRehash (n : nat) | HLocale (up : toupper).
(** message.hpp:250, 628-651, 659-667 *)
Definition h_step (s : table * toupper) (o : hop) : table * toupper :=
  let (t, up) := s in
  match o with
  | HAdd k v => (put t (ihash up k, (k, v)), up)
  (** message.hpp:628-651 [change_value] *)
  | HChange k v => (match t_range up t k with [] => put t (ihash up k, (k, v)) | _ => on_bucket t (slot t (ihash up k)) (change_first (matches up k) v) end, up)
  (** message.hpp:659-667 [delete_value] *)
  | HDelete k => (on_bucket t (slot t (ihash up k)) (filter (fun e => negb (matches up k e))), up)
  (** more buckets *)
  | HRehash n => (fold_left put (map (fun e => (if cached then fst e else ihash up (fst (snd e)), snd e)) (concat t)) (repeat [] (S n)), up)
  (** [std::locale::global] *)
  | HLocale up' => (t, up')
  end.
(** one after the other: message.hpp:250, 628-651, 659-667 *)
Definition h_run (up : toupper) (ops : list hop) : table * toupper := fold_left h_step ops ([[]], up).
End Table.
