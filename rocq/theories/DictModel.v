(** Model of the case-insensitive multimaps of headers, queries and cookies
    (include/pion/hash_map.hpp:75-144, include/pion/http/message.hpp:592-667). *)
From Coq Require Import String ZArith List Bool.
From Verif Require Import Base FormModel.
Import ListNotations.

(** An [ihash_multimap] is the list of its entries in an order in which entries with equal keys are visited
    as [find] and [equal_range] visit them. [std::]/[boost::unordered_multimap] leave the place of a new entry
    among those with an equal key open; it is given by an arbitrary function of the dictionary and the entry.
    Hashing is left out: entries are compared with [iequal_to] only (hash_map.hpp:76-84). That the table finds by hash what this list finds is C135 (HashModel.v). *)
Definition dict := list (list Z * list Z).
(** the place of an entry: any place its equals leave, hash_map.hpp:138 *)
Definition dpos := dict -> list Z * list Z -> nat.

(** [insert]; used at message.hpp:250, 366-368, request.hpp:109 *)
Definition d_insert (pos : dpos) (d : dict) (p : list Z * list Z) : dict :=
  firstn (pos d p) d ++ p :: skipn (pos d p) d.
(** as d_insert, one after the other: message.hpp:250, request.hpp:109 *)
Definition d_insert_all (pos : dpos) (d : dict) (l : list (list Z * list Z)) : dict := fold_left (d_insert pos) l d.

(** hash_map.hpp:76-84 *)
Definition d_match (key : list Z) (p : list Z * list Z) : bool := iequals (fst p) key.

(** [find]; used at message.hpp:227, 244, 615 *)
Definition d_find (d : dict) (key : list Z) : option (list Z) :=
  match find (d_match key) d with Some p => Some (snd p) | None => None end.

(** message.hpp:611-617 [get_value] *)
Definition d_get (d : dict) (key : list Z) : list Z :=
  match d_find d key with Some v => v | None => [] end.

(** message.hpp:226-228, 243-245 [has_header], [has_cookie] *)
Definition d_has (d : dict) (key : list Z) : bool := match d_find d key with Some _ => true | None => false end.

(** [equal_range], as the entries in order; used at message.hpp:635, 664 *)
Definition d_range (d : dict) (key : list Z) : dict := filter (d_match key) d.

(** message.hpp:643-651: entries of the range after the first one are erased *)
Definition d_erase (d : dict) (key : list Z) : dict := filter (fun p => negb (d_match key p)) d.

(** message.hpp:628-651 [change_value]: the first entry keeps its key and gets the new value, the other entries of
    the range are erased; without an entry a new one is inserted *)
Fixpoint d_change_first (d : dict) (key value : list Z) : dict :=
  match d with
  | [] => []
  | p :: d' => if d_match key p then (fst p, value) :: d_erase d' key else p :: d_change_first d' key value
  end.
(** message.hpp:628-651 *)
Definition d_change (pos : dpos) (d : dict) (key value : list Z) : dict :=
  if d_has d key then d_change_first d key value else d_insert pos d (key, value).

(** message.hpp:659-667 [delete_value] *)
Definition d_delete (d : dict) (key : list Z) : dict := d_erase d key.
