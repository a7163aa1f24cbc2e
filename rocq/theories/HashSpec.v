(** What the dictionaries rely on; compare DictSpec.v. *)
From Coq Require Import String ZArith List Bool.
From Verif Require Import Base DictModel DictSpec HashModel.
Import ListNotations.

(** the operations on the dictionary among those on the table *)
Fixpoint dict_ops (ops : list hop) : list dict_op :=
  match ops with
  | [] => []
  | HAdd k v :: l => OpAdd k v :: dict_ops l
  | HChange k v :: l => OpChange k v :: dict_ops l
  | HDelete k :: l => OpDelete k :: dict_ops l
  | _ :: l => dict_ops l
  end.
(** the locale of C: only the letters of ASCII are changed *)
Definition c_upper (c : Z) : Z := if (97 <=? c) && (c <=? 122) then c - 32 else c.
Definition ascii (k : list Z) : Prop := Forall (fun c => 0 <= c < 128) k.
(** a locale that does with ASCII what the locale of C does *)
Definition like_c (up : toupper) : Prop := forall c, 0 <= c < 128 -> up c = c_upper c.
Definition names_ascii (o : hop) : Prop := match o with HAdd k _ | HChange k _ | HDelete k => ascii k | HLocale up => like_c up | HRehash _ => True end.
Definition no_locale (o : hop) : Prop := match o with HLocale _ => False | _ => True end.
