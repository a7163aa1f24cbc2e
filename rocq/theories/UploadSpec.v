(** What clients that upload, replace or remove files rely on. *)
From Coq Require Import String ZArith List Bool.
From Verif Require Import Base DictModel HttpModel MessageModel WriterModel PathModel FileModel FileSpec.
Import ListNotations.

(** the bytes of the file before *)
Definition old (d : disk) (p : list Z) : list Z := match d p with Some (NFile c _ _) => c | _ => [] end.
(** the file has the data now, after what was there if it is appended to *)
Definition whole (d d' : disk) (p : list Z) (append : bool) (data : list Z) : Prop :=
  exists t r, d' p = Some (NFile ((if append then old d p else []) ++ data) t r).
(** What opening a file, writing to it and closing it may do to it: it may be refused, or end anywhere. *)
Definition may_become (d d' : disk) (p : list Z) (append : bool) (data : list Z) : Prop :=
  d' p = d p \/ exists k t r, d' p = Some (NFile ((if append then old d p else []) ++ firstn k data) t r).
(** the answer tells success *)
Definition success (code : Z) : Prop := code = 200 \/ code = 201 \/ code = 204.
(** the number of accesses that change something *)
Definition changing (a : access) : bool := match a with AWrite _ _ _ | ARemove _ => true | _ => false end.
(** the file [p], as it is on the disk [d], is what the answer sends *)
Definition sends_file (date : Z -> list Z) (d : disk) (p : list Z) (r : fres) : Prop :=
  exists f, r = FSend f /\ f_path f = p /\ (to_read date d f \/ exists t, in_memory date d t f).
(** a request for the same resource that wants the file, whatever the client has of it *)
Definition plain_get (m m' : msg) : Prop := m_method m' = bs "GET" /\ m_resource m' = m_resource m.
