(** Specification of the file service: where a path leads, and which paths a service may use. *)
From Coq Require Import String ZArith List Bool.
From Verif Require Import Base AlgModel HttpModel PathModel FileModel.
Import ListNotations.

(** How the operating system follows a path from the directory [cwd], if there are no links: a directory is the list of the names
    that lead to it from the root. *)
Definition walk1 (at_ : list (list Z)) (f : list Z) : list (list Z) :=
  if list_eq_dec Z.eq_dec f [] then at_ else if list_eq_dec Z.eq_dec f [46] then at_
  else if list_eq_dec Z.eq_dec f [46; 46] then removelast at_ else at_ ++ [f].
Definition resolve (cwd : list (list Z)) (p : list Z) : list (list Z) :=
  fold_left walk1 (fields p) (match p with 47 :: _ => [] | _ => cwd end).
(** the file or directory [p] is the directory [dir] or in it or below it *)
Definition inside (cwd : list (list Z)) (dir p : list Z) : Prop := exists rest, resolve cwd p = resolve cwd dir ++ rest.
(** ... or in or below one next to it, with a name that goes on after the directory's *)
Definition beside (cwd : list (list Z)) (dir p : list Z) : Prop :=
  exists up n more rest, resolve cwd dir = up ++ [n] /\ resolve cwd p = up ++ (n ++ more) :: rest.

(** the accesses other than the question whether something exists *)
Definition touches (a : access) : Prop := match a with AExists _ | AIsDir _ => False | _ => True end.
(** the accesses that change a file *)
Definition changes (a : access) : Prop := match a with AWrite _ _ _ | ARemove _ => True | _ => False end.

(** a name of an entry of a directory *)
Definition entry_name (n : list Z) : Prop := n <> [] /\ ~ In 47 n /\ n <> [46] /\ n <> [46; 46].
Definition real_disk (d : disk) : Prop := forall p es t, d p = Some (NDir es t) -> Forall entry_name es.
(** the path ends with a name: not with [.] or [..], and it is not the root *)
Definition ends_with_name (p : list Z) : Prop := exists l n, names p = l ++ [n] /\ n <> [46] /\ n <> [46; 46].
(** no name of two characters, one of them a dot, but [..] *)
Definition tame (p : list Z) : Prop := forall a b, In [a; b] (names p) -> a = 46 \/ b = 46 -> a = 46 /\ b = 46.

(** the options of a service: the last directory, the last file, and whether files may be changed *)
Fixpoint last_set {A} (f : fopt -> option A) (l : list (disk * fopt)) (dflt : option A) : option A :=
  match l with [] => dflt | o :: l' => last_set f l' (match f (snd o) with Some x => Some x | None => dflt end) end.
Definition directory_of (l : list (disk * fopt)) : option (list Z) := last_set (fun o => match o with ODirectory v => Some v | _ => None end) l None.
Definition file_of (l : list (disk * fopt)) : option (list Z) := last_set (fun o => match o with OFile v => Some v | _ => None end) l None.
Definition writable_of (l : list (disk * fopt)) : option bool := last_set (fun o => match o with OWritable v => Some v | _ => None end) l None.
(** what a service does after its options were set: starts, stops and requests *)
Definition serves (o : fop) : Prop := match o with FOption _ _ => False | _ => True end.
(** the path that a request asks for, relative to the service *)
Definition asked (resource : list Z) (m : msg) : list Z := relative (fs_init resource) (m_resource m).
(** a service that was given these options *)
Definition configure (two : bool) (date : Z -> list Z) (resource : list Z) (opts : list (disk * fopt)) : fserv :=
  fst (fs_run two date (fs_init resource) (map (fun o => FOption (fst o) (snd o)) opts)).
(** the disks that a history saw *)
Definition seen (ops : list fop) (d : disk) : Prop :=
  Exists (fun o => match o with FOption d' _ | FStart _ d' | FRequest d' _ _ _ _ => d' = d | FStop => False end) ops.
Definition all_readable (d : disk) : Prop := forall p c t r, d p = Some (NFile c t r) -> r = true.
(** the file that a path relative to the service stands for: below the directory, or the single file *)
Definition stands_for (cwd : list (list Z)) (dir file : option (list Z)) (rel p : list Z) : Prop :=
  match rel with
  | [] => exists v, file = Some v /\ resolve cwd p = resolve cwd v
  | _ => exists v, dir = Some v /\ resolve cwd p = resolve cwd (v ++ 47 :: rel)
  end.
Definition caching_of (l : list (disk * fopt)) : Z :=
  match last_set (fun o => match o with OCache n => if (0 <=? n) && (n <=? 2) then Some n else None | _ => None end) l None with Some n => n | None => 1 end.
Definition scan_of (l : list (disk * fopt)) : Z :=
  match last_set (fun o => match o with OScan n => if (0 <=? n) && (n <=? 3) then Some n else None | _ => None end) l None with Some n => n | None => 0 end.
(** the file [f] to be sent is the file on the disk [d], its content is still to be read *)
Definition to_read (date : Z -> list Z) (d : disk) (f : diskfile) : Prop :=
  exists c t r, d (f_path f) = Some (NFile c t r) /\ f_content f = None /\ f_size f = zlen c /\ f_date f = date t.
(** ... is in memory, as it was on the disk [d0] *)
Definition in_memory (date : Z -> list Z) (d0 : disk) (t : Z) (f : diskfile) : Prop :=
  exists c, d0 (f_path f) = Some (NFile c t true) /\ f_content f = Some (map Some c) /\ f_size f = zlen c /\ f_date f = date t.
(** the file [p] has the time of change [t] and as many bytes as [f] *)
Definition looks_like (d : disk) (t : Z) (f : diskfile) : Prop := exists c r, d (f_path f) = Some (NFile c t r) /\ f_size f = zlen c.
