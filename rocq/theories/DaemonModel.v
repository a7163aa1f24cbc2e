(** Model of pion::process::daemonize on POSIX systems: src/process.cpp:239-269. The table of descriptors of a process is a list, closed
    entries are [None]. fork, setsid, close, open, dup, getdtablesize and umask are modelled as POSIX has them: open and dup use the lowest
    descriptor that is closed and fail if it is not below the limit; a child has a copy of the table; setsid succeeds in a new child. Whether
    fork succeeds, whether /dev/null can be opened and the limit are parameters. Signals and terminals are left out. *)
From Coq Require Import ZArith List Bool.
From Verif Require Import Base Threads.
Import ListNotations.

(** an open file; for process.cpp:256-263 *)
Inductive file := DevNull | FileNo (n : Z).
(** what of a process matters to process.cpp:239-269: its parent, whether it began a session of its own, the mask, the descriptors *)
Record proc := mkproc { p_parent : Z; p_session : bool; p_umask : Z; p_fds : list (option file) }.
(** a process ended with [exit] (process.cpp:248-249), or goes on after the call *)
Inductive after := Exited (code : Z) | GoesOn (p : proc).

(** close(i), an error if it is not open, which is ignored; process.cpp:257 *)
Definition fd_close (i : nat) (t : list (option file)) : list (option file) := set_nth i None t.
(** process.cpp:257: the loop from [n] down to 0 *)
Fixpoint close_down (n : nat) (t : list (option file)) : list (option file) :=
  match n with O => fd_close 0 t | S k => close_down k (fd_close n t) end.
(** the lowest descriptor that is closed, as open and dup use it; process.cpp:260-263 *)
Fixpoint lowest (t : list (option file)) : nat := match t with Some _ :: t' => S (lowest t') | _ => O end.
(** a descriptor for [f]; [None] is the answer -1; process.cpp:260-263 *)
Definition fd_new (limit : nat) (t : list (option file)) (f : file) : option nat * list (option file) :=
  let i := lowest t in
  if Nat.ltb i limit then (Some i, if Nat.ltb i (length t) then set_nth i (Some f) t else t ++ [Some f]) else (None, t).
(** process.cpp:260-264 *)
Definition bind_stdio (null_ok : bool) (limit : nat) (t : list (option file)) : list (option file) :=
  if null_ok then
    match fd_new limit t DevNull with
    | (None, t1) => t1
    | (Some _, t1) => snd (fd_new limit (snd (fd_new limit t1 DevNull)) DevNull)
    end
  else t.
(** process.cpp:251-268: the child; [pid] is its parent *)
Definition child (null_ok : bool) (limit : nat) (pid : Z) (p : proc) : proc :=
  mkproc pid true 23 (bind_stdio null_ok limit (close_down limit (p_fds p))).
(** process.cpp:239-269: what becomes of the caller and of the child, if there is one; [pid] is the caller's. 027 in octal is 23. *)
Definition daemonize (fork_ok null_ok : bool) (limit : nat) (pid : Z) (p : proc) : after * option after :=
  if p_parent p =? 1 then (GoesOn p, None)
  else if fork_ok then (Exited 0, Some (GoesOn (child null_ok limit pid p))) else (Exited 1, None).

(** the mode of a file that a process creates with [mode], as POSIX has it; what process.cpp:267-268 is for *)
Definition created (p : proc) (mode : Z) : Z := Z.land mode (Z.lnot (p_umask p)).
