(** Model of src/admin_rights.cpp and include/pion/admin_rights.hpp (not the Windows branch), of its use in src/tcp_server.cpp:71-111, and of the calls of the operating system they make. *)
From Coq Require Import String ZArith List Bool.
From Verif Require Import Base Digits Threads.
Import ListNotations.

(* ------------------------------------------------------------------ user ids of a process *)

(** The real, effective and saved user id, each an unsigned number of 32 bits, as the code asks for and sets them (admin_rights.cpp:66-67, 82, 98), and [seteuid] as its documentation has it (seteuid(2) of Linux): the id -1 is refused;
    a process with the rights of the super user (effective id 0) may take any id, another one its real, effective or saved id. [None]: the call fails and changes nothing. *)
Record creds := mkcreds { c_real : Z; c_eff : Z; c_saved : Z }.
(** in C: used at admin_rights.cpp:67, 82, 98; only the ids of the user are modelled, not those of the group *)
Definition seteuid (c : creds) (u : Z) : option creds :=
  if u =? two32 - 1 then None
  else if (c_eff c =? 0) || (u =? c_real c) || (u =? c_eff c) || (u =? c_saved c) then Some (mkcreds (c_real c) u (c_saved c)) else None.
(** admin_rights.hpp:75: the id is kept in a [boost::int16_t] *)
Definition int16 (u : Z) : Z := let v := u mod 65536 in if v <? 32768 then v else v - 65536.
(** an integer as the argument of [seteuid], a [uid_t]; conversion at admin_rights.cpp:82, 98 *)
Definition to_uid (v : Z) : Z := wrap32 v.

(* ------------------------------------------------------------------ objects *)

(** Where an [admin_rights] object is. admin_rights.cpp:62-77, constructor: waits for the mutex; has it; has read its user id; failed to get rights; has rights.
    81-95, [release], which the destructor calls: has called [seteuid]; has no rights. The log is left out. *)
Inductive phase := AWait | ALocked | ARead (id : Z) | AFailed | AHeld (id : Z) | AGiven | AFree.
(** the ids of the process, the mutex and the objects: admin_rights.cpp:28-29, admin_rights.hpp:63-81 *)
Record astate := mkas { a_creds : creds; a_lock : option nat; a_objs : list phase }.
(** the ids of the process, the mutex and the objects: admin_rights.cpp:28-29, admin_rights.hpp:63-81 *)
Definition a_init (c : creds) : astate := mkas c None [].
(** A new object; the next step of constructor or [release] of an object; a call of [release] of a constructed object; a call of [seteuid] elsewhere in the process
    (for example lines 94-104, which does not take the mutex). admin_rights.cpp:62-92 *)
Inductive alabel := LNew | LStep (i : nat) | LRelease (i : nat) | LSet (u : Z).
(** What can be observed: the end of a constructor, with or without rights; the end of [release]. admin_rights.cpp:62-92 *)
Inductive aevent := ERights (i : nat) | ENoRights (i : nat) | EReleased (i : nat).
(** an object gets another phase; not in the code *)
Definition put (s : astate) (i : nat) (p : phase) : astate := mkas (a_creds s) (a_lock s) (set_nth i p (a_objs s)).
(** the effective id of the process changes, admin_rights.cpp:67, 82 *)
Definition set_creds (s : astate) (c : creds) : astate := mkas c (a_lock s) (a_objs s).
(** the mutex is taken or given back, admin_rights.cpp:64, 70, 90 *)
Definition set_lock (s : astate) (l : option nat) : astate := mkas (a_creds s) l (a_objs s).
(** admin_rights.cpp:62-92 *)
Definition a_step (s : astate) (l : alabel) : option (astate * list aevent) :=
  match l with
  | LNew => Some (mkas (a_creds s) (a_lock s) (a_objs s ++ [AWait]), [])
  | LStep i =>
    match nth_error (a_objs s) i with
    | Some AWait => match a_lock s with None => Some (set_lock (put s i ALocked) (Some i), []) | Some _ => None end
    | Some ALocked => Some (put s i (ARead (int16 (c_eff (a_creds s)))), [])
    | Some (ARead id) =>
      match seteuid (a_creds s) (to_uid 0) with
      | None => Some (put s i AFailed, [])
      | Some c => Some (put (set_creds s c) i (AHeld id), [ERights i])
      end
    | Some AFailed => Some (set_lock (put s i AFree) None, [ENoRights i])
    | Some AGiven => Some (set_lock (put s i AFree) None, [EReleased i])
    | _ => None
    end
  | LRelease i =>
    match nth_error (a_objs s) i with
    | Some (AHeld id) => Some (put (match seteuid (a_creds s) (to_uid id) with Some c => set_creds s c | None => s end) i AGiven, [])
    | Some AFree => Some (s, [EReleased i])
    | _ => None
    end
  | LSet u => Some (match seteuid (a_creds s) u with Some c => set_creds s c | None => s end, [])
  end.

(* ------------------------------------------------------------------ system files *)

(** admin_rights.cpp:122-125: [boost::regex_match] with \d+ (of ASCII text), and [lexical_cast] of such text to [boost::int32_t], which throws when the number is too large *)
Definition just_numbers (s : list Z) : bool := match s with [] => false | _ => forallb (fun c => (48 <=? c) && (c <=? 57)) s end.
(** how the look-up of an id ends, admin_rights.cpp:118-155 *)
Inductive sysid := SId (n : Z) | SThrow.
(** [boost::lexical_cast] at admin_rights.cpp:124, 148 *)
Definition cast32 (s : list Z) : sysid := let n := undigits 10 0 (map (fun c => c - 48) s) in if n <? 2147483648 then SId n else SThrow.
(** admin_rights.cpp:139: [std::getline]; a last line without end is a line if it is not empty *)
Fixpoint getlines (cur s : list Z) : list (list Z) :=
  match s with
  | [] => match cur with [] => [] | _ => [cur] end
  | c :: s => if c =? 10 then cur :: getlines [] s else getlines (cur ++ [c]) s
  end.
(** admin_rights.cpp:134-135, 140: a tokenizer with [char_separator(":")] drops the separators and empty tokens *)
Fixpoint tokens (cur s : list Z) : list (list Z) :=
  match s with
  | [] => match cur with [] => [] | _ => [cur] end
  | c :: s => if c =? ch ":" then match cur with [] => tokens [] s | _ => cur :: tokens [] s end else tokens (cur ++ [c]) s
  end.
(** admin_rights.cpp:139-152 *)
Fixpoint find_line (name : list Z) (l : list (list Z)) : sysid :=
  match l with
  | [] => SId (-1)
  | x :: l =>
    match tokens [] x with
    | t :: ts =>
      if str_eqb t name then
        match ts with
        | _ :: n :: _ => if just_numbers n then cast32 n else SId (-1)
        | _ => SId (-1)
        end
      else find_line name l
    | [] => find_line name l
    end
  end.
(** admin_rights.cpp:118-155 [find_system_id]; [None]: the file cannot be opened *)
Definition find_system_id (name : list Z) (file : option (list Z)) : sysid :=
  if just_numbers name then cast32 name else
  match file with None => SId (-1) | Some s => find_line name (getlines [] s) end.
(** admin_rights.cpp:94-104 [run_as_user]: the id returned and the ids of the process after it; [None]: an exception. [run_as_group] (lines 106-116) is the same with the ids of groups. *)
Definition run_as_user (c : creds) (name : list Z) (file : option (list Z)) : option (Z * creds) :=
  match find_system_id name file with
  | SThrow => None
  | SId n => if n =? -1 then Some (c_eff c, c) else match seteuid c (to_uid n) with Some c' => Some (n, c') | None => Some (-1, c) end
  end.

(* ------------------------------------------------------------------ the start of a server *)

(** tcp_server.cpp: [m_is_listening], and whether [m_tcp_acceptor] is open; tcp/server.hpp:211, 226, 232 *)
Record starter := mkst { t_listening : bool; t_open : bool }.
(** tcp/server.hpp:211, 226, 232 *)
Definition t_init : starter := mkst false false.
(** What the operating system answers to the calls of a start, in order: socket, setsockopt, bind, listen. [open] of an open acceptor throws (Asio). Nothing closes the acceptor after an exception. tcp_server.cpp:82-100 *)
Inductive answers := AllWell | NoSocket | NoOption | NoBind | NoListen.
(** tcp_server.cpp:71-111 [start]: whether it returns without exception *)
Definition t_start (t : starter) (a : answers) : bool * starter :=
  if t_listening t then (true, t)
  else if t_open t then (false, t)
  else match a with
       | NoSocket => (false, t)
       | NoOption | NoBind | NoListen => (false, mkst false true)
       | AllWell => (true, mkst true true)
       end.
(** tcp_server.cpp:113-149 [stop]: closes the acceptor of a server that listens *)
Definition t_stop (t : starter) : starter := if t_listening t then mkst false false else t.
(** the calls of a user: tcp_server.cpp:71-111, 113-149 *)
Inductive top := TStart (a : answers) | TStop.
(** the calls of a user: tcp_server.cpp:71-111, 113-149 *)
Fixpoint t_run (t : starter) (l : list top) : starter := match l with [] => t | TStart a :: l => t_run (snd (t_start t a)) l | TStop :: l => t_run (t_stop t) l end.
