(** Model of how the file of a plug-in is found and of the list of plug-ins: src/plugin.cpp:48-107, 179-252, 303-337. The branches for Windows and Cygwin are not modelled. *)
From Coq Require Import String ZArith List Bool.
From Verif Require Import Base PathModel PluginModel.
Import ListNotations.

(** plugin.cpp:33 *)
Definition PLUGIN_EXTENSION : list Z := bs ".so".
(** plugin.cpp:35 *)
Definition CONFIG_EXTENSION : list Z := bs ".conf".

(** [boost::filesystem::is_regular], used at plugin.cpp:215 and 240: for each path, [Some b] if it answers [b], [None] if it throws. *)
Definition regularity := list Z -> option bool.
(** the tests at plugin.cpp:213-223 and 238-248: an exception counts as no *)
Definition is_regular (fs : regularity) (p : list Z) : bool := match fs p with Some b => b | None => false end.

(** check_for_file: plugin.cpp:200-252; [None]: false is returned. check_cygwin_path (48-60) does nothing here. *)
Definition check_for_file (fs : regularity) (start name ext : list Z) : option (list Z) :=
  let p1 := match name with [] => start | _ => p_append start name end in
  if is_regular fs p1 then Some p1
  else
    let p2 := match name with [] => start ++ ext | _ => p_append start (name ++ ext) end in
    if is_regular fs p2 then Some p2 else None.
(** the loop of find_file over m_plugin_dirs: plugin.cpp:189-194 *)
Fixpoint check_dirs (fs : regularity) (dirs : list (list Z)) (name ext : list Z) : option (list Z) :=
  match dirs with
  | [] => None
  | d :: dirs' => match check_for_file fs d name ext with Some p => Some p | None => check_dirs fs dirs' name ext end
  end.
(** find_file: plugin.cpp:179-198 *)
Definition find_file (fs : regularity) (dirs : list (list Z)) (name ext : list Z) : option (list Z) :=
  match check_for_file fs name [] ext with Some p => Some p | None => check_dirs fs dirs name ext end.
(** find_plugin_file: plugin.hpp:40-44 *)
Definition find_plugin_file (fs : regularity) (dirs : list (list Z)) (name : list Z) : option (list Z) := find_file fs dirs name PLUGIN_EXTENSION.
(** find_config_file: plugin.hpp:53-57 *)
Definition find_config_file (fs : regularity) (dirs : list (list Z)) (name : list Z) : option (list Z) := find_file fs dirs name CONFIG_EXTENSION.

(** the place of the last dot of a file name: what is before it and what begins with it. Boost.Filesystem (version 3): [path::stem] and [path::extension], used at plugin.cpp:305 and 319 *)
Fixpoint last_dot (f : list Z) : option (list Z * list Z) :=
  match f with
  | [] => None
  | c :: f' => match last_dot f' with Some (a, b) => Some (c :: a, b) | None => if c =? 46 then Some ([], f) else None end
  end.
(** Boost.Filesystem: [boost::filesystem::basename] of a file name, used at plugin.cpp:305 *)
Definition stem (f : list Z) : list Z := if str_eqb f DOT || str_eqb f DOTDOT then f else match last_dot f with Some (a, _) => a | None => f end.
(** Boost.Filesystem: [boost::filesystem::extension] of a file name, used at plugin.cpp:319 *)
Definition f_extension (f : list Z) : list Z := if str_eqb f DOT || str_eqb f DOTDOT then [] else match last_dot f with Some (_, b) => b | None => [] end.
(** get_plugin_name: plugin.cpp:303-306 *)
Definition plugin_name_of (file : list Z) : list Z := stem (filename file).

(** add_plugin_directory: plugin.cpp:62-76. [cwd]: the current directory; [there]: what [boost::filesystem::exists] answers; [None]: an exception. *)
Definition add_plugin_directory (cwd : list Z) (there : list Z -> bool) (dirs : list (list Z)) (dir : list Z) : option (list (list Z)) :=
  let p := match dir with [] => [] | c :: _ => if c =? SLASH then dir else p_append cwd dir end in
  if there p then Some (dirs ++ [p]) else None.

(** open: plugin.cpp:85-107, with the search done; [opens]: whether the file found is a library that can be opened *)
Definition open_plugin_named (fs : regularity) (opens : list Z -> bool) (dirs : list (list Z)) (s : plib) (i : nat) (name : list Z) : plib * list pev :=
  open_name s i name (match find_plugin_file fs dirs name with Some f => Some (plugin_name_of f, opens f) | None => None end).

(** get_all_plugin_names: plugin.cpp:308-337. [listing]: the entries of a directory, each with whether it is a regular file; [None]: the iterator throws.
    [linked]: the names of the plug-ins in the map without a library, in the order of the map (331-336). [None]: an exception leaves the function. *)
Fixpoint dir_plugins (entries : list (list Z * bool)) : list (list Z) :=
  match entries with
  | [] => []
  | (f, reg) :: more => (if reg && str_eqb (f_extension f) PLUGIN_EXTENSION then [stem f] else []) ++ dir_plugins more
  end.
(** plugin.cpp:314-328 *)
Fixpoint dirs_plugins (listing : list Z -> option (list (list Z * bool))) (dirs : list (list Z)) : option (list (list Z)) :=
  match dirs with
  | [] => Some []
  | d :: dirs' =>
    match listing d with
    | None => None
    | Some es => match dirs_plugins listing dirs' with Some l => Some (dir_plugins es ++ l) | None => None end
    end
  end.
(** plugin.cpp:308-337 *)
Definition get_all_plugin_names (listing : list Z -> option (list (list Z * bool))) (dirs : list (list Z)) (linked : list (list Z)) : option (list (list Z)) :=
  match dirs_plugins listing dirs with Some l => Some (l ++ linked) | None => None end.
