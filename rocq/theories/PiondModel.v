(** Model of the program piond (utils/piond.cpp): its command line, and what it does with a server.
    Not modelled: log output and levels, signal handlers (process.cpp; see C78), the two default plug-in directories (lines 131-142). *)
From Coq Require Import String ZArith List Bool.
From Verif Require Import Base AlgModel.
Import ListNotations.

(** What the program asks the system: which directories [plugin::add_plugin_directory] accepts (utils/piond.cpp:71; it throws directory_not_found for
    others), and which texts [boost::asio::ip::address::from_string] reads, as what address (line 66; it throws for others). *)
Record penv := { e_dir : list Z -> bool; e_addr : list Z -> option (list Z) }.

(** The variables of [main], utils/piond.cpp:44-55. The endpoint is an address (None: any, the default of [endpoint(tcp::v4(), port)]) and a port;
    [pc_dirs] are the directories handed to [add_plugin_directory]; [ssl_flag] and [ssl_pem_file] are one option. *)
Record pcmd := mkcmd { pc_port : Z; pc_addr : option (list Z); pc_config : list Z; pc_resource : list Z; pc_service : list Z;
  pc_ssl : option (list Z); pc_verbose : bool; pc_dirs : list (list Z); pc_opts : list (list Z * list Z) }.
(** utils/piond.cpp:42 *)
Definition DEFAULT_PORT : Z := 8080.
(** utils/piond.cpp:44-55 *)
Definition cmd_init : pcmd := mkcmd DEFAULT_PORT None [] [] [] None false [] [].

(** How parsing ends: with the settings; with usage shown and status 1 (utils/piond.cpp:31-36, 81-82, 94-95, 104-105, 110-111); with a message about a
    directory and status 1 (lines 72-76); or by an exception nobody catches (line 66 is outside of the try block of line 129), which ends the process. *)
Inductive presult_cmd := Run (c : pcmd) | Usage | NoDirectory | Terminated.

(** [strtoul(s, 0, 10)]: white space, a sign, digits up to the first other character; too large values give ULONG_MAX (64 bit),
    a minus sign negates modulo 2^64; no digits give 0; C library, used at utils/piond.cpp:62-63 *)
Fixpoint dec_digits (acc : Z) (s : list Z) : Z :=
  match s with c :: s' => if (48 <=? c) && (c <=? 57) then dec_digits (acc * 10 + (c - 48)) s' else acc | [] => acc end.
(** C library, used at utils/piond.cpp:62-63 *)
Definition strtoul_unsigned (neg : bool) (s : list Z) : Z :=
  let v := dec_digits 0 s in if v <? two64 then (if neg then wrap64 (- v) else v) else two64 - 1.
(** C library, used at utils/piond.cpp:62-63 *)
Fixpoint strtoul (s : list Z) : Z :=
  match s with
  | c :: s' => if c_isspace c then strtoul s' else if c =? ch "-" then strtoul_unsigned true s' else if c =? ch "+" then strtoul_unsigned false s' else strtoul_unsigned false s
  | [] => 0
  end.
(** utils/piond.cpp:62-63: [endpoint::port] takes an unsigned short *)
Definition port_of (s : list Z) : Z := let p := strtoul s mod 65536 in if p =? 0 then DEFAULT_PORT else p.

(** utils/piond.cpp:78-86: the option's name and value, split at the first equals sign *)
Fixpoint split_option (s : list Z) : option (list Z * list Z) :=
  match s with
  | [] => None
  | c :: s' => if c =? ch "=" then Some ([], s') else match split_option s' with Some (n, v) => Some (c :: n, v) | None => None end
  end.

(** assignments to the variables of [main], utils/piond.cpp:62-102 *)
Definition set_port p (c : pcmd) := mkcmd p (pc_addr c) (pc_config c) (pc_resource c) (pc_service c) (pc_ssl c) (pc_verbose c) (pc_dirs c) (pc_opts c).
(** utils/piond.cpp:66 *)
Definition set_addr a (c : pcmd) := mkcmd (pc_port c) (Some a) (pc_config c) (pc_resource c) (pc_service c) (pc_ssl c) (pc_verbose c) (pc_dirs c) (pc_opts c).
(** utils/piond.cpp:68 *)
Definition set_config f (c : pcmd) := mkcmd (pc_port c) (pc_addr c) f (pc_resource c) (pc_service c) (pc_ssl c) (pc_verbose c) (pc_dirs c) (pc_opts c).
(** utils/piond.cpp:99, 102 *)
Definition set_resource r (c : pcmd) := mkcmd (pc_port c) (pc_addr c) (pc_config c) r (pc_service c) (pc_ssl c) (pc_verbose c) (pc_dirs c) (pc_opts c).
(** utils/piond.cpp:99, 102 *)
Definition set_service s (c : pcmd) := mkcmd (pc_port c) (pc_addr c) (pc_config c) (pc_resource c) s (pc_ssl c) (pc_verbose c) (pc_dirs c) (pc_opts c).
(** utils/piond.cpp:89-90 *)
Definition set_ssl f (c : pcmd) := mkcmd (pc_port c) (pc_addr c) (pc_config c) (pc_resource c) (pc_service c) (Some f) (pc_verbose c) (pc_dirs c) (pc_opts c).
(** utils/piond.cpp:92 *)
Definition set_verbose (c : pcmd) := mkcmd (pc_port c) (pc_addr c) (pc_config c) (pc_resource c) (pc_service c) (pc_ssl c) true (pc_dirs c) (pc_opts c).
(** utils/piond.cpp:71 *)
Definition add_dir d (c : pcmd) := mkcmd (pc_port c) (pc_addr c) (pc_config c) (pc_resource c) (pc_service c) (pc_ssl c) (pc_verbose c) (pc_dirs c ++ [d]) (pc_opts c).
(** utils/piond.cpp:86 *)
Definition add_opt o (c : pcmd) := mkcmd (pc_port c) (pc_addr c) (pc_config c) (pc_resource c) (pc_service c) (pc_ssl c) (pc_verbose c) (pc_dirs c) (pc_opts c ++ [o]).

(** [std::string::empty]; used at utils/piond.cpp:109, 157 *)
Definition is_nil (s : list Z) : bool := match s with [] => true | _ => false end.
(** The test of utils/piond.cpp:58: the argument begins with a minus sign. *)
Definition is_option (a : list Z) : bool := match a with c :: _ => c =? ch "-" | [] => false end.

(** utils/piond.cpp:57-107, the loop over the arguments; [args] are the arguments from [argnum] on, so "argnum+1 < argc" says that there are more.
    The options that take a value are tried in the order of the code; one without a value left falls through to the usage message. *)
Fixpoint parse_args (e : penv) (c : pcmd) (args : list (list Z)) : presult_cmd :=
  match args with
  | [] => Run c
  | a :: rest =>
    if is_option a then
      match rest with
      | v :: rest' =>
        if str_eqb a (bs "-p") then parse_args e (set_port (port_of v) c) rest'
        else if str_eqb a (bs "-i") then match e_addr e v with Some x => parse_args e (set_addr x c) rest' | None => Terminated end
        else if str_eqb a (bs "-c") then parse_args e (set_config v c) rest'
        else if str_eqb a (bs "-d") then if e_dir e v then parse_args e (add_dir v c) rest' else NoDirectory
        else if str_eqb a (bs "-o") then match split_option v with Some o => parse_args e (add_opt o c) rest' | None => Usage end
        else if str_eqb a (bs "-ssl") then parse_args e (set_ssl v c) rest'
        else if str_eqb a (bs "-v") then parse_args e (set_verbose c) rest
        else Usage
      | [] => if str_eqb a (bs "-v") then parse_args e (set_verbose c) rest else Usage
      end
    else match rest with
      | [_] => parse_args e (set_resource a c) rest
      | [] => parse_args e (set_service a c) rest
      | _ => Usage
      end
  end.

(** utils/piond.cpp:57-112 *)
Definition command_line (e : penv) (args : list (list Z)) : presult_cmd :=
  match parse_args e cmd_init args with
  | Run c => if is_nil (pc_config c) && (is_nil (pc_resource c) || is_nil (pc_service c)) then Usage else Run c
  | r => r
  end.

(** What is done with the server, in order; [true] of a predicate on these says that the operation throws. utils/piond.cpp:145-174 *)
Inductive pevent := EKeyFile (f : list Z) | ELoad (r s : list Z) | EOption (r n v : list Z) | EConfig (f : list Z) | EStart (a : option (list Z)) (p : Z) | EShutdown.

(** utils/piond.cpp:145-174: the steps of the try block; [ssl] is PION_HAVE_SSL. The last event is the return of [process::wait_for_shutdown]. *)
Definition steps (ssl : bool) (c : pcmd) : list pevent :=
  match pc_ssl c with Some f => if ssl then [EKeyFile f] else [] | None => [] end
  ++ (if is_nil (pc_config c) then ELoad (pc_resource c) (pc_service c) :: map (fun o => EOption (pc_resource c) (fst o) (snd o)) (pc_opts c)
      else [EConfig (pc_config c)])
  ++ [EStart (pc_addr c) (pc_port c); EShutdown].
(** an exception ends the block; utils/piond.cpp:145-174 *)
Fixpoint exec (throws : pevent -> bool) (l : list pevent) : list pevent :=
  match l with [] => [] | x :: l' => if throws x then [] else x :: exec throws l' end.

(** [main]: what was done and the exit status; None: the process was terminated by an exception. Lines 176-180: the exception is logged, and the status is 0. utils/piond.cpp:40-181 *)
Definition piond (e : penv) (ssl : bool) (throws : pevent -> bool) (args : list (list Z)) : list pevent * option Z :=
  match command_line e args with
  | Run c => (exec throws (steps ssl c), Some 0)
  | Usage | NoDirectory => ([], Some 1)
  | Terminated => ([], None)
  end.
