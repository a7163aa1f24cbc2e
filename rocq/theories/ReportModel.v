(** Model of how errors and events are told: the exceptions of include/pion/error.hpp, and the logging of include/pion/logger.hpp to std::cout and std::cerr
    (PION_USE_OSTREAM_LOGGING, used if no logging library is configured; log4cxx, log4cplus and log4cpp are not modelled). *)
From Coq Require Import String ZArith List Bool.
From Verif Require Import Base Digits.
Import ListNotations.

(** include/pion/error.hpp:115-131: the kinds of information *)
Inductive info := InfoMessage | InfoArgName | InfoFileName | InfoDirName | InfoPluginName | InfoSymbolName.
(** the tag types they are told apart by; error.hpp:115-131 *)
Inductive tag := TArgName | TFileName | TDirName | TPluginName.
(** error.hpp:115-131 *)
Definition tag_eqb (a b : tag) : bool := match a, b with TArgName, TArgName | TFileName, TFileName | TDirName, TDirName | TPluginName, TPluginName => true | _, _ => false end.
(** include/pion/error.hpp:116-131 *)
Definition tag_of (i : info) : tag :=
  match i with InfoMessage | InfoArgName => TArgName | InfoFileName => TFileName | InfoDirName | InfoSymbolName => TDirName | InfoPluginName => TPluginName end.

(** include/pion/error.hpp:139-220: the exceptions *)
Inductive exn := BadArg | BadConfig | OpenFile | OpenPlugin | ReadFile | FileNotFound | DirectoryNotFound | PluginNotFound | DuplicatePlugin | PluginMissingSymbol | PluginUndefined | BadPasswordHash.
(** include/pion/error.hpp:139-220: what [update_what_msg] of each hands to [set_what_msg] *)
Definition exn_text (k : exn) : list Z :=
  match k with
  | BadArg => bs "bad argument" | BadConfig => bs "config parser error" | OpenFile => bs "unable to open file" | OpenPlugin => bs "unable to open plugin" | ReadFile => bs "unable to read file"
  | FileNotFound => bs "file not found" | DirectoryNotFound => bs "directory not found" | PluginNotFound => bs "plugin not found" | DuplicatePlugin => bs "duplicate plugin"
  | PluginMissingSymbol => bs "missing plugin symbol" | PluginUndefined => bs "plugin has undefined state" | BadPasswordHash => bs "bad password hash"
  end.
(** include/pion/error.hpp:139-220 *)
Definition exn_info (k : exn) : option info :=
  match k with
  | BadArg => Some InfoArgName | BadConfig | OpenFile | ReadFile | FileNotFound => Some InfoFileName | OpenPlugin | PluginNotFound | DuplicatePlugin => Some InfoPluginName
  | DirectoryNotFound => Some InfoDirName | PluginMissingSymbol => Some InfoSymbolName | PluginUndefined | BadPasswordHash => None
  end.

(** An exception object: its class, what boost::exception holds (by tag), and m_what_msg (error.hpp:68). *)
Record eobj := mkeobj { x_kind : exn; x_infos : list (tag * list Z); x_what : list Z }.
(** the default constructor, error.hpp:45 *)
Definition thrown (k : exn) : eobj := mkeobj k [] [].
(** [boost::get_error_info]; Boost, used at error.hpp:139-220 *)
Fixpoint get_info (t : tag) (l : list (tag * list Z)) : option (list Z) := match l with [] => None | (t', v) :: l' => if tag_eqb t t' then Some v else get_info t l' end.
(** [operator<<] of Boost.Exception: a value of the same tag is replaced; Boost, used where exceptions are thrown, such as http_plugin_server.cpp:64 *)
Fixpoint put_info (t : tag) (v : list Z) (l : list (tag * list Z)) : list (tag * list Z) :=
  match l with [] => [(t, v)] | (t', v') :: l' => if tag_eqb t t' then (t, v) :: l' else (t', v') :: put_info t v l' end.
(** Boost, used where exceptions are thrown, such as http_plugin_server.cpp:64 *)
Definition attach (i : info) (v : list Z) (x : eobj) : eobj := mkeobj (x_kind x) (put_info (tag_of i) v (x_infos x)) (x_what x).
(** include/pion/error.hpp:54-66 with one argument *)
Definition set_what_msg (msg : list Z) (arg : option (list Z)) : list Z := msg ++ match arg with Some a => bs ":" ++ bs " " ++ a | None => [] end.
(** include/pion/error.hpp:49-52 and 139-220; also returned: the object, whose m_what_msg is kept. (what() ends at the first NUL; texts are taken to have none.) *)
Definition what (x : eobj) : eobj * list Z :=
  match x_what x with
  | [] => let w := set_what_msg (exn_text (x_kind x)) (match exn_info (x_kind x) with Some i => get_info (tag_of i) (x_infos x) | None => None end) in (mkeobj (x_kind x) (x_infos x) w, w)
  | w => (x, w)
  end.
(** several pieces of information attached in order (no code of its own) *)
Definition attach_all (l : list (info * list Z)) (x : eobj) : eobj := fold_left (fun x iv => attach (fst iv) (snd iv) x) l x.

(** include/pion/logger.hpp:239-242 *)
Inductive level := DEBUG | INFO | WARN | ERROR | FATAL.
(** the enumeration's values; logger.hpp:239-242 *)
Definition level_num (l : level) : Z := match l with DEBUG => 0 | INFO => 1 | WARN => 2 | ERROR => 3 | FATAL => 4 end.
(** include/pion/logger.hpp:269-273 *)
Definition level_name (l : level) : list Z := match l with DEBUG => bs " DEBUG " | INFO => bs " INFO " | WARN => bs " WARN " | ERROR => bs " ERROR " | FATAL => bs " FATAL " end.
(** What a program does with loggers; a logger is its name (logger.hpp:248). Setting levels, lines 261-265; logging at a time, lines 269-273. logger.hpp:239-273 *)
Inductive logop := LSet (logger : list Z) (l : level) | LLog (logger : list Z) (l : level) (time : Z) (text : list Z).
(** m_priority is a static member, line 249; src/logger.cpp:17; the two outputs are std::cout and std::cerr *)
Record logstate := mklogstate { l_priority : level; l_out : list Z; l_err : list Z }.
(** src/logger.cpp:17 *)
Definition log_init : logstate := mklogstate INFO [] [].
(** include/pion/logger.hpp:261-265 and 269-273 *)
Definition log_op (s : logstate) (o : logop) : logstate :=
  match o with
  | LSet _ l => mklogstate l (l_out s) (l_err s)
  | LLog name l time text =>
    if level_num (l_priority s) <=? level_num l then
      let line := print_dec time ++ level_name l ++ name ++ bs " " ++ text ++ [10] in
      match l with DEBUG | INFO => mklogstate (l_priority s) (l_out s ++ line) (l_err s) | _ => mklogstate (l_priority s) (l_out s) (l_err s ++ line) end
    else s
  end.
(** a program's loggings in order (no code of its own) *)
Definition log_run (l : list logop) : logstate := fold_left log_op l log_init.
