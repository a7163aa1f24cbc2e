(** Model of plugin_server::load_service_config, src/http_plugin_server.cpp:54-239, for a file that was found and opened. *)
From Coq Require Import String ZArith List Bool.
From Verif Require Import Base.
Import ListNotations.

(** [isalpha] and [tolower] in the C locale, on a byte; used at http_plugin_server.cpp:86, 90, 112, 117 *)
Definition alpha (c : Z) : bool := ((65 <=? c) && (c <=? 90)) || ((97 <=? c) && (c <=? 122)).
(** used at http_plugin_server.cpp:86, 90, 112, 117 *)
Definition lower (c : Z) : Z := if (65 <=? c) && (c <=? 90) then c + 32 else c.
(** http_plugin_server.cpp:98, 123, 141, 216 and 91, 130, 148, 159, 228 *)
Definition blank (c : Z) : bool := (c =? 32) || (c =? 9).
(** http_plugin_server.cpp:91, 130, 148, 159, 228 *)
Definition eol (c : Z) : bool := (c =? 13) || (c =? 10).

(** The authentication object under construction: which, and the calls of [add_restrict] and [add_user] on it, in order (each has a new, empty user manager: 172-176). the authentication object, http_plugin_server.cpp:67, 175-205 *)
Inductive kind := KBasic | KCookie.
(** the authentication object, http_plugin_server.cpp:67, 175-205 *)
Inductive acall := ARestrict (r : list Z) | AUser (u p : list Z).
(** the authentication object, http_plugin_server.cpp:67, 175-205 *)
Definition auth := (kind * list acall)%type.
(** What the loader does to the world, in order: [add_plugin_directory], [load_service], [set_service_option], [set_authentication]; http_plugin_server.cpp:161-215, 237-239 *)
Inductive call := XPath (d : list Z) | XService (r name : list Z) | XOption (r n v : list Z) | XAuth (a : option auth).
(** returns; throws [bad_config]; a call throws; http_plugin_server.cpp:54-239 *)
Inductive result := RDone | RBad | RThrown.

(** http_plugin_server.cpp:68-76 *)
Inductive pstate := PNewline | PCommand | PResource | PValue | PComment | PUsername.
(** the local variables, http_plugin_server.cpp:67-76 *)
Record cst := mkc { c_state : pstate; c_command : list Z; c_resource : list Z; c_username : list Z; c_value : list Z; c_auth : option auth }.
(** the local variables, http_plugin_server.cpp:67-76 *)
Definition c_init : cst := mkc PNewline [] [] [] [] None.
(** assignment to [parse_state], http_plugin_server.cpp:80-231 *)
Definition set_state (p : pstate) (s : cst) : cst := mkc p (c_command s) (c_resource s) (c_username s) (c_value s) (c_auth s).
(** assignment to [value_string], http_plugin_server.cpp:143-160 *)
Definition set_value (v : list Z) (s : cst) : cst := mkc (c_state s) (c_command s) (c_resource s) (c_username s) v (c_auth s).
(** a byte leads to a new state and calls, or to an exception after calls; one pass of the loop, http_plugin_server.cpp:79-234 *)
Inductive cres := CNext (s : cst) (x : list call) | CFail (x : list call) (r : result).

(** http_plugin_server.cpp:206-210: [value_string] at the first '=' *)
Fixpoint split_eq (v : list Z) : option (list Z * list Z) :=
  match v with
  | [] => None
  | c :: v' => if c =? 61 then Some ([], v') else match split_eq v' with Some (a, b) => Some (c :: a, b) | None => None end
  end.

(** http_plugin_server.cpp:161-215, the end of a value. [env] tells whether a call of [load_service] or [set_service_option] returns, given the calls before it;
    exceptions of [add_plugin_directory] are caught (166-169). [add_restrict] and [add_user] do not throw. *)
Definition finish_line (env : list call -> call -> bool) (h : list call) (s : cst) : cres :=
  let next a x := CNext (mkc PNewline [] (c_resource s) (c_username s) (c_value s) a) x in
  let try_call x := if env h x then next (c_auth s) [x] else CFail [x] RThrown in
  match c_value s with
  | [] => CFail [] RBad
  | _ =>
    if str_eqb (c_command s) (bs "path") then next (c_auth s) [XPath (c_value s)]
    else if str_eqb (c_command s) (bs "auth") then
      if str_eqb (c_value s) (bs "basic") then next (Some (KBasic, [])) []
      else if str_eqb (c_value s) (bs "cookie") then next (Some (KCookie, [])) []
      else CFail [] RBad
    else if str_eqb (c_command s) (bs "restrict") then
      match c_auth s with None => CFail [] RBad | Some (k, l) => next (Some (k, l ++ [ARestrict (c_value s)])) [] end
    else if str_eqb (c_command s) (bs "user") then
      match c_auth s with None => CFail [] RBad | Some (k, l) => next (Some (k, l ++ [AUser (c_username s) (c_value s)])) [] end
    else if str_eqb (c_command s) (bs "service") then try_call (XService (c_resource s) (c_value s))
    else if str_eqb (c_command s) (bs "option") then
      match split_eq (c_value s) with None => CFail [] RBad | Some (n, v) => try_call (XOption (c_resource s) n v) end
    else next (c_auth s) []
  end.

(** http_plugin_server.cpp:80-231: the switch, for the byte [c] *)
Definition config_step (env : list call -> call -> bool) (h : list call) (s : cst) (c : Z) : cres :=
  match c_state s with
  | PNewline =>
    if c =? 35 then CNext (set_state PComment s) []
    else if alpha c then CNext (mkc PCommand (c_command s ++ [lower c]) (c_resource s) (c_username s) (c_value s) (c_auth s)) []
    else if eol c then CNext s [] else CFail [] RBad
  | PCommand =>
    if blank c then
      if str_eqb (c_command s) (bs "path") || str_eqb (c_command s) (bs "auth") || str_eqb (c_command s) (bs "restrict") then CNext (set_state PValue (set_value [] s)) []
      else if str_eqb (c_command s) (bs "service") || str_eqb (c_command s) (bs "option") then CNext (mkc PResource (c_command s) [] (c_username s) (c_value s) (c_auth s)) []
      else if str_eqb (c_command s) (bs "user") then CNext (mkc PUsername (c_command s) (c_resource s) [] (c_value s) (c_auth s)) []
      else CFail [] RBad
    else if negb (alpha c) then CFail [] RBad
    else CNext (mkc PCommand (c_command s ++ [lower c]) (c_resource s) (c_username s) (c_value s) (c_auth s)) []
  | PResource =>
    if blank c then match c_resource s with [] => CNext s [] | _ => CNext (set_state PValue (set_value [] s)) [] end
    else if eol c then CFail [] RBad
    else CNext (mkc PResource (c_command s) (c_resource s ++ [c]) (c_username s) (c_value s) (c_auth s)) []
  | PUsername =>
    if blank c then match c_username s with [] => CNext s [] | _ => CNext (set_state PValue (set_value [] s)) [] end
    else if eol c then CFail [] RBad
    else CNext (mkc PUsername (c_command s) (c_resource s) (c_username s ++ [c]) (c_value s) (c_auth s)) []
  | PValue =>
    if eol c then finish_line env h s
    else if blank c then match c_value s with [] => CNext s [] | v => CNext (set_value (v ++ [c]) s) [] end
    else CNext (set_value (c_value s ++ [c]) s) []
  | PComment => if eol c then CNext (set_state PNewline s) [] else CNext s []
  end.

(** http_plugin_server.cpp:77-239: all bytes of the file, then [set_authentication]; [h] are the calls made so far *)
Fixpoint config_run (env : list call -> call -> bool) (h : list call) (s : cst) (file : list Z) : list call * result :=
  match file with
  | [] => (h ++ [XAuth (c_auth s)], RDone)
  | c :: file' => match config_step env h s c with CNext s' x => config_run env (h ++ x) s' file' | CFail x r => (h ++ x, r) end
  end.
(** http_plugin_server.cpp:54-239 *)
Definition load_config (env : list call -> call -> bool) (file : list Z) : list call * result := config_run env [] c_init file.
