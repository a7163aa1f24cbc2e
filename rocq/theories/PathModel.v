(** Model of the parts of Boost.Filesystem's [path] (version 3, POSIX) that services/FileService.cpp uses. Boost is not part of the
    repository: this is what its documentation and sources (1.44 and later) say. Left out: root names (two slashes at the begin),
    and NUL characters, which end a path for the operating system. *)
From Coq Require Import String ZArith List Bool.
From Verif Require Import Base.
Import ListNotations.

(** Boost.Filesystem, as used at FileService.cpp:53-151, 625-714 *)
Definition SLASH : Z := 47.
(** Boost.Filesystem, as used at FileService.cpp:53-151, 625-714 *)
Definition DOT : list Z := [46].
(** Boost.Filesystem, as used at FileService.cpp:53-151, 625-714 *)
Definition DOTDOT : list Z := [46; 46].
(** Boost.Filesystem, as used at FileService.cpp:53-151, 625-714 *)
Definition ROOT : list Z := [SLASH].

(** what is between the slashes, empty parts included; Boost.Filesystem, as used at FileService.cpp:53-151, 625-714 *)
Fixpoint fields (s : list Z) : list (list Z) :=
  match s with
  | [] => [[]]
  | c :: s' =>
    if c =? SLASH then [] :: fields s'
    else match fields s' with f :: l => (c :: f) :: l | [] => [[c]] end
  end.
(** Boost.Filesystem, as used at FileService.cpp:53-151, 625-714 *)
Definition is_nil {A} (l : list A) : bool := match l with [] => true | _ => false end.
(** Boost.Filesystem, as used at FileService.cpp:53-151, 625-714 *)
Definition names (s : list Z) : list (list Z) := filter (fun f => negb (is_nil f)) (fields s).
(** [path::begin] to [path::end]: the root directory, the names, and a dot for a slash at the end; Boost.Filesystem, as used at FileService.cpp:53-151, 625-714 *)
Definition elements (s : list Z) : list (list Z) :=
  (if is_prefix ROOT s then [ROOT] else []) ++ names s
  ++ (if negb (is_nil (names s)) && (last s 0 =? SLASH) then [DOT] else []).

(** [path::operator/=]; Boost.Filesystem, as used at FileService.cpp:53-151, 625-714 *)
Definition p_append (p x : list Z) : list Z :=
  match x, p with
  | [], _ => p
  | _, [] => x
  | c :: _, _ => if (last p 0 =? SLASH) || (c =? SLASH) then p ++ x else p ++ SLASH :: x
  end.
(** Boost.Filesystem, as used at FileService.cpp:53-151, 625-714 *)
Definition p_string (els : list (list Z)) : list Z := fold_left p_append els [].

(** [path::m_normalize]: whether a name is taken away by a [..] that follows it. Boost 1.44 to 1.59 keep a name of two characters
    if one of them is a dot ([two]); later versions do not. Boost.Filesystem, as used at FileService.cpp:53-151, 625-714 *)
Definition two_dotted (f : list Z) : bool := match f with [a; b] => (a =? 46) || (b =? 46) | _ => false end.
(** Boost.Filesystem, as used at FileService.cpp:53-151, 625-714 *)
Definition cancels (two : bool) (f : list Z) : bool :=
  negb (is_nil f) && negb (str_eqb f DOT) && negb (str_eqb f ROOT) && negb (str_eqb f DOTDOT) && negb (two && two_dotted f).
(** [st] is the new path, its last element first; Boost.Filesystem, as used at FileService.cpp:53-151, 625-714 *)
Fixpoint norm (two first : bool) (st : list (list Z)) (els : list (list Z)) : list (list Z) :=
  match els with
  | [] => rev st
  | e :: more =>
    if str_eqb e DOT && negb first && negb (is_nil more) then norm two false st more
    else if str_eqb e DOTDOT && (match st with f :: _ => cancels two f | [] => false end) then
      match tl st, more with
      | [], [l] => if str_eqb l DOT then norm two false [DOT] more else norm two false [] more
      | st', _ => norm two false st' more
      end
    else norm two false (e :: st) more
  end.
(** [path::normalize]; Boost.Filesystem, as used at FileService.cpp:53-151, 625-714 *)
Definition normalize (two : bool) (s : list Z) : list Z :=
  match s with [] => [] | _ => match norm two true [] (elements s) with [] => DOT | els => p_string els end end.

(** [path::filename], for a path that is not empty; Boost.Filesystem, as used at FileService.cpp:53-151, 625-714 *)
Definition filename (s : list Z) : list Z := last (elements s) [].
(** [path::branch_path] (parent_path): the path without its last element; Boost.Filesystem, as used at FileService.cpp:53-151, 625-714 *)
Definition branch (s : list Z) : list Z := p_string (removelast (elements s)).
