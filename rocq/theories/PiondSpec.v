(** Specification of command lines of piond. *)
From Coq Require Import String ZArith List Bool.
From Verif Require Import Base Digits.
Import ListNotations.

Inductive popt := OPort (n : Z) | OIp (a : list Z) | OConfig (f : list Z) | ODir (d : list Z) | OOption (n v : list Z) | OSsl (f : list Z) | OVerbose.
Definition opt_args (o : popt) : list (list Z) :=
  match o with
  | OPort n => [bs "-p"; print_dec n] | OIp a => [bs "-i"; a] | OConfig f => [bs "-c"; f] | ODir d => [bs "-d"; d]
  | OOption n v => [bs "-o"; n ++ bs "=" ++ v] | OSsl f => [bs "-ssl"; f] | OVerbose => [bs "-v"]
  end.
(** options as they are typed *)
Definition typed (l : list popt) : list (list Z) := concat (map opt_args l).

(** the last value given for something *)
Fixpoint last_given {A} (f : popt -> option A) (l : list popt) : option A :=
  match l with [] => None | o :: l' => match last_given f l' with Some x => Some x | None => f o end end.
Definition all_given {A} (f : popt -> option A) (l : list popt) : list A := concat (map (fun o => match f o with Some x => [x] | None => [] end) l).
Definition port_given (o : popt) := match o with OPort n => Some n | _ => None end.
Definition ip_given (o : popt) := match o with OIp a => Some a | _ => None end.
Definition config_given (o : popt) := match o with OConfig f => Some f | _ => None end.
Definition dir_given (o : popt) := match o with ODir d => Some d | _ => None end.
Definition option_given (o : popt) := match o with OOption n v => Some (n, v) | _ => None end.
Definition ssl_given (o : popt) := match o with OSsl f => Some f | _ => None end.

Definition given {A} (d : A) (x : option A) : A := match x with Some y => y | None => d end.
(** a name of a resource or service as it can be typed *)
Definition plain (s : list Z) : Prop := exists c s', s = c :: s' /\ c <> ch "-".
