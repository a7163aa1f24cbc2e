(** Specification for captures with gaps: a caller that hands over bytes it has and reports the number of bytes it
    missed, in the order of the stream. *)
From Coq Require Import ZArith List Bool.
From Verif Require Import Base HttpModel HttpSpec.
Import ListNotations.

Inductive event := Bytes (s : list Z) | Gap (n : Z).
Definition event_ok (e : event) : Prop := match e with Bytes s => s <> [] | Gap n => 0 < n end.
(** what the stream looks like with the dummy byte 'X' for every missing one *)
Definition expand1 (e : event) : list Z := match e with Bytes s => s | Gap n => repeat 88 (Z.to_nat n) end.
Definition expand (l : list event) : list Z := concat (map expand1 l).
Definition is_gap (e : event) : bool := match e with Gap _ => true | _ => false end.
(** some bytes come after a gap *)
Fixpoint resumes (l : list event) : bool :=
  match l with [] => false | Gap _ :: l' => existsb (fun e => negb (is_gap e)) l' || resumes l' | _ :: l' => resumes l' end.
Definition gap_status (l : list event) : data_status :=
  if existsb is_gap l then (if resumes l then STATUS_PARTIAL else STATUS_TRUNCATED) else STATUS_OK.

Fixpoint feed_events (cf : pcfg) (st : pst) (m : msg) (l : list event) : outcome (option presult) :=
  match l with
  | [] => Ok (Some (mkpres TIndet None st m []))
  | Bytes s :: l' =>
    match parse cf st m s with
    | Ok (Some r) => match r_rc r with TIndet => feed_events cf (r_st r) (r_msg r) l' | _ => Ok (Some r) end
    | o => o
    end
  | Gap n :: l' =>
    match parse_missing_data cf st m n with
    | Ok (rc, e, st', m') => match rc with TIndet => feed_events cf st' m' l' | _ => Ok (Some (mkpres rc e st' m' [])) end
    | Bad b => Bad b
    end
  end.
