(** Specification of dispatch. *)
From Coq Require Import String ZArith List.
From Verif Require Import Base HttpModel ServerModel.
Import ListNotations.

(** [c] is the name [r] without one slash at its end *)
Definition cleaned (r c : list Z) : Prop := r = c ++ [ch "/"] \/ r = c /\ ~ exists d, r = d ++ [ch "/"].
(** [r] is [path] or a directory above it *)
Definition covers (r path : list Z) : Prop := path = r \/ exists t, path = r ++ ch "/" :: t.

(** the handler of a name after a history of calls: the first one added since the name was removed *)
Definition drops (o : top) (c : list Z) : Prop := o = TClear \/ exists r, o = TRemove r /\ cleaned r c.
Definition adds (o : top) (c : list Z) : Prop := exists r h, o = TAdd r h /\ cleaned r c.
Definition absent (ops : list top) (c : list Z) : Prop :=
  forall before o after, ops = before ++ o :: after -> adds o c -> exists o', In o' after /\ drops o' c.
Definition registered (ops : list top) (c : list Z) (h : nat) : Prop :=
  exists before r after, ops = before ++ TAdd r h :: after /\ cleaned r c /\ absent before c /\ (forall o, In o after -> ~ drops o c).
(** where a name is redirected to: as the first call said *)
Definition redirected (ops : list top) (a b : list Z) : Prop :=
  exists before x y after, ops = before ++ TRedirect x y :: after /\ cleaned x a /\ cleaned y b
    /\ (forall x' y', In (TRedirect x' y') before -> ~ cleaned x' a).
Inductive leads (ops : list top) : nat -> list Z -> list Z -> Prop :=
  | leads_0 a : leads ops 0 a a
  | leads_S n a b c : redirected ops a b -> leads ops n b c -> leads ops (S n) a c.

(** the handler of the most specific name that covers the path, or none *)
Definition best (ops : list top) (path : list Z) (o : option nat) : Prop :=
  match o with
  | Some h => exists r, registered ops r h /\ covers r path
      /\ forall r' h', registered ops r' h' -> covers r' path -> (List.length r' < List.length r)%nat \/ r' = r /\ h' = h
  | None => forall r h, registered ops r h -> ~ covers r path
  end.
