(** What users of a server with web services rely on, said of what is seen. *)
From Coq Require Import String ZArith List Bool.
From Verif Require Import Base ServerModel ServerSpec Runs WebModel.
Import ListNotations.

(** the event is a call or the destruction of service [o] *)
Definition about (o : nat) (e : wev) : bool :=
  match e with EStart p | EStop p | EOption p _ _ | EDestroyed p | EHandled _ p _ => Nat.eqb o p | _ => false end.
(** nothing happens to a service after its destruction, so it is destroyed at most once *)
Definition dies_once (tr : list wev) : Prop := forall a o b e, tr = a ++ EDestroyed o :: b -> In e b -> about o e = false.
(** a service is not destroyed before the calls it got have returned *)
Definition not_in_use (tr : list wev) : Prop := forall a k o res b c, tr = a ++ EHandled k o res :: b ++ EDestroyed o :: c -> In (EReturned k) b.
(** start was called and stop not since *)
Definition started (o : nat) (tr : list wev) : bool :=
  fold_left (fun b e => match e with EStart p => if Nat.eqb o p then true else b | EStop p => if Nat.eqb o p then false else b | _ => b end) tr false.
(** start and stop alternate, and requests come in between *)
Definition paired (tr : list wev) : Prop :=
  (forall a o b, tr = a ++ EStart o :: b -> started o a = false)
  /\ (forall a o b, tr = a ++ EStop o :: b -> started o a = true)
  /\ (forall a k o res b, tr = a ++ EHandled k o res :: b -> started o a = true).
(** What a user does with care: services are given once, and while the server does not listen; nothing throws; the port is free. *)
Definition orderly (s : web) (l : wop) : Prop :=
  match l with
  | WAdd _ | WLoad _ _ => w_listening s = false
  | WAgain _ _ | WUnbind _ => False
  | WStart f b => (forall o, f o = false) /\ b = true
  | WStop f | WClear f => forall o, f o = false
  | _ => True
  end.
Definition gives_once (l : wop) : Prop := match l with WAgain _ _ => False | _ => True end.
(** a name of a resource with at most one slash at the end, as all of these functions take them *)
Definition one_slash (r : list Z) : Prop := strip_slash (strip_slash r) = strip_slash r.
Definition services_only (l : wop) : Prop :=
  match l with WAdd r | WLoad r _ => one_slash r | WAgain _ _ | WUnbind _ | WHandler _ | WRedirect _ _ => False | _ => True end.
(** requests are not dispatched while load_service runs *)
Definition not_loading (s : web) (l : wop) : Prop :=
  match l with
  | WAdd r | WLoad r _ => one_slash r
  | WRequest _ => w_loading s = []
  | WAgain _ _ | WRedirect _ _ => False
  | _ => True
  end.

(** the claims *)
Definition no_redirects (ls : list wop) : Prop := forall a b, ~ In (WRedirect a b) ls.
Definition services_die_once : Prop := forall ls s tr, run w_step w_init ls = Some (s, tr) -> dies_once tr.
Definition services_outlive_use : Prop := forall ls s tr, run w_step w_init ls = Some (s, tr) -> not_in_use tr.
Definition starts_pair : Prop := forall ls s tr, run w_step w_init ls = Some (s, tr) -> paired tr.
(** the service that gets the options of a resource gets its requests *)
Definition options_reach_server : Prop := forall ls s tr r n v o e1 s1 e2 s2, run w_step w_init ls = Some (s, tr) -> no_redirects ls ->
  w_step s (WOption r n v false) = Some (s1, e1) -> In (EOption o n v) e1 -> w_step s (WRequest r) = Some (s2, e2) -> exists k res, In (EHandled k o res) e2.
(** a service just given to the server gets the requests for its resource *)
Definition added_is_used : Prop := forall ls s tr r o s1 e2 s2, run w_step w_init ls = Some (s, tr) -> no_redirects ls ->
  w_step s (WAdd r) = Some (s1, [EGiven o r]) -> w_step s1 (WRequest r) = Some (s2, e2) -> exists k res, In (EHandled k o res) e2.
(** a service that is called knows the name it was given for, and that name is the resource of the request or above it *)
Definition knows_resource : Prop := forall ls s tr p s1 e k o r res, run w_step w_init ls = Some (s, tr) -> no_redirects ls ->
  w_step s (WRequest p) = Some (s1, e) -> In (EHandled k o res) e -> In (EGiven o r) tr -> res = strip_slash r /\ covers res (strip_slash p).
(** the call binds a handler to the name [c] *)
Definition takes (c : list Z) (l : wop) : Prop :=
  match l with WAdd r | WLoad r _ | WAgain r _ => strip_slash (strip_slash r) = c | WHandler r => strip_slash r = c | _ => False end.
