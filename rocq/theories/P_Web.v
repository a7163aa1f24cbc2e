(** Servers with web services: C129 to C132. *)
From Coq Require Import String ZArith List Bool.
From Verif Require Import Base SMap ServerModel ServerSpec Runs WebModel WebSpec WebProofs.
Import ListNotations.
Local Open Scope nat_scope.

Definition trace_of (ls : list wop) : list wev := match run w_step w_init ls with Some (_, tr) => tr | None => [] end.
Definition never (o : nat) : bool := false.

(** C129. Whatever is done with the server, nothing happens to a service after its destruction, if no object is given to the server a second time. *)
Theorem C129_destroyed_once_partial : forall ls s tr, run w_step w_init ls = Some (s, tr) -> (forall l, In l ls -> gives_once l) -> dies_once tr.
Proof. intros ls s tr R G. exact (lf_once _ _ (life_run _ _ _ R G)). Qed.
Print Assumptions C129_destroyed_once_partial.
(** An object given for two resources is destroyed twice. *)
Theorem C129_destroyed_twice_refuted : ~ services_die_once.
Proof.
  intros H. destruct (run w_step w_init [WAdd (bs "/a"); WAgain (bs "/b") 0; WClear never]) as [[s tr]|] eqn:R; [|vm_compute in R; discriminate].
  specialize (H _ _ _ R [EGiven 0 (bs "/a"); EGiven 0 (bs "/b")] 0 [EDestroyed 0] (EDestroyed 0)). vm_compute in R. injection R as _ <-.
  assert (X : about 0 (EDestroyed 0) = false) by (apply H; [reflexivity|left; reflexivity]). discriminate.
Qed.
Print Assumptions C129_destroyed_twice_refuted.
(** A service is destroyed only after each of its calls returned, except for calls that finished their connection before they returned. *)
Theorem C129_in_use_partial : forall ls s tr a k o res b c, run w_step w_init ls = Some (s, tr) ->
  tr = a ++ EHandled k o res :: b ++ EDestroyed o :: c -> In (EReturned k) b \/ In (WFinish k) ls.
Proof. intros ls s tr a k o res b c R E. exact (us_ok _ _ _ (use_run _ _ _ R) a k o res b c E). Qed.
Print Assumptions C129_in_use_partial.
(** stop does not wait for a handler whose connection is finished, so clear destroys the service while it runs. *)
Definition ops_in_use : list wop := [WAdd (bs "/a"); WStart never true; WRequest (bs "/a/x"); WFinish 0; WClear never].
Theorem C129_in_use_refuted : ~ services_outlive_use.
Proof.
  intros H. destruct (run w_step w_init ops_in_use) as [[s tr]|] eqn:R; [|vm_compute in R; discriminate].
  specialize (H _ _ _ R [EGiven 0 (bs "/a"); EStart 0] 0 0 (bs "/a") [EStop 0] []). vm_compute in R. injection R as _ <-.
  destruct (H eq_refl) as [X|[]]. discriminate.
Qed.
Print Assumptions C129_in_use_refuted.
Definition ops_web : list wop :=
  [WAdd (bs "/a/"); WLoad (bs "/b") true; WLoaded 1; WHandler (bs "/c"); WOption (bs "/b") (bs "n") (bs "v") false; WStart never true; WRequest (bs "/b/x"); WRequest (bs "/c"); WReturn 1;
   WRequest (bs "/d"); WReturn 0; WStop never; WStart never true; WRequest (bs "/a"); WReturn 2; WClear never].
Example C129_case : (forall l, In l ops_web -> gives_once l) /\
  trace_of ops_web = [EGiven 0 (bs "/a/"); EGiven 1 (bs "/b"); EOption 1 (bs "n") (bs "v"); EStart 0; EStart 1; EHandled 0 1 (bs "/b"); ECalled 1 2; EReturned 1; ENotFound; EReturned 0;
    EStop 0; EStop 1; EStart 0; EStart 1; EHandled 2 0 (bs "/a"); EReturned 2; EStop 0; EStop 1; EDestroyed 0; EDestroyed 1].
Proof. split; [cbn; intuition; subst; exact I | vm_compute; reflexivity]. Qed.

(** C130. If services are given once and while the server does not listen, names are not removed, nothing throws and the port is free: start and stop of each service
    alternate, requests come only in between, and when the server does not listen every service that was started is stopped. *)
Theorem C130_pairs_partial : forall ls s tr, run w_step w_init ls = Some (s, tr) -> allowed w_step orderly w_init ls ->
  paired tr /\ (w_listening s = false -> forall o, started o tr = false).
Proof.
  intros ls s tr R A. pose proof (pairs_run _ _ _ R A) as P. split; [apply (pr_paired _ _ P)|]. intros L o. rewrite (pr_on _ _ P), L. reflexivity.
Qed.
Print Assumptions C130_pairs_partial.
(** When the port is taken, the services stay started, and the next start starts them again. *)
Theorem C130_pairs_refuted : ~ starts_pair.
Proof.
  intros H. destruct (run w_step w_init [WAdd (bs "/a"); WStart never false; WStart never true]) as [[s tr]|] eqn:R; [|vm_compute in R; discriminate].
  destruct (H _ _ _ R) as [X _]. specialize (X [EGiven 0 (bs "/a"); EStart 0; EThrow] 0 []). vm_compute in R. injection R as _ <-. specialize (X eq_refl). discriminate.
Qed.
Print Assumptions C130_pairs_refuted.
(** Other ways: a service whose start throws leaves those before it started; one added to a server that listens is called and stopped without start; one whose stop throws
    leaves those after it running; one added after the name was removed serves without start. *)
Example C130_other_ways :
  trace_of [WAdd (bs "/a"); WAdd (bs "/b"); WStart (Nat.eqb 1) true; WStart never true] = [EGiven 0 (bs "/a"); EGiven 1 (bs "/b"); EStart 0; EStart 1; EThrow; EStart 0; EStart 1]
  /\ trace_of [WStart never true; WAdd (bs "/a"); WRequest (bs "/a"); WReturn 0; WStop never] = [EGiven 0 (bs "/a"); EHandled 0 0 (bs "/a"); EReturned 0; EStop 0]
  /\ trace_of [WAdd (bs "/a"); WAdd (bs "/b"); WStart never true; WStop (Nat.eqb 0); WStop never] = [EGiven 0 (bs "/a"); EGiven 1 (bs "/b"); EStart 0; EStart 1; EStop 0; EThrow]
  /\ trace_of [WAdd (bs "/a"); WUnbind (bs "/a"); WAdd (bs "/a"); WStart never true; WRequest (bs "/a")] = [EGiven 0 (bs "/a"); EGiven 1 (bs "/a"); EStart 0; EHandled 0 1 (bs "/a")].
Proof. vm_compute. auto. Qed.
Example C130_case : allowed w_step orderly w_init ops_web /\ exists s tr, run w_step w_init ops_web = Some (s, tr) /\ started 0 tr = false /\ w_listening s = false.
Proof.
  split.
  - unfold ops_web. repeat (eapply al_cons; [cbn; auto|vm_compute; reflexivity|]). apply al_nil.
  - eexists. eexists. split; [vm_compute; reflexivity|]. vm_compute. auto.
Qed.

(** C131. If all resources come from add_service and load_service, under names with at most one slash at the end: the service that gets the options of a name gets
    the requests for it. *)
Theorem C131_options_partial : forall ls s tr r n v o e1 s1 e2 s2, run w_step w_init ls = Some (s, tr) -> (forall l, In l ls -> services_only l) ->
  w_step s (WOption r n v false) = Some (s1, e1) -> In (EOption o n v) e1 -> w_step s (WRequest r) = Some (s2, e2) -> exists k res, In (EHandled k o res) e2.
Proof.
  intros ls s tr r n v o e1 s1 e2 s2 R N E1 I E2. destruct (same_run _ _ _ R N) as [S1 S2]. destruct (redirects_run _ _ _ R (services_only_redirects _ N)) as [SO NR].
  cbn [w_step] in E1. destruct (sm_find (w_services s) (strip_slash r)) as [q|] eqn:F; injection E1 as <- <-; destruct I as [I|[]]; [|discriminate]. injection I as ->.
  eapply request_exact; eauto; [rewrite <- S1; exact F|]. apply S2. eapply find_vals; eauto.
Qed.
Print Assumptions C131_options_partial.
(** After remove_resource and add_service the options go to the old service and the requests to the new one. *)
Theorem C131_options_refuted : ~ options_reach_server.
Proof.
  intros H. destruct (run w_step w_init [WAdd (bs "/a"); WUnbind (bs "/a"); WAdd (bs "/a"); WStart never true]) as [[s tr]|] eqn:R; [|vm_compute in R; discriminate].
  destruct (w_step s (WOption (bs "/a") [] [] false)) as [[s1 e1]|] eqn:E1; [|vm_compute in R; injection R as <- _; vm_compute in E1; discriminate].
  destruct (w_step s (WRequest (bs "/a"))) as [[s2 e2]|] eqn:E2; [|vm_compute in R; injection R as <- _; vm_compute in E2; discriminate].
  assert (N : no_redirects [WAdd (bs "/a"); WUnbind (bs "/a"); WAdd (bs "/a"); WStart never true]) by (intros a b I; cbn in I; intuition discriminate).
  assert (I0 : In (EOption 0 [] []) e1) by (vm_compute in R; injection R as <- _; vm_compute in E1; injection E1 as _ <-; left; reflexivity).
  destruct (H _ _ _ _ _ _ _ _ _ _ _ R N E1 I0 E2) as (k & res & I). vm_compute in R. injection R as <- _. vm_compute in E2. injection E2 as _ <-. destruct I as [I|[]]. discriminate.
Qed.
Print Assumptions C131_options_refuted.
(** A service just given for a name that nothing else took gets the requests for it. *)
Theorem C131_added_partial : forall ls s tr r o s1 e2 s2, run w_step w_init ls = Some (s, tr) -> no_redirects ls -> one_slash r -> (forall l, In l ls -> ~ takes (strip_slash r) l) ->
  w_step s (WAdd r) = Some (s1, [EGiven o r]) -> w_step s1 (WRequest r) = Some (s2, e2) -> exists k res, In (EHandled k o res) e2.
Proof.
  intros ls s tr r o s1 e2 s2 R NR O T E1 E2. pose proof (untaken_run _ _ _ _ R NR T) as F. destruct (redirects_run _ _ _ R NR) as [SO RE].
  cbn [w_step] in E1. injection E1 as <- <-. cbn [w_step] in E2. eapply request_exact; [| | | |exact E2]; cbn.
  - apply sm_insert_sorted; exact SO.
  - exact RE.
  - rewrite O, sm_find_insert, str_eqb_refl, F by exact SO. reflexivity.
  - exists (mko true (strip_slash r)). split; auto. rewrite nth_error_app2, Nat.sub_diag by apply le_n. reflexivity.
Qed.
Print Assumptions C131_added_partial.
(** A second add_service for a name is ignored without an error. *)
Theorem C131_added_refuted : ~ added_is_used.
Proof.
  intros H. destruct (run w_step w_init [WAdd (bs "/a"); WStart never true]) as [[s tr]|] eqn:R; [|vm_compute in R; discriminate].
  destruct (w_step s (WAdd (bs "/a"))) as [[s1 e1]|] eqn:E1; [|discriminate].
  destruct (w_step s1 (WRequest (bs "/a"))) as [[s2 e2]|] eqn:E2; [|vm_compute in R; injection R as <- _; vm_compute in E1; injection E1 as <- _; vm_compute in E2; discriminate].
  assert (N : no_redirects [WAdd (bs "/a"); WStart never true]) by (intros a b I; cbn in I; intuition discriminate).
  assert (X : e1 = [EGiven 1 (bs "/a")]) by (vm_compute in R; injection R as <- _; vm_compute in E1; injection E1 as _ <-; reflexivity). subst e1.
  destruct (H _ _ _ _ _ _ _ _ R N E1 E2) as (k & res & I).
  vm_compute in R. injection R as <- _. vm_compute in E1. injection E1 as <-. vm_compute in E2. injection E2 as _ <-. destruct I as [I|[]]. discriminate.
Qed.
Print Assumptions C131_added_refuted.
Example C131_case : let ls := [WAdd (bs "/a/"); WLoad (bs "/a/b") true; WLoaded 1; WStart never true] in
  (forall l, In l ls -> services_only l) /\ (forall l, In l ls -> ~ takes (bs "/a/b/c") l) /\ no_redirects ls /\ one_slash (bs "/a/b/c/")
  /\ trace_of (ls ++ [WOption (bs "/a/b/") (bs "n") (bs "v") false; WRequest (bs "/a/b/")]) =
     [EGiven 0 (bs "/a/"); EGiven 1 (bs "/a/b"); EStart 0; EStart 1; EOption 1 (bs "n") (bs "v"); EHandled 0 1 (bs "/a/b")]
  /\ trace_of (ls ++ [WAdd (bs "/a/b/c/"); WRequest (bs "/a/b/c/d")]) = [EGiven 0 (bs "/a/"); EGiven 1 (bs "/a/b"); EStart 0; EStart 1; EGiven 2 (bs "/a/b/c/"); EHandled 0 2 (bs "/a/b/c")].
Proof.
  cbv zeta. split; [|split; [|split; [|split; [|split]]]].
  - intros l I. cbn in I. intuition; subst; vm_compute; auto.
  - intros l I T. cbn in I. intuition; subst; vm_compute in T; try discriminate; auto.
  - intros a b I. cbn in I. intuition discriminate.
  - vm_compute. reflexivity.
  - vm_compute. reflexivity.
  - vm_compute. reflexivity.
Qed.

(** C132. If names end with at most one slash and no request is dispatched while load_service runs, a service that is called knows the name it was given for, and the
    resource of the request is that name or below it. *)
Theorem C132_knows_partial : forall ls s tr p s1 e k o r res, run w_step w_init ls = Some (s, tr) -> allowed w_step not_loading w_init (ls ++ [WRequest p]) ->
  w_step s (WRequest p) = Some (s1, e) -> In (EHandled k o res) e -> In (EGiven o r) tr -> res = strip_slash r /\ covers res (strip_slash p).
Proof.
  intros ls s tr p s1 e k o r res R A E I H. apply (allowed_app _ _ _ _ _ _ _ R) in A as [A1 A2]. inversion A2 as [|? ? ? ? ? NL _ _]; subst. cbn in NL, E.
  split; [eapply given_request; eauto using given_run|eapply knows_request; eauto using knows_run].
Qed.
Print Assumptions C132_knows_partial.
(** load_service makes the service reachable before it tells it its resource. *)
Theorem C132_knows_refuted : ~ knows_resource.
Proof.
  intros H. destruct (run w_step w_init [WStart never true; WLoad (bs "/a") true]) as [[s tr]|] eqn:R; [|vm_compute in R; discriminate].
  destruct (w_step s (WRequest (bs "/a/x"))) as [[s2 e2]|] eqn:E2; [|vm_compute in R; injection R as <- _; vm_compute in E2; discriminate].
  assert (N : no_redirects [WStart never true; WLoad (bs "/a") true]) by (intros a b I; cbn in I; intuition discriminate).
  specialize (H _ _ _ (bs "/a/x") s2 e2 0 0 (bs "/a") [] R N E2). vm_compute in R. injection R as <- <-. vm_compute in E2. injection E2 as _ <-.
  destruct (H (or_introl eq_refl) (or_introl eq_refl)) as [X _]. discriminate.
Qed.
Print Assumptions C132_knows_refuted.
(** A name with two slashes at the end: the service takes its resource to be /a/, but serves /a and below. *)
Example C132_two_slashes : trace_of [WAdd (bs "/a//"); WStart never true; WRequest (bs "/a/x")] = [EGiven 0 (bs "/a//"); EStart 0; EHandled 0 0 (bs "/a/")] /\ ~ covers (bs "/a/") (bs "/a/x").
Proof. split; [vm_compute; reflexivity|]. intros [X|[t X]]; vm_compute in X; discriminate. Qed.
Example C132_case : allowed w_step not_loading w_init ([WStart never true; WLoad (bs "/a/") true; WLoaded 0; WHandler (bs "/"); WUnbind (bs "/b")] ++ [WRequest (bs "/a/x")])
  /\ trace_of [WStart never true; WLoad (bs "/a/") true; WLoaded 0; WHandler (bs "/"); WUnbind (bs "/b"); WRequest (bs "/a/x")] = [EGiven 0 (bs "/a/"); EHandled 0 0 (bs "/a")].
Proof.
  split; [|vm_compute; reflexivity]. cbn [app]. repeat (eapply al_cons; [vm_compute; auto|vm_compute; reflexivity|]). apply al_nil.
Qed.
