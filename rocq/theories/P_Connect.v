(** Opening, closing and securing connections. *)
From Coq Require Import String ZArith List Lia Bool.
From Coq Require Import ZifyBool.
From Verif Require Import Base ConnectModel.
Import ListNotations.

(** C144. An answer that is a failure, with its error. *)
Definition failure (a : answer) : option errc := match a with Accepts => None | NoSocket n | Refuses n => Some (System n) end.
(** the error of the last endpoint that was tried *)
Definition last_error (l : list (endpoint * answer)) : errc := last (map (fun x => match failure (snd x) with Some e => e | None => HostNotFound end) l) HostNotFound.

Lemma close_closed c : c_sock (close c) = Closed.
Proof. unfold close, is_open. destruct (c_sock c) eqn:E; auto. Qed.
Lemma connect_closed ep a c : c_sock c = Closed -> snd (connect ep a c) = failure a /\ (a = Accepts -> c_sock (fst (connect ep a c)) = Open (ep_family ep) (Some ep)).
Proof. intros H. unfold connect. rewrite H. destruct a; cbn; split; auto; discriminate. Qed.

(** The connection is to the first endpoint of the list that accepts, and nothing behind it is tried. *)
Theorem C144_first_partial : forall c pre ep post,
  c_sock c = Closed -> (forall x, In x pre -> failure (snd x) <> None) ->
  exists c', connect_host (inr (pre ++ (ep, Accepts) :: post)) c = (c', None, map fst pre ++ [ep]) /\ c_sock c' = Open (ep_family ep) (Some ep) /\ is_open c' = true.
Proof.
  intros c pre ep post H F. unfold connect_host. generalize HostNotFound. revert c H F. induction pre as [|[q a] pre IH]; intros c H F e0; cbn [app try_each map].
  - destruct (connect_closed ep Accepts c H) as [A B]. destruct (connect ep Accepts c) as [c1 e1]. cbn in A, B. subst e1. exists c1. specialize (B eq_refl). unfold is_open. rewrite B. split; [|auto]. destruct post; reflexivity.
  - destruct (connect_closed q a c H) as [A _]. destruct (connect q a c) as [c1 e1]. cbn in A. subst e1. destruct (failure a) as [e|] eqn:E; [|elim (F (q, a)); [left; reflexivity|exact E]].
    destruct (IH (close c1) (close_closed c1) (fun x I => F x (or_intror I)) e) as (c' & X & Y). rewrite X. exists c'. split; [reflexivity|exact Y].
Qed.
Print Assumptions C144_first_partial.
(** If none accepts, all are tried, the error of the last is returned, and the connection is closed. *)
Theorem C144_none_partial : forall c l,
  c_sock c = Closed -> (forall x, In x l -> failure (snd x) <> None) ->
  exists c', connect_host (inr l) c = (c', Some (last_error l), map fst l) /\ c_sock c' = Closed /\ is_open c' = false.
Proof.
  intros c l H F. unfold connect_host, last_error. generalize HostNotFound at 1 3. 
  revert c H F. induction l as [|[q a] l IH]; intros c H F e0; cbn [try_each map].
  - exists c. unfold is_open. rewrite H. auto.
  - destruct (connect_closed q a c H) as [A _]. destruct (connect q a c) as [c1 e1]. cbn in A. subst e1. destruct (failure a) as [e|] eqn:E; [|elim (F (q, a)); [left; reflexivity|exact E]].
    destruct (IH (close c1) (close_closed c1) (fun x I => F x (or_intror I)) e) as (c' & X & Y). rewrite X. exists c'. split; [|exact Y]. cbn [snd fst]. rewrite E.
    destruct l as [|y l]; [reflexivity|]. f_equal. f_equal. f_equal. clear. cbn [map]. revert y. induction l as [|z l IH]; intros y; [reflexivity|]. cbn [map last] in *. apply IH.
Qed.
Print Assumptions C144_none_partial.
(** Whatever the connection was before: if the call returns no error, it is connected to an endpoint of the list that accepts; if it returns an error
    and the name stood for something, it is closed. *)
Theorem C144_outcome_partial : forall c l c' e tried, connect_host (inr l) c = (c', e, tried) ->
  match e with
  | None => exists ep, In (ep, Accepts) l /\ exists f, c_sock c' = Open f (Some ep)
  | Some _ => l = [] \/ c_sock c' = Closed
  end.
Proof.
  intros c l c' e tried. unfold connect_host. generalize HostNotFound. revert c c' e tried. induction l as [|[q a] l IH]; intros c c' e tried e0; cbn [try_each].
  - intros X. injection X as <- <- <-. auto.
  - destruct (connect q a c) as [c1 e1] eqn:C. destruct e1 as [e1|].
    + destruct (try_each l (close c1) (Some e1)) as [[c2 e2] t] eqn:T. intros X. injection X as <- <- <-. pose proof (IH (close c1) c2 e2 t e1 T) as R. destruct e2.
      * right. destruct R as [->|R]; [|exact R]. cbn in T. injection T as <- _ _. apply close_closed.
      * destruct R as (ep & I & R). exists ep. split; [right; exact I|exact R].
    + destruct l as [|y0 l0]; intros X; injection X as <- <- <-; exists q; unfold connect in C; destruct (c_sock c) as [|f [p|]]; destruct a; try discriminate;
        try (destruct (f =? ep_family q); try discriminate); injection C as <-; split; try (left; reflexivity); eexists; reflexivity.
Qed.
Print Assumptions C144_outcome_partial.
(** A connection that is open and connected is given up, and the first endpoint is not asked. *)
Theorem C144_open_partial : forall c f p ep a l, c_sock c = Open f (Some p) ->
  exists c', c_sock c' = Closed /\ fst (connect_host (inr ((ep, a) :: l)) c) = fst (try_each l c' (Some AlreadyConnected)).
Proof.
  intros c f p ep a l H. exists (close c). split; [apply close_closed|]. cbn [connect_host try_each]. unfold connect. rewrite H.
  destruct (try_each l (close c) (Some AlreadyConnected)) as [[c2 e2] t]. reflexivity.
Qed.
Print Assumptions C144_open_partial.

(** The full claims: the first endpoint that accepts is the one connected to, whatever was done before; after an error the connection is closed. *)
Definition always_first : Prop := forall c ep l, exists c' t, connect_host (inr ((ep, Accepts) :: l)) c = (c', None, t) /\ exists f, c_sock c' = Open f (Some ep).
Definition ex_ep : endpoint := mkep 4 (bs "10.0.0.1") 80.
Definition ex_ep6 : endpoint := mkep 6 (bs "::1") 80.
Theorem C144_first_refuted : ~ always_first.
Proof. intros H. destruct (H (fst (connect ex_ep Accepts (new_conn true false))) ex_ep []) as (c' & t & X & _). discriminate. Qed.
Print Assumptions C144_first_refuted.
Definition closed_after_error : Prop := forall ep a c c' e, c_sock c = Closed -> connect ep a c = (c', Some e) -> is_open c' = false.
Theorem C144_closed_refuted : ~ closed_after_error.
Proof. intros H. specialize (H ex_ep (Refuses 111) (new_conn true false) _ _ eq_refl eq_refl). discriminate. Qed.
Print Assumptions C144_closed_refuted.
(** The full claim: an endpoint that accepts can be connected to, after others have failed. *)
Definition retry_works : Prop := forall ep1 n ep2 c, c_sock c = Closed -> snd (connect ep2 Accepts (fst (connect ep1 (Refuses n) c))) = None.
Theorem C144_retry_refuted : ~ retry_works.
Proof. intros H. specialize (H ex_ep6 111 ex_ep (new_conn true false) eq_refl). discriminate. Qed.
Print Assumptions C144_retry_refuted.
Theorem C144_retry_partial : forall ep1 n ep2 c, c_sock c = Closed ->
  snd (connect ep2 Accepts (close (fst (connect ep1 (Refuses n) c)))) = None
  /\ (ep_family ep1 = ep_family ep2 -> snd (connect ep2 Accepts (fst (connect ep1 (Refuses n) c))) = None).
Proof.
  intros ep1 n ep2 c H. split.
  - unfold connect at 1. rewrite close_closed. reflexivity.
  - intros E. unfold connect at 2. rewrite H. cbn. rewrite E, Z.eqb_refl. reflexivity.
Qed.
Print Assumptions C144_retry_partial.
Example C144_case : connect_host (inr [(ex_ep6, NoSocket 97); (ex_ep, Refuses 111); (mkep 4 (bs "10.0.0.2") 80, Accepts); (mkep 4 (bs "10.0.0.3") 80, Accepts)]) (new_conn true false)
  = (mkconn (Open 4 (Some (mkep 4 (bs "10.0.0.2") 80))) false false false, None, [ex_ep6; ex_ep; mkep 4 (bs "10.0.0.2") 80])
  /\ connect_host (inr [(ex_ep6, NoSocket 97); (ex_ep, Refuses 111)]) (new_conn true false) = (mkconn Closed false false false, Some (System 111), [ex_ep6; ex_ep]).
Proof. split; reflexivity. Qed.

(** C145. With SSL support, a stream made for SSL sends nothing in the clear, and nothing to a peer with which no handshake was completed. *)
Definition safe (c : conn) : Prop := c_flag c = true /\ (c_session c = true -> c_secured c = true \/ c_sock c = Closed \/ exists f, c_sock c = Open f None).
Theorem C145_stream_partial : forall l s, In s (snd (scalls true (new_conn true true) l)) -> s_encrypted s = true /\ s_secured s = true.
Proof.
  assert (G : forall l c s, safe c -> In s (snd (scalls true c l)) -> s_encrypted s = true /\ s_secured s = true).
  2: { intros l s. apply G. split; [reflexivity|discriminate]. }
  induction l as [|k l IH]; intros c s S; [intros []|]. cbn [scalls].
  assert (K : safe (fst (fst (scall_step true c k))) /\ forall x, In x (snd (scall_step true c k)) -> s_encrypted x = true /\ s_secured x = true).
  { destruct S as [S1 S2]. destruct k as [ep a h|r h| |d]; cbn [scall_step].
    - unfold connect. destruct (c_sock c) as [|f [p|]] eqn:E; destruct a; cbn [secure_then set_sock c_flag c_sock]; rewrite ?S1; try (destruct (f =? ep_family ep)); cbn [secure_then set_sock c_flag c_sock];
        rewrite ?S1; try (destruct h); cbn; split; try (intros ? []); split; cbn; auto; intros X; rewrite ?E; eauto.
    - unfold accept. destruct (c_sock c) as [|f p] eqn:E; [destruct r|]; cbn [secure_then set_sock c_flag c_sock]; rewrite ?S1; try (destruct h); cbn; split; try (intros ? []); split; cbn; auto; intros X; rewrite ?E; eauto.
    - cbn. split; [|intros ? []]. unfold close. destruct (is_open c); split; cbn; auto.
    - unfold write. destruct (c_sock c) as [|f [p|]] eqn:E; cbn; try (split; [split; [exact S1|rewrite E; exact S2]|intros ? []]). rewrite S1. destruct (c_session c) eqn:Q; cbn.
      + split; [split; [exact S1|rewrite Q, E; exact S2]|]. intros x [<-|[]]. cbn. split; [reflexivity|]. destruct (S2 eq_refl) as [X|[X|[g X]]]; [exact X|discriminate|discriminate].
      + split; [split; [exact S1|rewrite Q; discriminate]|intros ? []]. }
  destruct (scall_step true c k) as [[c1 e1] s1]. destruct (scalls true c1 l) as [c2 s2] eqn:T. cbn [fst snd] in *. rewrite in_app_iff. intros [I|I]; [apply K; exact I|].
  apply (IH c1 s (proj1 K)). rewrite T. exact I.
Qed.
Print Assumptions C145_stream_partial.
(** Connecting such a stream succeeds only if the handshake does. *)
Theorem C145_connected_partial : forall l ep a h c, c = fst (scalls true (new_conn true true) l) ->
  snd (fst (scall_step true c (SConnect ep a h))) = None -> h = None /\ a = Accepts /\ c_secured (fst (fst (scall_step true c (SConnect ep a h)))) = true.
Proof.
  intros l ep a h c ->. assert (F : forall l c, c_flag c = true -> c_flag (fst (scalls true c l)) = true).
  { clear. induction l as [|k l IH]; intros c H; [exact H|]. cbn [scalls]. assert (K : c_flag (fst (fst (scall_step true c k))) = true).
    { destruct k as [ep a h|r h| |d]; cbn [scall_step].
      - unfold connect. destruct (c_sock c) as [|f [p|]]; destruct a; cbn; rewrite ?H; try (destruct (f =? ep_family ep)); cbn; rewrite ?H; try (destruct h); cbn; auto.
      - unfold accept. destruct (c_sock c) as [|f p]; [destruct r|]; cbn; rewrite ?H; try (destruct h); cbn; auto.
      - unfold close. destruct (is_open c); exact H.
      - destruct (write d c). exact H. }
    destruct (scall_step true c k) as [[c1 e1] s1]. specialize (IH c1 K). destruct (scalls true c1 l). exact IH. }
  specialize (F l (new_conn true true) eq_refl). set (c := fst (scalls true (new_conn true true) l)) in *. clearbody c. cbn [scall_step]. unfold connect.
  destruct (c_sock c) as [|f [p|]]; destruct a; cbn; rewrite ?F; try (destruct (f =? ep_family ep)); cbn; rewrite ?F; try (destruct h); cbn; intros X; try discriminate; auto.
Qed.
Print Assumptions C145_connected_partial.
(** After a handshake was asked for, successful or not, nothing is sent in the clear. *)
Theorem C145_handshake_partial : forall c r l s, In s (snd (calls true c (CHandshake r :: l))) -> s_encrypted s = true.
Proof.
  assert (G : forall l c s, c_flag c = true -> In s (snd (calls true c l)) -> s_encrypted s = true).
  { induction l as [|k l IH]; intros c s H; [intros []|]. cbn [calls].
    assert (K : c_flag (fst (fst (call_step true c k))) = true /\ forall x, In x (snd (call_step true c k)) -> s_encrypted x = true).
    { assert (CF : forall ep a c, c_flag (fst (connect ep a c)) = c_flag c).
      { intros ep a d. unfold connect. destruct (c_sock d) as [|f [p|]]; destruct a; try (destruct (f =? ep_family ep)); reflexivity. }
      assert (LF : forall c, c_flag (close c) = c_flag c) by (intros d; unfold close; destruct (is_open d); reflexivity).
      destruct k as [ep a|r|r| |r|d]; cbn [call_step].
      - specialize (CF ep a c). destruct (connect ep a c). cbn in *. split; [congruence|intros ? []].
      - assert (TF : forall l c e, c_flag (fst (fst (try_each l c e))) = c_flag c).
        { clear - CF LF. induction l as [|[q a] l IH]; intros c e; [destruct e; reflexivity|]. cbn [try_each]. destruct e; [|reflexivity]. specialize (CF q a c). destruct (connect q a c) as [c1 e1].
          specialize (IH (match e1 with Some _ => close c1 | None => c1 end) e1). destruct (try_each l _ e1) as [[c2 e2] t]. cbn in *. rewrite IH. destruct e1; rewrite ?LF; exact CF. }
        destruct r as [n|q]; cbn [connect_host]; [split; [exact H|intros ? []]|]. specialize (TF q c (Some HostNotFound)). destruct (try_each q c (Some HostNotFound)) as [[c2 e2] t]. cbn in *. split; [congruence|intros ? []].
      - unfold accept. destruct (c_sock c); [destruct r|]; cbn; split; auto; intros ? [].
      - cbn. rewrite LF. split; [exact H|intros ? []].
      - unfold handshake. destruct (c_sock c) as [|f [p|]]; [|destruct r|]; cbn; split; auto; intros ? [].
      - unfold write. rewrite H. destruct (c_sock c) as [|f [p|]]; [|destruct (c_session c)|]; cbn; split; auto; try (intros ? []; fail). intros x [<-|[]]. reflexivity. }
    destruct (call_step true c k) as [[c1 e1] s1]. destruct (calls true c1 l) as [c2 s2] eqn:T. cbn [fst snd] in *. rewrite in_app_iff. intros [I|I]; [apply K; exact I|].
    apply (IH c1 s (proj1 K)). rewrite T. exact I. }
  intros c r l s. cbn [calls call_step]. assert (F : c_flag (fst (handshake true r c)) = true) by (unfold handshake; destruct (c_sock c) as [|f [p|]]; [|destruct r|]; reflexivity).
  destruct (handshake true r c) as [c1 e1]. cbn [fst] in F. specialize (G l c1 s F). destruct (calls true c1 l). exact G.
Qed.
Print Assumptions C145_handshake_partial.

(** The full claims: also without SSL support, what was asked to be encrypted is never sent in the clear; a handshake without error means a secured connection. *)
Definition never_clear : Prop := forall ssl l s, In s (snd (scalls ssl (new_conn ssl true) l)) -> s_encrypted s = true.
Theorem C145_clear_refuted : ~ never_clear.
Proof. intros H. specialize (H false [SConnect ex_ep Accepts (Some 1); SWrite (bs "secret")] (mksent ex_ep false false (bs "secret")) (or_introl eq_refl)). discriminate. Qed.
Print Assumptions C145_clear_refuted.
Definition handshake_tells : Prop := forall ssl r c, snd (handshake ssl r c) = None -> c_secured (fst (handshake ssl r c)) = true.
Theorem C145_handshake_refuted : ~ handshake_tells.
Proof. intros H. specialize (H false (Some 1) (fst (connect ex_ep Accepts (new_conn false true))) eq_refl). discriminate. Qed.
Print Assumptions C145_handshake_refuted.
(** The full claim: a connection (not a stream) that is connected again sends nothing before another handshake. *)
Definition reconnect_secured : Prop := forall l s, In s (snd (calls true (new_conn true true) l)) -> s_secured s = true.
Theorem C145_reconnect_refuted : ~ reconnect_secured.
Proof.
  intros H. specialize (H [CConnect ex_ep Accepts; CHandshake None; CClose; CConnect ex_ep6 Accepts; CWrite (bs "x")] (mksent ex_ep6 true false (bs "x")) (or_introl eq_refl)). discriminate.
Qed.
Print Assumptions C145_reconnect_refuted.
Example C145_case : snd (scalls true (new_conn true true) [SWrite (bs "a"); SConnect ex_ep Accepts (Some 1); SWrite (bs "b"); SClose; SConnect ex_ep Accepts None; SWrite (bs "c")])
  = [mksent ex_ep true true (bs "c")].
Proof. reflexivity. Qed.
