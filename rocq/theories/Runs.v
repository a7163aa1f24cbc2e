(** Executions of a transition system whose steps are named by labels and emit observable events. No definition here models code. *)
From Coq Require Import List.
Import ListNotations.

Section Runs.
Context {S L E : Type} (step : S -> L -> option (S * list E)).

(** the labels, one after the other; [None] if one is not possible *)
Fixpoint run (s : S) (ls : list L) : option (S * list E) :=
  match ls with
  | [] => Some (s, [])
  | l :: ls' =>
    match step s l with
    | None => None
    | Some (s1, e) => match run s1 ls' with None => None | Some (s2, e') => Some (s2, e ++ e') end
    end
  end.

Lemma run_app : forall a b s s2 tr,
  run s (a ++ b) = Some (s2, tr) <-> exists s1 t1 t2, run s a = Some (s1, t1) /\ run s1 b = Some (s2, t2) /\ tr = t1 ++ t2.
Proof.
  induction a as [|l a IH]; intros b s s2 tr; simpl.
  - split; [intros H; exists s, [], tr; auto | intros (s1 & t1 & t2 & H1 & H2 & ->); injection H1 as <- <-; exact H2].
  - destruct (step s l) as [[s0 e]|]; [|split; [discriminate | intros (? & ? & ? & ? & ?); discriminate]].
    specialize (IH b s0). destruct (run s0 (a ++ b)) as [[s3 e']|] eqn:R.
    + destruct (IH s3 e') as [IH1 _]. destruct (IH1 eq_refl) as (s1 & t1 & t2 & H1 & H2 & ->). rewrite H1. split.
      * intros H; injection H as <- <-. exists s1, (e ++ t1), t2. rewrite app_assoc. auto.
      * intros (s1' & t1' & t2' & H3 & H4 & ->). injection H3 as <- <-. rewrite H2 in H4. injection H4 as <- <-.
        rewrite app_assoc. reflexivity.
    + split; [discriminate|]. intros (s1 & t1 & t2 & H1 & H2 & ->). destruct (run s0 a) as [[s1' t1']|]; [|discriminate].
      injection H1 as <- <-. destruct (IH s2 (t1' ++ t2)) as [_ IH2]. assert (X : None = Some (s2, t1' ++ t2)) by (apply IH2; eauto 6). discriminate X.
Qed.

Lemma run_snoc : forall a l s s2 tr,
  run s (a ++ [l]) = Some (s2, tr) <-> exists s1 t1 e, run s a = Some (s1, t1) /\ step s1 l = Some (s2, e) /\ tr = t1 ++ e.
Proof.
  intros a l s s2 tr. rewrite run_app. simpl. split.
  - intros (s1 & t1 & t2 & H1 & H2 & ->). destruct (step s1 l) as [[s3 e]|] eqn:D; [|discriminate]. injection H2 as <- <-.
    exists s1, t1, e. rewrite app_nil_r. auto.
  - intros (s1 & t1 & e & H1 & H2 & ->). exists s1, t1, e. rewrite H2, app_nil_r. auto.
Qed.

(** what holds at the begin and is kept by every step holds after every execution *)
Lemma run_ind : forall (P : S -> list E -> Prop) s0, P s0 [] ->
  (forall s tr l s' e, P s tr -> step s l = Some (s', e) -> P s' (tr ++ e)) ->
  forall ls s tr, run s0 ls = Some (s, tr) -> P s tr.
Proof.
  intros P s0 H0 Hs. induction ls as [|l ls IH] using rev_ind; intros s tr R.
  - injection R as <- <-. exact H0.
  - apply run_snoc in R. destruct R as (s1 & t1 & e & R1 & D & ->). eauto.
Qed.
(** the same for executions all of whose labels are allowed where they are taken *)
Inductive allowed (ok : S -> L -> Prop) : S -> list L -> Prop :=
| al_nil : forall s, allowed ok s []
| al_cons : forall s l ls s' e, ok s l -> step s l = Some (s', e) -> allowed ok s' ls -> allowed ok s (l :: ls).
Lemma allowed_app (ok : S -> L -> Prop) : forall a b s s1 t1, run s a = Some (s1, t1) -> (allowed ok s (a ++ b) <-> allowed ok s a /\ allowed ok s1 b).
Proof.
  induction a as [|l a IH]; intros b s s1 t1 R; simpl in *.
  - injection R as <- <-. split; [intros H; split; [constructor | exact H] | tauto].
  - destruct (step s l) as [[s' e]|] eqn:D; [|discriminate]. destruct (run s' a) as [[s2 e']|] eqn:R'; [|discriminate].
    injection R as <- <-. specialize (IH b s' s2 e' R'). split.
    + intros H. inversion H as [|? ? ? sx ex O D' A]; subst. rewrite D in D'. injection D' as <- <-. apply IH in A. destruct A. split; [econstructor; eauto | auto].
    + intros [H H']. inversion H as [|? ? ? sx ex O D' A]; subst. rewrite D in D'. injection D' as <- <-. econstructor; eauto. apply IH. auto.
Qed.
Lemma allowed_run_ind (ok : S -> L -> Prop) : forall (P : S -> list E -> Prop) s0, P s0 [] ->
  (forall s tr l s' e, P s tr -> ok s l -> step s l = Some (s', e) -> P s' (tr ++ e)) ->
  forall ls s tr, run s0 ls = Some (s, tr) -> allowed ok s0 ls -> P s tr.
Proof.
  intros P s0 H0 Hs. induction ls as [|l ls IH] using rev_ind; intros s tr R A.
  - injection R as <- <-. exact H0.
  - apply run_snoc in R. destruct R as (s1 & t1 & e & R1 & D & ->). apply (allowed_app ok ls [l] s0 s1 t1 R1) in A.
    destruct A as [A1 A2]. inversion A2; subst. eapply Hs; eauto.
Qed.
End Runs.

(** An event after another in a trace that grew by a step: both were there, or the later one is new. *)
Lemma split_snoc {E} : forall (tr e a b : list E) x, tr ++ e = a ++ x :: b ->
  (exists b', tr = a ++ x :: b' /\ b = b' ++ e) \/ (exists a' , a = tr ++ a' /\ e = a' ++ x :: b).
Proof.
  induction tr as [|y tr IH]; intros e a b x H; simpl in *.
  - right. exists a. auto.
  - destruct a as [|z a]; simpl in H; injection H as -> H.
    + left. exists tr. subst. auto.
    + destruct (IH _ _ _ _ H) as [(b' & -> & ->)|(a' & -> & ->)]; [left; exists b'; auto | right; exists a'; auto].
Qed.
