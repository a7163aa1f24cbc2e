(** C94: the timer of the scheduler runs at its rate. *)
From Coq Require Import ZArith Lia List Bool.
From Verif Require Import Runs KeepModel.
Import ListNotations.
Local Open Scope Z_scope.
Local Arguments Z.add : simpl never.
Local Arguments Z.mul : simpl never.
Local Arguments Z.sub : simpl never.

(** what is seen: the calls of keep_running, the starts, the time *)
Fixpoint calls (tr : list kev) : Z := match tr with [] => 0 | KCall :: tr' => 1 + calls tr' | _ :: tr' => calls tr' end.
Fixpoint starts (tr : list kev) : Z := match tr with [] => 0 | KStart :: tr' => 1 + starts tr' | _ :: tr' => starts tr' end.
Fixpoint elapsed (tr : list kev) : Z := match tr with [] => 0 | KTime d :: tr' => d + elapsed tr' | _ :: tr' => elapsed tr' end.
Lemma calls_app : forall a b, calls (a ++ b) = calls a + calls b.
Proof. induction a as [|[| |d] a IH]; intros b; simpl; rewrite ?IH; lia. Qed.
Lemma starts_app : forall a b, starts (a ++ b) = starts a + starts b.
Proof. induction a as [|[| |d] a IH]; intros b; simpl; rewrite ?IH; lia. Qed.
Lemma elapsed_app : forall a b, elapsed (a ++ b) = elapsed a + elapsed b.
Proof. induction a as [|[| |d] a IH]; intros b; simpl; rewrite ?IH; lia. Qed.

(** The claim: a service wakes up for its timer at most once per start and once per five seconds, up to a constant. *)
Definition timer_rate (one : bool) : Prop := exists c, forall ls s tr, run (k_step one) k_init ls = Some (s, tr) -> 5 * calls tr <= elapsed tr + 5 * starts tr + c.
(** Refuted for the single-service scheduler: after a restart the wait of the first run is ended by the second; its handler ends the next, and so on without any time passing. *)
Lemma spin : forall m t, exists tr, run (k_step false) (mkk true (Some (t + 5)) 1 t) (repeat KHandler m) = Some (mkk true (Some (t + 5)) 1 t, tr) /\ calls tr = Z.of_nat m /\ starts tr = 0 /\ elapsed tr = 0.
Proof.
  induction m as [|m IH]; intros t; [exists []; auto|]. destruct (IH t) as (tr & R & C & S & E). exists ([KCall] ++ tr). split; [|simpl; lia].
  simpl repeat. cbn [run k_step k_ready k_running]. unfold keep_running. cbn [k_pend k_now k_running]. rewrite R. reflexivity.
Qed.
Theorem C94_rate_refuted : ~ timer_rate false.
Proof.
  intros [c H]. destruct (spin (Z.to_nat (c + 11)) 0) as (tr & R & C & S & E).
  assert (R0 : run (k_step false) k_init ([KStartup; KShutdown; KStartup] ++ repeat KHandler (Z.to_nat (c + 11))) = Some (mkk true (Some 5) 1 0, [KStart; KCall; KStart; KCall] ++ tr)).
  { apply run_app. exists (mkk true (Some (0 + 5)) 1 0), [KStart; KCall; KStart; KCall], tr. split; [reflexivity|]. split; [exact R | reflexivity]. }
  specialize (H _ _ _ R0). rewrite calls_app, starts_app, elapsed_app, C, S, E in H. cbn in H. lia.
Qed.
Print Assumptions C94_rate_refuted.

(** A single-service scheduler is started only once, or when no wait of an earlier run is left. *)
Definition no_wait_left (one : bool) (s : kst) (o : kop) : Prop := o = KStartup -> one = true \/ k_running s = true \/ (k_pend s = None /\ k_ready s = 0%nat).
Lemma rate_inv : forall one ls s tr, run (k_step one) k_init ls = Some (s, tr) -> allowed (k_step one) (no_wait_left one) k_init ls ->
  k_now s = elapsed tr /\ match k_pend s, k_ready s with
  | Some e, O => e <= k_now s + 5 /\ 5 * calls tr <= e - 5 + 5 * starts tr
  | None, S O => 5 * calls tr + 5 <= elapsed tr + 5 * starts tr
  | None, O => 5 * calls tr <= elapsed tr + 5 * starts tr
  | _, _ => False
  end /\ (one = true -> k_running s = false -> k_pend s = None /\ k_ready s = 0%nat).
Proof.
  intros one. apply (allowed_run_ind (k_step one) (no_wait_left one) (fun s tr => k_now s = elapsed tr /\ match k_pend s, k_ready s with
  | Some e, O => e <= k_now s + 5 /\ 5 * calls tr <= e - 5 + 5 * starts tr
  | None, S O => 5 * calls tr + 5 <= elapsed tr + 5 * starts tr
  | None, O => 5 * calls tr <= elapsed tr + 5 * starts tr
  | _, _ => False
  end /\ (one = true -> k_running s = false -> k_pend s = None /\ k_ready s = 0%nat)) k_init).
  - simpl. auto with zarith.
  - intros [rn pd rd nw] tr o s' e (T & I & Z) OK D. simpl in *. rewrite calls_app, starts_app, elapsed_app. unfold no_wait_left in OK. destruct o; simpl in *.
    + destruct rn.
      * injection D as <- <-. simpl. rewrite !Z.add_0_r. auto.
      * assert (Q : pd = None /\ rd = 0%nat) by (destruct (OK eq_refl) as [X|[X|X]]; [auto | discriminate | exact X]). destruct Q as [-> ->].
        injection D as <- <-. simpl. repeat split; try lia; discriminate.
    + injection D as <- <-. destruct one; simpl; rewrite !Z.add_0_r; [|split; [exact T|]; split; [exact I | discriminate]].
      split; [exact T|]. split; [|auto]. destruct pd as [x|], rd as [|[|rd]]; try contradiction; try lia.
    + destruct (Z.ltb_spec 0 d) as [L|L]; [|discriminate]. injection D as <- <-. simpl. split; [lia|]. split; [|exact Z]. destruct pd as [x|], rd as [|[|rd]]; try contradiction; lia.
    + destruct pd as [x|]; [|discriminate]. destruct (Z.leb_spec x nw) as [L|L]; [|discriminate]. injection D as <- <-. simpl. rewrite !Z.add_0_r. split; [exact T|].
      destruct rd as [|rd]; [|contradiction]. split; [lia|]. intros O R. destruct (Z O R). discriminate.
    + destruct rd as [|rd]; [discriminate|]. destruct pd as [x|]; [contradiction|]. destruct rd as [|rd]; [|contradiction]. injection D as <- <-. destruct rn; simpl; (split; [lia|]; split; [lia|]); auto; discriminate.
Qed.
(** C94 for the one-to-one scheduler, and for the single-service scheduler if no wait of an earlier run is left when it is started. Missing:
    restarts of the single-service scheduler. *)
Theorem C94_rate_partial : forall one ls s tr, run (k_step one) k_init ls = Some (s, tr) -> allowed (k_step one) (no_wait_left one) k_init ls ->
  5 * calls tr <= elapsed tr + 5 * starts tr.
Proof.
  intros one ls s tr R A. destruct (rate_inv _ _ _ _ R A) as (T & I & _). destruct (k_pend s) as [e|], (k_ready s) as [|[|n]]; try contradiction; lia.
Qed.
Print Assumptions C94_rate_partial.
(** two runs of the one-to-one scheduler *)
Definition two_runs : list kop := [KStartup; KTick 5; KExpire; KHandler; KShutdown; KStartup; KTick 6; KExpire; KHandler].
Example C94_case : exists s tr, run (k_step true) k_init two_runs = Some (s, tr) /\ allowed (k_step true) (no_wait_left true) k_init two_runs /\ calls tr = 4 /\ starts tr = 2 /\ elapsed tr = 11.
Proof.
  eexists; eexists; split; [vm_compute; reflexivity|]. split; [|auto]. unfold two_runs. repeat (eapply al_cons; [intros _; auto | vm_compute; reflexivity|]). apply al_nil.
Qed.
