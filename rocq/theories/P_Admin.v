(** C115 - C119: administrative rights, user names, and the start of a server. *)
From Coq Require Import String ZArith List Bool Lia.
From Verif Require Import Base Digits FormSpec HttpSpec MessageSpec MessageProofs Runs Threads AdminModel AdminSpec.
Import ListNotations.

Notation a_run := (run a_step).
Definition only_objects (ls : list alabel) : Prop := forall u, ~ In (LSet u) ls.
Definition busy (p : phase) : Prop := match p with AWait | AFree => False | _ => True end.

(* ------------------------------------------------------------------ the mutex *)

Definition excl (s : astate) : Prop :=
  (forall j p, nth_error (a_objs s) j = Some p -> busy p -> a_lock s = Some j)
  /\ forall i, a_lock s = Some i -> exists p, nth_error (a_objs s) i = Some p /\ busy p.
Lemma excl_new c l o : excl (mkas c l o) -> excl (mkas c l (o ++ [AWait])).
Proof.
  intros (A & B). cbn in *. split; cbn [a_objs a_lock].
  - intros j p N BU. destruct (nth_snoc _ _ _ _ N) as [N'|(_ & ->)]; [eauto|contradiction].
  - intros i L. destruct (B i L) as (p & N & BU). exists p. split; auto. apply nth_app_old; auto.
Qed.
Lemma excl_take c o i : excl (mkas c None o) -> nth_error o i = Some AWait -> excl (mkas c (Some i) (set_nth i ALocked o)).
Proof.
  intros (A & B) N. cbn in *. split; cbn [a_objs a_lock].
  - intros j p N' BU. destruct (set_nth_cases _ _ _ _ _ N') as [(-> & _)|(NE & N2)]; auto. specialize (A j p N2 BU). discriminate.
  - intros k L. injection L as <-. exists ALocked. split; [|exact I]. apply set_nth_same, (nth_lt _ _ _ N).
Qed.
Lemma excl_stay c l o i p q : excl (mkas c l o) -> nth_error o i = Some p -> busy p -> busy q -> forall c', excl (mkas c' l (set_nth i q o)).
Proof.
  intros (A & B) N BP BQ c'. cbn in *. split; cbn [a_objs a_lock].
  - intros j r N' BU. destruct (set_nth_cases _ _ _ _ _ N') as [(-> & _)|(NE & N2)]; eauto.
  - intros k L. destruct (B k L) as (r & N2 & BR). destruct (PeanoNat.Nat.eq_dec k i) as [->|NE]; [exists q; split; auto; apply set_nth_same, (nth_lt _ _ _ N)|]. exists r. rewrite set_nth_other by congruence. auto.
Qed.
Lemma excl_drop c l o i p : excl (mkas c l o) -> nth_error o i = Some p -> busy p -> excl (mkas c None (set_nth i AFree o)).
Proof.
  intros (A & B) N BP. cbn in *. split; cbn [a_objs a_lock]; [|discriminate].
  intros j r N' BU. destruct (set_nth_cases _ _ _ _ _ N') as [(_ & -> & _)|(NE & N2)]; [contradiction|]. pose proof (A i p N BP). pose proof (A j r N2 BU). congruence.
Qed.
Lemma excl_step s l s' e : excl s -> a_step s l = Some (s', e) -> excl s'.
Proof.
  intros X. destruct s as [c lk o]. destruct l as [|i|i|u]; cbn [a_step a_objs a_creds a_lock].
  - intros H. injection H as <- <-. apply excl_new. exact X.
  - destruct (nth_error o i) as [[]|] eqn:N; try discriminate.
    + destruct lk; [discriminate|]. intros H. injection H as <- <-. apply excl_take; auto.
    + intros H. injection H as <- <-. eapply excl_stay; eauto; exact I.
    + destruct (seteuid c (to_uid 0)); intros H; injection H as <- <-; eapply excl_stay; eauto; exact I.
    + intros H. injection H as <- <-. eapply excl_drop; eauto. exact I.
    + intros H. injection H as <- <-. eapply excl_drop; eauto. exact I.
  - destruct (nth_error o i) as [[]|] eqn:N; try discriminate.
    + destruct (seteuid c (to_uid id)); intros H; injection H as <- <-; eapply excl_stay; eauto; exact I.
    + intros H. injection H as <- <-. exact X.
  - destruct (seteuid c u); intros H; injection H as <- <-; exact X.
Qed.
Lemma excl_run c ls s tr : a_run (a_init c) ls = Some (s, tr) -> excl s.
Proof.
  intros R. apply (run_ind a_step (fun s _ => excl s)) with (tr := tr) (ls := ls) (s0 := a_init c) in R; auto.
  - split; cbn; [intros [] ? H; discriminate|discriminate].
  - intros; eapply excl_step; eauto.
Qed.

(* ------------------------------------------------------------------ the ids *)

Lemma short_back u : short_id u -> to_uid (int16 u) = u /\ u <> two32 - 1.
Proof.
  unfold short_id, to_uid, wrap32, int16, two32. intros [H|H].
  - rewrite (Z.mod_small u 65536) by lia. destruct (u <? 32768) eqn:E; [|lia]. rewrite Z.mod_small; lia.
  - assert (u mod 65536 = u - 65535 * 65536) as -> by (symmetry; apply (Z.mod_unique u 65536 65535); lia).
    destruct (u - 65535 * 65536 <? 32768) eqn:E; [lia|]. split; [|lia]. symmetry. apply (Z.mod_unique _ _ (-1)); lia.
Qed.
Lemma back_short u : 0 <= u < two32 - 1 -> to_uid (int16 u) = u -> short_id u.
Proof.
  unfold short_id, to_uid, wrap32, int16, two32. intros H E. pose proof (Z.mod_pos_bound u 65536 ltac:(lia)). destruct (u mod 65536 <? 32768) eqn:L.
  - rewrite Z.mod_small in E by lia. lia.
  - assert ((u mod 65536 - 65536) mod 4294967296 = u mod 65536 - 65536 + 4294967296) as X by (symmetry; apply (Z.mod_unique _ _ (-1)); lia). rewrite X in E. lia.
Qed.
Definition root (c : creds) : creds := mkcreds (c_real c) 0 (c_saved c).
Definition kept (c0 : creds) (s : astate) : Prop := excl s /\ (a_lock s = None -> a_creds s = c0) /\
  forall j p, nth_error (a_objs s) j = Some p ->
  match p with
  | ALocked | AFailed | AGiven => a_creds s = c0
  | ARead id => a_creds s = c0 /\ id = int16 (c_eff c0)
  | AHeld id => a_creds s = root c0 /\ id = int16 (c_eff c0)
  | AWait | AFree => True
  end.
Lemma set_root c u : 0 <= u < two32 - 1 -> seteuid (root c) u = Some (mkcreds (c_real c) u (c_saved c)).
Proof. intros H. unfold seteuid, root. cbn [c_eff c_real c_saved]. destruct (u =? two32 - 1) eqn:E; [lia|reflexivity]. Qed.
Lemma get_root c c' : seteuid c (to_uid 0) = Some c' -> c' = root c.
Proof. unfold seteuid. change (to_uid 0) with 0. destruct (0 =? two32 - 1); [discriminate|]. destruct (_ || _); [|discriminate]. intros H. injection H as <-. reflexivity. Qed.
Lemma creds_eq c : mkcreds (c_real c) (c_eff c) (c_saved c) = c. Proof. destruct c; reflexivity. Qed.
Lemma kept_run c0 ls s tr : short_id (c_eff c0) -> only_objects ls -> a_run (a_init c0) ls = Some (s, tr) -> kept c0 s.
Proof.
  intros SI OO R. revert s tr R OO. induction ls as [|l ls IH] using rev_ind; intros s tr R OO.
  { injection R as <- <-. split; [split; cbn; [intros [] ? H; discriminate|discriminate]|]. split; [reflexivity|]. intros [] p H; discriminate. }
  apply run_snoc in R. destruct R as (s1 & t1 & e & R1 & D & ->). specialize (IH s1 t1 R1 ltac:(intros u I; apply (OO u), in_or_app; auto)).
  pose proof (excl_run _ _ _ _ R1) as X1. pose proof (excl_step _ _ _ _ X1 D) as X2. destruct IH as (_ & K1 & K2). split; [exact X2|].
  destruct s1 as [c lk o]. cbn [a_lock a_creds a_objs] in *. destruct (short_back _ SI) as (B1 & B2).
  assert (0 <= c_eff c0 < two32 - 1) as RG by (unfold short_id, two32 in *; lia).
  destruct X1 as (X1 & X1'). cbn [a_lock a_objs] in X1, X1'.
  assert (forall i p, nth_error o i = Some p -> busy p -> forall j q, j <> i -> nth_error o j = Some q -> busy q -> False) as ALONE.
  { intros i p N BP j q NE N2 BQ. pose proof (X1 i p N BP). pose proof (X1 j q N2 BQ). congruence. }
  destruct l as [|i|i|u]; cbn [a_step a_objs a_creds a_lock] in D.
  - injection D as <- <-. cbn. split; auto. intros j p N. destruct (nth_snoc _ _ _ _ N) as [N'|(_ & ->)]; auto. apply (K2 j p N').
  - destruct (nth_error o i) as [pi|] eqn:N; [|discriminate]. pose proof (K2 i pi N) as KI.
    destruct pi as [| |id| |id| |]; try discriminate.
    + destruct lk; [discriminate|]. injection D as <- <-. cbn. split; [discriminate|]. intros j p NJ. destruct (set_nth_cases _ _ _ _ _ NJ) as [(_ & -> & _)|(NE & N2)]; auto. apply (K2 j p N2).
    + injection D as <- <-. cbn in KI |- *. split; auto. intros j p NJ. destruct (set_nth_cases _ _ _ _ _ NJ) as [(_ & -> & _)|(NE & N2)]; [subst c; auto|apply (K2 j p N2)].
    + destruct KI as (KC & KI). destruct (seteuid c (to_uid 0)) as [c'|] eqn:SE; injection D as <- <-; cbn.
      * apply get_root in SE. split; [intros L; specialize (X1 i _ N I); congruence|]. intros j p NJ. destruct (set_nth_cases _ _ _ _ _ NJ) as [(_ & -> & _)|(NE & N2)]; [subst; auto|].
        destruct p; auto; exfalso; apply (ALONE i _ N I j _ NE N2 I).
      * split; auto. intros j p NJ. destruct (set_nth_cases _ _ _ _ _ NJ) as [(_ & -> & _)|(NE & N2)]; [auto|apply (K2 j p N2)].
    + injection D as <- <-. cbn. split; auto. intros j p NJ. destruct (set_nth_cases _ _ _ _ _ NJ) as [(_ & -> & _)|(NE & N2)]; [exact I|apply (K2 j p N2)].
    + injection D as <- <-. cbn. split; auto. intros j p NJ. destruct (set_nth_cases _ _ _ _ _ NJ) as [(_ & -> & _)|(NE & N2)]; [exact I|apply (K2 j p N2)].
  - destruct (nth_error o i) as [pi|] eqn:N; [|discriminate]. pose proof (K2 i pi N) as KI.
    destruct pi as [| |id| |id| |]; try discriminate.
    + destruct KI as (KC & KI). rewrite KC, KI, B1, (set_root c0 _ RG), creds_eq in D. injection D as <- <-. cbn. split; auto.
      intros j p NJ. destruct (set_nth_cases _ _ _ _ _ NJ) as [(_ & -> & _)|(NE & N2)]; [auto|]. destruct p; auto; exfalso; apply (ALONE i _ N I j _ NE N2 I).
    + injection D as <- <-. cbn. split; auto.
  - destruct (OO u). apply in_or_app. right. left. reflexivity.
Qed.

(* ------------------------------------------------------------------ C115 *)

(** C115. In every execution of any number of objects: when none of them is being made, has rights, or is being released, the process has the ids it had at the begin -
    if its effective id fits into 16 bits. (The claim is for all ids.) *)
Theorem C115_back_partial c0 ls s tr : short_id (c_eff c0) -> only_objects ls -> a_run (a_init c0) ls = Some (s, tr) ->
  (forall j p, nth_error (a_objs s) j = Some p -> ~ busy p) -> a_creds s = c0.
Proof.
  intros SI OO R NB. destruct (kept_run c0 ls s tr SI OO R) as ((_ & X) & K & _). apply K. destruct (a_lock s) as [i|]; auto. destruct (X i eq_refl) as (p & N & B). destruct (NB i p N B).
Qed.
Print Assumptions C115_back_partial.
Definition one_object : list alabel := [LNew; LStep 0; LStep 0; LStep 0; LRelease 0; LStep 0].
Example C115_case : exists s, a_run (a_init (mkcreds 1000 1000 0)) (one_object ++ [LNew; LStep 1; LStep 1; LStep 1; LRelease 1; LStep 1; LRelease 0]) = Some (s, [ERights 0; EReleased 0; ERights 1; EReleased 1; EReleased 0])
  /\ a_creds s = mkcreds 1000 1000 0 /\ short_id 1000 /\ only_objects one_object.
Proof.
  eexists. split; [reflexivity|]. split; [reflexivity|]. split; [left; lia|]. intros u I. cbn in I. repeat (destruct I as [I|I]; [discriminate|]). destruct I.
Qed.
(** What happens to a process that may have rights: it gets its id cut to 16 bits and extended with the sign, or remains super user if that is -1. *)
Theorem C115_after_partial c : 0 <= c_eff c < two32 - 1 -> c_eff c = 0 \/ c_real c = 0 \/ c_saved c = 0 ->
  exists s, a_run (a_init c) one_object = Some (s, [ERights 0; EReleased 0])
    /\ a_creds s = mkcreds (c_real c) (if (c_eff c mod 65536 =? 65535) then 0 else let v := c_eff c mod 65536 in if v <? 32768 then v else two32 - 65536 + v) (c_saved c).
Proof.
  intros RG P. unfold one_object. cbn -[seteuid to_uid int16 two32]. assert (seteuid c (to_uid 0) = Some (root c)) as ->.
  { unfold seteuid. change (to_uid 0) with 0. change (0 =? two32 - 1) with false. cbv iota.
    assert ((c_eff c =? 0) || (0 =? c_real c) || (0 =? c_eff c) || (0 =? c_saved c) = true) as -> by (destruct P as [->|[->| ->]]; rewrite ?Z.eqb_refl, ?orb_true_r; reflexivity). reflexivity. }
  assert (seteuid (root c) (to_uid (int16 (c_eff c))) = if c_eff c mod 65536 =? 65535 then None
    else Some (mkcreds (c_real c) (let v := c_eff c mod 65536 in if v <? 32768 then v else two32 - 65536 + v) (c_saved c))) as SE.
  { pose proof (Z.mod_pos_bound (c_eff c) 65536 ltac:(lia)) as MB. unfold int16, to_uid, wrap32. cbv zeta. destruct (c_eff c mod 65536 <? 32768) eqn:L.
    - rewrite Z.mod_small by (unfold two32; lia). rewrite set_root by (unfold two32; lia). destruct (c_eff c mod 65536 =? 65535) eqn:E; [lia|reflexivity].
    - assert ((c_eff c mod 65536 - 65536) mod two32 = two32 - 65536 + c_eff c mod 65536) as -> by (symmetry; apply (Z.mod_unique _ _ (-1)); unfold two32; lia).
      destruct (c_eff c mod 65536 =? 65535) eqn:E.
      + unfold seteuid. destruct (two32 - 65536 + c_eff c mod 65536 =? two32 - 1) eqn:E2; [reflexivity|lia].
      + rewrite set_root by (unfold two32; lia). reflexivity. }
  cbn -[seteuid to_uid int16 two32 Z.modulo]. rewrite SE. destruct (c_eff c mod 65536 =? 65535); cbn -[seteuid to_uid int16 two32 Z.modulo]; eexists; (split; [reflexivity|reflexivity]).
Qed.
Print Assumptions C115_after_partial.
Theorem C115_back_refuted : ~ forall c0 ls s tr, 0 <= c_eff c0 < two32 - 1 -> only_objects ls -> a_run (a_init c0) ls = Some (s, tr) ->
  (forall j p, nth_error (a_objs s) j = Some p -> ~ busy p) -> a_creds s = c0.
Proof.
  intros H. destruct (C115_after_partial (mkcreds 65534 65534 0)) as (s & R & E); [unfold two32; cbn [c_eff]; lia|auto|]. cbn in E.
  assert (a_creds s = mkcreds 65534 65534 0) as X; [|rewrite X in E; discriminate]. eapply H; [| |exact R|].
  { unfold two32; cbn [c_eff]; lia. }
  { intros u I; cbn in I; repeat (destruct I as [I|I]; [discriminate|]); destruct I. }
  vm_compute in R. injection R as <-. intros [|[|]] p N B; [injection N as <-; exact B|discriminate|discriminate].
Qed.
Print Assumptions C115_back_refuted.

(* ------------------------------------------------------------------ C116 *)

(** C116. Rights are held by one object at a time, and no release fails for want of the mutex ([busy]: from taking the mutex to giving it back). The ids may be changed elsewhere. *)
Theorem C116_one c ls s tr i j p q : a_run (a_init c) ls = Some (s, tr) ->
  nth_error (a_objs s) i = Some p -> nth_error (a_objs s) j = Some q -> busy p -> busy q -> i = j.
Proof. intros R N1 N2 B1 B2. destruct (excl_run _ _ _ _ R) as (X & _). pose proof (X _ _ N1 B1). pose proof (X _ _ N2 B2). congruence. Qed.
Print Assumptions C116_one.
(** An object that has rights has them: the effective id is 0 - if nothing else sets the id. *)
Theorem C116_rights_partial c0 ls s tr i id : short_id (c_eff c0) -> only_objects ls -> a_run (a_init c0) ls = Some (s, tr) ->
  nth_error (a_objs s) i = Some (AHeld id) -> c_eff (a_creds s) = 0.
Proof. intros SI OO R N. destruct (kept_run _ _ _ _ SI OO R) as (_ & _ & K). destruct (K _ _ N) as (-> & _). reflexivity. Qed.
Print Assumptions C116_rights_partial.
(** Each object can go on: the one that has the mutex always, the others when it is given back; and the end of a constructor or a release gives it back. *)
Theorem C116_goes_on c ls s tr : a_run (a_init c) ls = Some (s, tr) ->
  (forall i, a_lock s = Some i -> exists s' e, a_step s (LStep i) = Some (s', e) \/ a_step s (LRelease i) = Some (s', e))
  /\ (a_lock s = None -> forall i, nth_error (a_objs s) i = Some AWait -> exists s', a_step s (LStep i) = Some (s', []) /\ a_lock s' = Some i)
  /\ forall i s' e, a_step s (LStep i) = Some (s', e) -> In (ENoRights i) e \/ In (EReleased i) e -> a_lock s' = None.
Proof.
  intros R. destruct (excl_run _ _ _ _ R) as (X1 & X2). split; [|split].
  - intros i L. destruct (X2 i L) as (p & N & B). cbn [a_step]. rewrite N. destruct p as [| |id| |id| |]; try contradiction; try (do 2 eexists; left; reflexivity).
    + destruct (seteuid _ _); do 2 eexists; left; reflexivity. + do 2 eexists. right. reflexivity.
  - intros L i N. cbn [a_step]. rewrite N, L. eexists. split; reflexivity.
  - intros i s' e H I. cbn [a_step] in H. destruct (nth_error (a_objs s) i) as [[]|]; try discriminate.
    + destruct (a_lock s); [discriminate|]. injection H as <- <-. destruct I as [[]|[]].
    + injection H as <- <-. destruct I as [[]|[]].
    + destruct (seteuid _ _); injection H as <- <-; [destruct I as [[I|[]]|[I|[]]]; discriminate|destruct I as [[]|[]]].
    + injection H as <- <-. reflexivity.
    + injection H as <- <-. reflexivity.
Qed.
Print Assumptions C116_goes_on.
Example C116_case : exists s tr, a_run (a_init (mkcreds 1000 1000 0)) [LNew; LNew; LStep 1; LStep 1; LStep 1] = Some (s, tr) /\ nth_error (a_objs s) 1 = Some (AHeld 1000) /\ a_lock s = Some 1%nat /\ a_step s (LStep 0) = None.
Proof. do 2 eexists. split; [reflexivity|]. repeat split. Qed.
Theorem C116_rights_refuted : ~ forall c0 ls s tr i id, short_id (c_eff c0) -> a_run (a_init c0) ls = Some (s, tr) -> nth_error (a_objs s) i = Some (AHeld id) -> c_eff (a_creds s) = 0.
Proof.
  intros H. assert (exists s, a_run (a_init (mkcreds 0 0 0)) [LNew; LStep 0; LStep 0; LStep 0; LSet 1000] = Some (s, [ERights 0]) /\ nth_error (a_objs s) 0 = Some (AHeld 0) /\ c_eff (a_creds s) = 1000) as (s & R & N & E) by (eexists; split; [reflexivity|split; reflexivity]).
  assert (c_eff (a_creds s) = 0) as X; [|rewrite X in E; discriminate]. eapply H; [|exact R|exact N]. left. cbn [c_eff]. lia.
Qed.
Print Assumptions C116_rights_refuted.

(* ------------------------------------------------------------------ C117 *)

(** C117. [run_as_user] returns -1 and changes nothing, or returns the id the process then has. *)
Theorem C117_runs c name file r c' : 0 <= c_eff c < two32 - 1 -> run_as_user c name file = Some (r, c') -> (r = -1 /\ c' = c) \/ (0 <= r /\ c_eff c' = r /\ c_real c' = c_real c /\ c_saved c' = c_saved c).
Proof.
  intros RG. unfold run_as_user. destruct (find_system_id name file) as [n|] eqn:F; [|discriminate]. destruct (n =? -1) eqn:E.
  { intros H. injection H as <- <-. right. repeat split; lia. }
  assert (0 <= n < 2147483648) as NB.
  { assert (forall s n, cast32 s = SId n -> just_numbers s = true -> 0 <= n < 2147483648) as CB.
    { intros s k H J. unfold cast32 in H. destruct (_ <? 2147483648) eqn:L; [|discriminate]. injection H as <-. split; [|lia]. unfold just_numbers in J. destruct s as [|c0 s]; [discriminate|]. revert J.
      assert (forall t a, 0 <= a -> forallb (fun c => (48 <=? c) && (c <=? 57)) t = true -> 0 <= undigits 10 a (map (fun c => c - 48) t)) as U.
      { induction t as [|x t IH]; intros a A F0; cbn [map undigits]; auto. cbn [forallb] in F0. apply andb_prop in F0. destruct F0 as (F1 & F2). apply IH; auto. lia. }
      apply U. lia. }
    unfold find_system_id in F. destruct (just_numbers name) eqn:J; [eauto|]. destruct file as [s|]; [|injection F as <-; lia]. revert F. generalize (getlines [] s). induction l as [|x l IH]; cbn [find_line]; [intros F; injection F as <-; lia|].
    destruct (tokens [] x) as [|t ts]; auto. destruct (str_eqb t name); auto. destruct ts as [|u [|v ts]]; try (intros F; injection F as <-; lia). destruct (just_numbers v) eqn:JV; [intros F; eauto|intros F; injection F as <-; lia]. }
  destruct (seteuid c (to_uid n)) as [c1|] eqn:S; intros H; injection H as <- <-; [right|left; auto].
  unfold seteuid, to_uid, wrap32 in S. rewrite Z.mod_small in S by (unfold two32; lia). destruct (n =? two32 - 1); [discriminate|]. destruct (_ || _); [|discriminate]. injection S as <-. repeat split; lia.
Qed.
Print Assumptions C117_runs.
(** An unknown name is not told from the name of the current user: the id returned need not be the user's. *)
Theorem C117_named_refuted : ~ forall c name file r c', run_as_user c name (Some file) = Some (r, c') -> just_numbers name = false -> 0 <= r -> listed file name r.
Proof.
  intros H. assert (run_as_user (mkcreds 0 0 0) (bs "bob") (Some (bs "amy:x:7:7")) = Some (0, mkcreds 0 0 0)) as R by reflexivity. specialize (H _ _ _ _ _ R eq_refl ltac:(lia)).
  destruct H as (b & l & a & x & v & rest & E & F & _). assert (lines (bs "amy:x:7:7") = [bs "amy:x:7:7"]) as E' by reflexivity. rewrite E' in E. destruct b as [|? [|]]; try discriminate. cbn in E. injection E as <- _. vm_compute in F. discriminate.
Qed.
Print Assumptions C117_named_refuted.
(** The id set while another thread has rights is lost when the rights are given back: a process of the super user is that of the super user again. *)
Theorem C117_lasts_refuted : ~ forall c name file r c' a b s tr s1 tr1, a_run (a_init c) a = Some (s1, tr1) -> run_as_user (a_creds s1) name file = Some (r, c') -> r = 1000 ->
  only_objects b -> a_run (a_init c) (a ++ [LSet r] ++ b) = Some (s, tr) -> (forall j p, nth_error (a_objs s) j = Some p -> ~ busy p) -> c_eff (a_creds s) = r.
Proof.
  intros H. set (c := mkcreds 0 0 0). set (file := Some (bs "bob:x:1000:1")).
  assert (exists s tr s1 tr1, a_run (a_init c) [LNew; LStep 0; LStep 0; LStep 0] = Some (s1, tr1) /\ run_as_user (a_creds s1) (bs "bob") file = Some (1000, mkcreds 0 1000 0)
    /\ a_run (a_init c) ([LNew; LStep 0; LStep 0; LStep 0] ++ [LSet 1000] ++ [LRelease 0; LStep 0]) = Some (s, tr) /\ a_objs s = [AFree] /\ c_eff (a_creds s) = 0) as (s & tr & s1 & tr1 & R1 & U & R2 & O & E).
  { do 4 eexists. split; [reflexivity|]. split; [reflexivity|]. split; [reflexivity|]. split; reflexivity. }
  assert (c_eff (a_creds s) = 1000) as X; [|rewrite X in E; discriminate]. eapply H; [exact R1|exact U|reflexivity| |exact R2|].
  - intros u I. cbn in I. repeat (destruct I as [I|I]; [discriminate|]). destruct I.
  - rewrite O. intros [|[|]] p N; [injection N as <-; auto|discriminate|discriminate].
Qed.
Print Assumptions C117_lasts_refuted.
Example C117_case : run_as_user (mkcreds 0 0 0) (bs "bob") (Some (bs "root:x:0:0" ++ [10] ++ bs "bob:x:1000:100")) = Some (1000, mkcreds 0 1000 0).
Proof. reflexivity. Qed.

(* ------------------------------------------------------------------ C118 *)

Lemma split_cons sep s : exists h t, split_on sep s = h :: t.
Proof. destruct s as [|c s]; cbn [split_on]; [eauto|]. destruct (c =? sep); [eauto|]. destruct (split_on sep s); eauto. Qed.
(** the lines of the model are those of the file but for an empty last one *)
Lemma getlines_lines s : forall cur h t, split_on 10 s = h :: t -> getlines cur s = removelast ((cur ++ h) :: t) ++ (match last ((cur ++ h) :: t) [] with [] => [] | x => [x] end).
Proof.
  induction s as [|c s IH]; intros cur h t E; cbn [split_on getlines] in *.
  - injection E as <- <-. rewrite app_nil_r. cbn. destruct cur; reflexivity.
  - destruct (split_cons 10 s) as (h' & t' & E'). destruct (c =? 10).
    + injection E as <- <-. rewrite app_nil_r, (IH [] h' t' E'), E'. cbn [app]. reflexivity.
    + rewrite E' in E. injection E as <- <-. rewrite (IH (cur ++ [c]) h' t' E'), <- app_assoc. reflexivity.
Qed.
Lemma tokens_fields s : forall cur h t, split_on (ch ":") s = h :: t -> tokens cur s = filter (fun f => match f with [] => false | _ => true end) ((cur ++ h) :: t).
Proof.
  induction s as [|c s IH]; intros cur h t E; cbn [split_on tokens] in *.
  - injection E as <- <-. rewrite app_nil_r. cbn. destruct cur; reflexivity.
  - destruct (split_cons (ch ":") s) as (h' & t' & E'). destruct (c =? ch ":").
    + injection E as <- <-. rewrite app_nil_r, (IH [] h' t' E'), E'. cbn [app filter]. destruct cur; reflexivity.
    + rewrite E' in E. injection E as <- <-. rewrite (IH (cur ++ [c]) h' t' E'), <- app_assoc. reflexivity.
Qed.
Lemma cast_value s : undigits 10 0 (map (fun c => c - 48) s) = dec_value s.
Proof.
  unfold dec_value. generalize 0. induction s as [|c s IH]; intros a; cbn [map undigits fold_left]; [reflexivity|]. rewrite IH. reflexivity.
Qed.
Lemma numbers_dec s : just_numbers s = true <-> s <> [] /\ Forall is_dec s.
Proof.
  unfold just_numbers. destruct s as [|c s]; [split; [discriminate|intros (H & _); contradiction]|]. rewrite forallb_forall, Forall_forall. split.
  - intros H. split; [discriminate|]. intros x I. apply H in I. unfold is_dec. lia.
  - intros (_ & H) x I. apply H in I. unfold is_dec in I. lia.
Qed.
Lemma dec_pos s : Forall is_dec s -> 0 <= dec_value s.
Proof.
  unfold dec_value. assert (forall t a, 0 <= a -> Forall is_dec t -> 0 <= fold_left (fun a c => a * 10 + digit_val c) t a) as X; [|intros; apply X; auto; lia].
  induction t as [|c t IH]; intros a A F; cbn [fold_left]; auto. inversion F; subst. apply IH; auto. unfold is_dec, digit_val in *. lia.
Qed.
Definition listed_in (ls : list (list Z)) (name : list Z) (n : Z) : Prop :=
  exists before l after x v rest, ls = before ++ l :: after /\ fields l = name :: x :: v :: rest /\ numeral n v /\ forall l', In l' before -> forall r, fields l' <> name :: r.
Lemma listed_cons y ls name n : listed_in (y :: ls) name n <->
  (exists x v rest, fields y = name :: x :: v :: rest /\ numeral n v) \/ ((forall r, fields y <> name :: r) /\ listed_in ls name n).
Proof.
  split.
  - intros (b & l & a & x & v & rest & E & F & N & NB). destruct b as [|b0 b]; cbn [app] in E; injection E as -> E.
    + left. eauto 8.
    + right. split; [apply NB; left; auto|]. exists b, l, a, x, v, rest. repeat split; auto; try apply N; intros l' I; apply NB; right; auto.
  - intros [(x & v & rest & F & N)|(NB & b & l & a & x & v & rest & -> & F & N & NB')].
    + exists [], y, ls, x, v, rest. repeat split; auto; try apply N; intros l' [].
    + exists (y :: b), l, a, x, v, rest. repeat split; auto; try apply N; intros l' [<-|I]; auto.
Qed.
Lemma fields_cons l : exists f r, fields l = f :: r. Proof. apply split_cons. Qed.
Lemma find_listed name ls : name <> [] -> (forall l, In l ls -> l = [] \/ forall f, In f (firstn 3 (fields l)) -> f <> []) ->
  forall n, (find_line name ls = SId n /\ n <> -1 <-> listed_in ls name n /\ n < 2147483648) /\ (find_line name ls = SThrow <-> exists k, listed_in ls name k /\ 2147483648 <= k).
Proof.
  intros NN. induction ls as [|y ls IH]; intros REG n; cbn [find_line].
  - split.
    + split; [intros (H & N); injection H as <-; contradiction|]. intros ((b & l & a & x & v & rest & E & _) & _). destruct b; discriminate.
    + split; [discriminate|]. intros (k & (b & l & a & x & v & rest & E & _) & _). destruct b; discriminate.
  - specialize (IH (fun l I => REG l (or_intror I)) n). destruct (fields_cons y) as (f & r & EF). rewrite (tokens_fields y [] f r EF). cbn [app].
    assert ((forall q, fields y <> name :: q) -> (listed_in (y :: ls) name n <-> listed_in ls name n) /\ forall k, listed_in (y :: ls) name k <-> listed_in ls name k) as SKIP.
    { intros NB. assert (forall k, listed_in (y :: ls) name k <-> listed_in ls name k) as X; [|auto]. intros k. rewrite listed_cons. split; [intros [(x & v & rest & F & _)|(_ & H)]; auto; destruct (NB _ F)|auto]. }
    destruct (REG y (or_introl eq_refl)) as [->|RY].
    { injection EF as <- <-. cbn [filter]. destruct SKIP as (_ & SK); [intros q H; injection H as <- _; contradiction|]. rewrite SK. destruct IH as (I1 & I2). split; [exact I1|]. rewrite I2. split; intros (k & K1 & K2); exists k; split; auto; apply SK; auto. }
    assert (f <> []) as NF by (apply RY; rewrite EF; left; reflexivity). cbn [filter]. destruct f as [|f0 f1]; [contradiction|]. remember (f0 :: f1) as f eqn:EF0.
    destruct (str_eqb f name) eqn:SE.
    2:{ assert (f <> name) as FN by (intros ->; rewrite str_eqb_refl in SE; discriminate). destruct SKIP as (_ & SK); [intros q H; congruence|]. rewrite SK. destruct IH as (I1 & I2). split; [exact I1|]. rewrite I2. split; intros (k & K1 & K2); exists k; split; auto; apply SK; auto. }
    apply str_eqb_eq in SE. clear EF0. subst f. clear f0 f1.
    assert (forall k, listed_in (y :: ls) name k <-> exists x v rest, fields y = name :: x :: v :: rest /\ numeral k v) as LC.
    { intros k. rewrite listed_cons. split; [intros [H|(NB & _)]; auto; destruct (NB r EF)|auto]. }
    assert (forall X, (forall k, ~ exists x v rest, fields y = name :: x :: v :: rest /\ numeral k v) -> X = SId (-1) ->
      (X = SId n /\ n <> -1 <-> listed_in (y :: ls) name n /\ n < 2147483648) /\ (X = SThrow <-> exists k, listed_in (y :: ls) name k /\ 2147483648 <= k)) as NONE.
    { intros X NL ->. split; [split; [intros (H & N); injection H as <-; contradiction|intros (L & _); apply LC in L; destruct (NL _ L)]|split; [discriminate|intros (k & L & _); apply LC in L; destruct (NL _ L)]]. }
    destruct r as [|x r]; [cbn [filter]; apply NONE; auto; intros k (? & ? & ? & H & _); rewrite EF in H; discriminate|].
    assert (x <> []) as NX by (apply RY; rewrite EF; right; left; reflexivity). cbn [filter]. destruct x as [|x0 x1]; [contradiction|]. remember (x0 :: x1) as x eqn:EX.
    destruct r as [|v r]; [cbn [filter]; apply NONE; auto; intros k (? & ? & ? & H & _); rewrite EF in H; discriminate|].
    assert (v <> []) as NV by (apply RY; rewrite EF; right; right; left; reflexivity). cbn [filter]. destruct v as [|v0 v1]; [contradiction|]. remember (v0 :: v1) as v eqn:EV.
    assert (forall k, listed_in (y :: ls) name k <-> numeral k v) as LV.
    { intros k. rewrite LC. split; [intros (x' & v' & rest & H & N); rewrite EF in H; congruence|intros N; exists x, v, r; auto]. }
    destruct (just_numbers v) eqn:J.
    + apply numbers_dec in J. destruct J as (_ & J). unfold cast32. cbv zeta. rewrite cast_value. pose proof (dec_pos v J) as DP. split.
      * destruct (dec_value v <? 2147483648) eqn:L; rewrite LV; unfold numeral; split.
        -- intros (H & _). injection H as <-. repeat split; auto. lia. -- intros ((_ & _ & <-) & _). split; auto. lia.
        -- intros (H & _). discriminate. -- intros ((_ & _ & E) & LT). lia.
      * destruct (dec_value v <? 2147483648) eqn:L; split; try discriminate; auto.
        -- intros (k & K & LK). apply LV in K. destruct K as (_ & _ & K). lia.
        -- intros _. exists (dec_value v). split; [apply LV; repeat split; auto|lia].
    + apply NONE; auto. intros k K. apply LC, LV in K. destruct K as (K1 & K2 & _). assert (just_numbers v = true) by (apply numbers_dec; auto). congruence.
Qed.
Lemma listed_lines file name n : name <> [] -> listed file name n <-> listed_in (getlines [] file) name n.
Proof.
  intros NN. unfold listed. fold (listed_in (lines file) name n). unfold lines. destruct (split_cons 10 file) as (h & t & E). rewrite (getlines_lines file [] h t E), E. cbn [app].
  pose proof (app_removelast_last (l := h :: t) [] ltac:(discriminate)) as AL. destruct (last (h :: t) []) as [|x0 x1] eqn:L; [|rewrite <- AL; reflexivity].
  rewrite app_nil_r. rewrite AL at 1. set (ls := removelast (h :: t)). clearbody ls. clear - NN. induction ls as [|y ls IH].
  - cbn [app]. rewrite listed_cons. split; [intros [(x & v & rest & F & _)|(_ & H)]; [vm_compute in F; discriminate|exact H]|]. intros (b & l & a & x & v & rest & H & _). destruct b; discriminate.
  - cbn [app]. rewrite !listed_cons, IH. reflexivity.
Qed.

(** C118. A name that is no number is found in a file with regular lines exactly when the file lists it, with the id the file has for it; ids from 2^31 throw. *)
Theorem C118_found_partial name file n : regular file -> just_numbers name = false -> name <> [] ->
  (find_system_id name (Some file) = SId n /\ n <> -1 <-> listed file name n /\ n < 2147483648)
  /\ (find_system_id name (Some file) = SThrow <-> exists k, listed file name k /\ 2147483648 <= k).
Proof.
  intros REG J NN. unfold find_system_id. rewrite J. destruct (find_listed name (getlines [] file) NN) with (n := n) as (A & B).
  - intros l I. apply REG. unfold lines. destruct (split_cons 10 file) as (h & t & E). rewrite (getlines_lines file [] h t E) in I. rewrite E. cbn [app] in I.
    rewrite (app_removelast_last (l := h :: t) []) by discriminate. apply in_app_or in I. apply in_or_app. destruct I as [I|I]; auto. right. destruct (last (h :: t) []); [destruct I|exact I].
  - rewrite (listed_lines file name n NN). split; [exact A|]. rewrite B. split; intros (k & K1 & K2); exists k; split; auto; apply (listed_lines file name k NN); auto.
Qed.
Print Assumptions C118_found_partial.
Example C118_case : let file := bs "root:x:0:0" ++ [10] ++ bs "bob:x:1000:100" ++ [10] in regular file /\ find_system_id (bs "bob") (Some file) = SId 1000.
Proof.
  cbv zeta. split; [|vm_compute; reflexivity]. intros l I. vm_compute in I. destruct I as [<-|[<-|[<-|[]]]]; [right|right|left; reflexivity]; intros f F; vm_compute in F; repeat (destruct F as [<-|F]; [discriminate|]); destruct F.
Qed.
(** A number is taken as it is. *)
Theorem C118_number name file n : numeral n name -> find_system_id name file = if n <? 2147483648 then SId n else SThrow.
Proof. intros (A & B & C). unfold find_system_id. assert (just_numbers name = true) as -> by (apply numbers_dec; auto). unfold cast32. rewrite cast_value, C. reflexivity. Qed.
Print Assumptions C118_number.
(** With an empty password (as in old files) the id of the group is taken. *)
Theorem C118_found_refuted : ~ forall name file n, just_numbers name = false -> find_system_id name (Some file) = SId n -> n <> -1 -> listed file name n.
Proof.
  intros H. specialize (H (bs "bob") (bs "bob::1000:0:") 0 eq_refl eq_refl ltac:(lia)). destruct H as (b & l & a & x & v & rest & E & F & N & _).
  assert (lines (bs "bob::1000:0:") = [bs "bob::1000:0:"]) as E' by reflexivity. rewrite E' in E. destruct b as [|? [|]]; try discriminate. cbn [app] in E. assert (l = bs "bob::1000:0:") as -> by congruence.
  assert (fields (bs "bob::1000:0:") = [bs "bob"; []; bs "1000"; bs "0"; []]) as F' by reflexivity. rewrite F' in F. assert (v = bs "1000") as -> by congruence. destruct N as (_ & _ & N). vm_compute in N. discriminate.
Qed.
Print Assumptions C118_found_refuted.
(** Ids from 2^31 are ids (they have 32 bits), but are answered with an exception. *)
Theorem C118_large_refuted : exists file, regular file /\ listed file (bs "bob") 3000000000 /\ find_system_id (bs "bob") (Some file) = SThrow.
Proof.
  exists (bs "bob:x:3000000000:1"). assert (regular (bs "bob:x:3000000000:1")) as R.
  { intros l I. vm_compute in I. destruct I as [<-|[]]. right. intros f F; vm_compute in F; repeat (destruct F as [<-|F]; [discriminate|]); destruct F. }
  split; auto. split; [|reflexivity]. exists [], (bs "bob:x:3000000000:1"), [], (bs "x"), (bs "3000000000"), [bs "1"]. split; [reflexivity|]. split; [reflexivity|].
  split; [|intros l' []]. split; [discriminate|]. split; [|reflexivity]. apply numbers_dec. reflexivity.
Qed.
Print Assumptions C118_large_refuted.

(* ------------------------------------------------------------------ C119 *)

(** C119. A server that was always stopped before, or whose starts all went well, starts when the system lets it. After a start for which the system refused the address, or to
    listen, no start succeeds any more, whatever is called and whatever the system says. *)
Definition started_well (l : list top) : Prop := forall a, In (TStart a) l -> a = AllWell \/ a = NoSocket.
Theorem C119_starts_partial l : started_well l -> fst (t_start (t_run t_init l) AllWell) = true /\ t_listening (snd (t_start (t_run t_init l) AllWell)) = true.
Proof.
  intros W. assert (t_listening (t_run t_init l) = t_open (t_run t_init l)) as E.
  { assert (t_listening t_init = t_open t_init) as E0 by reflexivity. revert E0. generalize t_init as t. induction l as [|x l IH]; intros t E0; auto. cbn [t_run].
    assert (started_well l) as W' by (intros a I; apply W; right; auto). destruct x as [a|]; apply IH; auto.
    - unfold t_start. destruct (t_listening t) eqn:L; cbn [snd]; [congruence|]. rewrite <- E0. destruct (W a (or_introl eq_refl)) as [->| ->]; cbn; congruence.
    - unfold t_stop. destruct (t_listening t) eqn:L; cbn; congruence. }
  unfold t_start. rewrite <- E. destruct (t_listening (t_run t_init l)) eqn:L; auto.
Qed.
Print Assumptions C119_starts_partial.
Example C119_case : started_well [TStart AllWell; TStop; TStart NoSocket] /\ t_run t_init [TStart AllWell; TStop; TStart NoSocket] = t_init.
Proof. split; [intros a [H|[H|[H|[]]]]; try discriminate; injection H as <-; auto|reflexivity]. Qed.
Theorem C119_never_partial l a later ans : t_listening (t_run t_init l) = false -> a = NoBind \/ a = NoListen \/ a = NoOption ->
  let t := t_run t_init (l ++ [TStart a] ++ later) in fst (t_start t ans) = false /\ t_listening t = false.
Proof.
  intros NL A. cbv zeta. assert (forall x y t, t_run t (x ++ y) = t_run (t_run t x) y) as RA.
  { induction x as [|z x IH]; intros y t; auto. cbn [app t_run]. destruct z; apply IH. }
  rewrite !RA. cbn [t_run]. assert (snd (t_start (t_run t_init l) a) = mkst false true) as ->.
  { unfold t_start. rewrite NL. destruct (t_open (t_run t_init l)) eqn:O; cbn [snd]; [destruct (t_run t_init l); cbn in *; congruence|]. destruct A as [->|[->| ->]]; reflexivity. }
  assert (t_run (mkst false true) later = mkst false true) as ->; [|split; reflexivity]. induction later as [|x later IH]; auto. destruct x; exact IH.
Qed.
Print Assumptions C119_never_partial.
Example C119_never_case : t_listening (t_run t_init [TStart AllWell; TStop]) = false.
Proof. reflexivity. Qed.
(** The port is in use, the start fails; later the port is free and the start fails all the same, with and without a stop in between. *)
Theorem C119_again_refuted : ~ forall l, fst (t_start (t_run t_init l) AllWell) = true.
Proof. intros H. specialize (H [TStart NoBind; TStop]). discriminate. Qed.
Print Assumptions C119_again_refuted.
