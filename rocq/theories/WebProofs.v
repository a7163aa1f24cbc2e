(** Proofs about servers with web services. *)
From Coq Require Import String ZArith List Bool Lia PeanoNat.
From Verif Require Import Base SMap HttpModel ServerModel ServerSpec ServerProofs Runs Threads WebModel WebSpec.
Import ListNotations.
Local Open Scope nat_scope.

(* ------------------------------------------------------------------ lists of events *)

Lemma split_app {A} : forall (u v a b : list A) x, u ++ v = a ++ x :: b ->
  (exists c, u = a ++ x :: c /\ b = c ++ v) \/ (exists c, a = u ++ c /\ v = c ++ x :: b).
Proof.
  induction u as [|y u IH]; intros v a b x H; cbn in H.
  - right. exists a. auto.
  - destruct a as [|z a]; cbn in H.
    + injection H as -> <-. left. exists u. auto.
    + injection H as -> H. apply IH in H as [(c & -> & ->)|(c & -> & ->)]; [left|right]; exists c; auto.
Qed.
Lemma dies_app tr e : dies_once tr -> dies_once e -> (forall o x, In (EDestroyed o) tr -> In x e -> about o x = false) -> dies_once (tr ++ e).
Proof.
  intros H1 H2 H3 a o b x E I. apply split_app in E as [(c & -> & ->)|(c & -> & ->)].
  - apply in_app_or in I as [I|I]; [eapply H1; eauto|]. apply H3; auto. apply in_or_app. right. left. reflexivity.
  - eapply H2; eauto.
Qed.
Lemma dies_none e : (forall o, ~ In (EDestroyed o) e) -> dies_once e.
Proof. intros H a o b x -> _. destruct (H o). apply in_or_app. right. left. reflexivity. Qed.
Lemma dies_map l : NoDup l -> dies_once (map EDestroyed l).
Proof.
  intros N a o b x E I. assert (exists l1 l2, l = l1 ++ o :: l2 /\ b = map EDestroyed l2) as (l1 & l2 & -> & ->).
  { revert a E. clear. induction l as [|y l IH]; intros [|z a] E; cbn in E; try discriminate.
    - injection E as E1 E2. subst y b. exists [], l. auto.
    - injection E as E1 E. apply IH in E as (l1 & l2 & -> & ->). exists (y :: l1), l2. auto. }
  apply in_map_iff in I as (q & <- & I). cbn. apply Nat.eqb_neq. intros ->. apply NoDup_remove_2 in N. apply N. apply in_or_app. auto.
Qed.
Lemma call_all_in f ev l e b : call_all f ev l = (e, b) -> forall x, In x e -> exists o, In o l /\ x = ev o.
Proof.
  revert e b. induction l as [|o l IH]; intros e b E x I; cbn in E.
  - injection E as <- <-. contradiction.
  - destruct (f o).
    + injection E as <- <-. destruct I as [<-|[]]. exists o. split; [left|]; auto.
    + destruct (call_all f ev l) as [e' b'] eqn:C. injection E as <- <-. destruct I as [<-|I]; [exists o; split; [left|]; auto|].
      destruct (IH _ _ eq_refl _ I) as (q & I1 & I2). exists q. split; [right|]; auto.
Qed.
Lemma call_all_well f ev l : (forall o, f o = false) -> call_all f ev l = (map ev l, true).
Proof. intros F. induction l as [|o l IH]; cbn; auto. rewrite F, IH. reflexivity. Qed.

(* ------------------------------------------------------------------ the values of a map *)

Definition vals (m : smap nat) : list nat := map snd m.
Lemma vals_insert m k v o : In o (vals (sm_insert m k v)) -> o = v \/ In o (vals m).
Proof. unfold vals. intros H. apply in_map_iff in H as (e & <- & H). apply sm_insert_in in H as [->|H]; auto. right. apply in_map. auto. Qed.
Lemma vals_insert_old m k v o : In o (vals m) -> In o (vals (sm_insert m k v)).
Proof.
  unfold vals. induction m as [|e m IH]; cbn [sm_insert map]; [contradiction|]. intros H. destruct (lex_ltb k (fst e)); [right; exact H|].
  destruct (str_eqb (fst e) k); [exact H|]. cbn [map]. destruct H as [H|H]; [left; auto|right; auto].
Qed.
Lemma vals_insert_nodup m k v : NoDup (vals m) -> ~ In v (vals m) -> NoDup (vals (sm_insert m k v)).
Proof.
  unfold vals. induction m as [|e m IH]; cbn [sm_insert map]; [intros _ _; repeat constructor; auto|]. intros N I.
  destruct (lex_ltb k (fst e)); [cbn [map]; constructor; auto|]. destruct (str_eqb (fst e) k); [exact N|]. cbn [map]. inversion_clear N as [|? ? N1 N2]. constructor.
  - intros J. change (In (snd e) (vals (sm_insert m k v))) in J. apply vals_insert in J as [J|J]; [|contradiction]. apply I. left. exact J.
  - apply IH; auto. intros J. apply I. right. exact J.
Qed.
Lemma vals_erase m k o : In o (vals (sm_erase m k)) -> In o (vals m).
Proof. unfold vals, sm_erase. intros H. apply in_map_iff in H as (e & <- & H). apply filter_In in H as [H _]. apply in_map. exact H. Qed.
Lemma find_vals m k o : sm_find m k = Some o -> In o (vals m).
Proof. unfold sm_find, vals. destruct (find _ m) as [e|] eqn:F; [|discriminate]. intros H. injection H as <-. apply find_some in F as [F _]. apply in_map. exact F. Qed.
Lemma handler_entry t p o : find_request_handler t p = Some o -> exists r, In (r, o) (t_resources t) /\ entry_matches r p = true.
Proof.
  unfold find_request_handler. destruct (t_resources t) as [|e0 m] eqn:T; [discriminate|].
  destruct (find _ (sm_down (e0 :: m) p)) as [[r x]|] eqn:F; [|discriminate]. intros H. injection H as <-.
  apply find_some in F as [F1 F2]. exists r. split; auto. unfold sm_down in F1. apply in_rev in F1. revert F1. generalize (e0 :: m). clear.
  intros l. induction l as [|e l IH]; cbn [sm_upto]; [contradiction|]. destruct (lex_ltb p (fst e)); [contradiction|]. intros [->|H]; [left|right]; auto.
Qed.
Lemma entry_vals m r o : In (r, o) m -> In o (vals m).
Proof. intros H. unfold vals. change o with (snd (r, o)). apply in_map. exact H. Qed.

(* ------------------------------------------------------------------ objects *)

Lemma set_resource_length l o r : length (set_resource l o r) = length l.
Proof. unfold set_resource. destruct (nth_error l o); auto. apply set_nth_length. Qed.
Lemma set_resource_service l o r p x : nth_error (set_resource l o r) p = Some x -> exists y, nth_error l p = Some y /\ o_service y = o_service x.
Proof.
  unfold set_resource. destruct (nth_error l o) as [z|] eqn:E; [|eauto]. intros H. apply set_nth_cases in H as [(-> & -> & _)|(_ & H)]; [exists z; auto|eauto].
Qed.

(* ------------------------------------------------------------------ destroyed once *)

Definition res_vals (s : web) : list nat := vals (t_resources (w_tables s)).
Record life (s : web) (tr : list wev) : Prop := {
  lf_nodup : NoDup (vals (w_services s));
  lf_bound : forall o, In o (vals (w_services s)) -> o < length (w_objs s);
  lf_rbound : forall o, In o (res_vals s) -> o < length (w_objs s);
  lf_dead : forall o, In (EDestroyed o) tr -> o < length (w_objs s) /\ ~ In o (vals (w_services s)) /\ (~ In o (res_vals s));
  lf_once : dies_once tr }.

Lemma life_init : life w_init [].
Proof. split; cbn; try (intros; contradiction). - constructor. - apply dies_none. intros o []. Qed.
(** steps without destruction whose events are about services of the tables *)
Lemma life_keep s tr s' e : life s tr ->
  NoDup (vals (w_services s')) -> length (w_objs s) <= length (w_objs s') ->
  (forall o, In o (vals (w_services s')) -> In o (vals (w_services s)) \/ (length (w_objs s) <= o /\ o < length (w_objs s'))) ->
  (forall o, In o (res_vals s') -> In o (res_vals s) \/ (length (w_objs s) <= o /\ o < length (w_objs s'))) ->
  (forall o, ~ In (EDestroyed o) e) -> (forall o x, In x e -> about o x = true -> In o (vals (w_services s)) \/ In o (res_vals s)) ->
  life s' (tr ++ e).
Proof.
  intros L N LE HS HR ND AB. split; auto.
  - intros o H. apply HS in H as [H|H]; [|lia]. pose proof (lf_bound _ _ L o H). lia.
  - intros o H. apply HR in H as [H|H]; [|lia]. pose proof (lf_rbound _ _ L o H). lia.
  - intros o H. apply in_app_or in H as [H|H]; [|destruct (ND _ H)]. destruct (lf_dead _ _ L o H) as (D1 & D2 & D3). split; [lia|]. split.
    + intros J. apply HS in J as [J|J]; [auto|lia].
    + intros J. apply HR in J as [J|J]; [auto|lia].
  - apply dies_app; [apply (lf_once _ _ L) | apply dies_none; exact ND|]. intros o x H I. destruct (lf_dead _ _ L o H) as (D1 & D2 & D3).
    destruct (about o x) eqn:B; auto. destruct (AB o x I B); contradiction.
Qed.
Lemma res_add s r o p : In p (vals (t_resources (t_step (w_tables s) (TAdd r o)))) -> p = o \/ In p (res_vals s).
Proof. cbn. apply vals_insert. Qed.
Lemma life_bind s tr r objs e : life s tr -> length objs = S (length (w_objs s)) -> (forall o x, In x e -> about o x = false) ->
  forall s', w_services s' = sm_insert (w_services s) (strip_slash r) (length (w_objs s)) ->
  w_tables s' = t_step (w_tables s) (TAdd (strip_slash r) (length (w_objs s))) -> w_objs s' = objs -> life s' (tr ++ e).
Proof.
  intros L LO AB s' E1 E2 E3. apply (life_keep s); auto; try (rewrite E3; lia).
  - rewrite E1. apply vals_insert_nodup; [apply (lf_nodup _ _ L)|]. intros J. pose proof (lf_bound _ _ L _ J). lia.
  - intros o H. rewrite E1 in H. apply vals_insert in H as [->|H]; auto. right. rewrite E3. lia.
  - intros o H. unfold res_vals in H. rewrite E2 in H. apply res_add in H as [->|H]; auto. right. rewrite E3. lia.
  - intros o I. pose proof (AB o _ I) as X. cbn in X. rewrite Nat.eqb_refl in X. discriminate.
  - intros o x I B. rewrite (AB o x I) in B. discriminate.
Qed.
Lemma life_stop s tr f s1 e b : life s tr -> w_stop s f = Some (s1, e, b) -> life s1 (tr ++ e) /\ w_services s1 = w_services s.
Proof.
  intros L E. unfold w_stop in E. destruct (w_listening s).
  - destruct (all_finished s); [|discriminate]. destruct (call_all f EStop _) as [e0 w] eqn:C. injection E as <- <- <-. split; [|reflexivity].
    assert (HI : forall x, In x (if w then e0 else e0 ++ [EThrow]) -> In x e0 \/ x = EThrow).
    { intros x I. destruct w; auto. apply in_app_or in I as [I|[<-|[]]]; auto. }
    apply (life_keep s); auto; try (apply (lf_nodup _ _ L)).
    + intros o I. apply HI in I as [I|I]; [|discriminate]. apply (call_all_in _ _ _ _ _ C) in I as (q & _ & I). discriminate.
    + intros o x I B. apply HI in I as [I| ->]; [|discriminate]. apply (call_all_in _ _ _ _ _ C) in I as (q & I & ->). cbn in B. apply Nat.eqb_eq in B as ->. left. exact I.
  - injection E as <- <- <-. rewrite app_nil_r. auto.
Qed.
Lemma life_step s tr l s' e : gives_once l -> life s tr -> w_step s l = Some (s', e) -> life s' (tr ++ e).
Proof.
  intros G L E. destruct l; cbn [w_step] in E.
  - injection E as <- <-. eapply (life_bind s tr r (w_objs s ++ [mko true (strip_slash r)])); eauto; cbn; [rewrite app_length; cbn; lia|].
    intros o x [<-|[]]. reflexivity.
  - destruct G.
  - destruct (sm_find (w_services s) (strip_slash r)); [|destruct opens].
    + injection E as <- <-. apply (life_keep s); auto; try (apply (lf_nodup _ _ L)); intros o; [intros [X|[]]; discriminate|]. intros x [<-|[]] B. discriminate.
    + injection E as <- <-. eapply (life_bind s tr r (w_objs s ++ [mko true []])); eauto; cbn; [rewrite app_length; cbn; lia|].
      intros o x [<-|[]]. reflexivity.
    + injection E as <- <-. apply (life_keep s); auto; try (apply (lf_nodup _ _ L)); intros o; [intros [X|[]]; discriminate|]. intros x [<-|[]] B. discriminate.
  - destruct (find _ (w_loading s)) as [[q r]|]; [|discriminate]. injection E as <- <-. apply (life_keep s); auto; cbn [w_objs w_services]; rewrite ?set_resource_length; auto.
    + apply (lf_nodup _ _ L).
    + intros o' x [].
  - injection E as <- <-. apply (life_keep s); auto; cbn [w_objs w_services set_tables set_objs]; rewrite ?app_length; cbn [length]; try lia.
    + apply (lf_nodup _ _ L).
    + intros o H. unfold res_vals in H. cbn [w_tables set_tables] in H. apply res_add in H as [->|H]; auto. right. lia.
    + intros o x [].
  - injection E as <- <-. apply (life_keep s); auto.
    + apply (lf_nodup _ _ L).
    + intros o H. unfold res_vals in H. cbn in H. apply vals_erase in H. auto.
    + intros o x [].
  - injection E as <- <-. apply (life_keep s); auto. + apply (lf_nodup _ _ L). + intros o x [].
  - destruct (sm_find (w_services s) (strip_slash r)) as [q|] eqn:F.
    + injection E as <- <-. apply (life_keep s); auto.
      * apply (lf_nodup _ _ L).
      * intros o [X|X]; [discriminate|]. destruct fails; [destruct X as [X|[]]; discriminate|contradiction].
      * intros o x [<-|X] B; [|destruct fails; [destruct X as [<-|[]]; discriminate|contradiction]]. cbn in B. apply Nat.eqb_eq in B as ->. left. eapply find_vals; eauto.
    + injection E as <- <-. apply (life_keep s); auto; try (apply (lf_nodup _ _ L)); intros o; [intros [X|[]]; discriminate|]. intros x [<-|[]] B. discriminate.
  - unfold w_start in E. destruct (w_listening s).
    + injection E as <- <-. rewrite app_nil_r. exact L.
    + destruct (call_all fails EStart _) as [e0 w] eqn:C.
      assert (HI : forall x, In x e -> In x e0 \/ x = EThrow).
      { intros x I. destruct (w && binds); injection E as <- <-; auto. apply in_app_or in I as [I|[<-|[]]]; auto. }
      assert (S1 : w_services s' = w_services s) by (destruct (w && binds); injection E as <- <-; reflexivity).
      assert (S2 : w_objs s' = w_objs s) by (destruct (w && binds); injection E as <- <-; reflexivity).
      assert (S3 : res_vals s' = res_vals s) by (destruct (w && binds); injection E as <- <-; reflexivity).
      apply (life_keep s); rewrite ?S1, ?S2, ?S3; auto.
      * apply (lf_nodup _ _ L).
      * intros o I. apply HI in I as [I|I]; [|discriminate]. apply (call_all_in _ _ _ _ _ C) in I as (q & _ & I). discriminate.
      * intros o x I B. apply HI in I as [I| ->]; [|discriminate]. apply (call_all_in _ _ _ _ _ C) in I as (q & I & ->). cbn in B. apply Nat.eqb_eq in B as ->. left. exact I.
  - destruct (w_stop s fails) as [[[s1 e1] b]|] eqn:W; [|discriminate]. injection E as <- <-. apply (life_stop _ _ _ _ _ _ L W).
  - unfold w_clear in E. destruct (w_stop s fails) as [[[s1 e1] b]|] eqn:W; [|discriminate]. destruct (life_stop _ _ _ _ _ _ L W) as (L1 & SE).
    destruct b; injection E as <- <-; [|exact L1]. rewrite app_assoc. split; cbn [w_services w_objs vals map].
    + constructor.
    + intros o [].
    + intros o [].
    + intros o H. apply in_app_or in H as [H|H].
      * destruct (lf_dead _ _ L1 o H) as (D & _). auto.
      * apply in_map_iff in H as (q & X & H). injection X as ->. pose proof (lf_bound _ _ L1 o H). auto.
    + apply dies_app; [apply (lf_once _ _ L1) | apply dies_map; apply (lf_nodup _ _ L1) |]. intros o x H I. apply in_map_iff in I as (q & <- & I). cbn.
      apply Nat.eqb_neq. intros ->. destruct (lf_dead _ _ L1 q H) as (_ & D & _). contradiction.
  - unfold w_request in E. destruct (w_listening s); [|discriminate]. destruct (fst (follow _ _ _ _)) as [res|].
    + destruct (find_request_handler (w_tables s) res) as [q|] eqn:F.
      * destruct (nth_error (w_objs s) q) as [x|] eqn:NE; [|discriminate]. injection E as <- <-. apply (life_keep s); auto.
        -- apply (lf_nodup _ _ L).
        -- intros o [X|[]]. destruct (o_service x); discriminate.
        -- intros o y [<-|[]] B. destruct (o_service x); [|discriminate]. cbn in B. apply Nat.eqb_eq in B as ->. right. apply handler_entry in F as (r & F & _). eapply entry_vals; eauto.
      * injection E as <- <-. apply (life_keep s); auto; try (apply (lf_nodup _ _ L)); intros o; [intros [X|[]]; discriminate|]. intros x [<-|[]] B. discriminate.
    + injection E as <- <-. apply (life_keep s); auto; try (apply (lf_nodup _ _ L)); intros o; [intros [X|[]]; discriminate|]. intros x [<-|[]] B. discriminate.
  - destruct (nth_error (w_calls s) k) as [[q|q|q]|]; try discriminate. injection E as <- <-. apply (life_keep s); auto; try (apply (lf_nodup _ _ L)). intros o x [].
  - destruct (nth_error (w_calls s) k) as [[q|q|q]|]; try discriminate; injection E as <- <-; apply (life_keep s); auto; try (apply (lf_nodup _ _ L));
      intros o; try (intros [X|[]]; discriminate); intros x [<-|[]] B; discriminate.
Qed.
Lemma life_run ls s tr : run w_step w_init ls = Some (s, tr) -> (forall l, In l ls -> gives_once l) -> life s tr.
Proof.
  revert s tr. induction ls as [|l ls IH] using rev_ind; intros s tr R G.
  - injection R as <- <-. apply life_init.
  - apply run_snoc in R as (s1 & t1 & e & R & D & ->). eapply life_step; eauto.
    + apply G. apply in_or_app. right. left. reflexivity.
    + apply IH; auto. intros l' I. apply G. apply in_or_app. auto.
Qed.

(* ------------------------------------------------------------------ destroyed while in use *)

Definition call_ok (c : option wcall) (o : nat) (fin ret : Prop) : Prop :=
  match c with Some (CRuns p) => p = o | Some (CFinished p) => p = o /\ fin | Some (CReturned p) => p = o /\ (ret \/ fin) | None => False end.
Record use (ls : list wop) (s : web) (tr : list wev) : Prop := {
  us_call : forall a k o res b, tr = a ++ EHandled k o res :: b -> call_ok (nth_error (w_calls s) k) o (In (WFinish k) ls) (In (EReturned k) b);
  us_idle : w_listening s = false -> all_finished s = true;
  us_ok : forall a k o res b c, tr = a ++ EHandled k o res :: b ++ EDestroyed o :: c -> In (EReturned k) b \/ In (WFinish k) ls }.
Lemma call_ok_mono c o (f r f' r' : Prop) : call_ok c o f r -> (f -> f') -> (r -> r') -> call_ok c o f' r'.
Proof. destruct c as [[p|p|p]|]; cbn; tauto. Qed.
(** steps that neither call a service nor destroy one *)
Lemma use_keep ls l s tr s' e : use ls s tr -> (forall k o res, ~ In (EHandled k o res) e) -> (forall o, ~ In (EDestroyed o) e) ->
  (forall k o (f r : Prop), call_ok (nth_error (w_calls s) k) o f r -> call_ok (nth_error (w_calls s') k) o (f \/ l = WFinish k) (r \/ In (EReturned k) e)) ->
  (w_listening s' = false -> all_finished s' = true) -> use (ls ++ [l]) s' (tr ++ e).
Proof.
  intros U NH ND HC HI. split; auto.
  - intros a k o res b E. apply split_app in E as [(c & -> & ->)|(c & -> & ->)].
    + pose proof (HC k o _ _ (us_call _ _ _ U _ _ _ _ _ eq_refl)) as X. eapply call_ok_mono; [exact X| |].
      * intros [F|F]; apply in_or_app; [left; exact F|right; left; exact F].
      * intros [F|F]; apply in_or_app; auto.
    + destruct (NH k o res). apply in_or_app. right. left. reflexivity.
  - intros a k o res b c E. apply split_app in E as [(d & E1 & E2)|(d & _ & E2)].
    + symmetry in E2. apply split_app in E2 as [(d1 & E3 & E4)|(d1 & E3 & E4)].
      * subst d. destruct (us_ok _ _ _ U a k o res b d1) as [X|X]; auto. right. apply in_or_app. auto.
      * destruct (ND o). rewrite E4. apply in_or_app. right. left. reflexivity.
    + destruct (NH k o res). rewrite E2. apply in_or_app. right. left. reflexivity.
Qed.
Lemma all_finished_nth s k o : all_finished s = true -> nth_error (w_calls s) k = Some (CRuns o) -> False.
Proof. unfold all_finished. intros F E. apply nth_error_In in E. rewrite forallb_forall in F. apply F in E. discriminate. Qed.
Lemma all_finished_snoc_set l k c : forallb (fun c => match c with CRuns _ => false | _ => true end) l = true -> (match c with CRuns _ => False | _ => True end) ->
  forallb (fun c => match c with CRuns _ => false | _ => true end) (set_nth k c l) = true.
Proof. intros H C. revert k. induction l as [|x l IH]; intros [|k]; cbn in *; auto; apply andb_prop in H as [H1 H2]; [destruct c; [contradiction|auto|auto]|]. rewrite H1. cbn. auto. Qed.
Lemma stop_events s f s1 e b : w_stop s f = Some (s1, e, b) -> (forall k o res, ~ In (EHandled k o res) e) /\ (forall o, ~ In (EDestroyed o) e)
  /\ w_calls s1 = w_calls s /\ w_services s1 = w_services s /\ w_listening s1 = false /\ (w_listening s = true -> all_finished s = true).
Proof.
  unfold w_stop. intros E. destruct (w_listening s) eqn:LI.
  - destruct (all_finished s); [|discriminate]. destruct (call_all f EStop _) as [e0 w] eqn:C. injection E as <- <- <-.
    assert (HI : forall x, In x (if w then e0 else e0 ++ [EThrow]) -> (exists o, x = EStop o) \/ x = EThrow).
    { intros x I. assert (In x e0 \/ x = EThrow) as [I'|I'] by (destruct w; auto; apply in_app_or in I as [I|[<-|[]]]; auto); auto.
      apply (call_all_in _ _ _ _ _ C) in I' as (q & _ & ->). eauto. }
    split; [|split; [|auto]]; intros; intros I; apply HI in I as [[q I]|I]; discriminate.
  - injection E as <- <- <-. split; [|split]; [intros ? ? ? [] |intros ? []|auto]. repeat split; auto. discriminate.
Qed.
Lemma call_same c o (f r f' r' : Prop) : call_ok c o f r -> call_ok c o (f \/ f') (r \/ r').
Proof. destruct c as [[p|p|p]|]; cbn; tauto. Qed.
Ltac plain U := eapply use_keep; [exact U| | | intros ? ? ? ?; apply call_same | apply (us_idle _ _ _ U)]; cbn; intuition discriminate.
Lemma use_step ls s tr l s' e : use ls s tr -> w_step s l = Some (s', e) -> use (ls ++ [l]) s' (tr ++ e).
Proof.
  intros U E. destruct l as [r|r q|r opens|q|r|r|ra rb|r n v fails|fails binds|fails|fails|p|k|k]; cbn [w_step] in E.
  - injection E as <- <-. plain U.
  - destruct (nth_error (w_objs s) q) as [x|]; [|discriminate]. destruct (o_service x); [|discriminate]. injection E as <- <-. plain U.
  - destruct (sm_find (w_services s) (strip_slash r)); [|destruct opens]; injection E as <- <-; plain U.
  - destruct (find _ (w_loading s)) as [[q' r]|]; [|discriminate]. injection E as <- <-. plain U.
  - injection E as <- <-. plain U.
  - injection E as <- <-. plain U.
  - injection E as <- <-. plain U.
  - destruct (sm_find (w_services s) (strip_slash r)); [destruct fails|]; injection E as <- <-; plain U.
  - unfold w_start in E. destruct (w_listening s) eqn:LI.
    + injection E as <- <-. eapply use_keep; [exact U| | | intros ? ? ? ?; apply call_same |]; cbn; try tauto. congruence.
    + destruct (call_all fails EStart _) as [e0 w] eqn:C.
      assert (HI : forall x, In x e -> (exists o, x = EStart o) \/ x = EThrow).
      { intros x I. assert (In x e0 \/ x = EThrow) as [I'|I'] by (destruct (w && binds); injection E as <- <-; auto; apply in_app_or in I as [I|[<-|[]]]; auto); auto.
        apply (call_all_in _ _ _ _ _ C) in I' as (q & _ & ->). eauto. }
      assert (SC : w_calls s' = w_calls s) by (destruct (w && binds); injection E as <- <-; reflexivity).
      assert (SA : all_finished s' = all_finished s) by (unfold all_finished; rewrite SC; reflexivity).
      eapply use_keep; [exact U| | | |].
      * intros k o res I. apply HI in I as [[q I]|I]; discriminate.
      * intros o I. apply HI in I as [[q I]|I]; discriminate.
      * intros k o f r. rewrite SC. apply call_same.
      * intros _. rewrite SA. apply (us_idle _ _ _ U). exact LI.
  - destruct (w_stop s fails) as [[[s1 e1] b]|] eqn:W; [|discriminate]. injection E as <- <-. apply stop_events in W as (W1 & W2 & W3 & W4 & W5 & W6).
    eapply use_keep; [exact U|exact W1|exact W2| |].
    + intros k o f r. rewrite W3. apply call_same.
    + intros _. unfold all_finished. rewrite W3. destruct (w_listening s) eqn:LI; [apply W6; auto|apply (us_idle _ _ _ U); auto].
  - unfold w_clear in E. destruct (w_stop s fails) as [[[s1 e1] b]|] eqn:W; [|discriminate]. apply stop_events in W as (W1 & W2 & W3 & W4 & W5 & W6).
    assert (AF : all_finished s = true) by (destruct (w_listening s) eqn:LI; [apply W6; auto|apply (us_idle _ _ _ U); auto]).
    destruct b.
    + injection E as <- <-. assert (NH : forall k o res, ~ In (EHandled k o res) (e1 ++ map EDestroyed (map snd (w_services s1)))).
      { intros k o res I. apply in_app_or in I as [I|I]; [destruct (W1 _ _ _ I)|]. apply in_map_iff in I as (? & I & _). discriminate. }
      split.
      * intros a k o res b E. apply split_app in E as [(c & -> & ->)|(c & -> & E)].
        -- cbn [w_calls]. rewrite W3. eapply call_ok_mono; [apply (us_call _ _ _ U _ _ _ _ _ eq_refl)| |]; intros F; apply in_or_app; auto.
        -- destruct (NH k o res). rewrite E. apply in_or_app. right. left. reflexivity.
      * intros _. unfold all_finished. cbn [w_calls]. rewrite W3. exact AF.
      * intros a k o res b c E. apply split_app in E as [(d & E1 & E2)|(d & _ & E2)].
        -- symmetry in E2. apply split_app in E2 as [(d1 & E3 & E4)|(d1 & E3 & E4)].
           ++ subst d. destruct (us_ok _ _ _ U a k o res b d1) as [X|X]; auto. right. apply in_or_app. auto.
           ++ subst tr. pose proof (us_call _ _ _ U _ _ _ _ _ eq_refl) as X. destruct (nth_error (w_calls s) k) as [[p|p|p]|] eqn:NE; cbn in X.
              ** destruct (all_finished_nth s k p AF NE).
              ** right. apply in_or_app. tauto.
              ** destruct X as [_ [X|X]]; [left|right; apply in_or_app; auto]. rewrite E3. apply in_or_app. auto.
              ** contradiction.
        -- destruct (NH k o res). rewrite E2. apply in_or_app. right. left. reflexivity.
    + injection E as <- <-. eapply use_keep; [exact U|exact W1|exact W2| |].
      * intros k o f r. rewrite W3. apply call_same.
      * intros _. unfold all_finished. rewrite W3. exact AF.
  - unfold w_request in E. destruct (w_listening s) eqn:LI; [|discriminate].
    destruct (fst (follow _ _ _ _)) as [res|]; [|injection E as <- <-; plain U].
    destruct (find_request_handler (w_tables s) res) as [q|] eqn:F; [|injection E as <- <-; plain U].
    destruct (nth_error (w_objs s) q) as [x|] eqn:NE; [|discriminate]. injection E as <- <-.
    assert (ND : forall o, ~ In (EDestroyed o) [if o_service x then EHandled (length (w_calls s)) q (o_resource x) else ECalled (length (w_calls s)) q])
      by (intros o [I|[]]; destruct (o_service x); discriminate).
    split.
    + intros a k o res0 b E. apply split_app in E as [(c & -> & ->)|(c & -> & E)]; cbn [w_calls set_calls].
      * pose proof (us_call _ _ _ U _ _ _ _ _ eq_refl) as X. destruct (nth_error (w_calls s) k) as [cc|] eqn:NC; [|contradiction].
        rewrite (nth_app_old _ _ _ _ NC). eapply call_ok_mono; [exact X| |]; intros G; apply in_or_app; auto.
      * destruct c as [|y c]; cbn in E; [|injection E as _ E; destruct c; discriminate].
        injection E as E _. destruct (o_service x); [|discriminate]. injection E as <- <- _. rewrite nth_error_app2, Nat.sub_diag by lia. reflexivity.
    + cbn [w_listening set_calls]. congruence.
    + intros a k o res0 b c E. apply split_app in E as [(d & E1 & E2)|(d & _ & E2)].
      * symmetry in E2. apply split_app in E2 as [(d1 & E3 & E4)|(d1 & E3 & E4)].
        -- subst d. destruct (us_ok _ _ _ U a k o res0 b d1) as [X|X]; auto. right. apply in_or_app. auto.
        -- destruct (ND o). rewrite E4. apply in_or_app. right. left. reflexivity.
      * destruct (ND o). rewrite E2. apply in_or_app. right. right. apply in_or_app. right. left. reflexivity.
  - destruct (nth_error (w_calls s) k) as [[q|q|q]|] eqn:NE; try discriminate. injection E as <- <-. eapply use_keep; [exact U|cbn; tauto|cbn; tauto| |].
    + intros k' o f r X. cbn [w_calls set_calls]. destruct (Nat.eq_dec k k') as [<-|N].
      * rewrite set_nth_same by (eapply nth_lt; eauto). rewrite NE in X. cbn in *. auto.
      * rewrite set_nth_other by auto. apply call_same. exact X.
    + cbn [w_listening set_calls]. intros LI. unfold all_finished. cbn [w_calls set_calls]. apply all_finished_snoc_set; cbn; auto. apply (us_idle _ _ _ U LI).
  - assert (exists q, (nth_error (w_calls s) k = Some (CRuns q) \/ nth_error (w_calls s) k = Some (CFinished q))
      /\ s' = set_calls s (set_nth k (CReturned q) (w_calls s)) /\ e = [EReturned k]) as (q & NE & -> & ->)
      by (destruct (nth_error (w_calls s) k) as [[q|q|q]|] eqn:NE; try discriminate; injection E as <- <-; exists q; auto).
    clear E. assert (k < length (w_calls s)) as LK by (destruct NE as [NE|NE]; eapply nth_lt; eauto).
    eapply use_keep; [exact U|cbn; intuition discriminate|cbn; intuition discriminate| |].
    + intros k' o f r X. cbn [w_calls set_calls]. destruct (Nat.eq_dec k k') as [<-|N].
      * rewrite set_nth_same by exact LK. destruct NE as [NE|NE]; rewrite NE in X; cbn in *; tauto.
      * rewrite set_nth_other by auto. apply call_same. exact X.
    + cbn [w_listening set_calls]. intros LI. unfold all_finished. cbn [w_calls set_calls]. apply all_finished_snoc_set; cbn; auto. apply (us_idle _ _ _ U LI).
Qed.
Lemma use_run ls s tr : run w_step w_init ls = Some (s, tr) -> use ls s tr.
Proof.
  revert s tr. induction ls as [|l ls IH] using rev_ind; intros s tr R.
  - injection R as <- <-. split; [intros [|? ?] ? ? ? ? E; discriminate|reflexivity|intros [|? ?] ? ? ? ? ? E; discriminate].
  - apply run_snoc in R as (s1 & t1 & e & R & D & ->). eapply use_step; eauto.
Qed.

(* ------------------------------------------------------------------ start and stop *)

Lemma started_app o a b : started o (a ++ b) = fold_left (fun b e => match e with EStart p => if Nat.eqb o p then true else b | EStop p => if Nat.eqb o p then false else b | _ => b end) b (started o a).
Proof. unfold started. apply fold_left_app. Qed.
Definition mem (o : nat) (l : list nat) : bool := existsb (Nat.eqb o) l.
Lemma mem_in o l : mem o l = true <-> In o l.
Proof. unfold mem. rewrite existsb_exists. split; [intros (x & I & E); apply Nat.eqb_eq in E as ->; auto|]. intros I. exists o. split; auto. apply Nat.eqb_refl. Qed.
Lemma started_starts o tr l : started o (tr ++ map EStart l) = started o tr || mem o l.
Proof.
  rewrite started_app. generalize (started o tr). induction l as [|p l IH]; intros b; cbn; [rewrite orb_false_r; auto|].
  rewrite IH. destruct (Nat.eqb o p); cbn; [rewrite orb_true_r|]; auto.
Qed.
Lemma started_stops o tr l : started o (tr ++ map EStop l) = started o tr && negb (mem o l).
Proof.
  rewrite started_app. generalize (started o tr). induction l as [|p l IH]; intros b; cbn; [rewrite andb_true_r; auto|].
  rewrite IH. destruct (Nat.eqb o p); cbn; [rewrite andb_false_r|]; auto.
Qed.
Definition calm (e : wev) : Prop := match e with EStart _ | EStop _ => False | _ => True end.
Lemma started_calm o tr e : (forall x, In x e -> calm x) -> started o (tr ++ e) = started o tr.
Proof.
  rewrite started_app. generalize (started o tr). induction e as [|x e IH]; intros b H; cbn; auto. rewrite IH by (intros y I; apply H; right; exact I).
  pose proof (H x (or_introl eq_refl)) as X. destruct x; auto; destruct X.
Qed.
Lemma paired_app tr e : paired tr ->
  (forall a o b, e = a ++ EStart o :: b -> started o (tr ++ a) = false) -> (forall a o b, e = a ++ EStop o :: b -> started o (tr ++ a) = true) ->
  (forall a k o res b, e = a ++ EHandled k o res :: b -> started o (tr ++ a) = true) -> paired (tr ++ e).
Proof.
  intros (P1 & P2 & P3) H1 H2 H3. split; [|split].
  - intros a o b E. apply split_app in E as [(c & -> & ->)|(c & -> & E)]; [eapply P1; eauto|eapply H1; eauto].
  - intros a o b E. apply split_app in E as [(c & -> & ->)|(c & -> & E)]; [eapply P2; eauto|eapply H2; eauto].
  - intros a k o res b E. apply split_app in E as [(c & -> & ->)|(c & -> & E)]; [eapply P3; eauto|eapply H3; eauto].
Qed.
Lemma paired_calm tr e : paired tr -> (forall x, In x e -> calm x) -> (forall k o res, ~ In (EHandled k o res) e) -> paired (tr ++ e).
Proof.
  intros P C N. apply paired_app; auto.
  - intros a o b ->. destruct (C (EStart o)). apply in_or_app. right. left. reflexivity.
  - intros a o b ->. destruct (C (EStop o)). apply in_or_app. right. left. reflexivity.
  - intros a k o res b ->. destruct (N k o res). apply in_or_app. right. left. reflexivity.
Qed.
Lemma map_split {A B} (f : A -> B) l : forall a x b, map f l = a ++ x :: b -> exists l1 y l2, l = l1 ++ y :: l2 /\ a = map f l1 /\ x = f y /\ b = map f l2.
Proof.
  induction l as [|z l IH]; intros [|w a] x b E; cbn in E; try discriminate.
  - injection E as E1 E2. exists [], z, l. auto.
  - injection E as E1 E2. apply IH in E2 as (l1 & y & l2 & -> & -> & -> & ->). exists (z :: l1), y, l2. subst w. auto.
Qed.
Lemma nodup_mid (l1 : list nat) y l2 : NoDup (l1 ++ y :: l2) -> mem y l1 = false.
Proof. intros N. destruct (mem y l1) eqn:M; auto. apply mem_in in M. apply NoDup_remove_2 in N. destruct N. apply in_or_app. auto. Qed.
Lemma paired_starts tr l : paired tr -> (forall o, started o tr = false) -> NoDup l -> paired (tr ++ map EStart l).
Proof.
  intros P S N. apply paired_app; auto.
  - intros a o b E. apply map_split in E as (l1 & y & l2 & -> & -> & X & ->). injection X as ->. rewrite started_starts, S. eapply nodup_mid; eauto.
  - intros a o b E. apply map_split in E as (l1 & y & l2 & _ & _ & X & _). discriminate.
  - intros a k o res b E. apply map_split in E as (l1 & y & l2 & _ & _ & X & _). discriminate.
Qed.
Lemma paired_stops tr l : paired tr -> (forall o, started o tr = mem o l) -> NoDup l -> paired (tr ++ map EStop l).
Proof.
  intros P S N. apply paired_app; auto.
  - intros a o b E. apply map_split in E as (l1 & y & l2 & _ & _ & X & _). discriminate.
  - intros a o b E. apply map_split in E as (l1 & y & l2 & -> & -> & X & ->). injection X as ->. rewrite started_stops, S, (nodup_mid _ _ _ N).
    rewrite andb_true_r. apply mem_in. apply in_or_app. right. left. reflexivity.
  - intros a k o res b E. apply map_split in E as (l1 & y & l2 & _ & _ & X & _). discriminate.
Qed.

Definition is_service (s : web) (o : nat) : Prop := exists x, nth_error (w_objs s) o = Some x /\ o_service x = true.
Record pairs (s : web) (tr : list wev) : Prop := {
  pr_sorted : sorted (w_services s) /\ sorted (t_resources (w_tables s));
  pr_nodup : NoDup (vals (w_services s));
  pr_bound : forall o, In o (vals (w_services s)) -> o < length (w_objs s);
  pr_rbound : forall o, In o (res_vals s) -> o < length (w_objs s);
  pr_keys : forall k o, sm_find (w_services s) k = Some o -> sm_find (t_resources (w_tables s)) (strip_slash k) <> None;
  pr_serv : forall o, In o (res_vals s) -> is_service s o -> In o (vals (w_services s));
  pr_on : forall o, started o tr = w_listening s && mem o (vals (w_services s));
  pr_paired : paired tr }.
(** steps that change neither map *)
Lemma pairs_keep s tr s' e : pairs s tr -> w_services s' = w_services s -> t_resources (w_tables s') = t_resources (w_tables s) -> w_listening s' = w_listening s ->
  length (w_objs s') = length (w_objs s) -> (forall o, In o (res_vals s) -> is_service s' o -> is_service s o) ->
  (forall x, In x e -> calm x) -> paired (tr ++ e) -> pairs s' (tr ++ e).
Proof.
  intros [P1 P2 P3 P4 P5 P6 P7 P8] E1 E2 E3 E4 IS C PA. unfold res_vals in *. split; unfold res_vals; rewrite ?E1, ?E2, ?E3, ?E4; auto.
  intros o. rewrite started_calm by exact C. apply P7.
Qed.
Lemma find_mem_insert (m : smap nat) k v k' : sorted m -> sm_find m k' <> None -> sm_find (sm_insert m k v) k' <> None.
Proof. intros S H. rewrite sm_find_insert by exact S. destruct (str_eqb k k') eqn:E; auto. apply str_eqb_eq in E as ->. destruct (sm_find m k'); congruence. Qed.
Lemma insert_present {A} (m : smap A) k v w : sorted m -> sm_find m k = Some w -> sm_insert m k v = m.
Proof.
  induction m as [|[k0 v0] m IH]; intros S F; [discriminate|]. destruct S as [S1 S2]. cbn [sm_insert fst]. rewrite sm_find_cons in F. destruct (str_eqb k0 k) eqn:E.
  - apply str_eqb_eq in E as ->. rewrite lex_irrefl. reflexivity.
  - apply sm_find_in in F; [|exact S2]. pose proof (S1 _ F) as L. cbn [fst] in L. rewrite (lex_asym _ _ L), IH; auto. apply sm_find_in; auto.
Qed.
Lemma insert_new m k v : sm_find m k = None -> In v (vals (sm_insert m k v)).
Proof.
  unfold vals. induction m as [|[k0 v0] m IH]; intros F; cbn [sm_insert map fst]; [left; auto|]. rewrite sm_find_cons in F. destruct (str_eqb k0 k) eqn:E; [discriminate|].
  destruct (lex_ltb k k0); cbn [map]; [left; auto|]. right. auto.
Qed.
Lemma nth_objs_old s o x : o < length (w_objs s) -> nth_error (w_objs s ++ [x]) o = nth_error (w_objs s) o.
Proof. intros. apply nth_error_app1. auto. Qed.
(** add_service and load_service while the server does not listen *)
Lemma pairs_bind s tr r x e s' : pairs s tr -> w_listening s = false -> o_service x = true -> (forall y, In y e -> calm y) -> (forall k o res, ~ In (EHandled k o res) e) ->
  w_services s' = sm_insert (w_services s) (strip_slash r) (length (w_objs s)) ->
  w_tables s' = t_step (w_tables s) (TAdd (strip_slash r) (length (w_objs s))) -> w_objs s' = w_objs s ++ [x] -> w_listening s' = false -> pairs s' (tr ++ e).
Proof.
  intros [[P0 P1] P2 P3 P4 P5 P6 P7 P8] LI SX C NH E1 E2 E3 E4. unfold res_vals in *.
  assert (LO : length (w_objs s') = S (length (w_objs s))) by (rewrite E3, app_length; cbn; lia).
  split; unfold res_vals; rewrite ?E1, ?E2, ?E4, ?LO; cbn [t_step t_resources].
  - split; apply sm_insert_sorted; auto.
  - apply vals_insert_nodup; auto. intros J. pose proof (P3 _ J). lia.
  - intros o H. apply vals_insert in H as [->|H]; [lia|]. pose proof (P3 _ H). lia.
  - intros o H. apply vals_insert in H as [->|H]; [lia|]. pose proof (P4 _ H). lia.
  - intros k o F. rewrite sm_find_insert in F by auto. destruct (str_eqb (strip_slash r) k) eqn:E.
    + apply str_eqb_eq in E as <-. rewrite sm_find_insert by auto. rewrite str_eqb_refl. destruct (sm_find (t_resources (w_tables s)) _); congruence.
    + apply find_mem_insert; auto. eapply P5; eauto.
  - intros o H IS. destruct (sm_find (w_services s) (strip_slash r)) as [w|] eqn:F.
    + pose proof (P5 _ _ F) as G. destruct (sm_find (t_resources (w_tables s)) (strip_slash (strip_slash r))) as [u|] eqn:F2; [|congruence].
      rewrite (insert_present _ _ _ u P1 F2) in H. apply vals_insert_old. apply P6; auto. pose proof (P4 _ H) as B. destruct IS as (y & Y1 & Y2). rewrite E3, nth_objs_old in Y1 by exact B. exists y. auto.
    + apply vals_insert in H as [->|H]; [apply insert_new; exact F|]. apply vals_insert_old. apply P6; auto.
      pose proof (P4 _ H) as B. destruct IS as (y & Y1 & Y2). rewrite E3, nth_objs_old in Y1 by exact B. exists y. auto.
  - intros o. rewrite started_calm by exact C. rewrite P7, LI. reflexivity.
  - apply paired_calm; auto.
Qed.
Lemma pairs_stop s tr f s1 e b : pairs s tr -> (forall o, f o = false) -> w_stop s f = Some (s1, e, b) ->
  pairs s1 (tr ++ e) /\ b = true /\ w_listening s1 = false /\ w_objs s1 = w_objs s.
Proof.
  intros [P1 P2 P3 P4 P5 P6 P7 P8] F E. unfold w_stop in E. destruct (w_listening s) eqn:LI.
  - destruct (all_finished s); [|discriminate]. rewrite (call_all_well _ _ _ F) in E. injection E as <- <- <-. split; [|auto]. split; auto.
    + intros o. rewrite started_stops, P7. cbn. fold (vals (w_services s)). destruct (mem o (vals (w_services s))); reflexivity.
    + apply paired_stops; auto.
  - injection E as <- <- <-. rewrite app_nil_r. split; [|auto]. split; auto. rewrite LI. exact P7.
Qed.
Lemma handled_one k o res y tr : started o tr = true -> forall a k' o' res' b, [if y : bool then EHandled k o res else ECalled k o] = a ++ EHandled k' o' res' :: b -> started o' (tr ++ a) = true.
Proof. intros S [|z a] k' o' res' b E; [|injection E as _ E; destruct a; discriminate]. injection E as E _. destruct y; [|discriminate]. injection E as _ <- _. rewrite app_nil_r. exact S. Qed.
Lemma pairs_step s tr l s' e : orderly s l -> pairs s tr -> w_step s l = Some (s', e) -> pairs s' (tr ++ e).
Proof.
  intros G P E. destruct l as [r|r q|r opens|q|r|r|ra rb|r n v fails|fails binds|fails|fails|p|k|k]; cbn [w_step orderly] in *.
  - injection E as <- <-. eapply (pairs_bind s tr r (mko true (strip_slash r))); eauto; cbn; intuition; subst; cbn; auto. discriminate.
  - destruct G.
  - destruct (sm_find (w_services s) (strip_slash r)); [|destruct opens]; injection E as <- <-.
    + apply (pairs_keep s); auto; [intros x [<-|[]]; exact I|]. apply paired_calm; [apply (pr_paired _ _ P)|intros x [<-|[]]; exact I|intros ? ? ? [X|[]]; discriminate].
    + eapply (pairs_bind s tr r (mko true [])); eauto; cbn; intuition; subst; cbn; auto. discriminate.
    + apply (pairs_keep s); auto; [intros x [<-|[]]; exact I|]. apply paired_calm; [apply (pr_paired _ _ P)|intros x [<-|[]]; exact I|intros ? ? ? [X|[]]; discriminate].
  - destruct (find _ (w_loading s)) as [[q' r]|] eqn:F; [|discriminate]. injection E as <- <-. apply (pairs_keep s); auto; cbn [w_objs]; rewrite ?set_resource_length; auto.
    + intros o _ (x & X1 & X2). cbn [w_objs] in X1. apply set_resource_service in X1 as (y & Y1 & Y2). exists y. split; congruence.
    + intros x [].
    + rewrite app_nil_r. apply (pr_paired _ _ P).
  - injection E as <- <-. rewrite app_nil_r. destruct P as [[P0 P1] P2 P3 P4 P5 P6 P7 P8]. unfold res_vals in *.
    split; unfold res_vals; cbn [w_services w_tables w_objs w_listening set_tables set_objs t_step t_resources]; rewrite ?app_length; cbn [length]; auto.
    + split; auto. apply sm_insert_sorted; auto.
    + intros o H. pose proof (P3 o H). lia.
    + intros o H. apply vals_insert in H as [->|H]; [lia|]. pose proof (P4 o H). lia.
    + intros k o H. apply find_mem_insert; auto. eapply P5; eauto.
    + intros o H (x & X1 & X2). cbn [w_objs set_tables set_objs] in X1. apply vals_insert in H as [->|H].
      * rewrite nth_error_app2, Nat.sub_diag in X1 by lia. injection X1 as <-. discriminate.
      * rewrite nth_objs_old in X1 by (apply P4; exact H). apply P6; auto. exists x. auto.
  - destruct G.
  - injection E as <- <-. rewrite app_nil_r. rewrite <- (app_nil_r tr). apply (pairs_keep s); auto. + intros x []. + rewrite app_nil_r. apply (pr_paired _ _ P).
  - destruct (sm_find (w_services s) (strip_slash r)) as [o|] eqn:F; [destruct fails|]; injection E as <- <-; (apply (pairs_keep s); auto;
      [cbn; intuition; subst; exact I | apply paired_calm; [apply (pr_paired _ _ P)| cbn; intuition; subst; exact I | cbn; intuition discriminate]]).
  - destruct G as [G1 ->]. unfold w_start in E. destruct (w_listening s) eqn:LI; [injection E as <- <-; rewrite app_nil_r; exact P|].
    rewrite (call_all_well _ _ _ G1) in E. injection E as <- <-. destruct P as [P1 P2 P3 P4 P5 P6 P7 P8]. split; auto.
    + intros o. rewrite started_starts, P7, LI. reflexivity.
    + apply paired_starts; auto. intros o. rewrite P7, LI. reflexivity.
  - destruct (w_stop s fails) as [[[s1 e1] b]|] eqn:W; [|discriminate]. injection E as <- <-. eapply pairs_stop; eauto.
  - unfold w_clear in E. destruct (w_stop s fails) as [[[s1 e1] b]|] eqn:W; [|discriminate]. destruct (pairs_stop _ _ _ _ _ _ P G W) as (P' & -> & LI & LO).
    injection E as <- <-. rewrite app_assoc. destruct P' as [P1 P2 P3 P4 P5 P6 P7 P8].
    assert (C : forall x, In x (map EDestroyed (map snd (w_services s1))) -> calm x) by (intros x I0; apply in_map_iff in I0 as (? & <- & _); exact I).
    split; cbn [w_services w_tables t_step t_resources w_objs w_listening vals map res_vals]; try (intros; contradiction); auto.
    + cbn. auto.
    + constructor.
    + discriminate.
    + intros o. rewrite started_calm by exact C. rewrite P7, LI. reflexivity.
    + apply paired_calm; auto. intros k o res I0. apply in_map_iff in I0 as (? & X & _). discriminate.
  - unfold w_request in E. destruct (w_listening s) eqn:LI; [|discriminate].
    destruct (fst (follow _ _ _ _)) as [res|]; [|injection E as <- <-].
    2:{ apply (pairs_keep s); auto; [intros x [<-|[]]; exact I|]. apply paired_calm; [apply (pr_paired _ _ P)|intros x [<-|[]]; exact I|intros ? ? ? [X|[]]; discriminate]. }
    destruct (find_request_handler (w_tables s) res) as [q|] eqn:F; [|injection E as <- <-].
    2:{ apply (pairs_keep s); auto; [intros x [<-|[]]; exact I|]. apply paired_calm; [apply (pr_paired _ _ P)|intros x [<-|[]]; exact I|intros ? ? ? [X|[]]; discriminate]. }
    destruct (nth_error (w_objs s) q) as [x|] eqn:NE; [|discriminate]. injection E as <- <-.
    assert (C : forall y, In y [if o_service x then EHandled (length (w_calls s)) q (o_resource x) else ECalled (length (w_calls s)) q] -> calm y)
      by (intros y [<-|[]]; destruct (o_service x); exact I).
    apply (pairs_keep s); auto. destruct (o_service x) eqn:SX.
    + apply paired_app; [apply (pr_paired _ _ P)| | |].
      * intros [|z a] o b E; [discriminate|injection E as _ E; destruct a; discriminate].
      * intros [|z a] o b E; [discriminate|injection E as _ E; destruct a; discriminate].
      * intros [|z a] k o res0 b E; [|injection E as _ E; destruct a; discriminate]. injection E as _ <- _ _. rewrite app_nil_r, (pr_on _ _ P), LI. cbn. apply mem_in.
        apply (pr_serv _ _ P); [apply handler_entry in F as (r & F & _); eapply entry_vals; eauto|]. exists x. auto.
    + apply paired_calm; [apply (pr_paired _ _ P)|exact C|]. intros k o res0 [X|[]]. discriminate.
  - destruct (nth_error (w_calls s) k) as [[q|q|q]|]; try discriminate. injection E as <- <-. rewrite app_nil_r. rewrite <- (app_nil_r tr). apply (pairs_keep s); auto. + intros x []. + rewrite app_nil_r. apply (pr_paired _ _ P).
  - destruct (nth_error (w_calls s) k) as [[q|q|q]|]; try discriminate; injection E as <- <-; (apply (pairs_keep s); auto;
      [cbn; intuition; subst; exact I | apply paired_calm; [apply (pr_paired _ _ P)| cbn; intuition; subst; exact I | cbn; intuition discriminate]]).
Qed.
Lemma pairs_run ls s tr : run w_step w_init ls = Some (s, tr) -> allowed w_step orderly w_init ls -> pairs s tr.
Proof.
  intros R A. revert s tr R A. induction ls as [|l ls IH] using rev_ind; intros s tr R A.
  - injection R as <- <-. split; cbn; try (intros; contradiction); auto; try discriminate. + constructor. + split; [|split]; intros [|? ?] * E; discriminate.
  - apply run_snoc in R as (s1 & t1 & e & R & D & ->). apply (allowed_app _ _ _ _ _ _ _ R) in A as [A1 A2]. inversion A2; subst. eapply pairs_step; eauto.
Qed.


(* ------------------------------------------------------------------ who gets requests and options *)

Lemma exact_found t k o : sorted (t_resources t) -> sm_find (t_resources t) k = Some o -> find_request_handler t k = Some o.
Proof.
  intros S F. apply sm_find_in in F; auto. pose proof (search_best (t_resources t) k S) as B. unfold find_request_handler.
  destruct (t_resources t) as [|e0 m] eqn:T; [contradiction|]. destruct (find _ _) as [e|].
  - destruct B as (B1 & B2 & B3). destruct (B3 _ F (or_introl eq_refl)) as [<-|B]; [reflexivity|]. apply covers_prefix in B2 as [u ->]. cbn [fst] in B. rewrite app_length in B. lia.
  - destruct (B _ F). left. reflexivity.
Qed.
Lemma follow_none t p q : t_redirects t = [] -> fst (follow MAX_REDIRECTS t p q) = Some p.
Proof. intros E. unfold MAX_REDIRECTS. cbn [follow]. rewrite E. reflexivity. Qed.
Lemma redirects_run ls : forall s tr, run w_step w_init ls = Some (s, tr) -> no_redirects ls -> sorted (t_resources (w_tables s)) /\ t_redirects (w_tables s) = [].
Proof.
  induction ls as [|l ls IH] using rev_ind; intros s tr R N.
  - injection R as <- <-. cbn. auto.
  - apply run_snoc in R as (s1 & t1 & e & R & D & ->). destruct (IH s1 t1 R) as [I1 I2]; [intros a b J; apply (N a b); apply in_or_app; auto|].
    assert (NR : forall a b, l <> WRedirect a b) by (intros a b ->; apply (N a b); apply in_or_app; right; left; reflexivity).
    clear N R IH. destruct l as [r|r q|r opens|q|r|r|ra rb|r n v fails|fails binds|fails|fails|p|k|k]; cbn [w_step] in D.
    + injection D as <- <-. cbn. split; auto. apply sm_insert_sorted; auto.
    + destruct (nth_error (w_objs s1) q) as [x|]; [|discriminate]. destruct (o_service x); [|discriminate]. injection D as <- <-. cbn. split; auto. apply sm_insert_sorted; auto.
    + destruct (sm_find (w_services s1) (strip_slash r)); [|destruct opens]; injection D as <- <-; cbn; auto. split; auto. apply sm_insert_sorted; auto.
    + destruct (find _ (w_loading s1)) as [[q' r]|]; [|discriminate]. injection D as <- <-. cbn. auto.
    + injection D as <- <-. cbn. split; auto. apply sm_insert_sorted; auto.
    + injection D as <- <-. cbn. split; auto. apply sm_erase_sorted; auto.
    + destruct (NR ra rb eq_refl).
    + destruct (sm_find (w_services s1) (strip_slash r)); injection D as <- <-; auto.
    + unfold w_start in D. destruct (w_listening s1); [injection D as <- <-; auto|]. destruct (call_all _ _ _) as [e0 w]. destruct (w && binds); injection D as <- <-; auto.
    + unfold w_stop in D. destruct (w_listening s1); [|injection D as <- <-; auto]. destruct (all_finished s1); [|discriminate]. destruct (call_all _ _ _) as [e0 w]. injection D as <- <-. auto.
    + unfold w_clear, w_stop in D. destruct (w_listening s1); [destruct (all_finished s1); [destruct (call_all _ _ _) as [e0 []]|]|]; try discriminate; injection D as <- <-; cbn; auto.
    + unfold w_request in D. destruct (w_listening s1); [|discriminate]. destruct (fst _); [|injection D as <- <-; auto]. destruct (find_request_handler _ _) as [q|]; [|injection D as <- <-; auto].
      destruct (nth_error _ q); [|discriminate]. injection D as <- <-. auto.
    + destruct (nth_error (w_calls s1) k) as [[q|q|q]|]; try discriminate. injection D as <- <-. auto.
    + destruct (nth_error (w_calls s1) k) as [[q|q|q]|]; try discriminate; injection D as <- <-; auto.
Qed.
Definition service_at (l : list wobj) (o : nat) : Prop := exists x, nth_error l o = Some x /\ o_service x = true.
Lemma service_at_app l x o : service_at l o -> service_at (l ++ [x]) o.
Proof. intros (y & Y1 & Y2). exists y. split; auto. apply nth_app_old. exact Y1. Qed.
Lemma service_at_set l q r o : service_at l o -> service_at (set_resource l q r) o.
Proof.
  intros (y & Y1 & Y2). unfold set_resource. destruct (nth_error l q) as [z|] eqn:E; [|exists y; auto]. destruct (Nat.eq_dec q o) as [->|N].
  - rewrite Y1 in E. injection E as <-. exists (mko (o_service y) r). split; [|exact Y2]. apply set_nth_same. eapply nth_lt; eauto.
  - exists y. split; auto. rewrite set_nth_other; auto.
Qed.
Lemma same_run ls : forall s tr, run w_step w_init ls = Some (s, tr) -> (forall l, In l ls -> services_only l) ->
  w_services s = t_resources (w_tables s) /\ forall o, In o (vals (w_services s)) -> service_at (w_objs s) o.
Proof.
  induction ls as [|l ls IH] using rev_ind; intros s tr R N.
  - injection R as <- <-. cbn. split; auto. intros o [].
  - apply run_snoc in R as (s1 & t1 & e & R & D & ->). destruct (IH s1 t1 R) as [I1 I2]; [intros l' J; apply N; apply in_or_app; auto|].
    assert (NR : services_only l) by (apply N; apply in_or_app; right; left; reflexivity).
    assert (BD : forall r x, one_slash r -> o_service x = true ->
      sm_insert (w_services s1) (strip_slash r) (length (w_objs s1)) = t_resources (t_step (w_tables s1) (TAdd (strip_slash r) (length (w_objs s1))))
      /\ forall o, In o (vals (sm_insert (w_services s1) (strip_slash r) (length (w_objs s1)))) -> service_at (w_objs s1 ++ [x]) o).
    { intros r x O SX. split; [cbn; rewrite O, I1; reflexivity|]. intros o H. apply vals_insert in H as [->|H]; [|apply service_at_app; auto].
      exists x. split; auto. rewrite nth_error_app2, Nat.sub_diag by lia. reflexivity. }
    clear N R IH. destruct l as [r|r q|r opens|q|r|r|ra rb|r n v fails|fails binds|fails|fails|p|k|k]; cbn [w_step services_only] in *; try contradiction.
    + injection D as <- <-. apply BD; auto.
    + destruct (sm_find (w_services s1) (strip_slash r)); [|destruct opens]; injection D as <- <-; auto. apply BD; auto.
    + destruct (find _ (w_loading s1)) as [[q' r]|]; [|discriminate]. injection D as <- <-. split; auto. intros o H. apply service_at_set. auto.
    + destruct (sm_find (w_services s1) (strip_slash r)); injection D as <- <-; auto.
    + unfold w_start in D. destruct (w_listening s1); [injection D as <- <-; auto|]. destruct (call_all _ _ _) as [e0 w]. destruct (w && binds); injection D as <- <-; auto.
    + unfold w_stop in D. destruct (w_listening s1); [|injection D as <- <-; auto]. destruct (all_finished s1); [|discriminate]. destruct (call_all _ _ _) as [e0 w]. injection D as <- <-. auto.
    + unfold w_clear, w_stop in D. destruct (w_listening s1); [destruct (all_finished s1); [destruct (call_all _ _ _) as [e0 []]|]|]; try discriminate; injection D as <- <-; cbn; auto; split; auto; intros o [].
    + unfold w_request in D. destruct (w_listening s1); [|discriminate]. destruct (fst _); [|injection D as <- <-; auto]. destruct (find_request_handler _ _) as [q|]; [|injection D as <- <-; auto].
      destruct (nth_error _ q); [|discriminate]. injection D as <- <-. auto.
    + destruct (nth_error (w_calls s1) k) as [[q|q|q]|]; try discriminate. injection D as <- <-. auto.
    + destruct (nth_error (w_calls s1) k) as [[q|q|q]|]; try discriminate; injection D as <- <-; auto.
Qed.
Lemma request_exact s r o s2 e : sorted (t_resources (w_tables s)) -> t_redirects (w_tables s) = [] -> sm_find (t_resources (w_tables s)) (strip_slash r) = Some o ->
  service_at (w_objs s) o -> w_request s r = Some (s2, e) -> exists k res, In (EHandled k o res) e.
Proof.
  intros S NR F (x & X1 & X2) E. unfold w_request in E. destruct (w_listening s); [|discriminate]. rewrite follow_none in E by exact NR.
  rewrite (exact_found _ _ _ S F), X1, X2 in E. injection E as <- <-. eexists. eexists. left. reflexivity.
Qed.
Lemma services_only_redirects ls : (forall l, In l ls -> services_only l) -> no_redirects ls.
Proof. intros H a b I. exact (H _ I). Qed.
Lemma untaken_run c ls : forall s tr, run w_step w_init ls = Some (s, tr) -> no_redirects ls -> (forall l, In l ls -> ~ takes c l) -> sm_find (t_resources (w_tables s)) c = None.
Proof.
  induction ls as [|l ls IH] using rev_ind; intros s tr R NR N.
  - injection R as <- <-. reflexivity.
  - apply run_snoc in R as (s1 & t1 & e & R & D & ->).
    assert (NR1 : no_redirects ls) by (intros a b J; apply (NR a b); apply in_or_app; auto).
    assert (I1 : sm_find (t_resources (w_tables s1)) c = None) by (apply (IH s1 t1 R); auto; intros l' J; apply N; apply in_or_app; auto).
    destruct (redirects_run ls s1 t1 R NR1) as [SO _].
    assert (T : ~ takes c l) by (apply N; apply in_or_app; right; left; reflexivity).
    assert (BD : forall r o, strip_slash r <> c -> sm_find (sm_insert (t_resources (w_tables s1)) (strip_slash r) o) c = None).
    { intros r o H. rewrite sm_find_insert by exact SO. destruct (str_eqb (strip_slash r) c) eqn:E; auto. apply str_eqb_eq in E. contradiction. }
    clear N R IH NR. destruct l as [r|r q|r opens|q|r|r|ra rb|r n v fails|fails binds|fails|fails|p|k|k]; cbn [w_step takes] in *.
    + injection D as <- <-. cbn. apply BD. exact T.
    + destruct (nth_error (w_objs s1) q) as [x|]; [|discriminate]. destruct (o_service x); [|discriminate]. injection D as <- <-. cbn. apply BD. exact T.
    + destruct (sm_find (w_services s1) (strip_slash r)); [|destruct opens]; injection D as <- <-; cbn; auto.
    + destruct (find _ (w_loading s1)) as [[q' r]|]; [|discriminate]. injection D as <- <-. cbn. auto.
    + injection D as <- <-. cbn. auto.
    + injection D as <- <-. cbn. rewrite sm_find_erase. destruct (str_eqb _ _); auto.
    + injection D as <- <-. cbn. auto.
    + destruct (sm_find (w_services s1) (strip_slash r)); injection D as <- <-; auto.
    + unfold w_start in D. destruct (w_listening s1); [injection D as <- <-; auto|]. destruct (call_all _ _ _) as [e0 w]. destruct (w && binds); injection D as <- <-; auto.
    + unfold w_stop in D. destruct (w_listening s1); [|injection D as <- <-; auto]. destruct (all_finished s1); [|discriminate]. destruct (call_all _ _ _) as [e0 w]. injection D as <- <-. auto.
    + unfold w_clear, w_stop in D. destruct (w_listening s1); [destruct (all_finished s1); [destruct (call_all _ _ _) as [e0 []]|]|]; try discriminate; injection D as <- <-; cbn; auto.
    + unfold w_request in D. destruct (w_listening s1); [|discriminate]. destruct (fst _); [|injection D as <- <-; auto]. destruct (find_request_handler _ _) as [q|]; [|injection D as <- <-; auto].
      destruct (nth_error _ q); [|discriminate]. injection D as <- <-. auto.
    + destruct (nth_error (w_calls s1) k) as [[q|q|q]|]; try discriminate. injection D as <- <-. auto.
    + destruct (nth_error (w_calls s1) k) as [[q|q|q]|]; try discriminate; injection D as <- <-; auto.
Qed.

(* ------------------------------------------------------------------ the resource a service knows *)

Record knows (s : web) : Prop := {
  kn_sorted : sorted (t_resources (w_tables s));
  kn_redir : t_redirects (w_tables s) = [];
  kn_bound : forall r o, In (r, o) (t_resources (w_tables s)) -> o < length (w_objs s);
  kn_lbound : forall o r, In (o, r) (w_loading s) -> o < length (w_objs s);
  kn_load : forall o r r', In (o, r) (w_loading s) -> In (r', o) (t_resources (w_tables s)) -> r' = r;
  kn_res : forall r o x, In (r, o) (t_resources (w_tables s)) -> nth_error (w_objs s) o = Some x -> o_service x = true -> o_resource x = r \/ exists r', In (o, r') (w_loading s) }.
(** a service is bound to [c]; the list of those being loaded may get it too *)
Lemma knows_bind s s' c x ld : knows s -> sorted (t_resources (w_tables s')) -> t_redirects (w_tables s') = [] ->
  t_resources (w_tables s') = sm_insert (t_resources (w_tables s)) c (length (w_objs s)) -> w_objs s' = w_objs s ++ [x] -> w_loading s' = ld ->
  (ld = w_loading s /\ (o_service x = true -> o_resource x = c) \/ ld = (length (w_objs s), c) :: w_loading s) -> knows s'.
Proof.
  intros [K1 K2 K3 K4 K5 K6] E1 E2 E3 E4 E5 C.
  assert (LO : length (w_objs s') = S (length (w_objs s))) by (rewrite E4, app_length; cbn; lia).
  assert (LD : forall o r, In (o, r) ld -> In (o, r) (w_loading s) \/ (o = length (w_objs s) /\ r = c)).
  { intros o r H. destruct C as [[-> _]| ->]; auto. destruct H as [H|H]; auto. injection H as <- <-. auto. }
  split; rewrite ?E3, ?E5, ?LO; auto.
  - rewrite <- E3. exact E1.
  - intros r o H. apply sm_insert_in in H as [H|H]; [injection H as -> ->; lia|]. pose proof (K3 _ _ H). lia.
  - intros o r H. apply LD in H as [H|[-> _]]; [|lia]. pose proof (K4 _ _ H). lia.
  - intros o r r' H1 H2. apply LD in H1 as [H1|[-> ->]]; apply sm_insert_in in H2 as [H2|H2].
    + injection H2 as -> ->. pose proof (K4 _ _ H1). lia.
    + eapply K5; eauto.
    + injection H2 as ->. reflexivity.
    + pose proof (K3 _ _ H2). lia.
  - intros r o y H N SV. rewrite E4 in N. apply sm_insert_in in H as [H|H].
    + injection H as -> ->. rewrite nth_error_app2, Nat.sub_diag in N by lia. injection N as <-. destruct C as [[-> C]| ->]; [left; auto|]. right. exists c. left. reflexivity.
    + pose proof (K3 _ _ H) as B. rewrite nth_error_app1 in N by exact B. destruct (K6 _ _ _ H N SV) as [X|[r' X]]; auto. right. exists r'. destruct C as [[-> _]| ->]; [|right]; exact X.
Qed.
Lemma knows_less s s' : knows s -> sorted (t_resources (w_tables s')) -> t_redirects (w_tables s') = [] -> (forall e, In e (t_resources (w_tables s')) -> In e (t_resources (w_tables s))) ->
  w_objs s' = w_objs s -> w_loading s' = w_loading s -> knows s'.
Proof. intros [K1 K2 K3 K4 K5 K6] E1 E2 E3 E4 E5. split; rewrite ?E4, ?E5; eauto. Qed.
Lemma knows_step s l s' e : not_loading s l -> knows s -> w_step s l = Some (s', e) -> knows s'.
Proof.
  intros G K D. pose proof K as [K1 K2 K3 K4 K5 K6]. destruct l as [r|r q|r opens|q|r|r|ra rb|r n v fails|fails binds|fails|fails|p|k|k]; cbn [w_step not_loading] in *; try contradiction.
  - injection D as <- <-. unfold one_slash in G. eapply (knows_bind s _ (strip_slash r) (mko true (strip_slash r))); eauto; cbn; auto; rewrite ?G; auto. apply sm_insert_sorted; auto.
  - unfold one_slash in G. destruct (sm_find (w_services s) (strip_slash r)); [|destruct opens]; injection D as <- <-; auto.
    eapply (knows_bind s _ (strip_slash r) (mko true [])); eauto; cbn; auto; rewrite ?G; auto. apply sm_insert_sorted; auto.
  - destruct (find _ (w_loading s)) as [[q' r]|] eqn:F; [|discriminate]. injection D as <- <-. apply find_some in F as [F1 F2]. cbn in F2. apply Nat.eqb_eq in F2 as <-.
    split; cbn [w_tables w_objs w_loading]; rewrite ?set_resource_length; auto.
    + intros o r0 H. apply filter_In in H as [H _]. eauto.
    + intros o r0 r' H1 H2. apply filter_In in H1 as [H1 _]. eauto.
    + intros r0 o x H N SV. unfold set_resource in N. destruct (nth_error (w_objs s) q) as [z|] eqn:NZ.
      * apply set_nth_cases in N as [(-> & -> & _)|(NE & N)].
        -- left. cbn. symmetry. eapply K5; eauto.
        -- destruct (K6 _ _ _ H N SV) as [X|[r' X]]; auto. right. exists r'. apply filter_In. split; auto. cbn. apply negb_true_iff, Nat.eqb_neq. congruence.
      * destruct (K6 _ _ _ H N SV) as [X|[r' X]]; auto. right. exists r'. apply filter_In. split; auto. cbn. apply negb_true_iff, Nat.eqb_neq. intros <-. congruence.
  - injection D as <- <-. eapply (knows_bind s _ (strip_slash r) (mko false [])); eauto; cbn; auto; [apply sm_insert_sorted; auto|]. left. split; auto. discriminate.
  - injection D as <- <-. apply (knows_less s); auto; cbn; [apply sm_erase_sorted; auto|]. intros e0 H. apply filter_In in H as [H _]. exact H.
  - destruct (sm_find (w_services s) (strip_slash r)); injection D as <- <-; auto.
  - unfold w_start in D. destruct (w_listening s); [injection D as <- <-; auto|]. destruct (call_all _ _ _) as [e0 w]. destruct (w && binds); injection D as <- <-; auto. apply (knows_less s); auto.
  - unfold w_stop in D. destruct (w_listening s); [|injection D as <- <-; auto]. destruct (all_finished s); [|discriminate]. destruct (call_all _ _ _) as [e0 w]. injection D as <- <-. apply (knows_less s); auto.
  - unfold w_clear, w_stop in D. destruct (w_listening s); [destruct (all_finished s); [destruct (call_all _ _ _) as [e0 []]|]|]; try discriminate; injection D as <- <-; apply (knows_less s); cbn; auto; intros e1 [].
  - unfold w_request in D. destruct (w_listening s); [|discriminate]. destruct (fst _); [|injection D as <- <-; auto]. destruct (find_request_handler _ _) as [q|]; [|injection D as <- <-; auto].
    destruct (nth_error _ q); [|discriminate]. injection D as <- <-. apply (knows_less s); auto.
  - destruct (nth_error (w_calls s) k) as [[q|q|q]|]; try discriminate. injection D as <- <-. apply (knows_less s); auto.
  - destruct (nth_error (w_calls s) k) as [[q|q|q]|]; try discriminate; injection D as <- <-; apply (knows_less s); auto.
Qed.
Lemma knows_run ls : forall s tr, run w_step w_init ls = Some (s, tr) -> allowed w_step not_loading w_init ls -> knows s.
Proof.
  induction ls as [|l ls IH] using rev_ind; intros s tr R A.
  - injection R as <- <-. split; cbn; auto; try (intros; contradiction).
  - apply run_snoc in R as (s1 & t1 & e & R & D & ->). apply (allowed_app _ _ _ _ _ _ _ R) in A as [A1 A2]. inversion A2; subst. eapply knows_step; eauto.
Qed.
Lemma knows_request s p s' e k o res : knows s -> w_loading s = [] -> w_request s p = Some (s', e) -> In (EHandled k o res) e -> covers res (strip_slash p).
Proof.
  intros [K1 K2 K3 K4 K5 K6] L E I. unfold w_request in E. destruct (w_listening s); [|discriminate]. rewrite follow_none in E by exact K2.
  destruct (find_request_handler (w_tables s) (strip_slash p)) as [q|] eqn:F; [|injection E as <- <-; destruct I as [I|[]]; discriminate].
  destruct (nth_error (w_objs s) q) as [x|] eqn:NE; [|discriminate]. injection E as <- <-. destruct I as [I|[]]. destruct (o_service x) eqn:SX; [|discriminate]. injection I as _ <- <-.
  apply handler_entry in F as (r & F1 & F2). apply covers_matches in F2. destruct (K6 _ _ _ F1 NE SX) as [->|[r' X]]; auto. rewrite L in X. destruct X.
Qed.

Record given (s : web) (tr : list wev) : Prop := {
  gv_bound : forall o r, In (EGiven o r) tr -> o < length (w_objs s);
  gv_lbound : forall o r, In (o, r) (w_loading s) -> o < length (w_objs s);
  gv_load : forall o r r', In (EGiven o r) tr -> In (o, r') (w_loading s) -> r' = strip_slash r;
  gv_res : forall o r x, In (EGiven o r) tr -> nth_error (w_objs s) o = Some x -> o_resource x = strip_slash r \/ exists r', In (o, r') (w_loading s) }.
Lemma given_keep s tr s' e : given s tr -> (forall o r, ~ In (EGiven o r) e) -> w_objs s' = w_objs s -> w_loading s' = w_loading s -> given s' (tr ++ e).
Proof.
  intros [G1 G2 G3 G4] N E1 E2. assert (T : forall o r, In (EGiven o r) (tr ++ e) -> In (EGiven o r) tr) by (intros o r H; apply in_app_or in H as [H|H]; auto; destruct (N _ _ H)).
  split; rewrite ?E1, ?E2; eauto.
Qed.
Lemma given_new s tr s' r x ld : given s tr -> w_objs s' = w_objs s ++ [x] -> w_loading s' = ld ->
  (ld = w_loading s /\ o_resource x = strip_slash r \/ ld = (length (w_objs s), strip_slash r) :: w_loading s) -> given s' (tr ++ [EGiven (length (w_objs s)) r]).
Proof.
  intros [G1 G2 G3 G4] E1 E2 C. assert (LO : length (w_objs s') = S (length (w_objs s))) by (rewrite E1, app_length; cbn; lia).
  assert (T : forall o r0, In (EGiven o r0) (tr ++ [EGiven (length (w_objs s)) r]) -> In (EGiven o r0) tr \/ (o = length (w_objs s) /\ r0 = r)).
  { intros o r0 H. apply in_app_or in H as [H|[H|[]]]; auto. injection H as <- <-. auto. }
  assert (LD : forall o r0, In (o, r0) ld -> In (o, r0) (w_loading s) \/ (o = length (w_objs s) /\ r0 = strip_slash r)).
  { intros o r0 H. destruct C as [[-> _]| ->]; auto. destruct H as [H|H]; auto. injection H as <- <-. auto. }
  split; rewrite ?LO, ?E2.
  - intros o r0 H. apply T in H as [H|[-> _]]; [|lia]. pose proof (G1 _ _ H). lia.
  - intros o r0 H. apply LD in H as [H|[-> _]]; [|lia]. pose proof (G2 _ _ H). lia.
  - intros o r0 r' H1 H2. apply T in H1 as [H1|[-> ->]]; apply LD in H2 as [H2|[X ->]]; auto.
    + eapply G3; eauto.
    + subst o. pose proof (G1 _ _ H1). lia.
    + pose proof (G2 _ _ H2). lia.
  - intros o r0 y H1 N. rewrite E1 in N. apply T in H1 as [H1|[-> ->]].
    + rewrite nth_error_app1 in N by (eapply G1; eauto). destruct (G4 _ _ _ H1 N) as [X|[r' X]]; auto. right. exists r'. destruct C as [[-> _]| ->]; [|right]; exact X.
    + rewrite nth_error_app2, Nat.sub_diag in N by lia. injection N as <-. destruct C as [[_ C]| ->]; auto. right. eexists. left. reflexivity.
Qed.
Lemma given_step s tr l s' e : not_loading s l -> given s tr -> w_step s l = Some (s', e) -> given s' (tr ++ e).
Proof.
  intros G K D. destruct l as [r|r q|r opens|q|r|r|ra rb|r n v fails|fails binds|fails|fails|p|k|k]; cbn [w_step not_loading] in *; try contradiction.
  - injection D as <- <-. eapply (given_new s tr _ r (mko true (strip_slash r))); eauto.
  - destruct (sm_find (w_services s) (strip_slash r)); [|destruct opens]; injection D as <- <-.
    + apply (given_keep s); auto. intros o r0 [X|[]]; discriminate.
    + eapply (given_new s tr _ r (mko true [])); eauto.
    + apply (given_keep s); auto. intros o r0 [X|[]]; discriminate.
  - destruct (find _ (w_loading s)) as [[q' r]|] eqn:F; [|discriminate]. injection D as <- <-. apply find_some in F as [F1 F2]. cbn in F2. apply Nat.eqb_eq in F2 as <-.
    rewrite app_nil_r. destruct K as [G1 G2 G3 G4]. split; cbn [w_objs w_loading]; rewrite ?set_resource_length; auto.
    + intros o r0 H. apply filter_In in H as [H _]. eauto.
    + intros o r0 r' H1 H2. apply filter_In in H2 as [H2 _]. eauto.
    + intros o r0 x H N. unfold set_resource in N. destruct (nth_error (w_objs s) q) as [z|] eqn:NZ.
      * apply set_nth_cases in N as [(-> & -> & _)|(NE & N)].
        -- left. cbn. eapply G3; eauto.
        -- destruct (G4 _ _ _ H N) as [X|[r' X]]; auto. right. exists r'. apply filter_In. split; auto. cbn. apply negb_true_iff, Nat.eqb_neq. congruence.
      * destruct (G4 _ _ _ H N) as [X|[r' X]]; auto. right. exists r'. apply filter_In. split; auto. cbn. apply negb_true_iff, Nat.eqb_neq. intros <-. congruence.
  - injection D as <- <-. rewrite app_nil_r. destruct K as [G1 G2 G3 G4]. split; cbn; rewrite ?app_length; cbn [length].
    + intros o r0 H. pose proof (G1 _ _ H). lia.
    + intros o r0 H. pose proof (G2 _ _ H). lia.
    + exact G3.
    + intros o r0 x H N. rewrite nth_error_app1 in N by (eapply G1; eauto). eauto.
  - injection D as <- <-. apply (given_keep s); auto.
  - destruct (sm_find (w_services s) (strip_slash r)); [destruct fails|]; injection D as <- <-; apply (given_keep s); auto; cbn; intuition discriminate.
  - unfold w_start in D. destruct (w_listening s); [injection D as <- <-; rewrite app_nil_r; auto|]. destruct (call_all _ _ _) as [e0 w] eqn:C.
    assert (N : forall o r, ~ In (EGiven o r) (e0 ++ [EThrow])).
    { intros o r H. apply in_app_or in H as [H|[H|[]]]; [|discriminate]. apply (call_all_in _ _ _ _ _ C) in H as (? & _ & H). discriminate. }
    destruct (w && binds); injection D as <- <-; apply (given_keep s); auto. intros o r H. apply (N o r). apply in_or_app. auto.
  - unfold w_stop in D. destruct (w_listening s); [|injection D as <- <-; rewrite app_nil_r; auto]. destruct (all_finished s); [|discriminate]. destruct (call_all _ _ _) as [e0 w] eqn:C.
    assert (N : forall o r, ~ In (EGiven o r) (e0 ++ [EThrow])).
    { intros o r H. apply in_app_or in H as [H|[H|[]]]; [|discriminate]. apply (call_all_in _ _ _ _ _ C) in H as (? & _ & H). discriminate. }
    injection D as <- <-. apply (given_keep s); auto. destruct w; auto. intros o r H. apply (N o r). apply in_or_app. auto.
  - unfold w_clear, w_stop in D. assert (M : forall o r l0, ~ In (EGiven o r) (map EDestroyed l0)) by (intros o r l0 H; apply in_map_iff in H as (? & H & _); discriminate).
    destruct (w_listening s); [destruct (all_finished s); [destruct (call_all _ _ _) as [e0 []] eqn:C|]|]; try discriminate; injection D as <- <-; apply (given_keep s); auto.
    + intros o r H. apply in_app_or in H as [H|H]; [|exact (M _ _ _ H)]. apply (call_all_in _ _ _ _ _ C) in H as (? & _ & H). discriminate.
    + intros o r H. apply in_app_or in H as [H|[H|[]]]; [|discriminate]. apply (call_all_in _ _ _ _ _ C) in H as (? & _ & H). discriminate.
  - unfold w_request in D. destruct (w_listening s); [|discriminate]. destruct (fst _).
    + destruct (find_request_handler _ _) as [q|]; [|injection D as <- <-; apply (given_keep s); auto; intros o r [X|[]]; discriminate].
      destruct (nth_error _ q) as [x|]; [|discriminate]. injection D as <- <-. apply (given_keep s); auto. intros o r [X|[]]. destruct (o_service x); discriminate.
    + injection D as <- <-. apply (given_keep s); auto. intros o r [X|[]]; discriminate.
  - destruct (nth_error (w_calls s) k) as [[q|q|q]|]; try discriminate. injection D as <- <-. apply (given_keep s); auto.
  - destruct (nth_error (w_calls s) k) as [[q|q|q]|]; try discriminate; injection D as <- <-; apply (given_keep s); auto; intros o r [X|[]]; discriminate.
Qed.
Lemma given_run ls : forall s tr, run w_step w_init ls = Some (s, tr) -> allowed w_step not_loading w_init ls -> given s tr.
Proof.
  induction ls as [|l ls IH] using rev_ind; intros s tr R A.
  - injection R as <- <-. split; cbn; intros; contradiction.
  - apply run_snoc in R as (s1 & t1 & e & R & D & ->). apply (allowed_app _ _ _ _ _ _ _ R) in A as [A1 A2]. inversion A2; subst. eapply given_step; eauto.
Qed.
Lemma given_request s tr p s' e k o r res : given s tr -> w_loading s = [] -> w_request s p = Some (s', e) -> In (EHandled k o res) e -> In (EGiven o r) tr -> res = strip_slash r.
Proof.
  intros [G1 G2 G3 G4] L E I H. unfold w_request in E. destruct (w_listening s); [|discriminate]. destruct (fst _); [|injection E as <- <-; destruct I as [I|[]]; discriminate].
  destruct (find_request_handler _ _) as [q|] eqn:F; [|injection E as <- <-; destruct I as [I|[]]; discriminate].
  destruct (nth_error (w_objs s) q) as [x|] eqn:NE; [|discriminate]. injection E as <- <-. destruct I as [I|[]]. destruct (o_service x) eqn:SX; [|discriminate]. injection I as _ <- <-.
  destruct (G4 _ _ _ H NE) as [X|[r' X]]; auto. rewrite L in X. destruct X.
Qed.
