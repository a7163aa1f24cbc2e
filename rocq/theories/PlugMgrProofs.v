(** Proofs about the instance pointer and the plug-in manager. *)
From Coq Require Import String ZArith Lia List Bool Permutation.
From Verif Require Import Base SMap Runs Threads PluginModel PluginSpec PluginProofs.
Import ListNotations.
Local Arguments nth_error : simpl never.
Local Open Scope nat_scope.

(* ------------------------------------------------------------------ instance pointer *)
Definition lib_events (tr : list iev) : list pev := flat_map (fun e => match e with ILib x => [x] | _ => [] end) tr.
Lemma lib_app : forall a b, lib_events (a ++ b) = lib_events a ++ lib_events b.
Proof. intros. apply flat_map_app. Qed.
Lemma lib_map : forall e, lib_events (map ILib e) = e.
Proof. induction e; simpl; congruence. Qed.
Lemma created_app : forall a b, created (a ++ b) = created a ++ created b.
Proof. intros. apply flat_map_app. Qed.
Lemma destroyed_app : forall a b, destroyed (a ++ b) = destroyed a ++ destroyed b.
Proof. intros. apply flat_map_app. Qed.
Lemma created_map : forall e, created (map ILib e) = [].
Proof. induction e; simpl; auto. Qed.
Lemma destroyed_map : forall e, destroyed (map ILib e) = [].
Proof. induction e; simpl; auto. Qed.

Definition calm (tr : list iev) : Prop := ~ In (ILib EThrow) tr /\ ~ In (ILib EHang) tr.
Lemma calm_app : forall a b, calm (a ++ b) <-> calm a /\ calm b.
Proof. intros. unfold calm. rewrite !in_app_iff. tauto. Qed.
Definition cur (s : ist) : list nat := match i_ptr s with Some n => [n] | None => [] end.
Record iinv (s : ist) (tr : list iev) : Prop := mkiinv {
  i_pinv : few (i_lib s) -> pinv (i_lib s) (lib_events tr);
  i_seq : calm tr -> created tr = seq 0 (i_next s);
  i_once : few (i_lib s) -> calm tr -> alive (i_lib s) 0 = true -> created tr = destroyed tr ++ cur s /\ (i_ptr s <> None -> exists k, nth_error (p_handles (i_lib s)) 0 = Some (HOpen k));
  i_done : few (i_lib s) -> calm tr -> alive (i_lib s) 0 = false -> created tr = destroyed tr
}.
Definition no_reset (_ : ist) (o : iop) : Prop := o <> IReset.
Lemma others_keep : forall l o l1 e, few l1 -> (exists tr, pinv l tr) -> others o = true -> alive l 0 = true -> p_step l o = Some (l1, e) -> nth_error (p_handles l1) 0 = nth_error (p_handles l) 0.
Proof.
  intros l o l1 e F1 [tr V] O A E. pose proof (p_step_len _ _ _ _ E) as LE. assert (F : few l) by (eapply few_le; eauto). destruct (alive_nth _ _ A) as (h0 & H0 & NG0). pose proof (nth_lt _ _ _ H0) as L0.
  unfold p_step in E. destruct (p_hung l) eqn:HU; [discriminate|].
  destruct o as [|j|i j|i|i|i|i name found|i base lds|name]; simpl in O; try (apply negb_true_iff, Nat.eqb_neq in O).
  - injection E as <- <-. simpl. apply nth_error_app1. exact L0.
  - destruct (alive l j) eqn:A'; [|discriminate]. injection E as E. destruct (alive_nth _ _ A') as (h & H & NG).
    assert (V1 : pinv (mkp (p_datas l) (p_map l) (p_handles l ++ [HClosed]) false) tr) by (apply pinv_handles; [exact V|]; intros k; rewrite count_app; unfold count; simpl; lia).
    destruct (grab_inv _ _ (length (p_handles l)) j HClosed h l1 e V1) as (_ & HS & _); auto; try discriminate.
    + apply (few_le _ l1 F1). apply (f_equal fst) in E. simpl in E. rewrite <- E, grab_len. simpl. lia.
    + simpl. rewrite nth_none_app, Nat.eqb_refl. reflexivity.
    + simpl. apply nth_app_old. exact H.
    + rewrite HS. simpl. rewrite set_nth_other by lia. apply nth_error_app1. exact L0.
  - destruct (alive l i) eqn:A1; [|discriminate]. destruct (alive l j) eqn:B; [|discriminate]. injection E as E. destruct (alive_nth _ _ A1) as (h & H & NG). destruct (alive_nth _ _ B) as (h2 & H2 & NG2).
    destruct (grab_inv _ _ _ _ _ _ _ _ V F H NG H2 NG2 E) as (_ & HS & _). rewrite HS. apply set_nth_other. exact O.
  - destruct (alive l i) eqn:A1; [|discriminate]. injection E as E. destruct (alive_nth _ _ A1) as (h & H & NG). destruct (release_inv _ _ _ _ _ _ V F H NG E) as (_ & HS & _). rewrite HS. apply set_nth_other. exact O.
  - destruct (alive l i) eqn:A1; [|discriminate]. destruct (release_data l i) as [s0 e0] eqn:R. injection E as <- <-. destruct (alive_nth _ _ A1) as (h & H & NG). destruct (release_inv _ _ _ _ _ _ V F H NG R) as (V1 & HS & _). simpl. rewrite set_nth_other by exact O. rewrite HS. apply set_nth_other. exact O.
  - destruct (alive l i); [|discriminate]. injection E as <- <-. reflexivity.
  - destruct (alive l i) eqn:A1; [|discriminate]. injection E as E. destruct (alive_nth _ _ A1) as (h & H & NG). destruct (open_name_inv _ _ _ _ _ _ _ _ V F H NG E) as (_ & h' & HS & _). rewrite HS. apply set_nth_other. exact O.
  - destruct (alive l i) eqn:A1; [|discriminate]. injection E as E. destruct (alive_nth _ _ A1) as (h & H & NG). destruct (open_file_inv _ _ _ _ _ _ _ _ V F H NG E) as (_ & (h' & HS & _) & _). rewrite HS. apply set_nth_other. exact O.
  - destruct (sm_find _ _); injection E as <- <-; reflexivity.
Qed.
Lemma throws_calm : forall e, calm (map ILib e) -> throws e = false.
Proof.
  induction e as [|x e IH]; intros [C1 C2]; [reflexivity|]. simpl in *. rewrite IH by (split; tauto). destruct x; simpl; auto; exfalso; auto.
Qed.
Lemma nth_alive : forall l h, nth_error (p_handles l) 0 = Some h -> h <> HGone -> alive l 0 = true.
Proof. intros l h H N. unfold alive. rewrite H. destruct h; auto; congruence. Qed.

Lemma reset_inv : forall s tr e ok, iinv s tr -> few (i_lib s) -> alive (i_lib s) 0 = true -> i_reset s = (e, ok) ->
  pinv (i_lib s) (lib_events (tr ++ e)) /\ created e = [] /\ (calm (tr ++ e) -> ok = true /\ destroyed e = cur s).
Proof.
  intros s tr e ok V F A E. unfold i_reset in E. destruct (i_ptr s) as [n|] eqn:P.
  - destruct (use_inv (i_lib s) (lib_events tr) 0 (i_pinv _ _ V F) A) as (V1 & _ & [(k & U & H)|[U H]]); rewrite U in E; injection E as <- <-; rewrite lib_app; simpl; rewrite U in V1.
    + split; [exact V1|]. split; [reflexivity|]. intros _. unfold cur. rewrite P. auto.
    + split; [exact V1|]. split; [reflexivity|]. intros [C _]. exfalso. apply C. rewrite in_app_iff. right. left. reflexivity.
  - injection E as <- <-. rewrite app_nil_r. split; [exact (i_pinv _ _ V F)|]. split; [reflexivity|]. intros _. unfold cur. rewrite P. auto.
Qed.
Lemma reset_created : forall s er ok, i_reset s = (er, ok) -> created er = [].
Proof.
  intros s er ok R. unfold i_reset in R. destruct (i_ptr s) as [n|]; [|injection R as <- <-; reflexivity].
  destruct (use (i_lib s) 0) as [|[k|k|k| | |] [|y l]]; injection R as <- <-; simpl; auto; apply created_map.
Qed.
Lemma i_step_inv : forall s tr o s1 e, iinv s tr -> no_reset s o -> i_step s o = Some (s1, e) -> iinv s1 (tr ++ e).
Proof.
  intros s tr o s1 e V NR E. unfold i_step in E. destruct (p_hung (i_lib s) || negb (alive (i_lib s) 0)) eqn:HA; [discriminate|].
  apply orb_false_iff in HA. destruct HA as [HU A]. apply negb_false_iff in A. destruct (alive_nth _ _ A) as (h0 & H0 & NG0).
  destruct o as [name found| | |o]; [| exfalso; apply NR; reflexivity | |].
  - (* create *)
    destruct (i_reset s) as [er ok] eqn:R. destruct ok.
    + destruct (open_name (i_lib s) 0 name found) as [l e1] eqn:O. pose proof (open_name_len (i_lib s) 0 name found) as LN. rewrite O in LN. simpl in LN.
      assert (FF : few l -> few (i_lib s)) by (intros X; eapply few_le; eauto; lia).
      assert (X : few l -> pinv l (lib_events (tr ++ er ++ map ILib e1)) /\ created er = [] /\ (exists h', nth_error (p_handles l) 0 = Some h' /\ h' <> HGone)).
      { intros F. destruct (reset_inv _ _ _ _ V (FF F) A R) as (V1 & C1 & _). destruct (open_name_inv _ _ _ _ _ _ _ _ V1 (FF F) H0 NG0 O) as (V2 & h' & HS & NG').
        split; [rewrite app_assoc, lib_app, lib_map; exact V2|]. split; [exact C1|]. exists h'. rewrite HS. split; [apply set_nth_same; exact (nth_lt _ _ _ H0) | exact NG']. }
      destruct (throws e1) eqn:T.
      * injection E as <- <-. assert (NC : ~ calm (tr ++ er ++ map ILib e1)) by (rewrite !calm_app; intros (_ & _ & C); apply throws_calm in C; congruence).
        constructor; simpl; [intros F; apply X; exact F | tauto | tauto | tauto].
      * assert (U : few l -> (exists k, use l 0 = [EUsed k] /\ nth_error (p_handles l) 0 = Some (HOpen k)) \/ use l 0 = [EThrow]).
        { intros F. destruct (X F) as (V2 & _ & h' & H' & NG'). destruct (use_inv l _ 0 V2 (nth_alive _ _ H' NG')) as (_ & _ & [U|[U _]]); auto. }
        assert (GEN : forall e2, use l 0 = e2 -> (forall k, e2 <> [EUsed k]) -> iinv (mkist l (i_ptr s) (i_next s)) (tr ++ er ++ map ILib e1 ++ map ILib e2)).
        { intros e2 E2 N2. assert (TH : few l -> e2 = [EThrow]) by (intros F; destruct (U F) as [(k & U1 & _)|U1]; [exfalso; apply (N2 k); congruence | congruence]).
          assert (NC : few l -> ~ calm (tr ++ er ++ map ILib e1 ++ map ILib e2)).
          { intros F. rewrite (TH F). rewrite !calm_app. intros (_ & _ & _ & C & _). apply C. left. reflexivity. }
          assert (CS : created er = []) by exact (reset_created _ _ _ R).
          constructor; simpl.
          - intros F. destruct (X F) as (V2 & _ & h' & H' & NG'). rewrite (TH F). rewrite (app_assoc er), app_assoc, lib_app. simpl. apply pinv_events; auto; simpl; intuition discriminate.
          - intros C. rewrite !created_app, CS, !created_map, !app_nil_r. apply (i_seq _ _ V). rewrite calm_app in C. tauto.
          - intros F C. destruct (NC F C).
          - intros F C. destruct (NC F C). }
        destruct (use l 0) as [|[k| k | k | | |] [|x2 l2]] eqn:UE; try (injection E as <- <-; apply (GEN _ eq_refl); intros k'; discriminate).
        injection E as <- <-. clear GEN.
        assert (CS : created er = []) by exact (reset_created _ _ _ R).
        constructor; simpl.
        -- intros F. destruct (X F) as (V2 & _). rewrite (app_assoc er), app_assoc, lib_app. simpl. apply pinv_events; auto; simpl; intuition discriminate.
        -- intros C. rewrite !created_app, CS, !created_map. simpl. rewrite (i_seq _ _ V) by (rewrite calm_app in C; tauto). symmetry. apply (seq_S (i_next s) 0).
        -- intros F C _. destruct (reset_inv _ _ _ _ V (FF F) A R) as (V1 & C1 & C2). assert (C' : calm (tr ++ er)) by (rewrite !calm_app in *; tauto). destruct (C2 C') as [_ D]. rewrite calm_app in C'.
           destruct (i_once _ _ V (FF F) (proj1 C') A) as [O1 _]. rewrite !created_app, !destroyed_app, CS, !created_map, !destroyed_map, D, O1. simpl. rewrite !app_nil_r. split; [reflexivity|].
           intros _. destruct (U F) as [(k' & _ & H')|U1]; [eauto | discriminate].
        -- intros F C AL. destruct (X F) as (_ & _ & h' & H' & NG'). rewrite (nth_alive _ _ H' NG') in AL. discriminate.
    + injection E as <- <-. constructor.
      * intros F. apply (reset_inv _ _ _ _ V F A R).
      * intros C. assert (CS : created er = []) by exact (reset_created _ _ _ R).
        rewrite created_app, CS, app_nil_r. apply (i_seq _ _ V). rewrite calm_app in C. tauto.
      * intros F C. destruct (reset_inv _ _ _ _ V F A R) as (_ & _ & C2). destruct (C2 C). discriminate.
      * intros F C. destruct (reset_inv _ _ _ _ V F A R) as (_ & _ & C2). destruct (C2 C). discriminate.
  - (* delete *)
    destruct (p_step (i_lib s) (PDestroy 0)) as [[l e1]|] eqn:PS; [|discriminate]. injection E as <- <-. destruct (i_reset s) as [er ok] eqn:R. simpl.
    pose proof (p_step_len _ _ _ _ PS) as LE. assert (FF : few l -> few (i_lib s)) by (intros X; eapply few_le; eauto).
    assert (CS : created er = []) by exact (reset_created _ _ _ R).
    assert (DEAD : alive l 0 = false).
    { unfold p_step in PS. rewrite HU, A in PS. pose proof (release_len (i_lib s) 0) as RL. destruct (release_data (i_lib s) 0) as [s0 e0]. injection PS as <- <-. cbn [fst] in RL. unfold alive. cbn [p_handles set_handle]. rewrite set_nth_same; [reflexivity|]. rewrite RL. exact (nth_lt _ _ _ H0). }
    constructor; simpl.
    + intros F. destruct (reset_inv _ _ _ _ V (FF F) A R) as (V1 & _). rewrite app_assoc, lib_app, lib_map. eapply p_step_inv; eauto.
    + intros C. rewrite !created_app, CS, created_map, !app_nil_r. apply (i_seq _ _ V). rewrite calm_app in C. tauto.
    + intros F C AL. congruence.
    + intros F C _. destruct (reset_inv _ _ _ _ V (FF F) A R) as (V1 & _ & C2). rewrite app_assoc, calm_app in C. destruct C as [C _]. destruct (C2 C) as [_ D]. rewrite calm_app in C.
      destruct (i_once _ _ V (FF F) (proj1 C) A) as [O1 _]. rewrite !created_app, !destroyed_app, CS, created_map, destroyed_map, D, !app_nil_r. exact O1.
  - (* others *)
    destruct (others o) eqn:OT; [|discriminate]. destruct (p_step (i_lib s) o) as [[l e1]|] eqn:PS; [|discriminate]. injection E as <- <-.
    pose proof (p_step_len _ _ _ _ PS) as LE. assert (FF : few l -> few (i_lib s)) by (intros X; eapply few_le; eauto).
    assert (K : few l -> nth_error (p_handles l) 0 = nth_error (p_handles (i_lib s)) 0) by (intros F; eapply others_keep; eauto; exists (lib_events tr); apply (i_pinv _ _ V); auto).
    constructor; simpl.
    + intros F. rewrite lib_app, lib_map. eapply p_step_inv; eauto. exact (i_pinv _ _ V).
    + intros C. rewrite created_app, created_map, app_nil_r. apply (i_seq _ _ V). rewrite calm_app in C. tauto.
    + intros F C _. rewrite calm_app in C. rewrite created_app, created_map, destroyed_app, destroyed_map, !app_nil_r, (K F). apply (i_once _ _ V); tauto.
    + intros F C AL. exfalso. unfold alive in *. rewrite (K F) in AL. congruence.
Qed.
Theorem i_run_inv : forall ops s tr, run i_step i_init ops = Some (s, tr) -> allowed i_step no_reset i_init ops -> iinv s tr.
Proof.
  apply (allowed_run_ind i_step no_reset iinv).
  - constructor; simpl.
    + intros _. apply pinv_init. intros h [<-|[]]. reflexivity.
    + reflexivity.
    + intros _ _ _. split; [reflexivity | congruence].
    + discriminate.
  - intros. eapply i_step_inv; eauto.
Qed.

(* ------------------------------------------------------------------ manager *)
Definition objs (m : smap (nat * option nat)) : list nat := map (fun e => fst (snd e)) m.
Definition pobjs (p : list (list Z * nat * nat)) : list nat := map (fun e => snd (fst e)) p.
Lemma objs_insert : forall m id v, sorted m -> sm_find m id = None -> Permutation (objs (sm_insert m id v)) (fst v :: objs m).
Proof.
  unfold objs. induction m as [|[k0 v0] m IH]; intros id v S NF; simpl; [reflexivity|]. destruct S as [S1 S2]. rewrite sm_find_cons in NF.
  destruct (lex_ltb id k0); [reflexivity|]. destruct (str_eqb k0 id); [discriminate|]. simpl. rewrite IH by assumption. apply perm_swap.
Qed.
Lemma insert_in_use : forall (m : smap (nat * option nat)) id v w, sorted m -> sm_find m id = Some w -> sm_insert m id v = m.
Proof.
  induction m as [|[k0 v0] m IH]; intros id v w S NF; [discriminate|]. destruct S as [S1 S2]. rewrite sm_find_cons in NF. simpl.
  destruct (str_eqb k0 id) eqn:E.
  - apply str_eqb_eq in E. subst. rewrite lex_irrefl. reflexivity.
  - destruct (lex_ltb id k0) eqn:L; [|rewrite (IH id v w S2 NF); reflexivity].
    exfalso. apply sm_find_in in NF; [|exact S2]. pose proof (S1 _ NF) as X. simpl in X. rewrite (lex_asym _ _ L) in X. discriminate.
Qed.
Lemma objs_erase : forall m id v, sorted m -> sm_find m id = Some v -> Permutation (objs m) (fst v :: objs (sm_erase m id)).
Proof.
  unfold objs, sm_erase. induction m as [|[k0 v0] m IH]; intros id v S NF; [discriminate|]. destruct S as [S1 S2]. rewrite sm_find_cons in NF. simpl. destruct (str_eqb k0 id) eqn:E; simpl.
  - injection NF as ->. apply str_eqb_eq in E. subst. constructor. assert (X : filter (fun e => negb (str_eqb (fst e) id)) m = m).
    { clear IH. induction m as [|[k1 v1] m IHm]; [reflexivity|]. simpl. destruct (str_eqb k1 id) eqn:E1; simpl.
      - apply str_eqb_eq in E1. subst. pose proof (S1 (id, v1) (or_introl eq_refl)) as X. simpl in X. rewrite lex_irrefl in X. discriminate.
      - f_equal. apply IHm; [intros e I; apply S1; right; exact I | apply S2]. }
    rewrite X. reflexivity.
  - rewrite (IH id v S2 NF). apply perm_swap.
Qed.
Lemma objs_set : forall m id v w, sorted m -> sm_find m id = Some v -> Permutation (fst w :: objs m) (fst v :: objs (sm_set m id w)).
Proof.
  unfold objs, sm_set. induction m as [|[k0 v0] m IH]; intros id v w S NF; [discriminate|]. destruct S as [S1 S2]. rewrite sm_find_cons in NF. simpl. destruct (str_eqb k0 id) eqn:E; simpl.
  - injection NF as ->. apply str_eqb_eq in E. subst. rewrite perm_swap. do 2 constructor. match goal with |- Permutation _ (map _ (map ?f m)) => assert (X : map f m = m) end.
    { clear IH. induction m as [|[k1 v1] m IHm]; [reflexivity|]. simpl. destruct (str_eqb k1 id) eqn:E1; simpl.
      - apply str_eqb_eq in E1. subst. pose proof (S1 (id, v1) (or_introl eq_refl)) as X. simpl in X. rewrite lex_irrefl in X. discriminate.
      - f_equal. apply IHm; [intros e I; apply S1; right; exact I | apply S2]. }
    rewrite X. reflexivity.
  - rewrite perm_swap. rewrite (IH id v w S2 NF). apply perm_swap.
Qed.
Lemma made_app : forall a b, made (a ++ b) = made a ++ made b.
Proof. intros. apply flat_map_app. Qed.
Lemma gone_app : forall a b, gone (a ++ b) = gone a ++ gone b.
Proof. intros. apply flat_map_app. Qed.
Lemma pend_split : forall (l : list (list Z * nat * nat)) k x, nth_error l k = Some x -> Permutation l (x :: firstn k l ++ skipn (S k) l).
Proof.
  induction l as [|y l IH]; intros [|k] x H; try discriminate H.
  - injection H as ->. reflexivity.
  - change (nth_error l k = Some x) in H. specialize (IH _ _ H). change (firstn (S k) (y :: l)) with (y :: firstn k l). change (skipn (S (S k)) (y :: l)) with (skipn (S k) l). rewrite IH at 1. apply perm_swap.
Qed.

Definition held (s : mst) : list nat := objs (m_map s) ++ pobjs (m_pend s).
Record minv (s : mst) (tr : list mev) : Prop := mkminv {
  n_sorted : sorted (m_map s);
  n_made : made tr = seq 0 (m_next s);
  n_nodup : NoDup (gone tr ++ held s);
  n_incl : forall n, In n (gone tr ++ held s) -> In n (made tr)
}.
Lemma fresh_not : forall s tr, minv s tr -> ~ In (m_next s) (gone tr ++ held s).
Proof. intros s tr V X. apply (n_incl _ _ V) in X. rewrite (n_made _ _ V) in X. apply in_seq in X. lia. Qed.
Lemma clear_gone : forall m, gone (map (fun x : list Z * (nat * option nat) => GDestroyed (fst (snd x)) (snd (snd x))) m) = objs m.
Proof. unfold gone, objs. induction m; simpl; congruence. Qed.
Lemma clear_made : forall m, made (map (fun x : list Z * (nat * option nat) => GDestroyed (fst (snd x)) (snd (snd x))) m) = [].
Proof. unfold made. induction m; simpl; congruence. Qed.
Lemma perm_mid : forall (a b c : list nat) x, Permutation (a ++ (x :: b) ++ c) (x :: a ++ b ++ c).
Proof. intros. simpl. symmetry. apply Permutation_middle. Qed.

(** an object disappears only under an identifier in use *)
Definition unused (s : mst) (o : mop) : Prop :=
  match o with
  | MAdd id => sm_find (m_map s) id = None
  | MLoaded k => forall id n lib, nth_error (m_pend s) k = Some (id, n, lib) -> sm_find (m_map s) id = None
  | _ => True
  end.
Lemma m_step_bal : forall s tr o s1 e, minv s tr -> m_step s o = Some (s1, e) -> sorted (m_map s1) /\ m_next s1 = m_next s + length (made e) /\ made e = seq (m_next s) (length (made e)) /\
  exists lost, Permutation (gone e ++ held s1 ++ lost) (made e ++ held s) /\ (unused s o -> lost = []).
Proof.
  intros s tr o s1 e V E. pose proof (n_sorted _ _ V) as SO. unfold m_step in E. destruct o as [id|id lib|k|id|id| |id|res].
  - injection E as <- <-. simpl. split; [apply sm_insert_sorted; exact SO|]. split; [lia|]. split; [reflexivity|]. unfold held. simpl. destruct (sm_find (m_map s) id) as [w|] eqn:F.
    + exists [m_next s]. rewrite (insert_in_use _ _ _ _ SO F). split; [symmetry; apply Permutation_cons_append|]. discriminate.
    + exists []. rewrite app_nil_r. split; [|reflexivity]. rewrite (objs_insert _ _ _ SO F). reflexivity.
  - destruct (sm_find (m_map s) id) as [w|] eqn:F; injection E as <- <-; simpl.
    + split; [exact SO|]. split; [lia|]. split; [reflexivity|]. exists []. rewrite app_nil_r. split; reflexivity.
    + split; [exact SO|]. split; [lia|]. split; [reflexivity|]. exists []. rewrite app_nil_r. split; [|reflexivity]. unfold held. simpl. unfold pobjs. rewrite map_app. simpl. rewrite app_assoc. symmetry. apply Permutation_cons_append.
  - destruct (nth_error (m_pend s) k) as [[[id n] lib]|] eqn:NE; [|discriminate]. injection E as <- <-. simpl. split; [apply sm_insert_sorted; exact SO|]. split; [lia|]. split; [reflexivity|].
    pose proof (pend_split _ _ _ NE) as PS. apply (Permutation_map (fun e : list Z * nat * nat => snd (fst e))) in PS. simpl in PS. unfold held. simpl. fold (pobjs (m_pend s)) in PS.
    destruct (sm_find (m_map s) id) as [w|] eqn:F.
    + exists [n]. rewrite (insert_in_use _ _ _ _ SO F). split; [|intros U; rewrite (U _ _ _ NE) in F; discriminate]. rewrite PS, <- app_assoc. apply Permutation_app_head. symmetry. apply Permutation_cons_append.
    + exists []. rewrite app_nil_r. split; [|reflexivity]. rewrite (objs_insert _ _ _ SO F), PS. simpl. apply Permutation_middle.
  - destruct (sm_find (m_map s) id) as [[n h]|] eqn:F; injection E as <- <-; simpl.
    + split; [apply sm_set_sorted; exact SO|]. split; [lia|]. split; [reflexivity|]. exists []. rewrite app_nil_r. split; [|reflexivity]. unfold held. simpl.
      change (n :: objs (sm_set (m_map s) id (m_next s, h)) ++ pobjs (m_pend s)) with ((n :: objs (sm_set (m_map s) id (m_next s, h))) ++ pobjs (m_pend s)).
      change (m_next s :: objs (m_map s) ++ pobjs (m_pend s)) with ((m_next s :: objs (m_map s)) ++ pobjs (m_pend s)). apply Permutation_app_tail. symmetry. apply (objs_set _ _ (n, h) (m_next s, h)); assumption.
    + split; [exact SO|]. split; [lia|]. split; [reflexivity|]. exists []. rewrite app_nil_r. split; reflexivity.
  - destruct (sm_find (m_map s) id) as [[n h]|] eqn:F; injection E as <- <-; simpl.
    + split; [apply sm_erase_sorted; exact SO|]. split; [lia|]. split; [reflexivity|]. exists []. rewrite app_nil_r. split; [|reflexivity]. unfold held. simpl.
      change (n :: objs (sm_erase (m_map s) id) ++ pobjs (m_pend s)) with ((n :: objs (sm_erase (m_map s) id)) ++ pobjs (m_pend s)). apply Permutation_app_tail. symmetry. apply (objs_erase _ _ (n, h)); assumption.
    + split; [exact SO|]. split; [lia|]. split; [reflexivity|]. exists []. rewrite app_nil_r. split; reflexivity.
  - injection E as <- <-. rewrite clear_made, clear_gone. simpl. split; [exact Logic.I|]. split; [lia|]. split; [reflexivity|]. exists []. unfold held. simpl. rewrite app_nil_r. split; reflexivity.
  - injection E as <- <-. destruct (sm_find (m_map s) id) as [[n h]|]; simpl; (split; [exact SO|]; split; [lia|]; split; [reflexivity|]; exists []; rewrite app_nil_r; split; reflexivity).
  - injection E as <- <-. destruct (pm_find (m_map s) res) as [[i [n h]]|]; simpl; (split; [exact SO|]; split; [lia|]; split; [reflexivity|]; exists []; rewrite app_nil_r; split; reflexivity).
Qed.
Lemma nodup_app_l : forall (a b : list nat), NoDup (a ++ b) -> NoDup a.
Proof. induction a as [|x a IH]; intros b N; [constructor|]. inversion N; subst. constructor; [rewrite in_app_iff in *; tauto | eauto]. Qed.
Lemma m_step_inv : forall s tr o s1 e, minv s tr -> m_step s o = Some (s1, e) -> minv s1 (tr ++ e).
Proof.
  intros s tr o s1 e V E. destruct (m_step_bal _ _ _ _ _ V E) as (SO & NX & MS & lost & P & _).
  assert (MD : made (tr ++ e) = seq 0 (m_next s1)) by (rewrite made_app, (n_made _ _ V), MS, NX, seq_app; reflexivity).
  assert (PP : Permutation ((gone (tr ++ e) ++ held s1) ++ lost) (made e ++ gone tr ++ held s)).
  { rewrite gone_app, <- !app_assoc, P. rewrite app_assoc, (Permutation_app_comm (gone tr)), <- app_assoc. reflexivity. }
  assert (ND : NoDup ((gone (tr ++ e) ++ held s1) ++ lost)).
  { apply (Permutation_NoDup (Permutation_sym PP)). rewrite MS. clear - V. induction (length (made e)) as [|n IH]; [exact (n_nodup _ _ V)|].
    rewrite seq_S, <- app_assoc. apply (Permutation_NoDup (l := (m_next s + n) :: seq (m_next s) n ++ gone tr ++ held s)); [apply Permutation_middle|]. constructor; [|exact IH].
    rewrite in_app_iff. intros [X|X]; [apply in_seq in X; lia|]. apply (n_incl _ _ V) in X. rewrite (n_made _ _ V) in X. apply in_seq in X. lia. }
  constructor; auto.
  - eapply nodup_app_l; eauto.
  - intros n I. rewrite made_app, in_app_iff. assert (I2 : In n (made e ++ gone tr ++ held s)) by (eapply Permutation_in; [exact PP|]; rewrite in_app_iff; auto). rewrite in_app_iff in I2. destruct I2 as [I2|I2]; [auto|]. left. exact (n_incl _ _ V _ I2).
Qed.
Lemma minv_init : minv m_init [].
Proof. constructor; simpl; auto. constructor. Qed.
Theorem m_run_inv : forall ops s tr, run m_step m_init ops = Some (s, tr) -> minv s tr.
Proof. apply (run_ind m_step minv); [exact minv_init | intros; eapply m_step_inv; eauto]. Qed.
Theorem m_run_bal : forall ops s tr, run m_step m_init ops = Some (s, tr) -> allowed m_step unused m_init ops -> Permutation (made tr) (gone tr ++ held s).
Proof.
  intros ops s tr R A. refine (proj2 (allowed_run_ind m_step unused (fun s tr => minv s tr /\ Permutation (made tr) (gone tr ++ held s)) m_init _ _ ops s tr R A)).
  - split; [exact minv_init | reflexivity].
  - clear. intros s tr o s1 e [V P] U E. split; [eapply m_step_inv; eauto|]. destruct (m_step_bal _ _ _ _ _ V E) as (_ & _ & _ & lost & P1 & L). rewrite (L U), app_nil_r in P1.
    rewrite made_app, gone_app, <- app_assoc, P1, P. rewrite Permutation_app_comm. rewrite !app_assoc. apply Permutation_app_tail. apply Permutation_app_comm.
Qed.
Lemma find_loop_in : forall {A} res (l : smap A) id x, find_loop res l = Some (id, x) -> In (id, x) l.
Proof.
  induction l as [|[k v] l IH]; intros id x E; [discriminate|]. simpl in E. destruct (is_prefix k res).
  - destruct (_ || _); [injection E as -> ->; left; reflexivity | right; auto].
  - destruct l as [|[k' v'] l']; [discriminate|]. destruct (_ <? _)%Z; [right; auto | discriminate].
Qed.
Lemma pm_find_in : forall {A} (m : smap A) res id x, sorted m -> pm_find m res = Some (id, x) -> In (id, x) m.
Proof. intros A m res id x S E. apply find_loop_in in E. apply sm_down_in in E; [tauto | exact S]. Qed.
Theorem m_run_got : forall ops s tr, run m_step m_init ops = Some (s, tr) -> forall a n b, tr = a ++ GGot n :: b -> In n (made a) /\ ~ In n (gone a).
Proof.
  intros ops s tr R. refine (proj2 (run_ind m_step (fun s tr => minv s tr /\ forall a n b, tr = a ++ GGot n :: b -> In n (made a) /\ ~ In n (gone a)) m_init _ _ ops s tr R)).
  - split; [exact minv_init|]. intros [|? ?]; discriminate.
  - clear. intros s tr o s1 e [V P] E. split; [eapply m_step_inv; eauto|]. intros a n b X. apply split_snoc in X. destruct X as [(b' & X & _)|(a' & -> & X)]; [eauto|].
    assert (G : a' = [] /\ In n (objs (m_map s))).
    { unfold m_step in E. destruct o as [id|id lib|k|id|id| |id|res].
      - injection E as <- <-. destruct a' as [|? [|? ?]]; discriminate.
      - destruct (sm_find _ _); injection E as <- <-; destruct a' as [|? [|? ?]]; discriminate.
      - destruct (nth_error (m_pend s) k) as [[[? ?] ?]|]; [|discriminate]. injection E as <- <-. destruct a'; discriminate.
      - destruct (sm_find _ _) as [[? ?]|]; injection E as <- <-; destruct a' as [|? [|? [|? ?]]]; discriminate.
      - destruct (sm_find _ _) as [[? ?]|]; injection E as <- <-; destruct a' as [|? [|? ?]]; discriminate.
      - injection E as <- <-. exfalso. assert (I : In (GGot n) (map (fun x : list Z * (nat * option nat) => GDestroyed (fst (snd x)) (snd (snd x))) (m_map s))) by (rewrite X; rewrite in_app_iff; right; left; reflexivity). apply in_map_iff in I. destruct I as (? & I & _). discriminate.
      - destruct (sm_find (m_map s) id) as [[n' h]|] eqn:F; injection E as <- <-; destruct a' as [|? [|? ?]]; try discriminate. injection X as -> _. split; [reflexivity|]. apply sm_find_in in F; [|exact (n_sorted _ _ V)]. apply (in_map (fun e => fst (snd e))) in F. exact F.
      - destruct (pm_find (m_map s) res) as [[i [n' h]]|] eqn:F; injection E as <- <-; destruct a' as [|? [|? ?]]; try discriminate. injection X as -> _. split; [reflexivity|]. apply pm_find_in in F; [|exact (n_sorted _ _ V)]. apply (in_map (fun e => fst (snd e))) in F. exact F. }
    destruct G as [-> G]. rewrite app_nil_r. assert (H : In n (held s)) by (unfold held; rewrite in_app_iff; auto). split; [apply (n_incl _ _ V); rewrite in_app_iff; auto|].
    intros Y. pose proof (n_nodup _ _ V) as ND. clear - ND Y H. induction (gone tr) as [|y l IH]; [destruct Y|]. inversion ND; subst. destruct Y as [->|Y]; [rewrite in_app_iff in *; tauto | auto].
Qed.

(** made and destroyed the same way *)
Definition swaps_own (s : mst) (o : mop) : Prop := match o with MReplace id => forall n h, sm_find (m_map s) id = Some (n, h) -> h = None | _ => True end.
Record winv (s : mst) (tr : list mev) : Prop := mkwinv {
  w_minv : minv s tr;
  w_map : forall id n h, In (id, (n, h)) (m_map s) -> In (GMade n h) tr;
  w_pend : forall id n lib, In (id, n, lib) (m_pend s) -> In (GMade n (Some lib)) tr;
  w_gone : forall n h, In (GDestroyed n h) tr -> In (GMade n h) tr
}.
Lemma w_step : forall s tr o s1 e, winv s tr -> swaps_own s o -> m_step s o = Some (s1, e) -> winv s1 (tr ++ e).
Proof.
  intros s tr o s1 e V SW E. pose proof (w_minv _ _ V) as MI. pose proof (m_step_inv _ _ _ _ _ MI E) as MI1. pose proof (n_sorted _ _ MI) as SO.
  assert (OLD : forall x, In x tr -> In x (tr ++ e)) by (intros; rewrite in_app_iff; auto).
  unfold m_step in E. destruct o as [id|id lib|k|id|id| |id|res].
  - injection E as <- <-. constructor; simpl; auto.
    + intros i n h I. apply sm_insert_in in I. destruct I as [I|I]; [injection I as -> -> ->; rewrite in_app_iff; right; left; reflexivity | apply OLD; eapply w_map; eauto].
    + intros i n l I. apply OLD. eapply w_pend; eauto.
    + intros n h I. rewrite in_app_iff in I. destruct I as [I|[I|[]]]; [apply OLD; eapply w_gone; eauto | discriminate].
  - destruct (sm_find (m_map s) id) as [w|] eqn:F; injection E as <- <-.
    + constructor; simpl; auto; [intros; apply OLD; eapply w_map; eauto | intros; apply OLD; eapply w_pend; eauto |]. intros n h I. rewrite in_app_iff in I. destruct I as [I|[I|[]]]; [apply OLD; eapply w_gone; eauto | discriminate].
    + constructor; simpl; auto; [intros; apply OLD; eapply w_map; eauto | |].
      * intros i n l I. rewrite in_app_iff in I. destruct I as [I|[I|[]]]; [apply OLD; eapply w_pend; eauto|]. injection I as <- <- <-. rewrite in_app_iff. right. left. reflexivity.
      * intros n h I. rewrite in_app_iff in I. destruct I as [I|[I|[]]]; [apply OLD; eapply w_gone; eauto | discriminate].
  - destruct (nth_error (m_pend s) k) as [[[id n] lib]|] eqn:NE; [|discriminate]. injection E as <- <-. constructor; simpl; auto.
    + intros i n' h I. apply sm_insert_in in I. destruct I as [I|I]; [injection I as -> -> ->; apply OLD; apply (w_pend _ _ V id); eapply nth_error_In; eauto | apply OLD; eapply w_map; eauto].
    + intros i n' l I. apply OLD. apply (w_pend _ _ V i). eapply Permutation_in; [symmetry; apply (pend_split _ _ _ NE)|]. right. exact I.
    + intros n' h I. rewrite app_nil_r in *. eapply w_gone; eauto.
  - destruct (sm_find (m_map s) id) as [[n h]|] eqn:F; injection E as <- <-.
    + pose proof (SW _ _ F) as ->. constructor; simpl; auto.
      * intros i n' h' I. apply sm_find_in in I; [|apply sm_set_sorted; exact SO]. rewrite sm_find_set in I. destruct (str_eqb id i).
        -- rewrite F in I. injection I as <- <-. rewrite in_app_iff. right. left. reflexivity.
        -- apply OLD. apply (w_map _ _ V i). apply sm_find_in; assumption.
      * intros i n' l I. apply OLD. eapply w_pend; eauto.
      * intros n' h' I. rewrite in_app_iff in I. destruct I as [I|[I|[I|[]]]]; [apply OLD; eapply w_gone; eauto | discriminate |]. injection I as <- <-. apply OLD. apply (w_map _ _ V id). apply sm_find_in; assumption.
    + constructor; simpl; auto; [intros; apply OLD; eapply w_map; eauto | intros; apply OLD; eapply w_pend; eauto |]. intros n h I. rewrite in_app_iff in I. destruct I as [I|[I|[]]]; [apply OLD; eapply w_gone; eauto | discriminate].
  - destruct (sm_find (m_map s) id) as [[n h]|] eqn:F; injection E as <- <-.
    + constructor; simpl; auto.
      * intros i n' h' I. apply OLD. apply (w_map _ _ V i). unfold sm_erase in I. apply filter_In in I. tauto.
      * intros i n' l I. apply OLD. eapply w_pend; eauto.
      * intros n' h' I. rewrite in_app_iff in I. destruct I as [I|[I|[]]]; [apply OLD; eapply w_gone; eauto|]. injection I as <- <-. apply OLD. apply (w_map _ _ V id). apply sm_find_in; assumption.
    + constructor; simpl; auto; [intros; apply OLD; eapply w_map; eauto | intros; apply OLD; eapply w_pend; eauto |]. intros n h I. rewrite in_app_iff in I. destruct I as [I|[I|[]]]; [apply OLD; eapply w_gone; eauto | discriminate].
  - injection E as <- <-. constructor; simpl; auto; [tauto | intros; apply OLD; eapply w_pend; eauto |].
    intros n h I. rewrite in_app_iff in I. destruct I as [I|I]; [apply OLD; eapply w_gone; eauto|]. apply in_map_iff in I. destruct I as ([i [n' h']] & I & J). simpl in I. injection I as <- <-. apply OLD. eapply w_map; eauto.
  - injection E as <- <-. constructor; simpl; auto; [intros; apply OLD; eapply w_map; eauto | intros; apply OLD; eapply w_pend; eauto |]. intros n h I. rewrite in_app_iff in I. destruct I as [I|[I|[]]]; [apply OLD; eapply w_gone; eauto|]. destruct (sm_find _ _) as [[? ?]|]; discriminate.
  - injection E as <- <-. constructor; simpl; auto; [intros; apply OLD; eapply w_map; eauto | intros; apply OLD; eapply w_pend; eauto |]. intros n h I. rewrite in_app_iff in I. destruct I as [I|[I|[]]]; [apply OLD; eapply w_gone; eauto|]. destruct (pm_find _ _) as [[? [? ?]]|]; discriminate.
Qed.
Lemma made_unique : forall tr n h h', NoDup (made tr) -> In (GMade n h) tr -> In (GMade n h') tr -> h = h'.
Proof.
  assert (IM : forall tr n h, In (GMade n h) tr -> In n (made tr)) by (intros tr n h I; unfold made; apply in_flat_map; exists (GMade n h); split; [exact I | left; reflexivity]).
  induction tr as [|x tr IH]; intros n h h' N I J; [destruct I|]. simpl in *. destruct I as [->|I], J as [J|J].
  - congruence.
  - exfalso. simpl in N. inversion N; subst. eauto.
  - subst. exfalso. simpl in N. inversion N; subst. eauto.
  - apply (IH n); auto. destruct x; simpl in N; auto. inversion N; auto.
Qed.
Theorem m_run_way : forall ops s tr, run m_step m_init ops = Some (s, tr) -> allowed m_step swaps_own m_init ops -> winv s tr.
Proof.
  apply (allowed_run_ind m_step swaps_own winv).
  - constructor; simpl; try tauto. exact minv_init.
  - intros. eapply w_step; eauto.
Qed.
