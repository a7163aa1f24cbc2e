(** Proofs about authentication. *)
From Coq Require Import String ZArith List Bool Lia.
From Verif Require Import Base SMap AlgModel DictModel DictProofs HttpModel HttpSpec ServerModel ServerSpec ServerProofs UserModel UserSpec UserProofs AuthModel AuthSpec.
Import ListNotations.

(* ------------------------------------------------------------------ histories *)

Section Hist.
Variables (b : build) (ck : bool) (w0 : aworld).
Lemma a_run_app w l1 l2 : a_run b ck w (l1 ++ l2) = obind (a_run b ck w l1) (fun w' => a_run b ck w' l2).
Proof. revert w. induction l1 as [|o l1 IH]; intros w; [reflexivity|]. cbn [app a_run]. destruct (a_step b ck w o); cbn [obind]; auto. Qed.
Lemma a_run_snoc w l o : a_run b ck w (l ++ [o]) = obind (a_run b ck w l) (fun w' => a_step b ck w' o).
Proof. rewrite a_run_app. destruct (a_run b ck w l); cbn [obind a_run]; auto. destruct (a_step b ck a o); reflexivity. Qed.
End Hist.

(** a request changes only the cache *)
Definition same_rules (w w' : aworld) : Prop :=
  w_users w' = w_users w /\ w_restrict w' = w_restrict w /\ w_permit w' = w_permit w /\ w_login w' = w_login w /\ w_logout w' = w_logout w /\ w_redirect w' = w_redirect w.
Lemma same_refl w : same_rules w w. Proof. repeat split. Qed.
Lemma same_set w c t : same_rules w (set_cache w c t). Proof. repeat split. Qed.
Lemma same_trans w1 w2 w3 : same_rules w1 w2 -> same_rules w2 w3 -> same_rules w1 w3.
Proof. intros (A1 & A2 & A3 & A4 & A5 & A6) (B1 & B2 & B3 & B4 & B5 & B6). repeat split; congruence. Qed.
Lemma same_expire l t w : same_rules w (expire l t w).
Proof. unfold expire. destruct (_ <? _); [apply same_set|apply same_refl]. Qed.
Lemma basic_same b t w m r u w' : basic_handle b t w m = Ok (r, u, w') -> same_rules w w'.
Proof.
  unfold basic_handle. destruct (negb _); [intros H; injection H as <- <- <-; apply same_refl|].
  pose proof (same_expire BASIC_EXPIRATION t w) as SE. set (w1 := expire BASIC_EXPIRATION t w) in *. clearbody w1.
  destruct (d_get _ _) as [|c a]; [intros H; injection H as <- <- <-; auto|].
  destruct (parse_authorization _) as [cred|]; [|intros H; injection H as <- <- <-; auto].
  destruct (sm_find _ _) as [[t0 u0]|]; [intros H; injection H as <- <- <-; eapply same_trans; [exact SE|apply same_set]|].
  destruct (parse_credentials cred) as [[[x y]|]|]; cbn [obind]; try discriminate; [|intros H; injection H as <- <- <-; auto].
  destruct (get_user _ _ _ _) as [[]|]; cbn [obind]; try discriminate; intros H; injection H as <- <- <-; auto.
Qed.
Lemma login_same b t rnd w m r w' : process_login b t rnd w m = Ok (r, w') -> same_rules w w'.
Proof.
  unfold process_login. destruct (_ && _); [intros H; injection H as <- <-; apply same_refl|]. destruct (str_eqb _ (w_login w)).
  - destruct (get_user _ _ _ _) as [[]|]; cbn [obind]; try discriminate; intros H; injection H as <- <-; [apply same_set|apply same_refl].
  - intros H; injection H as <- <-. destruct (d_get _ _); [apply same_refl|apply same_set].
Qed.
Lemma cookie_same b t rnd w m r u w' x : cookie_handle b t rnd w m = Ok (r, u, w', x) -> same_rules w w'.
Proof.
  unfold cookie_handle. destruct (process_login _ _ _ _ _) as [[[r1|] w1]|] eqn:E; cbn [obind]; try discriminate; apply login_same in E.
  - intros H; injection H as <- <- <- <-. auto.
  - destruct (negb _); [intros H; injection H as <- <- <- <-; auto|]. destruct (_ && _); [intros H; injection H as <- <- <- <-; auto|].
    assert (same_rules w (expire COOKIE_EXPIRATION t w1)) as SE by (eapply same_trans; [exact E|apply same_expire]).
    set (w2 := expire COOKIE_EXPIRATION t w1) in *. clearbody w2. destruct (d_get _ _); [intros H; injection H as <- <- <- <-; auto|].
    destruct (sm_find _ _) as [[t0 u0]|]; intros H; injection H as <- <- <- <-; auto.
Qed.
Lemma handle_same b ck t rnd w m r u w' : a_handle b ck t rnd w m = Ok (r, u, w') -> same_rules w w'.
Proof.
  unfold a_handle. destruct ck; [|apply basic_same]. destruct (cookie_handle _ _ _ _ _) as [[[[r1 u1] w1] x]|] eqn:E; cbn [obind fst]; [|discriminate].
  intros H; injection H as -> -> ->. eapply cookie_same; eauto.
Qed.

(* ------------------------------------------------------------------ when authentication is needed *)

Definition set_is (s : smap unit) (P : list Z -> Prop) : Prop := sorted s /\ forall c, In (c, tt) s <-> exists r, P r /\ cleaned r c.
Lemma set_is_insert s P r : set_is s P -> set_is (sm_insert s (strip_slash r) tt) (fun x => P x \/ x = r).
Proof.
  intros [S H]. split; [apply sm_insert_sorted; auto|]. intros c. rewrite <- sm_find_in by (apply sm_insert_sorted; auto).
  rewrite sm_find_insert by auto. destruct (str_eqb (strip_slash r) c) eqn:E.
  - apply str_eqb_eq in E. subst c. split.
    + intros _. exists r. split; auto. apply cleaned_strip; auto.
    + intros _. destruct (sm_find s (strip_slash r)) as [[]|]; reflexivity.
  - apply str_eqb_neq in E. rewrite sm_find_in by auto. rewrite H. split; intros (x & X & C).
    + eauto.
    + destruct X as [X| ->]; eauto. exfalso. apply cleaned_strip in C. congruence.
Qed.
Lemma set_is_ext s P Q : (forall x, P x <-> Q x) -> set_is s P -> set_is s Q.
Proof. intros E [S H]. split; auto. intros c. rewrite H. split; intros (x & X & C); exists x; split; auto; apply E; auto. Qed.
Lemma user_ops_app l1 l2 : user_ops (l1 ++ l2) = user_ops l1 ++ user_ops l2.
Proof. apply flat_map_app. Qed.
Lemma u_run_app b us l1 l2 : u_run b us (l1 ++ l2) = u_run b (u_run b us l1) l2.
Proof. unfold u_run. apply fold_left_app. Qed.
Definition rules (b : build) (ops : list aop) (w : aworld) : Prop :=
  w_users w = u_run b [] (user_ops ops) /\ set_is (w_restrict w) (fun r => In (ORestrict r) ops) /\ set_is (w_permit w) (fun r => In (OPermit r) ops).
Lemma rules_run b ck t lin lout red ops : forall w, a_run b ck (a_init t lin lout red) ops = Ok w -> rules b ops w.
Proof.
  induction ops as [|o ops IH] using rev_ind; intros w.
  - intros H. injection H as <-. split; [reflexivity|]. split; (split; [exact I|]; intros c; split; [intros []|intros (r & [] & _)]).
  - rewrite a_run_snoc. destruct (a_run b ck _ ops) as [w1|]; cbn [obind]; [|discriminate]. destruct (IH w1 eq_refl) as (R1 & R2 & R3). clear IH.
    assert (forall P, (forall x, o <> P x) -> forall s, set_is s (fun r => In (P r) ops) -> set_is s (fun r => In (P r) (ops ++ [o]))) as KEEP.
    { intros P N s. apply set_is_ext. intros x. rewrite in_app_iff. split; [auto|]. intros [H|[H|[]]]; auto. exfalso. eapply N; eauto. }
    assert (forall P r, (forall x y : list Z, P x = P y -> x = y) -> o = P r -> forall s, set_is s (fun r => In (P r) ops) -> set_is (sm_insert s (strip_slash r) tt) (fun r => In (P r) (ops ++ [o]))) as ADD.
    { intros P r INJ -> s H. apply set_is_insert with (r := r) in H. eapply set_is_ext; [|exact H]. intros x. cbn. rewrite in_app_iff. cbn [In].
      split; [intros [A| ->]; auto|intros [A|[A|[]]]; auto]. }
    unfold rules. rewrite user_ops_app, u_run_app. destruct o as [u|r|r|n v|t1 rnd m]; cbn [a_step user_ops flat_map app].
    + intros H; injection H as <-. cbn [w_users w_restrict w_permit]. split; [rewrite R1; reflexivity|]. split; apply KEEP; auto; discriminate.
    + intros H; injection H as <-. cbn [w_users w_restrict w_permit]. split; [exact R1|]. split; [apply ADD; auto; congruence|apply KEEP; auto; discriminate].
    + intros H; injection H as <-. cbn [w_users w_restrict w_permit]. split; [exact R1|]. split; [apply KEEP; auto; discriminate|apply ADD; auto; congruence].
    + intros H; injection H as <-. assert (forall w', w_users w' = w_users w1 -> w_restrict w' = w_restrict w1 -> w_permit w' = w_permit w1 ->
        w_users w' = u_run b (u_run b [] (user_ops ops)) [] /\ set_is (w_restrict w') (fun r => In (ORestrict r) (ops ++ [OOption n v])) /\ set_is (w_permit w') (fun r => In (OPermit r) (ops ++ [OOption n v]))) as G.
      { intros w' -> -> ->. split; [exact R1|]. split; apply KEEP; auto; discriminate. }
      destruct ck; [|apply G; auto]. unfold set_option. repeat destruct (str_eqb n _); apply G; auto.
    + destruct (a_handle b ck t1 rnd w1 m) as [[[r u] w2]|] eqn:E; cbn [obind snd]; [|discriminate]. intros H; injection H as <-.
      apply handle_same in E as (-> & -> & -> & _). split; [exact R1|]. split; apply KEEP; auto; discriminate.
Qed.
Lemma find_resource_covers s P path : set_is s P -> (find_resource s path = true <-> exists r c, P r /\ cleaned r c /\ covers c path).
Proof.
  intros [S H]. unfold find_resource. pose proof (search_best s path S) as B. destruct (find _ _) as [[c []]|]; cbn [fst] in B.
  - destruct B as (I & C & _). apply H in I as (r & R & CL). split; eauto.
  - split; [discriminate|]. intros (r & c & R & CL & C). exfalso. apply (B (c, tt)); auto. apply H. eauto.
Qed.
Lemma need_spec b ck t lin lout red ops w m : real_hashes b -> Forall (sound_call b) (user_ops ops) -> a_run b ck (a_init t lin lout red) ops = Ok w ->
  (need_authentication w m = true <-> needs b ops m).
Proof.
  intros RH SC HR. apply rules_run in HR as (R1 & R2 & R3). destruct (user_manager b (user_ops ops) RH SC) as (f & C & _ & UE & _). rewrite <- R1 in UE.
  assert (somebody b (user_ops ops) <-> w_users w <> []) as SB.
  { split.
    - intros (f' & rs & n & C' & N) E. destruct (calls_det _ _ _ _ _ _ _ C C') as [-> _]. apply N. apply UE. auto.
    - intros N. destruct (w_users w) as [|[n u] l] eqn:E; [congruence|]. exists f, (u_results b [] (user_ops ops)), n. split; auto. intros F.
      assert (sm_find (u_run b [] (user_ops ops)) n = None) as X.
      { destruct (run_calls b RH (user_ops ops) [] nobody SC (agrees_nobody b)) as (f2 & C2 & A2). destruct (calls_det _ _ _ _ _ _ _ C C2) as [-> _].
        apply (agrees_none b _ _ n A2). auto. }
      rewrite <- R1, sm_find_cons, str_eqb_refl in X. discriminate. }
  unfold needs. rewrite SB. unfold need_authentication. pose proof (find_resource_covers _ _ (strip_slash (m_resource m)) R2) as F2. pose proof (find_resource_covers _ _ (strip_slash (m_resource m)) R3) as F3.
  assert ((exists path, cleaned (m_resource m) path /\ restricted ops path /\ ~ permitted ops path) <-> find_resource (w_restrict w) (strip_slash (m_resource m)) = true /\ find_resource (w_permit w) (strip_slash (m_resource m)) <> true) as X.
  { rewrite F2, F3. split.
    - intros (p & CL & RE & PE). apply cleaned_strip in CL. subst p. auto.
    - intros [A B]. exists (strip_slash (m_resource m)). split; [apply cleaned_strip; auto|auto]. }
  rewrite X. clear X F2 F3. destruct (w_users w) as [|us1 us2]; [split; [discriminate|intros [N _]; congruence]|].
  destruct (w_restrict w) as [|r1 r2] eqn:ER; [split; [discriminate|intros (_ & A & _); discriminate]|].
  destruct (find_resource (r1 :: r2) _); [|split; [discriminate|intros (_ & A & _); discriminate]].
  destruct (w_permit w) as [|p1 p2] eqn:EP.
  - split; auto. intros _. split; [discriminate|]. split; auto. cbn. discriminate.
  - destruct (find_resource (p1 :: p2) _); cbn [negb]; split; auto; try discriminate.
    + intros (_ & _ & N). congruence.
    + intros _. split; [discriminate|]. split; auto.
Qed.

(* ------------------------------------------------------------------ times *)

Lemma times_app l1 l2 : times (l1 ++ l2) = times l1 ++ times l2. Proof. apply flat_map_app. Qed.
Lemma ordered_app start l1 : forall l2, ordered start (l1 ++ l2) <-> ordered start l1 /\ ordered (last l1 start) l2.
Proof.
  revert start. induction l1 as [|t l1 IH]; intros start l2; [cbn; tauto|]. cbn [app ordered]. rewrite IH.
  replace (last (t :: l1) start) with (last l1 t); [tauto|]. clear. destruct l1 as [|x l]; [reflexivity|].
  change (last (t :: x :: l) start) with (last (x :: l) start). revert x. induction l as [|y l IH]; intros x; [reflexivity|]. exact (IH y).
Qed.
Lemma ordered_last start l : ordered start l -> start <= last l start /\ forall t, In t l -> start <= t <= last l start.
Proof.
  induction l as [|x l IH] using rev_ind; [cbn; split; [lia|intros ? []]|]. rewrite ordered_app. intros [H1 [H2 _]]. rewrite last_last. destruct (IH H1) as [A B].
  split; [lia|]. intros t I. apply in_app_or in I as [I|[<-|[]]]; [specialize (B t I); lia|lia].
Qed.

(* ------------------------------------------------------------------ the cache *)

Lemma expire_entry l t w k t0 u : 0 <= l -> w_cleanup w <= t0 + l -> In (k, (t0, u)) (w_cache (expire l t w)) ->
  In (k, (t0, u)) (w_cache w) /\ t <= t0 + 2 * l /\ w_cleanup (expire l t w) <= t0 + l.
Proof.
  intros HL HC. unfold expire. destruct (w_cleanup w + l <? t) eqn:E; cbn [w_cache w_cleanup set_cache].
  - intros I. apply filter_In in I as [I F]. cbn [snd fst] in F. apply negb_true_iff, Z.ltb_ge in F. split; auto. lia.
  - intros I. split; auto. lia.
Qed.
Lemma expire_keeps l t w k t0 u : t <= t0 + l -> In (k, (t0, u)) (w_cache w) -> In (k, (t0, u)) (w_cache (expire l t w)).
Proof.
  intros HT I. unfold expire. destruct (w_cleanup w + l <? t) eqn:E; auto. cbn [w_cache set_cache]. apply filter_In. split; auto. cbn [snd fst].
  apply negb_true_iff, Z.ltb_ge. auto.
Qed.
Lemma filter_sorted {A} (f : list Z * A -> bool) m : sorted m -> sorted (filter f m).
Proof.
  induction m as [|e m IH]; cbn [filter]; auto. intros [S1 S2]. destruct (f e); auto. split; auto. intros e' I. apply filter_In in I as [I _]. auto.
Qed.
Lemma expire_sorted l t w : sorted (w_cache w) -> sorted (w_cache (expire l t w)).
Proof. intros S. unfold expire. destruct (_ <? _); auto. cbn [w_cache set_cache]. apply filter_sorted; auto. Qed.
Lemma expire_cleanup l t w : 0 <= l -> w_cleanup w <= t -> w_cleanup (expire l t w) <= t.
Proof. intros HL H. unfold expire. destruct (_ <? _) eqn:E; auto. cbn [w_cleanup set_cache]. lia. Qed.
Lemma sm_set_in {A} (m : smap A) k v e : In e (sm_set m k v) -> e = (k, v) \/ In e m.
Proof. unfold sm_set. intros I. apply in_map_iff in I as (e0 & E & I). destruct (str_eqb (fst e0) k); subst; auto. Qed.
Lemma sm_set_other {A} (m : smap A) k v e : In e m -> fst e <> k -> In e (sm_set m k v).
Proof.
  intros I N. unfold sm_set. apply in_map_iff. exists e. split; auto. destruct (str_eqb (fst e) k) eqn:E; auto. apply str_eqb_eq in E. contradiction.
Qed.
Lemma sm_insert_other {A} (m : smap A) k v e : In e m -> In e (sm_insert m k v).
Proof.
  induction m as [|e0 m IH]; [intros []|]. cbn [sm_insert]. intros I. destruct (lex_ltb k (fst e0)); [right; auto|].
  destruct (str_eqb (fst e0) k); auto. destruct I as [<-|I]; [left; auto|right; auto].
Qed.
Lemma app_snoc_split {A} (x : A) pre o before after : pre ++ [o] = before ++ x :: after ->
  (after = [] /\ x = o /\ before = pre) \/ exists after', after = after' ++ [o] /\ pre = before ++ x :: after'.
Proof.
  intros E. destruct after as [|y l] using rev_ind.
  - apply app_inj_tail in E as [-> ->]. auto.
  - clear IHl. right. exists l. change (before ++ x :: l ++ [y]) with (before ++ (x :: l) ++ [y]) in E. rewrite app_assoc in E. apply app_inj_tail in E as [-> ->]. auto.
Qed.

(* ------------------------------------------------------------------ basic *)

Lemma parse_authorization_spec a k : parse_authorization a = Some k <-> a = bs "Basic " ++ k /\ k <> [].
Proof.
  unfold parse_authorization. destruct (is_prefix (bs "Basic ") a) eqn:E.
  - apply is_prefix_spec in E as [r ->]. change (skipn 6 (bs "Basic " ++ r)) with r. split.
    + destruct r; [discriminate|]. intros H; injection H as <-. split; auto. discriminate.
    + intros [H N]. apply app_inv_head in H. subst. destruct k; [congruence|reflexivity].
  - split; [discriminate|]. intros [-> _]. assert (is_prefix (bs "Basic ") (bs "Basic " ++ k) = true) by (apply is_prefix_spec; eauto). congruence.
Qed.
Definition cred_of (m : msg) : option (list Z) := parse_authorization (d_get (m_headers m) (bs "Authorization")).
Lemma cred_presents m k : cred_of m = Some k -> presents m k.
Proof.
  unfold cred_of. rewrite parse_authorization_spec. unfold d_get. rewrite find_values. intros [H N]. split; auto.
  destruct (values_of _ _) as [|v l]; [vm_compute in H; discriminate|]. left; auto.
Qed.
Lemma presents_cred m k : presents_only m k -> cred_of m = Some k.
Proof.
  intros [[I N] F]. unfold cred_of. rewrite parse_authorization_spec. split; auto. unfold d_get. rewrite find_values.
  destruct (values_of _ _) as [|v l]; [contradiction|]. symmetry. exact (Forall_inv F).
Qed.
Lemma split_at_spec c s a p : split_at c s = Some (a, p) <-> s = a ++ c :: p /\ ~ In c a.
Proof.
  revert a. induction s as [|x s IH]; intros a; cbn [split_at]; [split; [discriminate|intros [H _]; destruct a; discriminate]|].
  destruct (x =? c) eqn:E.
  - apply Z.eqb_eq in E. subst x. split.
    + intros H; injection H as <- <-. auto.
    + intros [H N]. destruct a as [|y a]; [injection H as ->; auto|]. injection H as <- _. exfalso. apply N. left; auto.
  - apply Z.eqb_neq in E. destruct (split_at c s) as [[a0 p0]|].
    + split.
      * intros H; injection H as <- <-. destruct (proj1 (IH a0) eq_refl) as [-> N]. split; auto. intros [H|H]; auto.
      * intros [H N]. destruct a as [|y a]; [injection H as -> _; congruence|]. injection H as <- H.
        assert (Some (a0, p0) = Some (a, p)) as X by (apply IH; split; auto; intros I; apply N; right; auto). injection X as -> ->. auto.
    + split; [discriminate|]. intros [H N]. destruct a as [|y a]; [injection H as -> _; congruence|]. injection H as <- H.
      assert (None = Some (a, p)) as X by (apply IH; split; auto; intros I; apply N; right; auto). discriminate.
Qed.
Lemma parse_credentials_spec k u p : parse_credentials k = Ok (Some (u, p)) <-> stands_for k u p.
Proof.
  unfold parse_credentials, stands_for. destruct (b64_decode k) as [[] s].
  - destruct (split_at (ch ":") s) as [[a q]|] eqn:E.
    + apply split_at_spec in E as [-> N]. destruct a as [|x a].
      * split; [discriminate|]. intros (H & NE & NI). injection H as H. exfalso. destruct u as [|y u]; [congruence|]. injection H as H _. apply NI. left; auto.
      * split.
        -- intros H; injection H as <- <-. split; auto. split; auto. discriminate.
        -- intros (H & NE & NI). injection H as H. assert (split_at (ch ":") (u ++ ch ":" :: p) = Some (u, p)) as X by (apply split_at_spec; auto).
           rewrite <- H in X. change (split_at (ch ":") ((x :: a) ++ ch ":" :: q) = Some (u, p)) in X.
           assert (split_at (ch ":") ((x :: a) ++ ch ":" :: q) = Some (x :: a, q)) as Y by (apply split_at_spec; auto). congruence.
    + split; [discriminate|]. intros (H & NE & NI). injection H as ->. assert (split_at (ch ":") (u ++ ch ":" :: p) = Some (u, p)) as X by (apply split_at_spec; auto). congruence.
  - split; [discriminate|]. intros (H & _). discriminate.
  - split; [discriminate|]. intros (H & _). discriminate.
Qed.

Lemma basic_cases b t w m r u w' : basic_handle b t w m = Ok (r, u, w') ->
  (need_authentication w m = false /\ r = true /\ u = None /\ w' = w) \/
  (need_authentication w m = true /\
   ((r = false /\ u = None /\ w' = expire BASIC_EXPIRATION t w
       /\ match cred_of m with
          | None => True
          | Some k => sm_find (w_cache w') k = None /\ forall x p, stands_for k x p -> get_user b (w_users w) x p <> Ok true
          end)
    \/ exists k x, cred_of m = Some k /\ r = true /\ u = Some x /\
       ((exists t0, sm_find (w_cache (expire BASIC_EXPIRATION t w)) k = Some (t0, x)
           /\ w' = set_cache (expire BASIC_EXPIRATION t w) (sm_set (w_cache (expire BASIC_EXPIRATION t w)) k (t, x)) (w_cleanup (expire BASIC_EXPIRATION t w)))
        \/ sm_find (w_cache (expire BASIC_EXPIRATION t w)) k = None /\ (exists p, stands_for k x p /\ get_user b (w_users w) x p = Ok true)
           /\ w' = set_cache (expire BASIC_EXPIRATION t w) (sm_insert (w_cache (expire BASIC_EXPIRATION t w)) k (t, x)) (w_cleanup (expire BASIC_EXPIRATION t w))))).
Proof.
  unfold basic_handle. destruct (need_authentication w m); cbn [negb]; [|intros H; injection H as <- <- <-; left; auto].
  intros H. right. split; auto. revert H.
  assert (w_users (expire BASIC_EXPIRATION t w) = w_users w) as US by apply same_expire. rewrite <- US.
  set (w1 := expire BASIC_EXPIRATION t w). fold (w1) in US. clearbody w1. unfold cred_of.
  destruct (d_get (m_headers m) (bs "Authorization")) as [|c a]; [intros H; injection H as <- <- <-; left; split; auto; split; auto; split; auto; exact Logic.I|].
  destruct (parse_authorization (c :: a)) as [k|]; [|intros H; injection H as <- <- <-; left; split; auto; split; auto; split; auto].
  destruct (sm_find (w_cache w1) k) as [[t0 x]|] eqn:F.
  - intros H; injection H as <- <- <-. right. exists k, x. split; auto. split; auto. split; auto. left. exists t0. auto.
  - destruct (parse_credentials k) as [[[x p]|]|] eqn:PC; cbn [obind]; try discriminate.
    + pose proof (proj1 (parse_credentials_spec k x p) PC) as ST. destruct (get_user b (w_users w1) x p) as [[]|] eqn:G; cbn [obind]; try discriminate.
      * intros H; injection H as <- <- <-. right. exists k, x. split; auto. split; auto. split; auto. right. split; auto. split; eauto.
      * intros H; injection H as <- <- <-. left. split; auto. split; auto. split; auto. split; auto. intros x' p' ST'.
        apply parse_credentials_spec in ST'. rewrite PC in ST'. injection ST' as <- <-. congruence.
    + intros H; injection H as <- <- <-. left. split; auto. split; auto. split; auto. split; auto. intros x' p' ST'.
      apply parse_credentials_spec in ST'. congruence.
Qed.

Section Basic.
Variables (b : build) (start : Z) (lin lout red : list Z).
Let w0 := a_init start lin lout red.
Definition used (pre : list aop) (t0 : Z) (k u : list Z) : Prop :=
  exists before rnd m after, pre = before ++ ORequest t0 rnd m :: after /\ cred_of m = Some k /\ let_through b false w0 before t0 rnd m u.
Definition cache_ok (pre : list aop) (w : aworld) : Prop :=
  sorted (w_cache w) /\ w_cleanup w <= last (times pre) start
  /\ forall k t0 u, In (k, (t0, u)) (w_cache w) -> used pre t0 k u /\ w_cleanup w <= t0 + BASIC_EXPIRATION.
Lemma used_snoc pre o t0 k u : used pre t0 k u -> used (pre ++ [o]) t0 k u.
Proof. intros (bf & rnd & m & af & -> & C & L). exists bf, rnd, m, (af ++ [o]). rewrite <- app_assoc. auto. Qed.
Lemma cache_run : forall pre w, ordered start (times pre) -> a_run b false w0 pre = Ok w -> cache_ok pre w.
Proof.
  induction pre as [|o pre IH] using rev_ind; intros w HO HR.
  - injection HR as <-. split; [exact I|]. split; [cbn; lia|]. intros k t0 u [].
  - rewrite times_app in HO. apply ordered_app in HO as [HO1 HO2]. pose proof HR as HR0. rewrite a_run_snoc in HR.
    destruct (a_run b false w0 pre) as [w1|] eqn:E1; [|discriminate]. cbn [obind] in HR. destruct (IH w1 HO1 eq_refl) as (S & CL & EN).
    assert (w_cache w = w_cache w1 -> w_cleanup w = w_cleanup w1 -> times [o] = [] -> cache_ok (pre ++ [o]) w) as KEEP.
    { intros A1 A2 A3. unfold cache_ok. rewrite times_app, A3, app_nil_r, A1, A2. split; auto. split; auto. intros k t0 u I. destruct (EN k t0 u I). split; auto. apply used_snoc; auto. }
    destruct o as [u|r|r|n v|t rnd m]; try (injection HR as <-; apply KEEP; reflexivity).
    cbn [a_step] in HR. destruct (a_handle b false t rnd w1 m) as [[[r u] w2]|] eqn:EH; [|discriminate]. injection HR as <-. cbn [snd] in *.
    cbn [times flat_map app ordered] in HO2. destruct HO2 as [HT _]. pose proof EH as EH0. cbn [a_handle] in EH.
    assert (0 <= BASIC_EXPIRATION) as LP by (vm_compute; discriminate).
    set (L := BASIC_EXPIRATION) in *. unfold cache_ok. rewrite times_app. cbn [times flat_map app]. rewrite last_last.
    assert (w_cleanup (expire L t w1) <= t) as CE by (apply expire_cleanup; [auto|lia]).
    assert (sorted (w_cache (expire L t w1))) as SE by (apply expire_sorted; auto).
    assert (forall k t0 u, In (k, (t0, u)) (w_cache (expire L t w1)) -> used (pre ++ [ORequest t rnd m]) t0 k u /\ w_cleanup (expire L t w1) <= t0 + L) as EE.
    { intros k t0 x I. apply expire_entry in I as (I1 & I2 & I3); auto.
      - split; auto. apply used_snoc. apply EN; auto.
      - unfold expire in I. destruct (_ <? _) in I; [cbn [w_cache set_cache] in I; apply filter_In in I as [I _]|]; apply (EN _ _ _ I). }
    assert (forall k x, u = Some x -> r = true -> cred_of m = Some k -> used (pre ++ [ORequest t rnd m]) t k x) as US.
    { intros k x -> -> C. exists pre, rnd, m, []. split; auto. split; auto. exists w1, w2. auto. }
    apply basic_cases in EH as [(_ & -> & -> & ->)|(_ & [(-> & -> & -> & _)|(k & x & C & -> & -> & [(t0 & F & ->)|(F & _ & ->)])])]; fold L; cbn [w_cache w_cleanup set_cache].
    + split; auto. split; [lia|]. intros k t0 x I. destruct (EN k t0 x I). split; auto. apply used_snoc; auto.
    + split; auto.
    + split; [apply sm_set_sorted; auto|]. split; auto. intros k' t' x' I. apply sm_set_in in I as [I|I]; [|auto]. injection I as -> -> ->. split; [auto|lia].
    + split; [apply sm_insert_sorted; auto|]. split; auto. intros k' t' x' I. apply sm_insert_in in I as [I|I]; [|auto]. injection I as -> -> ->. split; [auto|lia].
Qed.

(** a request let through by credentials *)
Lemma basic_accepted pre t rnd w m u w' : ordered start (times pre ++ [t]) -> a_run b false w0 pre = Ok w -> a_handle b false t rnd w m = Ok (true, u, w') ->
  (u = None /\ need_authentication w m = false) \/
  exists k x, u = Some x /\ need_authentication w m = true /\ cred_of m = Some k
    /\ ((exists p, stands_for k x p /\ get_user b (w_users w) x p = Ok true)
        \/ exists t0, used pre t0 k x /\ t <= t0 + 2 * BASIC_EXPIRATION).
Proof.
  intros HO HR HH. apply ordered_app in HO as [HO1 [HO2 _]]. destruct (cache_run pre w HO1 HR) as (S & CL & EN). cbn [a_handle] in HH.
  apply basic_cases in HH as [(N & _ & -> & ->)|(N & [(? & _)|(k & x & C & _ & -> & H)])]; [left; auto|discriminate|].
  right. exists k, x. split; auto. split; auto. split; auto. destruct H as [(t0 & F & _)|(_ & G & _)]; [|left; auto].
  right. exists t0. apply sm_find_in in F; [|apply expire_sorted; auto].
  assert (In (k, (t0, x)) (w_cache w)) as I by (unfold expire in F; destruct (_ <? _) in F; auto; cbn [w_cache set_cache] in F; apply filter_In in F; tauto).
  destruct (EN _ _ _ I) as [U CE]. split; auto. eapply expire_entry; eauto. vm_compute; discriminate.
Qed.
(** it once was the password of the user *)
Lemma used_root pre : forall t0 k u, ordered start (times pre) -> used pre t0 k u ->
  exists before t1 rnd m after w p, pre = before ++ ORequest t1 rnd m :: after /\ cred_of m = Some k /\ a_run b false w0 before = Ok w /\ stands_for k u p /\ get_user b (w_users w) u p = Ok true.
Proof.
  remember (List.length pre) as n eqn:EN. revert pre EN. induction n as [n IH] using (well_founded_induction Wf_nat.lt_wf). intros pre EN t0 k u HO (bf & rnd & m & af & E & C & w & w' & R & H).
  assert (ordered start (times bf ++ [t0]) /\ ordered start (times bf)) as [O1 O2].
  { rewrite E, times_app in HO. change (times (ORequest t0 rnd m :: af)) with ([t0] ++ times af) in HO. rewrite app_assoc in HO. apply ordered_app in HO as [HO _]. split; auto. apply ordered_app in HO. tauto. }
  destruct (basic_accepted bf t0 rnd w m (Some u) w' O1 R H) as [(X & _)|(k' & x & X & _ & C' & [(p & ST & G)|(t1 & U & _)])]; [discriminate| |]; injection X as <-.
  - assert (k' = k) by congruence. subst k'. exists bf, t0, rnd, m, af, w, p. auto.
  - assert (k' = k) by congruence. subst k'. destruct (IH (List.length bf)) with (pre := bf) (t0 := t1) (k := k) (u := u) as (bf2 & t2 & rnd2 & m2 & af2 & w2 & p & E2 & C2 & R2 & ST & G); auto.
    + subst n. rewrite E, app_length. cbn. lia.
    + exists bf2, t2, rnd2, m2, (af2 ++ ORequest t0 rnd m :: af), w2, p. split; auto. rewrite E, E2, <- app_assoc. reflexivity.
Qed.

(** a cached credential is accepted for as long as its entry lives *)
Definition fresh_entry (k u : list Z) (since : Z) (w : aworld) : Prop := sorted (w_cache w) /\ exists t0, In (k, (t0, u)) (w_cache w) /\ since <= t0.
Lemma fresh_expire k u since t w : t <= since + BASIC_EXPIRATION -> fresh_entry k u since w -> fresh_entry k u since (expire BASIC_EXPIRATION t w).
Proof. intros HT [S (t0 & I & L)]. split; [apply expire_sorted; auto|]. exists t0. split; auto. apply expire_keeps; auto. lia. Qed.
Lemma fresh_step k u since w o w' : fresh_entry k u since w -> Forall (fun t => since <= t <= since + BASIC_EXPIRATION) (times [o]) -> a_step b false w o = Ok w' -> fresh_entry k u since w'.
Proof.
  intros F HT. destruct o as [x|x|x|n v|t rnd m]; try (cbn [a_step]; intros H; injection H as <-; exact F).
  cbn [a_step a_handle]. destruct (basic_handle b t w m) as [[[r y] w2]|] eqn:EH; [|discriminate]. cbn [obind snd]. intros H; injection H as <-.
  cbn [times flat_map app] in HT. apply Forall_inv in HT.
  assert (fresh_entry k u since (expire BASIC_EXPIRATION t w)) as FE by (apply fresh_expire; [lia|auto]).
  apply basic_cases in EH as [(_ & _ & _ & ->)|(_ & [(_ & _ & -> & _)|(k' & x & C & _ & _ & [(t0 & G & ->)|(G & _ & ->)])])]; auto; destruct FE as [S (t1 & I & L)]; cbn [w_cache set_cache].
  - split; cbn [w_cache set_cache]; [apply sm_set_sorted; auto|].
    destruct (list_eq_dec Z.eq_dec k' k) as [->|N].
    + apply sm_find_in in I; auto. rewrite I in G. injection G as <- <-. exists t. split; [|lia]. apply sm_find_in; [apply sm_set_sorted; auto|].
      rewrite sm_find_set, str_eqb_refl, I. auto.
    + exists t1. split; auto. apply sm_set_other; auto.
  - split; cbn [w_cache set_cache]; [apply sm_insert_sorted; auto|]. exists t1. split; auto. apply sm_insert_other; auto.
Qed.
Lemma fresh_run k u since : forall ops w w', fresh_entry k u since w -> Forall (fun t => since <= t <= since + BASIC_EXPIRATION) (times ops) -> a_run b false w ops = Ok w' -> fresh_entry k u since w'.
Proof.
  induction ops as [|o ops IH]; intros w w' F HT; cbn [a_run]; [intros H; injection H as <-; auto|].
  change (o :: ops) with ([o] ++ ops) in HT. rewrite times_app in HT. apply Forall_app in HT as [HT1 HT2].
  destruct (a_step b false w o) as [w1|] eqn:E; [|discriminate]. cbn [obind]. apply IH; auto. eapply fresh_step; eauto.
Qed.
Lemma still_accepted pre t rnd m k u ops w2 t2 rnd2 m2 :
  ordered start (times pre) -> let_through b false w0 pre t rnd m u -> cred_of m = Some k -> Forall (fun x => t <= x <= t + BASIC_EXPIRATION) (times ops) -> t <= t2 <= t + BASIC_EXPIRATION ->
  a_run b false w0 (pre ++ ORequest t rnd m :: ops) = Ok w2 -> need_authentication w2 m2 = true -> cred_of m2 = Some k ->
  exists w3, a_handle b false t2 rnd2 w2 m2 = Ok (true, Some u, w3).
Proof.
  intros HO (w & w' & R & H) C HT HT2 HR N C2. rewrite a_run_app, R in HR. cbn [obind a_run a_step] in HR. rewrite H in HR. cbn [obind snd] in HR.
  destruct (cache_run pre w HO R) as (S & _). cbn [a_handle] in H.
  assert (fresh_entry k u t w') as F.
  { apply basic_cases in H as [(_ & _ & X & _)|(_ & [(_ & X & _)|(k' & x & C' & _ & X & [(t0 & G & ->)|(G & _ & ->)])])]; try discriminate;
      injection X as <-; assert (k' = k) by congruence; subst k'; assert (sorted (w_cache (expire BASIC_EXPIRATION t w))) as SE by (apply expire_sorted; auto).
    - split; cbn [w_cache set_cache]; [apply sm_set_sorted; auto|]. exists t. split; [|lia]. apply sm_find_in; [apply sm_set_sorted; auto|].
      rewrite sm_find_set, str_eqb_refl, G. auto.
    - split; cbn [w_cache set_cache]; [apply sm_insert_sorted; auto|]. exists t. split; [|lia]. apply sm_find_in; [apply sm_insert_sorted; auto|].
      rewrite sm_find_insert, str_eqb_refl, G by auto. auto. }
  pose proof (fresh_run _ _ _ _ _ _ F HT HR) as F2. assert (t2 <= t + BASIC_EXPIRATION) as LT by lia. pose proof (fresh_expire _ _ _ t2 _ LT F2) as [S2 (t1 & I & _)].
  cbn [a_handle]. unfold basic_handle. rewrite N. cbn [negb]. unfold cred_of in C2.
  destruct (d_get (m_headers m2) (bs "Authorization")) as [|c a]; [vm_compute in C2; discriminate|]. rewrite C2.
  apply sm_find_in in I; auto. rewrite I. eauto.
Qed.
End Basic.

(* ------------------------------------------------------------------ cookies *)

Definition sess_of (m : msg) : list Z := d_get (m_cookies m) AUTH_COOKIE.
Lemma sess_session m : sess_of m <> [] -> session m (sess_of m).
Proof.
  unfold sess_of, session, d_get. rewrite find_values. intros N. split; auto. destruct (values_of _ _) as [|v l]; [congruence|]. left; auto.
Qed.
Lemma session_sess m c : session_only m c -> sess_of m = c /\ c <> [].
Proof.
  intros [[I N] F]. split; auto. unfold sess_of, d_get. rewrite find_values. destruct (values_of _ _) as [|v l]; [contradiction|]. symmetry. exact (Forall_inv F).
Qed.
Lemma refuse_done w url c : c_refuse w <> CDone url c.
Proof. unfold c_refuse. destruct (w_redirect w); discriminate. Qed.

Lemma cookie_cases b t rnd w m r u w' resp : cookie_handle b t rnd w m = Ok (r, u, w', resp) ->
  let w1 := expire COOKIE_EXPIRATION t w in
  (** login *)
  (exists url, r = false /\ u = None /\ resp = Some (CDone url (Some (b64_encode rnd))) /\ strip_slash (m_resource m) = w_login w
     /\ get_user b (w_users w) (d_get (m_queries m) (bs "user")) (d_get (m_queries m) (bs "pass")) = Ok true
     /\ w' = set_cache w (sm_insert (w_cache w) (b64_encode rnd) (t, d_get (m_queries m) (bs "user"))) (w_cleanup w)) \/
  (r = false /\ u = None /\ resp = Some (c_refuse w) /\ w' = w /\ strip_slash (m_resource m) = w_login w
     /\ get_user b (w_users w) (d_get (m_queries m) (bs "user")) (d_get (m_queries m) (bs "pass")) = Ok false) \/
  (** logout *)
  (exists url, r = false /\ u = None /\ resp = Some (CDone url None) /\ strip_slash (m_resource m) = w_logout w
     /\ w' = match sess_of m with [] => w | c => set_cache w (sm_erase (w_cache w) c) (w_cleanup w) end) \/
  (strip_slash (m_resource m) <> w_login w /\ strip_slash (m_resource m) <> w_logout w /\
  (** free *)
  ((r = true /\ u = None /\ w' = w /\ resp = None /\ (need_authentication w m = false \/ w_redirect w <> [] /\ m_resource m = w_redirect w)) \/
   need_authentication w m = true /\ ~ (w_redirect w <> [] /\ m_resource m = w_redirect w) /\
   ((r = false /\ u = None /\ w' = w1 /\ resp = Some (c_refuse w1) /\ (sess_of m = [] \/ sm_find (w_cache w1) (sess_of m) = None)) \/
    exists x t0, r = true /\ u = Some x /\ resp = None /\ sess_of m <> [] /\ sm_find (w_cache w1) (sess_of m) = Some (t0, x)
      /\ w' = set_cache w1 (sm_set (w_cache w1) (sess_of m) (t, x)) (w_cleanup w1)))).
Proof.
  unfold cookie_handle, process_login, sess_of. set (s := strip_slash (m_resource m)).
  destruct (str_eqb s (w_login w)) eqn:E1.
  - cbn [negb andb]. apply str_eqb_eq in E1. destruct (get_user _ _ _ _) as [[]|] eqn:G; cbn [obind]; [| |discriminate].
    + intros H; injection H as <- <- <- <-. cbn zeta. left. eauto 10.
    + intros H; injection H as <- <- <- <-. cbn zeta. right. left. auto 10.
  - apply str_eqb_neq in E1. destruct (str_eqb s (w_logout w)) eqn:E2; cbn [negb andb].
    + apply str_eqb_eq in E2. cbn [obind]. intros H; injection H as <- <- <- <-. cbn zeta. right. right. left. eauto 10.
    + apply str_eqb_neq in E2. cbn [obind]. intros H. cbn zeta. right. right. right. split; auto. split; auto. revert H.
      destruct (need_authentication w m) eqn:N; cbn [negb]; [|intros H; injection H as <- <- <- <-; left; auto 10].
      destruct (str_eqb (w_redirect w) []) eqn:E3; cbn [negb andb].
      * apply str_eqb_eq in E3. set (w1 := expire COOKIE_EXPIRATION t w). destruct (d_get (m_cookies m) AUTH_COOKIE) as [|c l] eqn:E4.
        -- intros H; injection H as <- <- <- <-. right. split; auto. split; [tauto|]. left. auto 10.
        -- destruct (sm_find (w_cache w1) (c :: l)) as [[t0 x]|] eqn:F; intros H; injection H as <- <- <- <-; right; (split; [auto|]); (split; [tauto|]).
           ++ right. exists x, t0. repeat (split; [solve [auto | discriminate]|]). auto.
           ++ left. auto 10.
      * apply str_eqb_neq in E3. destruct (str_eqb (w_redirect w) (m_resource m)) eqn:E5.
        -- apply str_eqb_eq in E5. intros H; injection H as <- <- <- <-. left. auto 10.
        -- apply str_eqb_neq in E5. set (w1 := expire COOKIE_EXPIRATION t w). destruct (d_get (m_cookies m) AUTH_COOKIE) as [|c l] eqn:E4.
           ++ intros H; injection H as <- <- <- <-. right. split; auto. split; [intros [_ ?]; congruence|]. left. auto 10.
           ++ destruct (sm_find (w_cache w1) (c :: l)) as [[t0 x]|] eqn:F; intros H; injection H as <- <- <- <-; right; (split; [auto|]); (split; [intros [_ ?]; congruence|]).
              ** right. exists x, t0. repeat (split; [solve [auto | discriminate]|]). auto.
              ** left. auto 10.
Qed.

Section Cookie.
Variables (b : build) (start : Z) (lin lout red : list Z).
Let w0 := a_init start lin lout red.
(** session [c] of [u] was used at time [t0]: it began then, or a request that carried it was let through *)
Definition s_used (pre : list aop) (t0 : Z) (c u : list Z) : Prop :=
  exists before rnd m after, pre = before ++ ORequest t0 rnd m :: after /\ (logged_in b w0 before t0 rnd m c u \/ sess_of m = c /\ let_through b true w0 before t0 rnd m u).
Definition s_root (pre : list aop) (c u : list Z) : Prop :=
  exists before t rnd m after w, pre = before ++ ORequest t rnd m :: after /\ logged_in b w0 before t rnd m c u
    /\ a_run b true w0 before = Ok w /\ get_user b (w_users w) u (d_get (m_queries m) (bs "pass")) = Ok true
    /\ ~ ended b w0 (before ++ [ORequest t rnd m]) after c.
Definition s_cache_ok (pre : list aop) (w : aworld) : Prop :=
  sorted (w_cache w) /\ w_cleanup w <= last (times pre) start
  /\ forall c t0 u, In (c, (t0, u)) (w_cache w) -> s_used pre t0 c u /\ s_root pre c u /\ w_cleanup w <= t0 + COOKIE_EXPIRATION.
Lemma s_used_snoc pre o t0 c u : s_used pre t0 c u -> s_used (pre ++ [o]) t0 c u.
Proof. intros (bf & rnd & m & af & -> & L). exists bf, rnd, m, (af ++ [o]). rewrite <- app_assoc. auto. Qed.
Lemma s_root_snoc pre o c u : (forall t rnd m, o = ORequest t rnd m -> ~ logged_out b w0 pre t rnd m c) -> s_root pre c u -> s_root (pre ++ [o]) c u.
Proof.
  intros NL (bf & t & rnd & m & af & w & -> & L & R & G & NE). exists bf, t, rnd, m, (af ++ [o]), w. rewrite <- app_assoc. split; auto. split; auto. split; auto. split; auto.
  intros (l & t' & rnd' & m' & l' & E & LO). apply app_snoc_split in E as [(-> & <- & ->)|(a' & -> & ->)].
  - apply (NL t' rnd' m' eq_refl). rewrite <- app_assoc in LO. exact LO.
  - apply NE. exists l, t', rnd', m', a'. auto.
Qed.
Lemma s_cache_run : forall pre w, ordered start (times pre) -> a_run b true w0 pre = Ok w -> s_cache_ok pre w.
Proof.
  induction pre as [|o pre IH] using rev_ind; intros w HO HR.
  - injection HR as <-. split; [exact I|]. split; [cbn; lia|]. intros k t0 u [].
  - rewrite times_app in HO. apply ordered_app in HO as [HO1 HO2]. pose proof HR as HR0. rewrite a_run_snoc in HR.
    destruct (a_run b true w0 pre) as [w1|] eqn:E1; [|discriminate]. cbn [obind] in HR. destruct (IH w1 HO1 eq_refl) as (S & CL & EN).
    assert (w_cache w = w_cache w1 -> w_cleanup w = w_cleanup w1 -> times [o] = [] -> s_cache_ok (pre ++ [o]) w) as KEEP.
    { intros A1 A2 A3. unfold s_cache_ok. rewrite times_app, A3, app_nil_r, A1, A2. split; auto. split; auto. intros k t0 u I. destruct (EN k t0 u I) as (B1 & B2 & B3).
      split; [apply s_used_snoc; auto|]. split; auto. apply s_root_snoc; auto. intros t rnd m ->. discriminate. }
    destruct o as [u|r|r|n v|t rnd m]; try (injection HR as <-; apply KEEP; reflexivity).
    { injection HR as <-. apply KEEP; try reflexivity; cbn [a_step]; unfold set_option; repeat destruct (str_eqb _ _); reflexivity. }
    clear KEEP. cbn [a_step a_handle] in HR. destruct (cookie_handle b t rnd w1 m) as [[[[r u] w2] resp]|] eqn:EH; [|discriminate]. injection HR as <-. cbn [snd fst] in *.
    cbn [times flat_map app ordered] in HO2. destruct HO2 as [HT _]. pose proof EH as EH0.
    assert (0 <= COOKIE_EXPIRATION) as LP by (vm_compute; discriminate).
    set (L := COOKIE_EXPIRATION) in *. unfold s_cache_ok. rewrite times_app. cbn [times flat_map app]. rewrite last_last.
    assert (w_cleanup (expire L t w1) <= t) as CE by (apply expire_cleanup; [auto|lia]).
    assert (sorted (w_cache (expire L t w1))) as SE by (apply expire_sorted; auto).
    set (o := ORequest t rnd m) in *.
    assert (forall c u, (forall url, resp <> Some (CDone url None)) \/ sess_of m <> c -> s_root pre c u -> s_root (pre ++ [o]) c u) as RT.
    { intros c x N. apply s_root_snoc. intros t' rnd' m' E LO. injection E as <- <- <-. destruct LO as [SO (v1 & v2 & url & R1 & R2)]. apply session_sess in SO as [SO _].
      rewrite E1 in R1. injection R1 as <-. rewrite EH0 in R2. injection R2 as _ _ _ ->. destruct N as [N|N]; [exact (N url eq_refl)|auto]. }
    assert (forall c t0 u, (forall url, resp <> Some (CDone url None)) \/ sess_of m <> c -> In (c, (t0, u)) (w_cache w1) -> s_used (pre ++ [o]) t0 c u /\ s_root (pre ++ [o]) c u /\ w_cleanup w1 <= t0 + L) as EK.
    { intros c t0 x N I. destruct (EN _ _ _ I) as (B1 & B2 & B3). split; [apply s_used_snoc; auto|]. split; auto. }
    assert (forall c t0 u, (forall url, resp <> Some (CDone url None)) \/ sess_of m <> c -> In (c, (t0, u)) (w_cache (expire L t w1)) -> s_used (pre ++ [o]) t0 c u /\ s_root (pre ++ [o]) c u /\ w_cleanup (expire L t w1) <= t0 + L) as EE.
    { intros c t0 x N I. assert (In (c, (t0, x)) (w_cache w1)) as I0 by (unfold expire in I; destruct (_ <? _) in I; auto; cbn [w_cache set_cache] in I; apply filter_In in I; tauto).
      destruct (EK c t0 x N I0) as (B1 & B2 & B3). split; auto. split; auto. eapply expire_entry; eauto. }
    apply cookie_cases in EH. cbn zeta in EH. fold L in EH.
    destruct EH as [(url & -> & -> & -> & LI & G & ->)|[(-> & -> & -> & -> & _)|[(url & -> & -> & -> & LO & ->)|(_ & _ & [(-> & -> & -> & -> & _)|(N & _ & [(-> & -> & -> & -> & _)|(x & t0 & -> & -> & -> & NS & F & ->)])])]]];
      cbn [w_cache w_cleanup set_cache].
    + split; [apply sm_insert_sorted; auto|]. split; [lia|]. intros c t' x I. apply sm_insert_in in I as [I|I].
      * injection I as -> -> ->. assert (logged_in b w0 pre t rnd m (b64_encode rnd) (d_get (m_queries m) (bs "user"))) as LG.
        { eexists _, _, url. split; [exact E1|]. split; [exact EH0|reflexivity]. }
        split; [|split; [|lia]].
        -- exists pre, rnd, m, []. split; auto.
        -- exists pre, t, rnd, m, [], w1. split; auto. split; auto. split; auto. split; auto. intros (l & t'' & ? & ? & ? & E & _). destruct l; discriminate.
      * apply EK; auto. left. intros u0 E. discriminate.
    + split; auto. split; [lia|]. intros c t' x I. apply EK; auto. left. intros u0 E. injection E as E. exact (refuse_done _ _ _ E).
    + assert (sorted (w_cache (match sess_of m with [] => w1 | _ :: _ => set_cache w1 (sm_erase (w_cache w1) (sess_of m)) (w_cleanup w1) end)) /\
              w_cleanup (match sess_of m with [] => w1 | _ :: _ => set_cache w1 (sm_erase (w_cache w1) (sess_of m)) (w_cleanup w1) end) = w_cleanup w1 /\
              forall c v, In (c, v) (w_cache (match sess_of m with [] => w1 | _ :: _ => set_cache w1 (sm_erase (w_cache w1) (sess_of m)) (w_cleanup w1) end)) -> In (c, v) (w_cache w1) /\ (sess_of m = [] \/ sess_of m <> c)) as (Q1 & Q2 & Q3).
      { destruct (sess_of m) as [|c0 c'] eqn:SM; cbn [w_cache w_cleanup set_cache].
        - split; auto.
        - split; [apply sm_erase_sorted; auto|]. split; auto. intros c v I. apply sm_find_in in I; [|apply sm_erase_sorted; auto].
          rewrite sm_find_erase in I. destruct (str_eqb (c0 :: c') c) eqn:E; [discriminate|]. apply str_eqb_neq in E. split; auto. apply sm_find_in; auto. }
      destruct (sess_of m) as [|c0 c'] eqn:SM.
      * split; auto. split; [lia|]. intros c t' x I. destruct (EN _ _ _ I) as (B1 & B2 & B3). split; [apply s_used_snoc; auto|]. split; auto.
        apply s_root_snoc; auto. intros t'' rnd' m' E LG. injection E as <- <- <-. destruct LG as [SO _]. apply session_sess in SO as [SO NE]. congruence.
      * split; auto. rewrite Q2. split; [lia|]. intros c t' x I. destruct (Q3 _ _ I) as [I' [?|NE]]; [discriminate|]. apply EK; auto.
    + split; auto. split; [lia|]. intros c t' x I. apply EK; auto. left. discriminate.
    + split; auto. split; auto. intros c t' x I. apply EE; auto. left. intros u0 E. injection E as E. exact (refuse_done _ _ _ E).
    + split; [apply sm_set_sorted; auto|]. split; auto. intros c t' x' I. apply sm_set_in in I as [I|I]; [|apply EE; auto; left; discriminate].
      injection I as -> -> ->. apply sm_find_in in F; auto. destruct (EE _ _ _ ltac:(left; discriminate) F) as (B1 & B2 & B3). split; [|split; [auto|lia]].
      exists pre, rnd, m, []. split; auto. right. split; auto. eexists w1, _. split; [exact E1|]. cbn [a_handle]. rewrite EH0. reflexivity.
Qed.

(** a request let through *)
Lemma cookie_accepted pre t rnd w m u w' : ordered start (times pre ++ [t]) -> a_run b true w0 pre = Ok w -> a_handle b true t rnd w m = Ok (true, u, w') ->
  strip_slash (m_resource m) <> w_login w /\ strip_slash (m_resource m) <> w_logout w /\
  ((u = None /\ (need_authentication w m = false \/ w_redirect w <> [] /\ m_resource m = w_redirect w)) \/
  exists x t0, u = Some x /\ need_authentication w m = true /\ sess_of m <> [] /\ s_root pre (sess_of m) x /\ s_used pre t0 (sess_of m) x /\ t <= t0 + 2 * COOKIE_EXPIRATION).
Proof.
  intros HO HR HH. apply ordered_app in HO as [HO1 [HO2 _]]. destruct (s_cache_run pre w HO1 HR) as (S & CL & EN). cbn [a_handle] in HH.
  destruct (cookie_handle b t rnd w m) as [[[[r u'] w2] resp]|] eqn:EH; [|discriminate]. cbn [obind fst] in HH. injection HH as -> -> ->.
  apply cookie_cases in EH. cbn zeta in EH. destruct EH as [(url & ? & _)|[(? & _)|[(url & ? & _)|(N1 & N2 & H)]]]; try discriminate. split; auto. split; auto.
  destruct H as [(_ & -> & _ & _ & H)|(N & _ & [(? & _)|(x & t0 & _ & -> & _ & NS & F & _)])]; [left; auto|discriminate|].
  right. exists x, t0. split; auto. split; auto. split; auto. apply sm_find_in in F; [|apply expire_sorted; auto].
  assert (In (sess_of m, (t0, x)) (w_cache w)) as I by (unfold expire in F; destruct (_ <? _) in F; auto; cbn [w_cache set_cache] in F; apply filter_In in F; tauto).
  destruct (EN _ _ _ I) as (B1 & B2 & B3). split; auto. split; auto. eapply expire_entry; eauto. vm_compute; discriminate.
Qed.

(** a session lives on *)
Definition s_fresh (c u : list Z) (since : Z) (w : aworld) : Prop := sorted (w_cache w) /\ exists t0, In (c, (t0, u)) (w_cache w) /\ since <= t0.
Lemma s_fresh_expire c u since t w : t <= since + COOKIE_EXPIRATION -> s_fresh c u since w -> s_fresh c u since (expire COOKIE_EXPIRATION t w).
Proof. intros HT [S (t0 & I & L)]. split; [apply expire_sorted; auto|]. exists t0. split; auto. apply expire_keeps; auto. lia. Qed.
Lemma s_fresh_step pre c u since w o w' : c <> [] -> a_run b true w0 pre = Ok w -> s_fresh c u since w -> Forall (fun t => since <= t <= since + COOKIE_EXPIRATION) (times [o]) ->
  (forall t rnd m w1 url, o = ORequest t rnd m -> cookie_handle b t rnd w m = Ok (false, None, w1, Some (CDone url None)) -> sess_of m <> c) ->
  a_step b true w o = Ok w' -> s_fresh c u since w'.
Proof.
  intros NC R F HT NL. destruct o as [x|x|x|n v|t rnd m]; try (cbn [a_step]; intros H; injection H as <-; exact F).
  { cbn [a_step]. intros H; injection H as <-. unfold set_option. repeat destruct (str_eqb _ _); exact F. }
  cbn [a_step a_handle]. destruct (cookie_handle b t rnd w m) as [[[[r y] w2] resp]|] eqn:EH; [|discriminate]. cbn [obind snd fst]. intros H; injection H as <-.
  cbn [times flat_map app] in HT. apply Forall_inv in HT.
  assert (s_fresh c u since (expire COOKIE_EXPIRATION t w)) as FE by (apply s_fresh_expire; [lia|auto]).
  pose proof EH as EH0. apply cookie_cases in EH. cbn zeta in EH.
  destruct EH as [(url & -> & -> & -> & LI & G & ->)|[(-> & -> & -> & -> & _)|[(url & -> & -> & -> & LO & ->)|(_ & _ & [(-> & -> & -> & -> & _)|(N & _ & [(-> & -> & -> & -> & _)|(x & t0 & -> & -> & -> & NS & G & ->)])])]]]; auto.
  - destruct F as [S (t1 & I & L)]. split; cbn [w_cache set_cache]; [apply sm_insert_sorted; auto|]. exists t1. split; auto. apply sm_insert_other; auto.
  - specialize (NL t rnd m _ url eq_refl EH0). destruct (sess_of m) as [|z c'] eqn:SM; auto. destruct F as [S (t1 & I & L)]. split; cbn [w_cache set_cache]; [apply sm_erase_sorted; auto|].
    exists t1. split; auto. apply sm_find_in; [apply sm_erase_sorted; auto|]. rewrite sm_find_erase. destruct (str_eqb (z :: c') c) eqn:E; [apply str_eqb_eq in E; contradiction|]. apply sm_find_in; auto.
  - destruct FE as [S (t1 & I & L)]. split; cbn [w_cache set_cache]; [apply sm_set_sorted; auto|]. set (k' := sess_of m) in *.
    destruct (list_eq_dec Z.eq_dec k' c) as [E|NE].
    + subst c. apply sm_find_in in I; auto. rewrite I in G. injection G as <- <-. exists t. split; [|lia]. apply sm_find_in; [apply sm_set_sorted; auto|].
      rewrite sm_find_set, str_eqb_refl, I. auto.
    + exists t1. split; auto. apply sm_set_other; auto.
Qed.
Lemma s_fresh_run c u since : c <> [] -> forall ops pre w w', a_run b true w0 pre = Ok w -> s_fresh c u since w -> Forall (fun t => since <= t <= since + COOKIE_EXPIRATION) (times ops) ->
  (forall l t rnd m l' v w1 url, ops = l ++ ORequest t rnd m :: l' -> a_run b true w l = Ok v -> cookie_handle b t rnd v m = Ok (false, None, w1, Some (CDone url None)) -> sess_of m <> c) ->
  a_run b true w ops = Ok w' -> s_fresh c u since w'.
Proof.
  intros NC. induction ops as [|o ops IH]; intros pre w w' R F HT NL; cbn [a_run]; [intros H; injection H as <-; auto|].
  change (o :: ops) with ([o] ++ ops) in HT. rewrite times_app in HT. apply Forall_app in HT as [HT1 HT2].
  destruct (a_step b true w o) as [w1|] eqn:E; [|discriminate]. cbn [obind]. apply (IH (pre ++ [o])); auto.
  - rewrite a_run_snoc, R. cbn [obind]. auto.
  - eapply s_fresh_step; eauto. intros t rnd m v url -> H. exact (NL [] t rnd m ops w v url eq_refl eq_refl H).
  - intros l t rnd m l' v w2 url -> RV H. refine (NL (o :: l) t rnd m l' v w2 url eq_refl _ H). cbn [a_run]. rewrite E. exact RV.
Qed.
(** no later logout with the session *)
Definition no_logout (pre ops : list aop) (c : list Z) : Prop :=
  forall l t rnd m l' v w1 url, ops = l ++ ORequest t rnd m :: l' -> a_run b true w0 (pre ++ l) = Ok v -> cookie_handle b t rnd v m = Ok (false, None, w1, Some (CDone url None)) -> sess_of m <> c.
Lemma session_lives pre t rnd m c u ops w2 t2 rnd2 m2 :
  ordered start (times pre) ->
  (sess_of m = c /\ let_through b true w0 pre t rnd m u \/ logged_in b w0 pre t rnd m c u /\ forall x, ~ s_root pre c x) -> c <> [] ->
  no_logout (pre ++ [ORequest t rnd m]) ops c -> Forall (fun x => t <= x <= t + COOKIE_EXPIRATION) (times ops) -> t <= t2 <= t + COOKIE_EXPIRATION ->
  a_run b true w0 (pre ++ ORequest t rnd m :: ops) = Ok w2 -> need_authentication w2 m2 = true ->
  strip_slash (m_resource m2) <> w_login w2 -> strip_slash (m_resource m2) <> w_logout w2 -> (w_redirect w2 = [] \/ m_resource m2 <> w_redirect w2) ->
  sess_of m2 = c ->
  exists w3, a_handle b true t2 rnd2 w2 m2 = Ok (true, Some u, w3).
Proof.
  intros HO ST NC NL HT HT2 HR N N1 N2 N3 C2.
  change (pre ++ ORequest t rnd m :: ops) with (pre ++ [ORequest t rnd m] ++ ops) in HR. rewrite app_assoc, a_run_app in HR.
  destruct (a_run b true w0 (pre ++ [ORequest t rnd m])) as [w1|] eqn:R1; [|discriminate]. cbn [obind] in HR.
  assert (s_fresh c u t w1) as F.
  { rewrite a_run_snoc in R1. destruct (a_run b true w0 pre) as [w|] eqn:R; [|discriminate]. cbn [obind a_step a_handle] in R1.
    destruct (s_cache_run pre w HO R) as (S & _ & EN).
    assert (sorted (w_cache (expire COOKIE_EXPIRATION t w))) as SE by (apply expire_sorted; auto).
    destruct (cookie_handle b t rnd w m) as [[[[r y] w3] resp]|] eqn:EH; [|discriminate]. cbn [obind fst snd] in R1. injection R1 as <-.
    destruct ST as [[SM (v & v' & RV & HV)]|[(v & v' & url & RV & HV & U) NR]].
    - rewrite R in RV. injection RV as <-. cbn [a_handle] in HV. rewrite EH in HV. cbn [obind fst] in HV. injection HV as -> -> <-.
      apply cookie_cases in EH. cbn zeta in EH. destruct EH as [(url & ? & _)|[(? & _)|[(url & ? & _)|(_ & _ & [(_ & ? & _)|(_ & _ & [(? & _)|(x & t0 & _ & E & _ & NS & G & ->)])])]]]; try discriminate.
      injection E as <-. split; cbn [w_cache set_cache]; [apply sm_set_sorted; auto|]. exists t. split; [|lia]. apply sm_find_in; [apply sm_set_sorted; auto|].
      rewrite sm_find_set, SM, str_eqb_refl, <- SM, G. auto.
    - rewrite R in RV. injection RV as <-. rewrite EH in HV. injection HV as -> -> -> ->.
      apply cookie_cases in EH. cbn zeta in EH. destruct EH as [(url' & _ & _ & E & LI & G & ->)|[(_ & _ & E & _)|[(url' & _ & _ & E & _)|(_ & _ & [(? & _)|(_ & _ & [(_ & _ & _ & E & _)|(x & t0 & ? & _)])])]]]; try discriminate;
        try (injection E as E; symmetry in E; exfalso; exact (refuse_done _ _ _ E)).
      injection E as _ ->. split; cbn [w_cache set_cache]; [apply sm_insert_sorted; auto|]. exists t. split; [|lia]. apply sm_find_in; [apply sm_insert_sorted; auto|].
      rewrite sm_find_insert, str_eqb_refl by auto. destruct (sm_find (w_cache w) (b64_encode rnd)) as [[t1 y]|] eqn:FI; [|subst; auto].
      exfalso. apply sm_find_in in FI; auto. destruct (EN _ _ _ FI) as (_ & RT & _). exact (NR _ RT). }
  assert (s_fresh c u t w2) as F2.
  { apply (s_fresh_run c u t NC ops _ w1 w2 R1 F HT); auto. intros l t' rnd' m' l' v w4 url E RV HV. refine (NL l t' rnd' m' l' v w4 url E _ HV).
    rewrite a_run_app, R1. exact RV. }
  assert (t2 <= t + COOKIE_EXPIRATION) as LT by lia. pose proof (s_fresh_expire _ _ _ t2 _ LT F2) as [S2 (t1 & I & _)]. apply sm_find_in in I; auto.
  cbn [a_handle]. unfold cookie_handle, process_login. apply str_eqb_neq in N1, N2. rewrite N1, N2. cbn [negb andb obind]. rewrite N. cbn [negb].
  assert (negb (str_eqb (w_redirect w2) []) && str_eqb (w_redirect w2) (m_resource m2) = false) as ->.
  { destruct (str_eqb (w_redirect w2) []) eqn:E1; auto. destruct (str_eqb (w_redirect w2) (m_resource m2)) eqn:E2; auto. apply str_eqb_eq in E2. apply str_eqb_neq in E1. destruct N3; congruence. }
  unfold sess_of in C2. rewrite C2. destruct c as [|z c]; [congruence|]. rewrite I. cbn [obind fst]. eauto.
Qed.
End Cookie.

Lemma settings_run b start lin lout red ops : forall w, a_run b true (a_init start lin lout red) ops = Ok w ->
  w_login w = setting (bs "login") lin ops /\ w_logout w = setting (bs "logout") lout ops /\ w_redirect w = setting (bs "redirect") red ops.
Proof.
  induction ops as [|o ops IH] using rev_ind; intros w; [intros H; injection H as <-; auto|].
  rewrite a_run_snoc. destruct (a_run b true _ ops) as [w1|]; [|discriminate]. cbn [obind]. destruct (IH w1 eq_refl) as (A & B & C). unfold setting in *. rewrite !fold_left_app.
  destruct o as [x|x|x|n v|t rnd m]; cbn [fold_left]; try (intros H; injection H as <-; auto).
  - unfold set_option. destruct (str_eqb n (bs "login")) eqn:E1; [apply str_eqb_eq in E1; subst n; cbn; auto|]. apply str_eqb_neq in E1.
    destruct (str_eqb n (bs "logout")) eqn:E2; [apply str_eqb_eq in E2; subst n; cbn; auto|]. apply str_eqb_neq in E2.
    destruct (str_eqb n (bs "redirect")) eqn:E3; [apply str_eqb_eq in E3; subst n; cbn; auto|]. apply str_eqb_neq in E3.
    destruct (list_eq_dec Z.eq_dec n (bs "login")); [contradiction|]. destruct (list_eq_dec Z.eq_dec n (bs "logout")); [contradiction|]. destruct (list_eq_dec Z.eq_dec n (bs "redirect")); [contradiction|]. auto.
  - cbn [a_step]. intros H. destruct (a_handle b true t rnd w1 m) as [[[r u] w2]|] eqn:E; [|discriminate]. cbn [obind snd] in H. injection H as <-.
    apply handle_same in E. destruct E as (E1 & E2 & E3 & E4 & E5 & E6). rewrite E4, E5, E6. auto.
Qed.
