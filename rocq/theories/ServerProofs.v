(** Proofs about dispatch. *)
From Coq Require Import String ZArith List Bool Lia.
From Verif Require Import Base SMap HttpModel ServerModel ServerSpec.
Import ListNotations.

Lemma cleaned_strip r c : cleaned r c <-> c = strip_slash r.
Proof.
  unfold cleaned, strip_slash. split.
  - intros [->|[-> H]].
    + destruct (c ++ [ch "/"]) eqn:E; [destruct c; discriminate|]. rewrite <- E. rewrite last_last, Z.eqb_refl, removelast_last. reflexivity.
    + destruct c as [|x c]; auto. destruct (last (x :: c) 0 =? ch "/") eqn:E; auto. exfalso. apply H. apply Z.eqb_eq in E.
      exists (removelast (x :: c)). rewrite <- E. apply app_removelast_last. discriminate.
  - intros ->. destruct r as [|x r]; [right; split; auto; intros [d H]; destruct d; discriminate|].
    destruct (last (x :: r) 0 =? ch "/") eqn:E.
    + left. apply Z.eqb_eq in E. rewrite <- E. apply app_removelast_last. discriminate.
    + right. split; auto. intros [d H]. rewrite H, last_last, Z.eqb_refl in E. discriminate.
Qed.

(* ------------------------------------------------------------------ the tables *)

Lemma t_run_snoc ops o : t_run (ops ++ [o]) = t_step (t_run ops) o.
Proof. unfold t_run. rewrite fold_left_app. reflexivity. Qed.
Lemma t_run_sorted ops : sorted (t_resources (t_run ops)) /\ sorted (t_redirects (t_run ops)).
Proof.
  induction ops as [|o ops [IH1 IH2]] using rev_ind; [split; exact I|]. rewrite t_run_snoc.
  destruct o; cbn [t_step t_resources t_redirects]; split; auto using sm_insert_sorted, sm_erase_sorted. exact I.
Qed.

Lemma absent_snoc ops o c : absent (ops ++ [o]) c <-> drops o c \/ absent ops c /\ ~ adds o c.
Proof.
  split.
  - intros H. destruct o as [r h|r|a b|].
    + right. split.
      * intros b0 o a E A. destruct (H b0 o (a ++ [TAdd r h])) as (o' & I & D); auto; [rewrite E, <- app_assoc; reflexivity|].
        apply in_app_or in I as [I|[<-|[]]]; eauto. destruct D as [D|(r' & D & _)]; discriminate.
      * intros A. destruct (H ops (TAdd r h) []) as (o' & [] & _); auto.
    + destruct (list_eq_dec Z.eq_dec c (strip_slash r)) as [E|N].
      * left. right. exists r. split; auto. apply cleaned_strip. auto.
      * right. split; [|intros (r' & h & E & _); discriminate]. intros b0 o a E A.
        destruct (H b0 o (a ++ [TRemove r])) as (o' & I & D); auto; [rewrite E, <- app_assoc; reflexivity|].
        apply in_app_or in I as [I|[<-|[]]]; eauto. destruct D as [D|(r' & D & D')]; [discriminate|]. injection D as <-. apply cleaned_strip in D'. contradiction.
    + right. split; [|intros (r' & h & E & _); discriminate]. intros b0 o a0 E A.
      destruct (H b0 o (a0 ++ [TRedirect a b])) as (o' & I & D); auto; [rewrite E, <- app_assoc; reflexivity|].
      apply in_app_or in I as [I|[<-|[]]]; eauto. destruct D as [D|(r' & D & _)]; discriminate.
    + left. left. reflexivity.
  - intros H b0 o' a E A. destruct (exists_last (l := o' :: a)) as (l & x & L); [discriminate|]. rewrite L, app_assoc in E.
    apply app_inj_tail in E as [E1 E2]. subst x.
    destruct l as [|y l]; cbn in L.
    + injection L as L1 L2. subst o' a. destruct H as [H|[_ H]]; [|contradiction].
      destruct A as (r & h & -> & _). destruct H as [H|(r' & H & _)]; discriminate.
    + injection L as L1 L2. subst y a. destruct H as [H|[H _]].
      * exists o. split; auto. apply in_or_app. right; left; auto.
      * destruct (H b0 o' l) as (o2 & I & D); auto. exists o2. split; auto. apply in_or_app; auto.
Qed.
Lemma registered_snoc ops o c h :
  registered (ops ++ [o]) c h <-> (exists r, o = TAdd r h /\ cleaned r c /\ absent ops c) \/ registered ops c h /\ ~ drops o c.
Proof.
  split.
  - intros (b0 & r & a & E & C & A & N). destruct (exists_last (l := TAdd r h :: a)) as (l & x & L); [discriminate|]. rewrite L, app_assoc in E.
    apply app_inj_tail in E as [E1 E2]. subst x. destruct l as [|y l]; cbn in L; injection L as L1 L2.
    + subst o a. left. exists r. rewrite app_nil_r in E1. subst. auto.
    + subst y a. right. split; [|apply N; apply in_or_app; right; left; auto]. exists b0, r, l. split; auto. split; auto. split; auto.
      intros o' I. apply N. apply in_or_app; auto.
  - intros [(r & -> & C & A)|[(b0 & r & a & -> & C & A & N) D]].
    + exists ops, r, []. split; auto.
    + exists b0, r, (a ++ [o]). rewrite <- app_assoc. split; auto. split; auto. split; auto. intros o' I. apply in_app_or in I as [I|[<-|[]]]; auto.
Qed.
Lemma registered_table ops c : (sm_find (t_resources (t_run ops)) c = None <-> absent ops c)
  /\ (forall h, sm_find (t_resources (t_run ops)) c = Some h <-> registered ops c h).
Proof.
  induction ops as [|o ops [IH1 IH2]] using rev_ind.
  - split; [split; auto|intros h; split; [discriminate|]].
    + intros _ b0 o a E. destruct b0; discriminate.
    + intros (b0 & r & a & E & _). destruct b0; discriminate.
  - pose proof (proj1 (t_run_sorted ops)) as S. rewrite t_run_snoc. rewrite absent_snoc. setoid_rewrite registered_snoc.
    destruct o as [r h|r|a b|]; cbn [t_step t_resources].
    + rewrite sm_find_insert by auto. destruct (str_eqb (strip_slash r) c) eqn:E.
      * apply str_eqb_eq in E. subst c. destruct (sm_find (t_resources (t_run ops)) (strip_slash r)) as [h0|] eqn:F.
        -- split; [split; [discriminate|]|].
           ++ intros [[D|(r' & D & _)]|[_ D]]; try discriminate. exfalso. apply D. exists r, h. split; auto. apply cleaned_strip; auto.
           ++ intros h1. split.
              ** intros H; injection H as ->. right. split; [apply IH2; auto|]. intros [D|(r' & D & _)]; discriminate.
              ** intros [(r' & D & _ & A)|[R _]]; [apply IH1 in A; discriminate|apply IH2 in R; auto].
        -- split; [split; [discriminate|]|].
           ++ intros [[D|(r' & D & _)]|[_ D]]; try discriminate. exfalso. apply D. exists r, h. split; auto. apply cleaned_strip; auto.
           ++ intros h1. split.
              ** intros H; injection H as ->. left. exists r. split; auto. split; [apply cleaned_strip; auto|apply IH1; auto].
              ** intros [(r' & D & _ & A)|[R _]]; [congruence|apply IH2 in R; discriminate].
      * apply str_eqb_neq in E. split.
        -- rewrite IH1. split; [intros A; right; split; auto; intros (r' & h' & D & C)|intros [[D|(r' & D & _)]|[A _]]; try discriminate; auto].
           injection D as <- <-. apply cleaned_strip in C. congruence.
        -- intros h1. rewrite IH2. split; [intros R; right; split; auto; intros [D|(r' & D & _)]; discriminate|].
           intros [(r' & D & C & _)|[R _]]; auto. injection D as <- <-. apply cleaned_strip in C. congruence.
    + rewrite sm_find_erase. destruct (str_eqb (strip_slash r) c) eqn:E.
      * apply str_eqb_eq in E. subst c. split; [split; auto; intros _; left; right; exists r; split; auto; apply cleaned_strip; auto|].
        intros h1. split; [discriminate|]. intros [(r' & D & _)|[R D]]; [discriminate|]. exfalso. apply D. right. exists r. split; auto. apply cleaned_strip; auto.
      * apply str_eqb_neq in E. assert (~ drops (TRemove r) c) as ND.
        { intros [D|(r' & D & C)]; [discriminate|]. injection D as <-. apply cleaned_strip in C. congruence. }
        split.
        -- rewrite IH1. split; [intros A; right; split; auto; intros (r' & h' & D & _); discriminate|intros [D|[A _]]; [contradiction|auto]].
        -- intros h1. rewrite IH2. split; [auto|]. intros [(r' & D & _)|[R _]]; [discriminate|auto].
    + assert (~ drops (TRedirect a b) c) as ND by (intros [D|(r' & D & C)]; discriminate).
      split.
      * rewrite IH1. split; [intros A; right; split; auto; intros (r' & h' & D & _); discriminate|intros [D|[A _]]; [contradiction|auto]].
      * intros h1. rewrite IH2. split; [auto|]. intros [(r' & D & _)|[R _]]; [discriminate|auto].
    + split; [split; auto; intros _; left; left; reflexivity|]. intros h1. split; [discriminate|]. intros [(r' & D & _)|[R D]]; [discriminate|].
      exfalso. apply D. left; reflexivity.
Qed.
Lemma redirected_table ops a b : sm_find (t_redirects (t_run ops)) a = Some b <-> redirected ops a b.
Proof.
  revert b. induction ops as [|o ops IH] using rev_ind.
  - intros b. split; [discriminate|]. intros (b0 & x & y & a0 & E & _). destruct b0; discriminate.
  - intros b. pose proof (proj2 (t_run_sorted ops)) as S. rewrite t_run_snoc.
    assert (redirected (ops ++ [o]) a b <-> redirected ops a b \/ (exists x y, o = TRedirect x y /\ cleaned x a /\ cleaned y b /\ (forall x' y', In (TRedirect x' y') ops -> ~ cleaned x' a))) as RS.
    { split.
      - intros (b0 & x & y & a0 & E & C1 & C2 & N). destruct (exists_last (l := TRedirect x y :: a0)) as (l & z & L); [discriminate|]. rewrite L, app_assoc in E.
        apply app_inj_tail in E as [E1 E2]. subst z. destruct l as [|w l]; cbn in L; injection L as L1 L2.
        + subst o a0. right. exists x, y. rewrite app_nil_r in E1. subst. auto.
        + subst w a0. left. exists b0, x, y, l. auto.
      - intros [(b0 & x & y & a0 & -> & C1 & C2 & N)|(x & y & -> & C1 & C2 & N)].
        + exists b0, x, y, (a0 ++ [o]). rewrite <- app_assoc. auto.
        + exists ops, x, y, []. auto. }
    rewrite RS, <- IH. clear RS.
    destruct o as [r h|r|x y|]; cbn [t_step t_redirects]; try (split; [auto|]; intros [H|(x' & y' & D & _)]; [auto|discriminate]).
    rewrite sm_find_insert by auto. destruct (str_eqb (strip_slash x) a) eqn:E.
    + apply str_eqb_eq in E. subst a. destruct (sm_find (t_redirects (t_run ops)) (strip_slash x)) as [b1|] eqn:F.
      * split; [auto|]. intros [H|(x' & y' & D & C1 & C2 & N)]; auto. exfalso.
        destruct (proj1 (IH b1) eq_refl) as (b0 & x2 & y2 & a0 & -> & C3 & _). apply (N x2 y2); auto. apply in_or_app. right; left; auto.
      * split.
        -- intros H; injection H as <-. right. exists x, y. split; auto. split; [apply cleaned_strip; auto|]. split; [apply cleaned_strip; auto|].
           intros x' y' I C. destruct (in_split _ _ I) as (p & q & ->).
           (* the first redirect of that name *)
           assert (exists p1 x1 y1 q1, p ++ TRedirect x' y' :: q = p1 ++ TRedirect x1 y1 :: q1 /\ cleaned x1 (strip_slash x) /\ (forall x2 y2, In (TRedirect x2 y2) p1 -> ~ cleaned x2 (strip_slash x))) as W.
           { clear - C. induction p as [|o p IHp]; [exists [], x', y', q; auto|].
             destruct IHp as (p1 & x1 & y1 & q1 & E1 & C1 & N1).
             assert ((exists x2 y2, o = TRedirect x2 y2 /\ cleaned x2 (strip_slash x)) \/ ~ exists x2 y2, o = TRedirect x2 y2 /\ cleaned x2 (strip_slash x)) as [(x2 & y2 & -> & C2)|NO].
             { destruct o as [| |x2 y2|]; try (right; intros (x2' & y2' & D & _); discriminate).
               destruct (list_eq_dec Z.eq_dec (strip_slash x) (strip_slash x2)) as [E|NE].
               - left. exists x2, y2. split; auto. apply cleaned_strip. auto.
               - right. intros (x3 & y3 & D & C3). injection D as <- <-. apply cleaned_strip in C3. auto. }
             - exists [], x2, y2, (p ++ TRedirect x' y' :: q). cbn. auto.
             - exists (o :: p1), x1, y1, q1. cbn. rewrite E1. split; auto. split; auto. intros x2 y2 [->|I2]; [|eauto]. intros C2. apply NO. eauto. }
           destruct W as (p1 & x1 & y1 & q1 & E1 & C1 & N1).
           assert (redirected (p ++ TRedirect x' y' :: q) (strip_slash x) (strip_slash y1)) as R.
           { exists p1, x1, y1, q1. split; auto. split; auto. split; auto. apply cleaned_strip; auto. }
           apply IH in R. congruence.
        -- intros [H|(x' & y' & D & C1 & C2 & N)]; [discriminate|]. injection D as <- <-. apply cleaned_strip in C2. congruence.
    + apply str_eqb_neq in E. split; [auto|]. intros [H|(x' & y' & D & C1 & _)]; auto. injection D as <- <-. apply cleaned_strip in C1. congruence.
Qed.

(* ------------------------------------------------------------------ the search *)

Lemma covers_matches r s : entry_matches r s = true <-> covers r s.
Proof.
  unfold entry_matches, covers. split.
  - intros H. apply andb_prop in H as [H1 H2].
    assert (exists t, s = r ++ t) as [t ->].
    { apply orb_prop in H1 as [H1|H1]; [apply str_eqb_eq in H1; subst; exists s; auto|apply is_prefix_spec in H1; auto]. }
    apply orb_prop in H2 as [H2|H2].
    + left. apply Z.eqb_eq in H2. unfold zlen in H2. rewrite app_length in H2. destruct t; [apply app_nil_r|cbn in H2; lia].
    + right. apply Z.eqb_eq in H2. unfold zlen in H2. rewrite Nat2Z.id, app_nth2, Nat.sub_diag in H2 by lia.
      destruct t as [|x t]; [vm_compute in H2; discriminate|]. cbn in H2. subst x. exists t. auto.
  - intros [->|[t ->]].
    + rewrite Z.eqb_refl, orb_true_l, andb_true_r. apply orb_true_iff. right. apply is_prefix_spec. exists []. rewrite app_nil_r. auto.
    + apply andb_true_intro. split; [apply orb_true_iff; right; apply is_prefix_spec; eauto|]. apply orb_true_iff. right.
      unfold zlen. rewrite Nat2Z.id, app_nth2, Nat.sub_diag by lia. apply Z.eqb_refl.
Qed.
Lemma covers_le r s : covers r s -> lex_ltb s r = false.
Proof. intros [->|[t ->]]; [apply lex_irrefl|apply lex_prefix]. Qed.
Lemma covers_prefix r s : covers r s -> exists t, s = r ++ t.
Proof. intros [->|[t ->]]; [exists []; rewrite app_nil_r; auto|eauto]. Qed.
(** of two names that cover a path the smaller one is shorter *)
Lemma covers_shorter r r' s : covers r s -> covers r' s -> lex_ltb r' r = true -> (List.length r' < List.length r)%nat.
Proof.
  intros H1 H2 L. apply covers_prefix in H1 as [t ->]. apply covers_prefix in H2 as [t' E].
  destruct (Nat.lt_ge_cases (List.length r') (List.length r)) as [X|X]; auto. exfalso.
  assert (exists u, r' = r ++ u) as [u ->].
  { exists (skipn (List.length r) r'). rewrite <- (firstn_skipn (List.length r) r') at 1. f_equal.
    assert (firstn (List.length r) (r ++ t) = firstn (List.length r) (r' ++ t')) as F by (rewrite E; auto).
    rewrite firstn_app, firstn_all, Nat.sub_diag, firstn_O, app_nil_r in F. rewrite firstn_app in F.
    replace (List.length r - List.length r')%nat with 0%nat in F by lia. rewrite firstn_O, app_nil_r in F. auto. }
  rewrite lex_prefix in L. discriminate.
Qed.
Lemma search_best {A} (m : smap A) s : sorted m ->
  match find (fun e => entry_matches (fst e) s) (sm_down m s) with
  | Some e => In e m /\ covers (fst e) s /\ forall e', In e' m -> covers (fst e') s -> e' = e \/ (List.length (fst e') < List.length (fst e))%nat
  | None => forall e, In e m -> ~ covers (fst e) s
  end.
Proof.
  intros S. destruct (find _ _) as [e|] eqn:F.
  - unfold sm_down in F. destruct (find_rev_sorted _ _ _ (sm_upto_sorted m s S) F) as (I & M & B).
    apply sm_upto_in in I as [I L]; auto. apply covers_matches in M. split; auto. split; auto.
    intros e' I' C'. destruct (B e') as [->|X]; auto.
    + apply sm_upto_in; auto. split; auto. apply covers_le; auto.
    + apply covers_matches; auto.
    + right. eapply covers_shorter; eauto.
  - intros e I C. assert (In e (sm_down m s)) as D by (apply sm_down_in; auto; split; auto; apply covers_le; auto).
    pose proof (find_none _ _ F _ D) as N. cbn in N. apply covers_matches in C. congruence.
Qed.
Lemma find_request_handler_best ops s : best ops s (find_request_handler (t_run ops) s).
Proof.
  pose proof (proj1 (t_run_sorted ops)) as S. unfold find_request_handler.
  assert (match t_resources (t_run ops) with [] => None | _ :: _ =>
      match find (fun e => entry_matches (fst e) s) (sm_down (t_resources (t_run ops)) s) with Some e => Some (snd e) | None => None end end
    = match find (fun e => entry_matches (fst e) s) (sm_down (t_resources (t_run ops)) s) with Some e => Some (snd e) | None => None end) as ->
    by (destruct (t_resources (t_run ops)); reflexivity).
  pose proof (search_best _ s S) as B. destruct (find _ _) as [[r h]|]; cbn [best fst snd] in *.
  - destruct B as (I & C & B). exists r. split; [apply registered_table, sm_find_in; auto|]. split; auto.
    intros r' h' R C'. apply registered_table, sm_find_in in R; auto. destruct (B _ R C') as [E|L]; [right; injection E as -> ->; auto|left; auto].
  - intros r h R. apply registered_table, sm_find_in in R; auto. apply (B _ R).
Qed.

(* ------------------------------------------------------------------ redirects *)

Lemma follow_leads ops : forall k res req,
  match follow k (t_run ops) res req with
  | (Some q, req') => exists n, (n <= k)%nat /\ leads ops n res q /\ (forall b, ~ redirected ops q b) /\ req' = (if n then req else q)
  | (None, req') => (exists q, leads ops (S k) res q) /\ (k = O -> req' = req) /\ (k <> O -> leads ops k res req')
  end.
Proof.
  induction k as [|k IH]; intros res req; cbn [follow].
  - destruct (sm_find _ res) as [r|] eqn:E.
    + split; [|split; auto; lia]. exists r. apply redirected_table in E. econstructor; [eauto|constructor].
    + exists 0%nat. split; [lia|]. split; [constructor|]. split; auto. intros b R. apply redirected_table in R. congruence.
  - destruct (sm_find _ res) as [r|] eqn:E.
    + apply redirected_table in E. specialize (IH r r). destruct (follow k (t_run ops) r r) as [[q|] req'].
      * destruct IH as (n & L & LE & N & Q). exists (S n). split; [lia|]. split; [econstructor; eauto|]. split; auto.
        destruct n; auto. inversion LE; subst; auto.
      * destruct IH as ((q & LE) & H0 & H1). split; [exists q; econstructor; eauto|]. split; [lia|]. intros _.
        econstructor; [exact E|]. destruct k; [rewrite H0 by auto; constructor|apply H1; lia].
    + exists 0%nat. split; [lia|]. split; [constructor|]. split; auto. intros b R. apply redirected_table in R. congruence.
Qed.

(* ------------------------------------------------------------------ a request *)

Lemma set_resource_same m : set_m_resource (m_resource m) m = m.
Proof. destruct m; reflexivity. Qed.
Lemma leads_det ops n : forall a q m r, leads ops n a q -> leads ops m a r -> (forall b, ~ redirected ops q b) -> (m <= n)%nat.
Proof.
  induction n as [|n IH]; intros a q m r H1 H2 N; inversion H1; subst.
  - destruct H2 as [|m a b c R _]; auto. exfalso. eapply N; eauto.
  - destruct H2 as [|m a b0 c R L]; [lia|]. apply redirected_table in H0, R. assert (b0 = b) by congruence. subst.
    specialize (IH _ _ _ _ H3 L N). lia.
Qed.
(** within ten steps to a resource that is not redirected, or more than ten steps *)
Lemma dispatch_request {W} ops auth throws (w : W) m c : m_valid m = true -> cleaned (m_resource m) c ->
  (exists q q', leads ops 11 c q /\ leads ops 10 c q' /\ handle_request (t_run ops) auth throws None w m = Ok ([ATooMany], set_m_resource q' m, w))
  \/ exists n q m', (n <= 10)%nat /\ leads ops n c q /\ (forall b, ~ redirected ops q b) /\ (m' = if n then m else set_m_resource q m)
     /\ exists o, best ops q o
     /\ handle_request (t_run ops) auth throws None w m = obind (match auth with Some a => a w m' | None => Ok (true, w) end) (fun x =>
          Ok (if fst x then match o with Some h => if throws h then [AHandler h; AServerError] else [AHandler h] | None => [ANotFound] end else [AAuth], m', snd x)).
Proof.
  intros HV HC. apply cleaned_strip in HC. subst c. unfold handle_request. rewrite HV.
  pose proof (follow_leads ops MAX_REDIRECTS (strip_slash (m_resource m)) (m_resource m)) as F.
  destruct (follow MAX_REDIRECTS (t_run ops) _ _) as [[q|] r].
  - right. destruct F as (n & L & LE & N & R). exists n, q, (set_m_resource r m). split; [exact L|]. split; [exact LE|]. split; [exact N|].
    split; [destruct n; subst; auto; apply set_resource_same|]. exists (find_request_handler (t_run ops) q). split; [apply find_request_handler_best|]. reflexivity.
  - left. destruct F as ((q & LE) & _ & LR). exists q, r. split; auto. split; auto. apply LR. discriminate.
Qed.
Definition handler_calls (throws : nat -> bool) (o : option nat) : list hact :=
  match o with Some h => if throws h then [AHandler h; AServerError] else [AHandler h] | None => [ANotFound] end.
Lemma dispatch_longest {W} ops throws (w : W) m c n q : m_valid m = true -> cleaned (m_resource m) c ->
  leads ops n c q -> (n <= 10)%nat -> (forall b, ~ redirected ops q b) ->
  exists o m', best ops q o /\ handle_request (t_run ops) None throws None w m = Ok (handler_calls throws o, m', w).
Proof.
  intros HV HC HL HN HR. destruct (@dispatch_request W ops None throws w m c HV HC) as [(q1 & q2 & L & _)|(n1 & q1 & m1 & N & L & R & M & o & B & H)].
  - pose proof (leads_det _ _ _ _ _ _ HL L HR). lia.
  - assert (n1 = n) by (pose proof (leads_det _ _ _ _ _ _ HL L HR); pose proof (leads_det _ _ _ _ _ _ L HL R); lia). subst n1.
    assert (q1 = q).
    { clear - HL L. revert c HL L. induction n as [|n IH]; intros c H1 H2.
      - inversion H1; inversion H2; subst; auto.
      - inversion H1 as [|k1 a1 b1 c1 R1 L1]; inversion H2 as [|k2 a2 b2 c2 R2 L2]; subst. apply redirected_table in R1, R2. assert (b1 = b2) by congruence. subst. eauto. }
    subst q1. exists o, m1. split; auto.
Qed.
