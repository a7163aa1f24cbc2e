(** C168: which files a service serves that scanned its directory when it was started. *)
From Coq Require Import String ZArith List Bool Lia.
From Verif Require Import Base SMap AlgModel DictModel HttpModel HttpSpec MessageModel WriterModel PathModel FileModel FileSpec PathProofs FileProofs FileRuns FileCache P_File.
Import ListNotations.

(** The names that lead from the directory [p] to a file, on the disk [d]. *)
Inductive found (d : disk) : list Z -> list (list Z) -> Prop :=
  | found_here p n es t : d p = Some (NDir es t) -> In n es -> (forall es' t', d (p ++ 47 :: n) <> Some (NDir es' t')) -> found d p [n]
  | found_below p n ns es t : d p = Some (NDir es t) -> In n es -> found d (p ++ 47 :: n) ns -> found d p (n :: ns).
Definition readable (d : disk) (p : list Z) : Prop := exists c t, d p = Some (NFile c t true).
(** The path [rel], relative to the service, was found by the scan on the disk [d0]: it is that of a file below the directory (or the
    empty path, and there is a single file); with scan 3 only a file that can be read. *)
Definition was_found (two : bool) (opts : list (disk * fopt)) (d0 : disk) (rel : list Z) : Prop :=
  match rel with
  | [] => exists f, file_of opts = Some f /\ f <> [] /\ (scan_of opts = 1 \/ readable d0 f)
  | _ => exists v ns, directory_of opts = Some v /\ found d0 (normalize two v) ns /\ rel = join ns /\ (scan_of opts = 1 \/ readable d0 (normalize two v ++ 47 :: rel))
  end.

(* ------------------------------------------------------------------ what the scan stores *)

Lemma dir_dec (d : disk) p : (exists es t, d p = Some (NDir es t)) \/ (forall es t, d p <> Some (NDir es t)).
Proof. destruct (d p) as [[es t|c t r]|]; [left; eauto|right; discriminate|right; discriminate]. Qed.
Lemma append_name p n : p <> [] -> last p 0 <> 47 -> entry_name n -> p_append p n = p ++ 47 :: n.
Proof.
  intros NP LP (NE & NI & _). unfold p_append. destruct n as [|c n]; [tauto|]. destruct p as [|z p]; [tauto|].
  assert (c =? SLASH = false) as ->. { apply Z.eqb_neq. intros ->. apply NI. left. auto. }
  apply Z.eqb_neq in LP. change SLASH with 47 in *. rewrite LP. auto.
Qed.
Lemma is_dir_spec d p : is_dir d p = true <-> exists es t, d p = Some (NDir es t).
Proof. unfold is_dir. destruct (d p) as [[es t|c t r]|]; split; eauto; try discriminate; intros (es' & t' & X); discriminate X. Qed.

Section Scan.
Variables (date : Z -> list Z) (d : disk).
Hypothesis RD : real_disk d.

(** the result of one entry *)
Lemma add_found s rel p ph s' tr : sorted (s_cache s) -> add_entry date d s rel p ph = (true, s', tr) ->
  sorted (s_cache s') /\ same_options s s' /\
  (forall k, sm_find (s_cache s') k <> None <-> sm_find (s_cache s) k <> None \/ (k = rel /\ (ph = true \/ readable d p))) /\
  (forall k e, sm_find (s_cache s') k = Some e -> sm_find (s_cache s) k = Some e \/ (k = rel /\ f_path e = p)).
Proof.
  intros SO H. pose proof (add_same date d s rel p ph true s' tr H) as SA. unfold add_entry in H.
  assert (forall e, f_path e = p -> let c := sm_insert (s_cache s) rel e in sorted c /\
    (forall k, sm_find c k <> None <-> sm_find (s_cache s) k <> None \/ k = rel) /\
    (forall k e', sm_find c k = Some e' -> sm_find (s_cache s) k = Some e' \/ (k = rel /\ f_path e' = p))) as INS.
  { intros e EP c. split; [apply sm_insert_sorted; auto|]. unfold c. split.
    - intros k. rewrite sm_find_insert by auto. destruct (str_eqb rel k) eqn:E.
      + apply str_eqb_eq in E. subst. destruct (sm_find (s_cache s) k); split; auto; discriminate.
      + split; [auto|]. intros [X|X]; auto. subst. rewrite str_eqb_refl in E. discriminate.
    - intros k e'. rewrite sm_find_insert by auto. destruct (str_eqb rel k) eqn:E; auto.
      apply str_eqb_eq in E. subst. destruct (sm_find (s_cache s) k); auto. intros X. injection X as <-. auto. }
  destruct ph.
  - injection H as <- _. cbn [with_cache s_cache]. destruct (INS (mkdf p None 0 0 [] (find_mime (filename p))) eq_refl) as (A & B & C).
    split; auto. split; auto. split; auto. intros k. rewrite B. intuition congruence.
  - unfold df_update in H. cbn [f_path] in H. destruct (d p) as [[es t|c t r]|] eqn:DP; cbn [negb] in H; try discriminate H.
    unfold df_read in H. cbn [f_path f_size f_content f_time f_date f_mime] in H. rewrite DP in H. destruct r.
    + rewrite Z.leb_refl in H. injection H as <- _. cbn [with_cache s_cache] in *.
      match goal with |- context [sm_insert _ _ ?E] => destruct (INS E eq_refl) as (A & B & C) end. split; auto. split; auto. split; auto.
      intros k. rewrite B. assert (readable d p) by (exists c, t; auto). intuition congruence.
    + injection H as <- _. split; auto. split; auto. split; auto. intros k. split; auto. intros [X|(_ & [X|(c' & t' & X)])]; auto; [discriminate|congruence].
Qed.

Definition slashed (ns : list (list Z)) : list Z := concat (map (cons 47) ns).
Lemma slashed_join ns : ns <> [] -> slashed ns = 47 :: join ns.
Proof.
  induction ns as [|n ns IH]; [congruence|]. intros _. unfold slashed in *. cbn [map concat join]. destruct ns as [|m ns]; [cbn; rewrite app_nil_r; auto|].
  rewrite IH by discriminate. reflexivity.
Qed.
Lemma found_nonnil p ns : found d p ns -> ns <> [].
Proof. intros F. destruct F; discriminate. Qed.

Lemma last_ok (p n : list Z) : entry_name n -> last (p ++ 47 :: n) 0 <> 47.
Proof. intros (NE & NI & _). rewrite last_app_ne by discriminate. rewrite (last_app_ne [47] n) by auto. apply name_last; auto. Qed.

Lemma scan_found depth : forall s p s' tr, sorted (s_cache s) -> p <> [] -> last p 0 <> 47 -> (List.length (s_dir s) <= List.length p)%nat -> scan_dir date depth d s p = (true, s', tr) ->
  sorted (s_cache s') /\ same_options s s' /\
  (forall k, sm_find (s_cache s') k <> None <-> sm_find (s_cache s) k <> None \/
     exists ns, found d p ns /\ k = skipn (List.length (s_dir s) + 1) (p ++ slashed ns) /\ (s_scan s = 1 \/ readable d (p ++ slashed ns))) /\
  (forall k e, sm_find (s_cache s') k = Some e -> sm_find (s_cache s) k = Some e \/
     exists ns, found d p ns /\ k = skipn (List.length (s_dir s) + 1) (p ++ slashed ns) /\ f_path e = p ++ slashed ns).
Proof.
  induction depth as [|depth IH]; intros s p s' tr SO NP LP LEN; cbn [scan_dir]; [discriminate|].
  destruct (d p) as [[es t|c t r]|] eqn:DP; [|discriminate|discriminate].
  destruct (scan_entries date (scan_dir date depth d) d p es s) as [[ok1 s1] tr1] eqn:SC. intros X. injection X as -> -> _.
  pose proof (RD p es t DP) as EN.
  (* a part [l] of the entries *)
  assert (forall l s s' tr1, (forall n, In n l -> In n es) -> sorted (s_cache s) -> (List.length (s_dir s) <= List.length p)%nat -> scan_entries date (scan_dir date depth d) d p l s = (true, s', tr1) ->
    sorted (s_cache s') /\ same_options s s' /\
    (forall k, sm_find (s_cache s') k <> None <-> sm_find (s_cache s) k <> None \/
      exists n ns, In n l /\ found d p (n :: ns) /\ k = skipn (List.length (s_dir s) + 1) (p ++ slashed (n :: ns)) /\ (s_scan s = 1 \/ readable d (p ++ slashed (n :: ns)))) /\
    (forall k e, sm_find (s_cache s') k = Some e -> sm_find (s_cache s) k = Some e \/
      exists ns, found d p ns /\ k = skipn (List.length (s_dir s) + 1) (p ++ slashed ns) /\ f_path e = p ++ slashed ns)) as K.
  { clear s s' tr tr1 SO LEN SC. induction l as [|n l IHl]; intros s s' tr1 SUB SO LEN SC; cbn [scan_entries] in SC.
    - injection SC as <- _. split; auto. split; [apply same_refl|]. split; auto. intros k. split; auto. intros [X|(n & ns & [] & _)]; auto.
    - assert (entry_name n) as En by (rewrite Forall_forall in EN; apply EN, SUB; left; auto).
      rewrite append_name in SC by auto. set (q := p ++ 47 :: n) in *.
      destruct (if is_dir d q then _ else _) as [[ok2 s2] tr2] eqn:X. destruct ok2; [|discriminate SC].
      destruct (scan_entries date (scan_dir date depth d) d p l s2) as [[ok3 s3] tr3] eqn:Y. injection SC as -> -> _.
      assert (List.length q = (List.length p + S (List.length n))%nat) as LQ by (unfold q; rewrite app_length; reflexivity).
      assert (forall ns, q ++ slashed ns = p ++ slashed (n :: ns)) as QS. { intros ns. unfold q, slashed. cbn [map concat]. rewrite <- app_assoc. reflexivity. }
      assert (In n es) as Ines by (apply SUB; left; auto).
      assert (sorted (s_cache s2) /\ same_options s s2 /\
        (forall k, sm_find (s_cache s2) k <> None <-> sm_find (s_cache s) k <> None \/
          exists ns, found d p (n :: ns) /\ k = skipn (List.length (s_dir s) + 1) (p ++ slashed (n :: ns)) /\ (s_scan s = 1 \/ readable d (p ++ slashed (n :: ns)))) /\
        (forall k e, sm_find (s_cache s2) k = Some e -> sm_find (s_cache s) k = Some e \/
          exists ns, found d p ns /\ k = skipn (List.length (s_dir s) + 1) (p ++ slashed ns) /\ f_path e = p ++ slashed ns)) as (S2 & O2 & K2 & P2).
      { destruct (is_dir d q) eqn:ID.
        - apply IH in X as (A & B & C & D); auto; [|intros Q; rewrite Q in LQ; cbn in LQ; lia|apply last_ok; auto|lia].
          split; auto. split; auto. split.
          + intros k. rewrite C. split; (intros [Z0|(ns & F & E & R)]; [left; exact Z0|right; exists ns]).
            * rewrite QS in E, R. split; [eapply found_below; eauto|auto].
            * rewrite QS. split; [|auto]. inversion F as [p0 n0 es0 t0 E1 E2 E3|p0 n0 ns0 es0 t0 E1 E2 E3]; subst; [|exact E3].
              apply is_dir_spec in ID as (es1 & t1 & ID). destruct (E3 _ _ ID).
          + intros k e Z0. apply D in Z0 as [Z0|(ns & F & E & R)]; [left; exact Z0|right; exists (n :: ns)]. rewrite QS in E, R. split; [eapply found_below; eauto|auto].
        - destruct (zlen q <? zlen (s_dir s) + 1) eqn:LT; [discriminate X|]. apply add_found in X as (A & B & C & D); auto.
          assert (found d p [n]) as F1.
          { eapply found_here; eauto. intros es' t' Q. fold q in Q. assert (is_dir d q = true) by (apply is_dir_spec; eauto). congruence. }
          assert (p ++ slashed [n] = q) as Q1. { unfold q, slashed. cbn. rewrite app_nil_r. reflexivity. }
          assert (forall ns, found d p (n :: ns) -> ns = []) as ONE.
          { intros ns F. inversion F as [p0 n0 es0 t0 E1 E2 E3|p0 n0 ns0 es0 t0 E1 E2 E3]; subst; auto. fold q in E3. exfalso.
            assert (is_dir d q = true) as G; [|congruence]. apply is_dir_spec. inversion E3; subst; eauto. }
          split; auto. split; auto. split.
          + intros k. rewrite C. split; (intros [Z0|Z0]; [left; exact Z0|right]).
            * destruct Z0 as [-> R]. exists []. rewrite Q1. split; auto. split; auto. destruct R as [R|R]; auto. left. apply Z.eqb_eq. exact R.
            * destruct Z0 as (ns & F & E & R). rewrite (ONE _ F) in *. rewrite Q1 in *. split; auto. destruct R as [R|R]; auto. left. apply Z.eqb_eq. exact R.
          + intros k e Z0. apply D in Z0 as [Z0|[-> Z0]]; [left; exact Z0|right; exists [n]]. rewrite Q1. auto. }
      assert (s_dir s2 = s_dir s /\ s_scan s2 = s_scan s) as [OD OS] by (destruct O2 as (_ & O2 & _ & _ & _ & O3); auto).
      apply IHl in Y as (S3 & O3 & K3 & P3); auto; [|intros m I; apply SUB; right; auto|rewrite OD; auto]. rewrite OD, OS in *.
      split; auto. split; [eapply same_trans; eauto|]. split.
      + intros k. rewrite K3, K2. split.
        * intros [[Z0|(ns & Z0)]|(m & ns & I & Z0)]; [left; exact Z0|right; exists n, ns; split; [left; auto|exact Z0]|right; exists m, ns; split; [right; auto|exact Z0]].
        * intros [Z0|(m & ns & [<-|I] & Z0)]; [left; left; exact Z0|left; right; exists ns; exact Z0|right; exists m, ns; split; [exact I|exact Z0]].
      + intros k e Z0. apply P3 in Z0 as [Z0|Z0]; auto. }
  destruct (K es s s' tr1 (fun _ I => I) SO LEN SC) as (A & B & C & D). split; auto. split; auto. split; auto.
  intros k. rewrite C. split; (intros [Z0|Z0]; [left; exact Z0|right]).
  - destruct Z0 as (n & ns & _ & F & Z0). exists (n :: ns). auto.
  - destruct Z0 as (ns & F & Z0). destruct ns as [|n ns]; [destruct (found_nonnil _ _ F eq_refl)|]. exists n, ns. split; auto.
    inversion F as [p0 n0 es0 t0 E1 E2 E3|p0 n0 ns0 es0 t0 E1 E2 E3]; subst; rewrite DP in E1; injection E1 as <- <-; auto.
Qed.
End Scan.

(* ------------------------------------------------------------------ the whole service *)

(** a directory other than the root *)
Definition proper_dir (two : bool) (opts : list (disk * fopt)) : Prop :=
  forall v, directory_of opts = Some v -> normalize two v <> [] /\ last (normalize two v) 0 <> 47.
Definition is_request (o : fop) : Prop := match o with FRequest _ _ _ _ _ => True | _ => False end.
(** what the cache of the service holds *)
Definition holds_found (two : bool) (opts : list (disk * fopt)) (d0 : disk) (s : fserv) : Prop :=
  (forall k, sm_find (s_cache s) k <> None <-> was_found two opts d0 k) /\
  (forall k e, sm_find (s_cache s) k = Some e -> k <> [] -> exists v, directory_of opts = Some v /\ f_path e = normalize two v ++ 47 :: k).

Lemma skip_dir (dir r : list Z) : skipn (List.length dir + 1) (dir ++ 47 :: r) = r.
Proof. rewrite skipn_app, skipn_all2 by lia. replace (List.length dir + 1 - List.length dir)%nat with 1%nat by lia. auto. Qed.
Lemma join_nonnil d p ns : real_disk d -> found d p ns -> join ns <> [].
Proof.
  intros RD F. assert (exists n l, ns = n :: l /\ entry_name n) as (n & l & -> & NE & _).
  { destruct F as [p n es t E I _|p n ns es t E I _]; exists n; eexists; (split; [reflexivity|]); specialize (RD _ _ _ E); rewrite Forall_forall in RD; auto. }
  cbn [join]. destruct l; auto. destruct n; discriminate.
Qed.
Lemma start_found two date opts d0 depth s s' tr : real_disk d0 -> proper_dir two opts -> (scan_of opts = 1 \/ scan_of opts = 3) ->
  s_cache s = [] -> s_scan s = scan_of opts -> s_dir s = match directory_of opts with Some v => normalize two v | None => [] end ->
  s_file s = match file_of opts with Some v => v | None => [] end -> fs_start date depth d0 s = (true, s', tr) ->
  holds_found two opts d0 s' /\ same_options s s'.
Proof.
  intros RD PD SC EC ES ED EF H. split; [|eapply start_same; eauto]. unfold fs_start in H. destruct (s_scan s =? 0) eqn:Z0; [lia|]. clear Z0.
  set (s0 := if (s_caching s =? 0) && (1 <? s_scan s) then _ else s) in H. assert (same_options s s0 /\ s_cache s0 = []) as [O0 EC0]. { unfold s0. destruct (_ && _); repeat split; auto. }
  clearbody s0. destruct (if is_nil (s_file s0) then _ else _) as [[ok1 s1] tr1] eqn:X. destruct ok1; [|discriminate H]. cbn [negb] in H.
  destruct O0 as (_ & D0 & F0 & _ & _ & S0). rewrite ED in D0. rewrite EF in F0. rewrite ES in S0.
  assert (sorted (s_cache s1) /\ same_options s0 s1 /\ (forall k, sm_find (s_cache s1) k <> None <-> k = [] /\ was_found two opts d0 [])) as (S1 & O1 & K1).
  { destruct (is_nil (s_file s0)) eqn:NF.
    - injection X as <- _. rewrite EC0. split; [exact I|]. split; [apply same_refl|]. intros k. split; [intros Q; destruct (Q eq_refl)|]. intros (_ & f & E & N & _).
      rewrite E in F0. rewrite F0 in NF. destruct f; [congruence|discriminate].
    - apply add_found in X as (A & B & C & _); [|rewrite EC0; exact I]. split; auto. split; auto. intros k. rewrite C, EC0. rewrite S0. split.
      + intros [Q|(-> & R)]; [destruct (Q eq_refl)|]. split; auto. rewrite F0 in *. destruct (file_of opts) as [f|] eqn:FO; [|discriminate NF]. exists f. split; auto. split; [intros ->; discriminate NF|].
        destruct R as [R|R]; auto. left. lia.
      + intros (-> & f & E & N & R). right. split; auto. rewrite E in F0. rewrite F0. destruct R as [R|R]; auto. left. lia. }
  destruct O1 as (_ & D1 & _ & _ & _ & SS1). rewrite D0 in D1. rewrite S0 in SS1.
  destruct (is_nil (s_dir s1)) eqn:ND.
  - injection H as <- _. rewrite D1 in ND. split.
    + intros k. rewrite K1. destruct k as [|c k]; [split; [intros [_ Q]; exact Q|auto]|]. split; [intros [Q _]; discriminate|]. cbn [was_found]. intros (v & ns & E & _).
      rewrite E in ND. destruct (PD v E) as [N _]. destruct (normalize two v); [congruence|discriminate].
    + intros k e E N. assert (sm_find (s_cache s1) k <> None) as Q by congruence. apply K1 in Q as [Q _]. congruence.
  - destruct (scan_dir date depth d0 s1 (s_dir s1)) as [[ok2 s2] tr2] eqn:Y. injection H as -> <- _.
    destruct (directory_of opts) as [v|] eqn:DV; [|rewrite D1 in ND; discriminate]. destruct (PD v DV) as [NV LV].
    rewrite D1 in Y. apply scan_found in Y as (_ & _ & K2 & P2); auto; [|rewrite D1; auto]. rewrite D1, SS1 in *. split.
    + intros k. rewrite K2, K1. split.
      * intros [[-> Q]|(ns & F & E & R)]; auto. pose proof (found_nonnil _ _ _ F) as NN. rewrite slashed_join in E, R by auto. rewrite skip_dir in E. subst k.
        pose proof (join_nonnil _ _ _ RD F) as JN. unfold was_found. destruct (join ns) as [|c k] eqn:J; [congruence|]. exists v, ns. rewrite J. auto.
      * intros W. destruct k as [|c k]; [auto|]. right. destruct W as (v' & ns & E & F & J & R). rewrite DV in E. injection E as <-. exists ns.
        pose proof (found_nonnil _ _ _ F) as NN. rewrite slashed_join by auto. rewrite skip_dir, <- J. auto.
    + intros k e E N. exists v. split; auto. apply P2 in E as [E|(ns & F & E & R)].
      * assert (sm_find (s_cache s1) k <> None) as Q by congruence. apply K1 in Q as [Q _]. congruence.
      * pose proof (found_nonnil _ _ _ F) as NN. rewrite slashed_join in E, R by auto. rewrite skip_dir in E. subst k. auto.
Qed.

(** requests do not change which files are held *)
Lemma check_keeps date d e ok e' tr : df_check date d e = (ok, e', tr) -> f_path e' = f_path e.
Proof.
  unfold df_check. destruct (d (f_path e)) as [[es t|c t r]|]; try (intros H; injection H as <- <- <-; reflexivity).
  destruct (_ && _); [intros H; injection H as <- <- <-; reflexivity|]. destruct (df_read d _) as [[ok1 f1] tr1] eqn:R. apply read_path in R as [R _]. intros H. injection H as <- <- <-. exact R.
Qed.
Lemma get_keeps two date opts d0 d s m p r s' tr : holds_found two opts d0 s -> s_scan s = 1 \/ s_scan s = 3 -> fs_get date d s m p = (r, s', tr) -> holds_found two opts d0 s'.
Proof.
  intros HF SC. unfold fs_get. replace ((0 <? s_caching s) || (0 <? s_scan s)) with true by (symmetry; apply orb_true_iff; right; lia).
  destruct (sm_find (s_cache s) (relative s (m_resource m))) as [e|] eqn:E.
  2: { replace ((s_scan s =? 1) || (s_scan s =? 3)) with true by lia. intros H. injection H as _ <- _. auto. }
  destruct (s_caching s =? 0). { destruct (df_update date d _) as [[ok1 f1] tr1]. intros H. injection H as _ <- _. auto. }
  match goal with |- (match ?T with (_, _) => _ end) = _ -> _ => destruct T as [[ok1 e1] tr1] eqn:T1 end. intros H. injection H as _ <- _.
  assert (f_path e1 = f_path e) as PE.
  { destruct (f_time e =? 0).
    - destruct (df_update date d e) as [[ok2 f2] tr2] eqn:U. apply update_path in U as [U _]. destruct ok2; [|injection T1 as _ <- _; exact U].
      destruct (df_read d f2) as [[ok3 f3] tr3] eqn:R. apply read_path in R as [R _]. injection T1 as _ <- _. congruence.
    - destruct (s_caching s =? 1); [eapply check_keeps; eauto|]. injection T1 as _ <- _. reflexivity. }
  destruct HF as [H1 H2]. split; cbn [with_cache s_cache].
  - intros k. rewrite <- H1, sm_find_set. destruct (str_eqb _ k) eqn:Q; [|reflexivity]. apply str_eqb_eq in Q. subst k. rewrite E. split; discriminate.
  - intros k e' F N. rewrite sm_find_set in F. destruct (str_eqb _ k) eqn:Q; [|eauto]. apply str_eqb_eq in Q. subst k. rewrite E in F. injection F as <-. rewrite PE. eauto.
Qed.
Lemma handle_keeps two date opts d0 d d' s m data why r s' tr : holds_found two opts d0 s -> s_scan s = 1 \/ s_scan s = 3 -> fs_handle two date d d' s m data why = (r, s', tr) -> holds_found two opts d0 s'.
Proof.
  intros HF SC. unfold fs_handle. destruct (file_path two s m) as [p|]; [|intros H; injection H as _ <- _; auto].
  destruct (is_prefix _ _); cbn [negb]; [|intros H; injection H as _ <- _; auto].
  destruct (is_dir d p); [intros H; injection H as _ <- _; auto|].
  match goal with |- (match ?T with (_, _) => _ end) = _ -> _ => destruct T as [[r1 s1] tr1] eqn:X end. intros H; injection H as _ <- _.
  destruct (str_eqb (m_method m) (bs "GET") || is_head m); [eapply get_keeps; eauto|].
  destruct (_ || _ || _); [|injection X as _ <- _; auto]. destruct (fs_change d d' s m p data why). injection X as _ <- _. auto.
Qed.
Lemma run_keeps two date opts d0 reqs : Forall is_request reqs -> forall s, holds_found two opts d0 s -> s_scan s = 1 \/ s_scan s = 3 ->
  holds_found two opts d0 (fst (fs_run two date s reqs)) /\ same_options s (fst (fs_run two date s reqs)).
Proof.
  induction 1 as [|o reqs R _ IH]; intros s HF SC; cbn [fs_run fst]; [split; [auto|apply same_refl]|].
  destruct o as [| | |d d' m data why]; try destruct R. cbn [fs_step]. destruct (fs_handle two date d d' s m data why) as [[r s1] tr1] eqn:X.
  pose proof (handle_keeps _ _ _ _ _ _ _ _ _ _ _ _ _ HF SC X) as H1. apply handle_same in X as [X _]. assert (s_scan s1 = s_scan s) as S1 by apply X.
  destruct (IH s1 H1) as [A B]; [rewrite S1; auto|]. destruct (fs_run two date s1 reqs) as [s2 t2]. cbn [fst] in *. split; auto. eapply same_trans; eauto.
Qed.
Lemma serves_same two date ops : Forall serves ops -> forall s, same_options s (fst (fs_run two date s ops)).
Proof.
  induction 1 as [|o ops SV _ IH]; intros s; cbn [fs_run fst]; [apply same_refl|].
  destruct (fs_step two date s o) as [s1 t1] eqn:ST. specialize (IH s1). destruct (fs_run two date s1 ops) as [s2 t2]. cbn [fst] in *. eapply same_trans; [|exact IH].
  destruct o as [d o|n d| |d d' m data why]; cbn [fs_step] in ST; [destruct SV| | |].
  - destruct (fs_start date n d s) as [[ok s3] t3] eqn:X. injection ST as <- _. eapply start_same; eauto.
  - injection ST as <- _. repeat split.
  - destruct (fs_handle two date d d' s m data why) as [[r s3] t3] eqn:X. injection ST as <- _. eapply handle_same; eauto.
Qed.

(** A service with these options, after some history stopped (which does nothing to a new one), started while the disk was [d0]
    without an exception, and then given requests. *)
Definition started (two : bool) (date : Z -> list Z) (resource : list Z) (opts : list (disk * fopt)) (before : list fop) (depth : nat) (d0 : disk) (reqs : list fop) (s : fserv) : Prop :=
  Forall serves before /\ Forall is_request reqs /\ real_disk d0 /\
  exists s1 tr, fs_start date depth d0 (fs_stop (fst (fs_run two date (configure two date resource opts) before))) = (true, s1, tr) /\ s = fst (fs_run two date s1 reqs).
Lemma started_holds two date resource opts before depth d0 reqs s : started two date resource opts before depth d0 reqs s -> proper_dir two opts -> scan_of opts = 1 \/ scan_of opts = 3 ->
  holds_found two opts d0 s /\ s_resource s = resource /\ s_scan s = scan_of opts /\ s_dir s = (match directory_of opts with Some v => normalize two v | None => [] end) /\ s_file s = (match file_of opts with Some v => v | None => [] end).
Proof.
  intros (SV & RQ & RD & s1 & tr & ST & ->) PD SC. destruct (configured two date resource opts) as (CD & CF & _ & _ & CR). destruct (caching_configured two date resource opts) as [_ CS].
  pose proof (serves_same two date before SV (configure two date resource opts)) as (B1 & B2 & B3 & _ & _ & B4).
  destruct (start_found two date opts d0 depth (fs_stop (fst (fs_run two date (configure two date resource opts) before))) _ _ RD PD SC eq_refl (eq_trans B4 CS) (eq_trans B2 CD) (eq_trans B3 CF) ST) as [H1 (O1 & O2 & O3 & _ & _ & O4)].
  cbn in O1, O2, O3, O4. destruct (run_keeps two date opts d0 reqs RQ s1 H1) as [H2 (Q1 & Q2 & Q3 & _ & _ & Q4)]; [rewrite O4, B4, CS; auto|].
  split; [exact H2|]. repeat split; congruence.
Qed.

Definition answered (pos : dpos) (r : fres) (code : Z) : Prop := exists l, r = FAnswer l /\ status pos l = code.
Definition reads (m : msg) : Prop := m_method m = bs "GET" \/ m_method m = bs "HEAD".
Lemma reads_get m : reads m -> str_eqb (m_method m) (bs "GET") || is_head m = true.
Proof. unfold is_head, HEAD. intros [-> | ->]; reflexivity. Qed.
Lemma not_found_404 pos m : answered pos (not_found m) 404.
Proof. unfold not_found. destruct (page_total 404 (bs "Not Found") (bs "404 Not Found") (bs "Not Found") (bs "The requested URL ") (m_resource m) (bs " was not found on this server.") [] [] (negb (is_head m))) as (l & E). exists l. split; [exact E|]. eapply page_status; [| | |exact E]; auto; lia. Qed.
Lemma forbidden_403 pos m why : answered pos (forbidden m why) 403.
Proof. unfold forbidden. destruct (page_total 403 (bs "Forbidden") (bs "403 Forbidden") (bs "Forbidden") (bs "The requested URL ") (m_resource m) why [] [] (negb (is_head m))) as (l & E). exists l. split; [exact E|]. eapply page_status; [| | |exact E]; auto; lia. Qed.
Lemma headers_only_code pos f code reason : 0 <= code < 65536 -> answered pos (headers_only f code reason) code.
Proof.
  intros C. eexists. split; [reflexivity|]. unfold status, w_ops. cbn. apply Z.mod_small. unfold two32. lia.
Qed.

(** C168. What was not found by the scan is not served: the answer to GET or HEAD is 404 or 403, whatever is on the disk now. *)
Theorem C168_only_partial two date pos resource opts before depth d0 reqs s d d' m data why r s' tr :
  started two date resource opts before depth d0 reqs s -> proper_dir two opts -> scan_of opts = 1 \/ scan_of opts = 3 -> reads m ->
  ~ was_found two opts d0 (asked resource m) -> fs_handle two date d d' s m data why = (r, s', tr) -> answered pos r 404 \/ answered pos r 403.
Proof.
  intros ST PD SC RM NW. destruct (started_holds _ _ _ _ _ _ _ _ _ ST PD SC) as ([HF _] & ER & ES & _).
  unfold fs_handle. destruct (file_path two s m) as [p|]; [|intros H; injection H as <- _ _; left; apply not_found_404].
  destruct (is_prefix _ _); cbn [negb]; [|intros H; injection H as <- _ _; right; apply forbidden_403].
  destruct (is_dir d p); [intros H; injection H as <- _ _; right; apply forbidden_403|]. rewrite reads_get by auto.
  unfold fs_get. replace ((0 <? s_caching s) || (0 <? s_scan s)) with true by (symmetry; apply orb_true_iff; right; lia).
  assert (relative s (m_resource m) = asked resource m) as -> by (unfold asked, relative; rewrite ER; reflexivity).
  destruct (sm_find (s_cache s) (asked resource m)) as [e|] eqn:E; [exfalso; apply NW, HF; congruence|].
  replace ((s_scan s =? 1) || (s_scan s =? 3)) with true by lia. intros H. injection H as <- _ _. left. apply not_found_404.
Qed.
Print Assumptions C168_only_partial.

(** an absolute path with plain names *)
Definition plain_dir (v : list Z) (dn : list (list Z)) : Prop := v = 47 :: join dn /\ dn <> [] /\ Forall entry_name dn.
Lemma fields_join dn : dn <> [] -> Forall entry_name dn -> fields (join dn) = dn.
Proof.
  intros NN F. induction F as [|n dn (NE & NI & _) F IH]; [congruence|]. cbn [join]. destruct dn as [|m dn]; [apply fields_noslash; auto|].
  rewrite fields_app_slash, IH, fields_noslash by (auto; discriminate). reflexivity.
Qed.
Lemma names_plain l : Forall entry_name l -> filter (fun f => negb (is_nil f)) l = l.
Proof. induction 1 as [|n l (NE & _) F IH]; [reflexivity|]. cbn [filter]. rewrite IH. destruct n; [congruence|reflexivity]. Qed.
Lemma last_join dn : dn <> [] -> Forall entry_name dn -> last (join dn) 0 <> 47 /\ join dn <> [].
Proof.
  intros NN F. induction F as [|n dn (NE & NI & _) F IH]; [congruence|]. cbn [join]. destruct dn as [|m dn]; [split; [apply name_last; auto|auto]|].
  destruct IH as [A B]; [discriminate|]. split; [|destruct n; discriminate]. rewrite last_app_ne by discriminate. set (j := join (m :: dn)) in *. rewrite (last_app_ne [SLASH] j) by exact B. exact A.
Qed.
Lemma elements_plain dn : dn <> [] -> Forall entry_name dn -> elements (47 :: join dn) = ROOT :: dn.
Proof.
  intros NN F. unfold elements. assert (names (47 :: join dn) = dn) as ->.
  { unfold names. cbn [fields]. change (47 =? SLASH) with true. cbn iota. cbn [filter is_nil negb]. rewrite fields_join by auto. apply names_plain; auto. }
  destruct (last_join dn NN F) as [L N]. change (47 :: join dn) with ([47] ++ join dn). rewrite last_app_ne by auto. apply Z.eqb_neq in L. change SLASH with 47. rewrite L, andb_false_r, app_nil_r. reflexivity.
Qed.
Lemma norm_plain two l : forall st, st <> [] -> Forall entry_name l -> norm two false st l = rev st ++ l.
Proof.
  induction l as [|e l IH]; intros st NS F; cbn [norm]; [rewrite app_nil_r; auto|]. inversion F as [|? ? (E1 & E2 & E3 & E4) FL]; subst.
  assert (str_eqb e DOT = false) as ->. { destruct (str_eqb e DOT) eqn:Q; auto. apply str_eqb_eq in Q. elim E3. exact Q. }
  assert (str_eqb e DOTDOT = false) as ->. { destruct (str_eqb e DOTDOT) eqn:Q; auto. apply str_eqb_eq in Q. elim E4. exact Q. }
  cbn [andb]. rewrite IH by (auto; discriminate). cbn [rev]. rewrite <- app_assoc. reflexivity.
Qed.
Lemma string_plain l : forall p, p <> [] -> last p 0 <> 47 -> Forall entry_name l -> fold_left p_append l p = p ++ slashed l.
Proof.
  induction l as [|e l IH]; intros p NP LP F; cbn [fold_left]; [unfold slashed; cbn; rewrite app_nil_r; auto|]. inversion F as [|? ? E FL]; subst. rewrite append_name by auto.
  rewrite IH; [unfold slashed; cbn [map concat]; rewrite <- app_assoc; reflexivity|destruct p; discriminate|apply last_ok; auto|auto].
Qed.
Lemma normalize_plain two dn : dn <> [] -> Forall entry_name dn -> normalize two (47 :: join dn) = 47 :: join dn.
Proof.
  intros NN F. unfold normalize. rewrite elements_plain by auto. cbn [norm]. change (str_eqb ROOT DOT) with false. change (str_eqb ROOT DOTDOT) with false. cbn [andb].
  rewrite norm_plain by (auto; discriminate). cbn [rev app]. unfold p_string.
  destruct dn as [|n dn]; [congruence|]. inversion F as [|? ? E FL]; subst. change (fold_left p_append (ROOT :: n :: dn) []) with (fold_left p_append dn (p_append [SLASH] n)).
  assert (p_append [SLASH] n = 47 :: n) as ->. { destruct E as (NE & _). destruct n; [congruence|]. reflexivity. }
  rewrite string_plain; auto; [|discriminate|apply (last_ok [] n); auto]. cbn [join]. destruct dn as [|m dn]; [unfold slashed; cbn; rewrite app_nil_r; auto|]. rewrite slashed_join by discriminate. reflexivity.
Qed.
Lemma join_app a b : a <> [] -> b <> [] -> join (a ++ b) = join a ++ 47 :: join b.
Proof.
  intros NA NB. induction a as [|x a IH]; [congruence|]. destruct a as [|y a].
  - cbn [app join]. destruct b; [congruence|reflexivity].
  - change (join ((x :: y :: a) ++ b)) with (x ++ SLASH :: join ((y :: a) ++ b)). rewrite IH by discriminate. change (join (x :: y :: a)) with (x ++ SLASH :: join (y :: a)). rewrite <- app_assoc. reflexivity.
Qed.
Lemma found_names d p ns : real_disk d -> found d p ns -> Forall entry_name ns.
Proof.
  intros RD. induction 1 as [p n es t E I _|p n ns es t E I _ IH]; constructor; auto; specialize (RD _ _ _ E); rewrite Forall_forall in RD; auto.
Qed.
Lemma prefix_app (a b : list Z) : is_prefix a (a ++ b) = true.
Proof. induction a as [|x a IH]; cbn; auto. rewrite Z.eqb_refl. auto. Qed.

(** C168. What was found by the scan and can still be read is served, under its plain name: the file is sent, or (HEAD, or not
    changed since the time told in the request) its headers are. (Missing: directories with other spellings, and other spellings of
    the file's path, see below.) *)
Theorem C168_found_partial two date pos resource opts before depth d0 reqs s d d' m data why v dn :
  started two date resource opts before depth d0 reqs s -> directory_of opts = Some v -> plain_dir v dn -> scan_of opts = 1 \/ scan_of opts = 3 -> reads m ->
  asked resource m <> [] -> was_found two opts d0 (asked resource m) -> readable d (v ++ 47 :: asked resource m) ->
  exists r s' tr, fs_handle two date d d' s m data why = (r, s', tr) /\
    ((m_method m = bs "GET" /\ exists f, r = FSend f /\ f_path f = v ++ 47 :: asked resource m) \/ (m_method m = bs "HEAD" /\ answered pos r 200) \/ answered pos r 304).
Proof.
  intros ST DV (PV & DN & DF) SC RM NR W RE.
  assert (normalize two v = v) as NV by (rewrite PV; apply normalize_plain; auto).
  assert (v <> [] /\ last v 0 <> 47) as [VN VL]. { rewrite PV. split; [discriminate|]. destruct (last_join dn DN DF) as [A B]. change (47 :: join dn) with ([47] ++ join dn). rewrite last_app_ne by auto. exact A. }
  assert (proper_dir two opts) as PD. { intros v' E. rewrite DV in E. injection E as <-. rewrite NV. auto. }
  pose proof ST as (_ & _ & RD & _).
  destruct (started_holds _ _ _ _ _ _ _ _ _ ST PD SC) as ([HF HP] & ER & ES & ED & EF). rewrite DV, NV in ED.
  assert (relative s (m_resource m) = asked resource m) as REL by (unfold asked, relative; rewrite ER; reflexivity).
  set (rel := asked resource m) in *.
  assert (normalize two (p_append v rel) = v ++ 47 :: rel) as NP.
  { pose proof W as W'. unfold was_found in W'. destruct rel as [|c k] eqn:R; [congruence|]. destruct W' as (v' & ns & E & F & J & _). rewrite DV in E. injection E as <-.
    pose proof (found_names _ _ _ RD F) as FN. pose proof (found_nonnil _ _ _ F) as NN.
    assert (p_append v (c :: k) = v ++ 47 :: c :: k) as ->.
    { unfold p_append. destruct v as [|z v0]; [congruence|]. apply Z.eqb_neq in VL. change SLASH with 47. rewrite VL. destruct (c =? 47) eqn:C; [|reflexivity].
      exfalso. apply Z.eqb_eq in C. subst c. destruct ns as [|n ns]; [congruence|]. inversion FN as [|? ? (N1 & N2 & _) _]; subst. cbn [join] in J. destruct n as [|x n]; [congruence|].
      apply N2. left. destruct ns; injection J as Q _; auto. }
    rewrite J, PV. change ((47 :: join dn) ++ 47 :: join ns) with (47 :: (join dn ++ 47 :: join ns)). rewrite <- join_app by auto. apply normalize_plain; [destruct dn; [congruence|discriminate]|]. apply Forall_app; auto. }
  unfold fs_handle, file_path. rewrite REL. fold rel. destruct (is_nil rel) eqn:NIL; [destruct rel; [congruence|discriminate]|].
  rewrite ED. destruct (is_nil v) eqn:NIV; [destruct v; [congruence|discriminate]|]. rewrite NP, prefix_app. cbn [negb].
  destruct RE as (c & t & RE). assert (is_dir d (v ++ 47 :: rel) = false) as -> by (unfold is_dir; rewrite RE; reflexivity). rewrite reads_get by auto.
  destruct (sm_find (s_cache s) rel) as [e|] eqn:E; [|elim (proj2 (HF rel) W); exact E].
  destruct (HP rel e E NR) as (v' & E' & PE). rewrite DV in E'. injection E' as <-. rewrite NV in PE.
  assert (forall f, f_path f = v ++ 47 :: rel -> ((m_method m = bs "GET" /\ exists f', choose m f = FSend f' /\ f_path f' = v ++ 47 :: rel) \/ (m_method m = bs "HEAD" /\ answered pos (choose m f) 200) \/ answered pos (choose m f) 304)) as CH.
  { intros f PF. unfold choose. destruct (str_eqb (f_date f) _). - right. right. apply headers_only_code. lia.
    - unfold is_head, HEAD. destruct RM as [-> | ->]; cbn [str_eqb]; [left; split; auto; exists f; auto|right; left; split; auto; apply headers_only_code; lia]. }
  assert (exists r s' tr, fs_get date d s m (v ++ 47 :: rel) = (r, s', tr) /\
    ((m_method m = bs "GET" /\ exists f, r = FSend f /\ f_path f = v ++ 47 :: rel) \/ (m_method m = bs "HEAD" /\ answered pos r 200) \/ answered pos r 304)) as (r & s' & tr & G & A).
  2: { rewrite G. exists r, s'. eexists. split; [reflexivity|exact A]. }
  unfold fs_get. rewrite REL. fold rel. replace ((0 <? s_caching s) || (0 <? s_scan s)) with true by (symmetry; apply orb_true_iff; right; lia). rewrite E.
  assert (forall f, f_path f = v ++ 47 :: rel -> exists f' tr, df_update date d f = (true, f', tr) /\ f_path f' = v ++ 47 :: rel /\ f_size f' = zlen c) as UP.
  { intros f PF. unfold df_update. rewrite PF, RE. eexists _, _. split; [reflexivity|]. auto. }
  assert (forall f, f_path f = v ++ 47 :: rel -> f_size f = zlen c -> exists f' tr, df_read d f = (true, f', tr) /\ f_path f' = v ++ 47 :: rel) as RDD.
  { intros f PF FS. unfold df_read. rewrite PF, RE, FS, Z.leb_refl. eexists _, _. split; [reflexivity|]. auto. }
  destruct (s_caching s =? 0).
  { destruct (UP (mkdf (f_path e) None 0 0 [] (f_mime e)) PE) as (f' & tr & -> & P' & _). eexists _, _, _. split; [reflexivity|]. apply CH; auto. }
  destruct (f_time e =? 0).
  { destruct (UP e PE) as (f1 & tr1 & -> & P1 & S1). destruct (RDD f1 P1 S1) as (f2 & tr2 & -> & P2). eexists _, _, _. split; [reflexivity|]. apply CH; auto. }
  destruct (s_caching s =? 1).
  - unfold df_check. rewrite PE, RE. destruct (_ && _); [eexists _, _, _; split; [reflexivity|]; apply CH; auto|].
    match goal with |- context [df_read d ?f] => destruct (RDD f eq_refl eq_refl) as (f2 & tr2 & -> & P2) end. eexists _, _, _. split; [reflexivity|]. apply CH; auto.
  - eexists _, _, _. split; [reflexivity|]. apply CH; auto.
Qed.
Print Assumptions C168_found_partial.

(* ------------------------------------------------------------------ a case *)

(** the directory of P_File.v with a new file *)
Definition tree_new : disk := fun p => if str_eqb p (bs "/var/www/new") then Some (NFile (bs "new") 7 true) else tree p.
Definition scan_opts : list (disk * fopt) := [(tree, ODirectory (bs "/var/www")); (tree, OScan 3)].
Lemma tree_real : real_disk tree.
Proof.
  intros p es t. unfold tree. repeat (match goal with |- context [str_eqb p ?x] => destruct (str_eqb p x) end); try discriminate; intros H; inversion H; subst;
    repeat constructor; try discriminate; intros I; vm_compute in I; repeat (destruct I as [I|I]; [discriminate|]); destruct I.
Qed.
Example C168_case : let date (t : Z) := [t] in let s1 := snd (fst (fs_start date 9 tree (configure true date (bs "/files") scan_opts))) in
  started true date (bs "/files") scan_opts [] 9 tree [FRequest tree tree (request "GET" "/files/a.txt") [] []]
    (fst (fs_run true date s1 [FRequest tree tree (request "GET" "/files/a.txt") [] []]))
  /\ proper_dir true scan_opts /\ scan_of scan_opts = 3 /\ plain_dir (bs "/var/www") [bs "var"; bs "www"]
  /\ was_found true scan_opts tree (asked (bs "/files") (request "GET" "/files/sub/b")) /\ ~ was_found true scan_opts tree (asked (bs "/files") (request "GET" "/files/new"))
  /\ (exists f s' tr, fs_handle true date tree_new tree_new s1 (request "GET" "/files/sub/b") [] [] = (FSend f, s', tr) /\ f_path f = bs "/var/www/sub/b")
  /\ (exists l s' tr, fs_handle true date tree_new tree_new s1 (request "GET" "/files/new") [] [] = (FAnswer l, s', tr) /\ status (fun _ _ => O) l = 404).
Proof.
  cbv zeta. split.
  { split; [constructor|]. split; [repeat constructor|]. split; [apply tree_real|]. eexists _, _. split; [|reflexivity]. vm_compute. reflexivity. }
  split. { intros v E. injection E as <-. split; vm_compute; discriminate. }
  split; [reflexivity|].
  assert (Forall entry_name [bs "var"; bs "www"]) as FE. { repeat constructor; try discriminate; intros I; vm_compute in I; repeat (destruct I as [I|I]; [discriminate|]); destruct I. }
  split. { split; [reflexivity|]. split; [discriminate|exact FE]. }
  split. { exists (bs "/var/www"), [bs "sub"; bs "b"]. split; [reflexivity|]. split; [|split; [reflexivity|right; exists (bs "there"), 6; reflexivity]].
    eapply found_below; [vm_compute; reflexivity|right; left; reflexivity|]. eapply found_here; [vm_compute; reflexivity|left; reflexivity|]. intros es t H. vm_compute in H. discriminate H. }
  split. { intros (v & ns & E & F & J & [R|(c & t & R)]); [discriminate R|]. injection E as <-. vm_compute in R. discriminate R. }
  split; eexists _, _, _; (split; [vm_compute; reflexivity|reflexivity]).
Qed.

(** The claim for every directory that is a directory, and every spelling of the path of a file that leads to it and does not leave
    the directory. *)
Definition leads_to (cwd : list (list Z)) (v rel : list Z) (ns : list (list Z)) : Prop := resolve cwd (v ++ 47 :: rel) = resolve cwd v ++ ns.
Definition every_spelling_served (two : bool) (good_dir : list Z -> Prop) : Prop := forall date cwd resource opts v ns d0 s1 tr m,
  directory_of opts = Some v -> good_dir v -> is_dir d0 (normalize two v) = true -> real_disk d0 -> all_readable d0 -> scan_of opts = 3 -> m_method m = bs "GET" -> d_get (m_headers m) (bs "If-Modified-Since") = [] ->
  fs_start date 9 d0 (configure two date resource opts) = (true, s1, tr) ->
  found d0 (normalize two v) ns -> leads_to cwd v (asked resource m) ns ->
  exists f s' tr', fs_handle two date d0 d0 s1 m [] [] = (FSend f, s', tr').
(** a directory with a file ab, under all these spellings of its path *)
Definition tree_under (dirs : list string) : disk := fun p =>
  if existsb (fun dir => str_eqb p (bs dir)) dirs then Some (NDir [bs "ab"] 1)
  else if existsb (fun dir => str_eqb p (bs dir ++ bs "/ab") || str_eqb p (p_append (bs dir) (bs "ab"))) dirs then Some (NFile (bs "hello") 5 true) else None.
Lemma under_real dirs : real_disk (tree_under dirs).
Proof.
  intros p es t. unfold tree_under. destruct (existsb _ dirs); [|destruct (existsb _ dirs)]; try discriminate; intros H; inversion H; subst;
    repeat constructor; try discriminate; intros I; vm_compute in I; repeat (destruct I as [I|I]; [discriminate|]); destruct I.
Qed.
Lemma under_readable dirs : all_readable (tree_under dirs).
Proof. intros p c t r. unfold tree_under. destruct (existsb _ dirs); [|destruct (existsb _ dirs)]; try discriminate; intros H; inversion H; auto. Qed.
Lemma one_dir two (good_dir : list Z -> Prop) dir dirs res :
  let d := tree_under dirs in let opts := [(d, ODirectory (bs dir)); (d, OScan 3)] in
  let st := fs_start (fun t => [t]) 9 d (configure two (fun t => [t]) (bs "/files") opts) in
  good_dir (bs dir) -> is_dir d (normalize two (bs dir)) = true -> fst (fst st) = true -> found d (normalize two (bs dir)) [bs "ab"] ->
  leads_to [] (bs dir) (asked (bs "/files") (request "GET" res)) [bs "ab"] ->
  (forall f s' tr', fs_handle two (fun t => [t]) d d (snd (fst st)) (request "GET" res) [] [] <> (FSend f, s', tr')) -> ~ every_spelling_served two good_dir.
Proof.
  cbv zeta. intros G D S F L N H. destruct (fs_start _ _ _ _) as [[ok s1] tr] eqn:E. cbn [fst snd] in *. subst ok.
  destruct (H (fun t => [t]) [] (bs "/files") [(tree_under dirs, ODirectory (bs dir)); (tree_under dirs, OScan 3)] (bs dir) [bs "ab"] (tree_under dirs) s1 tr (request "GET" res)
    eq_refl G D (under_real dirs) (under_readable dirs) eq_refl eq_refl eq_refl E F L) as (f & s' & tr' & X). exact (N f s' tr' X).
Qed.
Ltac found_tac := eapply found_here; [vm_compute; reflexivity|left; reflexivity|intros es t Q; vm_compute in Q; discriminate Q].
(** a request for /files/./ab is answered with 404 *)
Theorem C168_spelling_refuted : forall two, ~ every_spelling_served two (fun v => exists dn, plain_dir v dn).
Proof.
  intros two. apply (one_dir two _ "/w" ["/w"%string] "/files/./ab"); try (destruct two; vm_compute; reflexivity); try (destruct two; found_tac).
  - exists [bs "w"]. split; [reflexivity|]. split; [discriminate|]. repeat constructor; try discriminate; intros I; vm_compute in I; repeat (destruct I as [I|I]; [discriminate|]); destruct I.
  - intros f s' tr' X. destruct two; vm_compute in X; discriminate X.
Qed.
Print Assumptions C168_spelling_refuted.
(** With the root as directory the scan takes one letter too much, so /files/ab is answered with 404. *)
Theorem C168_root_refuted : forall two, ~ every_spelling_served two (fun v => v = bs "/").
Proof.
  intros two. apply (one_dir two _ "/" ["/"%string] "/files/ab"); try (destruct two; vm_compute; reflexivity); try (destruct two; found_tac); try reflexivity.
  intros f s' tr' X. destruct two; vm_compute in X; discriminate X.
Qed.
Print Assumptions C168_root_refuted.
(** With a directory that is given with a slash at the end every request is answered with 403. *)
Theorem C168_slash_refuted : forall two, ~ every_spelling_served two (fun v => v = bs "/w/").
Proof.
  intros two. apply (one_dir two _ "/w/" ["/w/"%string; "/w"%string; "/w/."%string] "/files/ab"); try (destruct two; vm_compute; reflexivity); try (destruct two; found_tac); try reflexivity.
  intros f s' tr' X. destruct two; vm_compute in X; discriminate X.
Qed.
Print Assumptions C168_slash_refuted.

(* ------------------------------------------------------------------ that the scan ends well *)

(** A directory whose tree ends, with nothing but directories and files; with scan 1 other entries do no harm. *)
Inductive finite (d : disk) (any : Prop) : list Z -> Prop :=
  | finite_dir p es t : d p = Some (NDir es t) ->
    (forall n, In n es -> finite d any (p ++ 47 :: n) \/ (forall es' t', d (p ++ 47 :: n) <> Some (NDir es' t')) /\ (any \/ exists c t' r, d (p ++ 47 :: n) = Some (NFile c t' r))) -> finite d any p.
Lemma finite_ind2 d any (P : list Z -> Prop) :
  (forall p es t, d p = Some (NDir es t) ->
    (forall n, In n es -> (finite d any (p ++ 47 :: n) /\ P (p ++ 47 :: n)) \/ (forall es' t', d (p ++ 47 :: n) <> Some (NDir es' t')) /\ (any \/ exists c t' r, d (p ++ 47 :: n) = Some (NFile c t' r))) -> P p) ->
  forall p, finite d any p -> P p.
Proof.
  intros HS. fix IH 2. intros p [p0 es t DP H]. apply (HS p0 es t DP). intros n I. destruct (H n I) as [F|X]; [left; split; [exact F|apply IH; exact F]|right; exact X].
Qed.
Lemma add_ends date d s rel p ph : ph = true \/ (exists c t r, d p = Some (NFile c t r)) -> exists s' tr, add_entry date d s rel p ph = (true, s', tr).
Proof.
  unfold add_entry. intros H. destruct ph; [eauto|]. destruct H as [H|(c & t & r & H)]; [discriminate|]. unfold df_update. cbn [f_path]. rewrite H. cbn [negb].
  destruct (df_read d _) as [[ok e] tr]. eauto.
Qed.
Lemma scan_ends date d : real_disk d -> forall p any, finite d any p -> p <> [] -> last p 0 <> 47 -> exists n, forall depth s, (n <= depth)%nat -> (any -> s_scan s = 1) -> (List.length (s_dir s) <= List.length p)%nat ->
  exists s' tr, scan_dir date depth d s p = (true, s', tr).
Proof.
  intros RD p any F. induction F as [p0 es t DP H] using finite_ind2. intros NP LP. pose proof (RD _ _ _ DP) as EN.
  assert (exists n, forall depth s, (n <= depth)%nat -> (any -> s_scan s = 1) -> (List.length (s_dir s) <= List.length p0)%nat ->
    exists s' tr, scan_entries date (scan_dir date depth d) d p0 es s = (true, s', tr)) as (n & K).
  { clear DP. induction es as [|x es IHe]; [exists O; intros; cbn; eauto|]. inversion EN as [|? ? EX ENL]; subst.
    destruct IHe as (n1 & K1); [intros y I; apply H; right; exact I|exact ENL|].
    assert (List.length (p0 ++ 47 :: x) = (List.length p0 + S (List.length x))%nat) as LQ by (rewrite app_length; reflexivity).
    assert (exists n2, forall depth s, (n2 <= depth)%nat -> (any -> s_scan s = 1) -> (List.length (s_dir s) <= List.length p0)%nat -> exists s' tr,
      (if is_dir d (p0 ++ 47 :: x) then scan_dir date depth d s (p0 ++ 47 :: x) else if zlen (p0 ++ 47 :: x) <? zlen (s_dir s) + 1 then (false, s, [])
       else add_entry date d s (skipn (List.length (s_dir s) + 1) (p0 ++ 47 :: x)) (p0 ++ 47 :: x) (s_scan s =? 1)) = (true, s', tr)) as (n2 & K2).
    { destruct (H x (or_introl eq_refl)) as [[F IH]|[ND A]].
      - assert (is_dir d (p0 ++ 47 :: x) = true) as ->. { apply is_dir_spec. destruct F as [? ? ? F _]. eauto. }
        destruct IH as (n2 & K2); [destruct p0; discriminate|apply last_ok; auto|]. exists n2. intros depth s D S L. apply K2; auto. lia.
      - assert (is_dir d (p0 ++ 47 :: x) = false) as ->. { destruct (is_dir d (p0 ++ 47 :: x)) eqn:Q; auto. apply is_dir_spec in Q as (es' & t' & Q). destruct (ND _ _ Q). }
        exists O. intros depth s _ S L. destruct (zlen (p0 ++ 47 :: x) <? zlen (s_dir s) + 1) eqn:LT; [unfold zlen in LT; lia|]. apply add_ends. destruct A as [A|A]; auto. left. apply Z.eqb_eq. auto. }
    exists (Nat.max n1 n2). intros depth s D S L. cbn [scan_entries]. rewrite append_name by auto. destruct (K2 depth s ltac:(lia) S L) as (s2 & tr2 & E2). rewrite E2.
    assert (same_options s s2) as SO.
    { destruct (is_dir d (p0 ++ 47 :: x)); [eapply scan_same; eauto|]. destruct (_ <? _); [discriminate E2|]. eapply add_same; eauto. }
    destruct SO as (_ & SD & _ & _ & _ & SS). destruct (K1 depth s2 ltac:(lia) ltac:(rewrite SS; auto) ltac:(rewrite SD; auto)) as (s3 & tr3 & E3). rewrite E3. eauto. }
  exists (S n). intros depth s D S L. destruct depth as [|depth]; [lia|]. cbn [scan_dir]. rewrite DP. destruct (K depth s ltac:(lia) S L) as (s' & tr & E). rewrite E. eauto.
Qed.
(** C168. Start returns (with a bound on the depth that is large enough) if the single file is a file, the directory's tree ends,
    and, except with scan 1, holds nothing but directories and files. *)
Theorem C168_starts_partial two date resource opts before d0 : real_disk d0 -> proper_dir two opts -> Forall serves before -> 1 <= scan_of opts ->
  (forall v, directory_of opts = Some v -> finite d0 (scan_of opts = 1) (normalize two v)) ->
  (forall f, file_of opts = Some f -> f <> [] -> exists c t r, d0 f = Some (NFile c t r)) ->
  exists n, forall depth, (n <= depth)%nat -> exists s1 tr, fs_start date depth d0 (fs_stop (fst (fs_run two date (configure two date resource opts) before))) = (true, s1, tr).
Proof.
  intros RD PD SV SC FD FF. destruct (configured two date resource opts) as (CD & CF & _ & _ & _). destruct (caching_configured two date resource opts) as [_ CS].
  pose proof (serves_same two date before SV (configure two date resource opts)) as (_ & B2 & B3 & _ & _ & B4). set (s := fs_stop _) in *.
  assert (s_dir s = match directory_of opts with Some v => normalize two v | None => [] end) as ED by (exact (eq_trans B2 CD)).
  assert (s_file s = match file_of opts with Some v => v | None => [] end) as EF by (exact (eq_trans B3 CF)). assert (s_scan s = scan_of opts) as ES by (exact (eq_trans B4 CS)). clearbody s.
  assert (exists n, forall depth s, (n <= depth)%nat -> s_scan s = scan_of opts -> s_dir s = (match directory_of opts with Some v => normalize two v | None => [] end) -> is_nil (s_dir s) = false ->
    exists s' tr, scan_dir date depth d0 s (s_dir s) = (true, s', tr)) as (n & K).
  { destruct (directory_of opts) as [v|] eqn:DV; [|exists O; intros depth s0 _ _ -> Q; discriminate Q]. destruct (PD v DV) as [NV LV].
    destruct (scan_ends date d0 RD _ _ (FD v eq_refl) NV LV) as (n & K). exists n. intros depth s0 D S E _. rewrite E in *. apply K; auto; [congruence|rewrite E; auto]. }
  exists n. intros depth D. unfold fs_start. destruct (s_scan s =? 0) eqn:Z0; [lia|]. clear Z0.
  set (s0 := if (s_caching s =? 0) && (1 <? s_scan s) then _ else s). assert (same_options s s0) as (_ & D0 & F0 & _ & _ & S0). { unfold s0. destruct (_ && _); repeat split; auto. }
  clearbody s0. assert (exists s1 tr1, (if is_nil (s_file s0) then (true, s0, []) else add_entry date d0 s0 [] (s_file s0) (s_scan s0 =? 1)) = (true, s1, tr1) /\ same_options s0 s1) as (s1 & tr1 & -> & O1).
  { destruct (is_nil (s_file s0)) eqn:NF; [exists s0, []; split; [auto|apply same_refl]|]. destruct (add_ends date d0 s0 [] (s_file s0) (s_scan s0 =? 1)) as (s1 & tr1 & E).
    - right. rewrite F0, EF in *. destruct (file_of opts) as [f|]; [|discriminate NF]. apply FF; auto. intros ->. discriminate NF.
    - exists s1, tr1. split; auto. eapply add_same; eauto. }
  cbn [negb]. destruct O1 as (_ & D1 & _ & _ & _ & S1). destruct (is_nil (s_dir s1)) eqn:ND; [eauto|].
  destruct (K depth s1 D ltac:(congruence) ltac:(congruence) ND) as (s2 & tr2 & E). rewrite E. eauto.
Qed.
Print Assumptions C168_starts_partial.
Example C168_starts_case : finite tree False (normalize true (bs "/var/www")).
Proof.
  apply finite_dir with (es := [bs "a.txt"; bs "sub"]) (t := 1); [vm_compute; reflexivity|]. intros n [<-|[<-|[]]].
  - right. split; [intros es t H; vm_compute in H; discriminate H|]. right. exists (bs "hello"), 5, true. vm_compute. reflexivity.
  - left. apply finite_dir with (es := [bs "b"]) (t := 1); [vm_compute; reflexivity|]. intros n [<-|[]]. right. split; [intros es t H; vm_compute in H; discriminate H|].
    right. exists (bs "there"), 6, true. vm_compute. reflexivity.
Qed.
