(** Proofs about the file service: which files it touches, and when it changes files. *)
From Coq Require Import String ZArith List Bool Lia.
From Verif Require Import Base SMap AlgModel DictModel HttpModel MessageModel WriterModel PathModel FileModel FileSpec PathProofs.
Import ListNotations.

Lemma names_append p x : p <> [] -> names (p_append p x) = names p ++ names x.
Proof.
  intros NE. unfold p_append. destruct x as [|c x]; [cbn; rewrite app_nil_r; auto|]. destruct p as [|z p]; [tauto|].
  assert (forall q y, names (q ++ SLASH :: y) = names q ++ names y) as K. { intros. unfold names. rewrite fields_app_slash, filter_app. auto. }
  destruct (last (z :: p) 0 =? SLASH) eqn:L; cbn [orb].
  - apply Z.eqb_eq in L. destruct (exists_last NE) as (q & w & Eq). rewrite Eq in *. rewrite last_snoc_z in L. subst w. rewrite <- app_assoc. cbn [app]. rewrite !K. change (names []) with (@nil (list Z)). rewrite app_nil_r. auto.
  - destruct (c =? SLASH) eqn:C; [|apply K]. apply Z.eqb_eq in C. subst c. rewrite K. rewrite (K [] x : names (SLASH :: x) = _). auto.
Qed.
Lemma norm_in two : forall els first st x, In x (norm two first st els) -> In x els \/ In x st \/ x = DOT.
Proof.
  induction els as [|e more IH]; intros first st x; cbn [norm].
  - intros I. apply in_rev in I. auto.
  - destruct (str_eqb e DOT && negb first && negb (is_nil more)).
    { intros I. apply IH in I as [I|I]; [left; right; auto|auto]. }
    destruct (str_eqb e DOTDOT && _) eqn:D2.
    { destruct st as [|f st]; [rewrite andb_false_r in D2; discriminate|]. cbn [tl].
      assert (forall st', (forall y, In y st' -> In y st \/ y = DOT) -> In x (norm two false st' more) -> In x (e :: more) \/ In x (f :: st) \/ x = DOT) as K.
      { intros st' S I. apply IH in I as [I|[I|I]]; [left; right; auto| |auto]. apply S in I as [I|I]; auto. right. left. right. auto. }
      destruct st as [|g st]; [|apply K; auto].
      destruct more as [|l [|l2 more]]; [apply K; auto | | apply K; auto].
      destruct (str_eqb l DOT); apply K; auto. intros y [<-|[]]. auto. }
    intros I. apply IH in I as [I|[[<-|I]|I]]; auto; left; [right|left]; auto.
Qed.
Lemma tame_normalize two v : tame v -> tame (normalize two v).
Proof.
  intros T a b I H. unfold normalize in I. destruct v as [|c v]; [destruct I|]. remember (c :: v) as w eqn:Hw. clear Hw.
  destruct (norm_walk two [] (elements w) true []) as [OK _]; [constructor | right; repeat split; apply elements_ok |].
  pose proof (norm_in two (elements w) true [] [a; b]) as K. destruct (norm two true [] (elements w)) as [|e k].
  - destruct I as [I|[]]. discriminate.
  - destruct (p_string_names _ OK) as [EN _]. rewrite EN in I.
    assert (In [a; b] (e :: k)) as J. { cbn [drop_root] in I. destruct (str_eqb e ROOT); [right|]; auto. }
    apply K in J as [J|[[]|J]]; [|discriminate]. apply elements_names in J as [J|[J|J]]; [discriminate|discriminate|]. apply (T a b); auto.
Qed.
Lemma tame_append p x : p <> [] -> tame p -> tame x -> tame (p_append p x).
Proof. intros NE A B a b I. rewrite names_append in I by auto. apply in_app_or in I as [I|I]; auto. Qed.
Lemma entry_el n : entry_name n -> name_like n.
Proof. intros (A & B & C & D). repeat split; auto. Qed.
Lemma resolve_entry cwd p n : p <> [] -> entry_name n -> resolve cwd (p_append p n) = resolve cwd p ++ [n].
Proof.
  intros NE E. apply entry_el in E. rewrite !resolve_names, start_append by auto. destruct E as [E1 E2]. rewrite names_snoc by auto. rewrite walk_app. cbn. apply walk1_name. split; auto.
Qed.

Ltac inj H := inversion H; subst; clear H.
(** a configured service: the directory and the file *)
Section Config.
Variables (two : bool) (date : Z -> list Z) (cwd : list (list Z)) (dir file : list Z) (may : list Z -> Prop).
Definition good (p : list Z) : Prop := (dir <> [] /\ may p) \/ (file <> [] /\ resolve cwd p = resolve cwd file).
Definition conf (s : fserv) : Prop := s_dir s = dir /\ s_file s = file /\ forall k e, In (k, e) (s_cache s) -> good (f_path e).
(** [may]: the paths that may be used, at least those in the directory; [lets rel]: the check passes no other path for [rel] *)
Hypothesis BB : dir <> [] -> forall p, inside cwd dir p -> may p.
Definition lets (rel : list Z) : Prop := dir <> [] -> is_prefix dir (normalize two (p_append dir rel)) = true -> may (normalize two (p_append dir rel)).

Lemma in_set {A} (m : smap A) k v e : In e (sm_set m k v) -> e = (k, v) \/ In e m.
Proof. unfold sm_set. intros I. apply in_map_iff in I as (x & E & I). destruct (str_eqb (fst x) k); subst; auto. Qed.
Lemma find_in {A} (m : smap A) k v : sm_find m k = Some v -> In (k, v) m.
Proof.
  induction m as [|[k0 v0] m IH]; [discriminate|]. rewrite sm_find_cons. destruct (str_eqb k0 k) eqn:E.
  - intros H. injection H as ->. apply str_eqb_eq in E. subst. left. auto.
  - intros H. right. auto.
Qed.

(** accesses that read only, all to this path *)
Definition only (p : list Z) (tr : list access) : Prop := forall a, In a tr -> a_path a = p /\ ~ changes a.
Ltac onlys := let a := fresh in let I := fresh in intros a I; cbn [In app] in I; repeat (destruct I as [I|I]; [subst a; cbn; split; auto|]); destruct I.
Lemma only_app p a b : only p a -> only p b -> only p (a ++ b).
Proof. intros A B x I. apply in_app_or in I as [I|I]; auto. Qed.
Lemma update_path d f ok f' tr : df_update date d f = (ok, f', tr) -> f_path f' = f_path f /\ only (f_path f) tr.
Proof. unfold df_update. destruct (d (f_path f)) as [[]|]; intros H; inj H; (split; [reflexivity|onlys]). Qed.
Lemma read_path d f ok f' tr : df_read d f = (ok, f', tr) -> f_path f' = f_path f /\ only (f_path f) tr.
Proof.
  unfold df_read. destruct (d (f_path f)) as [[es t|c t []]|]; intros H; inj H; (split; [reflexivity|onlys]).
Qed.
Lemma check_path d f ok f' tr : df_check date d f = (ok, f', tr) -> f_path f' = f_path f /\ only (f_path f) tr.
Proof.
  unfold df_check. destruct (d (f_path f)) as [[es t|c t r]|]; [intros H; inj H; (split; [reflexivity|onlys]) | | intros H; inj H; (split; [reflexivity|onlys])].
  destruct (_ && _); [intros H; inj H; (split; [reflexivity|onlys])|].
  destruct (df_read d _) as [[ok1 f1] tr1] eqn:R. apply read_path in R as [R1 R2]. cbn [f_path] in *. intros H. inj H. split; auto.
  apply (only_app _ [_; _]); [onlys|auto].
Qed.

(** everything touched is good, nothing is changed *)
Definition clean (tr : list access) : Prop := forall a, In a tr -> ~ changes a /\ (touches a -> good (a_path a)).
Lemma clean_app a b : clean a -> clean b -> clean (a ++ b).
Proof. intros A B x I. apply in_app_or in I as [I|I]; auto. Qed.
Lemma clean_nil : clean []. Proof. intros a []. Qed.
Lemma clean_only p tr : good p -> only p tr -> clean tr.
Proof. intros G O a I. destruct (O a I) as [-> N]. auto. Qed.
Lemma clean_cons a tr : ~ touches a -> ~ changes a -> clean tr -> clean (a :: tr).
Proof. intros A B C x [<-|I]; auto. split; tauto. Qed.

Lemma conf_cache s c : conf s -> (forall k e, In (k, e) c -> In (k, e) (s_cache s) \/ good (f_path e)) -> conf (with_cache s c).
Proof. intros (A & B & C) H. split; auto. split; auto. cbn. intros k e I. apply H in I as [I|I]; eauto. Qed.

Lemma add_entry_good d s rel p ph ok s' tr : conf s -> good p -> add_entry date d s rel p ph = (ok, s', tr) -> conf s' /\ clean tr /\ s_scan s' = s_scan s.
Proof.
  intros C G. unfold add_entry. destruct ph.
  { intros H. inj H. split; [|split; [apply clean_nil|auto]]. apply conf_cache; auto. intros k e I. apply sm_insert_in in I as [I|I]; auto. inj I. auto. }
  destruct (df_update date d _) as [[ok1 e1] tr1] eqn:U. apply update_path in U as [U1 U2]. cbn [f_path] in *.
  destruct ok1; cbn [negb]; [|intros H; inj H; split; [auto|split; [eapply clean_only; eauto|auto]]].
  destruct (df_read d e1) as [[ok2 e2] tr2] eqn:R. apply read_path in R as [R1 R2]. rewrite U1 in *. intros H. inj H.
  split; [|split; [apply clean_app; eapply clean_only; eauto | destruct ok2; auto]].
  destruct ok2; auto. apply conf_cache; auto. intros k e I. apply sm_insert_in in I as [I|I]; auto. inj I. rewrite R1. auto.
Qed.

(** below the directory *)
Definition below (p : list Z) : Prop := p <> [] /\ inside cwd dir p.
Lemma below_good p : dir <> [] -> below p -> good p.
Proof. intros ND [_ I]. left. auto. Qed.
Lemma below_dir : dir <> [] -> below dir.
Proof. intros. split; auto. exists []. rewrite app_nil_r. auto. Qed.
Lemma below_entry p n : below p -> entry_name n -> below (p_append p n).
Proof.
  intros [A (rest & B)] E. split; [apply append_nonnil; destruct E; auto|]. exists (rest ++ [n]). rewrite resolve_entry, B, app_assoc by auto. auto.
Qed.

Lemma scan_good depth d : dir <> [] -> real_disk d -> forall s p ok s' tr, conf s -> below p -> scan_dir date depth d s p = (ok, s', tr) -> conf s' /\ clean tr.
Proof.
  intros ND RD. induction depth as [|depth IH]; intros s p ok s' tr C B; cbn [scan_dir].
  - intros H. inj H. split; auto. apply clean_nil.
  - assert (good p) as GP by (apply below_good; auto).
    assert (clean [AList p]) as K0. { apply (clean_only p); auto. onlys. }
    destruct (d p) as [[es t|c t r]|] eqn:DP; [|intros H; inj H; auto | intros H; inj H; auto].
    pose proof (RD p es t DP) as EN. clear DP.
    destruct (scan_entries date (scan_dir date depth d) d p es s) as [[ok1 s1] tr1] eqn:SC. intros H. inj H.
    assert (conf s' /\ clean tr1) as [K1 K2].
    2: { split; auto. intros a [<-|I]; auto. }
    clear K0. revert s ok s' tr1 C SC. induction es as [|n es IHe]; intros s ok s' tr1 C SC; cbn [scan_entries] in SC.
    + inj SC. split; auto. apply clean_nil.
    + inversion EN; subst. assert (below (p_append p n)) as BQ by (apply below_entry; auto).
      destruct (if is_dir d (p_append p n) then _ else _) as [[ok2 s2] tr2] eqn:X.
      assert (conf s2 /\ clean tr2) as [C2 T2].
      { destruct (is_dir d (p_append p n)); [eapply IH; eauto|]. destruct (_ <? _); [inj X; split; auto; apply clean_nil|].
        apply add_entry_good in X as (A1 & A2 & _); auto using below_good. }
      destruct ok2.
      * destruct (scan_entries date _ d p es s2) as [[ok3 s3] tr3] eqn:Y. inj SC. destruct (IHe H2 _ _ _ _ C2 Y). split; auto.
        apply clean_cons; auto. apply clean_app; auto.
      * inj SC. split; auto. apply clean_cons; auto.
Qed.
Lemma start_good depth d s ok s' tr : real_disk d -> conf s -> fs_start date depth d s = (ok, s', tr) -> conf s' /\ clean tr.
Proof.
  intros RD C. unfold fs_start. destruct (s_scan s =? 0); [intros H; inj H; split; auto; apply clean_nil|].
  set (s0 := if (s_caching s =? 0) && (1 <? s_scan s) then _ else s).
  assert (conf s0) as C0. { unfold s0. destruct (_ && _); auto. }
  clearbody s0. clear C s.
  destruct (if is_nil (s_file s0) then _ else _) as [[ok1 s1] tr1] eqn:X.
  assert (conf s1 /\ clean tr1) as [C1 T1].
  { destruct (is_nil (s_file s0)) eqn:NF; [inj X; split; auto; apply clean_nil|].
    apply add_entry_good in X as (A1 & A2 & _); auto. assert (s_file s0 = file) as EF by (destruct C0 as (_ & EF & _); auto). rewrite EF in *. right. split; auto. intros Q. rewrite Q in NF. discriminate. }
  destruct ok1; cbn [negb]; [|intros H; inj H; auto].
  destruct (is_nil (s_dir s1)) eqn:ND; [intros H; inj H; auto|].
  destruct (scan_dir date depth d s1 (s_dir s1)) as [[ok2 s2] tr2] eqn:Y. intros H. inj H.
  assert (s_dir s1 = dir) as ED by (destruct C1; auto). rewrite ED in *.
  assert (dir <> []) as NE by (intros Q; rewrite Q in ND; discriminate).
  destruct (scan_good depth d NE RD _ _ _ _ _ C1 (below_dir NE) Y). split; auto. apply clean_app; auto.
Qed.

(** requests *)
Lemma path_good s m p : conf s -> file_path two s m = Some p -> lets (relative s (m_resource m)) -> is_prefix dir p = true -> good p.
Proof.
  intros (ED & EF & _) FP T P. unfold file_path in FP. destruct (is_nil (relative s (m_resource m))).
  - destruct (is_nil (s_file s)) eqn:NF; [discriminate|]. injection FP as <-. right. rewrite EF in *. split; [intros Q; rewrite Q in NF; discriminate|]. apply normalize_resolve.
  - rewrite ED in FP. destruct (is_nil dir) eqn:ND; [discriminate|]. injection FP as <-. assert (dir <> []) as NE by (intros Q; rewrite Q in ND; discriminate).
    left. auto.
Qed.
Lemma get_good d s m p r s' tr : conf s -> good p -> fs_get date d s m p = (r, s', tr) -> conf s' /\ clean tr.
Proof.
  intros C G. unfold fs_get. set (rel := relative s (m_resource m)).
  assert (forall r s' tr, fs_from_disk date d s m p rel = (r, s', tr) -> conf s' /\ clean tr) as K.
  { clear r s' tr. intros r s' tr. unfold fs_from_disk. destruct (exists_ d p); cbn [negb].
    2: { intros H. inj H. split; auto. apply clean_cons; auto. apply clean_nil. }
    destruct (df_update date d _) as [[ok1 f1] tr1] eqn:U. apply update_path in U as [U1 U2]. cbn [f_path] in *.
    assert (clean (AExists p :: tr1)) as CL by (apply clean_cons; auto; eapply clean_only; eauto).
    destruct ok1; cbn [negb]; [|intros H; inj H; auto].
    destruct (_ && _); [|intros H; inj H; auto].
    destruct (df_read d f1) as [[ok2 f2] tr2] eqn:R. apply read_path in R as [R1 R2]. rewrite U1 in *.
    assert (clean (AExists p :: tr1 ++ tr2)) as CL2. { change (clean ((AExists p :: tr1) ++ tr2)). apply clean_app; auto. eapply clean_only; eauto. }
    destruct ok2; intros H; inj H; split; auto. apply conf_cache; auto. intros k e I. apply sm_insert_in in I as [I|I]; auto. inj I. rewrite R1. auto. }
  destruct (_ || _); [|apply K].
  destruct (sm_find (s_cache s) rel) as [e|] eqn:F.
  2: { destruct (_ || _); [|apply K]. intros H. inj H. split; auto. apply clean_nil. }
  assert (good (f_path e)) as GE. { destruct C as (_ & _ & C). eapply C. eapply find_in. eauto. }
  destruct (s_caching s =? 0).
  { destruct (df_update date d _) as [[ok1 f1] tr1] eqn:U. apply update_path in U as [U1 U2]. cbn [f_path] in *. intros H. inj H. split; auto. eapply clean_only; eauto. }
  match goal with |- (match ?T with (_, _) => _ end) = _ -> _ => destruct T as [[ok1 e1] tr1] eqn:X end.
  assert (f_path e1 = f_path e /\ only (f_path e) tr1) as [P1 P2].
  { destruct (f_time e =? 0).
    - destruct (df_update date d e) as [[ok2 e2] tr2] eqn:U. apply update_path in U as [U1 U2]. destruct ok2; [|inj X; auto].
      destruct (df_read d e2) as [[ok3 e3] tr3] eqn:R. apply read_path in R as [R1 R2]. inj X. rewrite R1, U1. split; auto. apply only_app; auto. rewrite <- U1. auto.
    - destruct (s_caching s =? 1); [apply check_path in X; auto|]. inj X. split; auto. onlys. }
  intros H. inj H. split; [|eapply clean_only; eauto]. apply conf_cache; auto. intros k f I. apply in_set in I as [I|I]; auto. inj I. rewrite P1. auto.
Qed.
(** what a request touches *)
Definition touched (tr : list access) : Prop := forall a, In a tr -> touches a -> good (a_path a).
Lemma change_good d d' s m p data why r tr : good p -> fs_change d d' s m p data why = (r, tr) -> touched tr /\ (s_writable s = false -> tr = []).
Proof.
  intros G. unfold fs_change. destruct (s_writable s); cbn [negb].
  2: { intros H. inj H. split; auto. intros a []. }
  intros H. split; [|discriminate]. revert H.
  assert (forall r tr, (forall a, In a tr -> touches a -> a_path a = p) -> forall (r' : fres) tr', (r, tr) = (r', tr') -> touched tr') as K.
  { intros r0 tr0 A r' tr' H. inj H. intros a I T. rewrite (A a I T). auto. }
  destruct (str_eqb (m_method m) (bs "DELETE")).
  - destruct (exists_ d p); cbn [negb]; [destruct (exists_ d' p)|]; eapply K; intros a I T; cbn [In] in I; repeat (destruct I as [<-|I]; [cbn in *; tauto|]); destruct I.
  - destruct (exists_ d p); [|destruct (exists_ d (branch p)); cbn [negb]]; eapply K; intros a I T; cbn [In app] in I; repeat (destruct I as [<-|I]; [cbn in *; tauto|]); destruct I.
Qed.
Lemma handle_good d d' s m data why r s' tr : conf s -> lets (relative s (m_resource m)) -> fs_handle two date d d' s m data why = (r, s', tr) ->
  conf s' /\ touched tr /\ (s_writable s = false -> forall a, In a tr -> ~ changes a).
Proof.
  intros C T. unfold fs_handle. destruct (file_path two s m) as [p|] eqn:FP.
  2: { intros H. inj H. split; [exact C|split; [intros a []|intros _ a []]]. }
  assert (s_dir s = dir) as ED by (destruct C; auto). rewrite ED.
  destruct (is_prefix dir p) eqn:P; cbn [negb].
  2: { intros H. inj H. split; [exact C|split; [intros a []|intros _ a []]]. }
  pose proof (path_good s m p C FP T P) as G.
  destruct (is_dir d p).
  { intros H. inj H. split; [auto|]. split; [intros a [<-|[]]; cbn; tauto | intros _ a [<-|[]]; cbn; tauto]. }
  match goal with |- (match ?T with (_, _) => _ end) = _ -> _ => destruct T as [[r1 s1] tr1] eqn:X end.
  assert (conf s1 /\ touched tr1 /\ (s_writable s = false -> forall a, In a tr1 -> ~ changes a)) as (K1 & K2 & K3).
  { destruct (str_eqb (m_method m) (bs "GET") || is_head m).
    - apply get_good in X as [A B]; auto. split; auto. split; [intros a I TT; apply (B a I); auto | intros _ a I; apply (B a I)].
    - destruct (str_eqb (m_method m) (bs "POST") || _ || _).
      + destruct (fs_change d d' s m p data why) as [r2 tr2] eqn:Y. inj X. apply change_good in Y as [A B]; auto. split; auto. split; auto. intros W a I. rewrite (B W) in I. destruct I.
      + inj X. split; auto. split; [intros a [] | intros _ a []]. }
  intros H. inj H. split; auto. split.
  - intros a [<-|I] TT; [destruct TT|auto].
  - intros W a [<-|I]; [auto | apply K3; auto].
Qed.
End Config.

(** the directory ends with a name: the check passes only paths beside it *)
Definition dir_good (two : bool) (dir : list Z) : Prop := dir = [] \/ exists v, dir = normalize two v /\ ends_with_name dir /\ (two = true -> tame dir).
Lemma dir_last two cwd dir : dir_good two dir -> dir <> [] -> exists up n, resolve cwd dir = up ++ [n].
Proof.
  intros DG ND. destruct DG as [D|(v & D & EN & T)]; [tauto|]. destruct EN as (l & n & E & N1 & N2).
  rewrite resolve_names, E, walk_app. eexists _, n. cbn. apply walk1_name.
  pose proof (names_parts dir) as F. rewrite E in F. apply Forall_app in F as [_ F]. inversion F; subst. repeat split; auto; tauto.
Qed.
Lemma beside_inside two cwd dir : dir_good two dir -> dir <> [] -> forall p, inside cwd dir p -> beside cwd dir p.
Proof.
  intros DG ND p (rest & E). destruct (dir_last two cwd dir DG ND) as (up & n & R).
  exists up, n, [], rest. split; auto. rewrite E, R, <- app_assoc, app_nil_r. reflexivity.
Qed.
Lemma lets_beside two cwd dir rel : dir_good two dir -> (two = true -> tame rel) -> lets two dir (beside cwd dir) rel.
Proof.
  intros DG T NE P. destruct DG as [D|(v & D & EN & TD)]; [tauto|].
  assert (beside cwd v (normalize two (p_append dir rel))) as B.
  { apply prefix_beside; auto; [rewrite <- D; auto| |rewrite <- D; auto]. intros T2. apply tame_append; auto. }
  destruct B as (up & n & more & rest & B1 & B2). exists up, n, more, rest. split; auto. rewrite D at 1. rewrite normalize_resolve. auto.
Qed.
(** the request does not go up: only paths in the directory *)
Lemma lets_inside two cwd dir rel : ~ In DOTDOT (names rel) -> lets two dir (inside cwd dir) rel.
Proof.
  intros N NE _. unfold inside. rewrite normalize_resolve. rewrite (resolve_names cwd (p_append dir rel)), names_append, walk_app by auto.
  assert (start cwd (p_append dir rel) = start cwd dir) as -> by (apply start_append; auto). rewrite (resolve_names cwd dir). apply walk_names_only. auto.
Qed.
