(** Proofs about paths. *)
From Coq Require Import String ZArith List Bool Lia.
From Verif Require Import Base PathModel FileModel FileSpec.
Import ListNotations.

Lemma fields_app_slash p q : fields (p ++ SLASH :: q) = fields p ++ fields q.
Proof.
  induction p as [|c p IH]; cbn [app fields]; auto.
  destruct (c =? SLASH); [rewrite IH; auto|]. rewrite IH.
  destruct (fields p) eqn:E; [|auto]. destruct p as [|z p]; cbn in E; [discriminate|]. destruct (z =? SLASH); [discriminate|]. destruct (fields p); discriminate.
Qed.
Lemma fields_noslash e : ~ In SLASH e -> fields e = [e].
Proof.
  induction e as [|c e IH]; auto. intros N. cbn [fields]. destruct (c =? SLASH) eqn:E.
  - apply Z.eqb_eq in E. exfalso. apply N. left. auto.
  - rewrite IH; auto. intros I. apply N. right. auto.
Qed.
Lemma fields_nonnil s : fields s <> [].
Proof. destruct s as [|z p]; cbn; [discriminate|]. destruct (z =? SLASH); [discriminate|]. destruct (fields p); discriminate. Qed.
(** the parts of a string that goes on *)
Lemma fields_app p : forall q, fields (p ++ q) = removelast (fields p) ++ (last (fields p) [] ++ hd [] (fields q)) :: tl (fields q).
Proof.
  induction p as [|c p IH]; intros q; cbn [app fields].
  - cbn [removelast last app]. destruct (fields q) eqn:E; [apply fields_nonnil in E; tauto|]. auto.
  - pose proof (fields_nonnil p). destruct (c =? SLASH).
    + rewrite IH. cbn [removelast last]. destruct (fields p); [tauto|]. auto.
    + rewrite IH. destruct (fields p) as [|f [|g l]]; [tauto| |]; cbn [removelast last app]; auto.
Qed.
Lemma fields_parts s : Forall (fun f => ~ In SLASH f) (fields s).
Proof.
  induction s as [|c s IH]; cbn [fields]; [repeat constructor; auto|].
  destruct (c =? SLASH) eqn:E; [constructor; auto|]. apply Z.eqb_neq in E.
  destruct (fields s) as [|f l]; [repeat constructor; intros [?|[]]; auto|]. inversion IH; subst. constructor; auto. intros [?|?]; auto.
Qed.
Lemma names_parts s : Forall (fun f => f <> [] /\ ~ In SLASH f) (names s).
Proof.
  apply Forall_forall. intros f I. unfold names in I. apply filter_In in I as [I N]. split; [intros ->; discriminate|].
  pose proof (fields_parts s) as H. rewrite Forall_forall in H. auto.
Qed.

Lemma last_snoc_z (p : list Z) c d : last (p ++ [c]) d = c.
Proof. induction p as [|x p IH]; auto. cbn. destruct (p ++ [c]) eqn:E; auto. destruct p; discriminate. Qed.

(** a walk along a path *)
Definition start (cwd : list (list Z)) (p : list Z) : list (list Z) := match p with 47 :: _ => [] | _ => cwd end.
Definition walk := fold_left walk1.
Lemma resolve_eq cwd p : resolve cwd p = walk (fields p) (start cwd p). Proof. reflexivity. Qed.
Lemma walk_app a b at_ : walk (a ++ b) at_ = walk b (walk a at_). Proof. apply fold_left_app. Qed.
Lemma walk_nil_field at_ : walk1 at_ [] = at_. Proof. reflexivity. Qed.
Lemma walk_filter l : forall at_, walk l at_ = walk (filter (fun f => negb (is_nil f)) l) at_.
Proof. induction l as [|f l IH]; intros; auto. cbn. destruct f; cbn; apply IH. Qed.
Lemma resolve_names cwd p : resolve cwd p = walk (names p) (start cwd p).
Proof. rewrite resolve_eq, walk_filter. reflexivity. Qed.

Definition is_root e := e = ROOT.
(** an element of a path: a name, or the root at the begin *)
Definition el_ok (e : list Z) : Prop := e <> [] /\ ~ In SLASH e.
Definition els_ok (l : list (list Z)) : Prop := match l with [] => True | e :: l' => (e = ROOT \/ el_ok e) /\ Forall el_ok l' end.
Definition drop_root (l : list (list Z)) : list (list Z) := match l with e :: l' => if str_eqb e ROOT then l' else l | [] => [] end.

Lemma names_snoc p e : p <> [] -> el_ok e -> names (p_append p e) = names p ++ [e].
Proof.
  intros NE [E1 E2]. unfold p_append. destruct e as [|c e]; [tauto|]. destruct p as [|x p]; [tauto|].
  assert (c =? SLASH = false) as CS. { apply Z.eqb_neq. intros ->. apply E2. left. auto. }
  rewrite CS, orb_false_r.
  assert (forall q, names (q ++ SLASH :: c :: e) = names q ++ [c :: e]) as K.
  { intros q. unfold names. rewrite fields_app_slash, filter_app, (fields_noslash (c :: e)) by auto. reflexivity. }
  destruct (last (x :: p) 0 =? SLASH) eqn:L.
  - apply Z.eqb_eq in L. destruct (exists_last NE) as (q & z & Eq). rewrite Eq in *. rewrite last_snoc_z in L. subst z.
    rewrite <- app_assoc. cbn [app]. rewrite K.
    replace (names (q ++ [SLASH])) with (names q); auto.
    unfold names. rewrite fields_app_slash. rewrite filter_app. cbn. rewrite app_nil_r. auto.
  - apply K.
Qed.
Lemma append_nonnil p e : e <> [] -> p_append p e <> [].
Proof. unfold p_append. destruct e; [tauto|]. intros _. destruct p; [discriminate|]. destruct (_ || _); intros H; discriminate. Qed.
Lemma start_append cwd p e : p <> [] -> start cwd (p_append p e) = start cwd p.
Proof. unfold p_append. intros NE. destruct e; auto. destruct p; [tauto|]. destruct (_ || _); reflexivity. Qed.
Lemma p_string_snoc l e : p_string (l ++ [e]) = p_append (p_string l) e.
Proof. unfold p_string. rewrite fold_left_app. reflexivity. Qed.
Lemma els_ok_snoc l e : els_ok (l ++ [e]) -> els_ok l /\ (l = [] -> e = ROOT \/ el_ok e) /\ (l <> [] -> el_ok e).
Proof.
  destruct l as [|x l]; cbn [app els_ok].
  - intros [H _]. repeat split; auto; tauto.
  - intros [H F]. apply Forall_app in F as [F1 F2]. inversion F2; subst. split; [split; auto|]. split; [discriminate|auto].
Qed.
Lemma p_string_nonnil l : els_ok l -> l <> [] -> p_string l <> [].
Proof.
  intros OK NE. destruct (exists_last NE) as (q & e & ->). rewrite p_string_snoc. apply append_nonnil.
  apply els_ok_snoc in OK as (_ & A & B). destruct q as [|x q]; [destruct A as [-> | [A _]]; auto; discriminate|]. destruct B as [B _]; auto; discriminate.
Qed.
Lemma str_eqb_root e : el_ok e -> str_eqb e ROOT = false.
Proof. intros [_ N]. apply str_eqb_neq. intros ->. apply N. left. auto. Qed.
(** the names and the begin of the path made of elements *)
Lemma p_string_names : forall l, els_ok l -> names (p_string l) = drop_root l /\ forall cwd, l <> [] -> start cwd (p_string l) = if is_prefix ROOT (hd [] l) then [] else cwd.
Proof.
  induction l as [|e l IH] using rev_ind; intros OK; [split; [reflexivity|tauto]|].
  rewrite p_string_snoc. destruct (els_ok_snoc _ _ OK) as (OKl & A & B). destruct l as [|x l].
  - cbn [app p_string fold_left hd drop_root]. assert (p_append [] e = e) as ->. { destruct e; reflexivity. }
    destruct (A eq_refl) as [-> | EO].
    + split; reflexivity.
    + rewrite (str_eqb_root e EO). destruct EO as [E1 E2]. split.
      * unfold names. rewrite fields_noslash by auto. cbn. destruct e; [tauto|reflexivity].
      * intros cwd _. destruct e as [|c e]; [tauto|]. cbn. unfold SLASH.
        assert (47 <> c). { intros <-. apply E2. left. auto. }
        destruct (47 =? c) eqn:X; [apply Z.eqb_eq in X; lia|]. cbn.
        destruct c; auto. do 6 (destruct p; auto); lia.
  - specialize (IH OKl). destruct IH as [N ST]. assert (p_string (x :: l) <> []) as NE by (apply p_string_nonnil; auto; discriminate).
    assert (el_ok e) as EO by (apply B; discriminate). rewrite names_snoc, N by auto. split.
    + cbn [app drop_root]. destruct (str_eqb x ROOT); reflexivity.
    + intros cwd _. rewrite start_append by auto. rewrite ST by discriminate. reflexivity.
Qed.

Lemma start_root cwd p : start cwd p = if is_prefix ROOT p then [] else cwd.
Proof.
  destruct p as [|c p]; auto. cbn. unfold SLASH. destruct (47 =? c) eqn:X.
  - apply Z.eqb_eq in X. subst. reflexivity.
  - cbn. apply Z.eqb_neq in X. destruct c; auto. do 6 (destruct p0; auto); lia.
Qed.

(** the elements of a path *)
Lemma elements_ok s : els_ok (elements s).
Proof.
  unfold elements. pose proof (names_parts s) as F.
  assert (Forall el_ok (names s ++ (if negb (is_nil (names s)) && (last s 0 =? SLASH) then [DOT] else []))) as K.
  { apply Forall_app. split; auto. destruct (_ && _); constructor; auto. split; [discriminate|]. intros [H|[]]. discriminate. }
  destruct (is_prefix ROOT s); cbn [app els_ok]; auto. destruct (names s ++ _); cbn; auto. inversion K; auto.
Qed.
(** walking along elements *)
Definition ewalk (cwd : list (list Z)) (l : list (list Z)) : list (list Z) := walk (drop_root l) (if is_prefix ROOT (hd [] l) then [] else cwd).
Lemma resolve_string cwd l : els_ok l -> l <> [] -> resolve cwd (p_string l) = ewalk cwd l.
Proof. intros OK NE. rewrite resolve_names. destruct (p_string_names l OK) as [-> S]. rewrite S; auto. Qed.
Lemma not_root_prefix e : el_ok e -> is_prefix ROOT e = false.
Proof.
  intros [E1 E2]. destruct e as [|c e]; auto. cbn [is_prefix ROOT]. destruct (SLASH =? c) eqn:X; auto. apply Z.eqb_eq in X. subst. exfalso. apply E2. left. auto.
Qed.
Lemma resolve_elements cwd s : s <> [] -> resolve cwd s = ewalk cwd (elements s).
Proof.
  intros NE. rewrite resolve_names, start_root. unfold ewalk, elements.
  assert (forall at_, walk (names s ++ (if negb (is_nil (names s)) && (last s 0 =? SLASH) then [DOT] else [])) at_ = walk (names s) at_) as K.
  { intros. rewrite walk_app. destruct (_ && _); reflexivity. }
  destruct (is_prefix ROOT s) eqn:R; cbn [app].
  - cbn [drop_root hd]. rewrite str_eqb_refl, K. cbn. reflexivity.
  - destruct (names s) as [|n l] eqn:N; cbn [app].
    + cbn. reflexivity.
    + pose proof (names_parts s) as F. rewrite N in F. inversion F; subst. cbn [drop_root hd]. rewrite str_eqb_root, not_root_prefix by auto.
      rewrite <- K. cbn [app]. reflexivity.
Qed.

Lemma ewalk_snoc cwd l e : (l = [] -> el_ok e) -> ewalk cwd (l ++ [e]) = walk1 (ewalk cwd l) e.
Proof.
  intros H. unfold ewalk. destruct l as [|x l]; cbn [app drop_root hd].
  - rewrite str_eqb_root, not_root_prefix by auto. reflexivity.
  - destruct (str_eqb x ROOT); rewrite ?walk_app; cbn [app]; auto. change (x :: l ++ [e]) with ((x :: l) ++ [e]). rewrite walk_app. reflexivity.
Qed.

(** [norm] leads to the same place *)
Definition name_like (e : list Z) : Prop := el_ok e /\ e <> DOT /\ e <> DOTDOT.
Lemma walk1_name at_ e : name_like e -> walk1 at_ e = at_ ++ [e].
Proof.
  intros [[A B] [C D]]. unfold walk1. destruct (list_eq_dec _ _ _); [tauto|]. destruct (list_eq_dec _ _ _); [tauto|]. destruct (list_eq_dec _ _ _); [tauto|]. auto.
Qed.
Lemma cancels_name two f : el_ok f -> cancels two f = true -> name_like f.
Proof.
  unfold cancels. rewrite !andb_true_iff, !negb_true_iff, !str_eqb_neq. intros E H. split; auto. tauto.
Qed.
Lemma removelast_snoc {A} (l : list A) x : removelast (l ++ [x]) = l.
Proof. rewrite removelast_app by discriminate. cbn. apply app_nil_r. Qed.

Lemma ewalk_app cwd l m : l <> [] -> ewalk cwd (l ++ m) = walk m (ewalk cwd l).
Proof.
  intros NE. unfold ewalk. destruct l as [|x l]; [tauto|]. cbn [app drop_root hd]. destruct (str_eqb x ROOT).
  - apply walk_app.
  - change (x :: l ++ m) with ((x :: l) ++ m). apply walk_app.
Qed.
Lemma ewalk_nil cwd : ewalk cwd [] = cwd. Proof. reflexivity. Qed.
Lemma ewalk_plain cwd m : Forall el_ok m -> ewalk cwd m = walk m cwd.
Proof. intros F. unfold ewalk. destruct m as [|e m]; auto. inversion F; subst. cbn [hd drop_root]. rewrite str_eqb_root, not_root_prefix by auto. auto. Qed.
Lemma ewalk_app' cwd l m : Forall el_ok m -> ewalk cwd (l ++ m) = walk m (ewalk cwd l).
Proof. intros F. destruct l; [cbn [app]; rewrite ewalk_nil; apply ewalk_plain; auto|]. apply ewalk_app. discriminate. Qed.

(** the elements that a stack may have: the root only at the bottom *)
Definition st_ok (st : list (list Z)) : Prop := els_ok (rev st).
Lemma st_ok_push st e : st_ok st -> (st = [] -> e = ROOT \/ el_ok e) -> (st <> [] -> el_ok e) -> st_ok (e :: st).
Proof.
  unfold st_ok. cbn [rev]. intros OK A B. destruct st as [|x st]; cbn [rev app] in *.
  - split; auto.
  - assert (el_ok e) as E by (apply B; discriminate). destruct (rev st ++ [x]) eqn:R; cbn [app els_ok] in *; [split; auto|].
    destruct OK as [P Q]. split; auto. apply Forall_app. auto.
Qed.
Lemma st_ok_tl st : st_ok st -> st_ok (tl st).
Proof.
  destruct st as [|x st]; auto. unfold st_ok. cbn [rev tl]. intros H. apply els_ok_snoc in H. tauto.
Qed.
Lemma st_top st x : st_ok (x :: st) -> x = ROOT /\ st = [] \/ el_ok x.
Proof.
  unfold st_ok. cbn [rev]. intros H. apply els_ok_snoc in H as (_ & A & B). destruct st; [destruct (A eq_refl); auto|]. right. apply B. cbn. destruct (rev st); discriminate.
Qed.

Lemma norm_walk two cwd : forall els first st, st_ok st -> Forall el_ok els \/ (first = true /\ st = [] /\ els_ok els) ->
  els_ok (norm two first st els) /\ ewalk cwd (norm two first st els) = (if is_nil st then ewalk cwd els else walk els (ewalk cwd (rev st))).
Proof.
  induction els as [|e more IH]; intros first st OK E.
  - cbn [norm]. split; auto. destruct st; cbn [is_nil]; auto.
  - assert (Forall el_ok more) as FM. { destruct E as [E|(_ & _ & E)]; [inversion E; auto|]. destruct E; auto. }
    assert (e = ROOT /\ st = [] \/ el_ok e) as EE. { destruct E as [E|(_ & -> & [E _])]; [inversion E; auto|]. destruct E; auto. }
    assert (forall st', st_ok st' -> els_ok (norm two false st' more) /\ ewalk cwd (norm two false st' more) = walk more (ewalk cwd (rev st'))) as IH'.
    { intros st' O'. destruct (IH false st' O' (or_introl FM)) as [I1 I2]. split; auto. rewrite I2. destruct st'; cbn [is_nil]; auto. cbn [rev]. rewrite ewalk_nil. apply ewalk_plain. auto. }
    assert ((if is_nil st then ewalk cwd (e :: more) else walk (e :: more) (ewalk cwd (rev st))) = walk more (ewalk cwd (rev st ++ [e]))) as ->.
    { destruct st as [|x st]; cbn [is_nil rev app].
      - change (e :: more) with ([e] ++ more). apply ewalk_app. discriminate.
      - destruct EE as [[_ EE]|EE]; [discriminate|]. rewrite (ewalk_snoc cwd (rev st ++ [x]) e) by auto. reflexivity. }
    cbn [norm]. destruct (str_eqb e DOT && negb first && negb (is_nil more)) eqn:D1.
    { apply andb_true_iff in D1 as [D1 _]. apply andb_true_iff in D1 as [D1 _]. apply str_eqb_eq in D1. subst e.
      destruct (IH' st OK) as [I1 I2]. split; auto. rewrite I2. rewrite ewalk_snoc; [reflexivity|]. intros _. split; [discriminate|]. intros [H|[]]; discriminate. }
    destruct (str_eqb e DOTDOT && _) eqn:D2.
    { apply andb_true_iff in D2 as [D2 C]. apply str_eqb_eq in D2. subst e. destruct st as [|f st]; [discriminate|]. cbn [tl].
      assert (el_ok f) as EF. { destruct (st_top _ _ OK) as [[-> _]|]; auto. destruct two; discriminate. }
      pose proof (cancels_name two f EF C) as NF. pose proof (st_ok_tl _ OK) as OT. cbn [tl] in OT.
      assert (ewalk cwd (rev (f :: st) ++ [DOTDOT]) = ewalk cwd (rev st)) as ->.
      { rewrite ewalk_snoc by (intros X; cbn in X; destruct (rev st); discriminate). cbn [rev]. rewrite (ewalk_snoc cwd (rev st) f) by (intros _; exact EF). rewrite (walk1_name _ f NF).
        unfold walk1. cbn. apply removelast_snoc. }
      assert (forall st', st' = st -> els_ok (norm two false st' more) /\ ewalk cwd (norm two false st' more) = walk more (ewalk cwd (rev st))) as G by (intros ? ->; auto).
      destruct st as [|g st].
      - destruct more as [|l [|l2 more]]; [apply G; auto | | apply G; auto].
        destruct (str_eqb l DOT) eqn:LD; [|apply G; auto].
        assert (st_ok [DOT]) as OD. { split; auto. right. split; [discriminate|]. intros [H|[]]; discriminate. }
        destruct (IH' [DOT] OD) as [I1 I2]. split; [exact I1|]. rewrite I2. reflexivity.
      - apply G. auto. }
    destruct (IH' (e :: st)) as [I1 I2].
    { apply st_ok_push; auto; [tauto|]. intros NE. destruct EE as [[_ EE]|EE]; tauto. }
    split; auto.
Qed.

Lemma resolve_dot cwd : resolve cwd DOT = cwd. Proof. reflexivity. Qed.
Theorem normalize_resolve two cwd s : resolve cwd (normalize two s) = resolve cwd s.
Proof.
  unfold normalize. destruct s as [|c s]; auto. remember (c :: s) as p. assert (p <> []) as NE by (subst; discriminate). clear Heqp.
  destruct (norm_walk two cwd (elements p) true []) as [OK W]; [constructor | right; repeat split; apply elements_ok |].
  cbn [is_nil] in W. rewrite (resolve_elements cwd p NE). rewrite <- W. destruct (norm two true [] (elements p)) as [|e l] eqn:N.
  - reflexivity.
  - apply resolve_string; auto. discriminate.
Qed.

(** The elements of a normal path: roots, dots and [..], then names; at the end perhaps a dot. *)
Definition low (e : list Z) : Prop := e = ROOT \/ e = DOT \/ e = DOTDOT.
Ltac lows := repeat (apply Forall_cons; [unfold low; auto|]); apply Forall_nil.
Definition shape (l : list (list Z)) : Prop := exists a b, l = a ++ b /\ Forall low a /\ Forall name_like b.
Lemma el_dot : el_ok DOT. Proof. split; [discriminate|]. intros [H|[]]; discriminate. Qed.
Definition tame2 (two : bool) (l : list (list Z)) : Prop := two = true -> forall a b, In [a; b] l -> a = 46 \/ b = 46 -> a = 46 /\ b = 46.
Lemma name_cancels two l f : tame2 two l -> In f l -> name_like f -> cancels two f = true.
Proof.
  intros T I [E [N1 N2]]. unfold cancels. rewrite !andb_true_iff, !negb_true_iff, !str_eqb_neq.
  assert (f <> ROOT). { intros ->. destruct E as [_ E]. apply E. left. auto. }
  assert (is_nil f = false). { destruct f; auto. destruct E as [E _]. tauto. }
  repeat split; auto. destruct two; auto. cbn. destruct f as [|a [|b [|c f]]]; auto. cbn.
  destruct (a =? 46) eqn:A; destruct (b =? 46) eqn:B; auto; exfalso; destruct (T eq_refl a b I) as [X Y]; try lia; subst; auto.
Qed.
Lemma shape_init l e : shape (l ++ [e]) -> shape l.
Proof.
  intros (a & b & E1 & L & NL). destruct b as [|y b] using rev_ind.
  - rewrite app_nil_r in E1. exists l, []. rewrite app_nil_r. split; auto. split; auto. rewrite <- E1 in L. apply Forall_app in L. tauto.
  - rewrite app_assoc in E1. apply app_inj_tail in E1 as [E1 ->]. exists a, b. split; auto. split; auto. apply Forall_app in NL. tauto.
Qed.
Lemma norm_shape two : forall els first st, st_ok st -> (first = false /\ Forall el_ok els) \/ (first = true /\ st = [] /\ els_ok els) ->
  tame2 two (els ++ st) -> shape (rev st) -> exists l d, norm two first st els = l ++ d /\ shape l /\ (d = [] \/ d = [DOT]).
Proof.
  induction els as [|e more IH]; intros first st OK E T SH.
  - cbn [norm]. exists (rev st), []. rewrite app_nil_r. auto.
  - assert (Forall el_ok more) as FM. { destruct E as [[_ E]|(_ & _ & E)]; [inversion E; auto|]. destruct E; auto. }
    assert (e = ROOT /\ st = [] \/ el_ok e) as EE. { destruct E as [[_ E]|(_ & -> & [E _])]; [inversion E; auto|]. destruct E; auto. }
    assert (tame2 two (more ++ st)) as TM. { intros T2 a b I. apply T; auto. right. auto. }
    cbn [norm]. destruct (str_eqb e DOT && negb first && negb (is_nil more)) eqn:D1; [apply IH; auto|].
    destruct (str_eqb e DOTDOT && _) eqn:D2.
    { apply andb_true_iff in D2 as [D2 C]. apply str_eqb_eq in D2. subst e. destruct st as [|f st]; [discriminate|]. cbn [tl].
      assert (st_ok st) as OT by (apply (st_ok_tl (f :: st)); auto).
      assert (shape (rev st)) as SH' by (cbn [rev] in SH; apply shape_init in SH; auto).
      assert (tame2 two (more ++ st)) as T'. { intros T2 a b I. apply TM; auto. apply in_app_or in I as [I|I]; apply in_or_app; [auto|right; right; auto]. }
      assert (forall st', st' = st -> exists l d, norm two false st' more = l ++ d /\ shape l /\ (d = [] \/ d = [DOT])) as G by (intros ? ->; apply IH; auto).
      destruct st as [|g st]; [|apply G; auto].
      destruct more as [|l [|l2 more]]; [apply G; auto | | apply G; auto].
      destruct (str_eqb l DOT) eqn:LD; [|apply G; auto]. apply str_eqb_eq in LD. subst l.
      cbn. exists [DOT; DOT], []. split; [reflexivity|]. split; [|auto]. exists [DOT; DOT], []. split; [reflexivity|]. split; [lows | constructor]. }
    destruct (str_eqb e DOT) eqn:ED.
    { apply str_eqb_eq in ED. subst e. destruct more as [|m1 more].
      - cbn [norm rev]. exists (rev st), [DOT]. auto.
      - destruct first; [|discriminate]. destruct E as [[X _]|(_ & -> & _)]; [discriminate|].
        apply IH; auto.
        + split; auto. right. apply el_dot.
        + intros T2 a b I. apply in_app_or in I as [I|[I|[]]]; [|discriminate]. apply TM; auto. apply in_or_app. auto.
        + exists [DOT], []. split; [reflexivity|]. split; [lows | constructor]. }
    apply str_eqb_neq in ED.
    assert (tame2 two (more ++ e :: st)) as TP. { intros T2 a b I. apply T; auto. apply in_app_or in I as [I|[I|I]]; [right|left|right]; auto; apply in_or_app; auto. }
    apply IH; auto.
    + apply st_ok_push; auto; [tauto|]. intros NE. destruct EE as [[_ EE]|EE]; tauto.
    + destruct SH as (a & b & E1 & L & NL). cbn [rev]. destruct EE as [[-> ->]|EE].
      * exists [ROOT], []. split; [reflexivity|]. split; [lows | constructor].
      * destruct (str_eqb e DOTDOT) eqn:E2.
        -- apply str_eqb_eq in E2. subst e. cbn [andb] in D2. assert (b = []) as ->.
           { destruct b as [|y b] using rev_ind; auto. exfalso. apply Forall_app in NL as [_ NL]. inversion NL; subst.
             rewrite app_assoc in E1. destruct st as [|f st]; [destruct (a ++ b); discriminate|]. cbn [rev] in E1. apply app_inj_tail in E1 as [_ ->].
             rewrite (name_cancels two (DOTDOT :: more ++ y :: st) y) in D2; auto; [discriminate|]. right. apply in_or_app. right. left. auto. }
           rewrite app_nil_r in E1. exists (rev st ++ [DOTDOT]), []. rewrite app_nil_r. split; [reflexivity|]. split; [|constructor]. rewrite E1. apply Forall_app. split; [exact L|lows].
        -- apply str_eqb_neq in E2. exists a, (b ++ [e]). rewrite E1, app_assoc. split; auto. split; auto. apply Forall_app. split; auto. constructor; auto. split; auto.
Qed.

(** No [..] comes after a name. *)
Definition no_up (l : list (list Z)) : Prop := forall a x b, l = a ++ x :: b -> name_like x -> ~ In DOTDOT b.
Lemma split_two {A} (a b c d : list A) x : a ++ x :: b = c ++ d -> (exists e, c = a ++ x :: e /\ b = e ++ d) \/ (exists e, a = c ++ e /\ d = e ++ x :: b).
Proof.
  revert c; induction a as [|y a IH]; intros [|z c] E; cbn [app] in E.
  - right. exists []. auto.
  - injection E as <- E. left. exists c. auto.
  - right. exists (y :: a). auto.
  - injection E as <- E. destruct (IH c E) as [(e & -> & ->)|(e & -> & ->)]; [left; exists e; auto | right; exists e; auto].
Qed.
Lemma low_not_name e : low e -> ~ name_like e.
Proof. intros [-> | [-> | ->]] [[_ A] [B C]]; auto. apply A. left. auto. Qed.
Lemma shape_no_up l d : shape l -> d = [] \/ d = [DOT] -> no_up (l ++ d).
Proof.
  intros (a & b & -> & L & NL) D p x q E NX I. rewrite <- app_assoc in E. symmetry in E. apply split_two in E as [(e & -> & _)|(e & -> & E)].
  - apply Forall_app in L as [_ L]. inversion L; subst. eapply low_not_name; eauto.
  - assert (In DOTDOT (b ++ d)) as J. { rewrite E. apply in_or_app. right. right. auto. }
    apply in_app_or in J as [J|J].
    + rewrite Forall_forall in NL. destruct (NL _ J) as [_ [_ J']]. auto.
    + destruct D as [-> | ->]; [destruct J|]. destruct J as [J|[]]; discriminate.
Qed.
Lemma no_up_tl x l : no_up (x :: l) -> no_up l.
Proof. intros N a y b -> NY. apply (N (x :: a) y b); auto. Qed.
Lemma elements_names s x : In x (elements s) -> x = ROOT \/ x = DOT \/ In x (names s).
Proof.
  unfold elements. intros I. apply in_app_or in I as [I|I].
  - destruct (is_prefix ROOT s); [destruct I as [<-|[]]; auto | destruct I].
  - apply in_app_or in I as [I|I]; auto. destruct (_ && _); [destruct I as [<-|[]]; auto | destruct I].
Qed.
Lemma normalize_no_up two s : (two = true -> tame s) -> no_up (names (normalize two s)).
Proof.
  intros T. unfold normalize. destruct s as [|c s].
  - intros a x b E. destruct a; discriminate.
  - remember (c :: s) as p eqn:Hp. clear Hp.
    destruct (norm_walk two [] (elements p) true []) as [OK _]; [constructor | right; repeat split; apply elements_ok |].
    destruct (norm_shape two (elements p) true []) as (l & d & E & SH & D); [constructor | right; repeat split; apply elements_ok | | exists [], []; auto|].
    { intros T2 a b I H. rewrite app_nil_r in I. apply elements_names in I as [I|[I|I]]; [discriminate|discriminate|]. exact (T T2 a b I H). }
    destruct (norm two true [] (elements p)) as [|e k] eqn:N.
    + intros a x b E'. cbn in E'. destruct a as [|y [|z a]]; try discriminate. injection E' as <- <-. intros _ [].
    + destruct (p_string_names _ OK) as [-> _]. pose proof (shape_no_up l d SH D) as U. rewrite <- E in U. cbn [drop_root].
      destruct (str_eqb e ROOT); auto. apply no_up_tl in U. auto.
Qed.

(** What a path leads to that begins, as a string, with the path of the directory. *)
Lemma walk_names_only l : forall at_, ~ In DOTDOT l -> exists rest, walk l at_ = at_ ++ rest.
Proof.
  induction l as [|f l IH]; intros at_ N; [exists []; rewrite app_nil_r; auto|]. cbn.
  assert (exists r, walk1 at_ f = at_ ++ r) as (r & ->).
  { unfold walk1. destruct (list_eq_dec _ _ _); [exists []; rewrite app_nil_r; auto|]. destruct (list_eq_dec _ _ _); [exists []; rewrite app_nil_r; auto|].
    destruct (list_eq_dec _ _ _); [|eauto]. exfalso. apply N. left. auto. }
  destruct (IH (at_ ++ r)) as (r' & E); [intros I; apply N; right; auto|]. unfold walk in *. rewrite E. rewrite <- app_assoc. eauto.
Qed.
Lemma start_prefix cwd d t : d <> [] -> start cwd (d ++ t) = start cwd d.
Proof. intros N. destruct d; [tauto|]. reflexivity. Qed.
Lemma resolve_prefix cwd d t up n : (exists p, d = p ++ SLASH :: n /\ up = walk (fields p) (start cwd d)) \/ d = n /\ up = cwd -> name_like n -> no_up (names (d ++ t)) ->
  resolve cwd d = up ++ [n] /\ exists more rest, resolve cwd (d ++ t) = up ++ (n ++ more) :: rest.
Proof.
  intros D NN U. pose proof NN as [[N1 N2] [N3 N4]].
  assert (d <> []) as NE. { destruct D as [(p & -> & _)|[-> _]]; auto. destruct p; discriminate. }
  destruct (fields t) as [|h r] eqn:FT; [apply fields_nonnil in FT; tauto|].
  assert (fields (n ++ t) = (n ++ h) :: r) as FN. { rewrite fields_app, (fields_noslash n), FT by auto. reflexivity. }
  pose proof (fields_parts t) as PT. rewrite FT in PT. inversion PT as [|? ? PH PR]; subst.
  assert (name_like (n ++ h)) as NH.
  { split; [split|split].
    - destruct n; [tauto|discriminate].
    - intros I. apply in_app_or in I as [I|I]; auto.
    - intros E. destruct n as [|a [|b n]]; [tauto| |discriminate]. injection E as -> _. apply N3. auto.
    - intros E. destruct n as [|a [|b [|x n]]]; [tauto| | |discriminate]; injection E; intros; subst; [apply N3|apply N4]; auto. }
  assert (exists fs, up = walk fs (start cwd d) /\ fields d = fs ++ [n] /\ fields (d ++ t) = fs ++ (n ++ h) :: r) as (fs & Eup & FD & FDT).
  { destruct D as [(p & -> & ->)|[-> ->]].
    - exists (fields p). split; auto. rewrite fields_app_slash, (fields_noslash n) by auto. split; auto.
      rewrite <- app_assoc. cbn [app]. rewrite fields_app_slash, FN. reflexivity.
    - exists []. rewrite (fields_noslash n) by auto. cbn [app]. rewrite FN. split; auto. rewrite start_root, not_root_prefix; auto. split; auto. }
  split.
  - rewrite resolve_eq, FD, walk_app, <- Eup. cbn. apply walk1_name. auto.
  - rewrite resolve_eq, FDT, walk_app, start_prefix, <- Eup by auto. cbn. rewrite walk1_name by auto.
    destruct (walk_names_only r (up ++ [n ++ h])) as (rest & E).
    + unfold names in U. rewrite FDT, filter_app in U. cbn [filter] in U. intros I.
      assert (negb (is_nil (n ++ h)) = true) as X. { destruct n; [tauto|reflexivity]. }
      rewrite X in U. apply (U _ (n ++ h) _ eq_refl NH). apply filter_In. split; auto.
    + exists h, rest. unfold walk in *. rewrite E, <- app_assoc. reflexivity.
Qed.
Lemma append_split p n : el_ok n -> p <> [] -> exists q, p_append p n = q ++ SLASH :: n.
Proof.
  intros [N1 N2] NE. unfold p_append. destruct n as [|c n]; [tauto|]. destruct p as [|x p]; [tauto|].
  assert (c =? SLASH = false) as ->. { apply Z.eqb_neq. intros ->. apply N2. left. auto. }
  rewrite orb_false_r. destruct (last (x :: p) 0 =? SLASH) eqn:L; [|eauto].
  apply Z.eqb_eq in L. destruct (exists_last NE) as (q & z & Eq). rewrite Eq in *. rewrite last_snoc_z in L. subst z. rewrite <- app_assoc. cbn. eauto.
Qed.
(** a directory's path ends with a name *)
Lemma normal_last two v : ends_with_name (normalize two v) -> exists n, name_like n /\
  ((exists p, normalize two v = p ++ SLASH :: n) \/ normalize two v = n).
Proof.
  intros (l & n & E & N1 & N2). exists n.
  assert (el_ok n) as EN. { pose proof (names_parts (normalize two v)) as F. rewrite E in F. apply Forall_app in F as [_ F]. inversion F; auto. }
  split; [split; auto|]. unfold normalize in *. destruct v as [|c v]; [destruct l; discriminate|]. remember (c :: v) as w eqn:Hw. clear Hw.
  destruct (norm_walk two [] (elements w) true []) as [OK _]; [constructor | right; repeat split; apply elements_ok |].
  destruct (norm two true [] (elements w)) as [|e k].
  - cbn in E. destruct l as [|? [|? ?]]; try discriminate. injection E as <-. exfalso. apply N1. auto.
  - destruct (p_string_names _ OK) as [EN' _]. rewrite EN' in E. clear EN'.
    assert (exists l', e :: k = l' ++ [n]) as (l' & EK). { cbn [drop_root] in E. destruct (str_eqb e ROOT); [exists (e :: l); rewrite E; auto | exists l; auto]. }
    rewrite EK in *. rewrite p_string_snoc. destruct l' as [|x l']; [right; destruct n; reflexivity|].
    left. apply append_split; auto. apply p_string_nonnil; [|discriminate]. apply els_ok_snoc in OK. tauto.
Qed.
Theorem prefix_beside two cwd v q : ends_with_name (normalize two v) -> (two = true -> tame q) -> is_prefix (normalize two v) (normalize two q) = true ->
  beside cwd v (normalize two q).
Proof.
  intros EN T P. apply is_prefix_spec in P as (t & P). destruct (normal_last two v EN) as (n & NN & D).
  pose proof (normalize_no_up two q T) as U. rewrite P in *.
  assert (exists up, resolve cwd (normalize two v) = up ++ [n] /\ exists more rest, resolve cwd (normalize two v ++ t) = up ++ (n ++ more) :: rest) as (u & R1 & more & rest & R2).
  { destruct D as [(p & D)|D].
    - exists (walk (fields p) (start cwd (normalize two v))). apply resolve_prefix; auto. left. exists p. auto.
    - exists cwd. apply resolve_prefix; auto. }
  exists u, n, more, rest. split; auto. rewrite <- R1. symmetry. apply normalize_resolve.
Qed.
