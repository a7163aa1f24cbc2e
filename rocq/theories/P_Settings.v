(** C153: options of the file service take effect as written or are refused. *)
From Coq Require Import String ZArith List Bool Lia.
From Verif Require Import Base Digits FormModel AlgModel HttpModel HttpSpec HttpBody PathModel FileModel FileSpec SettingModel FileRuns P_File.
Import ListNotations.

(** the options as they are written, and what they mean *)
Inductive setting (value : list Z) : list Z -> fopt -> Prop :=
| a_directory : setting value (bs "directory") (ODirectory value)
| a_file : setting value (bs "file") (OFile value)
| a_cache n : In (value, n) [(bs "0", 0); (bs "1", 1); (bs "2", 2)] -> setting value (bs "cache") (OCache n)
| a_scan n : In (value, n) [(bs "0", 0); (bs "1", 1); (bs "2", 2); (bs "3", 3)] -> setting value (bs "scan") (OScan n)
| a_size ds : ds <> [] -> Forall is_dec ds -> dec_value ds < 18446744073709551616 -> value = ds \/ value = bs "+" ++ ds -> setting value (bs "max_chunk_size") (OChunk (dec_value ds))
| a_writable b : In (value, b) [(bs "true", true); (bs "false", false)] -> setting value (bs "writable") (OWritable b).
(** directories and files have to exist *)
Definition usable (two : bool) (d : disk) (o : fopt) : Prop :=
  match o with
  | ODirectory v => exists es t, d (normalize two v) = Some (NDir es t)
  | OFile v => exists c t r, d v = Some (NFile c t r)
  | _ => True
  end.
(** what an option changes: one setting, and nothing else *)
Definition effect (two : bool) (o : fopt) (s s' : fserv) : Prop :=
  s_resource s' = s_resource s /\ s_cache s' = s_cache s
  /\ s_dir s' = (match o with ODirectory v => normalize two v | _ => s_dir s end) /\ s_file s' = (match o with OFile v => v | _ => s_file s end)
  /\ s_caching s' = (match o with OCache n => n | _ => s_caching s end) /\ s_scan s' = (match o with OScan n => n | _ => s_scan s end)
  /\ s_chunk s' = (match o with OChunk n => n | _ => s_chunk s end) /\ s_writable s' = (match o with OWritable b => b | _ => s_writable s end).
(** a minus sign before the digits *)
Definition negative (name value : list Z) : Prop := name = bs "max_chunk_size" /\ exists ds, value = bs "-" ++ ds /\ ds <> [] /\ Forall is_dec ds /\ dec_value ds < 18446744073709551616.

Lemma digits_read ds n : dec_digits ds = Some n <-> ds <> [] /\ Forall is_dec ds /\ dec_value ds < two64 /\ n = dec_value ds.
Proof.
  assert (FD : forallb is_digit ds = true <-> Forall is_dec ds).
  { rewrite forallb_forall, Forall_forall. unfold is_digit, is_dec. split; intros H x I; specialize (H x I); lia. }
  unfold dec_digits. destruct ds as [|c ds]; [split; [discriminate|intros (X & _); congruence]|]. set (l := c :: ds) in *.
  assert (V : undigits 10 0 (map (fun c => c - 48) l) = dec_value l) by apply dec_value_undigits.
  destruct (forallb is_digit l) eqn:F.
  - rewrite V. destruct (dec_value l <? two64) eqn:B.
    + split; [intros E; injection E as <-; repeat split; [discriminate|apply FD; reflexivity|lia]|intros (_ & _ & _ & ->); reflexivity].
    + split; [discriminate|intros (_ & _ & X & _); lia].
  - split; [discriminate|intros (_ & X & _)]. apply FD in X. discriminate.
Qed.
Lemma dec_first c ds : Forall is_dec (c :: ds) -> (c =? ch "-") = false /\ (c =? ch "+") = false.
Proof. intros F. inversion F as [|? ? D _]. unfold is_dec in D. change (ch "-") with 45. change (ch "+") with 43. lia. Qed.
(** what lexical_cast takes, and for which number *)
Lemma cast_read value n : lexical_cast_size value = Some n <->
  exists ds, ds <> [] /\ Forall is_dec ds /\ dec_value ds < two64 /\ ((value = ds \/ value = bs "+" ++ ds) /\ n = dec_value ds \/ value = bs "-" ++ ds /\ n = (- dec_value ds) mod two64).
Proof.
  unfold lexical_cast_size. split.
  - destruct value as [|c v]; [discriminate|]. destruct (Z.eqb_spec c (ch "-")) as [->|N1]; [|destruct (Z.eqb_spec c (ch "+")) as [->|N2]].
    + destruct (dec_digits v) as [k|] eqn:D; [|discriminate]. intros E. assert (n = wrap64 (- k)) as -> by congruence. apply digits_read in D. destruct D as (A & B & C & ->).
      exists v. split; [auto|]. split; [auto|]. split; [auto|]. right. split; reflexivity.
    + intros D. apply digits_read in D. destruct D as (A & B & C & ->). exists v. split; [auto|]. split; [auto|]. split; [auto|]. left. split; [right; reflexivity|reflexivity].
    + intros D. apply digits_read in D. destruct D as (A & B & C & ->). exists (c :: v). split; [auto|]. split; [auto|]. split; [auto|]. left. split; [left; reflexivity|reflexivity].
  - intros (ds & A & B & C & [([-> | ->] & ->)|(-> & ->)]).
    + destruct ds as [|c ds]; [congruence|]. destruct (dec_first c ds B) as (-> & ->). apply digits_read. auto.
    + change (bs "+" ++ ds) with (43 :: ds). change (ch "-") with 45. change (ch "+") with 43. cbn [Z.eqb Pos.eqb]. apply digits_read. auto.
    + assert (D : dec_digits ds = Some (dec_value ds)) by (apply digits_read; auto). change (bs "-" ++ ds) with (45 :: ds). change (ch "-") with 45. cbn [Z.eqb Pos.eqb]. rewrite D. reflexivity.
Qed.
Lemma effect_of two d s o s' ok tr : (forall n, o = OCache n -> 0 <= n <= 2) -> (forall n, o = OScan n -> 0 <= n <= 3) -> (forall n, o = OChunk n -> 0 <= n < two64) ->
  fs_option two d s o = (ok, s', tr) -> effect two o s s' /\ (ok = true <-> usable two d o).
Proof.
  intros H1 H2 H3. unfold fs_option, effect, usable. destruct o as [v|v|n|n|n|b].
  - intros E. injection E as <- <- <-. split; [repeat split|]. unfold is_dir. destruct (d (normalize two v)) as [[es t|c t r]|]; split; try discriminate; eauto; intros (? & ? & ?); discriminate.
  - intros E. injection E as <- <- <-. split; [repeat split|]. unfold exists_, is_dir. destruct (d v) as [[es t|c t r]|]; cbn; split; try discriminate; eauto; intros (? & ? & ? & ?); discriminate.
  - specialize (H1 n eq_refl). replace ((0 <=? n) && (n <=? 2)) with true by lia. intros E. injection E as <- <- <-. repeat split.
  - specialize (H2 n eq_refl). replace ((0 <=? n) && (n <=? 3)) with true by lia. intros E. injection E as <- <- <-. repeat split.
  - specialize (H3 n eq_refl). replace ((0 <=? n) && (n <? two64)) with true by lia. intros E. injection E as <- <- <-. repeat split.
  - intros E. injection E as <- <- <-. repeat split.
Qed.
Lemma nonneg_dec ds : Forall is_dec ds -> 0 <= dec_value ds.
Proof.
  unfold dec_value. assert (G : forall l a, Forall is_dec l -> 0 <= a -> 0 <= fold_left (fun a c => a * 10 + digit_val c) l a).
  { induction l as [|c l IH]; intros a F A; [exact A|]. inversion F as [|? ? D F']; subst. cbn [fold_left]. apply IH; auto. unfold is_dec in D. unfold digit_val. lia. }
  intros F. apply G; auto. lia.
Qed.

(** the text of an option, taken apart *)
Ltac texts_of E := repeat match type of E with context [if str_eqb ?a ?b then _ else _] => let Q := fresh "Q" in destruct (str_eqb a b) eqn:Q; [apply str_eqb_eq in Q; subst|apply str_eqb_neq in Q] end.
Ltac given := cbn [In]; first [left; reflexivity | right; given].
Lemma set_option_cases two d s name value r s' tr : set_option two d s name value = (r, s', tr) ->
  (exists o, (setting value name o \/ negative name value /\ exists ds, value = bs "-" ++ ds /\ o = OChunk ((- dec_value ds) mod two64)) /\ effect two o s s'
     /\ (r = None /\ usable two d o \/ ~ usable two d o /\ (o = ODirectory value /\ r = Some (NoDirectory (normalize two value)) \/ o = OFile value /\ r = Some (NoFile value))))
  \/ s' = s /\ (forall o, ~ setting value name o) /\ ~ negative name value /\ (name <> bs "max_chunk_size" /\ r = Some (BadArg name) \/ name = bs "max_chunk_size" /\ r = Some BadCast).
Proof.
  intros E. unfold set_option in E. cbv zeta in E.
  assert (OPT : forall o, (forall n, o = OCache n -> 0 <= n <= 2) -> (forall n, o = OScan n -> 0 <= n <= 3) -> (forall n, o = OChunk n -> 0 <= n < two64) ->
    (let '(_, s', tr) := fs_option two d s o in (None, s', tr)) = (r, s', tr) -> r = None /\ effect two o s s').
  { intros o A B C H. destruct (fs_option two d s o) as [[ok s1] tr1] eqn:F. destruct (effect_of two d s o s1 ok tr1 A B C F) as (X & _). assert (r = None) as -> by congruence. assert (s1 = s') as <- by congruence. auto. }
  texts_of E.
  - left. exists (ODirectory value). split; [left; constructor|]. destruct (fs_option two d s (ODirectory value)) as [[ok s1] tr1] eqn:F. assert (s1 = s') as -> by congruence.
    destruct (effect_of two d s (ODirectory value) s' ok tr1) as (X & Y); try discriminate; auto. split; auto. destruct ok.
    + left. split; [congruence|apply Y; reflexivity].
    + right. split; [intros U; apply Y in U; discriminate|left]. split; auto. destruct X as (_ & _ & X & _). cbn in X. congruence.
  - left. exists (OFile value). split; [left; constructor|]. destruct (fs_option two d s (OFile value)) as [[ok s1] tr1] eqn:F. assert (s1 = s') as -> by congruence.
    destruct (effect_of two d s (OFile value) s' ok tr1) as (X & Y); try discriminate; auto. split; auto. destruct ok.
    + left. split; [congruence|apply Y; reflexivity].
    + right. split; [intros U; apply Y in U; discriminate|right]. split; auto. destruct X as (_ & _ & _ & X & _). cbn in X. congruence.
  - left. exists (OCache 0). apply OPT in E; try (intros ? K; try discriminate K; injection K as <-; lia). split; [left; constructor; given|]. split; [apply E|left; split; [apply E|exact I]].
  - left. exists (OCache 1). apply OPT in E; try (intros ? K; try discriminate K; injection K as <-; lia). split; [left; constructor; given|]. split; [apply E|left; split; [apply E|exact I]].
  - left. exists (OCache 2). apply OPT in E; try (intros ? K; try discriminate K; injection K as <-; lia). split; [left; constructor; given|]. split; [apply E|left; split; [apply E|exact I]].
  - right. split; [congruence|]. split; [|split; [intros (X & _); discriminate|left; split; [discriminate|congruence]]].
    intros o H. inversion H as [| |n I X Y|n I X Y|ds _ _ _ _ X Y|b I X Y]. destruct I as [I|[I|[I|[]]]]; congruence.
  - left. exists (OScan 0). apply OPT in E; try (intros ? K; try discriminate K; injection K as <-; lia). split; [left; constructor; given|]. split; [apply E|left; split; [apply E|exact I]].
  - left. exists (OScan 1). apply OPT in E; try (intros ? K; try discriminate K; injection K as <-; lia). split; [left; constructor; given|]. split; [apply E|left; split; [apply E|exact I]].
  - left. exists (OScan 2). apply OPT in E; try (intros ? K; try discriminate K; injection K as <-; lia). split; [left; constructor; given|]. split; [apply E|left; split; [apply E|exact I]].
  - left. exists (OScan 3). apply OPT in E; try (intros ? K; try discriminate K; injection K as <-; lia). split; [left; constructor; given|]. split; [apply E|left; split; [apply E|exact I]].
  - right. split; [congruence|]. split; [|split; [intros (X & _); discriminate|left; split; [discriminate|congruence]]].
    intros o H. inversion H as [| |n I X Y|n I X Y|ds _ _ _ _ X Y|b I X Y]. destruct I as [I|[I|[I|[I|[]]]]]; congruence.
  - destruct (lexical_cast_size value) as [n|] eqn:C.
    + left. exists (OChunk n). apply cast_read in C. destruct C as (ds & N & F & B & C). pose proof (nonneg_dec ds F) as P.
      assert (R : 0 <= n < two64). { destruct C as [(_ & ->)|(_ & ->)]; [lia|]. apply Z.mod_pos_bound. reflexivity. }
      apply OPT in E; try (intros ? K; try discriminate K; injection K as <-; exact R). split; [|split; [apply E|left; split; [apply E|exact I]]].
      destruct C as [(V & ->)|(V & ->)].
      * left. apply (a_size value ds); auto.
      * right. split; [split; [reflexivity|exists ds; auto]|exists ds; auto].
    + right. split; [congruence|]. assert (G : forall ds, ds <> [] -> Forall is_dec ds -> dec_value ds < two64 -> ~ ((value = ds \/ value = bs "+" ++ ds) \/ value = bs "-" ++ ds)).
      { intros ds N F B V. assert (exists n, lexical_cast_size value = Some n) as (n & K); [|congruence]. destruct V as [V|V].
        - exists (dec_value ds). apply cast_read. exists ds. split; [auto|]. split; [auto|]. split; [auto|]. left. auto.
        - exists ((- dec_value ds) mod two64). apply cast_read. exists ds. split; [auto|]. split; [auto|]. split; [auto|]. right. auto. }
      split; [|split; [|right; split; [reflexivity|congruence]]].
      * intros o H. inversion H as [| |n I X Y|n I X Y|ds N F B V X Y|b I X Y]. apply (G ds N F B). auto.
      * intros (_ & ds & V & N & F & B). apply (G ds N F B). auto.
  - left. exists (OWritable true). apply OPT in E; try discriminate. split; [left; constructor; given|]. split; [apply E|left; split; [apply E|exact I]].
  - left. exists (OWritable false). apply OPT in E; try discriminate. split; [left; constructor; given|]. split; [apply E|left; split; [apply E|exact I]].
  - right. split; [congruence|]. split; [|split; [intros (X & _); discriminate|left; split; [discriminate|congruence]]].
    intros o H. inversion H as [| |n I X Y|n I X Y|ds _ _ _ _ X Y|b I X Y]. destruct I as [I|[I|[]]]; congruence.
  - right. split; [congruence|]. split; [|split; [intros (X & _); congruence|left; split; [assumption|congruence]]].
    intros o H. inversion H; congruence.
Qed.

(** C153: an option that is taken is one of the table, the directory or file exists, and what is set is what is written, and nothing else. Missing: numbers with a minus sign. *)
Theorem C153_taken_partial two d s name value s' tr : set_option two d s name value = (None, s', tr) -> ~ negative name value ->
  exists o, setting value name o /\ usable two d o /\ effect two o s s'.
Proof.
  intros E N. destruct (set_option_cases _ _ _ _ _ _ _ _ E) as [(o & [S|(X & _)] & F & [(_ & U)|(_ & [(_ & Y)|(_ & Y)])])|(_ & _ & _ & [(_ & Y)|(_ & Y)])]; try discriminate Y; try contradiction. eauto.
Qed.
Print Assumptions C153_taken_partial.
Ltac same_text := match goal with A : (?x, _) = (?v, _), B : (?y, _) = (?v, _) |- _ => first [congruence | exfalso; assert (K : x = y) by congruence; discriminate K] end.
(** C153: every option of the table is taken if its directory or file exists. *)
Theorem C153_all_taken two d s name value o : setting value name o -> usable two d o -> exists s' tr, set_option two d s name value = (None, s', tr) /\ effect two o s s'.
Proof.
  intros S U. destruct (set_option two d s name value) as [[r s'] tr] eqn:E. exists s', tr.
  assert (ONE : forall o', setting value name o' -> o' = o).
  { intros o' S'. destruct S as [| |n I|n I|ds A B C D|b I]; inversion S' as [| |n' I' X|n' I' X|ds' A' B' C' D' X|b' I' X]; auto.
    - cbn [In] in I, I'. repeat match goal with H : _ \/ _ |- _ => destruct H | H : False |- _ => destruct H end; same_text.
    - cbn [In] in I, I'. repeat match goal with H : _ \/ _ |- _ => destruct H | H : False |- _ => destruct H end; same_text.
    - assert (P : forall l c t, Forall is_dec l -> l = c :: t -> c <> 43). { intros l c t F -> ->. inversion F as [|? ? H _]. unfold is_dec in H. lia. }
      destruct D as [-> | ->], D' as [E1|E1]; try congruence.
      + exfalso. exact (P ds 43 ds' B E1 eq_refl).
      + exfalso. exact (P ds' 43 ds B' (eq_sym E1) eq_refl).
      + change (43 :: ds = 43 :: ds') in E1. congruence.
    - cbn [In] in I, I'. repeat match goal with H : _ \/ _ |- _ => destruct H | H : False |- _ => destruct H end; same_text. }
  destruct (set_option_cases _ _ _ _ _ _ _ _ E) as [(o' & [S'|((-> & _) & ds' & V & _)] & F & R)|(_ & X & _)]; [| |exfalso; exact (X o S)].
  - rewrite (ONE o' S') in *. destruct R as [(-> & _)|(X & _)]; [auto|contradiction].
  - exfalso. inversion S as [| | | |ds A B C D X|]. inversion B as [|c l D1 D2]; subst; [congruence|]. unfold is_dec in D1. destruct D as [D|D].
    + assert (K : 45 :: ds' = c :: l) by exact D. injection K as <- <-. lia.
    + assert (K : 45 :: ds' = 43 :: c :: l) by exact D. discriminate.
Qed.
Print Assumptions C153_all_taken.
(** C153: a refusal says why, and there is a reason; other options than directory and file are not changed by it. *)
Theorem C153_refused_partial two d s name value why s' tr : set_option two d s name value = (Some why, s', tr) ->
  (forall o, setting value name o -> ~ usable two d o) /\
  match why with
  | NoDirectory v => name = bs "directory" /\ v = normalize two value
  | NoFile v => name = bs "file" /\ v = value
  | BadArg n => n = name /\ s' = s
  | BadCast => name = bs "max_chunk_size" /\ s' = s
  end.
Proof.
  intros E. destruct (set_option_cases _ _ _ _ _ _ _ _ E) as [(o & S & F & [(X & _)|(U & R)])|(-> & X & _ & R)]; [discriminate| |].
  - split.
    + intros o' S' U'. destruct (C153_all_taken two d s name value o' S' U') as (s1 & t1 & K & _). congruence.
    + destruct R as [(-> & R)|(-> & R)]; injection R as ->; (split; [|reflexivity]); destruct S as [S|(_ & ds & _ & K)]; try discriminate; inversion S; reflexivity.
  - split; [intros o S; exfalso; exact (X o S)|]. destruct R as [(_ & R)|(A & R)]; injection R as ->; auto.
Qed.
Print Assumptions C153_refused_partial.
(** the text of every option that has a number, and one that does not *)
Example C153_case two d : let s := fs_init (bs "/f") in
  (exists s' tr, set_option two d s (bs "max_chunk_size") (bs "+0100") = (None, s', tr) /\ s_chunk s' = 100 /\ ~ negative (bs "max_chunk_size") (bs "+0100"))
  /\ (exists s' tr, set_option two d s (bs "writable") (bs "yes") = (Some (BadArg (bs "writable")), s', tr))
  /\ (exists s' tr, set_option two d s (bs "max_chunk_size") (bs "18446744073709551616") = (Some BadCast, s', tr)).
Proof.
  cbv zeta. split; [|split].
  - eexists. eexists. split; [vm_compute; reflexivity|]. split; [reflexivity|]. intros (_ & ds & X & _). discriminate.
  - eexists. eexists. vm_compute. reflexivity.
  - eexists. eexists. vm_compute. reflexivity.
Qed.
(** C153 violated: a number with a minus sign is taken for another number. *)
Theorem C153_negative_refuted : (~ forall two d s value s' tr, set_option two d s (bs "max_chunk_size") value = (None, s', tr) -> setting value (bs "max_chunk_size") (OChunk (s_chunk s')))
  /\ forall two d s ds, ds <> [] -> Forall is_dec ds -> 0 < dec_value ds < 18446744073709551616 -> exists s' tr, set_option two d s (bs "max_chunk_size") (bs "-" ++ ds) = (None, s', tr) /\ s_chunk s' = 18446744073709551616 - dec_value ds.
Proof.
  assert (G : forall two d s ds, ds <> [] -> Forall is_dec ds -> 0 < dec_value ds < two64 -> exists s' tr, set_option two d s (bs "max_chunk_size") (bs "-" ++ ds) = (None, s', tr) /\ s_chunk s' = two64 - dec_value ds).
  { intros two d s ds N F B. destruct (set_option two d s (bs "max_chunk_size") (bs "-" ++ ds)) as [[r s'] tr] eqn:E. exists s', tr.
    assert (NN : negative (bs "max_chunk_size") (bs "-" ++ ds)). { split; [reflexivity|]. exists ds. split; [reflexivity|]. split; [auto|]. split; [auto|]. apply B. }
    assert (NS : forall o, ~ setting (bs "-" ++ ds) (bs "max_chunk_size") o).
    { intros o S. inversion S as [| | | |ds' A' B' C' D X|]. inversion B' as [|c l D1 D2]; subst; [congruence|]. unfold is_dec in D1. destruct D as [D|D].
      - assert (K : 45 :: ds = c :: l) by exact D. injection K as <- <-. lia.
      - assert (K : 45 :: ds = 43 :: c :: l) by exact D. discriminate. }
    destruct (set_option_cases _ _ _ _ _ _ _ _ E) as [(o & [S|(_ & ds' & V & ->)] & Fx & R)|(_ & _ & X & _)]; [exfalso; exact (NS o S)| |contradiction].
    assert (ds' = ds) as ->. { assert (K : 45 :: ds = 45 :: ds') by exact V. congruence. }
    destruct R as [(-> & _)|(_ & [(X & _)|(X & _)])]; try discriminate. split; auto. destruct Fx as (_ & _ & _ & _ & _ & _ & K & _). rewrite K.
    symmetry. apply (Z.mod_unique _ _ (-1)); lia. }
  split; [|exact G]. intros H. destruct (G true (fun _ => None) (fs_init []) (bs "1")) as (s' & tr & E & K); [discriminate|repeat constructor; discriminate|vm_compute; split; reflexivity|].
  apply H in E. inversion E as [| | | |ds A B C D X|]. destruct D as [D|D]; [|discriminate]. rewrite <- D in B. inversion B as [|? ? X1 _]. unfold is_dec in X1. lia.
Qed.
Print Assumptions C153_negative_refuted.
(** C153 violated: a refused directory, though refused, is the one from then on. *)
Theorem C153_kept_refuted : (~ forall two date d s name value why s' tr, set_option two d s name value = (Some why, s', tr) ->
     forall d1 d2 m data e, fst (fst (fs_handle two date d1 d2 s' m data e)) = fst (fst (fs_handle two date d1 d2 s m data e)))
  /\ forall two d s value, (forall es t, d (normalize two value) <> Some (NDir es t)) ->
     exists s' tr, set_option two d s (bs "directory") value = (Some (NoDirectory (normalize two value)), s', tr) /\ s_dir s' = normalize two value.
Proof.
  split.
  - intros H. set (d := fun p => if str_eqb p (bs "/w/x") then Some (NFile (bs "a") 5 true) else None).
    specialize (H true (fun _ => []) d (mkfs (bs "/f") (bs "/w") [] [] 0 0 0 false) (bs "directory") (bs "/none") (NoDirectory (bs "/none")) (mkfs (bs "/f") (bs "/none") [] [] 0 0 0 false) [AExists (bs "/none")]
      ltac:(vm_compute; reflexivity) d d (set_m_method (bs "GET") (set_m_resource (bs "/f/x") msg_init)) [] []).
    vm_compute in H. discriminate.
  - intros two d s value N. destruct (set_option two d s (bs "directory") value) as [[r s'] tr] eqn:E. exists s', tr.
    destruct (set_option_cases _ _ _ _ _ _ _ _ E) as [(o & [S|((X & _) & _)] & F & R)|(_ & X & _)]; [|discriminate|exfalso; exact (X _ (a_directory value))].
    assert (o = ODirectory value) as -> by (inversion S; reflexivity).
    destruct R as [(_ & es & t & U)|(_ & [(_ & ->)|(X & _)])]; [exfalso; exact (N es t U)| |discriminate]. split; auto. apply F.
Qed.
Print Assumptions C153_kept_refuted.

(** the value that was given last for a name *)
Definition last_text (name : list Z) (l : list (disk * (list Z * list Z))) : option (list Z) :=
  fold_left (fun a x => if list_eq_dec Z.eq_dec (fst (snd x)) name then Some (snd (snd x)) else a) l None.
Lemma effect_same two o s s1 s2 : effect two o s s1 -> effect two o s s2 -> s1 = s2.
Proof. destruct s1, s2. unfold effect. cbn. intros (A1 & B1 & C1 & D1 & E1 & F1 & G1 & H1) (A2 & B2 & C2 & D2 & E2 & F2 & G2 & H2). congruence. Qed.
Lemma options_run two date l : forall s a b, exists opts,
  set_options two l s = fst (fs_run two date s (map (fun o => FOption (fst o) (snd o)) opts))
  /\ last_set (fun o => match o with ODirectory v => Some v | _ => None end) opts a = fold_left (fun a x => if list_eq_dec Z.eq_dec (fst (snd x)) (bs "directory") then Some (snd (snd x)) else a) l a
  /\ last_set (fun o => match o with OFile v => Some v | _ => None end) opts b = fold_left (fun a x => if list_eq_dec Z.eq_dec (fst (snd x)) (bs "file") then Some (snd (snd x)) else a) l b
  /\ forall d o, In (d, o) opts -> exists name value, In (d, (name, value)) l /\ (setting value name o \/ negative name value /\ exists n, o = OChunk n).
Proof.
  induction l as [|[d [name value]] l IH]; intros s a b.
  { exists []. cbn. split; [reflexivity|]. split; [reflexivity|]. split; [reflexivity|]. intros d o []. }
  unfold set_options. cbn [fold_left fst snd]. destruct (set_option two d s name value) as [[r s'] tr] eqn:E. cbn [fst snd]. fold (set_options two l s').
  destruct (set_option_cases _ _ _ _ _ _ _ _ E) as [(o & S & F & _)|(-> & NS & _ & _)].
  - destruct (IH s' (if list_eq_dec Z.eq_dec name (bs "directory") then Some value else a) (if list_eq_dec Z.eq_dec name (bs "file") then Some value else b)) as (opts & X & DA & DB & FA).
    exists ((d, o) :: opts). cbn [map fst snd fs_run fs_step]. destruct (fs_option two d s o) as [[ok s1] t1] eqn:O.
    assert (s1 = s') as ->.
    { apply (effect_same two o s); [|exact F].
      apply (effect_of two d s o s1 ok t1); [| | |exact O]; intros n ->; destruct S as [S|(_ & ds & _ & K)]; try discriminate K; try (inversion S as [| |n' I Y Z|n' I Y Z|ds A B C D Y Z|b' I Y Z]);
        try (cbn [In] in I; repeat match goal with H : _ \/ _ |- _ => destruct H as [H|H] | H : False |- _ => destruct H end; injection I as <- <-; lia); try (subst; lia).
      - split; [apply nonneg_dec; auto|exact C].
      - injection K as ->. apply Z.mod_pos_bound. reflexivity. }
    split; [rewrite X; destruct (fs_run two date s' _) as [s2 t2]; reflexivity|]. split; [|split].
    + cbn [last_set snd]. rewrite <- DA. f_equal. destruct S as [S|((-> & _) & ds & _ & ->)]; [|reflexivity]. inversion S; subst; reflexivity.
    + cbn [last_set snd]. rewrite <- DB. f_equal. destruct S as [S|((-> & _) & ds & _ & ->)]; [|reflexivity]. inversion S; subst; reflexivity.
    + intros d0 o0 [I|I].
      * assert (d0 = d /\ o0 = o) as (-> & ->) by (split; congruence). exists name, value. split; [left; reflexivity|]. destruct S as [S|(N & ds & _ & ->)]; [auto|right; eauto].
      * destruct (FA d0 o0 I) as (n & v & I' & K). exists n, v. split; [right|]; auto.
  - destruct (IH s a b) as (opts & X & DA & DB & FA). exists opts. split; [exact X|]. split; [|split].
    + rewrite DA. destruct (list_eq_dec Z.eq_dec name (bs "directory")) as [->|]; [exfalso; exact (NS _ (a_directory value))|reflexivity].
    + rewrite DB. destruct (list_eq_dec Z.eq_dec name (bs "file")) as [->|]; [exfalso; exact (NS _ (a_file value))|reflexivity].
    + intros d0 o0 I. destruct (FA d0 o0 I) as (n & v & I' & K). exists n, v. split; [right|]; auto.
Qed.
(** C153: after any number of options, taken or refused, the service is one of those of C61 to C64, with the directory and the file that were given last. *)
Theorem C153_configured two date resource l : exists opts, set_options two l (fs_init resource) = configure two date resource opts
  /\ directory_of opts = last_text (bs "directory") l /\ file_of opts = last_text (bs "file") l
  /\ forall d o, In (d, o) opts -> exists name value, In (d, (name, value)) l /\ (setting value name o \/ negative name value /\ exists n, o = OChunk n).
Proof. exact (options_run two date l (fs_init resource) None None). Qed.
Print Assumptions C153_configured.
Example C153_configured_case : let l := [((fun _ => None) : disk, (bs "directory", bs "/w")); ((fun _ => None), (bs "cache", bs "7")); ((fun _ => None), (bs "directory", bs "/v"))] in
  last_text (bs "directory") l = Some (bs "/v") /\ s_dir (set_options true l (fs_init [])) = bs "/v".
Proof. split; reflexivity. Qed.
Lemma run_app two date a b : forall s, fs_run two date s (a ++ b) = let (s1, t1) := fs_run two date s a in let (s2, t2) := fs_run two date s1 b in (s2, t1 ++ t2).
Proof.
  induction a as [|o a IH]; intros s; cbn [app fs_run]; [destruct (fs_run two date s b); reflexivity|]. destruct (fs_step two date s o) as [s1 t1]. rewrite IH.
  destruct (fs_run two date s1 a) as [s2 t2]. destruct (fs_run two date s2 b) as [s3 t3]. rewrite app_assoc. reflexivity.
Qed.
(** C153: a service whose options do not have writable=true does not change any file. *)
Theorem C153_read_only two date resource l ops : (forall d, ~ In (d, (bs "writable", bs "true")) l) -> Forall serves ops ->
  forall a, In a (snd (fs_run two date (set_options two l (fs_init resource)) ops)) -> ~ changes a.
Proof.
  intros N SV a I. destruct (C153_configured two date resource l) as (opts & E & _ & _ & FA). rewrite E in I. unfold configure in I.
  assert (W : forall d b, In (FOption d (OWritable b)) (map (fun o => FOption (fst o) (snd o)) opts ++ ops) -> b = false).
  { intros d b J. apply in_app_or in J. destruct J as [J|J].
    - apply in_map_iff in J. destruct J as ([d0 o] & K & J). cbn [fst snd] in K. injection K as -> ->. destruct (FA d (OWritable b) J) as (name & value & J' & [S|(_ & n & S)]); [|discriminate S].
      inversion S as [| | | | |b' I' X Y]. destruct I' as [I'|[I'|[]]]; [|congruence]. exfalso. apply (N d). assert (value = bs "true") as <- by congruence. rewrite X. exact J'.
    - rewrite Forall_forall in SV. specialize (SV _ J). destruct SV. }
  apply (C63_read_only two date resource _ W). rewrite run_app. destruct (fs_run two date (fs_init resource) _) as [s1 t1]. cbn [fst] in I. destruct (fs_run two date s1 ops) as [s2 t2]. cbn [snd] in *. apply in_or_app. auto.
Qed.
Print Assumptions C153_read_only.
Example C153_read_only_case : let l := [(nobody_else, (bs "writable", bs "false")); (nobody_else, (bs "writable", bs "TRUE"))] in
  (forall d, ~ In (d, (bs "writable", bs "true")) l) /\ s_writable (set_options true l (fs_init [])) = false.
Proof. split; [|reflexivity]. intros d [H|[H|[]]]; assert (K : bs "true" = bs "true") by reflexivity; [assert (bs "false" = bs "true") as X by congruence|assert (bs "TRUE" = bs "true") as X by congruence]; discriminate X. Qed.
