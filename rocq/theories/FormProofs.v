(** Lemmas about forms and cookies. *)
From Coq Require Import String ZArith List Lia Bool.
From Coq Require Import ZifyBool ZifyNat.
From Verif Require Import Base Digits AlgModel AlgSpec AlgProofs FormModel FormSpec.
Import ListNotations.

Lemma run_app {S} (step : S -> Z -> bool * S) st a b :
  run step st (a ++ b) = let (ok, st') := run step st a in if ok then run step st' b else (false, st').
Proof.
  revert st; induction a as [|c a IH]; intros st; simpl; auto.
  destruct (step st c) as [[|] st']; auto.
Qed.

Lemma run_inv {S} (step : S -> Z -> bool * S) (I : S -> Prop) (P : Z -> Prop) :
  (forall st c, I st -> P c -> I (snd (step st c))) -> forall s st, I st -> Forall P s -> I (snd (run step st s)).
Proof.
  intros H. induction s as [|c s IH]; intros st Hs HP; simpl; auto.
  inversion HP; subst. specialize (H st c Hs H2). destruct (step st c) as [[|] st']; simpl in *; auto.
Qed.

Lemma run_cons_ok {S} (step : S -> Z -> bool * S) st c s st' : step st c = (true, st') -> run step st (c :: s) = run step st' s.
Proof. intros H. cbn [run]. rewrite H. reflexivity. Qed.
Lemma run_cons_fail {S} (step : S -> Z -> bool * S) st c s st' : step st c = (false, st') -> run step st (c :: s) = (false, st').
Proof. intros H. cbn [run]. rewrite H. reflexivity. Qed.

Lemma is_control_bad c : is_byte c -> is_control c = form_bad c.
Proof. intros H. apply eqb_prop. revert c H. apply byte_sweep. vm_compute. reflexivity. Qed.

(* ------------------------------------------------------------------ splitting *)

Lemma split_on_nonempty sep s : exists h t, split_on sep s = h :: t.
Proof. destruct s as [|c r]; simpl; eauto. destruct (c =? sep); eauto. destruct (split_on sep r); eauto. Qed.

Lemma split_on_cons_other sep c r h t : c <> sep -> split_on sep r = h :: t -> split_on sep (c :: r) = (c :: h) :: t.
Proof. intros N E. simpl. apply Z.eqb_neq in N. rewrite N, E. reflexivity. Qed.

Lemma split_on_none sep s : ~ In sep s -> split_on sep s = [s].
Proof.
  induction s as [|c s IH]; intros H; auto. simpl.
  replace (c =? sep) with false by (symmetry; apply Z.eqb_neq; intro; apply H; left; auto).
  rewrite IH; auto. intro; apply H; right; auto.
Qed.

Lemma split_on_app sep a b : ~ In sep a -> split_on sep (a ++ sep :: b) = a :: split_on sep b.
Proof.
  induction a as [|c a IH]; intros H; simpl.
  - rewrite Z.eqb_refl. reflexivity.
  - replace (c =? sep) with false by (symmetry; apply Z.eqb_neq; intro; apply H; left; auto).
    rewrite IH; auto. intro; apply H; right; auto.
Qed.

Lemma split_on_prefix sep a s h t : ~ In sep a -> split_on sep s = h :: t -> split_on sep (a ++ s) = (a ++ h) :: t.
Proof.
  induction a as [|c a IH]; intros H E; simpl; auto.
  replace (c =? sep) with false by (symmetry; apply Z.eqb_neq; intro; apply H; left; auto).
  rewrite IH; auto. intro; apply H; right; auto.
Qed.

Lemma break_at_app sep a b : ~ In sep a -> break_at sep (a ++ sep :: b) = (a, Some b).
Proof.
  induction a as [|c a IH]; intros H; simpl.
  - rewrite Z.eqb_refl. reflexivity.
  - replace (c =? sep) with false by (symmetry; apply Z.eqb_neq; intro; apply H; left; auto).
    rewrite IH; auto. intro; apply H; right; auto.
Qed.
Lemma break_at_none sep a : ~ In sep a -> break_at sep a = (a, None).
Proof.
  induction a as [|c a IH]; intros H; simpl; auto.
  replace (c =? sep) with false by (symmetry; apply Z.eqb_neq; intro; apply H; left; auto).
  rewrite IH; auto. intro; apply H; right; auto.
Qed.
Lemma break_at_fst_app sep a b : ~ In sep a -> fst (break_at sep (a ++ b)) = a ++ fst (break_at sep b).
Proof.
  induction a as [|c a IH]; intros H; simpl; auto.
  replace (c =? sep) with false by (symmetry; apply Z.eqb_neq; intro; apply H; left; auto).
  destruct (break_at sep (a ++ b)) eqn:E. cbn [fst] in *. rewrite IH; auto. intro; apply H; right; auto.
Qed.

(* ------------------------------------------------------------------ parse_url_encoded *)

Lemma u_step_blank st c : form_blank c = true -> u_step st c = (true, st).
Proof.
  intros H. unfold form_blank in H. assert (c = 9 \/ c = 10 \/ c = 13) as D by lia.
  unfold u_step. destruct D as [->|[->| ->]]; destruct (u_value_state st); reflexivity.
Qed.

Lemma run_strip st s : run u_step st s = run u_step st (form_strip s).
Proof.
  revert st; induction s as [|c s IH]; intros st; auto. cbn [form_strip filter].
  destruct (form_blank c) eqn:E; cbn [negb run].
  - rewrite u_step_blank by auto. apply IH.
  - destruct (u_step st c) as [[|] st']; auto.
Qed.

Definition st_name n out := {| u_value_state := false; u_name := n; u_value := []; u_out := out |}.
Definition st_val n v out := {| u_value_state := true; u_name := n; u_value := v; u_out := out |}.

Definition vpairs (n : list Z) (vs : list (list Z)) : list (list Z * list Z) :=
  match n with [] => [] | _ => map (fun v => (url_decode n, url_decode v)) vs end.

Lemma u_insert_val n v out : u_insert (st_val n v out) = out ++ vpairs n [v].
Proof. unfold u_insert, st_val, vpairs; simpl. destruct n; simpl; rewrite ?app_nil_r; auto. Qed.
Lemma u_insert_name n out : u_insert (st_name n out) = out ++ vpairs n [[]].
Proof. unfold u_insert, st_name, vpairs; simpl. destruct n; simpl; rewrite ?app_nil_r; auto. Qed.
Lemma vpairs_cons n v vs : vpairs n (v :: vs) = vpairs n [v] ++ vpairs n vs.
Proof. unfold vpairs. destruct n; auto. Qed.

Lemma u_step_name n out c : is_byte c -> form_blank c = false -> u_step (st_name n out) c =
  if c =? ch "=" then (true, st_val n [] out)
  else if c =? ch "&" then (true, st_name [] (u_insert (st_name n out)))
  else if form_bad c || (1024 <=? zlen n) then (false, st_name n out) else (true, st_name (n ++ [c]) out).
Proof.
  intros H W. unfold u_step. cbn [u_value_state st_name u_name u_value u_out].
  replace (is_crlftab c) with false by (unfold is_crlftab, form_blank in *; lia).
  rewrite is_control_bad by auto. reflexivity.
Qed.
Lemma u_step_val n v out c : is_byte c -> form_blank c = false -> u_step (st_val n v out) c =
  if c =? ch "&" then (true, st_name [] (u_insert (st_val n v out)))
  else if c =? ch "," then (true, st_val n [] (u_insert (st_val n v out)))
  else if form_bad c || (1048576 <=? zlen v) then (false, st_val n v out) else (true, st_val n (v ++ [c]) out).
Proof.
  intros H W. unfold u_step. cbn [u_value_state st_val u_name u_value u_out].
  replace (is_crlftab c) with false by (unfold is_crlftab, form_blank in *; lia).
  rewrite is_control_bad by auto. reflexivity.
Qed.

Definition fields_ok (l : list (list Z)) : bool := forallb field_ok l.
Definition fields_pairs (l : list (list Z)) := concat (map field_pairs l).

Lemma field_pairs_vpairs p : field_pairs p = vpairs (field_name p) (field_values p).
Proof. unfold field_pairs, vpairs. destruct (field_name p); reflexivity. Qed.

(** the value part [p] of the current field, values not yet ended start with [v] *)
Definition val_ok (v p : list Z) : bool :=
  forallb (fun c => negb (form_bad c)) p && forallb (fun x => zlen x <=? 1048576) (split_on (ch ",") (v ++ p)).

Lemma form_run_correct s : Forall is_byte s -> Forall (fun c => form_blank c = false) s ->
  (forall n out h t, split_on (ch "&") s = h :: t -> ~ In (ch "=") n -> zlen n <= 1024 ->
     forallb (fun c => negb (form_bad c)) n = true ->
     fst (run u_step (st_name n out) s) = field_ok (n ++ h) && fields_ok t
     /\ (field_ok (n ++ h) && fields_ok t = true ->
         u_insert (snd (run u_step (st_name n out) s)) = out ++ field_pairs (n ++ h) ++ fields_pairs t))
  /\ (forall n v out h t, split_on (ch "&") s = h :: t -> ~ In (ch ",") v -> zlen v <= 1048576 ->
     fst (run u_step (st_val n v out) s) = val_ok v h && fields_ok t
     /\ (val_ok v h && fields_ok t = true ->
         u_insert (snd (run u_step (st_val n v out) s)) = out ++ vpairs n (split_on (ch ",") (v ++ h)) ++ fields_pairs t)).
Proof.
  induction s as [|c s IH]; intros HB HW.
  - split.
    + intros n out h t E Hn Ln Cn. cbn in E. inversion E; subst h t. cbn [run fst snd]. rewrite app_nil_r.
      unfold field_ok, field_pairs, field_name, field_values. rewrite break_at_none by auto. cbn [fst snd].
      rewrite Cn. replace (zlen n <=? 1024) with true by lia. split; [reflexivity|].
      intros _. rewrite u_insert_name. cbn [fields_pairs map concat]. rewrite app_nil_r. destruct n; reflexivity.
    + intros n v out h t E Hv Lv. cbn in E. inversion E; subst h t. cbn [run fst snd]. rewrite app_nil_r.
      unfold val_ok. rewrite app_nil_r, split_on_none by auto. cbn [forallb]. replace (zlen v <=? 1048576) with true by lia.
      split; [reflexivity|]. intros _. rewrite u_insert_val. unfold fields_pairs. cbn [map concat]. reflexivity.
  - inversion HB as [|? ? Hc HB']; inversion HW as [|? ? Wc HW']; subst. specialize (IH HB' HW') as [IHn IHv].
    destruct (split_on_nonempty (ch "&") s) as (h0 & t0 & E0).
    split.
    + intros n out h t E Hn Ln Cn. pose proof (u_step_name n out c Hc Wc) as STEP.
      destruct (c =? ch "=") eqn:Eq.
      { apply Z.eqb_eq in Eq. subst c. erewrite split_on_cons_other in E by (try exact E0; discriminate).
        inversion E; subst h t. rewrite (run_cons_ok _ _ _ _ _ STEP).
        destruct (IHv n [] out h0 t0 E0 (fun x => x) ltac:(cbn; lia)) as [A B].
        rewrite A. cbn [app] in B.
        assert (field_ok (n ++ ch "=" :: h0) = val_ok [] h0) as F.
        { unfold field_ok, field_name, field_values, val_ok. rewrite break_at_app by auto. cbn [fst snd app].
          rewrite forallb_app, Cn. cbn [forallb]. change (form_bad (ch "=")) with false. cbn [negb andb].
          replace (zlen n <=? 1024) with true by lia. rewrite andb_true_r. reflexivity. }
        rewrite F. split; [reflexivity|]. intros K. rewrite B by auto. do 2 f_equal.
        unfold field_pairs, field_name, field_values. rewrite break_at_app by auto. destruct n; reflexivity. }
      destruct (c =? ch "&") eqn:Ea.
      { apply Z.eqb_eq in Ea. subst c. cbn [split_on] in E. rewrite Z.eqb_refl in E. inversion E; subst h t.
        rewrite app_nil_r. rewrite (run_cons_ok _ _ _ _ _ STEP).
        destruct (IHn [] (u_insert (st_name n out)) h0 t0 E0 (fun x => x) ltac:(cbn; lia) eq_refl) as [A B].
        cbn [app] in A, B. rewrite A.
        assert (field_ok n = true) as F.
        { unfold field_ok, field_name, field_values. rewrite break_at_none by auto. cbn [fst snd].
          rewrite Cn. replace (zlen n <=? 1024) with true by lia. reflexivity. }
        rewrite F, E0. cbn [fields_ok forallb andb]. split; [reflexivity|]. intros K. rewrite B by auto.
        rewrite u_insert_name, <- app_assoc. f_equal. unfold fields_pairs. cbn [map concat]. rewrite (field_pairs_vpairs n).
        unfold field_name, field_values. rewrite break_at_none by auto. reflexivity. }
      apply Z.eqb_neq in Eq, Ea.
      rewrite (split_on_cons_other _ _ _ _ _ Ea E0) in E. inversion E; subst h t.
      destruct (form_bad c) eqn:Bc.
      { rewrite (run_cons_fail _ _ _ _ _ STEP). cbn [fst]. assert (field_ok (n ++ c :: h0) = false) as F.
        { unfold field_ok. rewrite forallb_app. cbn [forallb]. rewrite Bc. cbn [negb andb]. rewrite andb_false_r. reflexivity. }
        rewrite F. split; [reflexivity | discriminate]. }
      cbn [orb] in STEP. destruct (1024 <=? zlen n) eqn:L.
      { rewrite (run_cons_fail _ _ _ _ _ STEP). cbn [fst]. assert (field_ok (n ++ c :: h0) = false) as F.
        { unfold field_ok, field_name. rewrite break_at_fst_app by auto. cbn [break_at].
          apply Z.eqb_neq in Eq. rewrite Eq. destruct (break_at (ch "=") h0). cbn [fst].
          replace (zlen (n ++ c :: l) <=? 1024) with false; [rewrite andb_false_r; reflexivity|].
          rewrite zlen_app, zlen_cons. pose proof (zlen_nonneg l). lia. }
        rewrite F. split; [reflexivity | discriminate]. }
      rewrite (run_cons_ok _ _ _ _ _ STEP).
      destruct (IHn (n ++ [c]) out h0 t0 E0) as [A B].
      * intros K. apply in_app_or in K as [K|[K|[]]]; auto.
      * rewrite zlen_app, zlen_cons, zlen_nil. lia.
      * rewrite forallb_app. cbn [forallb]. rewrite Cn, Bc. reflexivity.
      * rewrite <- app_assoc in A, B. cbn [app] in A, B. auto.
    + intros n v out h t E Hv Lv. pose proof (u_step_val n v out c Hc Wc) as STEP.
      destruct (c =? ch "&") eqn:Ea.
      { apply Z.eqb_eq in Ea. subst c. cbn [split_on] in E. rewrite Z.eqb_refl in E. inversion E; subst h t.
        rewrite (run_cons_ok _ _ _ _ _ STEP).
        destruct (IHn [] (u_insert (st_val n v out)) h0 t0 E0 (fun x => x) ltac:(cbn; lia) eq_refl) as [A B].
        cbn [app] in A, B. rewrite A.
        assert (val_ok v [] = true) as F.
        { unfold val_ok. rewrite app_nil_r, split_on_none by auto. cbn. lia. }
        rewrite F, E0. cbn [fields_ok forallb andb]. split; [reflexivity|]. intros K. rewrite B by auto.
        rewrite u_insert_val, app_nil_r, split_on_none by auto. rewrite <- app_assoc. reflexivity. }
      apply Z.eqb_neq in Ea. rewrite (split_on_cons_other _ _ _ _ _ Ea E0) in E. inversion E; subst h t.
      destruct (c =? ch ",") eqn:Ec.
      { apply Z.eqb_eq in Ec. subst c. rewrite (run_cons_ok _ _ _ _ _ STEP).
        destruct (IHv n [] (u_insert (st_val n v out)) h0 t0 E0 (fun x => x) ltac:(cbn; lia)) as [A B].
        cbn [app] in B. rewrite A.
        assert (val_ok v (ch "," :: h0) = val_ok [] h0) as F.
        { unfold val_ok. rewrite split_on_app by auto. cbn [app forallb]. change (form_bad (ch ",")) with false.
          cbn [negb andb]. replace (zlen v <=? 1048576) with true by lia. reflexivity. }
        rewrite F. split; [reflexivity|]. intros K. rewrite B by auto.
        rewrite u_insert_val, split_on_app by auto. rewrite (vpairs_cons n v (split_on _ _)), <- !app_assoc. reflexivity. }
      apply Z.eqb_neq in Ec.
      destruct (form_bad c) eqn:Bc.
      { rewrite (run_cons_fail _ _ _ _ _ STEP). cbn [fst]. assert (val_ok v (c :: h0) = false) as F.
        { unfold val_ok. cbn [forallb]. rewrite Bc. reflexivity. }
        rewrite F. split; [reflexivity | discriminate]. }
      cbn [orb] in STEP.
      assert (val_ok v (c :: h0) = (zlen v + 1 <=? 1048576) && val_ok (v ++ [c]) h0) as F.
      { unfold val_ok. cbn [forallb]. rewrite Bc. cbn [negb andb]. rewrite <- app_assoc. cbn [app].
        destruct (split_on_nonempty (ch ",") h0) as (h1 & t1 & E1).
        rewrite (split_on_prefix _ v (c :: h0) (c :: h1) t1) by (auto; apply split_on_cons_other; auto).
        cbn [forallb]. destruct (zlen v + 1 <=? 1048576) eqn:L; auto. cbn [andb].
        replace (zlen (v ++ c :: h1) <=? 1048576) with false; [rewrite andb_false_r; reflexivity|].
        rewrite zlen_app, zlen_cons. pose proof (zlen_nonneg h1). lia. }
      destruct (1048576 <=? zlen v) eqn:L.
      { rewrite (run_cons_fail _ _ _ _ _ STEP). cbn [fst]. rewrite F. replace (zlen v + 1 <=? 1048576) with false by lia. split; [reflexivity | discriminate]. }
      rewrite F. replace (zlen v + 1 <=? 1048576) with true by lia. cbn [andb].
      rewrite (run_cons_ok _ _ _ _ _ STEP).
      destruct (IHv n (v ++ [c]) out h0 t0 E0) as [A B].
      * intros K. apply in_app_or in K as [K|[K|[]]]; auto.
      * rewrite zlen_app, zlen_cons, zlen_nil. lia.
      * rewrite <- app_assoc in B. cbn [app] in B. auto.
Qed.

Lemma form_strip_bytes s : Forall is_byte s -> Forall is_byte (form_strip s).
Proof. induction 1; cbn [form_strip filter]; auto. destruct (negb (form_blank x)); auto. Qed.
Lemma form_strip_noblank s : Forall (fun c => form_blank c = false) (form_strip s).
Proof.
  induction s; cbn [form_strip filter]; auto. destruct (form_blank a) eqn:E; cbn [negb]; auto.
Qed.

Lemma parse_form_spec s : Forall is_byte s ->
  fst (parse_url_encoded s) = form_ok s /\ (form_ok s = true -> snd (parse_url_encoded s) = form_pairs s).
Proof.
  intros H. unfold parse_url_encoded. destruct s as [|c0 s0]; [split; reflexivity|].
  set (s := c0 :: s0) in *. rewrite run_strip.
  destruct (split_on_nonempty (ch "&") (form_strip s)) as (h & t & E).
  destruct (form_run_correct (form_strip s) (form_strip_bytes s H) (form_strip_noblank s)) as [A _].
  destruct (A [] [] h t E (fun x => x) ltac:(cbn; lia) eq_refl) as [B C].
  change u_init with (st_name [] []). destruct (run u_step (st_name [] []) (form_strip s)) as [ok st'].
  cbn [fst snd app] in *. unfold form_ok, form_pairs. rewrite E.
  cbn [forallb map concat]. unfold fields_ok in B. unfold fields_ok, fields_pairs in C. rewrite <- B. destruct ok; cbn [fst snd].
  - split; [reflexivity|]. intros _. apply C. auto.
  - split; [reflexivity|discriminate].
Qed.

(* --- the query string round trip *)

Lemma url_text_chars s : url_text s -> Forall (fun c => url_plain c = true \/ c = ch "%" \/ is_upper_hex c = true) s.
Proof. induction 1; repeat (apply Forall_cons; [tauto|]); auto. Qed.

Lemma url_enc_char c : url_plain c = true \/ c = ch "%" \/ is_upper_hex c = true -> is_byte c ->
  c <> ch "&" /\ c <> ch "=" /\ c <> ch "," /\ form_bad c = false /\ form_blank c = false.
Proof.
  intros H Hb. assert ((if url_plain c || (c =? ch "%") || is_upper_hex c
    then negb (c =? ch "&") && negb (c =? ch "=") && negb (c =? ch ",") && negb (form_bad c) && negb (form_blank c) else true) = true) as S.
  { revert c Hb H. intros c Hb _. revert c Hb. apply byte_sweep. vm_compute. reflexivity. }
  replace (url_plain c || (c =? ch "%") || is_upper_hex c) with true in S.
  - rewrite !andb_true_iff, !negb_true_iff, !Z.eqb_neq in S. intuition.
  - symmetry. rewrite !orb_true_iff, Z.eqb_eq. tauto.
Qed.

Definition form_plain (s : list Z) : Prop :=
  Forall is_byte s /\ ~ In (ch "&") s /\ ~ In (ch "=") s /\ ~ In (ch ",") s
  /\ forallb (fun c => negb (form_bad c)) s = true /\ form_strip s = s.

Lemma url_encode_bytes s : Forall is_byte s -> Forall is_byte (url_encode s).
Proof.
  induction 1 as [|c s Hc Hs IH]; cbn [url_encode]; auto. apply Forall_app. split; auto.
  unfold url_encode1. destruct (url_keep c); [constructor; auto|].
  destruct (url_hex_upper c Hc) as [A B]. unfold url_escape, is_upper_hex in *.
  repeat constructor; unfold is_byte; cbn; lia.
Qed.

Lemma form_plain_of s : Forall is_byte s ->
  Forall (fun c => url_plain c = true \/ c = ch "%" \/ is_upper_hex c = true) s -> form_plain s.
Proof.
  intros HB HC. unfold form_plain. split; auto.
  assert (Forall (fun c => c <> ch "&" /\ c <> ch "=" /\ c <> ch "," /\ form_bad c = false /\ form_blank c = false) s) as F.
  { apply Forall_forall. intros c Hc. rewrite Forall_forall in HB, HC. apply url_enc_char; auto. }
  clear HB HC. induction F as [|c s Hc Hs IH]; [cbn; tauto|]. destruct IH as (I1 & I2 & I3 & I4 & I5).
  destruct Hc as (C1 & C2 & C3 & C4 & C5).
  split; [intros [K|K]; auto|]. split; [intros [K|K]; auto|]. split; [intros [K|K]; auto|].
  cbn [forallb form_strip filter]. rewrite C4, C5. cbn [negb andb]. split; auto. unfold form_strip in I5. rewrite I5. reflexivity.
Qed.

Lemma url_encode_plain s : Forall is_byte s -> form_plain (url_encode s).
Proof.
  intros H. apply form_plain_of. apply url_encode_bytes; auto. apply url_text_chars, url_encode_text; auto.
Qed.

Lemma form_strip_app a b : form_strip (a ++ b) = form_strip a ++ form_strip b.
Proof. apply filter_app. Qed.

(** Names and values of a query list that survive. *)
Definition query_pair_ok (p : list Z * list Z) : Prop :=
  Forall is_byte (fst p) /\ Forall is_byte (snd p) /\ fst p <> [] /\ ~ In 0 (fst p) /\ ~ In 0 (snd p)
  /\ zlen (url_encode (fst p)) <= 1024 /\ zlen (url_encode (snd p)) <= 1048576.

Lemma query_pair_strip p : query_pair_ok p -> form_strip (query_pair p) = query_pair p.
Proof.
  intros (B1 & B2 & _). destruct (url_encode_plain _ B1) as (_ & _ & _ & _ & _ & S1).
  destruct (url_encode_plain _ B2) as (_ & _ & _ & _ & _ & S2).
  unfold query_pair. rewrite form_strip_app. change (ch "=" :: url_encode (snd p)) with ([ch "="] ++ url_encode (snd p)).
  rewrite form_strip_app, S1, S2. reflexivity.
Qed.

Lemma url_encode_nonempty s : s <> [] -> url_encode s <> [].
Proof. destruct s; [congruence|]. intros _. cbn [url_encode]. unfold url_encode1. destruct (url_keep z); discriminate. Qed.

Lemma query_pair_field p : query_pair_ok p ->
  ~ In (ch "&") (query_pair p) /\ field_ok (query_pair p) = true /\ field_pairs (query_pair p) = [p].
Proof.
  intros (B1 & B2 & NE & N1 & N2 & L1 & L2).
  destruct (url_encode_plain _ B1) as (_ & A1 & A2 & A3 & A4 & _).
  destruct (url_encode_plain _ B2) as (_ & C1 & C2 & C3 & C4 & _).
  unfold query_pair. split.
  { intros K. apply in_app_or in K as [K|[K|K]]; auto. discriminate K. }
  unfold field_ok, field_pairs, field_name, field_values. rewrite break_at_app by auto. cbn [fst snd].
  rewrite split_on_none by auto. split.
  - rewrite forallb_app, A4. cbn [forallb]. rewrite C4. change (form_bad (ch "=")) with false. cbn [negb andb].
    replace (zlen (url_encode (fst p)) <=? 1024) with true by lia.
    replace (zlen (url_encode (snd p)) <=? 1048576) with true by lia. reflexivity.
  - pose proof (url_encode_nonempty _ NE). destruct (url_encode (fst p)) eqn:E; [congruence|]. rewrite <- E. cbn [map].
    rewrite !url_roundtrip by auto. destruct p; reflexivity.
Qed.

Lemma make_query_cons p l : make_query_string (p :: l) =
  match l with [] => query_pair p | _ => query_pair p ++ ch "&" :: make_query_string l end.
Proof. destruct l; cbn [make_query_string make_query_tail]; [apply app_nil_r | reflexivity]. Qed.

Lemma query_fields l : l <> [] -> Forall query_pair_ok l ->
  form_strip (make_query_string l) = make_query_string l
  /\ split_on (ch "&") (make_query_string l) = map query_pair l.
Proof.
  induction l as [|p l IH]; [congruence|]. intros _ H. inversion H as [|? ? Hp Hl]; subst.
  rewrite make_query_cons. destruct (query_pair_field p Hp) as (NA & _). pose proof (query_pair_strip p Hp) as S.
  destruct l as [|q l].
  - split; auto. rewrite split_on_none; auto.
  - destruct (IH ltac:(discriminate) Hl) as [I1 I2]. split.
    + rewrite form_strip_app, S. f_equal.
      change (ch "&" :: make_query_string (q :: l)) with ([ch "&"] ++ make_query_string (q :: l)).
      rewrite form_strip_app, I1. reflexivity.
    + rewrite split_on_app by auto. rewrite I2. reflexivity.
Qed.

Lemma make_query_bytes l : Forall query_pair_ok l -> Forall is_byte (make_query_string l).
Proof.
  induction 1 as [|p l Hp Hl IH]; [constructor|]. rewrite make_query_cons.
  assert (Forall is_byte (query_pair p)).
  { destruct Hp as (B1 & B2 & _). unfold query_pair. apply Forall_app. split; [apply url_encode_bytes; auto|].
    constructor; [unfold is_byte; cbn; lia | apply url_encode_bytes; auto]. }
  destruct l; auto. apply Forall_app. split; auto. constructor; auto. unfold is_byte; cbn; lia.
Qed.

Lemma query_roundtrip l : Forall query_pair_ok l -> parse_url_encoded (make_query_string l) = (true, l).
Proof.
  intros H. destruct l as [|p l]; [reflexivity|]. set (q := p :: l) in *.
  destruct (query_fields q ltac:(discriminate) H) as [S E].
  destruct (parse_form_spec (make_query_string q) (make_query_bytes q H)) as [A B].
  assert (form_ok (make_query_string q) = true) as OK.
  { unfold form_ok. rewrite S, E. apply forallb_forall. intros x Hx. apply in_map_iff in Hx as (y & <- & Hy).
    rewrite Forall_forall in H. apply query_pair_field; auto. }
  specialize (B OK). rewrite OK in A. destruct (parse_url_encoded (make_query_string q)) as [b r]. cbn [fst snd] in *. subst.
  f_equal. unfold form_pairs. rewrite S, E. clear - H. induction H as [|x q Hx Hq IH]; auto.
  cbn [map concat]. destruct (query_pair_field x Hx) as (_ & _ & ->). cbn [app]. congruence.
Qed.

(* --- bounds of stored pairs *)

Definition u_pair_bound (p : list Z * list Z) : Prop := fst p <> [] /\ zlen (fst p) <= 1024 /\ zlen (snd p) <= 1048576.
Definition u_inv (st : ustate) : Prop :=
  zlen (u_name st) <= 1024 /\ zlen (u_value st) <= 1048576 /\ Forall u_pair_bound (u_out st).

Lemma url_decode_nonempty s : s <> [] -> url_decode s <> [].
Proof.
  destruct s as [|c s]; [congruence|]. intros _. cbn [url_decode]. destruct (c =? ch "+"); [discriminate|].
  destruct (c =? ch "%"); [|discriminate]. destruct s as [|a [|b s]]; try discriminate.
  destruct (to_u8 _ =? 0); discriminate.
Qed.

Lemma u_insert_inv st : u_inv st -> Forall u_pair_bound (u_insert st).
Proof.
  intros (A & B & C). unfold u_insert. destruct (u_name st) eqn:E; auto. rewrite <- E in *.
  apply Forall_app. split; auto. constructor; auto. unfold u_pair_bound. cbn [fst snd].
  pose proof (url_decode_len (u_name st)). pose proof (url_decode_len (u_value st)).
  split; [apply url_decode_nonempty; congruence | lia].
Qed.

Lemma u_step_inv st c : u_inv st -> u_inv (snd (u_step st c)).
Proof.
  intros I. pose proof (u_insert_inv st I) as J. destruct I as (A & B & C).
  unfold u_step. destruct (u_value_state st).
  - destruct (c =? ch "&"); [unfold u_inv; cbn; repeat split; auto; lia|].
    destruct (c =? ch ","); [unfold u_inv; cbn; repeat split; auto; lia|].
    destruct (is_crlftab c); [unfold u_inv; cbn; auto|].
    destruct (is_control c); cbn [orb]; [unfold u_inv; cbn; auto|].
    change QUERY_VALUE_MAX with 1048576.
    destruct (1048576 <=? zlen (u_value st)) eqn:L; unfold u_inv; cbn [snd u_name u_value u_out]; auto.
    rewrite zlen_app, zlen_cons, zlen_nil. repeat split; auto; lia.
  - destruct (c =? ch "="); [unfold u_inv; cbn; auto|].
    destruct (c =? ch "&"); [unfold u_inv; cbn; repeat split; auto; lia|].
    destruct (is_crlftab c); [unfold u_inv; cbn; auto|].
    destruct (is_control c); cbn [orb]; [unfold u_inv; cbn; auto|].
    change QUERY_NAME_MAX with 1024.
    destruct (1024 <=? zlen (u_name st)) eqn:L; unfold u_inv; cbn [snd u_name u_value u_out]; auto.
    rewrite zlen_app, zlen_cons, zlen_nil. repeat split; auto; lia.
Qed.

Lemma parse_form_bounds s : Forall u_pair_bound (snd (parse_url_encoded s)).
Proof.
  unfold parse_url_encoded. destruct s as [|c0 s0]; [constructor|]. set (s := c0 :: s0).
  assert (u_inv (snd (run u_step u_init s))) as I.
  { apply (run_inv u_step u_inv (fun _ => True)).
    - intros. apply u_step_inv; auto.
    - unfold u_inv; cbn; repeat split; try lia; auto.
    - apply Forall_forall; auto. }
  destruct (run u_step u_init s) as [[|] st]; cbn [snd] in *.
  - apply u_insert_inv; auto.
  - apply I.
Qed.

(* ------------------------------------------------------------------ cookies *)

Definition c_pair_bound (sc : bool) (p : list Z * list Z) : Prop :=
  fst p <> [] /\ hd 0 (fst p) <> ch "$" /\ zlen (fst p) <= 1024 /\ zlen (snd p) <= 1048576
  /\ (sc = true -> not_reserved (fst p)).
Definition c_inv (sc : bool) (st : cstate) : Prop :=
  zlen (c_name st) <= 1024 /\ zlen (c_value st) <= 1048576 /\ Forall (c_pair_bound sc) (c_out st).

Lemma lower_ascii c : lower c = ascii_lower c.
Proof. reflexivity. Qed.

Lemma cookie_attr_reserved n : existsb (iequals n) cookie_attributes = true <-> In (map ascii_lower n) reserved_cookie_names.
Proof.
  change (map ascii_lower n) with (lower_str n). rewrite existsb_exists. split.
  - intros (a & Ha & He). unfold iequals in He. apply str_eqb_eq in He. rewrite He.
    unfold cookie_attributes in Ha. cbn [In] in Ha. unfold reserved_cookie_names.
    destruct Ha as [<-|[<-|[<-|[<-|[<-|[<-|[<-|[<-|[]]]]]]]]]; cbn; tauto.
  - intros H. unfold reserved_cookie_names in H. cbn [map In] in H.
    destruct H as [H|[H|[H|[H|[H|[H|[H|[H|[]]]]]]]]];
    [exists (bs "Comment") | exists (bs "Domain") | exists (bs "Max-Age") | exists (bs "Path") | exists (bs "Secure")
     | exists (bs "Version") | exists (bs "Expires") | exists (bs "HttpOnly")];
    (split; [unfold cookie_attributes; cbn [In]; tauto | unfold iequals; apply str_eqb_eq; rewrite <- H; reflexivity]).
Qed.

Lemma c_insert_inv sc st : c_inv sc st -> Forall (c_pair_bound sc) (c_insert sc st).
Proof.
  intros (A & B & C). unfold c_insert. destruct (is_cookie_attribute (c_name st) sc) eqn:E; auto.
  apply Forall_app. split; auto. constructor; auto. unfold c_pair_bound. cbn [fst snd].
  unfold is_cookie_attribute in E. destruct (c_name st) as [|c n] eqn:N; [discriminate|].
  apply orb_false_iff in E as [E1 E2]. apply Z.eqb_neq in E1.
  repeat split; auto; try discriminate. intros ->. cbn [andb] in E2. unfold not_reserved.
  rewrite <- cookie_attr_reserved. congruence.
Qed.

Lemma c_step_inv sc st c : c_inv sc st -> c_inv sc (snd (c_step sc st c)).
Proof.
  intros I. pose proof (c_insert_inv sc st I) as J. destruct I as (A & B & C).
  unfold c_step. change COOKIE_NAME_MAX with 1024. change COOKIE_VALUE_MAX with 1048576.
  assert (forall l : list Z, zlen (l ++ [c]) = zlen l + 1) as LA by (intros; rewrite zlen_app; cbn; lia).
  destruct (c_phase st).
  - destruct (c =? ch "="); [unfold c_inv; cbn; auto|].
    destruct (is_sep c).
    { destruct (c_name st) eqn:N; unfold c_inv; cbn [snd c_name c_value c_out]; rewrite ?N; repeat split; auto; cbn; lia. }
    destruct (negb (c =? ch " ")); [|unfold c_inv; cbn; auto].
    destruct (is_control c); cbn [orb]; [unfold c_inv; cbn; auto|].
    destruct (1024 <=? zlen (c_name st)) eqn:L; unfold c_inv; cbn [snd c_name c_value c_out]; rewrite ?LA; repeat split; auto; lia.
  - destruct (c_quote st =? 0).
    + destruct (is_sep c); [unfold c_inv; cbn; repeat split; auto; lia|].
      destruct ((c =? 39) || (c =? 34)).
      { destruct (c_value st) eqn:N; [unfold c_inv; cbn [snd c_name c_value c_out]; auto|].
        rewrite <- N in *. destruct (1048576 <=? zlen (c_value st)) eqn:L; unfold c_inv; cbn [snd c_name c_value c_out]; rewrite ?LA; repeat split; auto; lia. }
      destruct (negb (c =? ch " ") || _); [|unfold c_inv; cbn; auto].
      destruct (is_control c); cbn [orb]; [unfold c_inv; cbn; auto|].
      destruct (1048576 <=? zlen (c_value st)) eqn:L; unfold c_inv; cbn [snd c_name c_value c_out]; rewrite ?LA; repeat split; auto; lia.
    + destruct (c =? c_quote st); [unfold c_inv; cbn; repeat split; auto; lia|].
      destruct (1048576 <=? zlen (c_value st)) eqn:L; unfold c_inv; cbn [snd c_name c_value c_out]; rewrite ?LA; repeat split; auto; lia.
  - destruct (is_sep c); unfold c_inv; cbn; auto.
Qed.

Lemma parse_cookie_bounds sc s : Forall (c_pair_bound sc) (snd (parse_cookie_header sc s)).
Proof.
  unfold parse_cookie_header.
  assert (c_inv sc (snd (run (c_step sc) c_init s))) as I.
  { apply (run_inv (c_step sc) (c_inv sc) (fun _ => True)).
    - intros. apply c_step_inv; auto.
    - unfold c_inv; cbn; repeat split; try lia; auto.
    - apply Forall_forall; auto. }
  destruct (run (c_step sc) c_init s) as [[|] st]; cbn [snd] in *.
  - apply c_insert_inv; auto.
  - apply I.
Qed.

(* --- execution lemmas *)

Definition cst ph n v q out := {| c_phase := ph; c_name := n; c_value := v; c_quote := q; c_out := out |}.

Lemma cookie_ctl_control c : is_byte c -> is_control c = cookie_ctl c.
Proof. intros H. apply eqb_prop. revert c H. apply byte_sweep. vm_compute. reflexivity. Qed.

Lemma name_char_facts c : cookie_name_char c = true ->
  (c =? ch "=") = false /\ is_sep c = false /\ (c =? ch " ") = false /\ cookie_ctl c = false.
Proof.
  unfold cookie_name_char. cbn [bs existsb]. unfold is_sep. unfold ch, bs. cbn. lia.
Qed.
Lemma value_char_facts c : cookie_value_char c = true -> is_sep c = false /\ cookie_ctl c = false.
Proof. unfold cookie_value_char, is_sep. unfold ch, bs. cbn. lia. Qed.

Lemma run_name sc m : forall n v q out, Forall is_byte m -> Forall (fun c => cookie_name_char c = true) m ->
  zlen n + zlen m <= 1024 -> run (c_step sc) (cst CName n v q out) m = (true, cst CName (n ++ m) v q out).
Proof.
  induction m as [|c m IH]; intros n v q out HB HC L.
  - cbn [run]. rewrite app_nil_r. reflexivity.
  - inversion HB; inversion HC; subst. rewrite zlen_cons in L. pose proof (zlen_nonneg m).
    destruct (name_char_facts c H5) as (F1 & F2 & F3 & F4).
    cbn [run]. unfold c_step at 1. cbn [c_phase cst]. rewrite F1, F2, F3, cookie_ctl_control, F4 by auto.
    cbn [negb orb c_name cst c_value c_quote c_out]. change COOKIE_NAME_MAX with 1024.
    replace (1024 <=? zlen n) with false by lia.
    change {| c_phase := CName; c_name := n ++ [c]; c_value := v; c_quote := q; c_out := out |} with (cst CName (n ++ [c]) v q out).
    rewrite IH; auto; [rewrite <- app_assoc; reflexivity | rewrite zlen_app, zlen_cons, zlen_nil; lia].
Qed.

Lemma run_value sc m : forall n v out, Forall is_byte m -> Forall (fun c => cookie_value_char c = true) m ->
  zlen v + zlen m <= 1048576 -> (v = [] -> hd 0 m <> ch " " /\ hd 0 m <> 34 /\ hd 0 m <> 39) ->
  run (c_step sc) (cst CValue n v 0 out) m = (true, cst CValue n (v ++ m) 0 out).
Proof.
  induction m as [|c m IH]; intros n v out HB HC L HV.
  - cbn [run]. rewrite app_nil_r. reflexivity.
  - inversion HB; inversion HC; subst. rewrite zlen_cons in L. pose proof (zlen_nonneg m).
    destruct (value_char_facts c H5) as (F2 & F4).
    assert (c_step sc (cst CValue n v 0 out) c = (true, cst CValue n (v ++ [c]) 0 out)) as E.
    { unfold c_step. cbn [c_phase cst c_quote c_value c_name c_out]. change (0 =? 0) with true. cbn iota. rewrite F2.
      change COOKIE_VALUE_MAX with 1048576. rewrite cookie_ctl_control, F4 by auto. cbn [orb].
      replace (1048576 <=? zlen v) with false by lia.
      destruct v as [|x v].
      - destruct (HV eq_refl) as (V1 & V2 & V3). cbn [hd] in *.
        replace ((c =? 39) || (c =? 34)) with false by lia. replace (c =? ch " ") with false by (symmetry; apply Z.eqb_neq; auto).
        reflexivity.
      - destruct ((c =? 39) || (c =? 34)); [reflexivity|]. cbn [negb]. rewrite orb_true_r. reflexivity. }
    cbn [run]. rewrite E. rewrite IH; auto.
    + rewrite <- app_assoc. reflexivity.
    + rewrite zlen_app, zlen_cons, zlen_nil. lia.
    + intros K. destruct v; discriminate.
Qed.

Lemma run_quoted sc m : forall n v out, ~ In 34 m -> zlen v + zlen m <= 1048576 ->
  run (c_step sc) (cst CValue n v 34 out) m = (true, cst CValue n (v ++ m) 34 out).
Proof.
  induction m as [|c m IH]; intros n v out N L.
  - cbn [run]. rewrite app_nil_r. reflexivity.
  - rewrite zlen_cons in L. pose proof (zlen_nonneg m). cbn [run]. unfold c_step at 1.
    cbn [c_phase cst c_quote c_value c_name c_out]. change (34 =? 0) with false. cbn iota.
    replace (c =? 34) with false by (symmetry; apply Z.eqb_neq; intro; apply N; left; auto).
    change COOKIE_VALUE_MAX with 1048576. replace (1048576 <=? zlen v) with false by lia.
    change {| c_phase := CValue; c_name := n; c_value := v ++ [c]; c_quote := 34; c_out := out |} with (cst CValue n (v ++ [c]) 34 out).
    rewrite IH.
    + rewrite <- app_assoc. reflexivity.
    + intro; apply N; right; auto.
    + rewrite zlen_app, zlen_cons, zlen_nil. lia.
Qed.

Lemma attr_false sc n : cookie_name_ok n -> (sc = true -> not_reserved n) -> is_cookie_attribute n sc = false.
Proof.
  intros (NE & _ & _ & _ & D) R. unfold is_cookie_attribute. destruct n as [|c n]; [congruence|].
  cbn [hd] in D. apply Z.eqb_neq in D. rewrite D. cbn [orb]. destruct sc; auto. cbn [andb].
  destruct (existsb _ _) eqn:E; auto. apply cookie_attr_reserved in E. exfalso. exact (R eq_refl E).
Qed.

Lemma c_step_eq sc n q out : c_step sc (cst CName n [] q out) (ch "=") = (true, cst CValue n [] 0 out).
Proof. reflexivity. Qed.

Lemma run_cookie_header sc l : forall q out, l <> [] ->
  Forall (fun p => cookie_name_ok (fst p) /\ cookie_value_ok (snd p) /\ (sc = true -> not_reserved (fst p))) l ->
  exists st, run (c_step sc) (cst CName [] [] q out) (cookie_header l) = (true, st) /\ c_insert sc st = out ++ l.
Proof.
  induction l as [|[n v] l IH]; intros q out NE H; [congruence|]. inversion H as [|? ? (Hn & Hv & Hr) Hl]; subst. cbn [fst snd] in *.
  pose proof (attr_false sc n Hn Hr) as AF. pose proof Hn as (_ & HnB & HnC & HnL & _).
  destruct Hv as (HvB & HvC & HvL & Hv1 & Hv2 & Hv3).
  assert (forall rest, run (c_step sc) (cst CName [] [] q out) (n ++ ch "=" :: v ++ rest) = run (c_step sc) (cst CValue n v 0 out) rest) as X.
  { intros rest. rewrite run_app, run_name by (auto; cbn; lia). cbn [app]. cbn [run]. rewrite c_step_eq.
    rewrite run_app, run_value by (auto; cbn; lia). reflexivity. }
  destruct l as [|p l].
  - exists (cst CValue n v 0 out). split.
    + specialize (X []). rewrite app_nil_r in X. exact X.
    + unfold c_insert. cbn [c_name cst c_out c_value]. rewrite AF. reflexivity.
  - change (cookie_header ((n, v) :: p :: l)) with (n ++ ch "=" :: v ++ bs "; " ++ cookie_header (p :: l)).
    rewrite X. destruct (IH 0 (out ++ [(n, v)]) ltac:(discriminate) Hl) as (st & E & I).
    exists st. split; [|rewrite I, <- app_assoc; reflexivity]. rewrite <- E.
    cbn [bs app]. cbn [run]. unfold c_step at 1. cbn [c_phase cst c_quote].
    change (is_sep (Z.of_N (Ascii.N_of_ascii (Ascii.Ascii true true false true true true false false)))) with true. cbn [Z.eqb]. cbn iota.
    unfold c_insert. cbn [c_name cst c_out c_value]. rewrite AF.
    unfold c_step at 1. cbn [c_phase].  reflexivity.
Qed.

Lemma cookie_roundtrip l :
  Forall (fun p => cookie_name_ok (fst p) /\ cookie_value_ok (snd p)) l ->
  parse_cookie_header false (cookie_header l) = (true, l).
Proof.
  intros H. destruct l as [|x l0]; [reflexivity|]. set (l := x :: l0) in *. assert (l <> []) as NE by discriminate.
  destruct (run_cookie_header false l 0 [] NE) as (st & E & I).
  - eapply Forall_impl; [|exact H]. cbn. intros p [A B]. repeat split; try apply A; try apply B. discriminate.
  - unfold parse_cookie_header. change c_init with (cst CName [] [] 0 []). rewrite E, I. reflexivity.
Qed.

(** An attribute "; Name=value" after the cookie leaves the output unchanged. *)
Lemma run_attribute ph n v q out an av :
  (ph = CIgnore /\ n = [] /\ v = []) \/ (ph = CValue /\ q = 0 /\ is_cookie_attribute n true = true) ->
  cookie_name_ok an -> cookie_value_ok av ->
  run (c_step true) (cst ph n v q out) (bs "; " ++ an ++ ch "=" :: av) = (true, cst CValue an av 0 out).
Proof.
  intros H (_ & HnB & HnC & HnL & _) (HvB & HvC & HvL & Hv1 & Hv2 & Hv3).
  assert (exists q', run (c_step true) (cst ph n v q out) (bs "; ") = (true, cst CName [] [] q' out)) as (q' & E).
  { destruct H as [(-> & -> & ->)|(-> & -> & A)].
    - exists q. reflexivity.
    - exists 0. cbn [bs run]. unfold c_step at 1. cbn [c_phase cst c_quote].
      change (is_sep (Z.of_N (Ascii.N_of_ascii (Ascii.Ascii true true false true true true false false)))) with true. cbn [Z.eqb]. cbn iota.
      unfold c_insert. cbn [c_name cst c_out c_value]. rewrite A. reflexivity. }
  rewrite run_app, E, run_app, run_name by (auto; cbn; lia). cbn [app run]. rewrite c_step_eq.
  rewrite run_value by (auto; cbn; lia). reflexivity.
Qed.

Definition cookie_path_ok (p : list Z) : Prop := cookie_value_ok p.

Lemma const_name_ok s : (s = "Version" \/ s = "Path" \/ s = "Max-Age")%string -> cookie_name_ok (bs s).
Proof.
  intros H. unfold cookie_name_ok. split; [destruct H as [->|[->| ->]]; discriminate|]. split; [apply bs_bytes|].
  split; [|destruct H as [->|[->| ->]]; cbn; split; lia].
  destruct H as [->|[->| ->]]; cbn; repeat constructor.
Qed.

Lemma print_dec_value_ok n : 0 <= n < two64 -> cookie_value_ok (print_dec n).
Proof.
  intros H. pose proof (print_dec_digits n ltac:(lia)) as D. unfold cookie_value_ok.
  split; [eapply Forall_impl; [|exact D]; unfold is_byte; cbn; lia|].
  split. { eapply Forall_impl; [|exact D]. intros c Hc. cbn in Hc. unfold cookie_value_char, cookie_ctl. unfold bs. cbn. lia. }
  assert (zlen (print_dec n) <= 20) as L.
  { unfold print_dec, zlen. rewrite map_length. apply (digits_len 10 19 n); [lia|]. unfold two64 in H. split; [lia|].
    eapply Z.lt_trans; [apply H|]. reflexivity. }
  split; [lia|]. pose proof (print_dec_nonempty n). destruct (print_dec n) as [|c r]; [congruence|]. cbn [hd].
  inversion D; subst. unfold ch; cbn. lia.
Qed.

Lemma set_cookie_roundtrip name value path has_age age :
  cookie_name_ok name -> not_reserved name -> cookie_quoted_ok value -> (path <> [] -> cookie_path_ok path) -> 0 <= age < two64 ->
  parse_cookie_header true (make_set_cookie_header name value path has_age age) = (true, [(name, value)]).
Proof.
  intros Hn Hr (Hq & HqL) Hp Ha. pose proof (attr_false true name Hn (fun _ => Hr)) as AF.
  pose proof Hn as (_ & HnB & HnC & HnL & _). unfold parse_cookie_header, make_set_cookie_header.
  change c_init with (cst CName [] [] 0 []).
  rewrite run_app, run_name by (auto; cbn; lia). cbn [app run]. rewrite c_step_eq.
  change (c_step true (cst CValue name [] 0 []) 34) with (true, cst CValue name [] 34 []). cbn iota.
  rewrite run_app, run_quoted by (auto; cbn; lia). cbn [app run].
  assert (c_step true (cst CValue name value 34 []) 34 = (true, cst CIgnore [] [] 34 [(name, value)])) as E.
  { unfold c_step. cbn [c_phase cst c_quote Z.eqb]. change (34 =? 0) with false. change (34 =? 34) with true. cbn iota.
    unfold c_insert. cbn [c_name cst c_value c_out]. rewrite AF. reflexivity. }
  rewrite E. clear E.
  set (out := [(name, value)]).
  change (bs "; Version=1") with (bs "; " ++ bs "Version" ++ ch "=" :: bs "1").
  rewrite run_app, run_attribute.
  2: { left; auto. } 2: { apply const_name_ok; auto. }
  2: { unfold cookie_value_ok. split; [apply bs_bytes|]. split; [repeat constructor|]. cbn. lia. }
  assert (forall n v, is_cookie_attribute n true = true -> c_insert true (cst CValue n v 0 out) = out) as CI.
  { intros n v A. unfold c_insert. cbn [c_name cst c_out c_value]. rewrite A. reflexivity. }
  assert (exists n v, run (c_step true) (cst CValue (bs "Version") (bs "1") 0 out) (match path with [] => [] | _ => bs "; Path=" ++ path end)
      = (true, cst CValue n v 0 out) /\ is_cookie_attribute n true = true) as (n1 & v1 & E1 & A1).
  { destruct path as [|c p].
    - exists (bs "Version"), (bs "1"). split; reflexivity.
    - exists (bs "Path"), (c :: p). split; [|reflexivity].
      change (bs "; Path=" ++ c :: p) with (bs "; " ++ bs "Path" ++ ch "=" :: c :: p).
      apply run_attribute; [right; auto | apply const_name_ok; auto | apply Hp; discriminate]. }
  rewrite run_app, E1. destruct has_age.
  - change (bs "; Max-Age=" ++ print_dec age) with (bs "; " ++ bs "Max-Age" ++ ch "=" :: print_dec age).
    rewrite run_attribute; [rewrite CI by reflexivity; reflexivity | right; auto | apply const_name_ok; auto | apply print_dec_value_ok; auto].
  - cbn [run]. rewrite CI by auto. reflexivity.
Qed.
