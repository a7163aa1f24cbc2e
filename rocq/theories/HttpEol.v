(** Line endings of a message head other than CR LF. *)
From Coq Require Import String ZArith List Lia Bool.
From Verif Require Import Base Digits AlgModel FormModel DictModel MultipartModel HttpModel HttpBase HttpSplit HttpSpec HttpProofs HttpHead HttpBody HttpReset EolSpec.
Import ListNotations.

Local Arguments zlen : simpl never.
Local Arguments Z.add : simpl never.
Local Arguments Z.sub : simpl never.
Local Arguments used : simpl never.
Local Arguments finish : simpl never.
Local Arguments Z.leb : simpl never.

(* ------------------------------------------------------------------ states that differ in what the head left *)

Definition noraw (h : hdrs) : hdrs := set_h_raw [] h.
Definition nostate (h : hdrs) : hdrs := set_h_raw [] (goto h HHeaderStart).
Definition frel (a b : pst) : Prop :=
  p_phase a = p_phase b /\ p_phase a <> PStart /\ p_phase a <> PHeaders /\ p_k a = p_k b /\ p_remaining a = p_remaining b
  /\ p_content_read a = p_content_read b /\ p_payload a = p_payload b /\ nostate (p_h a) = nostate (p_h b)
  /\ (p_phase a = PFooters -> noraw (p_h a) = noraw (p_h b)).
Definition fres (a b : sub (pst * msg)) : Prop :=
  s_rc a = s_rc b /\ s_err a = s_err b /\ s_rest a = s_rest b /\ snd (s_st a) = snd (s_st b) /\ frel (fst (s_st a)) (fst (s_st b)).

Definition hres_raw (a b : hres) : Prop :=
  match a, b with
  | HCont h m, HCont h' m' => noraw h = noraw h' /\ m = m'
  | HFail e, HFail e' => e = e'
  | HDone x h m, HDone y h' m' => x = y /\ noraw h = noraw h' /\ m = m'
  | _, _ => False
  end.
Lemma h_char_raw cf h h' m c : noraw h = noraw h' -> hres_raw (h_char cf h m c) (h_char cf h' m c).
Proof.
  intros E. destruct h as [s a1 a2 a3 a4 a5 a6 a7 a8], h' as [s' b1 b2 b3 b4 b5 b6 b7 b8]. cbn in E. inversion E; subst.
  unfold h_char. cbn [h_state h_method h_resource h_query h_code h_reason h_name h_value h_raw].
  destruct s'; repeat match goal with |- context [if ?b then _ else _] => destruct b end; cbn; auto.
Qed.
Lemma save_raw_raw cf h h' c : noraw h = noraw h' -> noraw (save_raw cf h c) = noraw (save_raw cf h' c).
Proof. intros E. unfold save_raw. destruct (cf_save_raw cf); auto. Qed.
Lemma h_loop_raw cf s : forall h h' m, noraw h = noraw h' ->
  let a := h_loop cf h m s in let b := h_loop cf h' m s in
  s_rc a = s_rc b /\ s_err a = s_err b /\ s_rest a = s_rest b /\ noraw (fst (s_st a)) = noraw (fst (s_st b)) /\ snd (s_st a) = snd (s_st b).
Proof.
  induction s as [|c s IH]; intros h h' m E; cbn [h_loop].
  - repeat split; auto.
  - apply (save_raw_raw cf _ _ c) in E. pose proof (h_char_raw cf _ _ m c E) as R.
    destruct (h_char cf (save_raw cf h c) m c), (h_char cf (save_raw cf h' c) m c); cbn in R; try contradiction.
    + destruct R as [R ->]. apply IH; auto.
    + subst. repeat split; auto.
    + destruct R as (-> & R & ->). destruct consumed0; repeat split; auto.
Qed.
Lemma noraw_nostate h h' : noraw h = noraw h' -> nostate h = nostate h'.
Proof. intros E. destruct h, h'. cbn in *. inversion E; subst. reflexivity. Qed.

Lemma round_frel cf a b m s : frel a b -> out_rel fres (p_round cf a m s) (p_round cf b m s).
Proof.
  intros (A & NS & NH & B & C & D & F & G & H). unfold p_round. rewrite <- A.
  destruct (p_phase a) eqn:PA; try congruence.
  - (* footers *)
    cbn [out_rel]. specialize (H eq_refl). destruct (h_loop_raw cf s _ _ m H) as (R1 & R2 & R3 & R4 & R5).
    unfold parse_headers. rewrite <- R1, <- R2, <- R3, <- R5. repeat split; auto; cbn; try congruence; auto.
    now apply noraw_nostate.
  - (* content *)
    unfold consume_content. rewrite C, D, F. destruct (p_remaining b =? 0).
    + cbn. repeat split; auto; cbn; try congruence; auto.
    + set (n := if p_remaining b <=? zlen s then _ else _). clearbody n. destruct (zlen s <? n); [reflexivity|].
      assert (forall x y m', frel (set_p_remaining (p_remaining b - n) (set_p_content_read (wrap64 (p_content_read b + n)) (set_p_total x (set_p_last n a))))
          (set_p_remaining (p_remaining b - n) (set_p_content_read (wrap64 (p_content_read b + n)) (set_p_total y (set_p_last n b)))) /\ m' = m' :> msg) as K.
      { intros x y m'. split; auto. repeat split; cbn; auto; congruence. }
      destruct (cf_handler cf).
      * cbn. repeat split; auto; cbn; try congruence.
      * destruct (p_content_read b <? cf_max cf).
        -- destruct (cf_max cf <? _); destruct (buf_write _ _ _); cbn [obind fst snd out_rel]; auto; repeat split; auto; cbn; congruence.
        -- cbn. repeat split; auto; cbn; congruence.
  - unfold consume_no_length. rewrite D, F. destruct (cf_handler cf); cbn; repeat split; auto; cbn; congruence.
  - cbv zeta. unfold parse_chunks. rewrite B, D, F.
    set (r := k_loop (length s) cf (p_k b) (m_cache m) (p_payload b) s). clearbody r.
    set (n := used _ _ _). clearbody n. cbn [s_rc s_err s_st s_rest fst snd].
    assert (fres
      (mksub (s_rc r) (s_err r)
         (set_p_content_read (wrap64 (p_content_read b + n)) (set_p_total (wrap64 (p_total a + n)) (set_p_last n
            (if ko_footers (s_st r) then set_p_phase PFooters (set_p_h (goto (p_h (set_p_payload (ko_payload (s_st r)) (set_p_k (ko_k (s_st r)) a))) HHeaderStart) (set_p_payload (ko_payload (s_st r)) (set_p_k (ko_k (s_st r)) a)))
             else set_p_payload (ko_payload (s_st r)) (set_p_k (ko_k (s_st r)) a)))), set_m_cache (ko_cache (s_st r)) m) (s_rest r))
      (mksub (s_rc r) (s_err r)
         (set_p_content_read (wrap64 (p_content_read b + n)) (set_p_total (wrap64 (p_total b + n)) (set_p_last n
            (if ko_footers (s_st r) then set_p_phase PFooters (set_p_h (goto (p_h (set_p_payload (ko_payload (s_st r)) (set_p_k (ko_k (s_st r)) b))) HHeaderStart) (set_p_payload (ko_payload (s_st r)) (set_p_k (ko_k (s_st r)) b)))
             else set_p_payload (ko_payload (s_st r)) (set_p_k (ko_k (s_st r)) b)))), set_m_cache (ko_cache (s_st r)) m) (s_rest r))) as K.
    { destruct (ko_footers (s_st r)); repeat split; cbn; auto; try congruence. }
    destruct (s_rc r) eqn:RC; try exact K. destruct (cf_handler cf); [exact K|].
    destruct (concatenate_chunks _); cbn [obind out_rel]; auto.
    destruct K as (K1 & K2 & K3 & K4 & K5). pose proof (proj1 K5) as P. cbn [s_st fst snd] in P, K5.
    rewrite <- P. repeat split; auto; apply K5.
  - cbn. repeat split; auto; cbn; try congruence.
Qed.

Lemma p_loop_frel cf f : forall a b m s t t', frel a b ->
  out_rel (fun x y => match x, y with Some (r, _), Some (r', _) => fres r r' | None, None => True | _, _ => False end)
    (p_loop f cf a m s t) (p_loop f cf b m s t').
Proof.
  induction f as [|f IH]; intros a b m s t t' E; [exact I|]. rewrite !p_loop_S.
  pose proof (round_frel cf a b m s E) as R.
  destruct (p_round cf a m s) as [r|], (p_round cf b m s) as [r'|]; cbn [obind out_rel] in *; try contradiction; auto.
  pose proof R as (R1 & R2 & R3 & R4 & R5). rewrite <- R1, <- R3, <- R4.
  destruct (s_rc r); [exact R|exact R|]. destruct (s_rest r); [exact R|]. apply IH; auto.
Qed.

(* ------------------------------------------------------------------ running over a head *)

(** the state behind a line with this ending *)
Definition after_eol (e : eol) : hstate := match e with EolCRLF | EolLFCR => HHeaderStart | EolCR => HExpectingNewline | EolLF => HExpectingCR end.

Definition ending (cf : pcfg) (S : hstate) (add : bool) : Prop := forall me re q co rs na va raw m,
  let m' := if add then set_m_headers (d_insert (cf_pos cf) (m_headers m) (na, va)) m else m in
  (forall c, c = 13 -> h_char cf (MkH S me re q co rs na va raw) m c = HCont (MkH HExpectingNewline me re q co rs na va raw) m')
  /\ (forall c, c = 10 -> h_char cf (MkH S me re q co rs na va raw) m c = HCont (MkH HExpectingCR me re q co rs na va raw) m').

Lemma run_eol cf S add e me re q co rs na va raw m : ending cf S add -> (cf_request cf = true -> m_vmaj m <> 0) ->
  hsteps cf (MkH S me re q co rs na va raw) m (eol_bytes e)
    (MkH (after_eol e) me re q co rs na va (rw cf raw (eol_bytes e)))
    (if add then set_m_headers (d_insert (cf_pos cf) (m_headers m) (na, va)) m else m).
Proof.
  intros E HV. pose proof (fun raw => proj1 (E me re q co rs na va raw m)) as E13. pose proof (fun raw => proj2 (E me re q co rs na va raw m)) as E10.
  cbv zeta in *. set (m' := if add then _ else _) in *.
  assert (cf_request cf && (m_vmaj m' =? 0) = false) as V.
  { unfold m'. destruct (cf_request cf); auto. specialize (HV eq_refl). destruct add, m; cbn in *; lia. }
  clearbody m'.
  destruct e; cbn [eol_bytes after_eol].
  - change [13;10] with ([13] ++ [10]). rewrite <- rw_app. eapply hsteps_app.
    + apply hsteps_one. rewrite save_raw_H. apply E13. reflexivity.
    + hone. cbn [Z.eqb Pos.eqb]. rewrite V. reflexivity.
  - apply hsteps_one. rewrite save_raw_H. apply E10. reflexivity.
  - apply hsteps_one. rewrite save_raw_H. apply E13. reflexivity.
  - change [10;13] with ([10] ++ [13]). rewrite <- rw_app. eapply hsteps_app.
    + apply hsteps_one. rewrite save_raw_H. apply E10. reflexivity.
    + hone. reflexivity.
Qed.

Lemma ending_value cf : ending cf HHeaderValue true.
Proof. intros me re q co rs na va raw m. cbv zeta. split; intros c ->; reflexivity. Qed.
Lemma ending_minor cf : cf_request cf = true -> ending cf HVersionMinor false.
Proof. intros R me re q co rs na va raw m. cbv zeta. split; intros c ->; unfold h_char; cbn; rewrite R; reflexivity. Qed.
Lemma ending_reason cf : ending cf HStatusMessage false.
Proof. intros me re q co rs na va raw m. cbv zeta. split; intros c ->; reflexivity. Qed.

Lemma run_request_start cf m na va raw r : cf_request cf = true -> reqline_ok r ->
  hsteps cf (MkH HMethodStart [] [] [] 0 [] na va raw) m (request_start r)
    (MkH HVersionMinor (rl_method r) (rl_resource r) (match rl_query r with Some q => q | None => [] end) 0 [] na va
       (rw cf raw (request_start r))) (set_ver (rl_version r) m).
Proof.
  intros HR (A1 & A2 & A3 & A4 & A5 & A6 & A7 & A8). unfold request_start.
  destruct r as [me re q v]. cbn [rl_method rl_resource rl_query rl_version] in *.
  destruct me as [|c me]; [congruence|]. inversion A2 as [|? ? T1 T2]; subst.
  destruct (token_ok c T1) as (B0 & _ & B1 & B2 & B3 & _).
  change ((c :: me) ++ bs " " ++ re ++ match q with Some q0 => bs "?" ++ q0 | None => [] end ++ bs " " ++ wire_version v)
    with ([c] ++ (me ++ [32] ++ re ++ match q with Some q0 => [63] ++ q0 | None => [] end ++ [32] ++ wire_version v)).
  rewrite zlen_cons in A3. pose proof (zlen_nonneg me).
  rewrite <- !rw_app.
  eapply hsteps_app.
  { hone. replace (c =? 32) with false by lia. replace (c =? 13) with false by lia. replace (c =? 10) with false by lia.
    cbn [negb andb]. rewrite B0. reflexivity. }
  hcbn.
  eapply hsteps_app; [apply acc_method; auto; rewrite zlen_cons, zlen_nil; lia|].
  eapply hsteps_app; [hone; reflexivity|]. hcbn.
  eapply hsteps_app; [apply acc_resource; auto; rewrite zlen_nil; lia|].
  destruct q as [q|].
  - rewrite <- !rw_app. rewrite <- app_assoc. eapply hsteps_app; [hone; reflexivity|]. hcbn.
    destruct A6 as [A6 A6']. eapply hsteps_app; [apply acc_query; auto; rewrite zlen_nil; lia|].
    eapply hsteps_app; [hone; reflexivity|]. hcbn.
    apply run_version; auto.
  - rewrite rw_nil. cbn [app].
    change (32 :: wire_version v) with ([32] ++ wire_version v).
    eapply hsteps_app; [hone; reflexivity|]. hcbn.
    apply run_version; auto.
Qed.

Lemma run_status_start cf m na va raw r : cf_request cf = false -> statline_ok r ->
  hsteps cf (MkH HVersionH [] [] [] 0 [] na va raw) m (status_start r)
    (MkH HStatusMessage [] [] [] (dec_value (sl_code r)) (sl_reason r) na va (rw cf raw (status_start r))) (set_ver (sl_version r) m).
Proof.
  intros HR (A1 & A2 & A3 & A4 & A5 & A6). unfold status_start.
  destruct r as [v co rs]. cbn [sl_version sl_code sl_reason] in *.
  destruct co as [|c co]; [congruence|]. inversion A3 as [|? ? T1 T2]; subst.
  destruct (is_dec_digit c T1) as (B0 & _).
  change (wire_version v ++ bs " " ++ (c :: co) ++ bs " " ++ rs)
    with (wire_version v ++ ([32] ++ [c] ++ co ++ [32] ++ rs)).
  rewrite dec_value_cons in *. rewrite <- !rw_app.
  assert (0 <= digit_val c) by (unfold is_dec, digit_val in *; lia).
  eapply hsteps_app; [apply run_version; auto|].
  eapply hsteps_app; [hone; cbn; rewrite HR; reflexivity|]. hcbn.
  eapply hsteps_app; [hone; rewrite B0; reflexivity|]. hcbn.
  eapply hsteps_app; [apply acc_code; auto|].
  eapply hsteps_app; [hone; reflexivity|]. hcbn.
  apply acc_reason; auto; rewrite zlen_nil; lia.
Qed.

Definition between (S : hstate) : Prop := S = HHeaderStart \/ S = HExpectingNewline \/ S = HExpectingCR.
Lemma between_after e : between (after_eol e).
Proof. destruct e; unfold between; cbn; auto. Qed.

Lemma run_hdr_eol cf S m me re q co rs na va raw p e : between S -> hdr_ok p -> (cf_request cf = true -> m_vmaj m <> 0) ->
  hsteps cf (MkH S me re q co rs na va raw) m (header_start p ++ eol_bytes e)
    (MkH (after_eol e) me re q co rs (fst p) (snd p) (rw cf raw (header_start p ++ eol_bytes e))) (set_m_headers (d_insert (cf_pos cf) (m_headers m) p) m).
Proof.
  intros BS (A1 & A2 & A3 & A4 & A5) HV. destruct p as [n v]. cbn [fst snd] in *. unfold header_start. cbn [fst snd].
  destruct n as [|c n]; [congruence|]. inversion A2 as [|? ? T1 T2]; subst.
  destruct (token_ok c T1) as (B0 & _ & B1 & B2 & B3 & B4 & B5).
  rewrite zlen_cons in A3. pose proof (zlen_nonneg n).
  replace (((c :: n) ++ bs ": " ++ v) ++ eol_bytes e) with ([c] ++ (n ++ [58] ++ [32] ++ v ++ eol_bytes e)) by (cbn; rewrite <- !app_assoc; reflexivity).
  rewrite <- !rw_app.
  eapply hsteps_app.
  { destruct BS as [-> |[-> | ->]]; hone; replace (c =? 13) with false by lia; replace (c =? 10) with false by lia; replace (c =? 9) with false by lia;
    replace (c =? 32) with false by lia; cbn [orb]; rewrite B0; reflexivity. }
  hcbn.
  eapply hsteps_app; [apply acc_name; auto; rewrite zlen_cons, zlen_nil; lia|].
  eapply hsteps_app; [hone; reflexivity|]. hcbn.
  eapply hsteps_app; [hone; reflexivity|]. hcbn.
  eapply hsteps_app; [apply acc_value; auto; rewrite zlen_nil; lia|].
  exact (run_eol cf HHeaderValue true e me re q co rs ([c] ++ n) ([] ++ v) _ m (ending_value cf) HV).
Qed.

Lemma run_hdrs_eol cf me re q co rs : forall l e m na va raw, Forall hdr_ok (map fst l) -> (cf_request cf = true -> m_vmaj m <> 0) ->
  hsteps cf (MkH (after_eol e) me re q co rs na va raw) m (wire_hdrs_eol l)
    (MkH (after_eol (last (map snd l) e)) me re q co rs (fst (last_hdr na va (map fst l))) (snd (last_hdr na va (map fst l))) (rw cf raw (wire_hdrs_eol l))) (ins_all cf m (map fst l)).
Proof.
  induction l as [|[p e1] l IH]; intros e m na va raw HF HV.
  - unfold wire_hdrs_eol, ins_all. cbn. rewrite rw_nil. replace (set_m_headers (m_headers m) m) with m by (destruct m; auto). apply hsteps_nil.
  - cbn [map fst snd] in *. change (wire_hdrs_eol ((p, e1) :: l)) with ((header_start p ++ eol_bytes e1) ++ wire_hdrs_eol l). rewrite <- rw_app.
    eapply hsteps_app; [apply run_hdr_eol; auto using between_after; apply (Forall_inv HF)|].
    replace (ins_all cf m (p :: map fst l)) with (ins_all cf (set_m_headers (d_insert (cf_pos cf) (m_headers m) p) m) (map fst l)) by (unfold ins_all; destruct m; reflexivity).
    replace (last_hdr na va (p :: map fst l)) with (last_hdr (fst p) (snd p) (map fst l)).
    + replace (last (e1 :: map snd l) e) with (last (map snd l) e1) by (destruct l as [|x l]; auto; transitivity (last (map snd (x :: l)) e); [apply last_default; discriminate|reflexivity]).
      apply IH; auto. apply (Forall_inv_tail HF).
    + unfold last_hdr. destruct p. cbn [fst snd]. destruct (map fst l) as [|h l']; auto. transitivity (last (h :: l') (na, va)); [apply last_default; discriminate|reflexivity].
Qed.

(** the empty line *)
Lemma h_loop_done_eol cf m e ef me re q co rs na va raw s : end_ok e ef s -> (cf_request cf = true -> m_vmaj m <> 0) ->
  exists S raw', h_loop cf (MkH (after_eol e) me re q co rs na va raw) m (eol_bytes ef ++ s) =
  mksub TTrue None (MkH S me re q co rs na va raw', m) s.
Proof.
  intros HE HV.
  assert (cf_request cf && (m_vmaj m =? 0) = false) as V by (destruct (cf_request cf); auto; specialize (HV eq_refl); lia).
  assert (forall S c t, h_loop cf (MkH S me re q co rs na va raw) m (c :: t) =
    match h_char cf (MkH S me re q co rs na va (rw cf raw [c])) m c with
    | HCont h2 m2 => h_loop cf h2 m2 t
    | HFail er => mksub TFalse (Some er) (MkH S me re q co rs na va (rw cf raw [c]), m) (c :: t)
    | HDone b h2 m2 => mksub TTrue None (h2, m2) (if b then t else c :: t)
    end) as ST.
  { intros. cbn [h_loop]. rewrite save_raw_H. destruct (h_char _ _ _ _); auto. destruct consumed; auto. }
  assert (forall S raw c t, h_loop cf (MkH S me re q co rs na va raw) m (c :: t) =
    match h_char cf (MkH S me re q co rs na va (rw cf raw [c])) m c with
    | HCont h2 m2 => h_loop cf h2 m2 t
    | HFail er => mksub TFalse (Some er) (MkH S me re q co rs na va (rw cf raw [c]), m) (c :: t)
    | HDone b h2 m2 => mksub TTrue None (h2, m2) (if b then t else c :: t)
    end) as ST2.
  { intros. cbn [h_loop]. rewrite save_raw_H. destruct (h_char _ _ _ _); auto. destruct consumed; auto. }
  destruct e, ef; cbn in HE; try contradiction; cbn [eol_bytes after_eol app]; rewrite ST.
  all: unfold h_char at 1; cbn [h_state Z.eqb Pos.eqb]; try (do 2 eexists; reflexivity); hcbn.
  all: try (rewrite ST2; unfold h_char; cbn [h_state Z.eqb Pos.eqb]; do 2 eexists; reflexivity).
  all: destruct s as [|x s]; [contradiction|]; rewrite ST2; unfold h_char; cbn [h_state].
  all: first [replace (x =? 10) with false by lia|replace (x =? 13) with false by lia]; do 2 eexists; reflexivity.
Qed.

Lemma head_loop_eol cf m hd e0 es ef s : head_ok cf hd -> List.length es = List.length (hdrs_of hd) -> end_ok (last es e0) ef s ->
  exists h, h_loop cf (h_init cf) m (wire_head_eol hd e0 es ef ++ s) = mksub TTrue None (h, head_m1 cf m hd) s
            /\ nostate h = nostate (head_h cf hd).
Proof.
  intros HO HL HE. unfold wire_head_eol, h_init.
  assert (map fst (combine (hdrs_of hd) es) = hdrs_of hd) as M1.
  { clear - HL. revert es HL. generalize (hdrs_of hd). induction l as [|p l IH]; intros es HL; destruct es as [|e es]; try discriminate; auto. cbn. f_equal. apply IH. auto. }
  assert (map snd (combine (hdrs_of hd) es) = es) as M2.
  { clear - HL. revert es HL. generalize (hdrs_of hd). induction l as [|p l IH]; intros es HL; destruct es as [|e es]; try discriminate; auto. cbn. f_equal. apply IH. auto. }
  destruct hd as [r l|r l]; cbn [hdrs_of] in *; destruct HO as (R & A & B); rewrite R; rewrite <- !app_assoc.
  - assert (cf_request cf = true -> m_vmaj (set_ver (rl_version r) m) <> 0) as HV.
    { intros _. destruct A as (_ & _ & _ & _ & _ & _ & _ & A). unfold set_ver. destruct m; cbn. lia. }
    rewrite (run_request_start cf m [] [] [] r R A). 
    rewrite (run_eol cf _ false e0 _ _ _ _ _ _ _ _ _ (ending_minor cf R) HV).
    rewrite run_hdrs_eol by (rewrite ?M1; auto). rewrite M1, M2.
    edestruct (h_loop_done_eol cf (ins_all cf (set_ver (rl_version r) m) l) (last es e0) ef) as (S & raw' & E); [exact HE| |rewrite E; eexists; split; reflexivity].
    intros _. specialize (HV R). unfold ins_all. destruct m; cbn in *; auto.
  - assert (cf_request cf = true -> m_vmaj (set_ver (sl_version r) m) <> 0) as HV by (intros X; congruence).
    rewrite (run_status_start cf m [] [] [] r R A). 
    rewrite (run_eol cf _ false e0 _ _ _ _ _ _ _ _ _ (ending_reason cf) HV).
    rewrite run_hdrs_eol by (rewrite ?M1; auto). rewrite M1, M2.
    edestruct (h_loop_done_eol cf (ins_all cf (set_ver (sl_version r) m) l) (last es e0) ef) as (S & raw' & E); [exact HE|congruence|rewrite E; eexists; split; reflexivity].
Qed.

Lemma finish_headers_frel cf a b m : p_phase a = PHeaders -> p_phase b = PHeaders -> p_k a = p_k b -> p_payload a = p_payload b -> nostate (p_h a) = nostate (p_h b) ->
  out_rel (fun x y => fst x = fst y /\ snd (snd x) = snd (snd y) /\ (fst (fst x) = TFalse \/ frel (fst (snd x)) (fst (snd y)))) (finish_headers cf a m) (finish_headers cf b m).
Proof.
  intros PA PB EK EP EH. unfold finish_headers.
  assert (forall mm, update_message cf (p_h a) mm = update_message cf (p_h b) mm) as U.
  { intros mm. unfold update_message. destruct (p_h a), (p_h b). cbn in EH |- *. inversion EH; subst. reflexivity. }
  rewrite U. set (m0 := update_message cf (p_h b) _). clearbody m0.
  assert (forall ph rem, ph <> PStart -> ph <> PHeaders -> ph <> PFooters -> frel (set_p_remaining rem (set_p_phase ph (set_p_remaining 0 (set_p_content_read 0 a))))
     (set_p_remaining rem (set_p_phase ph (set_p_remaining 0 (set_p_content_read 0 b))))) as S0.
  { intros. repeat split; cbn; auto. congruence. }
  assert (forall ph, ph <> PStart -> ph <> PHeaders -> ph <> PFooters -> frel (set_p_phase ph (set_p_remaining 0 (set_p_content_read 0 a)))
     (set_p_phase ph (set_p_remaining 0 (set_p_content_read 0 b)))) as S1.
  { intros. repeat split; cbn; auto. congruence. }
  destruct (m_chunked m0); [cbn; repeat split; auto; right; apply S1; discriminate|].
  destruct (is_content_length_implied _ _); [cbn; repeat split; auto; right; apply S1; discriminate|].
  destruct (d_has _ _).
  - destruct (update_content_length m0) as [m1|]; [|cbn; repeat split; auto]. destruct (m_clen m1 =? 0); [cbn; repeat split; auto; right; apply S1; discriminate|].
    destruct (cf_headers_only cf); [cbn; repeat split; auto; right; apply S0; discriminate|].
    destruct (create_content_buffer _); cbn; repeat split; auto; right; apply S0; discriminate.
  - destruct (cf_request cf); cbn; repeat split; auto; right; apply S1; discriminate.
Qed.

Definition reading0 (a b : outcome (option presult)) : Prop := match a, b with Ok None, Ok None => True | _, _ => same_reading a b end.
(** bytes that leave what the head [hd] leaves are read like it *)
Lemma like_head_parse0 cf m hd w s : head_ok cf hd ->
  (let m0 := if m_missing m then set_m_after true m else m in exists h, h_loop cf (h_init cf) m0 (w ++ s) = mksub TTrue None (h, head_m1 cf m0 hd) s /\ nostate h = nostate (head_h cf hd)) ->
  reading0 (parse cf (p_init cf) m (w ++ s)) (parse cf (p_init cf) m (wire_head hd ++ s)).
Proof.
  intros HO HL. unfold parse. cbv zeta in *. set (m0 := if m_missing m then _ else _) in *. clearbody m0.
  rewrite !p_loop_S, head_round by auto.
  destruct HL as (h & HLp & HS).
  assert (exists st, p_round cf (p_init cf) m0 (w ++ s) =
    obind (finish_headers cf st (head_m1 cf m0 hd)) (fun x => match x with (rc, e, stm) => Ok (mksub rc e stm s) end)
    /\ p_phase st = PHeaders /\ p_k st = k_init /\ p_payload st = [] /\ p_h st = h) as (st & E & S1 & S2 & S3 & S4).
  { unfold p_round. cbn [p_phase p_init]. unfold parse_headers. change (p_h (set_p_phase PHeaders (p_init cf))) with (h_init cf). rewrite HLp. cbn [s_rc s_st s_rest s_err fst snd].
    eexists. split; [reflexivity|]. cbn. auto. }
  rewrite E.
  pose proof (finish_headers_frel cf st (head_st cf hd) (head_m1 cf m0 hd) S1 eq_refl S2 S3 ltac:(rewrite S4; exact HS)) as FH.
  destruct (finish_headers cf st (head_m1 cf m0 hd)) as [[[rc er] [sa ma]]|], (finish_headers cf (head_st cf hd) (head_m1 cf m0 hd)) as [[[rc' er'] [sb mb]]|];
    cbn [out_rel fst snd] in FH; try contradiction; cbn [obind]; [|cbn; auto].
  destruct FH as (F1 & F2 & F3). injection F1 as -> ->. subst mb. cbn [s_rc s_st s_rest s_err fst snd].
  assert (out_rel (fun x y => match x, y with Some (r, _), Some (r', _) => s_rc r = s_rc r' /\ s_err r = s_err r' /\ s_rest r = s_rest r' /\ snd (s_st r) = snd (s_st r') /\ (s_rc r = TFalse \/ frel (fst (s_st r)) (fst (s_st r'))) | None, None => True | _, _ => False end)
    (match rc', s with TIndet, _ :: _ => p_loop 3 cf sa ma s (0 + round_bytes (p_init cf) sa) | _, _ => Ok (Some (mksub rc' er' (sa, ma) s, 0 + round_bytes (p_init cf) sa)) end)
    (match rc', s with TIndet, _ :: _ => p_loop 3 cf sb ma s (0 + round_bytes (p_init cf) sb) | _, _ => Ok (Some (mksub rc' er' (sb, ma) s, 0 + round_bytes (p_init cf) sb)) end)) as PL.
  { destruct rc'; [cbn; repeat split; auto|cbn; repeat split; auto|].
    destruct F3 as [F3|F3]; [discriminate|]. destruct s as [|c s']; [cbn; repeat split; auto|].
    pose proof (p_loop_frel cf 3 sa sb ma (c :: s') (0 + round_bytes (p_init cf) sa) (0 + round_bytes (p_init cf) sb) F3) as PL.
    destruct (p_loop 3 cf sa ma _ _) as [[[r t]|]|], (p_loop 3 cf sb ma _ _) as [[[r' t']|]|]; cbn [out_rel] in *; try contradiction; auto.
    destruct PL as (A1 & A2 & A3 & A4 & A5). repeat split; auto. }
  match goal with |- reading0 (obind ?x _) (obind ?y _) => set (X := x) in PL |- *; set (Y := y) in PL |- * end. clearbody X Y.
  destruct X as [[[r t]|]|], Y as [[[r' t']|]|]; cbn [out_rel obind] in *; try contradiction; auto; try exact I.
  destruct PL as (A1 & A2 & A3 & A4 & A5). rewrite <- A1, <- A2, <- A3, <- A4. destruct (s_rc r).
  - rewrite (finish_end cf _ (fst (s_st r'))). destruct (finish _ _ _); cbn; auto. repeat split; auto.
    destruct A5 as [A5|A5]; [discriminate|]. destruct A5 as (_ & _ & _ & _ & _ & _ & A5 & _). intros _. exact A5.
  - cbn. repeat split; auto. congruence.
  - cbn. repeat split; auto. destruct A5 as [A5|A5]; [discriminate|]. destruct A5 as (_ & _ & _ & _ & _ & _ & A5 & _). intros _. exact A5.
Qed.

Lemma like_head_parse cf m hd w s : 0 <= cf_max cf -> head_ok cf hd ->
  (forall m, exists h, h_loop cf (h_init cf) m (w ++ s) = mksub TTrue None (h, head_m1 cf m hd) s /\ nostate h = nostate (head_h cf hd)) ->
  same_reading (parse cf (p_init cf) m (w ++ s)) (parse cf (p_init cf) m (wire_head hd ++ s)).
Proof.
  intros HM HO HL. pose proof (like_head_parse0 cf m hd w s HO (HL _)) as R.
  pose proof (parse_some cf (p_init cf) m (wire_head hd ++ s) (p_init_pinv cf m HM)) as N.
  destruct (parse cf (p_init cf) m (w ++ s)) as [[x|]|], (parse cf (p_init cf) m (wire_head hd ++ s)) as [[y|]|]; cbn in R |- *; auto.
Qed.
Lemma wire_head_eol_parse cf m hd e0 es ef s : 0 <= cf_max cf -> head_ok cf hd -> List.length es = List.length (hdrs_of hd) -> end_ok (last es e0) ef s ->
  same_reading (parse cf (p_init cf) m (wire_head_eol hd e0 es ef ++ s)) (parse cf (p_init cf) m (wire_head hd ++ s)).
Proof.
  intros HM HO HL HE. apply like_head_parse; auto. intros m1. apply head_loop_eol; auto.
Qed.
