(** Header lines with blanks in other places; requests without a version. *)
From Coq Require Import String ZArith List Lia Bool.
From Verif Require Import Base Digits AlgModel FormModel DictModel MultipartModel HttpModel HttpBase HttpSplit HttpSpec HttpProofs HttpHead HttpBody HttpReset HttpLimits EolSpec HttpEol SoundSpec HttpSound FoldSpec.
Import ListNotations.

Local Arguments zlen : simpl never.
Local Arguments Z.add : simpl never.
Local Arguments Z.sub : simpl never.
Local Arguments Z.modulo : simpl never.

Ltac blankcase H := destruct H as [H|H]; subst.
Lemma acc_ws cf m me re q co rs na va : forall s raw, blanks s ->
  hsteps cf (MkH HHeaderWhitespace me re q co rs na va raw) m s (MkH HHeaderWhitespace me re q co rs na va (rw cf raw s)) m.
Proof.
  induction s as [|c s IH]; intros raw HB; [rewrite rw_nil; apply hsteps_nil|]. inversion HB as [|? ? B1 B2]; subst.
  change (c :: s) with ([c] ++ s). rewrite <- rw_app. eapply hsteps_app; [|apply IH; exact B2]. destruct B1 as [-> | ->]; hone; reflexivity.
Qed.
Lemma start_ws cf m me re q co rs na va raw s : s <> [] -> blanks s ->
  hsteps cf (MkH HHeaderStart me re q co rs na va raw) m s (MkH HHeaderWhitespace me re q co rs na va (rw cf raw s)) m.
Proof.
  destruct s as [|c s]; [congruence|]. intros _ HB. inversion HB as [|? ? B1 B2]; subst. change (c :: s) with ([c] ++ s). rewrite <- rw_app.
  eapply hsteps_app; [|apply acc_ws; exact B2]. destruct B1 as [-> | ->]; hone; reflexivity.
Qed.
Lemma ending_ws cf : ending cf HHeaderWhitespace false.
Proof. intros me re q co rs na va raw m. cbv zeta. split; intros c ->; reflexivity. Qed.
Lemma ending_space cf : ending cf HSpaceBeforeValue true.
Proof. intros me re q co rs na va raw m. cbv zeta. split; intros c ->; reflexivity. Qed.
Lemma run_empty_lines cf m me re q co rs na va raw e : empty_lines e -> (cf_request cf = true -> m_vmaj m <> 0) ->
  hsteps cf (MkH HHeaderStart me re q co rs na va raw) m e (MkH HHeaderStart me re q co rs na va (rw cf raw e)) m.
Proof.
  intros (ls & HF & ->) HV. revert raw. induction HF as [|l ls [H1 H2] HF IH]; intros raw; [cbn; rewrite rw_nil; apply hsteps_nil|].
  cbn [map concat]. rewrite <- !rw_app. rewrite <- app_assoc. eapply hsteps_app; [apply start_ws; auto|].
  eapply hsteps_app; [exact (run_eol cf HHeaderWhitespace false EolCRLF me re q co rs na va _ m (ending_ws cf) HV)|]. cbn [after_eol]. apply IH.
Qed.
Lemma run_name cf S m me re q co rs na va raw n : S = HHeaderStart \/ S = HHeaderWhitespace -> n <> [] -> Forall token_char n -> zlen n <= 1024 ->
  hsteps cf (MkH S me re q co rs na va raw) m n (MkH HHeaderName me re q co rs n va (rw cf raw n)) m.
Proof.
  intros HS NE A2 A3. destruct n as [|c n]; [congruence|]. inversion A2 as [|? ? T1 T2]; subst. destruct (token_ok c T1) as (B0 & _ & B1 & B2 & B3 & B4 & B5).
  rewrite zlen_cons in A3. pose proof (zlen_nonneg n). change (c :: n) with ([c] ++ n) at 1. change (MkH HHeaderName me re q co rs (c :: n)) with (MkH HHeaderName me re q co rs ([c] ++ n)).
  replace (rw cf raw (c :: n)) with (rw cf (rw cf raw [c]) n) by (rewrite rw_app; reflexivity).
  eapply hsteps_app.
  { destruct HS as [-> | ->]; hone; replace (c =? 13) with false by lia; replace (c =? 10) with false by lia; replace (c =? 9) with false by lia;
    replace (c =? 32) with false by lia; cbn [orb negb andb]; rewrite B0; reflexivity. }
  hcbn. apply acc_name; auto; rewrite zlen_cons, zlen_nil; lia.
Qed.
Lemma run_lax_hdr cf m me re q co rs na va raw p w : hdr_ok p -> lax_hdr p w -> (cf_request cf = true -> m_vmaj m <> 0) ->
  hsteps cf (MkH HHeaderStart me re q co rs na va raw) m w
    (MkH HHeaderStart me re q co rs (fst p) (snd p) (rw cf raw w)) (set_m_headers (d_insert (cf_pos cf) (m_headers m) p) m).
Proof.
  intros (A1 & A2 & A3 & A4 & A5) (e & b & v & HE & HB & -> & HV) HM. destruct p as [n x]. cbn [fst snd] in *. rewrite <- !rw_app.
  eapply hsteps_app; [apply run_empty_lines; auto|].
  eapply hsteps_app with (h1 := MkH (match b with [] => HHeaderStart | _ => HHeaderWhitespace end) me re q co rs na va (rw cf (rw cf raw e) b)) (m1 := m).
  { destruct b as [|c b]; [rewrite rw_nil; apply hsteps_nil|]. apply start_ws; [discriminate|exact HB]. }
  eapply hsteps_app; [apply run_name; auto; destruct b; auto|].
  change (bs ":") with [58]. eapply hsteps_app; [hone; reflexivity|]. hcbn.
  destruct HV as [-> |[-> HV]].
  - change (bs " ") with [32]. rewrite <- app_assoc. rewrite <- !rw_app. eapply hsteps_app; [hone; reflexivity|]. hcbn.
    eapply hsteps_app; [apply acc_value; auto; rewrite zlen_nil; lia|].
    exact (run_eol cf HHeaderValue true EolCRLF me re q co rs n ([] ++ x) _ m (ending_value cf) HM).
  - destruct x as [|c x].
    + rewrite rw_nil. exact (run_eol cf HSpaceBeforeValue true EolCRLF me re q co rs n [] _ m (ending_space cf) HM).
    + destruct (token_ok c HV) as (B0 & _ & B1 & B2 & B3 & B4 & B5). inversion A4 as [|? ? V1 V2]; subst. rewrite zlen_cons in A5.
      change (c :: x) with ([c] ++ x). rewrite <- app_assoc. rewrite <- !rw_app. eapply hsteps_app.
      { hone. replace (c =? 32) with false by lia. replace (c =? 13) with false by lia. replace (c =? 10) with false by lia. rewrite B0. reflexivity. }
      hcbn. eapply hsteps_app; [apply acc_value; auto; rewrite zlen_cons, zlen_nil; lia|].
      exact (run_eol cf HHeaderValue true EolCRLF me re q co rs n ([c] ++ x) _ m (ending_value cf) HM).
Qed.
Lemma run_lax_hdrs cf me re q co rs : forall l ws, Forall2 lax_hdr l ws -> forall m na va raw, Forall hdr_ok l -> (cf_request cf = true -> m_vmaj m <> 0) ->
  hsteps cf (MkH HHeaderStart me re q co rs na va raw) m (concat ws)
    (MkH HHeaderStart me re q co rs (fst (last_hdr na va l)) (snd (last_hdr na va l)) (rw cf raw (concat ws))) (ins_all cf m l).
Proof.
  induction 1 as [|p w l ws HW HF IH]; intros m na va raw HO HV.
  - unfold ins_all. cbn. rewrite rw_nil. replace (set_m_headers (m_headers m) m) with m by (destruct m; auto). apply hsteps_nil.
  - inversion HO; subst. cbn [concat]. rewrite <- rw_app.
    eapply hsteps_app; [apply run_lax_hdr; eauto|].
    replace (ins_all cf m (p :: l)) with (ins_all cf (set_m_headers (d_insert (cf_pos cf) (m_headers m) p) m) l) by (unfold ins_all; destruct m; reflexivity).
    replace (last_hdr na va (p :: l)) with (last_hdr (fst p) (snd p) l); [apply IH; auto|].
    unfold last_hdr. destruct p. cbn [fst snd]. destruct l as [|h l']; auto. transitivity (last (h :: l') (na, va)); [apply last_default; discriminate|reflexivity].
Qed.

(** up to the headers *)
Lemma run_heads cf m hd l ws : head_ok cf hd -> Forall hdr_ok l -> Forall2 lax_hdr l ws ->
  exists me re q co rs raw, hsteps cf (h_init cf) m (first_line_of hd ++ concat ws)
      (MkH HHeaderStart me re q co rs (fst (last_hdr [] [] l)) (snd (last_hdr [] [] l)) raw) (ins_all cf (set_ver (head_ver hd) m) l)
    /\ (cf_request cf = true -> m_vmaj (ins_all cf (set_ver (head_ver hd) m) l) <> 0)
    /\ (l = hdrs_of hd -> forall S raw', nostate (MkH S me re q co rs (fst (last_hdr [] [] l)) (snd (last_hdr [] [] l)) raw') = nostate (head_h cf hd)).
Proof.
  intros HO FL HW. unfold h_init. destruct hd as [r l0|r l0]; cbn [first_line_of head_ver hdrs_of] in *; destruct HO as (R & A & _); rewrite R.
  - assert (cf_request cf = true -> m_vmaj (set_ver (rl_version r) m) <> 0) as HV.
    { intros _. destruct A as (_ & _ & _ & _ & _ & _ & _ & A). unfold set_ver. destruct m; cbn. lia. }
    do 6 eexists. split; [eapply hsteps_app; [apply (run_reqline cf m [] [] [] r R A)|apply run_lax_hdrs; auto]|]. split.
    + intros _. specialize (HV R). unfold ins_all. destruct m; exact HV.
    + intros -> S raw'. reflexivity.
  - assert (cf_request cf = true -> m_vmaj (set_ver (sl_version r) m) <> 0) as HV by (intros X; congruence).
    do 6 eexists. split; [eapply hsteps_app; [apply (run_statline cf m [] [] [] r R A)|apply run_lax_hdrs; auto]|]. split; [discriminate|].
    intros -> S raw'. reflexivity.
Qed.
Lemma fold_loop cf m hd w s : head_ok cf hd -> lax_headers hd w ->
  exists h, h_loop cf (h_init cf) m (w ++ s) = mksub TTrue None (h, head_m1 cf m hd) s /\ nostate h = nostate (head_h cf hd).
Proof.
  intros HO (ws & e & HW & HE & ->).
  assert (FL : Forall hdr_ok (hdrs_of hd)) by (destruct hd; apply HO).
  destruct (run_heads cf m hd (hdrs_of hd) ws HO FL HW) as (me & re & q & co & rs & raw & HS & HV & HN).
  replace ((first_line_of hd ++ concat ws ++ e ++ CRLF) ++ s) with ((first_line_of hd ++ concat ws) ++ e ++ CRLF ++ s) by (rewrite <- !app_assoc; reflexivity).
  rewrite HS. rewrite run_empty_lines by auto. rewrite h_loop_done. eexists. split; [reflexivity|]. apply HN. reflexivity.
Qed.

(* ------------------------------------------------------------------ refusals *)
Lemma parse_error cf m s h m' e rest : h_loop cf (h_init cf) m s = mksub TFalse (Some e) (h, m') rest -> m_missing m = false ->
  exists r, parse cf (p_init cf) m s = Ok (Some r) /\ r_rc r = TFalse /\ r_err r = Some e.
Proof.
  intros E MM. unfold parse. rewrite MM. assert (exists st2, p_round cf (p_init cf) m s = Ok (mksub TFalse (Some e) (st2, m') rest)) as (st2 & R).
  { unfold p_round. cbn [p_phase p_init]. unfold parse_headers. change (p_h (set_p_phase PHeaders (p_init cf))) with (h_init cf). rewrite E. cbn [s_rc s_st s_rest s_err fst snd].
    eexists. reflexivity. }
  cbn [p_loop]. rewrite R. cbn [obind s_rc s_rest s_st fst snd s_err]. eexists. split; [reflexivity|]. cbn. auto.
Qed.
Lemma bad_of c : is_byte c -> ~ token_char c -> bad_token c = true.
Proof. intros B N. destruct (bad_token c) eqn:E; auto. elim N. apply token_of; auto. Qed.
Lemma not_a_header cf m hd l ws b t c more : m_missing m = false -> head_ok cf hd -> Forall hdr_ok l -> Forall2 lax_hdr l ws -> blanks b -> t <> [] -> Forall token_char t -> zlen t <= 1024 ->
  is_byte c -> ~ token_char c -> c <> 58 ->
  exists r, parse cf (p_init cf) m (first_line_of hd ++ concat ws ++ b ++ t ++ c :: more) = Ok (Some r) /\ r_rc r = TFalse /\ r_err r = Some E_HEADER_CHAR.
Proof.
  intros MM HO FL HW HB NT HT LT BC NC N58. destruct (run_heads cf m hd l ws HO FL HW) as (me & re & q & co & rs & raw & HS & HV & _).
  assert (exists h m' rest, h_loop cf (h_init cf) m (first_line_of hd ++ concat ws ++ b ++ t ++ c :: more) = mksub TFalse (Some E_HEADER_CHAR) (h, m') rest) as (h & m' & rest & E).
  { rewrite app_assoc, HS. set (m1 := ins_all _ _ _). clearbody m1.
    assert (exists S raw', (S = HHeaderStart \/ S = HHeaderWhitespace) /\ hsteps cf (MkH HHeaderStart me re q co rs (fst (last_hdr [] [] l)) (snd (last_hdr [] [] l)) raw) m1 b
      (MkH S me re q co rs (fst (last_hdr [] [] l)) (snd (last_hdr [] [] l)) raw') m1) as (S & raw' & S1 & S2).
    { destruct b as [|x b]; [do 2 eexists; split; [left; reflexivity|apply hsteps_nil]|]. do 2 eexists. split; [right; reflexivity|apply start_ws; [discriminate|exact HB]]. }
    rewrite S2. rewrite run_name by auto. cbn [h_loop]. rewrite save_raw_H. unfold h_char at 1. cbn [h_state]. change (ch ":") with 58.
    replace (c =? 58) with false by lia. rewrite (bad_of c BC NC). eauto. }
  eapply parse_error; eauto.
Qed.
Lemma no_value cf m hd l ws b t c more : m_missing m = false -> head_ok cf hd -> Forall hdr_ok l -> Forall2 lax_hdr l ws -> blanks b -> t <> [] -> Forall token_char t -> zlen t <= 1024 ->
  is_byte c -> ~ token_char c -> c <> 32 -> c <> 13 -> c <> 10 ->
  exists r, parse cf (p_init cf) m (first_line_of hd ++ concat ws ++ b ++ t ++ bs ":" ++ c :: more) = Ok (Some r) /\ r_rc r = TFalse /\ r_err r = Some E_HEADER_CHAR.
Proof.
  intros MM HO FL HW HB NT HT LT BC NC N1 N2 N3. destruct (run_heads cf m hd l ws HO FL HW) as (me & re & q & co & rs & raw & HS & HV & _).
  assert (exists h m' rest, h_loop cf (h_init cf) m (first_line_of hd ++ concat ws ++ b ++ t ++ bs ":" ++ c :: more) = mksub TFalse (Some E_HEADER_CHAR) (h, m') rest) as (h & m' & rest & E).
  { rewrite app_assoc, HS. set (m1 := ins_all _ _ _). clearbody m1.
    assert (exists S raw', (S = HHeaderStart \/ S = HHeaderWhitespace) /\ hsteps cf (MkH HHeaderStart me re q co rs (fst (last_hdr [] [] l)) (snd (last_hdr [] [] l)) raw) m1 b
      (MkH S me re q co rs (fst (last_hdr [] [] l)) (snd (last_hdr [] [] l)) raw') m1) as (S & raw' & S1 & S2).
    { destruct b as [|x b]; [do 2 eexists; split; [left; reflexivity|apply hsteps_nil]|]. do 2 eexists. split; [right; reflexivity|apply start_ws; [discriminate|exact HB]]. }
    rewrite S2. rewrite run_name by auto. change (bs ":" ++ c :: more) with (58 :: c :: more). cbn [h_loop]. rewrite save_raw_H. unfold h_char at 1. cbn [h_state]. change (ch ":") with 58. cbn [Z.eqb Pos.eqb]. hcbn.
    rewrite save_raw_H. unfold h_char at 1. cbn [h_state].
    replace (c =? 32) with false by lia. replace (c =? 13) with false by lia. replace (c =? 10) with false by lia. rewrite (bad_of c BC NC). eauto. }
  eapply parse_error; eauto.
Qed.

(* ------------------------------------------------------------------ requests without a version *)
Lemma run_simple cf m raw r : reqline_ok r -> exists S raw', (S = HUriStem \/ S = HUriQuery) /\
  hsteps cf (MkH HMethodStart [] [] [] 0 [] [] [] raw) m (simple_line r)
    (MkH S (rl_method r) (rl_resource r) (match rl_query r with Some q => q | None => [] end) 0 [] [] [] raw') m.
Proof.
  intros (A1 & A2 & A3 & A4 & A5 & A6 & A7 & A8). unfold simple_line.
  destruct r as [me re q v]. cbn [rl_method rl_resource rl_query rl_version] in *.
  destruct me as [|c me]; [congruence|]. inversion A2 as [|? ? T1 T2]; subst.
  destruct (token_ok c T1) as (B0 & _ & B1 & B2 & B3 & _).
  change ((c :: me) ++ bs " " ++ re ++ match q with Some q0 => bs "?" ++ q0 | None => [] end)
    with ([c] ++ (me ++ [32] ++ re ++ match q with Some q0 => [63] ++ q0 | None => [] end)).
  rewrite zlen_cons in A3. pose proof (zlen_nonneg me).
  assert (ST : hsteps cf (MkH HMethodStart [] [] [] 0 [] [] [] raw) m ([c] ++ me ++ [32] ++ re) (MkH HUriStem (c :: me) re [] 0 [] [] [] (rw cf (rw cf (rw cf (rw cf raw [c]) me) [32]) re)) m).
  { eapply hsteps_app.
    { hone. replace (c =? 32) with false by lia. replace (c =? 13) with false by lia. replace (c =? 10) with false by lia. cbn [negb andb]. rewrite B0. reflexivity. }
    hcbn. eapply hsteps_app; [apply acc_method; auto; rewrite zlen_cons, zlen_nil; lia|].
    eapply hsteps_app; [hone; reflexivity|]. hcbn. change (c :: me) with ([c] ++ me).
    change (MkH HUriStem ([c] ++ me) re) with (MkH HUriStem ([c] ++ me) ([] ++ re)). apply acc_resource; auto; rewrite zlen_nil; lia. }
  destruct q as [q|].
  - exists HUriQuery, (rw cf (rw cf (rw cf (rw cf (rw cf (rw cf raw [c]) me) [32]) re) [63]) q). split; [auto|].
    replace ([c] ++ me ++ [32] ++ re ++ [63] ++ q) with (([c] ++ me ++ [32] ++ re) ++ [63] ++ q) by (rewrite <- !app_assoc; reflexivity).
    eapply hsteps_app; [exact ST|]. eapply hsteps_app; [hone; reflexivity|]. hcbn. destruct A6 as [A6 A6'].
    change q with ([] ++ q) at 2. apply acc_query; auto; rewrite zlen_nil; lia.
  - exists HUriStem, (rw cf (rw cf (rw cf (rw cf raw [c]) me) [32]) re). split; [auto|]. rewrite app_nil_r. exact ST.
Qed.
Lemma simple_loop cf m r more : cf_request cf = true -> reqline_ok r ->
  exists S raw', h_loop cf (h_init cf) m (simple_line r ++ CRLF ++ more) =
    mksub TTrue None (MkH S (rl_method r) (rl_resource r) (match rl_query r with Some q => q | None => [] end) 0 [] [] [] raw', version00 m) more.
Proof.
  intros R RO. unfold h_init. rewrite R. destruct (run_simple cf m [] r RO) as (S & raw' & HS & ST). rewrite ST.
  change (CRLF ++ more) with (13 :: 10 :: more). cbn [h_loop]. rewrite save_raw_H. unfold h_char at 1. cbn [h_state].
  destruct HS as [-> | ->]; cbn [Z.eqb Pos.eqb]; change (ch "?") with 63; cbn [Z.eqb Pos.eqb]; hcbn; rewrite save_raw_H; unfold h_char; cbn [h_state Z.eqb Pos.eqb]; rewrite R;
    (replace (m_vmaj (version00 m) =? 0) with true by (destruct m; reflexivity)); cbn [andb]; eauto.
Qed.

Lemma forms_none cf m : m_headers m = [] -> finish_forms cf m = Ok m.
Proof. intros H. unfold finish_forms. rewrite H. change (d_get [] HEADER_CONTENT_TYPE) with (@nil Z). destruct (_ && _); reflexivity. Qed.
Lemma simple_parse cf m r more : cf_request cf = true -> m_missing m = false -> m_headers m = [] -> reqline_ok r ->
  exists x, parse cf (p_init cf) m (simple_line r ++ CRLF ++ more) = Ok (Some x) /\ r_rc x = TTrue /\ r_err x = None /\ r_rest x = more
    /\ m_valid (r_msg x) = true /\ m_vmaj (r_msg x) = 0 /\ m_vmin (r_msg x) = 0 /\ m_method (r_msg x) = rl_method r /\ m_resource (r_msg x) = rl_resource r
    /\ m_headers (r_msg x) = [] /\ m_clen (r_msg x) = 0.
Proof.
  intros R MM MH RO. destruct (simple_loop cf m r more R RO) as (S & raw & E). unfold parse. rewrite MM. rewrite p_loop_S.
  set (h := MkH S _ _ _ _ _ _ _ raw) in E.
  assert (exists st, p_round cf (p_init cf) m (simple_line r ++ CRLF ++ more) =
    obind (finish_headers cf st (version00 m)) (fun x => match x with (rc, e, stm) => Ok (mksub rc e stm more) end) /\ p_h st = h) as (st & ER & SH).
  { unfold p_round. cbn [p_phase p_init]. unfold parse_headers. change (p_h (set_p_phase PHeaders (p_init cf))) with (h_init cf). rewrite E. cbn [s_rc s_st s_rest s_err fst snd].
    eexists. split; [reflexivity|]. reflexivity. }
  rewrite ER. unfold finish_headers. rewrite SH. set (mu := update_message cf h _).
  assert (H1 : m_headers mu = []) by (subst mu h; unfold update_message; rewrite R; destruct m; cbn in *; subst; destruct (rl_query r) as [[|]|]; reflexivity).
  assert (H2 : m_chunked mu = false) by (subst mu h; unfold update_message; rewrite R; destruct m; cbn in *; subst; destruct (rl_query r) as [[|]|]; reflexivity).
  assert (H3 : m_vmaj mu = 0 /\ m_vmin mu = 0 /\ m_method mu = rl_method r /\ m_resource mu = rl_resource r /\ m_clen mu = 0)
    by (subst mu h; unfold update_message; rewrite R; destruct m; cbn in *; subst; destruct (rl_query r) as [[|]|]; repeat split; reflexivity).
  clearbody mu. rewrite H2, R. cbn [is_content_length_implied]. rewrite H1. change (d_has [] HEADER_CONTENT_LENGTH) with false. cbn [obind s_rc s_rest s_st fst snd s_err].
  unfold finish. cbn [p_phase set_p_phase]. rewrite forms_none by (destruct mu; cbn in *; exact H1). cbn [obind]. eexists. split; [reflexivity|]. cbn [r_rc r_err r_rest r_msg].
  destruct H3 as (A & B & C & D & F). destruct mu. cbn in *. subst. repeat split; auto.
Qed.
