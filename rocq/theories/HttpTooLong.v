(** Fields longer than allowed give an error. *)
From Coq Require Import String ZArith List Lia Bool Permutation.
From Coq Require Import ZifyBool ZifyNat.
From Verif Require Import Base Digits AlgModel FormModel DictModel MultipartModel HttpModel HttpBase HttpSplit HttpSpec HttpProofs HttpHead HttpBody HttpLimits.
Import ListNotations.

Local Arguments zlen : simpl never.
Local Arguments Z.add : simpl never.
Local Arguments Z.sub : simpl never.
Local Arguments used : simpl never.

Definition hfails (cf : pcfg) (h : hdrs) (m : msg) (s : list Z) (e : perr) : Prop :=
  forall more, s_rc (h_loop cf h m (s ++ more)) = TFalse /\ s_err (h_loop cf h m (s ++ more)) = Some e.
Lemma hfails_app cf h m a h1 m1 b e : hsteps cf h m a h1 m1 -> hfails cf h1 m1 b e -> hfails cf h m (a ++ b) e.
Proof. intros A B more. rewrite <- app_assoc, A. apply B. Qed.

Lemma over cf m (P : Z -> Prop) MAX e (mk : list Z -> list Z -> hdrs) :
  (forall cur raw c, P c -> zlen cur + zlen [c] <= MAX -> hsteps cf (mk cur raw) m [c] (mk (cur ++ [c]) (rw cf raw [c])) m) ->
  (forall cur raw c, P c -> MAX <= zlen cur -> h_char cf (mk cur raw) m c = HFail e) ->
  (forall cur raw c, save_raw cf (mk cur raw) c = mk cur (rw cf raw [c])) ->
  forall s cur raw, Forall P s -> zlen cur <= MAX -> MAX < zlen cur + zlen s -> hfails cf (mk cur raw) m s e.
Proof.
  intros ST FA SR. induction s as [|c s IH]; intros cur raw HF HL HO.
  - rewrite zlen_nil in HO. lia.
  - inversion HF as [|? ? HC HF']; subst. rewrite zlen_cons in HO. destruct (Z_le_gt_dec MAX (zlen cur)) as [GE|LT].
    + intros more. cbn [app h_loop]. rewrite SR, FA by auto. auto.
    + change (c :: s) with ([c] ++ s). eapply hfails_app; [apply ST; auto; rewrite zlen_one; lia|].
      apply IH; auto; rewrite zlen_snoc; lia.
Qed.

Ltac over_tac acc okl := intros; [apply acc; auto|..].

Lemma over_method cf m re q co rs na va s me raw : Forall token_char s -> zlen me <= 1024 -> 1024 < zlen me + zlen s ->
  hfails cf (MkH HMethod me re q co rs na va raw) m s E_METHOD_SIZE.
Proof.
  intros. apply (over cf m token_char 1024 E_METHOD_SIZE (fun x r => MkH HMethod x re q co rs na va r)); auto.
  - intros. apply acc_method; auto.
  - intros cur r c TC HL. destruct (token_ok c TC) as (B0 & _ & B1 & B2 & B3 & _). unfold h_char. cbn [h_state h_method].
    replace (c =? 32) with false by lia. rewrite B0. unfold METHOD_MAX. replace (1024 <=? zlen cur) with true by lia. reflexivity.
  - intros. apply save_raw_H.
Qed.
Lemma over_resource cf m me q co rs na va s re raw : Forall uri_char s -> zlen re <= 262144 -> 262144 < zlen re + zlen s ->
  hfails cf (MkH HUriStem me re q co rs na va raw) m s E_URI_SIZE.
Proof.
  intros. apply (over cf m uri_char 262144 E_URI_SIZE (fun x r => MkH HUriStem me x q co rs na va r)); auto.
  - intros. apply acc_resource; auto.
  - intros cur r c TC HL. destruct (uri_ok c TC) as (B0 & B1 & B2 & B3 & B4). unfold h_char. cbn [h_state h_resource].
    change (ch "?") with 63. replace (c =? 32) with false by lia. replace (c =? 63) with false by lia. replace (c =? 13) with false by lia. replace (c =? 10) with false by lia.
    rewrite B0. unfold RESOURCE_MAX. replace (262144 <=? zlen cur) with true by lia. reflexivity.
  - intros. apply save_raw_H.
Qed.
Lemma over_query cf m me re co rs na va s q raw : Forall query_char s -> zlen q <= 1048576 -> 1048576 < zlen q + zlen s ->
  hfails cf (MkH HUriQuery me re q co rs na va raw) m s E_QUERY_SIZE.
Proof.
  intros. apply (over cf m query_char 1048576 E_QUERY_SIZE (fun x r => MkH HUriQuery me re x co rs na va r)); auto.
  - intros. apply acc_query; auto.
  - intros cur r c TC HL. destruct (query_ok c TC) as (B0 & B1 & B2 & B3). unfold h_char. cbn [h_state h_query].
    replace (c =? 32) with false by lia. replace (c =? 13) with false by lia. replace (c =? 10) with false by lia.
    rewrite B0. unfold QUERY_STRING_MAX. replace (1048576 <=? zlen cur) with true by lia. reflexivity.
  - intros. apply save_raw_H.
Qed.
Lemma over_reason cf m me re q co na va s rs raw : Forall text_char s -> zlen rs <= 1024 -> 1024 < zlen rs + zlen s ->
  hfails cf (MkH HStatusMessage me re q co rs na va raw) m s E_STATUS_CHAR.
Proof.
  intros. apply (over cf m text_char 1024 E_STATUS_CHAR (fun x r => MkH HStatusMessage me re q co x na va r)); auto.
  - intros. apply acc_reason; auto.
  - intros cur r c TC HL. destruct (text_ok c TC) as (B0 & B1 & B2). unfold h_char. cbn [h_state h_reason].
    replace (c =? 13) with false by lia. replace (c =? 10) with false by lia.
    rewrite B0. unfold STATUS_MESSAGE_MAX. replace (1024 <=? zlen cur) with true by lia. reflexivity.
  - intros. apply save_raw_H.
Qed.
Lemma over_name cf m me re q co rs va s na raw : Forall token_char s -> zlen na <= 1024 -> 1024 < zlen na + zlen s ->
  hfails cf (MkH HHeaderName me re q co rs na va raw) m s E_HEADER_NAME_SIZE.
Proof.
  intros. apply (over cf m token_char 1024 E_HEADER_NAME_SIZE (fun x r => MkH HHeaderName me re q co rs x va r)); auto.
  - intros. apply acc_name; auto.
  - intros cur r c TC HL. destruct (token_ok c TC) as (B0 & _ & B1 & B2 & B3 & B4 & B5). unfold h_char. cbn [h_state h_name].
    change (ch ":") with 58. replace (c =? 58) with false by lia. rewrite B0. unfold HEADER_NAME_MAX. replace (1024 <=? zlen cur) with true by lia. reflexivity.
  - intros. apply save_raw_H.
Qed.
Lemma over_value cf m me re q co rs na s va raw : Forall value_char s -> zlen va <= 1048576 -> 1048576 < zlen va + zlen s ->
  hfails cf (MkH HHeaderValue me re q co rs na va raw) m s E_HEADER_VALUE_SIZE.
Proof.
  intros. apply (over cf m value_char 1048576 E_HEADER_VALUE_SIZE (fun x r => MkH HHeaderValue me re q co rs na x r)); auto.
  - intros. apply acc_value; auto.
  - intros cur r c TC HL. destruct (value_ok c TC) as (B0 & B1 & B2). unfold h_char. cbn [h_state h_value].
    replace (c =? 13) with false by lia. replace (c =? 10) with false by lia.
    rewrite B0. unfold HEADER_VALUE_MAX. replace (1048576 <=? zlen cur) with true by lia. reflexivity.
  - intros. apply save_raw_H.
Qed.

(** the start of a method, and of a header name *)
Lemma run_method cf m re q co rs na va raw me : me <> [] -> Forall token_char me -> zlen me <= 1024 ->
  hsteps cf (MkH HMethodStart [] re q co rs na va raw) m me (MkH HMethod me re q co rs na va (rw cf raw me)) m.
Proof.
  intros HN HF HL. destruct me as [|c me]; [congruence|]. inversion HF as [|? ? T1 T2]; subst.
  destruct (token_ok c T1) as (B0 & _ & B1 & B2 & B3 & _). rewrite zlen_cons in HL. pose proof (zlen_nonneg me).
  change (c :: me) with ([c] ++ me). rewrite <- rw_app. eapply hsteps_app.
  { hone. replace (c =? 32) with false by lia. replace (c =? 13) with false by lia. replace (c =? 10) with false by lia.
    cbn [negb andb]. rewrite B0. reflexivity. }
  hcbn. apply acc_method; auto; rewrite zlen_one; lia.
Qed.
Lemma run_name cf m me re q co rs na va raw n : n <> [] -> Forall token_char n -> zlen n <= 1024 ->
  hsteps cf (MkH HHeaderStart me re q co rs na va raw) m n (MkH HHeaderName me re q co rs n va (rw cf raw n)) m.
Proof.
  intros HN HF HL. destruct n as [|c n]; [congruence|]. inversion HF as [|? ? T1 T2]; subst.
  destruct (token_ok c T1) as (B0 & _ & B1 & B2 & B3 & B4 & B5). rewrite zlen_cons in HL. pose proof (zlen_nonneg n).
  change (c :: n) with ([c] ++ n). rewrite <- rw_app. eapply hsteps_app.
  { hone. replace (c =? 13) with false by lia. replace (c =? 10) with false by lia. replace (c =? 9) with false by lia. replace (c =? 32) with false by lia.
    cbn [orb]. rewrite B0. reflexivity. }
  hcbn. apply acc_name; auto; rewrite zlen_one; lia.
Qed.

(** up to the headers *)
Lemma run_to_headers cf m hd : head_ok cf hd -> exists me re q co rs na va raw m',
  hsteps cf (h_init cf) m (match hd with HReq r _ => wire_reqline r | HResp r _ => wire_statline r end ++ wire_hdrs (hdrs_of hd))
    (MkH HHeaderStart me re q co rs na va raw) m'.
Proof.
  intros HO. unfold h_init. destruct hd as [r l|r l]; cbn [hdrs_of]; destruct HO as (R & A & B); rewrite R.
  - do 9 eexists. eapply hsteps_app; [apply run_reqline; auto|]. apply run_hdrs; auto.
    intros _. destruct A as (_ & _ & _ & _ & _ & _ & _ & A). unfold set_ver. destruct m; cbn. lia.
  - do 9 eexists. eapply hsteps_app; [apply run_statline; auto|]. apply run_hdrs; auto. intros; congruence.
Qed.

Lemma too_long_fails cf m p e : too_long cf p e -> hfails cf (h_init cf) m p e.
Proof.
  intros H. destruct H as [s R HF HL|me s R N1 F1 L1 HF HL|me re s R N1 F1 L1 F2 L2 HF HL|v co s R V N1 F1 L1 HF HL|hd s HO HF HL|hd na s HO N1 F1 L1 HF HL].
  - unfold h_init. rewrite R. destruct s as [|c s]; [rewrite zlen_nil in HL; lia|]. inversion HF; subst. rewrite zlen_cons in HL.
    change (c :: s) with ([c] ++ s). eapply hfails_app; [apply run_method; auto; try discriminate; rewrite zlen_one; lia|].
    apply over_method; auto; rewrite zlen_one; lia.
  - unfold h_init. rewrite R. eapply hfails_app; [apply run_method; auto|]. eapply hfails_app; [change (bs " ") with [32]; hone; reflexivity|]. hcbn.
    apply over_resource; auto; rewrite zlen_nil; lia.
  - unfold h_init. rewrite R. eapply hfails_app; [apply run_method; auto|]. eapply hfails_app; [change (bs " ") with [32]; hone; reflexivity|]. hcbn.
    eapply hfails_app; [apply acc_resource; auto; rewrite zlen_nil; lia|]. eapply hfails_app; [change (bs "?") with [63]; hone; reflexivity|]. hcbn.
    apply over_query; auto; rewrite zlen_nil; lia.
  - unfold h_init. rewrite R. eapply hfails_app; [apply run_version; auto|].
    change (bs " ") with [32]. destruct co as [|c co]; [congruence|]. inversion F1 as [|? ? T1 T2]; subst.
    destruct (is_dec_digit c T1) as (B0 & _). rewrite dec_value_cons in *.
    assert (0 <= digit_val c) by (unfold is_dec, digit_val in *; lia).
    eapply hfails_app; [hone; cbn; rewrite R; reflexivity|]. hcbn.
    change ((c :: co) ++ [32] ++ s) with ([c] ++ co ++ [32] ++ s).
    eapply hfails_app; [hone; rewrite B0; reflexivity|]. hcbn.
    eapply hfails_app; [apply acc_code; auto|]. eapply hfails_app; [hone; reflexivity|]. hcbn.
    apply over_reason; auto; rewrite zlen_nil; lia.
  - destruct (run_to_headers cf m hd HO) as (me & re & q & co & rs & na & va & raw & m' & ST).
    rewrite app_assoc. eapply hfails_app; [exact ST|].
    destruct s as [|c s]; [rewrite zlen_nil in HL; lia|]. inversion HF; subst. rewrite zlen_cons in HL.
    change (c :: s) with ([c] ++ s). eapply hfails_app; [apply run_name; auto; try discriminate; rewrite zlen_one; lia|].
    apply over_name; auto; rewrite zlen_one; lia.
  - destruct (run_to_headers cf m hd HO) as (me & re & q & co & rs & na' & va & raw & m' & ST).
    rewrite app_assoc. eapply hfails_app; [exact ST|]. eapply hfails_app; [apply run_name; auto|].
    change (bs ": ") with ([58] ++ [32]). rewrite <- app_assoc. eapply hfails_app; [hone; reflexivity|]. hcbn. eapply hfails_app; [hone; reflexivity|]. hcbn.
    apply over_value; auto; rewrite zlen_nil; lia.
Qed.

Lemma too_long_parse cf m p e more : too_long cf p e ->
  exists r, parse cf (p_init cf) m (p ++ more) = Ok (Some r) /\ r_rc r = TFalse /\ r_err r = Some e.
Proof.
  intros H. set (m0 := if m_missing m then set_m_after true m else m).
  destruct (too_long_fails cf m0 p e H more) as [A B]. unfold parse. fold m0. clearbody m0. rewrite p_loop_S. unfold p_round. cbn [p_phase p_init].
  assert (forall st, p_h st = h_init cf -> s_rc (parse_headers cf st m0 (p ++ more)) = TFalse /\ s_err (parse_headers cf st m0 (p ++ more)) = Some e) as PH.
  { intros st HS. unfold parse_headers. rewrite HS. cbn. auto. }
  destruct (PH (set_p_phase PHeaders (p_init cf)) eq_refl) as [A' B'].
  set (r0 := parse_headers cf (set_p_phase PHeaders (p_init cf)) m0 (p ++ more)) in *. clearbody r0. cbv zeta. rewrite A'. cbn [obind]. rewrite A'. cbn [obind]. rewrite A'. eexists. split; [reflexivity|]. cbn [r_rc r_err]. auto.
Qed.

Lemma too_long_feed cf m p e more pieces : 0 <= cf_max cf -> too_long cf p e -> Forall (fun s => s <> []) pieces -> concat pieces = p ++ more ->
  exists r, feed cf (p_init cf) m pieces = Ok (Some r) /\ r_rc r = TFalse /\ r_err r = Some e.
Proof.
  intros HM H HF HC. destruct (too_long_parse cf m p e more H) as (r & E & A & B).
  assert (pieces <> []) as NP.
  { intros ->. cbn in HC. symmetry in HC. apply app_eq_nil in HC as [-> ->].
    pose proof (too_long_fails cf m [] e H []) as [X _]. cbn in X. discriminate. }
  pose proof (segmentation any_msg false cf (p_init cf) m pieces HM (reach_new _ _ _ m I) NP HF) as SG.
  rewrite HC, E in SG. unfold same_outcome in SG.
  destruct (feed cf (p_init cf) m pieces) as [[r2|]|]; try contradiction.
  destruct SG as (S1 & S2 & _). exists r2. rewrite S1, S2. auto.
Qed.
