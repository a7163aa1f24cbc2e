(** Parsing of well-formed request lines, status lines and header blocks. *)
From Coq Require Import String ZArith List Lia Bool Permutation.
From Coq Require Import ZifyBool ZifyNat.
From Verif Require Import Base Digits AlgModel FormModel DictModel MultipartModel HttpModel HttpBase HttpSplit HttpSpec HttpProofs.
Import ListNotations.

Local Arguments zlen : simpl never.
Local Arguments Z.add : simpl never.
Local Arguments Z.sub : simpl never.

(* ------------------------------------------------------------------ characters *)

Lemma token_ok c : token_char c -> bad_token c = false /\ is_byte c /\ c <> 32 /\ c <> 13 /\ c <> 10 /\ c <> 9 /\ c <> 58.
Proof.
  intros [H1 H2]. assert (is_byte c) as HB by (unfold is_byte; lia).
  assert (existsb (Z.eqb c) separators = false) as E.
  { destruct (existsb (Z.eqb c) separators) eqn:E; auto. apply existsb_exists in E as (x & X1 & X2).
    apply Z.eqb_eq in X2. subst. contradiction. }
  assert (c <> 58) as N.
  { intros ->. vm_compute in E. discriminate. }
  split; [|repeat split; auto; try lia].
  unfold bad_token, is_special. change (bs "()<>@,;:\" ++ [34] ++ bs "/[]?={} " ++ [9]) with separators. rewrite E.
  unfold is_char, is_control, schar. destruct (c <? 128) eqn:E1; lia.
Qed.

Lemma text_ok c : text_char c -> is_control c = false /\ c <> 13 /\ c <> 10.
Proof. intros [H1 H2]. unfold is_control, schar. destruct (c <? 128) eqn:E1; lia. Qed.
Lemma value_ok c : value_char c -> (negb (c =? 9) && is_control c) = false /\ c <> 13 /\ c <> 10.
Proof.
  intros [H| ->]; [|repeat split; try lia; reflexivity]. destruct (text_ok _ H) as (A & B & C). rewrite A. repeat split; auto; try lia.
Qed.
Lemma uri_ok c : uri_char c -> is_control c = false /\ c <> 13 /\ c <> 10 /\ c <> 32 /\ c <> 63.
Proof. intros (H1 & H2 & H3). unfold is_control, schar. destruct (c <? 128) eqn:E1; lia. Qed.
Lemma query_ok c : query_char c -> is_control c = false /\ c <> 13 /\ c <> 10 /\ c <> 32.
Proof. intros (H1 & H2). unfold is_control, schar. destruct (c <? 128) eqn:E1; lia. Qed.

(* ------------------------------------------------------------------ steps *)

Definition hsteps (cf : pcfg) (h : hdrs) (m : msg) (a : list Z) (h' : hdrs) (m' : msg) : Prop :=
  forall s, h_loop cf h m (a ++ s) = h_loop cf h' m' s.

Lemma hsteps_nil cf h m : hsteps cf h m [] h m.
Proof. intros s. reflexivity. Qed.
Lemma hsteps_app cf h m a h1 m1 b h2 m2 : hsteps cf h m a h1 m1 -> hsteps cf h1 m1 b h2 m2 -> hsteps cf h m (a ++ b) h2 m2.
Proof. intros A B s. rewrite <- app_assoc, A, B. reflexivity. Qed.
Lemma hsteps_cons cf h m c h1 m1 b h2 m2 : hsteps cf h m [c] h1 m1 -> hsteps cf h1 m1 b h2 m2 -> hsteps cf h m (c :: b) h2 m2.
Proof. intros A B. exact (hsteps_app _ _ _ [c] _ _ _ _ _ A B). Qed.
Lemma hsteps_one cf h m c h2 m2 : h_char cf (save_raw cf h c) m c = HCont h2 m2 -> hsteps cf h m [c] h2 m2.
Proof. intros E s. cbn [app h_loop]. rewrite E. reflexivity. Qed.

(** raw headers collected *)
Definition rw (cf : pcfg) (raw a : list Z) : list Z := if cf_save_raw cf then raw ++ a else raw.
Lemma rw_app cf raw a b : rw cf (rw cf raw a) b = rw cf raw (a ++ b).
Proof. unfold rw. destruct (cf_save_raw cf); auto. now rewrite app_assoc. Qed.
Lemma rw_nil cf raw : rw cf raw [] = raw.
Proof. unfold rw. destruct (cf_save_raw cf); auto. apply app_nil_r. Qed.

Notation MkH := Build_hdrs.

Lemma save_raw_H cf st me re q co rs na va raw c : save_raw cf (MkH st me re q co rs na va raw) c = MkH st me re q co rs na va (rw cf raw [c]).
Proof. unfold save_raw, rw. destruct (cf_save_raw cf); reflexivity. Qed.

Ltac hone := apply hsteps_one; rewrite save_raw_H; unfold h_char; cbn [h_state h_method h_resource h_query h_code h_reason h_name h_value h_raw].

Lemma app_cons {A} (a : list A) c s : a ++ c :: s = (a ++ [c]) ++ s.
Proof. now rewrite <- app_assoc. Qed.

Ltac hcbn := cbv [begin_name goto set_h_state set_h_method set_h_resource set_h_query set_h_code set_h_reason set_h_name set_h_value
  h_state h_method h_resource h_query h_code h_reason h_name h_value h_raw].
Ltac acc_next me c s :=
  hcbn; replace (me ++ c :: s) with ((me ++ [c]) ++ s) by (rewrite <- app_assoc; reflexivity);
  change (c :: s) with ([c] ++ s); rewrite <- rw_app.

(** the accumulating states *)
Lemma acc_method cf m re q co rs na va : forall s me raw, Forall token_char s -> zlen me + zlen s <= 1024 ->
  hsteps cf (MkH HMethod me re q co rs na va raw) m s (MkH HMethod (me ++ s) re q co rs na va (rw cf raw s)) m.
Proof.
  induction s as [|c s IH]; intros me raw HT HL.
  - rewrite app_nil_r, rw_nil. apply hsteps_nil.
  - inversion HT as [|? ? Hc HT']; subst. rewrite zlen_cons in HL. pose proof (zlen_nonneg s).
    destruct (token_ok c Hc) as (A & _ & B & _).
    eapply hsteps_cons.
    + hone. replace (c =? 32) with false by lia. rewrite A.
      replace (METHOD_MAX <=? zlen me) with false by (unfold METHOD_MAX; lia). reflexivity.
    + acc_next me c s. apply IH; auto. rewrite zlen_app, zlen_cons, zlen_nil. lia.
Qed.

Lemma acc_resource cf m me q co rs na va : forall s re raw, Forall uri_char s -> zlen re + zlen s <= 262144 ->
  hsteps cf (MkH HUriStem me re q co rs na va raw) m s (MkH HUriStem me (re ++ s) q co rs na va (rw cf raw s)) m.
Proof.
  induction s as [|c s IH]; intros re raw HT HL.
  - rewrite app_nil_r, rw_nil. apply hsteps_nil.
  - inversion HT as [|? ? Hc HT']; subst. rewrite zlen_cons in HL. pose proof (zlen_nonneg s).
    destruct (uri_ok c Hc) as (A & B1 & B2 & B3 & B4).
    eapply hsteps_cons.
    + hone. change (ch "?") with 63. replace (c =? 32) with false by lia. replace (c =? 63) with false by lia.
      replace (c =? 13) with false by lia. replace (c =? 10) with false by lia. rewrite A.
      replace (RESOURCE_MAX <=? zlen re) with false by (unfold RESOURCE_MAX; lia). reflexivity.
    + acc_next re c s. apply IH; auto. rewrite zlen_app, zlen_cons, zlen_nil. lia.
Qed.

Lemma acc_query cf m me re co rs na va : forall s q raw, Forall query_char s -> zlen q + zlen s <= 1048576 ->
  hsteps cf (MkH HUriQuery me re q co rs na va raw) m s (MkH HUriQuery me re (q ++ s) co rs na va (rw cf raw s)) m.
Proof.
  induction s as [|c s IH]; intros q raw HT HL.
  - rewrite app_nil_r, rw_nil. apply hsteps_nil.
  - inversion HT as [|? ? Hc HT']; subst. rewrite zlen_cons in HL. pose proof (zlen_nonneg s).
    destruct (query_ok c Hc) as (A & B1 & B2 & B3).
    eapply hsteps_cons.
    + hone. replace (c =? 32) with false by lia.
      replace (c =? 13) with false by lia. replace (c =? 10) with false by lia. rewrite A.
      replace (QUERY_STRING_MAX <=? zlen q) with false by (unfold QUERY_STRING_MAX; lia). reflexivity.
    + acc_next q c s. apply IH; auto. rewrite zlen_app, zlen_cons, zlen_nil. lia.
Qed.

Lemma acc_reason cf m me re q co na va : forall s rs raw, Forall text_char s -> zlen rs + zlen s <= 1024 ->
  hsteps cf (MkH HStatusMessage me re q co rs na va raw) m s (MkH HStatusMessage me re q co (rs ++ s) na va (rw cf raw s)) m.
Proof.
  induction s as [|c s IH]; intros rs raw HT HL.
  - rewrite app_nil_r, rw_nil. apply hsteps_nil.
  - inversion HT as [|? ? Hc HT']; subst. rewrite zlen_cons in HL. pose proof (zlen_nonneg s).
    destruct (text_ok c Hc) as (A & B1 & B2).
    eapply hsteps_cons.
    + hone. replace (c =? 13) with false by lia. replace (c =? 10) with false by lia. rewrite A.
      replace (STATUS_MESSAGE_MAX <=? zlen rs) with false by (unfold STATUS_MESSAGE_MAX; lia). reflexivity.
    + acc_next rs c s. apply IH; auto. rewrite zlen_app, zlen_cons, zlen_nil. lia.
Qed.

Lemma acc_name cf m me re q co rs va : forall s na raw, Forall token_char s -> zlen na + zlen s <= 1024 ->
  hsteps cf (MkH HHeaderName me re q co rs na va raw) m s (MkH HHeaderName me re q co rs (na ++ s) va (rw cf raw s)) m.
Proof.
  induction s as [|c s IH]; intros na raw HT HL.
  - rewrite app_nil_r, rw_nil. apply hsteps_nil.
  - inversion HT as [|? ? Hc HT']; subst. rewrite zlen_cons in HL. pose proof (zlen_nonneg s).
    destruct (token_ok c Hc) as (A & _ & B1 & B2 & B3 & B4 & B5).
    eapply hsteps_cons.
    + hone. change (ch ":") with 58. replace (c =? 58) with false by lia. rewrite A.
      replace (HEADER_NAME_MAX <=? zlen na) with false by (unfold HEADER_NAME_MAX; lia). reflexivity.
    + acc_next na c s. apply IH; auto. rewrite zlen_app, zlen_cons, zlen_nil. lia.
Qed.

Lemma acc_value cf m me re q co rs na : forall s va raw, Forall value_char s -> zlen va + zlen s <= 1048576 ->
  hsteps cf (MkH HHeaderValue me re q co rs na va raw) m s (MkH HHeaderValue me re q co rs na (va ++ s) (rw cf raw s)) m.
Proof.
  induction s as [|c s IH]; intros va raw HT HL.
  - rewrite app_nil_r, rw_nil. apply hsteps_nil.
  - inversion HT as [|? ? Hc HT']; subst. rewrite zlen_cons in HL. pose proof (zlen_nonneg s).
    destruct (value_ok c Hc) as (A & B1 & B2).
    eapply hsteps_cons.
    + hone. replace (c =? 13) with false by lia. replace (c =? 10) with false by lia. rewrite A.
      replace (HEADER_VALUE_MAX <=? zlen va) with false by (unfold HEADER_VALUE_MAX; lia). reflexivity.
    + acc_next va c s. apply IH; auto. rewrite zlen_app, zlen_cons, zlen_nil. lia.
Qed.

(* ------------------------------------------------------------------ numbers *)

Lemma dec_acc s : forall a, fold_left (fun a c => a * 10 + digit_val c) s a = dec_value s + a * 10 ^ zlen s.
Proof.
  unfold dec_value. induction s as [|c s IH]; intros a; cbn [fold_left].
  - rewrite zlen_nil. lia.
  - rewrite (IH (a * 10 + digit_val c)), (IH (0 * 10 + digit_val c)), zlen_cons.
    rewrite Z.pow_add_r by (pose proof (zlen_nonneg s); lia). lia.
Qed.

Lemma dec_fold_mono s : forall a, Forall is_dec s -> 0 <= a -> a <= fold_left (fun a c => a * 10 + digit_val c) s a.
Proof.
  induction s as [|c s IH]; intros a HF Ha; cbn [fold_left]; [lia|]. inversion HF as [|? ? Hc HF']; subst.
  unfold is_dec in Hc. unfold digit_val at 2. unfold digit_val in IH |- *. specialize (IH (a * 10 + (c - 48)) HF'). lia.
Qed.

Lemma is_dec_digit c : is_dec c -> is_digit c = true /\ c <> 46 /\ c <> 32 /\ c <> 13 /\ c <> 10.
Proof. unfold is_dec, is_digit. lia. Qed.

(** vmaj accumulates *)
Lemma acc_maj cf me re q co rs na va : forall s m raw, Forall is_dec s -> 0 <= m_vmaj m ->
  fold_left (fun a c => a * 10 + digit_val c) s (m_vmaj m) < 65536 ->
  hsteps cf (MkH HVersionMajor me re q co rs na va raw) m s
    (MkH HVersionMajor me re q co rs na va (rw cf raw s)) (set_m_vmaj (fold_left (fun a c => a * 10 + digit_val c) s (m_vmaj m)) m).
Proof.
  induction s as [|c s IH]; intros m raw HF H0 HV.
  - rewrite rw_nil. cbn. replace (set_m_vmaj (m_vmaj m) m) with m by (destruct m; auto). apply hsteps_nil.
  - inversion HF as [|? ? Hc HF']; subst. cbn [fold_left] in HV |- *.
    destruct (is_dec_digit c Hc) as (A & B & _). unfold is_dec in Hc.
    assert (0 <= m_vmaj m * 10 + digit_val c) as P0 by (unfold digit_val; lia).
    pose proof (dec_fold_mono s (m_vmaj m * 10 + digit_val c) HF' P0) as MO.
    eapply hsteps_cons.
    + hone. change (ch ".") with 46. replace (c =? 46) with false by lia. rewrite A. reflexivity.
    + change (c - 48) with (digit_val c). unfold u16. rewrite Z.mod_small by lia.
      change (c :: s) with ([c] ++ s). rewrite <- rw_app.
      specialize (IH (set_m_vmaj (m_vmaj m * 10 + digit_val c) m) (rw cf raw [c]) HF').
      assert (m_vmaj (set_m_vmaj (m_vmaj m * 10 + digit_val c) m) = m_vmaj m * 10 + digit_val c) as EM by (destruct m; auto).
      rewrite EM in IH.
      replace (set_m_vmaj (fold_left (fun a c0 => a * 10 + digit_val c0) s (m_vmaj m * 10 + digit_val c)) (set_m_vmaj (m_vmaj m * 10 + digit_val c) m))
        with (set_m_vmaj (fold_left (fun a c0 => a * 10 + digit_val c0) s (m_vmaj m * 10 + digit_val c)) m) in IH by (destruct m; auto).
      apply IH; auto.
Qed.

Lemma acc_min cf me re q co rs na va : forall s m raw, Forall is_dec s -> 0 <= m_vmin m ->
  fold_left (fun a c => a * 10 + digit_val c) s (m_vmin m) < 65536 ->
  hsteps cf (MkH HVersionMinor me re q co rs na va raw) m s
    (MkH HVersionMinor me re q co rs na va (rw cf raw s)) (set_m_vmin (fold_left (fun a c => a * 10 + digit_val c) s (m_vmin m)) m).
Proof.
  induction s as [|c s IH]; intros m raw HF H0 HV.
  - rewrite rw_nil. cbn. replace (set_m_vmin (m_vmin m) m) with m by (destruct m; auto). apply hsteps_nil.
  - inversion HF as [|? ? Hc HF']; subst. cbn [fold_left] in HV |- *.
    destruct (is_dec_digit c Hc) as (A & B & C1 & C2 & C3). unfold is_dec in Hc.
    assert (0 <= m_vmin m * 10 + digit_val c) as P0 by (unfold digit_val; lia).
    pose proof (dec_fold_mono s (m_vmin m * 10 + digit_val c) HF' P0) as MO.
    eapply hsteps_cons.
    + hone. replace (c =? 32) with false by lia. replace (c =? 13) with false by lia. replace (c =? 10) with false by lia.
      rewrite A. reflexivity.
    + change (c - 48) with (digit_val c). unfold u16. rewrite Z.mod_small by lia.
      change (c :: s) with ([c] ++ s). rewrite <- rw_app.
      specialize (IH (set_m_vmin (m_vmin m * 10 + digit_val c) m) (rw cf raw [c]) HF').
      assert (m_vmin (set_m_vmin (m_vmin m * 10 + digit_val c) m) = m_vmin m * 10 + digit_val c) as EM by (destruct m; auto).
      rewrite EM in IH.
      replace (set_m_vmin (fold_left (fun a c0 => a * 10 + digit_val c0) s (m_vmin m * 10 + digit_val c)) (set_m_vmin (m_vmin m * 10 + digit_val c) m))
        with (set_m_vmin (fold_left (fun a c0 => a * 10 + digit_val c0) s (m_vmin m * 10 + digit_val c)) m) in IH by (destruct m; auto).
      apply IH; auto.
Qed.

Lemma acc_code cf m me re q rs na va : forall s co raw, Forall is_dec s -> 0 <= co ->
  fold_left (fun a c => a * 10 + digit_val c) s co < 65536 ->
  hsteps cf (MkH HStatusCode me re q co rs na va raw) m s
    (MkH HStatusCode me re q (fold_left (fun a c => a * 10 + digit_val c) s co) rs na va (rw cf raw s)) m.
Proof.
  induction s as [|c s IH]; intros co raw HF H0 HV.
  - rewrite rw_nil. cbn. apply hsteps_nil.
  - inversion HF as [|? ? Hc HF']; subst. cbn [fold_left] in HV |- *.
    destruct (is_dec_digit c Hc) as (A & B & C1 & C2 & C3). unfold is_dec in Hc.
    assert (0 <= co * 10 + digit_val c) as P0 by (unfold digit_val; lia).
    pose proof (dec_fold_mono s (co * 10 + digit_val c) HF' P0) as MO.
    eapply hsteps_cons.
    + hone. replace (c =? 32) with false by lia. rewrite A. reflexivity.
    + change (c - 48) with (digit_val c). unfold u16. rewrite Z.mod_small by lia.
      change (c :: s) with ([c] ++ s). rewrite <- rw_app. apply IH; auto.
Qed.

(* ------------------------------------------------------------------ lines *)

Definition set_ver (v : version) (m : msg) : msg := set_m_vmin (dec_value (v_min v)) (set_m_vmaj (dec_value (v_maj v)) m).

Lemma dec_value_cons c s : dec_value (c :: s) = fold_left (fun a c => a * 10 + digit_val c) s (digit_val c).
Proof. unfold dec_value. cbn [fold_left]. f_equal. Qed.

Lemma run_version cf m me re q co rs na va raw v : version_ok v ->
  hsteps cf (MkH HVersionH me re q co rs na va raw) m (wire_version v)
    (MkH HVersionMinor me re q co rs na va (rw cf raw (wire_version v))) (set_ver v m).
Proof.
  intros (A1 & A2 & A3 & A4 & A5 & A6). unfold wire_version, set_ver.
  destruct v as [maj mi]. cbn [v_maj v_min] in *.
  destruct maj as [|d maj]; [congruence|]. destruct mi as [|e mi]; [congruence|].
  inversion A3 as [|? ? D1 D2]; subst. inversion A4 as [|? ? E1 E2]; subst.
  rewrite dec_value_cons in *.
  change (bs "HTTP/" ++ (d :: maj) ++ bs "." ++ e :: mi) with ([72] ++ [84] ++ [84] ++ [80] ++ [47] ++ [d] ++ (maj ++ [46] ++ [e] ++ mi)).
  rewrite <- !rw_app.
  eapply hsteps_app; [hone; reflexivity|]. hcbn.
  eapply hsteps_app; [hone; reflexivity|]. hcbn.
  eapply hsteps_app; [hone; reflexivity|]. hcbn.
  eapply hsteps_app; [hone; reflexivity|]. hcbn.
  eapply hsteps_app; [hone; reflexivity|]. hcbn.
  eapply hsteps_app; [hone; rewrite (proj1 (is_dec_digit _ D1)); reflexivity|]. hcbn.
  change (d - 48) with (digit_val d).
  assert (0 <= digit_val d) by (unfold is_dec, digit_val in *; lia).
  assert (0 <= digit_val e) by (unfold is_dec, digit_val in *; lia).
  eapply hsteps_app.
  { apply acc_maj; auto; destruct m; auto. }
  eapply hsteps_app; [hone; reflexivity|]. hcbn.
  eapply hsteps_app; [hone; rewrite (proj1 (is_dec_digit _ E1)); reflexivity|]. hcbn.
  change (e - 48) with (digit_val e).
  match goal with |- hsteps _ _ ?mm _ _ ?m2 => 
    replace m2 with (set_m_vmin (fold_left (fun a c => a * 10 + digit_val c) mi (m_vmin mm)) mm) end.
  - apply acc_min; auto; destruct m; auto.
  - destruct m; reflexivity.
Qed.

(** what the first line leaves in the message: the version *)
Lemma run_reqline cf m na va raw r : cf_request cf = true -> reqline_ok r ->
  hsteps cf (MkH HMethodStart [] [] [] 0 [] na va raw) m (wire_reqline r)
    (MkH HHeaderStart (rl_method r) (rl_resource r) (match rl_query r with Some q => q | None => [] end) 0 [] na va
       (rw cf raw (wire_reqline r))) (set_ver (rl_version r) m).
Proof.
  intros HR (A1 & A2 & A3 & A4 & A5 & A6 & A7 & A8). unfold wire_reqline.
  destruct r as [me re q v]. cbn [rl_method rl_resource rl_query rl_version] in *.
  destruct me as [|c me]; [congruence|]. inversion A2 as [|? ? T1 T2]; subst.
  destruct (token_ok c T1) as (B0 & _ & B1 & B2 & B3 & _).
  change ((c :: me) ++ bs " " ++ re ++ match q with Some q0 => bs "?" ++ q0 | None => [] end ++ bs " " ++ wire_version v ++ CRLF)
    with ([c] ++ (me ++ [32] ++ re ++ match q with Some q0 => [63] ++ q0 | None => [] end ++ [32] ++ wire_version v ++ [13; 10])).
  rewrite zlen_cons in A3. pose proof (zlen_nonneg me).
  rewrite <- !rw_app.
  eapply hsteps_app.
  { hone. replace (c =? 32) with false by lia. replace (c =? 13) with false by lia. replace (c =? 10) with false by lia.
    cbn [negb andb]. rewrite B0. reflexivity. }
  hcbn.
  eapply hsteps_app; [apply acc_method; auto; rewrite zlen_cons, zlen_nil; lia|].
  eapply hsteps_app; [hone; reflexivity|]. hcbn.
  eapply hsteps_app; [apply acc_resource; auto; rewrite zlen_nil; lia|].
  assert (forall raw2 q2, hsteps cf (MkH HVersionH ([c] ++ me) ([] ++ re) q2 0 [] na va raw2) m (wire_version v ++ [13;10])
     (MkH HHeaderStart (c :: me) re q2 0 [] na va (rw cf (rw cf raw2 (wire_version v)) [13;10])) (set_ver v m)) as TL.
  { intros raw2 q2. eapply hsteps_app; [apply run_version; auto|].
    change [13;10] with ([13] ++ [10]). rewrite <- !rw_app.
    eapply hsteps_app; [hone; cbn; rewrite HR; reflexivity|].
    hcbn.
    hone. cbn [Z.eqb Pos.eqb]. assert ((m_vmaj (set_ver v m) =? 0) = false) as ->.
    { unfold set_ver. destruct m; cbn. lia. }
    rewrite andb_false_r. reflexivity. }
  destruct q as [q|].
  - rewrite <- !rw_app. rewrite <- app_assoc. eapply hsteps_app; [hone; reflexivity|]. hcbn.
    destruct A6 as [A6 A6']. eapply hsteps_app; [apply acc_query; auto; rewrite zlen_nil; lia|].
    eapply hsteps_app; [hone; reflexivity|]. hcbn.
    apply TL.
  - rewrite rw_nil. cbn [app].
    change (32 :: wire_version v ++ [13; 10]) with ([32] ++ wire_version v ++ [13; 10]).
    eapply hsteps_app; [hone; reflexivity|]. hcbn.
    apply TL.
Qed.

Lemma run_statline cf m na va raw r : cf_request cf = false -> statline_ok r ->
  hsteps cf (MkH HVersionH [] [] [] 0 [] na va raw) m (wire_statline r)
    (MkH HHeaderStart [] [] [] (dec_value (sl_code r)) (sl_reason r) na va (rw cf raw (wire_statline r))) (set_ver (sl_version r) m).
Proof.
  intros HR (A1 & A2 & A3 & A4 & A5 & A6). unfold wire_statline.
  destruct r as [v co rs]. cbn [sl_version sl_code sl_reason] in *.
  destruct co as [|c co]; [congruence|]. inversion A3 as [|? ? T1 T2]; subst.
  destruct (is_dec_digit c T1) as (B0 & _).
  change (wire_version v ++ bs " " ++ (c :: co) ++ bs " " ++ rs ++ CRLF)
    with (wire_version v ++ ([32] ++ [c] ++ co ++ [32] ++ rs ++ [13] ++ [10])).
  rewrite dec_value_cons in *. rewrite <- !rw_app.
  assert (0 <= digit_val c) by (unfold is_dec, digit_val in *; lia).
  eapply hsteps_app; [apply run_version; auto|].
  eapply hsteps_app; [hone; cbn; rewrite HR; reflexivity|]. hcbn.
  eapply hsteps_app; [hone; rewrite B0; reflexivity|]. hcbn.
  eapply hsteps_app; [apply acc_code; auto|].
  eapply hsteps_app; [hone; reflexivity|]. hcbn.
  eapply hsteps_app; [apply acc_reason; auto; rewrite zlen_nil; lia|].
  eapply hsteps_app; [hone; reflexivity|]. hcbn.
  hone. rewrite HR. reflexivity.
Qed.

(** one header line *)
Lemma run_hdr cf m me re q co rs na va raw p : hdr_ok p -> (cf_request cf = true -> m_vmaj m <> 0) ->
  hsteps cf (MkH HHeaderStart me re q co rs na va raw) m (wire_hdr p)
    (MkH HHeaderStart me re q co rs (fst p) (snd p) (rw cf raw (wire_hdr p))) (set_m_headers (d_insert (cf_pos cf) (m_headers m) p) m).
Proof.
  intros (A1 & A2 & A3 & A4 & A5) HV. destruct p as [n v]. cbn [fst snd] in *. unfold wire_hdr. cbn [fst snd].
  destruct n as [|c n]; [congruence|]. inversion A2 as [|? ? T1 T2]; subst.
  destruct (token_ok c T1) as (B0 & _ & B1 & B2 & B3 & B4 & B5).
  rewrite zlen_cons in A3. pose proof (zlen_nonneg n).
  change ((c :: n) ++ bs ": " ++ v ++ CRLF) with ([c] ++ (n ++ [58] ++ [32] ++ v ++ [13] ++ [10])).
  rewrite <- !rw_app.
  eapply hsteps_app.
  { hone. replace (c =? 13) with false by lia. replace (c =? 10) with false by lia. replace (c =? 9) with false by lia.
    replace (c =? 32) with false by lia. cbn [orb]. rewrite B0. reflexivity. }
  hcbn.
  eapply hsteps_app; [apply acc_name; auto; rewrite zlen_cons, zlen_nil; lia|].
  eapply hsteps_app; [hone; reflexivity|]. hcbn.
  eapply hsteps_app; [hone; reflexivity|]. hcbn.
  eapply hsteps_app; [apply acc_value; auto; rewrite zlen_nil; lia|].
  eapply hsteps_app; [hone; reflexivity|]. hcbn.
  unfold add_header. cbn [h_name h_value].
  hone. cbn [Z.eqb Pos.eqb].
  assert (cf_request cf && (m_vmaj (set_m_headers (d_insert (cf_pos cf) (m_headers m) ([c] ++ n, [] ++ v)) m) =? 0) = false) as ->.
  { destruct (cf_request cf); auto. specialize (HV eq_refl). destruct m; cbn in *. lia. }
  reflexivity.
Qed.

Lemma d_insert_perm pos d p : Permutation (p :: d) (d_insert pos d p).
Proof.
  unfold d_insert. rewrite <- (firstn_skipn (pos d p) d) at 1. apply Permutation_middle.
Qed.

(** the header block *)
Definition ins_all (cf : pcfg) (m : msg) (l : list hdr) : msg := set_m_headers (d_insert_all (cf_pos cf) (m_headers m) l) m.
Definition last_hdr (na va : list Z) (l : list hdr) : list Z * list Z := last l (na, va).

Lemma last_default {A} (l : list A) d d' : l <> [] -> last l d = last l d'.
Proof. induction l as [|x l IH]; intros N; [congruence|]. destruct l; auto. cbn [last] in *. apply IH. discriminate. Qed.

Lemma run_hdrs cf me re q co rs : forall l m na va raw, Forall hdr_ok l -> (cf_request cf = true -> m_vmaj m <> 0) ->
  hsteps cf (MkH HHeaderStart me re q co rs na va raw) m (wire_hdrs l)
    (MkH HHeaderStart me re q co rs (fst (last_hdr na va l)) (snd (last_hdr na va l)) (rw cf raw (wire_hdrs l))) (ins_all cf m l).
Proof.
  induction l as [|p l IH]; intros m na va raw HF HV.
  - unfold wire_hdrs, ins_all. cbn. rewrite rw_nil. replace (set_m_headers (m_headers m) m) with m by (destruct m; auto). apply hsteps_nil.
  - inversion HF; subst. change (wire_hdrs (p :: l)) with (wire_hdr p ++ wire_hdrs l). rewrite <- rw_app.
    eapply hsteps_app; [apply run_hdr; auto|].
    replace (ins_all cf m (p :: l)) with (ins_all cf (set_m_headers (d_insert (cf_pos cf) (m_headers m) p) m) l) by (unfold ins_all; destruct m; reflexivity).
    replace (last_hdr na va (p :: l)) with (last_hdr (fst p) (snd p) l).
    + apply IH; auto.
    + unfold last_hdr. destruct p. cbn [fst snd]. destruct l as [|h l]; auto. transitivity (last (h :: l) (na, va)); [apply last_default; discriminate|reflexivity].
Qed.

Lemma h_loop_done cf m me re q co rs na va raw s :
  h_loop cf (MkH HHeaderStart me re q co rs na va raw) m (CRLF ++ s) =
  mksub TTrue None (MkH HFinalNewline me re q co rs na va (rw cf raw CRLF), m) s.
Proof.
  assert (hsteps cf (MkH HHeaderStart me re q co rs na va raw) m [13] (MkH HFinalNewline me re q co rs na va (rw cf raw [13])) m) as ST
    by (hone; reflexivity).
  change (CRLF ++ s) with ([13] ++ 10 :: s). rewrite ST. cbn [h_loop]. rewrite save_raw_H. cbn.
  change CRLF with ([13] ++ [10]). rewrite <- rw_app. reflexivity.
Qed.

Lemma d_insert_all_perm pos l : forall d, Permutation (l ++ d) (d_insert_all pos d l).
Proof.
  unfold d_insert_all. induction l as [|p l IH]; intros d; cbn [fold_left app]; [apply Permutation_refl|].
  eapply Permutation_trans; [|apply IH]. eapply Permutation_trans; [apply Permutation_middle|].
  apply Permutation_app_head. apply d_insert_perm.
Qed.
