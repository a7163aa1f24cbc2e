(** First lines that are read like legal ones although they are not. *)
From Coq Require Import String ZArith List Lia Bool.
From Verif Require Import Base Digits AlgModel FormModel DictModel MultipartModel HttpModel HttpBase HttpSplit HttpSpec HttpProofs HttpHead HttpBody HttpReset EolSpec HttpEol LaxSpec.
Import ListNotations.

Local Arguments zlen : simpl never.
Local Arguments Z.add : simpl never.
Local Arguments Z.sub : simpl never.
Local Arguments Z.modulo : simpl never.

Notation dec_from := (fold_left (fun a c => a * 10 + digit_val c)).

Lemma dec_from_mod s : forall a b, a mod 65536 = b mod 65536 -> dec_from s a mod 65536 = dec_from s b mod 65536.
Proof.
  induction s as [|c s IH]; intros a b E; cbn [fold_left]; auto. apply IH.
  rewrite (Z.add_mod (a * 10)), (Z.mul_mod a), E, <- Z.mul_mod, <- Z.add_mod by lia. reflexivity.
Qed.

Lemma lax_maj cf me re q co rs na va : forall s m raw, Forall is_dec s -> 0 <= m_vmaj m < 65536 ->
  hsteps cf (MkH HVersionMajor me re q co rs na va raw) m s
    (MkH HVersionMajor me re q co rs na va (rw cf raw s)) (set_m_vmaj (dec_from s (m_vmaj m) mod 65536) m).
Proof.
  induction s as [|c s IH]; intros m raw HF H0.
  - rewrite rw_nil. cbn. rewrite Z.mod_small by lia. replace (set_m_vmaj (m_vmaj m) m) with m by (destruct m; auto). apply hsteps_nil.
  - inversion HF as [|? ? Hc HF']; subst. cbn [fold_left].
    destruct (is_dec_digit c Hc) as (A & B & _). unfold is_dec in Hc.
    eapply hsteps_cons.
    + hone. change (ch ".") with 46. replace (c =? 46) with false by lia. rewrite A. reflexivity.
    + change (c - 48) with (digit_val c). change (c :: s) with ([c] ++ s). rewrite <- rw_app. set (x := u16 _).
      assert (0 <= x < 65536) as HX by (apply Z.mod_pos_bound; lia).
      assert (x mod 65536 = (m_vmaj m * 10 + digit_val c) mod 65536) as EX by (apply Z.mod_mod; lia).
      specialize (IH (set_m_vmaj x m) (rw cf raw [c]) HF').
      assert (m_vmaj (set_m_vmaj x m) = x) as EM by (destruct m; auto). rewrite EM in IH. specialize (IH HX).
      rewrite (dec_from_mod s _ _ EX) in IH.
      replace (set_m_vmaj (dec_from s (m_vmaj m * 10 + digit_val c) mod 65536) (set_m_vmaj x m))
        with (set_m_vmaj (dec_from s (m_vmaj m * 10 + digit_val c) mod 65536) m) in IH by (destruct m; auto).
      exact IH.
Qed.

Lemma lax_min cf me re q co rs na va : forall s m raw, Forall (fun c => is_dec c \/ cf_request cf = true /\ c = 32) s -> 0 <= m_vmin m < 65536 ->
  hsteps cf (MkH HVersionMinor me re q co rs na va raw) m s
    (MkH HVersionMinor me re q co rs na va (rw cf raw s)) (set_m_vmin (dec_from (no_blanks s) (m_vmin m) mod 65536) m).
Proof.
  induction s as [|c s IH]; intros m raw HF H0.
  - rewrite rw_nil. cbn. rewrite Z.mod_small by lia. replace (set_m_vmin (m_vmin m) m) with m by (destruct m; auto). apply hsteps_nil.
  - inversion HF as [|? ? Hc HF']; subst. unfold no_blanks. cbn [filter]. change (c :: s) with ([c] ++ s). rewrite <- rw_app. destruct Hc as [Hc|[HR ->]].
    + destruct (is_dec_digit c Hc) as (A & B & C1 & C2 & C3). unfold is_dec in Hc. replace (c =? 32) with false by lia. cbn [negb fold_left].
      eapply hsteps_cons.
      * hone. replace (c =? 32) with false by lia. replace (c =? 13) with false by lia. replace (c =? 10) with false by lia. rewrite A. reflexivity.
      * change (c - 48) with (digit_val c). set (x := u16 _).
        assert (0 <= x < 65536) as HX by (apply Z.mod_pos_bound; lia).
        assert (x mod 65536 = (m_vmin m * 10 + digit_val c) mod 65536) as EX by (apply Z.mod_mod; lia).
        specialize (IH (set_m_vmin x m) (rw cf raw [c]) HF').
        assert (m_vmin (set_m_vmin x m) = x) as EM by (destruct m; auto). rewrite EM in IH. specialize (IH HX).
        rewrite (dec_from_mod _ _ _ EX) in IH.
        replace (set_m_vmin (dec_from (no_blanks s) (m_vmin m * 10 + digit_val c) mod 65536) (set_m_vmin x m))
          with (set_m_vmin (dec_from (no_blanks s) (m_vmin m * 10 + digit_val c) mod 65536) m) in IH by (destruct m; auto).
        exact IH.
    + cbn [Z.eqb Pos.eqb negb]. eapply hsteps_cons; [hone; cbn; rewrite HR; reflexivity|]. apply IH; auto.
Qed.

Lemma lax_code cf m me re q rs na va : forall s co raw, Forall is_dec s -> 0 <= co < 65536 ->
  hsteps cf (MkH HStatusCode me re q co rs na va raw) m s
    (MkH HStatusCode me re q (dec_from s co mod 65536) rs na va (rw cf raw s)) m.
Proof.
  induction s as [|c s IH]; intros co raw HF H0.
  - rewrite rw_nil. cbn. rewrite Z.mod_small by lia. apply hsteps_nil.
  - inversion HF as [|? ? Hc HF']; subst. cbn [fold_left].
    destruct (is_dec_digit c Hc) as (A & B & C1 & C2 & C3). unfold is_dec in Hc.
    eapply hsteps_cons.
    + hone. replace (c =? 32) with false by lia. rewrite A. reflexivity.
    + change (c - 48) with (digit_val c). change (c :: s) with ([c] ++ s). rewrite <- rw_app. hcbn. set (x := u16 _).
      assert (0 <= x < 65536) as HX by (apply Z.mod_pos_bound; lia).
      assert (x mod 65536 = (co * 10 + digit_val c) mod 65536) as EX by (apply Z.mod_mod; lia).
      specialize (IH x (rw cf raw [c]) HF' HX). rewrite (dec_from_mod s _ _ EX) in IH. exact IH.
Qed.

Lemma lax_version_run cf m me re q co rs na va raw v w : version_ok v -> lax_version (cf_request cf) v w ->
  hsteps cf (MkH HVersionH me re q co rs na va raw) m w
    (MkH HVersionMinor me re q co rs na va (rw cf raw w)) (set_ver v m).
Proof.
  intros _ (c & a & e & b & -> & C & A1 & A2 & A3 & B1 & B2 & B3).
  destruct a as [|d maj]; [congruence|]. inversion A2 as [|? ? D1 D2]; subst.
  change (c :: bs "TTP/" ++ (d :: maj) ++ bs "." ++ e :: b) with ([c] ++ [84] ++ [84] ++ [80] ++ [47] ++ [d] ++ (maj ++ [46] ++ [e] ++ b)).
  rewrite <- !rw_app.
  set (m0 := if c =? 72 then m else version00 m).
  eapply hsteps_app with (h1 := MkH HVersionT1 me re q co rs na va (rw cf raw [c])) (m1 := m0).
  { hone. change (ch "H") with 72. subst m0. destruct C as [-> |(R & [-> | ->])]; cbn [Z.eqb Pos.eqb orb negb]; rewrite ?R; reflexivity. } hcbn.
  eapply hsteps_app; [hone; reflexivity|]. hcbn.
  eapply hsteps_app; [hone; reflexivity|]. hcbn.
  eapply hsteps_app; [hone; reflexivity|]. hcbn.
  eapply hsteps_app; [hone; reflexivity|]. hcbn.
  eapply hsteps_app; [hone; rewrite (proj1 (is_dec_digit _ D1)); reflexivity|]. hcbn.
  change (d - 48) with (digit_val d).
  assert (0 <= digit_val d < 65536) by (unfold is_dec, digit_val in *; lia).
  assert (0 <= digit_val e < 65536) by (unfold is_dec, digit_val in *; lia).
  eapply hsteps_app.
  { apply lax_maj; auto; destruct m0; auto. }
  eapply hsteps_app; [hone; reflexivity|]. hcbn.
  eapply hsteps_app; [hone; rewrite (proj1 (is_dec_digit _ B1)); reflexivity|]. hcbn.
  change (e - 48) with (digit_val e).
  match goal with |- hsteps _ _ ?mm _ _ ?m2 =>
    replace m2 with (set_m_vmin (dec_from (no_blanks b) (m_vmin mm) mod 65536) mm) end.
  - apply lax_min; auto; destruct m; auto.
  - unfold set_ver. rewrite <- A3, <- B3. rewrite !dec_value_cons. subst m0. destruct (c =? 72), m; reflexivity.
Qed.

Lemma run_target cf m na va raw r : reqline_ok r ->
  hsteps cf (MkH HMethodStart [] [] [] 0 [] na va raw) m (request_target r)
    (MkH HVersionH (rl_method r) (rl_resource r) (match rl_query r with Some q => q | None => [] end) 0 [] na va (rw cf raw (request_target r))) m.
Proof.
  intros (A1 & A2 & A3 & A4 & A5 & A6 & A7 & A8). unfold request_target.
  destruct r as [me re q v]. cbn [rl_method rl_resource rl_query rl_version] in *.
  destruct me as [|c me]; [congruence|]. inversion A2 as [|? ? T1 T2]; subst.
  destruct (token_ok c T1) as (B0 & _ & B1 & B2 & B3 & _).
  change ((c :: me) ++ bs " " ++ re ++ match q with Some q0 => bs "?" ++ q0 | None => [] end ++ bs " ")
    with ([c] ++ (me ++ [32] ++ re ++ match q with Some q0 => [63] ++ q0 | None => [] end ++ [32])).
  rewrite zlen_cons in A3. pose proof (zlen_nonneg me).
  rewrite <- !rw_app.
  eapply hsteps_app.
  { hone. replace (c =? 32) with false by lia. replace (c =? 13) with false by lia. replace (c =? 10) with false by lia.
    cbn [negb andb]. rewrite B0. reflexivity. }
  hcbn.
  eapply hsteps_app; [apply acc_method; auto; rewrite zlen_cons, zlen_nil; lia|].
  eapply hsteps_app; [hone; reflexivity|]. hcbn.
  eapply hsteps_app; [apply acc_resource; auto; rewrite zlen_nil; lia|].
  destruct q as [q|].
  - rewrite <- !rw_app. rewrite <- app_assoc. eapply hsteps_app; [hone; reflexivity|]. hcbn.
    destruct A6 as [A6 A6']. eapply hsteps_app; [apply acc_query; auto; rewrite zlen_nil; lia|].
    hone; reflexivity.
  - rewrite rw_nil. cbn [app]. hone; reflexivity.
Qed.

Lemma lax_loop cf m hd w s : head_ok cf hd -> lax_head hd w ->
  exists h, h_loop cf (h_init cf) m (w ++ s) = mksub TTrue None (h, head_m1 cf m hd) s /\ nostate h = nostate (head_h cf hd).
Proof.
  intros HO LX. unfold h_init. destruct hd as [r l|r l]; cbn [hdrs_of] in *; destruct HO as (R & A & B); rewrite R.
  - destruct LX as (u & LV & ->). rewrite <- !app_assoc.
    assert (cf_request cf = true -> m_vmaj (set_ver (rl_version r) m) <> 0) as HV.
    { intros _. destruct A as (_ & _ & _ & _ & _ & _ & _ & A). unfold set_ver. destruct m; cbn. lia. }
    rewrite (run_target cf m [] [] [] r A). pose proof A as (_ & _ & _ & _ & _ & _ & A' & _).
    rewrite (lax_version_run cf m _ _ _ _ _ _ _ _ _ u A') by (rewrite R; exact LV).
    change (CRLF ++ wire_hdrs l ++ CRLF ++ s) with (eol_bytes EolCRLF ++ wire_hdrs l ++ CRLF ++ s).
    rewrite (run_eol cf _ false EolCRLF _ _ _ _ _ _ _ _ _ (ending_minor cf R) HV). cbn [after_eol].
    rewrite run_hdrs by auto. rewrite h_loop_done. eexists. split; reflexivity.
  - destruct LX as (u & k & LV & K1 & K2 & K3 & ->). rewrite <- !app_assoc.
    destruct A as (A1 & A2 & A3 & A4 & A5 & A6). destruct k as [|d k]; [congruence|]. inversion K2 as [|? ? D1 D2]; subst.
    destruct (is_dec_digit d D1) as (B0 & _).
    rewrite (lax_version_run cf m _ _ _ _ _ _ _ _ _ u A1) by (rewrite R; exact LV).
    assert (0 <= digit_val d < 65536) by (unfold is_dec, digit_val in *; lia).
    assert (forall raw, hsteps cf (MkH HVersionMinor [] [] [] 0 [] [] [] raw) (set_ver (sl_version r) m) ([32] ++ [d] ++ k ++ [32] ++ sl_reason r ++ [13] ++ [10])
      (MkH HHeaderStart [] [] [] (dec_from k (digit_val d) mod 65536) (sl_reason r) [] [] (rw cf raw ([32] ++ [d] ++ k ++ [32] ++ sl_reason r ++ [13] ++ [10]))) (set_ver (sl_version r) m)) as ST.
    { intros raw. rewrite <- !rw_app.
      eapply hsteps_app; [hone; cbn; rewrite R; reflexivity|]. hcbn.
      eapply hsteps_app; [hone; rewrite B0; reflexivity|]. hcbn.
      eapply hsteps_app; [apply lax_code; auto|].
      eapply hsteps_app; [hone; reflexivity|]. hcbn.
      eapply hsteps_app; [apply acc_reason; auto; rewrite zlen_nil; lia|].
      eapply hsteps_app; [hone; reflexivity|]. hcbn.
      hone. rewrite R. reflexivity. }
    replace (bs " " ++ (d :: k) ++ bs " " ++ sl_reason r ++ CRLF ++ wire_hdrs l ++ CRLF ++ s)
      with (([32] ++ [d] ++ k ++ [32] ++ sl_reason r ++ [13] ++ [10]) ++ wire_hdrs l ++ CRLF ++ s) by (cbn [bs app]; rewrite <- !app_assoc; cbn [app]; rewrite <- app_assoc; reflexivity).
    rewrite ST. rewrite run_hdrs by (auto; congruence). rewrite h_loop_done. eexists. split; [reflexivity|].
    unfold head_h, nostate. cbn [hdrs_of]. rewrite <- K3, dec_value_cons. reflexivity.
Qed.
