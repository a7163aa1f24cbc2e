(** Memory safety and size limits of the HTTP parser. *)
From Coq Require Import String ZArith List Lia Bool Permutation.
From Coq Require Import ZifyBool ZifyNat.
From Verif Require Import Base Digits AlgModel FormModel DictModel MultipartModel HttpModel HttpBase HttpSplit HttpSpec HttpProofs HttpHead HttpBody HttpChunk.
Import ListNotations.

Local Arguments zlen : simpl never.
Local Arguments Z.add : simpl never.
Local Arguments Z.sub : simpl never.
Local Arguments used : simpl never.
Local Arguments finish : simpl never.
Local Arguments cache_fill : simpl never.

(* ------------------------------------------------------------------ what header parsing leaves alone *)

Definition same_body (m m' : msg) : Prop := m_cache m' = m_cache m /\ m_buf m' = m_buf m /\ m_clen m' = m_clen m.
Lemma same_body_refl m : same_body m m.
Proof. repeat split. Qed.
Lemma same_body_trans a b c : same_body a b -> same_body b c -> same_body a c.
Proof. intros (?&?&?) (?&?&?). repeat split; congruence. Qed.

Lemma h_char_body cf h m c : match h_char cf h m c with HCont _ m' => same_body m m' | HFail _ => True | HDone _ _ m' => same_body m m' end.
Proof.
  unfold same_body, h_char, add_header, version00. destruct (h_state h);
  repeat match goal with |- context [if ?b then _ else _] => destruct b end; cbn; auto.
Qed.
Lemma h_loop_body cf s : forall h m, same_body m (snd (s_st (h_loop cf h m s))).
Proof.
  induction s as [|c s IH]; intros h m; cbn [h_loop]; [apply same_body_refl|].
  pose proof (h_char_body cf (save_raw cf h c) m c) as HC. destruct (h_char cf (save_raw cf h c) m c) as [h2 m2|e|[|] h2 m2]; cbn; auto.
  - eapply same_body_trans; eauto.
  - apply same_body_refl.
Qed.
Lemma update_message_body cf h m : same_body m (update_message cf h m).
Proof. unfold update_message. destruct (cf_request cf); [destruct (h_query h)|]; repeat split. Qed.

(* ------------------------------------------------------------------ the invariant *)

Definition written (buf : list (option Z)) (n : Z) : Prop := exists l rest, buf = map Some l ++ rest /\ zlen l = n.
Definition stores (cf : pcfg) : bool := negb (cf_handler cf) && negb (cf_headers_only cf).
Definition bphase (cf : pcfg) (ph : phase) (cr : Z) (m : msg) : Prop :=
  stores cf = true ->
  match ph with
  | PContent => written (m_buf m) (Z.min cr (cf_max cf)) /\ m_clen m = zlen (m_buf m)
  | PFooters | PEnd => exists body, content_of m = Ok body
  | _ => True
  end.
Definition bsize (cf : pcfg) (m : msg) : Prop :=
  zlen (m_cache m) <= cf_max cf /\ zlen (m_buf m) <= cf_max cf /\ 0 <= m_clen m <= cf_max cf.
Definition binv (cf : pcfg) (st : pst) (m : msg) : Prop := bsize cf m /\ bphase cf (p_phase st) (p_content_read st) m.

Lemma bsize_same cf m m' : same_body m m' -> bsize cf m -> bsize cf m'.
Proof. intros (A & B & C) H. unfold bsize. rewrite A, B, C. exact H. Qed.
Lemma content_same m m' : same_body m m' -> content_of m' = content_of m.
Proof. intros (A & B & C). unfold content_of. rewrite B, C. reflexivity. Qed.
Lemma bphase_same cf ph cr m m' : same_body m m' -> bphase cf ph cr m -> bphase cf ph cr m'.
Proof. intros S H HS. specialize (H HS). pose proof (content_same _ _ S) as CS. destruct S as (A & B & C). destruct ph; auto; rewrite ?B, ?C, ?CS; auto. Qed.

Lemma written_all buf : written buf (zlen buf) -> exists l, buf = map Some l.
Proof.
  intros (l & rest & -> & E). unfold zlen in E. rewrite app_length, map_length in E.
  destruct rest; cbn in E; [|lia]. exists l. apply app_nil_r.
Qed.
Lemma content_of_full m l : m_buf m = map Some l -> m_clen m = zlen (m_buf m) -> content_of m = Ok l.
Proof.
  intros E C. unfold content_of. rewrite C, E. rewrite Z.leb_refl. rewrite firstn_all2 by (unfold zlen; lia).
  rewrite all_some_map. reflexivity.
Qed.

Lemma create_ok m : 0 <= m_clen m < two64 - 1 -> create_content_buffer m = Ok (set_m_buf (repeat None (Z.to_nat (m_clen m))) m).
Proof. intros H. unfold create_content_buffer. rewrite wrap64_id by lia. replace (m_clen m + 1 <=? m_clen m) with false by lia. reflexivity. Qed.

Lemma zlen_repeat {A} (x : A) n : 0 <= n -> zlen (repeat x (Z.to_nat n)) = n.
Proof. intros. unfold zlen. rewrite repeat_length. lia. Qed.

(** finish_header_parsing *)
Lemma finish_headers_binv cf st m : 0 <= cf_max cf < two64 - 1 -> bsize cf m ->
  exists rc e st' m', finish_headers cf st m = Ok (rc, e, (st', m')) /\
    (rc = TTrue -> binv cf (set_p_phase PEnd st') m') /\ (rc <> TTrue -> p_phase st = PHeaders -> binv cf st' m').
Proof.
  intros HM HB. unfold finish_headers. set (st0 := set_p_remaining 0 (set_p_content_read 0 st)).
  assert (p_phase st0 = p_phase st) as SP by (destruct st; reflexivity).
  assert (p_content_read st0 = 0) as SC by (destruct st; reflexivity).
  assert (forall x, p_content_read (set_p_phase x st0) = 0) as SC2 by (intros; destruct st; reflexivity).
  assert (forall x y, p_content_read (set_p_remaining y (set_p_phase x st0)) = 0) as SC3 by (intros; destruct st; reflexivity).
  assert (forall x y, p_phase (set_p_remaining y (set_p_phase x st0)) = x) as SC4 by (intros; destruct st; reflexivity).
  assert (forall x y, p_phase (set_p_phase x y) = x) as SP2 by (intros; destruct y; reflexivity).
  clearbody st0.
  set (m1 := update_transfer_encoding (set_m_clen 0 m)).
  pose proof (update_message_body cf (p_h st) m1) as S1. set (m0 := update_message cf (p_h st) m1) in *. clearbody m0.
  assert (m_cache m0 = m_cache m /\ m_buf m0 = m_buf m /\ m_clen m0 = 0) as (C1 & C2 & C3).
  { destruct S1 as (A & B & C). unfold m1 in *. cbn in *. auto. }
  clear S1 m1. destruct HB as (B1 & B2 & B3).
  assert (bsize cf m0) as HB0. { unfold bsize. rewrite C1, C2, C3. lia. }
  assert (content_of m0 = Ok []) as CO by (apply content_of_empty; auto).
  assert (forall ph cr, ph <> PContent -> bphase cf ph cr m0) as BP.
  { intros ph cr N _. destruct ph; try congruence; eauto. }
  assert (binv cf (set_p_phase PEnd st0) m0) as BE by (split; [auto|apply BP; rewrite SP2; discriminate]).
  destruct (m_chunked m0).
  { do 4 eexists. split; [reflexivity|]. split; [intros _|intros _ _]; (split; [auto|apply BP; rewrite !SP2; discriminate]). }
  destruct (is_content_length_implied (cf_request cf) m0).
  { do 4 eexists. split; [reflexivity|]. split; [intros _; split; [auto|apply BP; rewrite !SP2; discriminate]|congruence]. }
  destruct (d_has (m_headers m0) HEADER_CONTENT_LENGTH).
  - destruct (update_content_length m0) as [m2|] eqn:EU.
    + apply update_content_length_spec in EU as (n & Hn & ->). assert (m_clen (set_m_clen n m0) = n) as -> by reflexivity.
      destruct (n =? 0) eqn:E0.
      { assert (n = 0) as -> by lia.
        assert (content_of (set_m_clen 0 m0) = Ok []) as CO' by (apply content_of_empty; auto).
        do 4 eexists. split; [reflexivity|]. split; [|congruence]. intros _. split; [unfold bsize; cbn; rewrite C1, C2; lia|].
        rewrite !SP2. intros _. eauto. }
      set (m3 := if cf_max cf <? n then set_m_clen (cf_max cf) (set_m_clen n m0) else set_m_clen n m0).
      assert (m_clen m3 = Z.min n (cf_max cf) /\ m_cache m3 = m_cache m /\ m_buf m3 = m_buf m) as (D1 & D2 & D3).
      { unfold m3. destruct (cf_max cf <? n) eqn:E; cbn; repeat split; auto; lia. }
      clearbody m3. destruct (cf_headers_only cf) eqn:EH.
      { do 4 eexists. split; [reflexivity|]. split; [|congruence]. intros _. split; [unfold bsize; rewrite D1, D2, D3; lia|].
        intros X. unfold stores in X. rewrite EH, andb_false_r in X. discriminate. }
      rewrite create_ok by lia. cbn [obind]. do 4 eexists. split; [reflexivity|]. split; [discriminate|]. intros _ _.
      split.
      * unfold bsize. cbn [m_cache m_buf m_clen set_m_buf]. rewrite D1, D2, zlen_repeat by lia. lia.
      * rewrite SC4, SC3. intros _. split; [|cbn [m_buf m_clen set_m_buf]; rewrite zlen_repeat; lia].
        exists [], (repeat None (Z.to_nat (m_clen m3))). split; [reflexivity|]. rewrite zlen_nil. lia.
    + do 4 eexists. split; [reflexivity|]. split; [discriminate|]. intros _ HP. split; auto. apply BP. rewrite SP, HP. discriminate.
  - destruct (cf_request cf).
    { do 4 eexists. split; [reflexivity|]. split; [intros _; split; [auto|apply BP; rewrite !SP2; discriminate]|congruence]. }
    assert (bsize cf (set_m_cache [] m0)) as HB1. { unfold bsize. cbn. rewrite C2, C3, zlen_nil. lia. }
    do 4 eexists. split; [reflexivity|]. split; [intros X|intros _ _]; (split; [auto|]); rewrite !SP2; intros HS; auto.
    exists []. apply content_of_empty. auto.
Qed.

(** the chunk cache *)
Lemma k1_cache cf s : forall k ca pa, zlen ca <= cf_max cf -> zlen (ko_cache (s_st (k1_loop cf k ca pa s))) <= cf_max cf.
Proof.
  induction s as [|c s IH]; intros k ca pa HL; cbn [k1_loop]; auto.
  destruct (k1_char cf k ca pa c) as [n k1 ca1 pa1| | |] eqn:E; cbn; auto. apply IH.
  revert E. unfold k1_char, k_char. destruct (k_state k);
  repeat match goal with |- context [if ?b then _ else _] => destruct b eqn:?; cbn end; intros E; inversion E; subst; auto;
  rewrite zlen_app, (zlen_cons c), zlen_nil; lia.
Qed.

Lemma cache_fill_len cf ca b : zlen ca <= cf_max cf -> zlen (cache_fill cf ca b) <= cf_max cf.
Proof. intros H. unfold cache_fill. rewrite zlen_app. unfold zlen in *. rewrite firstn_length. lia. Qed.

(** writing content *)
Lemma written_wr buf a bytes : written buf a -> 0 <= a -> a + zlen bytes <= zlen buf -> written (wr buf a bytes) (a + zlen bytes).
Proof.
  intros (l & rest & -> & E) H0 HL. unfold wr.
  rewrite firstn_app. replace (Z.to_nat a - List.length (map Some l))%nat with O by (rewrite map_length; unfold zlen in *; lia).
  rewrite (firstn_all2 (map Some l)) by (rewrite map_length; unfold zlen in *; lia). cbn [firstn]. rewrite app_nil_r.
  exists (l ++ bytes). eexists. split; [rewrite map_app, <- app_assoc; reflexivity|]. rewrite zlen_app. lia.
Qed.

(** one round *)
Lemma round_binv cf st m s : 0 <= cf_max cf < two64 - 1 -> pinv cf st m -> binv cf st m ->
  exists r, p_round cf st m s = Ok r /\ (s_rc r = TTrue -> binv cf (set_p_phase PEnd (fst (s_st r))) (snd (s_st r)))
    /\ (s_rc r <> TTrue -> binv cf (fst (s_st r)) (snd (s_st r))).
Proof.
  intros HM HP HB. unfold p_round.
  assert (p_phase st = PStart \/ p_phase st = PHeaders ->
    exists r, (let r := parse_headers cf (set_p_phase PHeaders st) m s in
    match s_rc r with
    | TTrue =>
      obind (finish_headers cf (fst (s_st r)) (snd (s_st r))) (fun x =>
        match x with (rc, e, stm) => Ok (mksub rc e stm (s_rest r)) end)
    | _ => Ok r
    end) = Ok r /\ (s_rc r = TTrue -> binv cf (set_p_phase PEnd (fst (s_st r))) (snd (s_st r)))
    /\ (s_rc r <> TTrue -> binv cf (fst (s_st r)) (snd (s_st r)))) as HH.
  { intros _. cbv zeta. unfold parse_headers. cbn [s_rc s_st s_rest fst snd].
    pose proof (h_loop_body cf s (p_h (set_p_phase PHeaders st)) m) as SB.
    set (ra := h_loop cf (p_h (set_p_phase PHeaders st)) m s) in *. clearbody ra.
    match goal with |- context [finish_headers cf ?x _] => set (st1 := x) end.
    assert (p_phase st1 = PHeaders) as PP by (unfold st1; destruct st; reflexivity). clearbody st1.
    pose proof (bsize_same cf _ _ SB (proj1 HB)) as SB2.
    assert (binv cf st1 (snd (s_st ra))) as B1. { split; auto. rewrite PP. intros _. exact I. }
    destruct (s_rc ra).
    - destruct (finish_headers_binv cf st1 (snd (s_st ra)) HM SB2) as (rc & e & st' & m' & E & T1 & T2).
      rewrite E. cbn [obind]. eexists. split; [reflexivity|]. cbn. auto.
    - eexists. split; [reflexivity|]. cbn. split; [discriminate|auto].
    - eexists. split; [reflexivity|]. cbn. split; [discriminate|auto]. }
  destruct (p_phase st) eqn:EP; auto.
  - (* footers *)
    eexists. split; [reflexivity|]. unfold parse_headers. cbn [s_rc s_st fst snd].
    pose proof (h_loop_body cf s (p_h st) m) as SB.
    set (ra := h_loop cf (p_h st) m s) in *. clearbody ra. destruct HB as [B1 B2]. rewrite EP in B2.
    pose proof (bsize_same cf _ _ SB B1). pose proof (bphase_same cf _ _ _ _ SB B2) as B3.
    split; intros _; (split; [auto|]).
    + destruct st; cbn in *. exact B3.
    + destruct st; cbn in *. subst. exact B3.
  - (* content *)
    rewrite consume_content_eq by auto. eexists. split; [reflexivity|]. cbn [s_rc s_st fst snd].
    destruct HB as [B1 B2]. rewrite EP in B2. pose proof HP as (HC & _). destruct (HC EP) as (R0 & C0 & RC & HZ).
    set (n := content_bytes st s). set (bytes := firstn (Z.to_nat n) s).
    assert (0 <= n <= p_remaining st /\ n <= zlen s) as Hn. { unfold n, content_bytes. pose proof (zlen_nonneg s). lia. }
    assert (zlen bytes = n) as ZB. { unfold bytes. unfold zlen in *. rewrite firstn_length. lia. }
    assert (p_phase (content_st cf st bytes) = PContent) as PP by (unfold content_st; destruct (cf_handler cf); destruct st; auto).
    assert (p_content_read (content_st cf st bytes) = p_content_read st + n) as PC.
    { unfold content_st. rewrite ZB. destruct (cf_handler cf); destruct st; cbn in *; apply wrap64_id; lia. }
    destruct (cf_handler cf) eqn:EH.
    { unfold content_msg. rewrite EH. split; intros _; (split; [auto|]); intros X; unfold stores in X; rewrite EH in X; discriminate. }
    specialize (HZ eq_refl).
    assert (content_msg cf st m bytes = set_m_buf (wr (m_buf m) (p_content_read st) (firstn (Z.to_nat (cf_max cf - p_content_read st)) bytes)) m) as CM.
    { unfold content_msg. rewrite EH. reflexivity. }
    set (w := firstn (Z.to_nat (cf_max cf - p_content_read st)) bytes) in *.
    assert (zlen w = Z.min n (Z.max 0 (cf_max cf - p_content_read st))) as ZW.
    { unfold w, zlen in *. rewrite firstn_length. lia. }
    assert (zlen (m_buf (content_msg cf st m bytes)) = zlen (m_buf m)) as ZBuf.
    { rewrite CM. cbn [m_buf set_m_buf]. destruct w as [|w0 w'] eqn:EW.
      - rewrite wr_nil. reflexivity.
      - rewrite <- EW in *. assert (0 < zlen w) by (rewrite EW, zlen_cons; pose proof (zlen_nonneg w'); lia). apply wr_len; lia. }
    assert (bsize cf (content_msg cf st m bytes)) as BS.
    { destruct B1 as (X1 & X2 & X3). unfold bsize. rewrite ZBuf. rewrite CM. cbn. auto. }
    assert (stores cf = true -> written (m_buf (content_msg cf st m bytes)) (Z.min (p_content_read st + n) (cf_max cf)) /\ m_clen (content_msg cf st m bytes) = zlen (m_buf (content_msg cf st m bytes))) as BW.
    { intros HS. destruct (B2 HS) as [W L]. rewrite ZBuf. rewrite CM at 2. cbn [m_clen set_m_buf]. split; auto.
      rewrite CM. cbn [m_buf set_m_buf]. destruct w as [|w0 w'] eqn:EW.
      - rewrite wr_nil. rewrite zlen_nil in ZW. replace (Z.min (p_content_read st + n) (cf_max cf)) with (Z.min (p_content_read st) (cf_max cf)) by lia. auto.
      - rewrite <- EW in *. assert (0 < zlen w) by (rewrite EW, zlen_cons; pose proof (zlen_nonneg w'); lia).
        replace (Z.min (p_content_read st + n) (cf_max cf)) with (p_content_read st + zlen w) by lia.
        apply written_wr; try lia. replace (p_content_read st) with (Z.min (p_content_read st) (cf_max cf)) by lia. auto. }
    destruct (p_remaining st <=? zlen s) eqn:EA.
    + split; [|congruence]. intros _. split; auto. cbn [p_phase set_p_phase]. intros HS. destruct (BW HS) as [W L].
      assert (n = p_remaining st) as En by (unfold n, content_bytes; lia).
      rewrite En in W. rewrite <- HZ, <- ZBuf in W. apply written_all in W as [l W]. exists l. apply content_of_full; auto.
    + split; [discriminate|]. intros _. split; auto. rewrite PP, PC. exact BW.
  - (* no length *)
    eexists. split; [reflexivity|]. cbn [s_rc s_st fst snd]. split; [discriminate|]. intros _.
    destruct HB as [(X1 & X2 & X3) B2]. unfold consume_no_length.
    assert (forall pl x y z, p_phase (set_p_payload pl (set_p_content_read x (set_p_total y (set_p_last z st)))) = PContentNoLength) as Q1 by (intros; destruct st; auto).
    assert (forall x y z, p_phase (set_p_content_read x (set_p_total y (set_p_last z st))) = PContentNoLength) as Q2 by (intros; destruct st; auto).
    destruct (cf_handler cf); cbn [fst snd].
    + split; [unfold bsize; auto|]. rewrite Q1. intros _. exact I.
    + split; [|rewrite Q2; intros _; exact I]. unfold bsize. cbn [m_cache m_buf m_clen set_m_cache]. split; [apply cache_fill_len; auto|auto].
  - (* chunks *)
    pose proof HP as (_ & HK & _). destruct HB as [(X1 & X2 & X3) B2]. cbv zeta.
    unfold parse_chunks. rewrite parse_chunks_k1 by auto.
    pose proof (k1_cache cf s (p_k st) (m_cache m) (p_payload st) X1) as KC.
    pose proof (k1_loop_footers cf s (p_k st) (m_cache m) (p_payload st)) as KF. cbv zeta in KF.
    set (ra := k1_loop cf (p_k st) (m_cache m) (p_payload st) s) in *. clearbody ra. cbn [s_rc s_st s_err s_rest fst snd].
    match goal with |- context [mksub (s_rc ra) (s_err ra) (?x, _)] => set (st2 := x) end.
    assert (p_phase st2 = PChunks \/ (p_phase st2 = PFooters /\ s_rc ra = TTrue)) as PP.
    { unfold st2. destruct (ko_footers (s_st ra)); destruct st; cbn in *; subst; auto. destruct KF; auto. }
    clearbody st2. set (m2 := set_m_cache (ko_cache (s_st ra)) m).
    assert (bsize cf m2) as BS. { unfold bsize, m2. cbn. auto. }
    destruct (s_rc ra) eqn:ER.
    + destruct (cf_handler cf) eqn:EH.
      { eexists. split; [reflexivity|]. cbn [s_rc s_st fst snd]. split; [|congruence]. intros _. split; auto.
        intros X. unfold stores in X. rewrite EH in X. discriminate. }
      rewrite concatenate_ok by (unfold m2; cbn; lia). cbn [obind]. eexists. split; [reflexivity|]. cbn [s_rc s_st fst snd].
      set (m3 := set_m_buf (map Some (m_cache m2)) (set_m_clen (zlen (m_cache m2)) m2)).
      assert (content_of m3 = Ok (m_cache m2)) as CO by (apply content_of_cache).
      assert (bsize cf m3) as BS3. { unfold bsize, m3, m2. cbn. unfold zlen at 2. rewrite map_length. fold (zlen (ko_cache (s_st ra))). pose proof (zlen_nonneg (ko_cache (s_st ra))). lia. }
      split; intros T; (split; [auto|]).
      * cbn. intros _. eauto.
      * destruct PP as [PP|[PP _]]; rewrite PP in *; [congruence|]. intros _. eauto.
    + eexists. split; [reflexivity|]. cbn [s_rc s_st fst snd]. split; [discriminate|]. intros _. split; auto.
      destruct PP as [PP|[PP ?]]; [|congruence]. rewrite PP. intros _. exact I.
    + eexists. split; [reflexivity|]. cbn [s_rc s_st fst snd]. split; [discriminate|]. intros _. split; auto.
      destruct PP as [PP|[PP ?]]; [|congruence]. rewrite PP. intros _. exact I.
  - eexists. split; [reflexivity|]. cbn [s_rc s_st fst snd]. split; [|congruence]. intros _. destruct HB as [B1 B2]. split; auto. rewrite EP in B2. exact B2.
Qed.

Lemma p_loop_binv cf : 0 <= cf_max cf < two64 - 1 -> forall n st m s t, pinv cf st m -> binv cf st m ->
  match p_loop n cf st m s t with
  | Ok (Some (r, _)) => (s_rc r = TTrue -> binv cf (set_p_phase PEnd (fst (s_st r))) (snd (s_st r)))
                        /\ (s_rc r <> TTrue -> binv cf (fst (s_st r)) (snd (s_st r)))
  | Ok None => True
  | Bad _ => False
  end.
Proof.
  intros HM. induction n as [|n IH]; intros st m s t HP HB; cbn [p_loop]; auto.
  destruct (round_binv cf st m s HM HP HB) as (r & E & T1 & T2). rewrite E. cbn [obind].
  destruct (round_ok _ _ _ _ _ HP E) as (_ & O2 & _ & _).
  destruct (s_rc r) eqn:ER; [split; rewrite ER; auto|split; rewrite ER; auto|].
  destruct (s_rest r); [split; rewrite ER; auto|]. apply IH; auto. apply T2. discriminate.
Qed.

Lemma finish_end_binv cf st m : binv cf st m -> p_phase st = PEnd ->
  match finish cf st m with
  | Ok m' => binv cf st m'
  | Bad b => b = BadException
  end.
Proof.
  intros [B1 B2] HP. unfold finish. rewrite HP. rewrite HP in B2.
  set (m1 := compute_status (set_m_valid true m) (m_valid (set_m_valid true m))).
  assert (same_body m m1) as S1 by (repeat split). clearbody m1.
  pose proof (bsize_same cf _ _ S1 B1) as B3. pose proof (bphase_same cf _ _ _ _ S1 B2) as B4.
  assert (forall q, binv cf st (set_m_queries q m1)) as BQ.
  { intros q. split; [exact B3|]. rewrite HP. exact B4. }
  unfold finish_forms. destruct (cf_request cf); cbn [andb]; [|split; [auto|rewrite HP; auto]].
  fold (stores cf). destruct (stores cf) eqn:ES; [|split; [auto|rewrite HP; auto]].
  destruct (B4 ES) as [body CO].
  repeat match goal with |- context [if ?b then _ else _] => destruct b end; rewrite ?CO; cbn [obind].
  - apply BQ.
  - destruct (parse_multipart _ _); auto.
  - split; [auto|rewrite HP; auto].
Qed.

Lemma parse_binv cf st m s : 0 <= cf_max cf < two64 - 1 -> pinv cf st m -> binv cf st m ->
  match parse cf st m s with
  | Ok (Some r) => binv cf (r_st r) (r_msg r)
  | Ok None => True
  | Bad b => b = BadException
  end.
Proof.
  intros HM HP HB. unfold parse. set (m0 := if m_missing m then set_m_after true m else m).
  assert (pinv cf st m0) as HP0 by (subst m0; destruct (m_missing m); auto).
  assert (binv cf st m0) as HB0. { subst m0; destruct (m_missing m); auto. }
  clearbody m0. pose proof (p_loop_binv cf HM 4 st m0 s 0 HP0 HB0) as PL.
  destruct (p_loop 4 cf st m0 s 0) as [[[r t]|]|]; cbn [obind]; auto; [|contradiction].
  destruct PL as [T1 T2]. destruct (s_rc r) eqn:ER.
  - pose proof (finish_end_binv cf _ _ (T1 eq_refl) eq_refl) as F.
    destruct (finish cf (set_p_phase PEnd (fst (s_st r))) (snd (s_st r))); cbn [obind]; auto.
  - cbn. destruct (T2 ltac:(discriminate)) as [B1 B2]. split; [exact B1|exact B2].
  - cbn. apply (T2 ltac:(discriminate)).
Qed.

(** a new or cleared message *)
Lemma reach_binv cf st m : 0 <= cf_max cf < two64 - 1 -> reach new_msg false cf st m -> binv cf st m.
Proof.
  intros HM H. induction H as [m (A & B & C & _)|st m m' H IH (A & B & C & _)|st m s r H IH NE E|]; [| | |discriminate].
  - split; [unfold bsize; rewrite A, B, C, !zlen_nil; lia|]. intros _. exact I.
  - split; [unfold bsize; rewrite A, B, C, !zlen_nil; lia|]. intros _. exact I.
  - pose proof (reach_pinv _ _ _ _ _ (proj1 HM) H) as HP.
    pose proof (parse_binv cf st m s HM HP IH) as P. rewrite E in P. exact P.
Qed.

(** no memory error; stored content within the limit *)
Lemma parse_safe cf st m s : 0 <= cf_max cf < two64 - 1 -> reach new_msg false cf st m -> s <> [] ->
  (exists r, parse cf st m s = Ok (Some r)) \/ parse cf st m s = Bad BadException.
Proof.
  intros HM H NE. pose proof (reach_pinv _ _ _ _ _ (proj1 HM) H) as HP.
  pose proof (parse_binv cf st m s HM HP (reach_binv cf st m HM H)) as P.
  pose proof (parse_some cf st m s HP) as PS.
  destruct (parse cf st m s) as [[r|]|b]; [eauto|congruence|right; congruence].
Qed.
