(** Proofs about the HTTP parser: reachable states, segmentation, consumed bytes. *)
From Coq Require Import String ZArith List Lia Bool.
From Coq Require Import ZifyBool ZifyNat.
From Verif Require Import Base Digits AlgModel FormModel DictModel MultipartModel HttpModel HttpBase HttpSplit HttpSpec.
Import ListNotations.

Local Arguments zlen : simpl never.
Local Arguments Z.add : simpl never.
Local Arguments Z.sub : simpl never.
Local Arguments used : simpl never.
Local Arguments finish : simpl never.
Local Arguments cache_fill : simpl never.

(* ------------------------------------------------------------------ the invariant in all reachable states *)

Lemma finish_headers_k cf st m rc e st' m' : finish_headers cf st m = Ok (rc, e, (st', m')) ->
  p_k st' = p_k st /\ (rc = TFalse -> p_phase st' = p_phase st) /\ p_last st' = p_last st /\ p_payload st' = p_payload st
  /\ p_h st' = p_h st /\ p_total st' = p_total st.
Proof.
  unfold finish_headers. set (m0 := update_message _ _ _). clearbody m0.
  set (dh := d_has (m_headers m0) HEADER_CONTENT_LENGTH). clearbody dh.
  destruct st as [ph h k rem cr la to pl]. cbn.
  repeat match goal with |- context [if ?b then _ else _] => destruct b; cbn end;
  repeat match goal with |- context [update_content_length ?x] => destruct (update_content_length x); cbn end;
  repeat match goal with |- context [if ?b then _ else _] => destruct b; cbn end;
  repeat match goal with |- context [create_content_buffer ?x] => destruct (create_content_buffer x); cbn end;
  intros H; inversion H; subst; cbn; repeat split; auto; discriminate.
Qed.

Lemma round_k cf st m s r : pinv cf st m -> p_round cf st m s = Ok r ->
  k_ok (p_k (fst (s_st r))) /\ (s_rc r = TFalse -> p_phase (fst (s_st r)) <> PContent).
Proof.
  intros HI. pose proof HI as (HC & HK & HM). unfold p_round.
  assert (p_phase st = PStart \/ p_phase st = PHeaders ->
     (let r := parse_headers cf (set_p_phase PHeaders st) m s in
    match s_rc r with
    | TTrue =>
      obind (finish_headers cf (fst (s_st r)) (snd (s_st r))) (fun x =>
        match x with (rc, e, stm) => Ok (mksub rc e stm (s_rest r)) end)
    | _ => Ok r
    end) = Ok r -> k_ok (p_k (fst (s_st r))) /\ (s_rc r = TFalse -> p_phase (fst (s_st r)) <> PContent)) as HH.
  { intros HP. cbv zeta. set (ra := parse_headers cf (set_p_phase PHeaders st) m s).
    assert (p_k (fst (s_st ra)) = p_k st /\ p_phase (fst (s_st ra)) = PHeaders) as [R1 R2] by (unfold ra, parse_headers; destruct st; auto).
    clearbody ra. destruct (s_rc ra) eqn:E.
    - destruct (finish_headers cf (fst (s_st ra)) (snd (s_st ra))) as [[[rc e] [st' m']]|x] eqn:EF; [|discriminate].
      intros H; inversion H; subst; cbn. destruct (finish_headers_k _ _ _ _ _ _ _ EF) as (A & B & _). rewrite A, R1. split; auto.
      intros X. rewrite B, R2 by auto. discriminate.
    - intros H; inversion H; subst. rewrite R1, R2. split; auto. discriminate.
    - intros H; inversion H; subst. rewrite R1, R2. split; auto. discriminate. }
  destruct (p_phase st) eqn:HP; auto.
  - intros H; inversion H; subst. unfold parse_headers. destruct st; cbn in *. subst. split; auto. discriminate.
  - rewrite consume_content_eq by auto. intros H; inversion H; subst; cbn.
    split.
    + unfold content_st. destruct (cf_handler cf); destruct st; auto.
    + destruct (p_remaining st <=? zlen s); discriminate.
  - intros H; inversion H; subst; cbn. split; [|discriminate]. unfold consume_no_length. destruct (cf_handler cf); destruct st; auto.
  - cbv zeta. unfold parse_chunks. rewrite parse_chunks_k1 by auto.
    pose proof (k1_loop_ok cf s (p_k st) (m_cache m) (p_payload st) HK) as K1.
    pose proof (k1_loop_footers cf s (p_k st) (m_cache m) (p_payload st)) as K4. cbv zeta in K4.
    set (ra := k1_loop cf (p_k st) (m_cache m) (p_payload st) s) in *. clearbody ra. cbn.
    assert (forall rc e x rest m', let r0 := mksub rc e (set_p_content_read x (set_p_total rest (set_p_last m'
       (if ko_footers (s_st ra) then set_p_phase PFooters (set_p_h (goto (p_h st) HHeaderStart) (set_p_payload (ko_payload (s_st ra)) (set_p_k (ko_k (s_st ra)) st)))
        else set_p_payload (ko_payload (s_st ra)) (set_p_k (ko_k (s_st ra)) st)))), m) (@nil Z) in
       k_ok (p_k (fst (s_st r0))) /\ p_phase (fst (s_st r0)) <> PContent) as G.
    { intros. subst r0. cbn. destruct (ko_footers (s_st ra)); destruct st; cbn in *; subst; split; auto; discriminate. }
    destruct (s_rc ra) eqn:E.
    + destruct (cf_handler cf).
      * intros H; inversion H; subst; cbn. destruct (G TTrue None 0 0 0) as [G1 G2]. destruct (ko_footers (s_st ra)); destruct st; cbn in *; split; auto.
      * match goal with |- context [concatenate_chunks ?x] => destruct (concatenate_chunks x) as [m'|x'] eqn:EC; [|discriminate] end.
        intros H; inversion H; subst; cbn. destruct (ko_footers (s_st ra)); destruct st; cbn in *; subst; split; auto; discriminate.
    + intros H; inversion H; subst; cbn. destruct (ko_footers (s_st ra)); destruct st; cbn in *; subst; split; auto; discriminate.
    + intros H; inversion H; subst; cbn. destruct (ko_footers (s_st ra)); destruct st; cbn in *; subst; split; auto; discriminate.
  - intros H; inversion H; subst; cbn. split; auto. rewrite HP. discriminate.
Qed.

Lemma p_loop_pinv cf : forall n st m s t r t', pinv cf st m -> p_loop n cf st m s t = Ok (Some (r, t')) ->
  k_ok (p_k (fst (s_st r))) /\ (s_rc r <> TTrue -> pinv cf (fst (s_st r)) (snd (s_st r))).
Proof.
  induction n as [|n IH]; intros st m s t r t' HI; [discriminate|]. rewrite p_loop_S.
  destruct (p_round cf st m s) as [r1|x] eqn:E; [|discriminate]. cbn [obind].
  destruct (round_ok _ _ _ _ _ HI E) as (_ & O2 & _ & _).
  destruct (round_k _ _ _ _ _ HI E) as [K1 K2].
  pose proof HI as (_ & _ & HM).
  destruct (s_rc r1) eqn:EC.
  - intros H; inversion H; subst. split; auto. congruence.
  - intros H; inversion H; subst. split; auto. intros _. apply pinv_other; auto.
  - destruct (s_rest r1); [|apply IH; auto]. intros H; inversion H; subst. split; auto.
Qed.

Lemma parse_pinv cf st m s r : pinv cf st m -> parse cf st m s = Ok (Some r) -> pinv cf (r_st r) (r_msg r).
Proof.
  intros HI. unfold parse. set (m0 := if m_missing m then set_m_after true m else m).
  assert (pinv cf st m0) as HI0 by (subst m0; destruct (m_missing m); auto).
  destruct (p_loop 4 cf st m0 s 0) as [[[r1 t]|]|x] eqn:EL; cbn [obind]; try discriminate.
  destruct (p_loop_pinv _ _ _ _ _ _ _ _ HI0 EL) as [K P]. pose proof HI as (_ & _ & HM).
  destruct (s_rc r1) eqn:EC.
  - match goal with |- context [finish ?a ?b ?c] => destruct (finish a b c) end; cbn [obind]; try discriminate.
    intros H; inversion H; subst; cbn. apply pinv_other; auto; destruct (fst (s_st r1)); cbn in *; auto; discriminate.
  - intros H; inversion H; subst; cbn. apply pinv_last. apply P. discriminate.
  - intros H; inversion H; subst; cbn. apply pinv_last. apply P. discriminate.
Qed.

Lemma p_init_pinv cf m : 0 <= cf_max cf -> pinv cf (p_init cf) m.
Proof. intros. apply pinv_other; auto; discriminate. Qed.
Lemma p_reset_pinv cf st m : 0 <= cf_max cf -> pinv cf (p_reset cf st) m.
Proof. intros. apply pinv_other; auto; discriminate. Qed.

Lemma missing_bytes_len n : 0 <= n -> zlen (missing_bytes n) = n.
Proof. intros. unfold missing_bytes, zlen. rewrite repeat_length. lia. Qed.

Lemma missing_pinv cf st m len rc e st' m' : pinv cf st m -> 0 <= len ->
  parse_missing_data cf st m len = Ok (rc, e, st', m') -> pinv cf st' m'.
Proof.
  intros HI HL. pose proof HI as (HC & HK & HM). unfold parse_missing_data, missing_step.
  destruct st as [ph h k rem cr la to pl]. cbn in HC, HK |- *.
  destruct ph; cbn; try (intros H; inversion H; subst; apply pinv_other; auto; discriminate).
  - (* content *)
    destruct (HC eq_refl) as (R0 & C0 & RC & HB). cbn in R0, C0, RC, HB.
    replace (rem =? 0) with false by lia.
    destruct (rem <? len) eqn:E1; cbn.
    { intros H; inversion H; subst. split; [|split]; auto. }
    assert (forall m2 c, (rem - len =? 0) = false -> 0 <= c -> c + rem - len < two64 ->
        (cf_handler cf = false -> zlen (m_buf m2) = Z.min (c + (rem - len)) (cf_max cf)) ->
        pinv cf {| p_phase := PContent; p_h := h; p_k := k; p_remaining := rem - len; p_content_read := c; p_last := len; p_total := wrap64 (to + len); p_payload := pl |} m2) as G.
    { intros. split; [|split]; auto. intros _. cbn. repeat split; auto; lia. }
    destruct (cf_handler cf) eqn:EH; cbn.
    + destruct (rem - len =? 0) eqn:E2; cbn.
      * match goal with |- context [finish ?a ?b ?c] => destruct (finish a b c) end; cbn; try discriminate.
        intros H; inversion H; subst. apply pinv_other; auto; discriminate.
      * intros H; inversion H; subst. split; [|split]; auto. intros _. cbn. rewrite EH. repeat split; auto; try lia.
    + specialize (HB eq_refl). rewrite (wrap64_id (cr + len)) by lia.
      destruct (cr + len <=? cf_max cf) eqn:E3; cbn.
      * unfold buf_write. cbn. rewrite missing_bytes_len by auto.
        replace (cr + len <=? zlen (m_buf m)) with true by lia. cbn.
        destruct (rem - len =? 0) eqn:E2; cbn.
        -- match goal with |- context [finish ?a ?b ?c] => destruct (finish a b c) end; cbn; try discriminate.
           intros H; inversion H; subst. apply pinv_other; auto; discriminate.
        -- intros H; inversion H; subst. apply (G _ (cr + len)); auto; try lia. intros _. cbn [m_buf set_m_buf set_m_missing].
           pose proof (wr_len (m_buf m) cr (missing_bytes len) C0) as WL. unfold wr in WL. rewrite missing_bytes_len in WL by auto.
           etransitivity; [apply WL; lia|lia].
      * destruct (rem - len =? 0) eqn:E2; cbn.
        -- match goal with |- context [finish ?a ?b ?c] => destruct (finish a b c) end; cbn; try discriminate.
           intros H; inversion H; subst. apply pinv_other; auto; discriminate.
        -- intros H; inversion H; subst. apply (G _ (cr + len)); auto; try lia. intros _. cbn [m_buf set_m_buf set_m_missing]. lia.
  - destruct (cf_handler cf); cbn; intros H; inversion H; subst; apply pinv_other; auto; discriminate.
  - destruct (match k_state k with KChunk => true | _ => false end) eqn:EK; cbn.
    2:{ intros H; inversion H; subst; apply pinv_other; auto; discriminate. }
    assert (k_state k = KChunk) as EK' by (destruct (k_state k); auto; discriminate). specialize (HK EK').
    destruct ((k_read k <? k_size k) && (len <=? k_size k - k_read k)) eqn:E2.
    2:{ intros H; inversion H; subst; apply pinv_other; auto; try discriminate. intros _. auto. }
    destruct k as [ks kstr ksz krd]. cbn in *.
    destruct (krd + len =? ksz) eqn:E3; destruct (cf_handler cf); intros H; inversion H; subst; apply pinv_other; auto; try discriminate;
    intros X; cbn in *; try discriminate; lia.
  - match goal with |- context [finish ?a ?b ?c] => destruct (finish a b c) end; cbn; try discriminate.
    intros H; inversion H; subst. apply pinv_other; auto; discriminate.
Qed.

Lemma reach_pinv ok miss cf st m : 0 <= cf_max cf -> reach ok miss cf st m -> pinv cf st m.
Proof.
  intros HM H. induction H.
  - apply p_init_pinv; auto.
  - apply p_reset_pinv; auto.
  - eapply parse_pinv; eauto.
  - eapply (missing_pinv cf st m len); eauto; lia.
Qed.

(* ------------------------------------------------------------------ C16 *)

Lemma obs_p_same a b : obs_p a = obs_p b -> same_result a b.
Proof.
  unfold obs_p. intros H. inversion H as [[H1 H2 H3 H4 H5]]. unfold same_result. repeat split; auto.
  all: rewrite H1 in H3; destruct (r_st a), (r_st b); destruct (r_rc b); cbn in *; inversion H3; subst; auto; congruence.
Qed.

Lemma obs_same a b : obs_parse a = obs_parse b -> a <> Ok None -> same_outcome a b.
Proof.
  intros H N. destruct a as [[a|]|x]; destruct b as [[b|]|y]; cbn in *; try discriminate; try (inversion H; auto; fail).
  - apply obs_p_same. congruence.
Qed.

Lemma feed_obs cf : forall pieces st m, pinv cf st m -> pieces <> [] -> Forall (fun s => s <> []) pieces ->
  obs_parse (feed cf st m pieces) = obs_parse (parse cf st m (concat pieces)).
Proof.
  induction pieces as [|s ps IH]; intros st m HI HN HF; [congruence|].
  cbn [feed concat]. inversion HF as [|? ? Hs HF']; subst.
  destruct ps as [|s2 ps].
  - cbn [concat]. rewrite app_nil_r.
    pose proof (parse_split cf st m s [0] HI ltac:(discriminate)) as PS.
    destruct (parse cf st m s) as [[r|]|x] eqn:E; auto.
    destruct PS as [_ PS]. destruct (r_rc r) eqn:ER; cbn [feed].
    + rewrite app_nil_r, <- ER. destruct r; reflexivity.
    + rewrite app_nil_r, <- ER. destruct r; reflexivity.
    + destruct PS as (P1 & P2 & P3). cbn. unfold obs_p; cbn. rewrite ER, P1.
      assert (r_err r = None) as ->; auto.
      pose proof (parse_split cf st m s [0] HI ltac:(discriminate)) as PS. rewrite E in PS. destruct PS as [PS _].
      destruct (r_err r); auto. destruct PS as [_ PS]. rewrite PS in ER; discriminate.
  - assert (concat (s2 :: ps) <> []) as HC.
    { inversion HF'; subst. cbn. destruct s2; [congruence|]. discriminate. }
    pose proof (parse_split cf st m s (concat (s2 :: ps)) HI HC) as PS.
    destruct (parse cf st m s) as [[r|]|x] eqn:E.
    + destruct PS as [PE PS]. destruct (r_rc r) eqn:ER.
      * rewrite PS. reflexivity.
      * rewrite PS. reflexivity.
      * destruct PS as (P1 & P2 & P3). rewrite P3. apply IH; auto. discriminate.
    + contradiction.
    + rewrite PS. reflexivity.
Qed.

Lemma parse_some cf st m s : pinv cf st m -> parse cf st m s <> Ok None.
Proof.
  intros HI E. pose proof (parse_split cf st m s [0] HI ltac:(discriminate)) as PS. rewrite E in PS. auto.
Qed.

Lemma segmentation ok miss cf st m pieces : 0 <= cf_max cf -> reach ok miss cf st m -> pieces <> [] -> Forall (fun s => s <> []) pieces ->
  same_outcome (feed cf st m pieces) (parse cf st m (concat pieces)).
Proof.
  intros HM HR HN HF. pose proof (reach_pinv _ _ _ _ _ HM HR) as HI.
  pose proof (feed_obs cf pieces st m HI HN HF) as FO.
  apply obs_same; auto. intros E. rewrite E in FO. cbn in FO.
  destruct (parse cf st m (concat pieces)) as [[r|]|] eqn:EP; cbn in FO; try discriminate.
  eapply parse_some; eauto.
Qed.

(* ------------------------------------------------------------------ C17: consumed and unread bytes *)

Lemma round_suffix cf st m s r : pinv cf st m -> p_round cf st m s = Ok r ->
  exists p, s = p ++ s_rest r /\ (s_rc r <> TFalse -> round_bytes st (fst (s_st r)) = zlen p).
Proof.
  intros HI. pose proof HI as (HC & HK & HM). unfold p_round, round_bytes.
  assert (forall st0, exists p, s = p ++ s_rest (parse_headers cf st0 m s)
     /\ (s_rc (parse_headers cf st0 m s) <> TFalse -> p_last (fst (s_st (parse_headers cf st0 m s))) = zlen p)) as PH.
  { intros st0. unfold parse_headers. cbn. destruct (h_loop_suffix cf s (p_h st0) m) as [p E].
    exists p. split; auto. intros N. pose proof (f_equal (@zlen Z) E) as EL. rewrite zlen_app in EL. unfold used.
    destruct (s_rc (h_loop cf (p_h st0) m s)); try congruence; lia. }
  assert (p_phase st = PStart \/ p_phase st = PHeaders ->
     (let r := parse_headers cf (set_p_phase PHeaders st) m s in
    match s_rc r with
    | TTrue =>
      obind (finish_headers cf (fst (s_st r)) (snd (s_st r))) (fun x =>
        match x with (rc, e, stm) => Ok (mksub rc e stm (s_rest r)) end)
    | _ => Ok r
    end) = Ok r -> exists p, s = p ++ s_rest r /\ (s_rc r <> TFalse -> p_last (fst (s_st r)) = zlen p)) as HH.
  { intros _. destruct (PH (set_p_phase PHeaders st)) as (p & E1 & E2). cbv zeta.
    set (ra := parse_headers cf (set_p_phase PHeaders st) m s) in *. clearbody ra.
    destruct (s_rc ra) eqn:E.
    - destruct (finish_headers cf (fst (s_st ra)) (snd (s_st ra))) as [[[rc e] [st' m']]|x] eqn:EF; [|discriminate].
      intros H; inversion H; subst; cbn. exists p. split; auto. intros _.
      destruct (finish_headers_k _ _ _ _ _ _ _ EF) as (_ & _ & A & _). rewrite A. apply E2. discriminate.
    - intros H; inversion H; subst. exists p. split; auto; rewrite E; congruence.
    - intros H; inversion H; subst. exists p. split; auto. intros _. apply E2. discriminate. }
  destruct (p_phase st) eqn:HP; auto.
  - intros H; inversion H; subst. apply PH.
  - rewrite consume_content_eq by auto. intros H; inversion H; subst; cbn.
    exists (firstn (Z.to_nat (content_bytes st s)) s). rewrite firstn_skipn. split; [auto|]. intros _.
    unfold content_st. destruct (cf_handler cf); destruct st; auto.
  - intros H; inversion H; subst; cbn. exists s. rewrite app_nil_r. split; auto. intros _.
    unfold consume_no_length. destruct (cf_handler cf); destruct st; auto.
  - cbv zeta. unfold parse_chunks. rewrite parse_chunks_k1 by auto.
    destruct (k1_loop_suffix cf s (p_k st) (m_cache m) (p_payload st)) as [p E].
    set (ra := k1_loop cf (p_k st) (m_cache m) (p_payload st) s) in *. clearbody ra. cbn.
    assert (s_rc ra <> TFalse -> used (s_rc ra) s (s_rest ra) = zlen p) as U.
    { intros N. pose proof (f_equal (@zlen Z) E) as EL. rewrite zlen_app in EL. unfold used. destruct (s_rc ra); try congruence; lia. }
    destruct (s_rc ra) eqn:EC.
    + destruct (cf_handler cf).
      * intros H; inversion H; subst; cbn. exists p. split; [auto|]. intros _. destruct (ko_footers (s_st ra)); destruct st; apply U; congruence.
      * match goal with |- context [concatenate_chunks ?x] => destruct (concatenate_chunks x) as [m'|x'] eqn:EK; [|discriminate] end.
        intros H; inversion H; subst; cbn. exists p. split; [auto|]. intros _. destruct (ko_footers (s_st ra)); destruct st; apply U; congruence.
    + intros H; inversion H; subst; cbn. exists p. split; [auto|congruence].
    + intros H; inversion H; subst; cbn. exists p. split; [auto|]. intros _. destruct (ko_footers (s_st ra)); destruct st; apply U; congruence.
  - intros H; inversion H; subst; cbn. exists []. split; auto.
Qed.

Lemma p_loop_suffix cf : forall n st m s t r t', pinv cf st m -> p_loop n cf st m s t = Ok (Some (r, t')) ->
  exists p, s = p ++ s_rest r /\ (s_rc r <> TFalse -> t' = t + zlen p).
Proof.
  induction n as [|n IH]; intros st m s t r t' HI; [discriminate|]. rewrite p_loop_S.
  destruct (p_round cf st m s) as [r1|x] eqn:E; [|discriminate]. cbn [obind].
  destruct (round_suffix _ _ _ _ _ HI E) as (p & E1 & E2).
  destruct (round_ok _ _ _ _ _ HI E) as (_ & O2 & _ & _).
  destruct (s_rc r1) eqn:EC.
  - intros H; inversion H; subst. exists p. split; [auto|]. intros _. rewrite E2; congruence.
  - intros H; inversion H; subst. exists p. split; auto. intros; congruence.
  - destruct (s_rest r1) eqn:ER.
    + intros H; inversion H; subst. exists p. rewrite ER. split; [auto|]. intros _. rewrite E2; congruence.
    + intros H. destruct (IH _ _ _ _ _ _ (O2 eq_refl) H) as (p2 & F1 & F2).
      exists (p ++ p2). split; [rewrite E1, F1, app_assoc; auto|].
      intros N. rewrite F2 by auto. rewrite E2, zlen_app by discriminate. lia.
Qed.

Lemma parse_consumed ok miss cf st m s r : 0 <= cf_max cf -> reach ok miss cf st m -> parse cf st m s = Ok (Some r) ->
  exists p, s = p ++ r_rest r /\ (r_rc r <> TFalse -> p_last (r_st r) = zlen p).
Proof.
  intros HM HR. pose proof (reach_pinv _ _ _ _ _ HM HR) as HI.
  unfold parse. set (m0 := if m_missing m then set_m_after true m else m).
  assert (pinv cf st m0) as HI0 by (subst m0; destruct (m_missing m); auto).
  destruct (p_loop 4 cf st m0 s 0) as [[[r1 t]|]|x] eqn:EL; cbn [obind]; try discriminate.
  destruct (p_loop_suffix _ _ _ _ _ _ _ _ HI0 EL) as (p & E1 & E2).
  destruct (s_rc r1) eqn:EC.
  - match goal with |- context [finish ?a ?b ?c] => destruct (finish a b c) end; cbn [obind]; try discriminate.
    intros H; inversion H; subst; cbn. exists p. split; [auto|]. intros _. rewrite E2; [lia|discriminate].
  - intros H; inversion H; subst; cbn. exists p. split; [auto|congruence].
  - intros H; inversion H; subst; cbn. exists p. split; [auto|]. intros _. rewrite E2; [lia|discriminate].
Qed.

(** appending further bytes does not change a finished message *)
Lemma parse_extend ok miss cf st m s r more : 0 <= cf_max cf -> reach ok miss cf st m -> parse cf st m s = Ok (Some r) -> r_rc r <> TIndet ->
  same_outcome (parse cf st m (s ++ more)) (Ok (Some (mkpres (r_rc r) (r_err r) (r_st r) (r_msg r) (r_rest r ++ more)))).
Proof.
  intros HM HR HP HN. pose proof (reach_pinv _ _ _ _ _ HM HR) as HI.
  destruct more as [|c more].
  { rewrite !app_nil_r, HP. destruct r. unfold same_outcome, same_result, same_state. cbn. repeat split; auto. }
  pose proof (parse_split cf st m s (c :: more) HI ltac:(discriminate)) as PS. rewrite HP in PS. destruct PS as [_ PS].
  assert (obs_parse (parse cf st m (s ++ c :: more)) = obs_parse (Ok (Some (mkpres (r_rc r) (r_err r) (r_st r) (r_msg r) (r_rest r ++ c :: more))))) as E.
  { destruct (r_rc r); try congruence; rewrite PS; reflexivity. }
  apply obs_same; auto. apply parse_some; auto.
Qed.

(* ------------------------------------------------------------------ C25, C27: results *)

Lemma parse_result ok miss cf st m s : 0 <= cf_max cf -> reach ok miss cf st m ->
  match parse cf st m s with
  | Ok (Some r) => (r_rc r = TFalse <-> r_err r <> None) /\ (r_rc r = TIndet -> r_rest r = [])
  | Ok None => False
  | Bad _ => True
  end.
Proof.
  intros HM HR. pose proof (reach_pinv _ _ _ _ _ HM HR) as HI.
  pose proof (parse_split cf st m s [0] HI ltac:(discriminate)) as PS.
  destruct (parse cf st m s) as [[r|]|x]; auto. destruct PS as [P1 P2]. split; auto.
  intros E. rewrite E in P2. tauto.
Qed.
