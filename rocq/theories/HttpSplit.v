(** Splitting the read buffer: lemmas towards segmentation independence, progress and safety of [parse]. *)
From Coq Require Import String ZArith List Lia Bool.
From Coq Require Import ZifyBool ZifyNat.
From Verif Require Import Base Digits AlgModel FormModel DictModel MultipartModel HttpModel HttpBase.
Import ListNotations.

Local Arguments zlen : simpl never.
Local Arguments Z.add : simpl never.
Local Arguments Z.sub : simpl never.
Local Arguments used : simpl never.
Local Arguments finish : simpl never.
Local Arguments cache_fill : simpl never.

(** Invariant of parser and message between calls. *)
Definition content_inv (cf : pcfg) (st : pst) (m : msg) : Prop :=
  p_phase st = PContent ->
  0 < p_remaining st /\ 0 <= p_content_read st /\ p_content_read st + p_remaining st < two64
  /\ (cf_handler cf = false -> zlen (m_buf m) = Z.min (p_content_read st + p_remaining st) (cf_max cf)).
Definition pinv (cf : pcfg) (st : pst) (m : msg) : Prop :=
  content_inv cf st m /\ k_ok (p_k st) /\ 0 <= cf_max cf.

Definition content_bytes (st : pst) (s : list Z) : Z := Z.min (p_remaining st) (zlen s).

Definition content_st (cf : pcfg) (st : pst) (bytes : list Z) : pst :=
  set_p_remaining (p_remaining st - zlen bytes)
    (set_p_content_read (wrap64 (p_content_read st + zlen bytes))
      (set_p_total (wrap64 (p_total st + zlen bytes))
        (set_p_last (zlen bytes)
          (if cf_handler cf then set_p_payload (p_payload st ++ bytes) st else st)))).
Definition content_msg (cf : pcfg) (st : pst) (m : msg) (bytes : list Z) : msg :=
  if cf_handler cf then m
  else set_m_buf (wr (m_buf m) (p_content_read st) (firstn (Z.to_nat (cf_max cf - p_content_read st)) bytes)) m.

Lemma set_m_buf_same m : set_m_buf (m_buf m) m = m.
Proof. destruct m; reflexivity. Qed.

Lemma consume_content_eq cf st m s : pinv cf st m -> p_phase st = PContent ->
  let bytes := firstn (Z.to_nat (content_bytes st s)) s in
  consume_content cf st m s =
  Ok (mksub (if p_remaining st <=? zlen s then TTrue else TIndet) None
            (content_st cf st bytes, content_msg cf st m bytes) (skipn (Z.to_nat (content_bytes st s)) s)).
Proof.
  intros (HI & _ & HM) HP bytes. destruct (HI HP) as (R0 & C0 & RC & HB).
  unfold consume_content. replace (p_remaining st =? 0) with false by lia.
  assert ((if p_remaining st <=? zlen s then p_remaining st else zlen s) = content_bytes st s) as EN.
  { unfold content_bytes. destruct (p_remaining st <=? zlen s) eqn:E; lia. }
  rewrite EN. set (n := content_bytes st s) in *.
  assert (0 <= n <= p_remaining st /\ n <= zlen s) as Hn.
  { unfold n, content_bytes. pose proof (zlen_nonneg s). lia. }
  assert (zlen bytes = n) as ZB.
  { unfold bytes. unfold zlen in *. rewrite firstn_length. lia. }
  replace (zlen s <? n) with false by lia.
  unfold content_st, content_msg. rewrite ZB.
  destruct (cf_handler cf) eqn:EH; [reflexivity|]. specialize (HB eq_refl).
  fold bytes.
  rewrite (wrap64_id (p_content_read st + n)) by lia.
  destruct (p_content_read st <? cf_max cf) eqn:E1.
  - destruct (cf_max cf <? p_content_read st + n) eqn:E2.
    + unfold buf_write.
      assert (zlen (firstn (Z.to_nat (cf_max cf - p_content_read st)) bytes) = cf_max cf - p_content_read st) as ZF.
      { unfold zlen in *. rewrite firstn_length. lia. }
      rewrite ZF. replace (p_content_read st + (cf_max cf - p_content_read st) <=? zlen (m_buf m)) with true by lia.
      cbn [obind]. unfold wr. rewrite ZF. reflexivity.
    + unfold buf_write. rewrite ZB. replace (p_content_read st + n <=? zlen (m_buf m)) with true by lia.
      cbn [obind]. rewrite (firstn_all2 (n := Z.to_nat (cf_max cf - p_content_read st))) by (unfold zlen in *; lia).
      unfold wr. rewrite ZB. reflexivity.
  - replace (Z.to_nat (cf_max cf - p_content_read st)) with O by lia.
    cbn [firstn obind]. rewrite wr_nil, set_m_buf_same. reflexivity.
Qed.

Lemma firstn_app_2' {A} (a b : list A) (n : nat) : (List.length a <= n)%nat -> firstn n (a ++ b) = a ++ firstn (n - List.length a) b.
Proof. intros H. rewrite firstn_app, (firstn_all2 a) by lia. reflexivity. Qed.

Lemma content_st_app cf st a b : cf_handler cf = cf_handler cf ->
  set_p_last 0 (content_st cf (content_st cf st a) b) = set_p_last 0 (content_st cf st (a ++ b)).
Proof.
  intros _. unfold content_st. destruct st. destruct (cf_handler cf); cbn;
  rewrite zlen_app, !wrap64_add, !Z.add_assoc, ?app_assoc, Z.sub_add_distr; reflexivity.
Qed.

Lemma content_msg_app cf st m a b : pinv cf st m -> p_phase st = PContent -> zlen a + zlen b <= p_remaining st ->
  content_msg cf (content_st cf st a) (content_msg cf st m a) b = content_msg cf st m (a ++ b).
Proof.
  intros (HI & _ & HM) HP HL. destruct (HI HP) as (R0 & C0 & RC & HB).
  unfold content_msg. destruct (cf_handler cf) eqn:EH; auto. specialize (HB eq_refl).
  pose proof (zlen_nonneg a). pose proof (zlen_nonneg b).
  assert (p_content_read (content_st cf st a) = p_content_read st + zlen a) as EC.
  { unfold content_st. rewrite EH. destruct st; cbn in *. apply wrap64_id. lia. }
  rewrite EC.
  set (k := cf_max cf - p_content_read st) in *.
  assert (forall buf x, set_m_buf x (set_m_buf buf m) = set_m_buf x m) as SS by (intros; destruct m; reflexivity).
  rewrite SS.
  assert (m_buf (set_m_buf (wr (m_buf m) (p_content_read st) (firstn (Z.to_nat k) a)) m)
          = wr (m_buf m) (p_content_read st) (firstn (Z.to_nat k) a)) as -> by (destruct m; reflexivity).
  f_equal. rewrite firstn_app.
  replace (Z.to_nat (cf_max cf - (p_content_read st + zlen a))) with (Z.to_nat k - List.length a)%nat by (unfold k, zlen in *; lia).
  destruct (Z_le_gt_dec (zlen a) k) as [L|G].
  - rewrite (firstn_all2 a) by (unfold zlen in *; lia).
    rewrite wr_app; auto.
    unfold zlen in *. rewrite firstn_length. lia.
  - replace (Z.to_nat k - List.length a)%nat with O by (unfold zlen in *; lia).
    cbn [firstn]. rewrite app_nil_r, wr_nil. reflexivity.
Qed.

Lemma content_inv_next cf st m bytes : pinv cf st m -> p_phase st = PContent -> zlen bytes < p_remaining st ->
  pinv cf (content_st cf st bytes) (content_msg cf st m bytes).
Proof.
  intros (HI & HK & HM) HP HL. destruct (HI HP) as (R0 & C0 & RC & HB). pose proof (zlen_nonneg bytes).
  split; [|split]; auto.
  - intros _. unfold content_st, content_msg. destruct (cf_handler cf) eqn:EH; destruct st; cbn in *.
    + rewrite wrap64_id by lia. repeat split; try lia; discriminate.
    + specialize (HB eq_refl). rewrite wrap64_id by lia. repeat split; try lia. intros _.
      destruct (Z_le_gt_dec p_content_read (cf_max cf)).
      * rewrite wr_len; [lia|lia|]. unfold zlen in *. rewrite firstn_length. lia.
      * replace (Z.to_nat (cf_max cf - p_content_read)) with O by lia. cbn [firstn]. rewrite wr_nil. lia.
  - unfold content_st. destruct (cf_handler cf); destruct st; auto.
Qed.

(* ------------------------------------------------------------------ one round on a split buffer *)

(** Forgetting [p_last] before a round does not matter after it. *)
Lemma round_zap cf st m s x :
  obs_o obs_sub (p_round cf (set_p_last x st) m s) = obs_o obs_sub (p_round cf st m s).
Proof.
  destruct st as [ph h k rem cr la to pl]. unfold p_round. cbn [p_phase set_p_last].
  destruct ph.
  - unfold parse_headers. cbn. set (r := h_loop cf h m s). destruct (s_rc r); cbn; auto.
  - unfold parse_headers. cbn. set (r := h_loop cf h m s). destruct (s_rc r); cbn; auto.
  - unfold parse_headers. cbn. set (r := h_loop cf h m s). destruct (s_rc r); cbn; auto.
  - unfold consume_content. cbn.
    destruct (rem =? 0); cbn; auto.
    destruct (cf_handler cf); cbn.
    + destruct (rem <=? zlen s); cbn; auto.
    + destruct (cr <? cf_max cf); cbn.
      * repeat match goal with |- context [obind (if ?b then ?x else ?y)] => destruct b end;
        match goal with |- context [buf_write ?a ?b ?c] => destruct (buf_write a b c); cbn; auto end;
        destruct (rem <=? zlen s); cbn; auto.
      * destruct (rem <=? zlen s); cbn; auto.
  - unfold consume_no_length. cbn. destruct (cf_handler cf); cbn; auto.
  - unfold parse_chunks. cbn. set (r := k_loop (List.length s) cf k (m_cache m) pl s).
    destruct (ko_footers (s_st r)); cbn; destruct (s_rc r); cbn; auto; destruct (cf_handler cf); cbn; auto;
    match goal with |- context [concatenate_chunks ?x] => destruct (concatenate_chunks x); cbn; auto end.
  - cbn. auto.
Qed.

Definition rank (st : pst) : nat :=
  match p_phase st with PStart | PHeaders => 3 | PChunks => 2 | PFooters | PContent | PContentNoLength => 1 | PEnd => 0 end.

Definition fh_obs (x : tri * option perr * (pst * msg)) : tri * option perr * pst * msg :=
  match x with (rc, e, (st, m)) => (rc, e, zap rc st, m) end.

Lemma finish_headers_zap cf st m x :
  obs_o fh_obs (finish_headers cf (set_p_last x st) m) = obs_o fh_obs (finish_headers cf st m).
Proof.
  destruct st as [ph h k rem cr la to pl]. unfold finish_headers. cbn.
  repeat match goal with |- context [if ?b then _ else _] => destruct b; cbn; auto end;
  match goal with |- context [update_content_length ?x] => destruct (update_content_length x) end; cbn; auto;
  repeat match goal with |- context [if ?b then _ else _] => destruct b; cbn; auto end;
  match goal with |- context [create_content_buffer ?x] => destruct (create_content_buffer x); cbn; auto end.
Qed.

Definition split_ok (cf : pcfg) (st : pst) (m : msg) (a b : list Z) (o : outcome (sub (pst * msg))) : Prop :=
  match o with
  | Bad x => p_round cf st m (a ++ b) = Bad x
  | Ok r =>
    match s_rc r, s_rest r with
    | TIndet, [] =>
      (p_round cf st m (a ++ b) = Ok (mksub TIndet (s_err r) (s_st r) b) /\ (rank (fst (s_st r)) < rank st)%nat)
      \/ (obs_o obs_sub (p_round cf st m (a ++ b)) = obs_o obs_sub (p_round cf (fst (s_st r)) (snd (s_st r)) b)
          /\ rank (fst (s_st r)) = rank st)
    | _, _ => p_round cf st m (a ++ b) = Ok (mksub (s_rc r) (s_err r) (s_st r) (s_rest r ++ b))
    end
  end.

Lemma used_app rc a b rest : used rc (a ++ b) (rest ++ b) = used rc a rest.
Proof. unfold used. rewrite !zlen_app. destruct rc; lia. Qed.

Lemma parse_headers_app cf st m a b :
  let r := parse_headers cf st m a in
  match s_rc r with
  | TIndet => obs_sub (parse_headers cf st m (a ++ b)) = obs_sub (parse_headers cf (fst (s_st r)) (snd (s_st r)) b)
              /\ s_rest r = [] /\ s_err r = None /\ p_phase (fst (s_st r)) = p_phase st
  | _ => parse_headers cf st m (a ++ b) = mksub (s_rc r) (s_err r) (s_st r) (s_rest r ++ b)
  end.
Proof.
  unfold parse_headers. rewrite h_loop_app.
  pose proof (h_loop_indet_rest cf a (p_h st) m) as HR.
  pose proof (h_loop_err cf a (p_h st) m) as HE.
  set (ra := h_loop cf (p_h st) m a) in *. cbn [s_rc].
  destruct (s_rc ra) eqn:E; cbn [s_rc s_err s_st s_rest fst snd]; rewrite ?used_app; auto.
  rewrite HR by auto. split; [|split; [auto|split; [auto|destruct st; reflexivity]]].
  destruct st as [ph h k rem cr la to pl]. cbn.
  set (rb := h_loop cf (fst (s_st ra)) (snd (s_st ra)) b).
  unfold obs_sub. cbn. unfold used. rewrite zlen_nil, Z.sub_0_r.
  destruct (s_rc rb); cbn; auto; rewrite wrap64_add, zlen_app;
  replace (to + (zlen a + zlen b - zlen (s_rest rb))) with (to + zlen a + (zlen b - zlen (s_rest rb))) by lia; reflexivity.
Qed.

Lemma parse_chunks_k1 cf st m s : k_ok (p_k st) ->
  k_loop (List.length s) cf (p_k st) (m_cache m) (p_payload st) s = k1_loop cf (p_k st) (m_cache m) (p_payload st) s.
Proof. intros. apply k_loop_k1; auto. Qed.

Lemma parse_chunks_app cf st m a b : k_ok (p_k st) ->
  let r := parse_chunks cf st m a in
  match s_rc r with
  | TIndet => obs_sub (parse_chunks cf st m (a ++ b)) = obs_sub (parse_chunks cf (fst (s_st r)) (snd (s_st r)) b)
              /\ s_rest r = [] /\ s_err r = None /\ p_phase (fst (s_st r)) = p_phase st /\ k_ok (p_k (fst (s_st r)))
  | _ => parse_chunks cf st m (a ++ b) = mksub (s_rc r) (s_err r) (s_st r) (s_rest r ++ b)
  end.
Proof.
  intros HK. unfold parse_chunks. rewrite !parse_chunks_k1 by auto. rewrite k1_loop_app.
  pose proof (k1_loop_indet cf a (p_k st) (m_cache m) (p_payload st)) as HR.
  pose proof (k1_loop_err cf a (p_k st) (m_cache m) (p_payload st)) as HE.
  pose proof (k1_loop_ok cf a (p_k st) (m_cache m) (p_payload st) HK) as HO.
  cbv zeta in *.
  set (ra := k1_loop cf (p_k st) (m_cache m) (p_payload st) a) in *. cbn [s_rc].
  destruct (s_rc ra) eqn:E; cbn [s_rc s_err s_st s_rest fst snd]; rewrite ?used_app; auto.
  destruct HR as [HR HF]; auto. rewrite HR, HF.
  destruct st as [ph h k rem cr la to pl]. cbn.
  rewrite k_loop_k1 by auto.
  set (rb := k1_loop cf _ _ _ b).
  split; [|do 3 (split; [auto; reflexivity|]); exact HO].
  assert (forall x, set_m_cache x (set_m_cache (ko_cache (s_st ra)) m) = set_m_cache x m) as SS by (intros; destruct m; reflexivity).
  unfold obs_sub. cbn. rewrite SS. unfold used. rewrite zlen_nil, Z.sub_0_r.
  destruct (ko_footers (s_st rb)); cbn; destruct (s_rc rb); cbn; auto; rewrite !wrap64_add, zlen_app;
  replace (to + (zlen a + zlen b - zlen (s_rest rb))) with (to + zlen a + (zlen b - zlen (s_rest rb))) by lia;
  try replace (cr + (zlen a + zlen b - zlen (s_rest rb))) with (cr + zlen a + (zlen b - zlen (s_rest rb))) by lia; reflexivity.
Qed.

Lemma cache_fill_app cf cache a b : cache_fill cf (cache_fill cf cache a) b = cache_fill cf cache (a ++ b).
Proof.
  unfold cache_fill. rewrite <- app_assoc, firstn_app. do 3 f_equal.
  rewrite zlen_app. unfold zlen. rewrite firstn_length. lia.
Qed.

(** finish_headers leaves a state of lower rank if it wants to go on *)
Lemma finish_headers_rank cf st m e st' m' : finish_headers cf st m = Ok (TIndet, e, (st', m')) -> (rank st' < 3)%nat.
Proof.
  destruct st as [ph h k rem cr la to pl]. unfold finish_headers. cbn.
  repeat match goal with |- context [if ?b then _ else _] => destruct b; cbn end;
  repeat match goal with |- context [update_content_length ?x] => destruct (update_content_length x); cbn end;
  repeat match goal with |- context [if ?b then _ else _] => destruct b; cbn end;
  repeat match goal with |- context [create_content_buffer ?x] => destruct (create_content_buffer x); cbn end;
  intros H; inversion H; subst; unfold rank; cbn; lia.
Qed.

Lemma obs_sub_inv r r' : obs_sub r = obs_sub r' ->
  s_rc r = s_rc r' /\ s_err r = s_err r' /\ zap (s_rc r) (fst (s_st r)) = zap (s_rc r') (fst (s_st r')) /\ snd (s_st r) = snd (s_st r') /\ s_rest r = s_rest r'.
Proof. unfold obs_sub. intros H. inversion H. auto. Qed.

Lemma zap_last st st' : set_p_last 0 st = set_p_last 0 st' -> st' = set_p_last (p_last st') st.
Proof. destruct st, st'; cbn. intros H; inversion H; subst; auto. Qed.

Lemma round_split_headers cf st m a b : (p_phase st = PStart \/ p_phase st = PHeaders) -> split_ok cf st m a b (p_round cf st m a).
Proof.
  intros HP. unfold split_ok.
  assert (forall s, p_round cf st m s =
     let r := parse_headers cf (set_p_phase PHeaders st) m s in
    match s_rc r with
    | TTrue =>
      obind (finish_headers cf (fst (s_st r)) (snd (s_st r))) (fun x =>
        match x with (rc, e, stm) => Ok (mksub rc e stm (s_rest r)) end)
    | _ => Ok r
    end) as RD.
  { intros s. unfold p_round. destruct HP as [-> | ->]; auto. }
  rewrite (RD a), (RD (a ++ b)). cbv zeta.
  pose proof (parse_headers_app cf (set_p_phase PHeaders st) m a b) as HA. cbv zeta in HA.
  set (ra := parse_headers cf (set_p_phase PHeaders st) m a) in *. clearbody ra.
  assert (rank st = 3%nat) as RK by (unfold rank; destruct HP as [-> | ->]; auto).
  destruct (s_rc ra) eqn:E.
  - rewrite HA. cbn [s_rc s_st s_rest s_err].
    destruct (finish_headers cf (fst (s_st ra)) (snd (s_st ra))) as [[[rc e] [st' m']]|x] eqn:F; cbn; auto.
    destruct rc; cbn; auto. destruct (s_rest ra) eqn:ER; cbn; auto.
    left. split; auto. rewrite RK. eapply finish_headers_rank; eauto.
  - rewrite HA. cbn. rewrite E. reflexivity.
  - destruct HA as (HO & HR & HE & HPh). rewrite E, HR. right.
    assert (p_phase (fst (s_st ra)) = PHeaders) as HP2 by (rewrite HPh; destruct st; reflexivity).
    split; [|rewrite RK; unfold rank; rewrite HP2; reflexivity].
    assert (p_round cf (fst (s_st ra)) (snd (s_st ra)) b =
      let r := parse_headers cf (fst (s_st ra)) (snd (s_st ra)) b in
      match s_rc r with
      | TTrue =>
        obind (finish_headers cf (fst (s_st r)) (snd (s_st r))) (fun x =>
          match x with (rc, e, stm) => Ok (mksub rc e stm (s_rest r)) end)
      | _ => Ok r
      end) as ->.
    { unfold p_round. rewrite HP2.
      replace (set_p_phase PHeaders (fst (s_st ra))) with (fst (s_st ra)); auto.
      revert HP2. destruct (fst (s_st ra)); cbn. intros ->. reflexivity. }
    cbv zeta. set (rx := parse_headers cf (set_p_phase PHeaders st) m (a ++ b)) in *.
    set (rb := parse_headers cf (fst (s_st ra)) (snd (s_st ra)) b) in *. clearbody rx rb.
    destruct (obs_sub_inv _ _ HO) as (O1 & O2 & O3 & O4 & O5).
    rewrite O1 in *. destruct (s_rc rb) eqn:EB; cbn [obs_o]; try (rewrite HO; reflexivity).
    rewrite O4. cbn [zap] in O3.
    rewrite (zap_last _ _ O3).
    pose proof (finish_headers_zap cf (fst (s_st rx)) (snd (s_st rb)) (p_last (fst (s_st rb)))) as FZ.
    destruct (finish_headers cf (set_p_last (p_last (fst (s_st rb))) (fst (s_st rx))) (snd (s_st rb))) as [[[rc e] [st' m']]|x];
    destruct (finish_headers cf (fst (s_st rx)) (snd (s_st rb))) as [[[rc2 e2] [st2 m2]]|x2]; cbn in FZ |- *; try discriminate; auto.
    + inversion FZ; subst. unfold obs_sub. cbn. congruence.
    + inversion FZ; auto.
Qed.

Lemma round_split cf st m a b : pinv cf st m -> split_ok cf st m a b (p_round cf st m a).
Proof.
  intros HI. destruct (p_phase st) eqn:HP.
  - apply round_split_headers; auto.
  - apply round_split_headers; auto.
  - (* footers *)
    unfold split_ok, p_round. rewrite HP.
    pose proof (parse_headers_app cf st m a b) as HA. cbv zeta in HA.
    destruct (s_rc (parse_headers cf st m a)) eqn:E.
    + rewrite HA. reflexivity.
    + rewrite HA. reflexivity.
    + destruct HA as (HO & HR & HE & HPh). rewrite HR, HPh, HP. right. cbn [obs_o]. rewrite HO.
      split; auto.
  - (* content *)
    unfold split_ok, p_round. rewrite HP.
    rewrite !consume_content_eq by auto. cbn [s_rc s_rest s_st s_err fst snd].
    pose proof HI as (HC & HK & HM). destruct (HC HP) as (R0 & C0 & RC & HB).
    pose proof (zlen_nonneg a). pose proof (zlen_nonneg b).
    destruct (p_remaining st <=? zlen a) eqn:E.
    + assert (content_bytes st (a ++ b) = p_remaining st) as -> by (unfold content_bytes; rewrite zlen_app; lia).
      assert (content_bytes st a = p_remaining st) as -> by (unfold content_bytes; lia).
      replace (p_remaining st <=? zlen (a ++ b)) with true by (rewrite zlen_app; lia).
      rewrite firstn_app, skipn_app.
      replace (Z.to_nat (p_remaining st) - List.length a)%nat with O by (unfold zlen in *; lia).
      cbn [firstn skipn]. rewrite app_nil_r. reflexivity.
    + assert (content_bytes st a = zlen a) as -> by (unfold content_bytes; lia).
      rewrite (firstn_all2 a), (skipn_all2 a) by (unfold zlen; lia).
      assert (pinv cf (content_st cf st a) (content_msg cf st m a)) as HI'.
      { apply content_inv_next; auto. lia. }
      assert (p_phase (content_st cf st a) = PContent) as HP'.
      { unfold content_st. destruct (cf_handler cf); destruct st; cbn in *; auto. }
      right. rewrite HP'. rewrite consume_content_eq by auto.
      assert (p_remaining (content_st cf st a) = p_remaining st - zlen a) as RR.
      { unfold content_st. destruct (cf_handler cf); destruct st; cbn in *; auto. }
      split; [|unfold rank; rewrite HP', HP; auto].
      rewrite RR.
      replace (p_remaining st - zlen a <=? zlen b) with (p_remaining st <=? zlen (a ++ b)) by (rewrite zlen_app; lia).
      assert (content_bytes st (a ++ b) = zlen a + content_bytes (content_st cf st a) b) as CB.
      { unfold content_bytes. rewrite RR, zlen_app. lia. }
      assert (0 <= content_bytes (content_st cf st a) b <= p_remaining st - zlen a) as CB0 by (unfold content_bytes; rewrite RR; lia).
      rewrite CB. set (nb := content_bytes (content_st cf st a) b) in *.
      rewrite firstn_app_2' by (unfold zlen; lia).
      rewrite skipn_app, skipn_all2 by (unfold zlen; lia). cbn [app].
      replace (Z.to_nat (zlen a + nb) - List.length a)%nat with (Z.to_nat nb) by (unfold zlen; lia).
      rewrite <- content_msg_app; auto.
      2:{ unfold zlen at 2. rewrite firstn_length. unfold zlen in *. lia. }
      cbn [obs_o]. unfold obs_sub. cbn [s_rc s_err s_st s_rest fst snd].
      destruct (p_remaining st <=? zlen (a ++ b)); cbn [zap]; rewrite <- content_st_app; auto.
  - (* no length *)
    unfold split_ok, p_round. rewrite HP. cbn [s_rc s_rest s_st s_err].
    right. destruct st as [ph h k rem cr la to pl]. cbn in HP. subst ph.
    unfold consume_no_length, rank. cbn.
    destruct (cf_handler cf) eqn:EH; cbn; rewrite ?EH; cbn;
      unfold obs_sub; cbn; rewrite !wrap64_add, zlen_app, !Z.add_assoc, ?app_assoc; auto.
    rewrite cache_fill_app. split; auto.
  - (* chunks *)
    destruct HI as (HC & HK & HM).
    unfold split_ok. unfold p_round. rewrite HP. cbv zeta.
    pose proof (parse_chunks_app cf st m a b HK) as HA. cbv zeta in HA.
    assert (p_phase (fst (s_st (parse_chunks cf st m a))) = PFooters -> s_rest (parse_chunks cf st m a) <> []) as HF.
    { unfold parse_chunks. rewrite parse_chunks_k1 by auto.
      pose proof (k1_loop_footers cf a (p_k st) (m_cache m) (p_payload st)) as HF. cbv zeta in *.
      destruct (ko_footers (s_st (k1_loop cf (p_k st) (m_cache m) (p_payload st) a))); cbn in *.
      - intros _. apply HF; auto.
      - destruct st; cbn in *. congruence. }
    set (ra := parse_chunks cf st m a) in *. clearbody ra.
    destruct (s_rc ra) eqn:E.
    + rewrite HA. cbn [s_rc s_st s_rest s_err].
      destruct (cf_handler cf) eqn:EH.
      * rewrite E. reflexivity.
      * destruct (concatenate_chunks (snd (s_st ra))) as [m'|x] eqn:EC; cbn; auto.
        destruct (p_phase (fst (s_st ra))) eqn:EP; auto.
        destruct (s_rest ra) eqn:ER; auto. exfalso. apply HF; auto.
    + rewrite HA. cbn. rewrite E. reflexivity.
    + destruct HA as (HO & HR & HE & HPh & HK'). rewrite E, HR. right. rewrite HPh, HP.
      split; [|unfold rank; rewrite HPh; auto].
      set (rx := parse_chunks cf st m (a ++ b)) in *.
      set (rb := parse_chunks cf (fst (s_st ra)) (snd (s_st ra)) b) in *. clearbody rx rb.
      destruct (obs_sub_inv _ _ HO) as (O1 & O2 & O3 & O4 & O5).
      rewrite O1 in *. destruct (s_rc rb) eqn:EB; cbn [obs_o]; try (rewrite HO; reflexivity).
      destruct (cf_handler cf); cbn [obs_o]; try (rewrite HO; reflexivity).
      rewrite O4. destruct (concatenate_chunks (snd (s_st rb))); cbn; auto.
      cbn [zap] in O3. rewrite (zap_last _ _ O3).
      unfold obs_sub. cbn. rewrite O2, O5.
      destruct (fst (s_st rx)) as [ph h k rem cr la to pl]. cbn. destruct ph; reflexivity.
  - unfold split_ok, p_round. rewrite HP. reflexivity.
Qed.

(* ------------------------------------------------------------------ invariant, rank and flags through a round *)

Definition same_flags (m m' : msg) : Prop := m_missing m' = m_missing m /\ m_after m' = m_after m.

Lemma h_char_flags cf h m c : match h_char cf h m c with HCont _ m' => same_flags m m' | HFail _ => True | HDone _ _ m' => same_flags m m' end.
Proof.
  unfold same_flags, h_char, add_header, version00. destruct (h_state h);
  repeat match goal with |- context [if ?b then _ else _] => destruct b end; auto.
Qed.

Lemma same_flags_trans a b c : same_flags a b -> same_flags b c -> same_flags a c.
Proof. unfold same_flags. intros [] []. split; congruence. Qed.

Lemma h_loop_flags cf s : forall h m, same_flags m (snd (s_st (h_loop cf h m s))).
Proof.
  induction s as [|c s IH]; intros h m; cbn [h_loop]; [split; auto|].
  pose proof (h_char_flags cf (save_raw cf h c) m c) as HF.
  destruct (h_char cf (save_raw cf h c) m c) as [h2 m2|e|[|] h2 m2]; cbn; auto.
  - eapply same_flags_trans; eauto.
  - split; auto.
Qed.

Lemma concat_flags m m' : concatenate_chunks m = Ok m' -> same_flags m m'.
Proof.
  unfold concatenate_chunks, create_content_buffer, buf_write.
  match goal with |- context [if ?b then _ else _] => destruct b end; cbn; [discriminate|].
  match goal with |- context [if ?b then _ else _] => destruct b end; intros H; inversion H. split; auto.
Qed.

Lemma update_message_flags cf h m : same_flags m (update_message cf h m).
Proof. unfold update_message. destruct (cf_request cf); [destruct (h_query h)|]; split; auto. Qed.

Lemma update_content_length_spec m m' : update_content_length m = Some m' -> exists n, 0 <= n < two64 /\ m' = set_m_clen n m.
Proof.
  unfold update_content_length. destruct (d_find (m_headers m) HEADER_CONTENT_LENGTH).
  - destruct (lexical_cast_size (trim l)) eqn:E; [|discriminate]. intros H; inversion H; subst. exists z. split; auto.
    assert (forall s v, dec_digits s = Some v -> 0 <= v < two64) as DD.
    { intros s v. unfold dec_digits. destruct s; [discriminate|]. destruct (forallb is_digit (z0 :: s)) eqn:EF; [|discriminate].
      destruct (undigits 10 0 (map (fun c => c - 48) (z0 :: s)) <? two64) eqn:EV; [|discriminate].
      set (u := undigits 10 0 (map (fun c => c - 48) (z0 :: s))) in *.
      assert (0 <= u); [|intros X; inversion X; subst; lia]. unfold u. clear EV u.
      rewrite forallb_forall in EF.
      assert (forall l a, (forall x, In x l -> is_digit x = true) -> 0 <= a -> 0 <= undigits 10 a (map (fun c => c - 48) l)) as G.
      { induction l0 as [|y l0 IHl]; intros a Ha Hp; cbn [map undigits]; auto. apply IHl; [intros; apply Ha; cbn; auto|].
        specialize (Ha y (or_introl eq_refl)). unfold is_digit in Ha. lia. }
      apply G; auto. lia. }
    unfold lexical_cast_size in E. destruct (trim l) as [|c t]; [discriminate|].
    destruct (c =? ch "-").
    + destruct (dec_digits t); inversion E. apply wrap64_range.
    + destruct (c =? ch "+"); eapply DD; eauto.
  - intros H; inversion H. exists 0. unfold two64. split; auto. lia.
Qed.

Lemma finish_headers_ok cf st m rc e st' m' : 0 <= cf_max cf -> k_ok (p_k st) ->
  finish_headers cf st m = Ok (rc, e, (st', m')) ->
  same_flags m m' /\ (rc = TIndet -> pinv cf st' m') /\ (rc = TFalse <-> e <> None) /\ p_total st' = p_total st.
Proof.
  intros HM HK. unfold finish_headers.
  set (m0 := update_message cf (p_h st) (update_transfer_encoding (set_m_clen 0 m))).
  assert (same_flags m m0) as HF.
  { eapply same_flags_trans; [|apply update_message_flags]. split; auto. }
  clearbody m0. set (dh := d_has (m_headers m0) HEADER_CONTENT_LENGTH). clearbody dh.
  destruct st as [ph h k rem cr la to pl]. cbn in HK |- *.
  assert (forall ph' r c t, ph' <> PContent -> pinv cf {| p_phase := ph'; p_h := h; p_k := k; p_remaining := r; p_content_read := c; p_last := la; p_total := t; p_payload := pl |} m') as PN.
  { intros. split; [|split]; auto. intros ?. cbn in *. congruence. }
  destruct (m_chunked m0).
  { destruct (cf_headers_only cf); intros H; inversion H; subst; (split; [split; apply HF|split; [intros; try discriminate; try (apply PN; discriminate)|split; [split; intros; congruence|reflexivity]]]). }
  destruct (is_content_length_implied (cf_request cf) m0).
  { intros H; inversion H; subst; (split; [split; apply HF|split; [intros; try discriminate; try (apply PN; discriminate)|split; [split; intros; congruence|reflexivity]]]). }
  destruct dh.
  - destruct (update_content_length m0) as [m1|] eqn:EU.
    + destruct (update_content_length_spec _ _ EU) as (n & Hn & ->). cbn.
      destruct (n =? 0) eqn:E0.
      { intros H; inversion H; subst; (split; [split; apply HF|split; [intros; try discriminate; try (apply PN; discriminate)|split; [split; intros; congruence|reflexivity]]]). }
      destruct (cf_headers_only cf).
      { destruct (cf_max cf <? n); intros H; inversion H; subst; (split; [split; apply HF|split; [intros; try discriminate; try (apply PN; discriminate)|split; [split; intros; congruence|reflexivity]]]). }
      destruct (cf_max cf <? n) eqn:EM; unfold create_content_buffer; cbn;
      match goal with |- context [if ?b then _ else _] => destruct b end; cbn; try discriminate;
      intros H; inversion H; subst; (split; [split; apply HF|split; [|split; [split; intros; try discriminate; congruence|auto]]]);
      intros _; (split; [|split; auto]); intros _; cbn; (split; [lia|split; [lia|split; [lia|]]]); intros _;
      unfold zlen; rewrite repeat_length; lia.
    + intros H; inversion H; subst; (split; [split; apply HF|split; [intros; try discriminate; try (apply PN; discriminate)|split; [split; intros; congruence|reflexivity]]]).
  - destruct (cf_request cf).
    + intros H; inversion H; subst; (split; [split; apply HF|split; [intros; try discriminate; try (apply PN; discriminate)|split; [split; intros; congruence|reflexivity]]]).
    + destruct (cf_headers_only cf); intros H; inversion H; subst; (split; [split; apply HF|split; [intros; try discriminate; try (apply PN; discriminate)|split; [split; intros; congruence|reflexivity]]]).
Qed.

Lemma pinv_other cf st m : 0 <= cf_max cf -> k_ok (p_k st) -> p_phase st <> PContent -> pinv cf st m.
Proof. intros. split; [|split]; auto. intros ?. congruence. Qed.

Lemma round_ok cf st m s r : pinv cf st m -> p_round cf st m s = Ok r ->
  same_flags m (snd (s_st r))
  /\ (s_rc r = TIndet -> pinv cf (fst (s_st r)) (snd (s_st r)))
  /\ (s_rc r = TIndet -> s_rest r <> [] -> (rank (fst (s_st r)) < rank st)%nat)
  /\ (s_rc r = TFalse <-> s_err r <> None).
Proof.
  intros HI. pose proof HI as (HC & HK & HM). unfold p_round.
  assert (forall st0, k_ok (p_k st0) -> p_phase st0 <> PContent -> let r := parse_headers cf st0 m s in
    same_flags m (snd (s_st r)) /\ pinv cf (fst (s_st r)) (snd (s_st r)) /\ (s_rc r = TIndet -> s_rest r = [])
    /\ (s_rc r = TFalse <-> s_err r <> None) /\ p_k (fst (s_st r)) = p_k st0) as PH.
  { intros st0 K0 P0 r0. subst r0. unfold parse_headers. cbn.
    pose proof (h_loop_err cf s (p_h st0) m) as HE.
    split; [apply h_loop_flags|]. split; [apply pinv_other; destruct st0; auto|].
    split; [apply h_loop_indet_rest|]. split; [|destruct st0; auto].
    destruct (s_rc (h_loop cf (p_h st0) m s)); [|destruct HE as [e HE]|]; rewrite HE; split; congruence. }
  assert (p_phase st = PStart \/ p_phase st = PHeaders ->
     (let r := parse_headers cf (set_p_phase PHeaders st) m s in
    match s_rc r with
    | TTrue =>
      obind (finish_headers cf (fst (s_st r)) (snd (s_st r))) (fun x =>
        match x with (rc, e, stm) => Ok (mksub rc e stm (s_rest r)) end)
    | _ => Ok r
    end) = Ok r -> same_flags m (snd (s_st r))
      /\ (s_rc r = TIndet -> pinv cf (fst (s_st r)) (snd (s_st r)))
      /\ (s_rc r = TIndet -> s_rest r <> [] -> (rank (fst (s_st r)) < rank st)%nat)
      /\ (s_rc r = TFalse <-> s_err r <> None)) as HH.
  { intros HP. assert (rank st = 3%nat) as RK by (unfold rank; destruct HP as [-> | ->]; auto).
    destruct (PH (set_p_phase PHeaders st)) as (A1 & A2 & A3 & A4 & A5); [destruct st; auto|destruct st; discriminate|].
    cbv zeta. set (ra := parse_headers cf (set_p_phase PHeaders st) m s) in *. clearbody ra.
    destruct (s_rc ra) eqn:E.
    - destruct (finish_headers cf (fst (s_st ra)) (snd (s_st ra))) as [[[rc e] [st' m']]|x] eqn:EF; [|discriminate].
      intros H; inversion H; subst; cbn.
      assert (k_ok (p_k (fst (s_st ra)))) as K2 by (rewrite A5; destruct st; auto).
      destruct (finish_headers_ok _ _ _ _ _ _ _ HM K2 EF) as (F1 & F2 & F3 & F4).
      split; [eapply same_flags_trans; eauto|]. split; auto. split; auto.
      intros -> _. rewrite RK. eapply finish_headers_rank; eauto.
    - intros H; inversion H; subst. rewrite E. split; auto. split; [intros; discriminate|]. split; [intros; discriminate|auto].
    - intros H; inversion H; subst. rewrite E. split; auto. split; auto. split; auto.
      intros _ HN. destruct HN. auto. }
  destruct (p_phase st) eqn:HP; auto.
  - intros H; inversion H; subst. destruct (PH st) as (A1 & A2 & A3 & A4 & A5); auto; try congruence.
    split; auto. split; auto. split; auto. intros X Y. destruct Y; auto.
  - rewrite consume_content_eq by auto. intros H; inversion H; subst; cbn.
    split. { unfold content_msg. destruct (cf_handler cf); split; auto. }
    destruct (HC HP) as (R0 & C0 & RC & HB). pose proof (zlen_nonneg s).
    destruct (p_remaining st <=? zlen s) eqn:E.
    + split; [discriminate|]. split; [discriminate|]. split; congruence.
    + split; [|split; [|split; congruence]]; intros _.
      * apply content_inv_next; auto. unfold content_bytes. unfold zlen in *. rewrite firstn_length. lia.
      * intros HN. destruct HN. apply skipn_all2. unfold content_bytes, zlen in *. lia.
  - intros H; inversion H; subst; cbn. unfold consume_no_length.
    destruct (cf_handler cf); cbn; (split; [split; auto|]); (split; [|split; [congruence|split; congruence]]); intros _;
    apply pinv_other; destruct st; cbn in *; auto; subst; discriminate.
  - cbv zeta. unfold parse_chunks. rewrite parse_chunks_k1 by auto.
    pose proof (k1_loop_ok cf s (p_k st) (m_cache m) (p_payload st) HK) as K1.
    pose proof (k1_loop_indet cf s (p_k st) (m_cache m) (p_payload st)) as K2.
    pose proof (k1_loop_err cf s (p_k st) (m_cache m) (p_payload st)) as K3.
    pose proof (k1_loop_footers cf s (p_k st) (m_cache m) (p_payload st)) as K4.
    cbv zeta in *.
    set (ra := k1_loop cf (p_k st) (m_cache m) (p_payload st) s) in *. clearbody ra. cbn.
    assert (rank st = 2%nat) as RK by (unfold rank; rewrite HP; auto).
    destruct (s_rc ra) eqn:E.
    + destruct (cf_handler cf) eqn:EH.
      * intros H; inversion H; subst; cbn. split; [split; auto|]. split; [discriminate|]. split; [discriminate|]. rewrite K3. split; congruence.
      * match goal with |- context [concatenate_chunks ?x] => destruct (concatenate_chunks x) as [m'|x'] eqn:EC; [|discriminate] end.
        intros H; inversion H; subst; cbn. apply concat_flags in EC.
        split; [destruct EC; split; auto|].
        destruct (ko_footers (s_st ra)) eqn:EF.
        -- split; [|split].
           ++ intros _. apply pinv_other; auto; destruct st; cbn in *; auto; discriminate.
           ++ intros _ _. rewrite RK. destruct st; cbn. unfold rank; cbn. lia.
           ++ rewrite K3. destruct st; cbn. split; congruence.
        -- destruct st as [ph h k rem cr la to pl]. cbn in *. subst ph.
           split; [discriminate|]. split; [discriminate|]. rewrite K3; split; congruence.
    + intros H; inversion H; subst; cbn. split; [split; auto|]. split; [discriminate|]. split; [discriminate|]. rewrite K3. split; congruence.
    + intros H; inversion H; subst; cbn. destruct (K2 eq_refl) as [Q1 Q2]. rewrite Q1, Q2.
      split; [split; auto|]. split; [|split; [congruence|rewrite K3; split; congruence]]. intros _.
      destruct st as [ph h k rem cr la to pl]. cbn in *. subst ph. apply pinv_other; auto. discriminate.
  - intros H; inversion H; subst; cbn. split; [split; auto|]. split; [discriminate|]. split; [discriminate|]. split; congruence.
Qed.

(* ------------------------------------------------------------------ the loop *)

Definition obs_l (o : outcome (option (sub (pst * msg) * Z))) := obs_o (option_map (fun x => obs_sub (fst x))) o.

Lemma pinv_last cf st m x : pinv cf st m -> pinv cf (set_p_last x st) m.
Proof. intros (A & B & C). destruct st; cbn in *. split; auto. Qed.

Lemma last_same st1 st2 : set_p_last 0 st1 = set_p_last 0 st2 -> rank st1 = rank st2.
Proof. destruct st1, st2; cbn. intros H; inversion H; subst. reflexivity. Qed.

Lemma p_loop_S n cf st m s t : p_loop (S n) cf st m s t =
    obind (p_round cf st m s) (fun r =>
      let total' := t + round_bytes st (fst (s_st r)) in
      match s_rc r, s_rest r with
      | TIndet, _ :: _ => p_loop n cf (fst (s_st r)) (snd (s_st r)) (s_rest r) total'
      | _, _ => Ok (Some (r, total'))
      end).
Proof. reflexivity. Qed.

Lemma p_loop_obs cf : forall n1 n2 st1 st2 m s t1 t2, pinv cf st1 m -> set_p_last 0 st1 = set_p_last 0 st2 ->
  (rank st1 < n1)%nat -> (rank st1 < n2)%nat -> obs_l (p_loop n1 cf st1 m s t1) = obs_l (p_loop n2 cf st2 m s t2).
Proof.
  induction n1 as [|n1 IH]; intros n2 st1 st2 m s t1 t2 HI HE R1 R2; [lia|].
  destruct n2 as [|n2]; [lia|]. rewrite !p_loop_S.
  pose proof (round_zap cf st1 m s (p_last st2)) as RZ.
  rewrite <- (zap_last _ _ HE) in RZ.
  destruct (p_round cf st1 m s) as [r1|x1] eqn:E1; destruct (p_round cf st2 m s) as [r2|x2] eqn:E2; cbn [obs_o] in RZ; try discriminate.
  - assert (obs_sub r2 = obs_sub r1) as RZ' by congruence.
    destruct (obs_sub_inv _ _ RZ') as (O1 & O2 & O3 & O4 & O5).
    destruct (round_ok _ _ _ _ _ HI E1) as (_ & P & R & _).
    cbn [obind]. rewrite O1, O5, O4 in *.
    destruct (s_rc r1) eqn:EC; cbn; try (rewrite RZ'; reflexivity).
    destruct (s_rest r1) eqn:ER; cbn; try (rewrite RZ'; reflexivity).
    specialize (R eq_refl ltac:(discriminate)). apply IH; auto; lia.
  - inversion RZ; subst. reflexivity.
Qed.

Lemma p_loop_split cf b : b <> [] -> forall n st m a t, pinv cf st m -> (rank st < n)%nat ->
  match p_loop n cf st m a t with
  | Bad x => forall t2, p_loop n cf st m (a ++ b) t2 = Bad x
  | Ok None => False
  | Ok (Some (r, _)) =>
    same_flags m (snd (s_st r)) /\ (s_rc r = TFalse <-> s_err r <> None) /\
    match s_rc r with
    | TIndet => s_rest r = [] /\ pinv cf (fst (s_st r)) (snd (s_st r)) /\
        forall n' t2 t3, (rank (fst (s_st r)) < n')%nat ->
          obs_l (p_loop n cf st m (a ++ b) t2) = obs_l (p_loop n' cf (fst (s_st r)) (snd (s_st r)) b t3)
    | _ => forall t2, obs_l (p_loop n cf st m (a ++ b) t2) = Ok (Some (obs_sub (mksub (s_rc r) (s_err r) (s_st r) (s_rest r ++ b))))
    end
  end.
Proof.
  intros HB. induction n as [|n IH]; intros st m a t HI HR; [lia|].
  rewrite p_loop_S. pose proof (round_split cf st m a b HI) as RS. unfold split_ok in RS.
  destruct (p_round cf st m a) as [r|x] eqn:ER; cbn [obind].
  2:{ intros t2. rewrite p_loop_S, RS. reflexivity. }
  destruct (round_ok _ _ _ _ _ HI ER) as (OF & OP & OR & OE).
  cbv zeta. destruct (s_rc r) eqn:EC.
  - split; auto. rewrite EC. split; auto. intros t2. rewrite p_loop_S, RS. reflexivity.
  - split; auto. rewrite EC. split; auto. intros t2. rewrite p_loop_S, RS. reflexivity.
  - specialize (OP eq_refl). destruct (s_rest r) as [|c rest] eqn:Er.
    + split; auto. rewrite EC. split; auto. split; auto. split; auto.
      intros n' t2 t3 Hn'. rewrite p_loop_S.
      destruct RS as [[RS RK]|[RS RK]].
      * rewrite RS. cbn [obind s_rc s_rest s_st fst snd]. destruct b as [|b0 b]; [congruence|].
        apply p_loop_obs; auto; lia.
      * destruct n' as [|n']; [lia|]. rewrite p_loop_S.
        destruct (p_round cf st m (a ++ b)) as [r1|x1] eqn:E1;
        destruct (p_round cf (fst (s_st r)) (snd (s_st r)) b) as [r2|x2] eqn:E2; cbn [obs_o] in RS; try discriminate.
        -- assert (obs_sub r1 = obs_sub r2) as RZ' by congruence.
           destruct (obs_sub_inv _ _ RZ') as (O1 & O2 & O3 & O4 & O5).
           destruct (round_ok _ _ _ _ _ HI E1) as (_ & P & R & _).
           cbn [obind]. rewrite O1, O5, O4 in *.
           destruct (s_rc r2) eqn:EC2; cbn; try (rewrite RZ'; reflexivity).
           destruct (s_rest r2) eqn:ER2; cbn; try (rewrite RZ'; reflexivity).
           specialize (R eq_refl ltac:(discriminate)). apply p_loop_obs; auto; lia.
        -- inversion RS; subst. reflexivity.
    + specialize (OR eq_refl ltac:(discriminate)).
      assert (forall t2, p_loop (S n) cf st m (a ++ b) t2 = p_loop n cf (fst (s_st r)) (snd (s_st r)) ((c :: rest) ++ b) (t2 + round_bytes st (fst (s_st r)))) as EQ.
      { intros t2. rewrite p_loop_S, RS. reflexivity. }
      specialize (IH (fst (s_st r)) (snd (s_st r)) (c :: rest) (t + round_bytes st (fst (s_st r))) OP ltac:(lia)).
      destruct (p_loop n cf (fst (s_st r)) (snd (s_st r)) (c :: rest) (t + round_bytes st (fst (s_st r)))) as [[[r2 t']|]|x]; auto.
      * destruct IH as (F & E2 & IH). split; [eapply same_flags_trans; eauto|]. split; auto.
        destruct (s_rc r2).
        -- intros t2. rewrite EQ. apply IH.
        -- intros t2. rewrite EQ. apply IH.
        -- destruct IH as (I1 & I2 & I3). split; auto. split; auto. intros. rewrite EQ. apply I3; auto.
      * intros t2. rewrite EQ. apply IH.
Qed.

Lemma rank_lt_4 st : (rank st < 4)%nat.
Proof. unfold rank. destruct (p_phase st); lia. Qed.

(* ------------------------------------------------------------------ parse *)

(** What a caller sees of a result: all but the byte counters that depend on where an error was met. *)
Definition obs_p (r : presult) := (r_rc r, r_err r, zap (r_rc r) (r_st r), r_msg r, r_rest r).
Definition obs_parse (o : outcome (option presult)) := obs_o (option_map obs_p) o.

Definition fin (cf : pcfg) (x : tri * option perr * pst * msg * list Z) : outcome (option (tri * option perr * pst * msg * list Z)) :=
  match x with
  | (rc, e, st, m, rest) =>
    match rc with
    | TTrue => let st1 := set_p_phase PEnd st in obind (finish cf st1 m) (fun m1 => Ok (Some (TTrue, e, st1, m1, rest)))
    | TFalse => Ok (Some (TFalse, e, st, compute_status m false, rest))
    | TIndet => Ok (Some (TIndet, e, st, m, rest))
    end
  end.

Lemma finish_end cf st1 st2 m : finish cf (set_p_phase PEnd st1) m = finish cf (set_p_phase PEnd st2) m.
Proof. reflexivity. Qed.

(** [parse] seen through the projection is a function of the loop seen through the projection. *)
Lemma parse_obs cf st m s : obs_parse (parse cf st m s) =
  obind (obs_l (p_loop 4 cf st (if m_missing m then set_m_after true m else m) s 0)) (fun o =>
    match o with None => Ok None | Some x => fin cf x end).
Proof.
  unfold parse. set (m0 := if m_missing m then set_m_after true m else m).
  destruct (p_loop 4 cf st m0 s 0) as [[[r t]|]|x]; cbn; auto.
  unfold obs_sub. destruct (s_rc r) eqn:E; cbn.
  - rewrite (finish_end cf (set_p_last 0 (fst (s_st r))) (fst (s_st r))).
    match goal with |- context [finish ?a ?b ?c] => destruct (finish a b c) end; cbn; auto.
  - reflexivity.
  - reflexivity.
Qed.

Lemma after_same m : m_missing m = true -> m_after m = true -> set_m_after true m = m.
Proof. destruct m; cbn. intros -> ->. reflexivity. Qed.

Lemma parse_split cf st m a b : pinv cf st m -> b <> [] ->
  match parse cf st m a with
  | Bad x => parse cf st m (a ++ b) = Bad x
  | Ok None => False
  | Ok (Some r) =>
    (r_rc r = TFalse <-> r_err r <> None) /\
    match r_rc r with
    | TIndet => r_rest r = [] /\ pinv cf (r_st r) (r_msg r) /\ obs_parse (parse cf st m (a ++ b)) = obs_parse (parse cf (r_st r) (r_msg r) b)
    | _ => obs_parse (parse cf st m (a ++ b)) = Ok (Some (obs_p (mkpres (r_rc r) (r_err r) (r_st r) (r_msg r) (r_rest r ++ b))))
    end
  end.
Proof.
  intros HI HB. set (m0 := if m_missing m then set_m_after true m else m).
  assert (pinv cf st m0) as HI0.
  { subst m0. destruct (m_missing m); auto. }
  pose proof (p_loop_split cf b HB 4 st m0 a 0 HI0 (rank_lt_4 st)) as HS.
  unfold parse at 1. fold m0.
  destruct (p_loop 4 cf st m0 a 0) as [[[r t]|]|x] eqn:EL; cbn [obind].
  - destruct HS as (HF & HE & HS). destruct (s_rc r) eqn:EC.
    + destruct (finish cf (set_p_phase PEnd (fst (s_st r))) (snd (s_st r))) as [m1|x] eqn:EF; cbn [obind].
      * cbn. split; auto. rewrite parse_obs. fold m0. rewrite HS. cbn. cbn [zap fin].
        rewrite (finish_end cf (set_p_last 0 (fst (s_st r))) (fst (s_st r))), EF. reflexivity.
      * pose proof (parse_obs cf st m (a ++ b)) as PO. fold m0 in PO. rewrite HS in PO. cbn in PO. cbn [zap fin] in PO.
        rewrite (finish_end cf (set_p_last 0 (fst (s_st r))) (fst (s_st r))), EF in PO. cbn in PO.
        destruct (parse cf st m (a ++ b)); cbn in PO; congruence.
    + cbn. split; auto. rewrite parse_obs. fold m0. rewrite HS. cbn. reflexivity.
    + cbn [r_rc r_err r_rest r_st r_msg]. destruct HS as (H1 & H2 & H3).
      split; auto. split; auto. split; [apply pinv_last; auto|].
      rewrite !parse_obs. fold m0.
      rewrite (H3 4%nat 0 0 (rank_lt_4 _)).
      assert ((if m_missing (snd (s_st r)) then set_m_after true (snd (s_st r)) else snd (s_st r)) = snd (s_st r)) as ->.
      { destruct HF as [F1 F2]. destruct (m_missing (snd (s_st r))) eqn:EM; auto. apply after_same; auto.
        rewrite F2. subst m0. destruct (m_missing m) eqn:EMM; [reflexivity|]. congruence. }
      rewrite (p_loop_obs cf 4 4 (fst (s_st r)) (set_p_last t (fst (s_st r))) (snd (s_st r)) b 0 0); auto using rank_lt_4.
  - contradiction.
  - specialize (HS 0). unfold parse. fold m0. rewrite HS. reflexivity.
Qed.
