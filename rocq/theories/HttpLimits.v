(** Length limits of header fields; resetting a parser; results and status. *)
From Coq Require Import String ZArith List Lia Bool Permutation.
From Coq Require Import ZifyBool ZifyNat.
From Verif Require Import Base Digits AlgModel FormModel DictModel MultipartModel HttpModel HttpBase HttpSplit HttpSpec HttpProofs HttpHead HttpBody HttpChunk HttpBounds.
Import ListNotations.

Local Arguments zlen : simpl never.
Local Arguments Z.add : simpl never.
Local Arguments Z.sub : simpl never.
Local Arguments used : simpl never.
Local Arguments finish : simpl never.
Local Arguments cache_fill : simpl never.

(* ------------------------------------------------------------------ limits *)

Definition hlim (h : hdrs) : Prop :=
  zlen (h_method h) <= 1024 /\ zlen (h_resource h) <= 262144 /\ zlen (h_query h) <= 1048576 /\ zlen (h_reason h) <= 1024
  /\ zlen (h_name h) <= 1024 /\ zlen (h_value h) <= 1048576 /\ (h_state h = HSpaceBeforeValue -> h_value h = []).
Definition plim (d : dict) : Prop := Forall (fun p => zlen (fst p) <= 1024 /\ zlen (snd p) <= 1048576) d.

Lemma plim_insert pos d p : plim d -> zlen (fst p) <= 1024 -> zlen (snd p) <= 1048576 -> plim (d_insert pos d p).
Proof.
  intros H A B. unfold plim. apply (Permutation_Forall (d_insert_perm pos d p)). constructor; auto.
Qed.

Lemma zlen_snoc {A} (l : list A) x : zlen (l ++ [x]) = zlen l + 1.
Proof. rewrite zlen_app, zlen_cons, zlen_nil. lia. Qed.
Lemma zlen_one {A} (x : A) : zlen [x] = 1.
Proof. reflexivity. Qed.

Lemma h_char_lim cf h m c : hlim h -> plim (m_headers m) ->
  match h_char cf h m c with
  | HCont h' m' | HDone _ h' m' => hlim h' /\ plim (m_headers m') /\ m_method m' = m_method m /\ m_resource m' = m_resource m /\ m_query_string m' = m_query_string m /\ m_reason m' = m_reason m
  | HFail _ => True end.
Proof.
  intros (A & B & C & D & E & F & G) P. unfold h_char.
  destruct (h_state h) eqn:EH; unfold begin_name, goto, version00, METHOD_MAX, RESOURCE_MAX, QUERY_STRING_MAX, STATUS_MESSAGE_MAX, HEADER_NAME_MAX, HEADER_VALUE_MAX;
  repeat match goal with |- context [if ?b then _ else _] => destruct b eqn:? end; auto;
  unfold hlim; cbn; rewrite ?zlen_snoc, ?zlen_nil, ?zlen_one;
  (split; [repeat split; try lia|split; [|repeat split]]); auto.
  all: try (apply plim_insert; auto; fail).
  all: try (rewrite (G eq_refl), zlen_nil; lia).
  all: intros; congruence.
Qed.

Lemma save_raw_lim cf h c : hlim h -> hlim (save_raw cf h c).
Proof. intros H. unfold save_raw. destruct (cf_save_raw cf); auto. Qed.

Definition same_line (m m' : msg) : Prop :=
  m_method m' = m_method m /\ m_resource m' = m_resource m /\ m_query_string m' = m_query_string m /\ m_reason m' = m_reason m.

Lemma h_loop_lim cf s : forall h m, hlim h -> within_limits m ->
  hlim (fst (s_st (h_loop cf h m s))) /\ within_limits (snd (s_st (h_loop cf h m s))).
Proof.
  induction s as [|c s IH]; intros h m HH HM; cbn [h_loop]; auto.
  pose proof (save_raw_lim cf h c HH) as HS. pose proof HM as (M1 & M2 & M3 & M4 & M5).
  pose proof (h_char_lim cf (save_raw cf h c) m c HS M5) as HC.
  assert (forall m2, plim (m_headers m2) /\ m_method m2 = m_method m /\ m_resource m2 = m_resource m /\ m_query_string m2 = m_query_string m /\ m_reason m2 = m_reason m -> within_limits m2) as WL.
  { intros m2 (P & E1 & E2 & E3 & E4). unfold within_limits. rewrite E1, E2, E3, E4. auto. }
  destruct (h_char cf (save_raw cf h c) m c) as [h2 m2|e|[|] h2 m2]; cbn; auto; destruct HC as [HC1 HC2]; auto.
Qed.

Lemma update_message_lim cf h m : hlim h -> within_limits m -> within_limits (update_message cf h m).
Proof.
  intros (A & B & C & D & _) (M1 & M2 & M3 & M4 & M5). unfold update_message, within_limits.
  destruct (cf_request cf); [destruct (h_query h)|]; cbn; auto.
Qed.

(** everything else only touches other fields *)
Definition same_head (m m' : msg) : Prop := same_line m m' /\ m_headers m' = m_headers m.
Lemma same_head_lim m m' : same_head m m' -> within_limits m -> within_limits m'.
Proof. intros ((E1 & E2 & E3 & E4) & E5). unfold within_limits. rewrite E1, E2, E3, E4, E5. auto. Qed.

Lemma buf_write_head m o b m' : buf_write m o b = Ok m' -> same_head m m'.
Proof. unfold buf_write. destruct (_ <=? _); intros H; inversion H; subst. repeat split. Qed.
Lemma create_head m m' : create_content_buffer m = Ok m' -> same_head m m'.
Proof. unfold create_content_buffer. destruct (_ <=? _); intros H; inversion H; subst. repeat split. Qed.
Lemma same_head_trans a b c : same_head a b -> same_head b c -> same_head a c.
Proof. intros ((?&?&?&?)&?) ((?&?&?&?)&?). repeat split; congruence. Qed.
Lemma concatenate_head m m' : concatenate_chunks m = Ok m' -> same_head m m'.
Proof.
  unfold concatenate_chunks. destruct (create_content_buffer _) as [m1|] eqn:E; [|discriminate]. cbn [obind]. intros H.
  apply create_head in E. apply buf_write_head in H. eapply same_head_trans; [|eauto]. eapply same_head_trans; [|eauto]. repeat split.
Qed.

Lemma finish_headers_lim cf st m rc e st' m' : hlim (p_h st) -> within_limits m -> finish_headers cf st m = Ok (rc, e, (st', m')) ->
  hlim (p_h st') /\ within_limits m'.
Proof.
  intros HH HM E. destruct (finish_headers_k _ _ _ _ _ _ _ E) as (_ & _ & _ & _ & HP & _). rewrite HP. split; auto.
  revert E. unfold finish_headers.
  assert (within_limits (update_transfer_encoding (set_m_clen 0 m))) as W1 by exact HM.
  pose proof (update_message_lim cf (p_h st) _ HH W1) as W2.
  set (m0 := update_message cf (p_h st) (update_transfer_encoding (set_m_clen 0 m))) in *. clearbody m0. cbv zeta.
  destruct (m_chunked m0); [intros H; inversion H; subst; auto|].
  destruct (is_content_length_implied (cf_request cf) m0); [intros H; inversion H; subst; auto|].
  destruct (d_has (m_headers m0) HEADER_CONTENT_LENGTH).
  - destruct (update_content_length m0) as [m2|] eqn:EU; [|intros H; inversion H; subst; auto].
    apply update_content_length_spec in EU as (n & Hn & ->).
    destruct (m_clen (set_m_clen n m0) =? 0); [intros H; inversion H; subst; auto|].
    set (m3 := if cf_max cf <? m_clen (set_m_clen n m0) then set_m_clen (cf_max cf) (set_m_clen n m0) else set_m_clen n m0).
    assert (within_limits m3) as W3 by (unfold m3; destruct (cf_max cf <? m_clen (set_m_clen n m0)); exact W2). clearbody m3.
    destruct (cf_headers_only cf); [intros H; inversion H; subst; auto|].
    destruct (create_content_buffer m3) as [m4|] eqn:EC; [|discriminate]. cbn [obind]. intros H; inversion H; subst.
    eapply same_head_lim; [apply create_head; eauto|auto].
  - destruct (cf_request cf); intros H; inversion H; subst; auto.
Qed.

Definition linv (st : pst) (m : msg) : Prop := hlim (p_h st) /\ within_limits m.

Lemma round_lim cf st m s r : pinv cf st m -> linv st m -> p_round cf st m s = Ok r -> linv (fst (s_st r)) (snd (s_st r)).
Proof.
  intros HP [LH LM]. unfold p_round.
  assert (forall st0, hlim (p_h st0) -> linv (fst (s_st (parse_headers cf st0 m s))) (snd (s_st (parse_headers cf st0 m s)))) as PH.
  { intros st0 L0. unfold parse_headers. cbn [s_st fst snd]. destruct (h_loop_lim cf s (p_h st0) m L0 LM) as [A B]. split; auto. }
  assert ((let r := parse_headers cf (set_p_phase PHeaders st) m s in
    match s_rc r with
    | TTrue =>
      obind (finish_headers cf (fst (s_st r)) (snd (s_st r))) (fun x =>
        match x with (rc, e, stm) => Ok (mksub rc e stm (s_rest r)) end)
    | _ => Ok r
    end) = Ok r -> linv (fst (s_st r)) (snd (s_st r))) as HH.
  { cbv zeta. pose proof (PH (set_p_phase PHeaders st) LH) as [L1 L2]. set (ra := parse_headers cf (set_p_phase PHeaders st) m s) in *. clearbody ra.
    destruct (s_rc ra).
    - destruct (finish_headers cf (fst (s_st ra)) (snd (s_st ra))) as [[[rc e] [st' m']]|x] eqn:EF; [|discriminate].
      intros H; inversion H; subst; cbn. eapply finish_headers_lim; [| |eauto]; auto.
    - intros H; inversion H; subst. split; auto.
    - intros H; inversion H; subst. split; auto. }
  destruct (p_phase st) eqn:EP; auto.
  - intros H; inversion H; subst. apply PH; auto.
  - rewrite consume_content_eq by auto. intros H; inversion H; subst. cbn [s_st fst snd].
    unfold content_st, content_msg. destruct (cf_handler cf); split; auto.
  - intros H; inversion H; subst. cbn [s_st fst snd]. unfold consume_no_length. destruct (cf_handler cf); split; auto.
  - cbv zeta. assert (linv (fst (s_st (parse_chunks cf st m s))) (snd (s_st (parse_chunks cf st m s)))) as [L1 L2].
    { unfold parse_chunks. cbn [s_st fst snd]. split; auto. destruct (ko_footers _); cbn -[goto]; auto.
      destruct LH as (A & B & C & D & E & F & G). unfold hlim, goto. cbn. repeat split; auto. discriminate. }
    set (ra := parse_chunks cf st m s) in *. clearbody ra.
    destruct (s_rc ra); [|intros H; inversion H; subst; split; auto|intros H; inversion H; subst; split; auto].
    destruct (cf_handler cf); [intros H; inversion H; subst; split; auto|].
    destruct (concatenate_chunks (snd (s_st ra))) as [m'|] eqn:EC; [|discriminate]. cbn [obind]. intros H; inversion H; subst. cbn.
    split; auto. eapply same_head_lim; [apply concatenate_head; eauto|auto].
  - intros H; inversion H; subst. split; auto.
Qed.

Lemma p_loop_lim cf : forall n st m s t r t', pinv cf st m -> linv st m -> p_loop n cf st m s t = Ok (Some (r, t')) -> linv (fst (s_st r)) (snd (s_st r)).
Proof.
  induction n as [|n IH]; intros st m s t r t' HP HL; [discriminate|]. rewrite p_loop_S.
  destruct (p_round cf st m s) as [r1|x] eqn:E; [|discriminate]. cbn [obind].
  destruct (round_ok _ _ _ _ _ HP E) as (_ & O2 & _ & _). pose proof (round_lim _ _ _ _ _ HP HL E) as L1.
  destruct (s_rc r1) eqn:EC.
  - intros H; inversion H; subst; auto.
  - intros H; inversion H; subst; auto.
  - destruct (s_rest r1); [|apply IH; auto]. intros H; inversion H; subst; auto.
Qed.

Lemma finish_forms_head cf m m' : finish_forms cf m = Ok m' -> same_head m m'.
Proof.
  unfold finish_forms. destruct (cf_request cf && negb (cf_handler cf) && negb (cf_headers_only cf)); [|intros H; inversion H; subst; repeat split].
  repeat match goal with |- context [if ?b then _ else _] => destruct b end.
  - destruct (content_of m); [|discriminate]. intros H; inversion H; subst; repeat split.
  - destruct (content_of m); [|discriminate]. cbn [obind]. destruct (parse_multipart _ _); try discriminate. intros H; inversion H; subst; repeat split.
  - intros H; inversion H; subst; repeat split.
Qed.
Lemma finish_end_head cf st m m' : p_phase st = PEnd -> finish cf st m = Ok m' -> same_head m m'.
Proof. intros HP. unfold finish. rewrite HP. intros H. apply finish_forms_head in H. eapply same_head_trans; [|exact H]. repeat split. Qed.

Lemma parse_lim cf st m s r : pinv cf st m -> linv st m -> parse cf st m s = Ok (Some r) -> linv (r_st r) (r_msg r).
Proof.
  intros HP HL. unfold parse. set (m0 := if m_missing m then set_m_after true m else m).
  assert (pinv cf st m0) as HP0 by (subst m0; destruct (m_missing m); auto).
  assert (linv st m0) as HL0 by (subst m0; destruct (m_missing m); auto). clearbody m0.
  destruct (p_loop 4 cf st m0 s 0) as [[[r1 t]|]|] eqn:EL; cbn [obind]; try discriminate.
  pose proof (p_loop_lim _ _ _ _ _ _ _ _ HP0 HL0 EL) as [L1 L2].
  destruct (s_rc r1).
  - destruct (finish cf (set_p_phase PEnd (fst (s_st r1))) (snd (s_st r1))) eqn:EF; cbn [obind]; try discriminate.
    intros H; inversion H; subst. split; auto. eapply same_head_lim; [eapply finish_end_head; eauto; reflexivity|auto].
  - intros H; inversion H; subst. split; auto.
  - intros H; inversion H; subst. split; auto.
Qed.

Lemma missing_lim cf st m len rc e st' m' : linv st m -> parse_missing_data cf st m len = Ok (rc, e, st', m') -> linv st' m'.
Proof.
  intros [LH LM]. unfold parse_missing_data.
  destruct (missing_step cf st (set_m_missing true m) len) as [[[[rc1 e1] st1] m1]|] eqn:EM; [|discriminate]. cbn [obind].
  assert (linv st1 m1) as [L1 L2].
  { revert EM. unfold missing_step. set (ma := set_m_missing true m). assert (within_limits ma) as LA by exact LM. clearbody ma.
    destruct (p_phase st); try (intros H; inversion H; subst; split; auto; fail).
    - destruct (p_remaining st =? 0); [intros H; inversion H; subst; split; auto|].
      destruct (p_remaining st <? len); [intros H; inversion H; subst; split; auto|].
      destruct (cf_handler cf); [cbn [obind]; intros H; inversion H; subst; split; auto|].
      destruct (_ <=? cf_max cf); [|cbn [obind]; intros H; inversion H; subst; split; auto].
      destruct (buf_write ma (p_content_read st) (missing_bytes len)) eqn:EB; cbn [obind]; [|discriminate].
      intros H; inversion H; subst; split; auto. eapply same_head_lim; [eapply buf_write_head; eauto|auto].
    - destruct (cf_handler cf); intros H; inversion H; subst; split; auto.
    - destruct (_ && _ && _); [|intros H; inversion H; subst; split; auto].
      destruct (cf_handler cf); intros H; inversion H; subst; split; auto. }
  destruct rc1.
  - destruct (finish cf (set_p_phase PEnd st1) m1) eqn:EF; cbn [obind]; [|discriminate]. intros H; inversion H; subst. split; auto.
    eapply same_head_lim; [eapply finish_end_head; eauto; reflexivity|auto].
  - intros H; inversion H; subst. split; auto.
  - intros H; inversion H; subst. split; auto.
Qed.

Lemma reach_lim miss cf st m : 0 <= cf_max cf -> reach within_limits miss cf st m -> linv st m.
Proof.
  intros HM H. induction H as [m A|st m m' H IH A|st m s r H IH NE E|st m len rc e st' m' H IH MI HL E].
  - split; auto. unfold hlim. cbn. rewrite !zlen_nil. repeat split; try lia.
  - split; auto. destruct IH as [(_ & _ & _ & _ & X1 & X2 & _) _]. unfold hlim. cbn. rewrite !zlen_nil. repeat split; try lia. destruct (cf_request cf); discriminate.
  - eapply parse_lim; eauto. eapply reach_pinv; eauto.
  - eapply missing_lim; eauto.
Qed.

