(** C120-C124: messages on streams, and responses to HEAD. *)
From Coq Require Import String ZArith List Bool Lia Permutation.
From Verif Require Import Base DictModel HttpModel HttpSpec HttpSplit HttpBody HttpFeeds HttpExamples MessageModel MessageSpec MessageProofs WriterModel ReaderModel ReaderSpec ReaderProofs IoModel.
Import ListNotations.

Lemma clear_is o cf : o_request o = cf_request cf -> o_msg (o_clear o) = cleared cf.
Proof. intros E. unfold o_clear, cleared. rewrite E. reflexivity. Qed.
Definition some_b {A} (x : option A) : bool := match x with Some _ => true | None => false end.
(** reading byte by byte is feeding the parser byte by byte *)
Lemma read_loop_spec cf s : forall st m,
  match feed cf st m (single s) with
  | Ok (Some r) =>
    match r_rc r with
    | TIndet => read_loop cf st m s = Ok (Some (TIndet, true, r_st r, r_msg r, []))
    | rc => exists p rest c, s = p ++ c :: rest /\ read_loop cf st m s = Ok (Some (rc, some_b (r_err r), r_st r, r_msg r, rest)) /\ (r_rest r = rest \/ exists q, r_rest r = q ++ rest)
        /\ exists r', feed cf st m (single (p ++ [c])) = Ok (Some r') /\ r_rc r' = rc /\ r_msg r' = r_msg r /\ r_err r' = r_err r
    end
  | Ok None => read_loop cf st m s = Ok None
  | Bad b => read_loop cf st m s = Bad b
  end.
Proof.
  induction s as [|c s IH]; intros st m; [reflexivity|]. cbn [single map feed read_loop]. destruct (parse cf st m [c]) as [[r|]|] eqn:P; auto.
  assert (forall rc, r_rc r = rc -> rc <> TIndet -> exists r', feed cf st m (single ([] ++ [c])) = Ok (Some r') /\ r_rc r' = rc /\ r_msg r' = r_msg r /\ r_err r' = r_err r) as ONE.
  { intros rc E N. cbn [app single map feed]. rewrite P, E. destruct rc; try contradiction; eexists; split; try reflexivity; auto. }
  destruct (r_rc r) eqn:RC; cbn [r_rc r_err r_st r_msg r_rest].
  - exists [], s, c. fold (single s). rewrite single_concat. repeat split; auto; [right; eauto|apply ONE; auto; discriminate].
  - exists [], s, c. fold (single s). rewrite single_concat. repeat split; auto; [right; eauto|apply ONE; auto; discriminate].
  - specialize (IH (r_st r) (r_msg r)). fold (single s). destruct (feed cf (r_st r) (r_msg r) (single s)) as [[q|]|]; auto.
    destruct (r_rc q) eqn:RQ; auto; destruct IH as (p & rest & c' & -> & L & R & r' & F & F1 & F2 & F3); exists (c :: p), rest, c'; (split; [reflexivity|]; split; [exact L|]; split; [exact R|]); exists r'; (split; [|auto]); cbn [app single map feed]; rewrite P, RC; exact F.
Qed.
Lemma no_length_stays cf st m s r : p_phase st = PContentNoLength -> parse cf st m s = Ok (Some r) -> r_rc r = TIndet /\ p_phase (r_st r) = PContentNoLength.
Proof.
  intros PH. unfold parse. cbn [p_loop]. unfold p_round at 1. rewrite PH. cbn [obind s_rc s_err s_st s_rest].
  destruct (consume_no_length cf st (if m_missing m then set_m_after true m else m) s) as [st' m'] eqn:E. cbn. intros H. injection H as <-. cbn. split; auto.
  unfold consume_no_length in E. revert E. destruct (cf_handler cf); intros E; injection E as <- _; exact PH.
Qed.
Lemma feed_no_length cf ps : forall st m r, p_phase st = PContentNoLength -> feed cf st m ps = Ok (Some r) -> r_rc r = TIndet.
Proof.
  induction ps as [|p ps IH]; intros st m r PH F; cbn [feed] in F; [injection F as <-; reflexivity|]. destruct (parse cf st m p) as [[q|]|] eqn:P; try discriminate.
  destruct (no_length_stays cf st m p q PH P) as (E & PH'). rewrite E in F. eauto.
Qed.
Lemma feed_app cf a b : forall st m, feed cf st m (a ++ b) =
  match feed cf st m a with
  | Ok (Some r) => match r_rc r with TIndet => feed cf (r_st r) (r_msg r) b | _ => Ok (Some (mkpres (r_rc r) (r_err r) (r_st r) (r_msg r) (r_rest r ++ concat b))) end
  | o => o
  end.
Proof.
  induction a as [|x a IH]; intros st m; [reflexivity|]. cbn [app feed]. destruct (parse cf st m x) as [[r|]|]; auto.
  destruct (r_rc r) eqn:E; auto; cbn [r_rc r_err r_st r_msg r_rest]; rewrite concat_app, app_assoc; reflexivity.
Qed.
Lemma single_app a b : single (a ++ b) = single a ++ single b. Proof. apply map_app. Qed.
Lemma single_nonempty s : nonempty (single s). Proof. apply (proj1 (single_cut s)). Qed.
Lemma single_nil s : s <> [] -> single s <> []. Proof. destruct s; [congruence|discriminate]. Qed.

Lemma premature_valid cf st m st' m' : check_premature_eof cf st m = Ok (false, st', m') -> m_valid m' = true.
Proof.
  unfold check_premature_eof. destruct (p_phase st); try discriminate. destruct (concatenate_chunks m) as [m1|]; [|discriminate]. cbn [obind]. unfold finish. cbn [p_phase set_p_phase].
  destruct (finish_forms _ _) as [m2|] eqn:E; cbn [obind]; [|discriminate]. intros H. injection H as _ <-. cbn. rewrite (finish_forms_valid _ _ _ E). reflexivity.
Qed.

(** a proper beginning of a whole message leaves the parser waiting, and not for the end of the stream *)
Lemma beginning cf m0 p q r : 0 <= cf_max cf -> p <> [] -> q <> [] -> parse cf (p_init cf) m0 (p ++ q) = Ok (Some r) -> r_rc r = TTrue -> r_rest r = [] ->
  exists r', feed cf (p_init cf) m0 (single p) = Ok (Some r') /\ r_rc r' = TIndet /\ p_phase (r_st r') <> PContentNoLength.
Proof.
  intros HM NP NQ P T E. pose proof (feed_whole cf m0 (single (p ++ q)) (p ++ q) HM (single_nonempty _) (single_nil (p ++ q) ltac:(destruct p; [congruence|discriminate])) (single_concat _)) as FW.
  rewrite P, single_app, feed_app in FW. destruct (feed cf (p_init cf) m0 (single p)) as [[r'|]|] eqn:F; try contradiction.
  exists r'. split; auto. destruct (r_rc r') eqn:RC.
  - destruct FW as (_ & _ & _ & FW & _). cbn in FW. rewrite single_concat, E in FW. apply app_eq_nil in FW. destruct FW. congruence.
  - destruct FW as (FW & _). cbn in FW. congruence.
  - split; auto. intros PH. destruct (feed cf (r_st r') (r_msg r') (single q)) as [[r2|]|] eqn:F2; try contradiction.
    apply feed_no_length in F2; auto. destruct FW as (FW & _). congruence.
Qed.

(* ------------------------------------------------------------------ C120 *)

(** C120. A file that holds only the beginning of a message, however much of it: [read] reports an error. (The message may be of any kind the parser takes for finished,
    with or without a length, in chunks or bodiless.) *)
Theorem C120_truncated cf o p q m : 0 <= cf_max cf -> o_request o = cf_request cf -> whole_cleared cf (p ++ q) m -> q <> [] ->
  exists m', read_in cf o (mkin p true) = Ok (Some (true, m', mkin [] false)).
Proof.
  intros HM HO (r & P & T & E & _) NQ. unfold read_in. cbn [i_good i_data]. rewrite (clear_is o cf HO). destruct p as [|c p]; [eauto|].
  destruct (beginning cf (cleared cf) (c :: p) q r HM ltac:(discriminate) NQ P T E) as (r' & F & RC & PH).
  pose proof (read_loop_spec cf (c :: p) (p_init cf) (cleared cf)) as L. rewrite F, RC in L. rewrite L. unfold check_premature_eof. destruct (p_phase (r_st r')); try congruence; cbn [obind]; eauto.
Qed.
Print Assumptions C120_truncated.
Example C120_case : exists m, whole_cleared (ex_cf true false) (wire_head ex_post ++ bs "hello world") m.
Proof. eexists. eexists. split; [vm_compute; reflexivity|]. repeat split. Qed.

(* ------------------------------------------------------------------ C121 *)

Lemma read_one cf o w m more : 0 <= cf_max cf -> o_request o = cf_request cf -> whole_cleared cf w m -> w <> [] ->
  read_in cf o (mkin (w ++ more) true) = Ok (Some (false, m, mkin more true)).
Proof.
  intros HM HO (r & P & T & E & M) NW. unfold read_in. cbn [i_good i_data]. rewrite (clear_is o cf HO).
  pose proof (feed_whole cf (cleared cf) (single w) w HM (single_nonempty _) (single_nil _ NW) (single_concat _)) as FW. unfold cleared in FW at 2. rewrite P in FW.
  destruct (feed cf (p_init cf) (cleared cf) (single w)) as [[r'|]|] eqn:F; try contradiction. destruct FW as (A & B & C & D & _).
  pose proof (read_feed cf more w _ _ _ F ltac:(congruence) ltac:(congruence)) as RF. destruct w as [|c w]; [congruence|]. cbn [app]. cbn [app] in RF. rewrite RF.
  assert (r_err r' = None) as ->; [|congruence]. eapply err_none; eauto; [apply single_nonempty|discriminate|congruence].
Qed.
(** C121. Messages written one after another to a stream are read one after another, each by itself, whatever objects they are read into; what follows them is left. The next
    [read] of a stream without more bytes reports an error. *)
Theorem C121_in_order cf ws ms : 0 <= cf_max cf -> Forall2 (whole_cleared cf) ws ms -> Forall (fun w => w <> []) ws ->
  forall os more, List.length os = List.length ws -> Forall (fun o => o_request o = cf_request cf) os ->
  read_each cf os (mkin (concat ws ++ more) true) = Ok (Some (map (fun m => (false, m)) ms, mkin more true))
  /\ forall o, o_request o = cf_request cf -> exists m, read_in cf o (mkin [] true) = Ok (Some (true, m, mkin [] false)).
Proof.
  intros HM H NE os more L RQ. split; [|intros o RO; unfold read_in; cbn; eauto]. revert os more L RQ. induction H as [|w m ws ms W _ IH]; intros os more L RQ.
  - destruct os; [reflexivity|discriminate].
  - destruct os as [|o os]; [discriminate|]. cbn [concat read_each]. rewrite <- app_assoc, (read_one cf o w m _ HM (Forall_inv RQ) W (Forall_inv NE)). cbn [obind].
    rewrite (IH (Forall_inv_tail NE) os more) by (cbn in L; auto; apply (Forall_inv_tail RQ)). reflexivity.
Qed.
Print Assumptions C121_in_order.
Example C121_case : exists m1 m2, Forall2 (whole_cleared (ex_cf true false)) [wire_head ex_post ++ bs "hello world"; wire_head ex_get] [m1; m2].
Proof. do 2 eexists. constructor; [|constructor; [|constructor]]; eexists; (split; [vm_compute; reflexivity|]; repeat split). Qed.

(* ------------------------------------------------------------------ C122 *)

(** C122. If [read] reports no error, the bytes it took are a message and the one returned is it, or the stream ended where only its end could end the message - if the stream
    was good. *)
Theorem C122_no_error_partial cf o s m' i : 0 <= cf_max cf -> o_request o = cf_request cf -> read_in cf o (mkin s true) = Ok (Some (false, m', i)) ->
  exists p, s = p ++ i_data i /\ exists r, parse cf (p_init cf) (cleared cf) p = Ok (Some r) /\
  m_valid m' = true /\ ((r_rc r = TTrue /\ r_msg r = m' /\ i_good i = true) \/ (r_rc r = TIndet /\ p_phase (r_st r) = PContentNoLength /\ i = mkin [] false)).
Proof.
  intros HM HO. unfold read_in. cbn [i_good i_data]. rewrite (clear_is o cf HO). destruct s as [|c s]; [discriminate|]. remember (c :: s) as w eqn:EW. assert (w <> []) as NW by (subst; discriminate). clear EW c s.
  pose proof (read_loop_spec cf w (p_init cf) (cleared cf)) as L. destruct (feed cf (p_init cf) (cleared cf) (single w)) as [[r|]|] eqn:F; try (rewrite L; discriminate).
  assert (forall rc, rc <> TIndet -> r_rc r = rc -> (exists p rest c, w = p ++ c :: rest /\ read_loop cf (p_init cf) (cleared cf) w = Ok (Some (rc, some_b (r_err r), r_st r, r_msg r, rest))
     /\ exists r', feed cf (p_init cf) (cleared cf) (single (p ++ [c])) = Ok (Some r') /\ r_rc r' = rc /\ r_msg r' = r_msg r /\ r_err r' = r_err r) ->
     match read_loop cf (p_init cf) (cleared cf) w with Ok (Some (rc', e, _, m2, rest)) => rc' = rc /\ (e = false -> rc = TTrue /\ exists p q, w = p ++ rest /\ parse cf (p_init cf) (cleared cf) p = Ok (Some q) /\ r_rc q = TTrue /\ r_msg q = m2) | _ => False end) as X.
  { intros rc NI RC (p & rest & c & -> & RL & r' & F' & A & B & C). rewrite RL. split; auto. intros E.
    assert (single (p ++ [c]) <> []) as NS by (apply single_nil; destruct p; discriminate).
    pose proof (feed_whole cf (cleared cf) (single (p ++ [c])) (p ++ [c]) HM (single_nonempty _) NS (single_concat _)) as FW. rewrite F' in FW.
    assert (rc = TTrue) as ->. { pose proof (feed_err _ _ _ _ HM (single_nonempty _) NS F') as (D & _). rewrite A, C in D. destruct rc; auto; [|contradiction]. destruct (D eq_refl). destruct (r_err r); [discriminate|reflexivity]. }
    split; auto. destruct (parse cf (p_init cf) (cleared cf) (p ++ [c])) as [[q|]|] eqn:Q; try contradiction. destruct FW as (G & _ & H & _). exists (p ++ [c]), q. rewrite <- app_assoc. repeat split; auto; congruence. }
  destruct (r_rc r) eqn:RC.
  - destruct L as (p & rest & c & E & RL & _ & r' & F'). specialize (X TTrue ltac:(discriminate) eq_refl). rewrite RL in *. destruct w as [|w0 w1]; [congruence|]. intros H. injection H as H <- <-.
    destruct X as (_ & X); [exists p, rest, c; split; auto; split; auto; exists r'; exact F'|]. destruct (X H) as (_ & p' & q & EW & Q1 & Q2 & Q3). exists p'. cbn [i_data i_good]. split; auto. exists q. split; auto. split; [rewrite <- Q3; eapply parse_true_valid; eauto|]. left. repeat split; auto.
  - destruct L as (p & rest & c & E & RL & _ & r' & F'). specialize (X TFalse ltac:(discriminate) eq_refl). rewrite RL in *. destruct w as [|w0 w1]; [congruence|]. intros H. injection H as H <- <-.
    destruct X as (_ & X); [exists p, rest, c; split; auto; split; auto; exists r'; exact F'|]. destruct (X H). discriminate.
  - rewrite L. destruct w as [|w0 w1]; [congruence|]. remember (w0 :: w1) as w. destruct (check_premature_eof cf (r_st r) (r_msg r)) as [[[b st] m2]|] eqn:CP; [|discriminate]. cbn [obind]. intros H. injection H as -> <- <-.
    exists w. cbn [i_data]. rewrite app_nil_r. split; auto.
    pose proof (feed_whole cf (cleared cf) (single w) w HM (single_nonempty _) (single_nil _ NW) (single_concat _)) as FW. rewrite F in FW.
    destruct (parse cf (p_init cf) (cleared cf) w) as [[q|]|] eqn:Q; try contradiction. destruct FW as (G & _ & _ & _ & ST & _). exists q. split; auto. split; [eapply premature_valid; eauto|]. right. split; [congruence|]. split; auto. rewrite <- ST. unfold check_premature_eof in CP. destruct (p_phase (r_st r)); auto; congruence.
Qed.
Print Assumptions C122_no_error_partial.
Example C122_case : exists m i, read_in (ex_cf false false) (o_new false) (mkin (wire_head ex_200 ++ bs "body") true) = Ok (Some (false, m, i)) /\ content_of m = Ok (bs "body").
Proof. do 2 eexists. split; vm_compute; reflexivity. Qed.
(** From a stream that has failed before - a file that could not be opened, or that has been read to its end - an empty message is read and no error reported. *)
Theorem C122_failed_stream_partial cf o s : read_in cf o (mkin s false) = Ok (Some (false, o_msg (o_clear o), mkin s false)).
Proof. reflexivity. Qed.
Print Assumptions C122_failed_stream_partial.
Theorem C122_no_error_refuted : ~ forall cf o i m' i', 0 <= cf_max cf -> o_request o = cf_request cf -> read_in cf o i = Ok (Some (false, m', i')) -> m_valid m' = true.
Proof. intros H. specialize (H (ex_cf true false) (o_new true) (mkin [] false) _ _ ltac:(cbn; lia) eq_refl eq_refl). discriminate. Qed.
Print Assumptions C122_no_error_refuted.

(* ------------------------------------------------------------------ C123 *)

(** C123. The response to a HEAD request ends with its header: read by a [response_reader], however it is cut and whatever follows, it is returned without content and what
    follows is left on a connection that stays. *)
Theorem C123_reader_partial cf hd pieces tail more : 0 <= cf_max cf -> cf_request cf = false -> head_ok cf hd -> (exists a b, hd = HResp a b) ->
  no_chunks hd -> cut pieces (wire_head hd ++ more) ->
  exists x, read_response (bs "HEAD") cf LClose [] (map RData pieces ++ tail) = Ok (Some x) /\ rr_fin x = Some None /\ first_line hd (rr_msg x) /\ content_of (rr_msg x) = Ok []
    /\ Permutation (hdrs_of hd) (m_headers (rr_msg x))
    /\ (stays (rr_msg x) -> exists ps, rr_evs x = map RData ps ++ tail /\ concat (pend (rr_life x) (rr_saved x) ++ ps) = more).
Proof.
  intros HM RQ HOK (a & b & EH) TE C. unfold read_response.
  destruct (feed_bodiless cf (o_msg (response_to (bs "HEAD"))) hd pieces eq_refl eq_refl HOK more HM TE) as (r & F & T & E & V & S & CT & FL & P & R); auto.
  { rewrite EH. cbn. left. reflexivity. }
  pose proof (r_receive_feed cf tail (p_init cf) (o_msg (response_to (bs "HEAD"))) LClose [] pieces (proj1 C)) as RF. cbn [pend app] in RF. rewrite F, T in RF.
  destruct RF as (l & sv & ps & RF & NE & K1 & K2). eexists. split; [exact RF|]. cbn [rr_fin rr_msg rr_life rr_saved rr_evs]. rewrite E. repeat split; auto.
  intros ST. exists ps. split; auto. destruct (K1 (stays_keep _ ST)) as (_ & K). congruence.
Qed.
Print Assumptions C123_reader_partial.
(** Received with [receive] into a response made for the HEAD request, it is not: [receive] clears the message, also of the method. It waits for the content, and takes the
    bytes that come next - of the next response - for it. *)
Lemma receive_into_eq o cf : o_request o = cf_request cf -> receive_into o cf = m_receive cf.
Proof. intros E. unfold receive_into, m_receive. rewrite (clear_is o cf E), <- cleared_eq. reflexivity. Qed.
Definition response_head (hd : head) (c : Z) : Prop := exists a b, hd = HResp a b /\ dec_value (sl_code a) = c /\ ~ 100 <= c <= 199 /\ c <> 204 /\ c <> 205 /\ c <> 304.
Theorem C123_receive_partial cf hd c v body more tail pieces : storing cf -> cf_request cf = false -> head_ok cf hd -> response_head hd c ->
  no_chunks hd -> values_of (bs "Content-Length") (hdrs_of hd) = [v] -> numeral (zlen body) v -> body <> [] ->
  zlen body <= cf_max cf -> zlen body < two64 - 1 -> no_multipart hd ->
  (cut pieces (wire_head hd) -> receive_into (response_to (bs "HEAD")) cf LClose [] (map RData pieces) = Ok (Some None))
  /\ (cut pieces (wire_head hd ++ body ++ more) ->
      exists x, receive_into (response_to (bs "HEAD")) cf LClose [] (map RData pieces ++ tail) = Ok (Some (Some x)) /\ mr_ok x = true /\ content_of (mr_msg x) = Ok body).
Proof.
  intros ST RQ HOK (a & b & EH & EC & N1 & N2 & N3 & N4) TE CL (V1 & V2 & V3) NB LM L64 NM. rewrite (receive_into_eq (response_to (bs "HEAD")) cf) by (rewrite RQ; reflexivity).
  assert (HM : 0 <= cf_max cf) by (destruct ST as (ST & _); lia).
  assert (NBL : ~ bodiless (cleared cf) hd) by (rewrite EH; unfold cleared; rewrite RQ; cbn; rewrite EC; intros [H|[H|[H|[H|H]]]]; try contradiction; discriminate).
  assert (m_headers (cleared cf) = [] /\ m_missing (cleared cf) = false) as (MH & MM) by (unfold cleared; rewrite RQ; auto).
  assert (forall ps mo, cut ps (wire_head hd ++ body ++ mo) -> finished hd (feed cf (p_init cf) (cleared cf) ps) body (hdrs_of hd) mo) as FIN by (intros ps mo CU; eapply feed_length; eauto).
  split.
  - intros CU. assert (wire_head hd <> []) as NH by (rewrite EH; cbn; discriminate).
    destruct (FIN [wire_head hd ++ body] []) as (r & F & T & E & _ & _ & _ & _ & _ & RR).
    { rewrite app_nil_r. split; [constructor; [|constructor]|cbn; apply app_nil_r]. destruct (wire_head hd); [congruence|discriminate]. }
    cbn [feed] in F. destruct (parse cf (p_init cf) (cleared cf) (wire_head hd ++ body)) as [[q|]|] eqn:Q; try discriminate.
    assert (r_rc q = TTrue /\ r_rest q = []) as (Q1 & Q2) by (destruct (r_rc q) eqn:RCQ; injection F as <-; cbn in *; rewrite ?app_nil_r in RR; auto; discriminate).
    destruct (beginning cf (cleared cf) (wire_head hd) body q HM NH NB Q Q1 Q2) as (r' & F' & I & _).
    pose proof (feed_whole cf (cleared cf) (single (wire_head hd)) _ HM (single_nonempty _) (single_nil _ NH) (single_concat _)) as W1. rewrite F' in W1.
    assert (pieces <> []) as NP by (intros ->; destruct CU as (_ & CU); cbn in CU; congruence).
    pose proof (feed_whole cf (cleared cf) pieces _ HM (proj1 CU) NP (proj2 CU)) as W2.
    pose proof (m_receive_feed cf LClose [] [] pieces (proj1 CU)) as RF. cbn [pend app] in RF. rewrite app_nil_r in RF.
    destruct (parse cf (p_init cf) (cleared cf) (wire_head hd)) as [[q1|]|]; try contradiction. destruct (feed cf (p_init cf) (cleared cf) pieces) as [[q2|]|]; try contradiction.
    destruct W1 as (W1 & _), W2 as (W2 & _). cbn [mr_spec] in RF. assert (r_rc q2 = TIndet) as EQ by congruence. rewrite EQ in RF. rewrite RF. reflexivity.
  - intros CU. destruct (FIN pieces more CU) as (r & F & T & E & _ & _ & CT & _). pose proof (m_receive_feed cf LClose [] tail pieces (proj1 CU)) as RF. cbn [pend app] in RF. rewrite F in RF. cbn [mr_spec] in RF. rewrite T in RF.
    destruct RF as (l & sv & ps & RF & _). eexists. split; [exact RF|]. split; [reflexivity|exact CT].
Qed.
Print Assumptions C123_receive_partial.
Definition ex_head_response : head := HResp {| sl_version := v11; sl_code := bs "200"; sl_reason := bs "OK" |} [(bs "Content-Length", bs "3")].
Lemma ex_head_response_ok : head_ok (ex_cf false false) ex_head_response.
Proof. unfold head_ok, ex_head_response. http_ok. Qed.
Example C123_case : head_ok (ex_cf false false) ex_head_response /\ response_head ex_head_response 200 /\ values_of (bs "Content-Length") (hdrs_of ex_head_response) = [bs "3"]
  /\ exists x, read_response (bs "HEAD") (ex_cf false false) LClose [] [RData (wire_head ex_head_response ++ bs "HTT")] = Ok (Some x) /\ rr_life x = LPipelined /\ rr_saved x = bs "HTT".
Proof.
  split; [apply ex_head_response_ok|]. split; [|split; [reflexivity|eexists; split; vm_compute; auto]].
  do 2 eexists. split; [reflexivity|]. split; [reflexivity|]. lia.
Qed.
Theorem C123_receive_refuted : ~ forall cf hd pieces, storing cf -> cf_request cf = false -> head_ok cf hd -> (exists a b, hd = HResp a b) -> no_chunks hd ->
  cut pieces (wire_head hd) -> exists x, receive_into (response_to (bs "HEAD")) cf LClose [] (map RData pieces) = Ok (Some (Some x)) /\ mr_ok x = true.
Proof.
  intros H. destruct (H (ex_cf false false) ex_head_response [wire_head ex_head_response]) as (x & X & _); [split; [cbn; unfold two64; lia|split; reflexivity]|reflexivity|apply ex_head_response_ok|unfold ex_head_response; eauto|apply no_te; reflexivity| |].
  - split; [constructor; [vm_compute; discriminate|constructor]|cbn [concat]; apply app_nil_r].
  - assert (receive_into (response_to (bs "HEAD")) (ex_cf false false) LClose [] (map RData [wire_head ex_head_response]) = Ok (Some None)) as Y by (vm_compute; reflexivity). clear - X Y. rewrite Y in X. discriminate X.
Qed.
Print Assumptions C123_receive_refuted.

(* ------------------------------------------------------------------ C124 *)

(** C124. [write]: no error is reported exactly if the stream was good and took all; otherwise it has taken a beginning of the message, and the count returned is not more than it took. *)
Lemma write_good bufs : forall n o, out_good o = true ->
  let '(k, e, o') := write_out n bufs o in
  exists t, out_bytes o' = out_bytes o ++ t /\ (exists u, concat bufs = t ++ u) /\ n <= k <= n + zlen t /\ (e = false <-> (List.length (concat bufs) <= out_room o)%nat) /\ (e = false -> t = concat bufs /\ k = n + zlen t /\ out_good o' = true) /\ (e = true -> out_good o' = false).
Proof.
  induction bufs as [|b bufs IH]; intros n o G; cbn [write_out concat].
  - exists []. rewrite app_nil_r. split; auto. split; [exists []; reflexivity|]. cbn. repeat split; auto; try lia; discriminate.
  - unfold out_write. rewrite G. destruct (List.length b <=? out_room o)%nat eqn:L.
    + cbn [out_good]. specialize (IH (n + zlen b) (mkout (out_bytes o ++ b) (out_room o - List.length b) true) eq_refl). apply Nat.leb_le in L.
      destruct (write_out _ bufs _) as [[k e] o']. cbn [out_bytes out_room] in IH. destruct IH as (t & T & (u & U) & K & E & E1 & E2). exists (b ++ t). rewrite app_assoc. split; auto.
      split; [exists u; rewrite U, app_assoc; reflexivity|]. assert (zlen (b ++ t) = zlen b + zlen t) as -> by (unfold zlen; rewrite app_length; lia). assert (0 <= zlen b) by (unfold zlen; lia).
      split; [lia|]. split; [rewrite E, app_length; lia|]. split; auto. intros F. destruct (E1 F) as (-> & -> & ?). repeat split; auto. lia.
    + cbn [out_good out_bytes]. apply Nat.leb_gt in L. exists (firstn (out_room o) b). split; auto. split; [exists (skipn (out_room o) b ++ concat bufs); rewrite app_assoc, firstn_skipn; reflexivity|].
      unfold zlen. split; [lia|]. split; [rewrite app_length; split; [discriminate|lia]|]. split; auto; discriminate.
Qed.
Theorem C124_write bufs o : exists k e o', write_out 0 bufs o = (k, e, o') /\
  (e = false <-> bufs = [] \/ out_good o = true /\ (List.length (concat bufs) <= out_room o)%nat) /\
  (e = false -> k = zlen (concat bufs) /\ out_bytes o' = out_bytes o ++ concat bufs) /\
  exists t u, out_bytes o' = out_bytes o ++ t /\ concat bufs = t ++ u /\ 0 <= k <= zlen t.
Proof.
  destruct bufs as [|b bufs].
  { exists 0, false, o. split; [reflexivity|]. split; [tauto|]. split; [intros _; rewrite app_nil_r; auto|]. exists [], []. rewrite app_nil_r. repeat split; auto; cbn; lia. }
  destruct (out_good o) eqn:G.
  - pose proof (write_good (b :: bufs) 0 o G) as W. destruct (write_out 0 (b :: bufs) o) as [[k e] o']. destruct W as (t & T & (u & U) & K & E & E1 & _). exists k, e, o'. split; auto.
    split; [rewrite E; split; [right; auto|intros [H|(_ & H)]; [discriminate|auto]]|]. split; [intros F; destruct (E1 F) as (-> & -> & _); split; auto; lia|]. exists t, u. repeat split; auto; lia.
  - exists 0, true, o. cbn [write_out]. unfold out_write. rewrite G. split; auto. rewrite G. auto. split; [split; [discriminate|intros [H|(H & _)]; discriminate]|]. split; [discriminate|]. exists [], (concat (b :: bufs)). rewrite app_nil_r. repeat split; auto; cbn; lia.
Qed.
Print Assumptions C124_write.
Example C124_case : write_out 0 [bs "abc"; []; bs "de"] (mkout [] 4 true) = (3, true, mkout (bs "abcd") 0 false) /\ write_out 0 [bs "abc"; []; bs "de"] (mkout (bs "x") 5 true) = (5, false, mkout (bs "xabcde") 0 true).
Proof. split; reflexivity. Qed.
