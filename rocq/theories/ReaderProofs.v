(** Proofs about keep-alive and successive messages. *)
From Coq Require Import String ZArith List Bool Lia.
From Verif Require Import Base FormModel DictModel MultipartModel HttpModel HttpBase HttpSplit HttpSpec HttpProofs HttpBody DictProofs MessageModel WriterModel ReaderModel ReaderSpec.
Import ListNotations.
Local Arguments zlen : simpl never.

Lemma keep_alive_true m : check_keep_alive m = true ->
  at_least_1_1 m /\ (values_of (bs "Connection") (m_headers m) = [] \/ exists v l, values_of (bs "Connection") (m_headers m) = v :: l /\ v <> bs "close").
Proof.
  unfold check_keep_alive, d_get. change HEADER_CONNECTION with (bs "Connection"). rewrite find_values. intros H.
  apply andb_prop in H as [H1 H2]. split.
  - unfold at_least_1_1. apply orb_prop in H2 as [H2|H2]; [left; lia|apply andb_prop in H2 as [A B]; lia].
  - destruct (values_of _ _) as [|v l]; auto. right. exists v, l. split; auto. intros ->. vm_compute in H1. discriminate.
Qed.
Lemma stays_keep m : stays m -> check_keep_alive m = true.
Proof.
  intros [A B]. unfold check_keep_alive, d_get. change HEADER_CONNECTION with (bs "Connection"). rewrite find_values.
  apply andb_true_intro. split.
  - destruct (values_of _ _) as [|v l]; [reflexivity|]. destruct (str_eqb v (bs "close")) eqn:E; auto.
    apply str_eqb_eq in E. subst. exfalso. apply A. left; auto.
  - unfold at_least_1_1 in B. lia.
Qed.
Lemma leaves_close m : leaves m -> check_keep_alive m = false.
Proof.
  intros H. destruct (check_keep_alive m) eqn:E; auto. apply keep_alive_true in E as [V C]. destruct H as [H|[H1 H2]]; [contradiction|].
  destruct C as [C|(v & l & C & N)]; [congruence|]. rewrite C in H2. apply Forall_inv in H2. congruence.
Qed.

(* ------------------------------------------------------------------ a finished message is valid and not empty *)

Lemma finish_forms_valid cf m m' : finish_forms cf m = Ok m' -> m_valid m' = m_valid m.
Proof.
  unfold finish_forms. destruct (_ && _ && _); [|intros H; injection H as <-; auto].
  destruct (is_prefix _ _).
  - destruct (content_of m); [|discriminate]. intros H. injection H as <-. reflexivity.
  - destruct (is_prefix _ _); [|intros H; injection H as <-; auto]. destruct (content_of m); [|discriminate]. cbn [obind].
    destruct (parse_multipart _ _); try discriminate. intros H. injection H as <-. reflexivity.
Qed.
Lemma parse_true_valid cf st m s r : parse cf st m s = Ok (Some r) -> r_rc r = TTrue -> m_valid (r_msg r) = true.
Proof.
  unfold parse. destruct (p_loop _ _ _ _ _ _) as [[[x t]|]|]; cbn [obind]; try discriminate.
  destruct (s_rc x); try (intros H; injection H as <-; discriminate).
  unfold finish. cbn [p_phase set_p_phase]. destruct (finish_forms _ _) as [m1|] eqn:E; cbn [obind]; [|discriminate].
  intros H; injection H as <-. cbn. intros _. rewrite (finish_forms_valid _ _ _ E). reflexivity.
Qed.

Lemma parse_first_char cf m c r : parse cf (p_init cf) m [c] = Ok (Some r) -> r_rc r <> TTrue.
Proof.
  unfold parse. set (m0 := if m_missing m then _ else _). rewrite p_loop_S. unfold p_round. cbn [p_init p_phase].
  unfold parse_headers. cbn [h_loop].
  assert (match h_char cf (save_raw cf (h_init cf) c) m0 c with HDone _ _ _ => False | _ => True end) as N.
  { unfold h_init, save_raw. destruct (cf_save_raw cf), (cf_request cf); cbn;
      repeat match goal with |- context [if ?b then _ else _] => destruct b; auto end. }
  change (p_h (set_p_phase PHeaders (p_init cf))) with (h_init cf).
  destruct (h_char cf (save_raw cf (h_init cf) c) m0 c); [| |contradiction]; cbn [s_rc s_st s_rest s_err fst snd obind];
    intros H; injection H as <-; discriminate.
Qed.
Lemma parse_progress cf m s r : 0 <= cf_max cf -> parse cf (p_init cf) m s = Ok (Some r) -> r_rc r = TTrue -> s <> [] ->
  (List.length (r_rest r) < List.length s)%nat.
Proof.
  intros HM HP HT HN. destruct s as [|c s]; [congruence|]. cbn [List.length].
  destruct s as [|d s].
  - exfalso. exact (parse_first_char _ _ _ _ HP HT).
  - pose proof (parse_split cf (p_init cf) m [c] (d :: s) (p_init_pinv cf m HM) ltac:(discriminate)) as PS.
    cbn [app] in PS. rewrite HP in PS.
    destruct (parse cf (p_init cf) m [c]) as [[r1|]|] eqn:E1; try contradiction; try discriminate.
    pose proof (parse_first_char _ _ _ _ E1) as N. destruct PS as [_ PS]. destruct (r_rc r1) eqn:T1; [congruence| |].
    + cbn in PS. injection PS as PS. rewrite PS in HT. cbn in HT. congruence.
    + destruct PS as (_ & PI & PS). destruct (parse cf (r_st r1) (r_msg r1) (d :: s)) as [[r2|]|] eqn:E2; try discriminate.
      cbn in PS. injection PS as P1 P2 P3 P4 P5. rewrite P5.
      assert (exists p, d :: s = p ++ r_rest r2) as [p Ep].
      { revert E2. unfold parse. set (m0 := if m_missing _ then _ else _).
        assert (pinv cf (r_st r1) m0) as PI0 by (subst m0; destruct (m_missing _); auto).
        destruct (p_loop 4 cf (r_st r1) m0 (d :: s) 0) as [[[x t]|]|] eqn:EL; cbn [obind]; try discriminate.
        destruct (p_loop_suffix _ _ _ _ _ _ _ _ PI0 EL) as (p & F & _). intros H. exists p. rewrite F. f_equal.
        destruct (s_rc x); [destruct (finish _ _ _); cbn [obind] in H; try discriminate|..]; injection H as <-; reflexivity. }
      rewrite Ep. rewrite app_length. lia.
Qed.

(* ------------------------------------------------------------------ readers and [feed] *)

Definition nonempty (l : list (list Z)) : Prop := Forall (fun s => s <> []) l.
(** buffers that a reader will see: the bookmark, then the reads *)
Definition pend (life : lifecycle) (saved : list Z) : list (list Z) := match life with LPipelined => [saved] | _ => [] end.

Lemma r_consume_next cf k saved st m buf evs : buf <> [] ->
  forall ps tail, evs = map RData ps ++ tail -> nonempty ps ->
  (forall st' m', match feed cf st' m' ps with
    | Ok (Some r) =>
      match r_rc r with
      | TIndet => k st' m' = r_read cf saved (r_st r) (r_msg r) tail
      | TTrue => exists life saved' ps', k st' m' = Ok (Some (mkrres (Some (parse_err (r_err r))) (r_msg r) life saved' (map RData ps' ++ tail)))
                   /\ nonempty (pend life saved' ++ ps')
                   /\ (check_keep_alive (r_msg r) = true -> life <> LClose /\ concat (pend life saved' ++ ps') = r_rest r)
                   /\ (check_keep_alive (r_msg r) = false -> life = LClose)
      | TFalse => exists ps', k st' m' = Ok (Some (mkrres (Some (parse_err (r_err r))) (set_m_valid false (r_msg r)) LClose saved (map RData ps' ++ tail)))
      end
    | Ok None => k st' m' = Ok None
    | Bad b => k st' m' = Bad b
    end) ->
  match feed cf st m (buf :: ps) with
    | Ok (Some r) =>
      match r_rc r with
      | TIndet => r_consume cf k saved st m buf evs = r_read cf saved (r_st r) (r_msg r) tail
      | TTrue => exists life saved' ps', r_consume cf k saved st m buf evs = Ok (Some (mkrres (Some (parse_err (r_err r))) (r_msg r) life saved' (map RData ps' ++ tail)))
                   /\ nonempty (pend life saved' ++ ps')
                   /\ (check_keep_alive (r_msg r) = true -> life <> LClose /\ concat (pend life saved' ++ ps') = r_rest r)
                   /\ (check_keep_alive (r_msg r) = false -> life = LClose)
      | TFalse => exists ps', r_consume cf k saved st m buf evs = Ok (Some (mkrres (Some (parse_err (r_err r))) (set_m_valid false (r_msg r)) LClose saved (map RData ps' ++ tail)))
      end
    | Ok None => r_consume cf k saved st m buf evs = Ok None
    | Bad b => r_consume cf k saved st m buf evs = Bad b
    end.
Proof.
  intros HB ps tail -> NE HK. unfold r_consume. cbn [feed].
  destruct (parse cf st m buf) as [[r|]|]; auto. destruct (r_rc r) eqn:T; cbn [r_rc r_err r_msg r_rest].
  - unfold after_message. destruct (check_keep_alive (r_msg r)) eqn:K.
    + destruct (r_rest r) as [|c rest] eqn:R.
      * exists LKeep, saved, ps. split; [reflexivity|]. split; [exact NE|]. split; [|congruence]. intros _. split; [discriminate|reflexivity].
      * exists LPipelined, (c :: rest), ps. split; [reflexivity|]. split; [constructor; [discriminate|exact NE]|]. split; [|congruence].
        intros _. split; [discriminate|reflexivity].
    + exists LClose, saved, ps. split; [reflexivity|]. split; [exact NE|]. split; [congruence|auto].
  - exists ps. reflexivity.
  - apply HK.
Qed.
Lemma r_read_feed cf saved tail : forall ps st m, nonempty ps ->
  match feed cf st m ps with
    | Ok (Some r) =>
      match r_rc r with
      | TIndet => r_read cf saved st m (map RData ps ++ tail) = r_read cf saved (r_st r) (r_msg r) tail
      | TTrue => exists life saved' ps', r_read cf saved st m (map RData ps ++ tail) = Ok (Some (mkrres (Some (parse_err (r_err r))) (r_msg r) life saved' (map RData ps' ++ tail)))
                   /\ nonempty (pend life saved' ++ ps')
                   /\ (check_keep_alive (r_msg r) = true -> life <> LClose /\ concat (pend life saved' ++ ps') = r_rest r)
                   /\ (check_keep_alive (r_msg r) = false -> life = LClose)
      | TFalse => exists ps', r_read cf saved st m (map RData ps ++ tail) = Ok (Some (mkrres (Some (parse_err (r_err r))) (set_m_valid false (r_msg r)) LClose saved (map RData ps' ++ tail)))
      end
    | Ok None => r_read cf saved st m (map RData ps ++ tail) = Ok None
    | Bad b => r_read cf saved st m (map RData ps ++ tail) = Bad b
    end.
Proof.
  induction ps as [|p ps IH]; intros st m NE; [reflexivity|].
  assert (p <> []) as HP by (apply Forall_inv in NE; auto). apply Forall_inv_tail in NE.
  assert (r_read cf saved st m (map RData (p :: ps) ++ tail) =
          r_consume cf (fun st' m' => r_read cf saved st' m' (map RData ps ++ tail)) saved st m p (map RData ps ++ tail)) as ->
    by (destruct p; [congruence|reflexivity]).
  apply (r_consume_next cf _ saved st m p _ HP ps tail eq_refl NE). intros st' m'. apply IH; auto.
Qed.
Lemma r_receive_feed cf tail st m life saved ps : nonempty (pend life saved ++ ps) ->
  match feed cf st m (pend life saved ++ ps) with
    | Ok (Some r) =>
      match r_rc r with
      | TIndet => r_receive cf st m life saved (map RData ps ++ tail) = r_read cf saved (r_st r) (r_msg r) tail
      | TTrue => exists life' saved' ps', r_receive cf st m life saved (map RData ps ++ tail) = Ok (Some (mkrres (Some (parse_err (r_err r))) (r_msg r) life' saved' (map RData ps' ++ tail)))
                   /\ nonempty (pend life' saved' ++ ps')
                   /\ (check_keep_alive (r_msg r) = true -> life' <> LClose /\ concat (pend life' saved' ++ ps') = r_rest r)
                   /\ (check_keep_alive (r_msg r) = false -> life' = LClose)
      | TFalse => exists ps', r_receive cf st m life saved (map RData ps ++ tail) = Ok (Some (mkrres (Some (parse_err (r_err r))) (set_m_valid false (r_msg r)) LClose saved (map RData ps' ++ tail)))
      end
    | Ok None => r_receive cf st m life saved (map RData ps ++ tail) = Ok None
    | Bad b => r_receive cf st m life saved (map RData ps ++ tail) = Bad b
    end.
Proof.
  intros NE. destruct life; cbn [pend app r_receive] in *; try (apply r_read_feed; auto).
  apply (r_consume_next cf _ saved st m saved _ (Forall_inv NE) ps tail eq_refl (Forall_inv_tail NE)). intros st' m'.
  apply r_read_feed. apply (Forall_inv_tail NE).
Qed.

(** A request is never left to be ended by the end of the connection. *)
Lemma round_request cf st m s r : cf_request cf = true -> p_round cf st m s = Ok r -> p_phase st <> PContentNoLength -> p_phase (fst (s_st r)) <> PContentNoLength.
Proof.
  intros HR. unfold p_round.
  assert (forall st0, p_phase (fst (s_st (parse_headers cf st0 m s))) = p_phase st0) as PH by (intros; unfold parse_headers; reflexivity).
  assert (forall st1 m1 rc e st2 m2, finish_headers cf st1 m1 = Ok (rc, e, (st2, m2)) -> p_phase st1 <> PContentNoLength -> p_phase st2 <> PContentNoLength) as FH.
  { intros st1 m1 rc e st2 m2. unfold finish_headers. destruct (m_chunked _); [intros H; injection H as <- <- <- <-; intros; discriminate|].
    destruct (is_content_length_implied _ _); [intros H; injection H as <- <- <- <-; intros; discriminate|].
    destruct (d_has _ _).
    - destruct (update_content_length _) as [m3|]; [|intros H; injection H as <- <- <- <-; auto].
      destruct (_ =? 0); [intros H; injection H as <- <- <- <-; intros; discriminate|].
      destruct (cf_headers_only cf); [intros H; injection H as <- <- <- <-; intros; discriminate|].
      destruct (create_content_buffer _); [|discriminate]. intros H; injection H as <- <- <- <-; intros; discriminate.
    - rewrite HR. intros H; injection H as <- <- <- <-; intros; discriminate. }
  destruct (p_phase st) eqn:P; intros H N; try congruence.
  - cbv zeta in H. destruct (s_rc _); try (injection H as <-; rewrite PH; discriminate).
    destruct (finish_headers _ _ _) as [[[rc e] [st2 m2]]|] eqn:F; [|discriminate]. injection H as <-. eapply FH; [exact F|]. rewrite PH. discriminate.
  - cbv zeta in H. destruct (s_rc _); try (injection H as <-; rewrite PH; discriminate).
    destruct (finish_headers _ _ _) as [[[rc e] [st2 m2]]|] eqn:F; [|discriminate]. injection H as <-. eapply FH; [exact F|]. rewrite PH. discriminate.
  - revert H. unfold consume_content. destruct (p_remaining st =? 0); [intros H; injection H as <-; cbn; rewrite P; discriminate|]. cbv zeta.
    destruct (zlen s <? _); [discriminate|]. set (n := if p_remaining st <=? zlen s then _ else _). clearbody n.
    match goal with |- obind ?x _ = _ -> _ => assert (forall y, x = Ok y -> p_phase (fst y) = PContent) as Y end.
    { intros y. destruct (cf_handler cf); [intros H; injection H as <-; exact P|]. destruct (_ <? cf_max cf); [|intros H; injection H as <-; exact P].
      match goal with |- obind ?x _ = _ -> _ => destruct x end; [|discriminate]. cbn [obind]. intros H; injection H as <-; exact P. }
    match goal with |- obind ?x _ = _ -> _ => destruct x as [y|] end; [|discriminate]. cbn [obind]. intros H. injection H as <-. cbn. rewrite (Y _ eq_refl). discriminate.
  - cbv zeta in H. assert (p_phase (fst (s_st (parse_chunks cf st m s))) <> PContentNoLength) as PC.
    { unfold parse_chunks. cbn. destruct (ko_footers _); cbn; [discriminate|]. rewrite P. discriminate. }
    destruct (s_rc _); try (injection H as <-; auto; fail). destruct (cf_handler cf); [injection H as <-; auto|].
    destruct (concatenate_chunks _); [|discriminate]. injection H as <-. auto.
  - injection H as <-. cbn. rewrite P. discriminate.
Qed.
Lemma loop_request cf : cf_request cf = true -> forall n st m s t r t', p_loop n cf st m s t = Ok (Some (r, t')) -> p_phase st <> PContentNoLength ->
  p_phase (fst (s_st r)) <> PContentNoLength.
Proof.
  intros HR. induction n as [|n IH]; intros st m s t r t' H N; [discriminate|]. rewrite p_loop_S in H.
  destruct (p_round cf st m s) as [r1|] eqn:E; [|discriminate]. cbn [obind] in H. pose proof (round_request _ _ _ _ _ HR E N) as N1.
  destruct (s_rc r1); [injection H as <- <-; auto|injection H as <- <-; auto|]. destruct (s_rest r1); [injection H as <- <-; auto|]. eapply IH; eauto.
Qed.
Lemma parse_request cf st m s r : cf_request cf = true -> parse cf st m s = Ok (Some r) -> p_phase st <> PContentNoLength -> p_phase (r_st r) <> PContentNoLength.
Proof.
  intros HR H N. revert H. unfold parse. destruct (p_loop _ _ _ _ _ _) as [[[x t]|]|] eqn:E; cbn [obind]; try discriminate.
  pose proof (loop_request cf HR _ _ _ _ _ _ _ E N) as N1. destruct (s_rc x).
  - destruct (finish _ _ _); [|discriminate]. cbn [obind]. intros H; injection H as <-. cbn. discriminate.
  - intros H; injection H as <-. exact N1.
  - intros H; injection H as <-. exact N1.
Qed.
Lemma feed_request_phase cf : cf_request cf = true -> forall ps st m r, feed cf st m ps = Ok (Some r) -> p_phase st <> PContentNoLength -> p_phase (r_st r) <> PContentNoLength.
Proof.
  intros HR. induction ps as [|p ps IH]; intros st m r H N; cbn [feed] in H; [injection H as <-; auto|].
  destruct (parse cf st m p) as [[r1|]|] eqn:E; try discriminate. pose proof (parse_request _ _ _ _ _ HR E N) as N1.
  destruct (r_rc r1); [injection H as <-; auto|injection H as <-; auto|]. eapply IH; eauto.
Qed.

(* ------------------------------------------------------------------ the server *)

Lemma feed_whole cf m0 ps s : 0 <= cf_max cf -> nonempty ps -> ps <> [] -> concat ps = s ->
  same_outcome (feed cf (p_init cf) m0 ps) (parse cf (p_init cf) m0 s).
Proof. intros HM NE N <-. apply (segmentation any_msg true); auto. apply reach_new. exact Logic.I. Qed.
Lemma parse_more cf m0 w r more : 0 <= cf_max cf -> parse cf (p_init cf) m0 w = Ok (Some r) -> r_rc r <> TIndet ->
  same_outcome (parse cf (p_init cf) m0 (w ++ more)) (Ok (Some (mkpres (r_rc r) (r_err r) (r_st r) (r_msg r) (r_rest r ++ more)))).
Proof. intros. eapply (parse_extend any_msg true); auto. apply reach_new. exact Logic.I. Qed.
Lemma feed_more cf m0 ps w r more : 0 <= cf_max cf -> w <> [] -> nonempty ps -> concat ps = w ++ more -> parse cf (p_init cf) m0 w = Ok (Some r) -> r_rc r <> TIndet ->
  exists r', feed cf (p_init cf) m0 ps = Ok (Some r') /\ r_rc r' = r_rc r /\ r_err r' = r_err r /\ r_msg r' = r_msg r /\ r_rest r' = r_rest r ++ more.
Proof.
  intros HM HW NE C HP HT. assert (ps <> []) as N by (intros ->; cbn in C; destruct w; [congruence|discriminate]).
  pose proof (feed_whole cf m0 ps _ HM NE N C) as A. pose proof (parse_more cf m0 w r more HM HP HT) as B.
  destruct (parse cf (p_init cf) m0 (w ++ more)) as [[r1|]|]; try contradiction.
  destruct (feed cf (p_init cf) m0 ps) as [[r2|]|]; try contradiction.
  exists r2. destruct A as (A1 & A2 & A3 & A4 & _), B as (B1 & B2 & B3 & B4 & _). cbn in B1, B2, B3, B4. repeat split; congruence.
Qed.
Lemma feed_err cf m0 ps r : 0 <= cf_max cf -> nonempty ps -> ps <> [] -> feed cf (p_init cf) m0 ps = Ok (Some r) -> (r_rc r = TFalse <-> r_err r <> None).
Proof.
  intros HM NE N H. pose proof (feed_whole cf m0 ps _ HM NE N eq_refl) as A. rewrite H in A.
  pose proof (parse_result any_msg true cf (p_init cf) m0 (concat ps) HM (reach_new any_msg true cf m0 Logic.I)) as PR.
  destruct (parse cf (p_init cf) m0 (concat ps)) as [[r1|]|]; try contradiction. destruct A as (A1 & A2 & _), PR as [PR _]. rewrite A1, A2. exact PR.
Qed.
Lemma err_none cf m0 ps r : 0 <= cf_max cf -> nonempty ps -> ps <> [] -> feed cf (p_init cf) m0 ps = Ok (Some r) -> r_rc r <> TFalse -> r_err r = None.
Proof. intros HM NE N H T. pose proof (feed_err _ _ _ _ HM NE N H) as [A B]. destruct (r_err r); auto. exfalso. apply T, B. discriminate. Qed.

Lemma serve_story cf go : 0 <= cf_max cf -> cf_request cf = true -> forall log s tail l b, story cf go log s tail l b ->
  forall fuel life saved ps, nonempty (pend life saved ++ ps) -> concat (pend life saved ++ ps) = s -> (List.length s < fuel)%nat ->
  serve fuel cf go log life saved (map RData ps ++ tail) = Ok (Some (l, b)).
Proof.
  intros HM HR log s tail l b H. induction H as [log|log t|log w m more tail l b HW (r & P1 & P2 & P3 & P4) HS HG _ IH|log w m more tail HW (r & P1 & P2 & P3 & P4) HL
    |log w m more tail HW (r & P1 & P2 & P3)|log w m HW (r & P1 & P2 & P3)|log w m t HW (r & P1 & P2 & P3)];
    intros fuel life saved ps NE C F; (destruct fuel as [|fuel]; [lia|]); cbn [serve].
  - assert (pend life saved ++ ps = []) as E by (destruct (pend life saved ++ ps) as [|p q]; auto; apply Forall_inv in NE; destruct p; [congruence|discriminate]).
    apply app_eq_nil in E as [E ->]. destruct life; try discriminate; reflexivity.
  - assert (pend life saved ++ ps = []) as E by (destruct (pend life saved ++ ps) as [|p q]; auto; apply Forall_inv in NE; destruct p; [congruence|discriminate]).
    apply app_eq_nil in E as [E ->]. destruct life; try discriminate; reflexivity.
  - assert (r_rc r <> TIndet) as NI by congruence.
    destruct (feed_more cf msg_init _ w r more HM HW NE C P1 NI) as (r' & F1 & F2 & F3 & F4 & F5).
    pose proof (r_receive_feed cf tail (p_init cf) msg_init life saved ps NE) as RF. rewrite F1, F2, P2 in RF.
    destruct RF as (life' & saved' & ps' & RF & NE' & K1 & _). rewrite RF. cbn [rr_fin rr_msg rr_life rr_saved rr_evs].
    assert (pend life saved ++ ps <> []) as NN by (intros E; rewrite E in C; cbn in C; destruct w; [congruence|discriminate]).
    rewrite (err_none _ _ _ _ HM NE NN F1) by (rewrite F2, P2; discriminate). cbn [parse_err].
    rewrite F4, P4 in *. rewrite <- P4, (parse_true_valid _ _ _ _ _ P1 P2), P4. rewrite (stays_keep _ HS) in K1. destruct (K1 eq_refl) as [K2 K3].
    rewrite HG. assert (keeps life' = true) as -> by (destruct life'; auto; congruence). cbn [andb].
    apply IH; auto; [rewrite K3, F5, P3; reflexivity|]. rewrite app_length in F. destruct w; [congruence|]. cbn in F. lia.
  - assert (r_rc r <> TIndet) as NI by congruence.
    destruct (feed_more cf msg_init _ w r more HM HW NE C P1 NI) as (r' & F1 & F2 & F3 & F4 & F5).
    pose proof (r_receive_feed cf tail (p_init cf) msg_init life saved ps NE) as RF. rewrite F1, F2, P2 in RF.
    destruct RF as (life' & saved' & ps' & RF & NE' & _ & K1). rewrite RF. cbn [rr_fin rr_msg rr_life rr_saved rr_evs].
    assert (pend life saved ++ ps <> []) as NN by (intros E; rewrite E in C; cbn in C; destruct w; [congruence|discriminate]).
    rewrite (err_none _ _ _ _ HM NE NN F1) by (rewrite F2, P2; discriminate). cbn [parse_err].
    rewrite F4, P4 in *. rewrite <- P4, (parse_true_valid _ _ _ _ _ P1 P2), P4.
    destruct HL as [HL|HL].
    + rewrite (leaves_close _ HL) in K1. rewrite K1 by auto. reflexivity.
    + rewrite HL, andb_false_r. reflexivity.
  - assert (r_rc r <> TIndet) as NI by congruence.
    destruct (feed_more cf msg_init _ w r more HM HW NE C P1 NI) as (r' & F1 & F2 & F3 & F4 & F5).
    pose proof (r_receive_feed cf tail (p_init cf) msg_init life saved ps NE) as RF. rewrite F1, F2, P2 in RF. destruct RF as (ps' & RF). rewrite RF.
    cbn [rr_fin rr_msg]. assert (pend life saved ++ ps <> []) as NN by (intros E; rewrite E in C; cbn in C; destruct w; [congruence|discriminate]).
    pose proof (proj1 (feed_err _ _ _ _ HM NE NN F1) ltac:(congruence)) as EN. destruct (r_err r'); [|congruence]. cbn [parse_err]. rewrite F4, P3. reflexivity.
  - assert (pend life saved ++ ps <> []) as NN by (intros E; rewrite E in C; cbn in C; congruence).
    pose proof (feed_whole cf msg_init _ _ HM NE NN C) as A. rewrite P1 in A.
    pose proof (r_receive_feed cf [] (p_init cf) msg_init life saved ps NE) as RF.
    destruct (feed cf (p_init cf) msg_init (pend life saved ++ ps)) as [[r'|]|]; try contradiction. destruct A as (A1 & A2 & A3 & _).
    rewrite A1, P2 in RF. rewrite RF. reflexivity.
  - assert (pend life saved ++ ps <> []) as NN by (intros E; rewrite E in C; cbn in C; congruence).
    pose proof (feed_whole cf msg_init _ _ HM NE NN C) as A. rewrite P1 in A.
    pose proof (r_receive_feed cf (RFail :: t) (p_init cf) msg_init life saved ps NE) as RF.
    destruct (feed cf (p_init cf) msg_init (pend life saved ++ ps)) as [[r'|]|] eqn:FE; try contradiction. destruct A as (A1 & A2 & A3 & _).
    pose proof (feed_request_phase cf HR _ _ _ _ FE ltac:(discriminate)) as PH.
    rewrite A1, P2 in RF. rewrite RF. cbn [r_read]. unfold check_premature_eof. rewrite <- P3, <- A3.
    destruct (p_phase (r_st r')); try congruence; reflexivity.
Qed.

Lemma serve_all_story cf go s tail l b pieces : 0 <= cf_max cf -> cf_request cf = true -> story cf go [] s tail l b -> cut pieces s ->
  serve_all cf go (map RData pieces ++ tail) = Ok (Some (l, b)).
Proof.
  intros HM HR HS [C1 C2]. unfold serve_all. apply (serve_story cf go HM HR [] s); auto.
  rewrite map_app, concat_app, map_map, map_id, C2, app_length, app_length, map_length. lia.
Qed.

(** The same bytes in other pieces: the same happens. *)
Lemma pend_nil life saved ps : nonempty (pend life saved ++ ps) -> concat (pend life saved ++ ps) = [] -> pend life saved = [] /\ ps = [].
Proof.
  intros NE C. apply app_eq_nil. destruct (pend life saved ++ ps) as [|p q]; auto. apply Forall_inv in NE. destruct p; [congruence|discriminate].
Qed.
Lemma serve_same cf go tail : 0 <= cf_max cf -> cf_request cf = true -> tail = [] \/ (exists t, tail = RFail :: t) ->
  forall f1 f2 log l1 s1 p1 l2 s2 p2,
  nonempty (pend l1 s1 ++ p1) -> nonempty (pend l2 s2 ++ p2) -> concat (pend l1 s1 ++ p1) = concat (pend l2 s2 ++ p2) ->
  (List.length (concat (pend l1 s1 ++ p1)) < f1)%nat -> (List.length (concat (pend l2 s2 ++ p2)) < f2)%nat ->
  serve f1 cf go log l1 s1 (map RData p1 ++ tail) = serve f2 cf go log l2 s2 (map RData p2 ++ tail).
Proof.
  intros HM HR HT. induction f1 as [|f1 IH]; intros f2 log l1 s1 p1 l2 s2 p2 N1 N2 CC F1 F2; [lia|].
  destruct f2 as [|f2]; [lia|]. cbn [serve].
  destruct (concat (pend l1 s1 ++ p1)) as [|c0 s0] eqn:ES.
  - destruct (pend_nil _ _ _ N1 ES) as [E1 ->]. destruct (pend_nil _ _ _ N2 (eq_sym CC)) as [E2 ->]. cbn [map app].
    destruct l1; try discriminate; destruct l2; try discriminate; cbn [r_receive]; (destruct HT as [->|[t ->]]; reflexivity).
  - set (s := c0 :: s0) in *. assert (s <> []) as NS by discriminate. clearbody s.
    assert (pend l1 s1 ++ p1 <> []) as NN1 by (intros E; rewrite E in ES; cbn in ES; congruence).
    assert (pend l2 s2 ++ p2 <> []) as NN2 by (intros E; rewrite E in CC; cbn in CC; congruence).
    pose proof (feed_whole cf msg_init _ _ HM N1 NN1 ES) as A1. pose proof (feed_whole cf msg_init _ _ HM N2 NN2 (eq_sym CC)) as A2.
    pose proof (r_receive_feed cf tail (p_init cf) msg_init l1 s1 p1 N1) as R1. pose proof (r_receive_feed cf tail (p_init cf) msg_init l2 s2 p2 N2) as R2.
    destruct (feed cf (p_init cf) msg_init (pend l1 s1 ++ p1)) as [[r1|]|x1] eqn:E1;
    destruct (parse cf (p_init cf) msg_init s) as [[r|]|x] eqn:EP; try contradiction;
    destruct (feed cf (p_init cf) msg_init (pend l2 s2 ++ p2)) as [[r2|]|x2] eqn:E2; try contradiction; cbn in A1, A2.
    + destruct A1 as (A11 & A12 & A13 & A14 & A15), A2 as (A21 & A22 & A23 & A24 & A25).
      rewrite A11, A12, A13, A14 in R1. rewrite A21, A22, A23, A24 in R2. destruct (r_rc r) eqn:T.
      * destruct R1 as (l1' & s1' & p1' & R1 & M1 & K1 & Q1). destruct R2 as (l2' & s2' & p2' & R2 & M2 & K2 & Q2).
        rewrite R1, R2. cbn [rr_fin rr_msg rr_life rr_saved rr_evs]. rewrite <- A12. rewrite (err_none _ _ _ _ HM N1 NN1 E1) by congruence. cbn [parse_err].
        rewrite (parse_true_valid _ _ _ _ _ EP T).
        destruct (check_keep_alive (r_msg r)).
        -- destruct (K1 eq_refl) as [B1 C1]. destruct (K2 eq_refl) as [B2 C2].
           assert (keeps l1' = true) as -> by (destruct l1'; auto; congruence). assert (keeps l2' = true) as -> by (destruct l2'; auto; congruence). cbn [andb].
           destruct (go _); [|reflexivity].
           pose proof (parse_progress cf msg_init s r HM EP T NS) as PP.
           apply IH; auto; rewrite ?C1, ?C2; auto; rewrite <- CC in *; lia.
        -- rewrite Q1, Q2 by auto. reflexivity.
      * destruct R1 as (p1' & R1), R2 as (p2' & R2). rewrite R1, R2. reflexivity.
      * rewrite R1, R2. destruct HT as [->|[t ->]]; [reflexivity|]. cbn [r_read].
        pose proof (feed_request_phase cf HR _ _ _ _ E1 ltac:(discriminate)) as PH1. pose proof (feed_request_phase cf HR _ _ _ _ E2 ltac:(discriminate)) as PH2.
        unfold check_premature_eof. destruct (p_phase (r_st r1)); try congruence; destruct (p_phase (r_st r2)); try congruence; reflexivity.
    + rewrite R1, R2. congruence.
Qed.
Lemma serve_segmentation cf go tail s pieces1 pieces2 : 0 <= cf_max cf -> cf_request cf = true -> tail = [] \/ (exists t, tail = RFail :: t) ->
  cut pieces1 s -> cut pieces2 s -> serve_all cf go (map RData pieces1 ++ tail) = serve_all cf go (map RData pieces2 ++ tail).
Proof.
  intros HM HR HT [A1 A2] [B1 B2]. unfold serve_all. apply serve_same; auto; cbn [pend app]; rewrite ?A2, ?B2; auto;
    rewrite map_app, concat_app, map_map, map_id, ?A2, ?B2, !app_length, map_length; lia.
Qed.

(* ------------------------------------------------------------------ one reader *)

Section One.
Variables (cf : pcfg) (m0 : msg) (pieces : list (list Z)) (life : lifecycle) (saved : list Z) (tail : list rev) (s : list Z) (r : presult).
Hypotheses (HM : 0 <= cf_max cf) (HC : cut (pend life saved ++ pieces) s) (HS : s <> []) (HP : parse cf (p_init cf) m0 s = Ok (Some r)).

Lemma one_feed : exists r', feed cf (p_init cf) m0 (pend life saved ++ pieces) = Ok (Some r') /\ r_rc r' = r_rc r /\ r_err r' = r_err r /\ r_msg r' = r_msg r /\ r_rest r' = r_rest r
  /\ (r_rc r <> TFalse -> r_err r' = None) /\ p_phase (r_st r') = p_phase (r_st r).
Proof.
  destruct HC as [C1 C2]. assert (pend life saved ++ pieces <> []) as NN by (intros E; rewrite E in C2; cbn in C2; congruence).
  pose proof (feed_whole cf m0 _ _ HM C1 NN C2) as A. rewrite HP in A.
  destruct (feed cf (p_init cf) m0 (pend life saved ++ pieces)) as [[r'|]|] eqn:E; try contradiction.
  exists r'. destruct A as (A1 & A2 & A3 & A4 & A5). repeat split; auto; [|apply A5]. intros. eapply err_none; eauto. congruence.
Qed.
Lemma reader_done : r_rc r = TTrue ->
  exists x, r_receive cf (p_init cf) m0 life saved (map RData pieces ++ tail) = Ok (Some x) /\ rr_fin x = Some None /\ rr_msg x = r_msg r /\ m_valid (rr_msg x) = true
    /\ (stays (r_msg r) -> keeps (rr_life x) = true) /\ (leaves (r_msg r) -> keeps (rr_life x) = false)
    /\ (keeps (rr_life x) = true -> at_least_1_1 (r_msg r) /\ (values_of (bs "Connection") (m_headers (r_msg r)) = [] \/ ~ Forall (eq (bs "close")) (values_of (bs "Connection") (m_headers (r_msg r)))))
    /\ (rr_life x = LPipelined -> rr_saved x <> []).
Proof.
  intros T. destruct one_feed as (r' & F1 & F2 & F3 & F4 & F5 & F6 & F7).
  pose proof (r_receive_feed cf tail (p_init cf) m0 life saved pieces (proj1 HC)) as RF. rewrite F1, F2, T in RF.
  destruct RF as (l & sv & ps & RF & NE & K1 & K2). rewrite F4 in *. eexists. split; [exact RF|]. cbn [rr_fin rr_msg rr_life rr_saved].
  rewrite F6 by congruence. split; [reflexivity|]. split; [reflexivity|]. split; [eapply parse_true_valid; eauto|].
  split; [intros ST; destruct (K1 (stays_keep _ ST)); destruct l; auto; congruence|].
  split; [intros ST; rewrite (K2 (leaves_close _ ST)); auto|]. split.
  - intros K. destruct (check_keep_alive (r_msg r)) eqn:E; [|rewrite K2 in K; [discriminate|auto]].
    apply keep_alive_true in E as [V C]. split; auto. destruct C as [C|(v & q & C & N)]; [left; auto|right]. rewrite C. intros X. apply Forall_inv in X. congruence.
  - intros ->. apply Forall_inv in NE. exact NE.
Qed.
Lemma reader_refused : r_rc r = TFalse ->
  exists x e, r_receive cf (p_init cf) m0 life saved (map RData pieces ++ tail) = Ok (Some x) /\ rr_fin x = Some (Some (EParse e)) /\ m_valid (rr_msg x) = false /\ keeps (rr_life x) = false.
Proof.
  intros T. destruct one_feed as (r' & F1 & F2 & F3 & F4 & F5 & F6 & F7). destruct HC as [C1 C2].
  assert (pend life saved ++ pieces <> []) as NN by (intros E; rewrite E in C2; cbn in C2; congruence).
  pose proof (r_receive_feed cf tail (p_init cf) m0 life saved pieces C1) as RF. rewrite F1, F2, T in RF. destruct RF as (ps & RF).
  pose proof (proj1 (feed_err _ _ _ _ HM C1 NN F1) ltac:(congruence)) as EN. destruct (r_err r') as [e|] eqn:EE; [|congruence].
  eexists _, e. split; [exact RF|]. cbn [rr_fin rr_msg rr_life parse_err]. auto.
Qed.
Lemma reader_unfinished x : r_rc r = TIndet -> tail = [] \/ (exists t, tail = RFail :: t) \/ (exists t, tail = RData [] :: t) ->
  r_receive cf (p_init cf) m0 life saved (map RData pieces ++ tail) = Ok (Some x) -> keeps (rr_life x) = false
    /\ (tail = [] -> rr_fin x = None) /\ (tail <> [] -> rr_fin x = Some None -> cf_request cf = false).
Proof.
  intros T HT. destruct one_feed as (r' & F1 & F2 & F3 & F4 & F5 & F6 & F7).
  pose proof (r_receive_feed cf tail (p_init cf) m0 life saved pieces (proj1 HC)) as RF. rewrite F1, F2, T in RF. rewrite RF.
  destruct HT as [E|[[t E]|[t E]]]; rewrite E in *; cbn [r_read].
  - intros H; injection H as <-. cbn. split; [reflexivity|]. split; [reflexivity|]. intros X. congruence.
  - destruct (check_premature_eof _ _ _) as [[[p st] m]|] eqn:EP; [|discriminate]. cbn [obind]. intros H; injection H as <-. cbn [rr_fin rr_life].
    split; auto. split; [discriminate|]. intros _ H. destruct (cf_request cf) eqn:RQ; auto. exfalso.
    pose proof (feed_request_phase cf RQ _ _ _ _ F1 ltac:(discriminate)) as PH. revert EP H. unfold check_premature_eof.
    destruct (p_phase (r_st r')); try congruence; intros EP H; injection EP as <- <- <-; discriminate.
  - intros H; injection H as <-. cbn [rr_fin rr_life]. split; auto. split; [discriminate|]. intros _ H. discriminate.
Qed.
End One.

(* ------------------------------------------------------------------ [message::receive] *)

Definition mr_spec (cf : pcfg) (life : lifecycle) (saved : list Z) (tail : list rev) (f : outcome (option presult)) (o : outcome (option (option mres))) : Prop :=
  match f with
  | Ok (Some r) =>
    match r_rc r with
    | TIndet => o = mr_read cf life saved (r_st r) (r_msg r) tail
    | TTrue => exists life' saved' ps', o = Ok (Some (Some (mkmres None true (r_msg r) life' saved' (map RData ps' ++ tail))))
                 /\ nonempty (pend life' saved' ++ ps')
                 /\ (check_keep_alive (r_msg r) = true -> life' <> LClose /\ concat (pend life' saved' ++ ps') = r_rest r)
                 /\ (check_keep_alive (r_msg r) = false -> life' = LClose)
    | TFalse => exists ps', o = Ok (Some (Some (mkmres (parse_err (r_err r)) false (r_msg r) life saved (map RData ps' ++ tail))))
    end
  | Ok None => o = Ok None
  | Bad b => o = Bad b
  end.
Lemma mr_consume_next cf k life saved st m buf ps tail : buf <> [] -> nonempty ps ->
  (forall st' m', mr_spec cf life saved tail (feed cf st' m' ps) (k st' m')) ->
  mr_spec cf life saved tail (feed cf st m (buf :: ps)) (mr_consume cf k life saved st m buf (map RData ps ++ tail)).
Proof.
  intros HB NE HK. unfold mr_consume. cbn [feed].
  destruct (parse cf st m buf) as [[r|]|]; try reflexivity. destruct (r_rc r) eqn:T; [| |apply HK]; cbn [mr_spec r_rc r_err r_msg r_rest].
  - unfold mr_done. destruct (check_keep_alive (r_msg r)) eqn:K; cbn [andb negb].
    + destruct (r_rest r) as [|c rest] eqn:R.
      * exists LKeep, saved, ps. split; [reflexivity|]. split; [exact NE|]. split; [|congruence]. intros _. split; [discriminate|reflexivity].
      * exists LPipelined, (c :: rest), ps. split; [reflexivity|]. split; [constructor; [discriminate|exact NE]|]. split; [|congruence].
        intros _. split; [discriminate|reflexivity].
    + eexists LClose, _, ps. split; [reflexivity|]. split; [exact NE|]. split; [congruence|auto].
  - exists ps. reflexivity.
Qed.
Lemma mr_read_feed cf life saved tail : forall ps st m, nonempty ps ->
  mr_spec cf life saved tail (feed cf st m ps) (mr_read cf life saved st m (map RData ps ++ tail)).
Proof.
  induction ps as [|p ps IH]; intros st m NE; [reflexivity|].
  assert (p <> []) as HP by (apply Forall_inv in NE; auto). apply Forall_inv_tail in NE.
  assert (mr_read cf life saved st m (map RData (p :: ps) ++ tail) =
          mr_consume cf (fun st' m' => mr_read cf life saved st' m' (map RData ps ++ tail)) life saved st m p (map RData ps ++ tail)) as ->
    by (destruct p; [congruence|reflexivity]).
  apply mr_consume_next; auto.
Qed.
Definition cleared (cf : pcfg) : msg := if cf_request cf then set_m_method [] msg_init else msg_init.
Lemma cleared_eq cf : o_msg (o_clear (o_new (cf_request cf))) = cleared cf.
Proof. reflexivity. Qed.
Lemma m_receive_feed cf life saved tail ps : nonempty (pend life saved ++ ps) ->
  mr_spec cf life saved tail (feed cf (p_init cf) (cleared cf) (pend life saved ++ ps)) (m_receive cf life saved (map RData ps ++ tail)).
Proof.
  intros NE. unfold m_receive. rewrite cleared_eq. destruct life; cbn [pend app] in *; try (apply mr_read_feed; auto).
  apply mr_consume_next; [exact (Forall_inv NE)|exact (Forall_inv_tail NE)|]. intros. apply mr_read_feed. exact (Forall_inv_tail NE).
Qed.
Lemma receive_in_order cf tail : 0 <= cf_max cf -> forall ws ms, Forall2 (whole_cleared cf) ws ms -> Forall (fun w => w <> []) ws -> Forall stays ms ->
  forall life saved ps more, nonempty (pend life saved ++ ps) -> concat (pend life saved ++ ps) = concat ws ++ more ->
  exists l, m_receive_all (List.length ws) cf life saved (map RData ps ++ tail) = Ok (Some l) /\ map mr_msg l = ms /\ Forall (fun r => mr_ok r = true /\ mr_err r = None) l.
Proof.
  intros HM ws ms H. induction H as [|w m ws ms (r & P1 & P2 & P3 & P4) _ IH]; intros HW HS life saved ps more NE C.
  - exists []. auto.
  - cbn [concat] in C. rewrite <- app_assoc in C.
    destruct (feed_more cf (cleared cf) _ w r (concat ws ++ more) HM (Forall_inv HW) NE C P1 ltac:(congruence)) as (r' & F1 & F2 & F3 & F4 & F5).
    pose proof (m_receive_feed cf life saved tail ps NE) as RF. rewrite F1 in RF. cbn [mr_spec] in RF. rewrite F2, P2, F4, P4, F5, P3 in RF.
    destruct RF as (life' & saved' & ps' & RF & NE' & K1 & _). cbn [List.length m_receive_all]. rewrite RF. cbn [mr_ok mr_life mr_saved mr_evs].
    destruct (K1 (stays_keep _ (Forall_inv HS))) as [_ K3]. cbn [app] in K3.
    destruct (IH (Forall_inv_tail HW) (Forall_inv_tail HS) life' saved' ps' more NE' K3) as (l & L1 & L2 & L3).
    rewrite L1. cbn [obind]. eexists. split; [reflexivity|]. cbn [map mr_msg]. split; [rewrite L2; auto|]. constructor; auto.
Qed.
Lemma receive_in_order_cut cf tail ws ms more pieces : 0 <= cf_max cf -> Forall2 (whole_cleared cf) ws ms -> Forall (fun w => w <> []) ws -> Forall stays ms ->
  cut pieces (concat ws ++ more) ->
  exists l, m_receive_all (List.length ws) cf LClose [] (map RData pieces ++ tail) = Ok (Some l) /\ map mr_msg l = ms /\ Forall (fun r => mr_ok r = true /\ mr_err r = None) l.
Proof. intros HM H1 H2 H3 [C1 C2]. eapply (receive_in_order cf tail HM ws ms H1 H2 H3 LClose [] pieces more); auto. Qed.

(** A call of [receive] that fails leaves lifecycle and bookmark alone. *)
Lemma mr_read_fail cf life saved : forall evs st m r, mr_read cf life saved st m evs = Ok (Some (Some r)) -> mr_ok r = false -> mr_life r = life /\ mr_saved r = saved.
Proof.
  assert (forall cf b m rest s e, mr_ok (mr_done cf b m rest s e) = true) as MD by (intros; unfold mr_done; destruct (_ && _); [destruct rest|]; reflexivity).
  induction evs as [|e evs IH]; intros st m r; cbn [mr_read]; [discriminate|].
  assert (obind (check_premature_eof cf st m) (fun x => match x with (premature, _, m') =>
      if premature then Ok (Some (Some (mkmres (Some ERead) false m' life saved evs)))
      else Ok (Some (Some (mr_done cf true m' [] saved evs))) end) = Ok (Some (Some r)) -> mr_ok r = false -> mr_life r = life /\ mr_saved r = saved) as X.
  { destruct (check_premature_eof _ _ _) as [[[p st'] m']|]; cbn [obind]; [|discriminate]. destruct p; intros H; injection H as <-; auto. rewrite MD. discriminate. }
  destruct e as [[|c s]|]; auto. unfold mr_consume. destruct (parse _ _ _ _) as [[q|]|]; try discriminate. destruct (r_rc q).
  - intros H; injection H as <-. rewrite MD. discriminate.
  - intros H; injection H as <-. auto.
  - apply IH.
Qed.
Lemma receive_fail cf life saved evs r : m_receive cf life saved evs = Ok (Some (Some r)) -> mr_ok r = false -> mr_life r = life /\ mr_saved r = saved.
Proof.
  unfold m_receive. set (m := o_msg _). clearbody m.
  destruct life; try apply mr_read_fail. unfold mr_consume. destruct (parse _ _ _ _) as [[q|]|]; try discriminate. destruct (r_rc q).
  - intros H; injection H as <-. unfold mr_done. destruct (_ && _); [destruct (r_rest q)|]; discriminate.
  - intros H; injection H as <-. auto.
  - apply mr_read_fail.
Qed.
