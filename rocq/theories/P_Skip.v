(** Property theorems about reading the content of a message whose headers are set by the caller: C159. *)
From Coq Require Import String ZArith List Lia Bool Permutation.
From Verif Require Import Base Digits AlgModel FormModel DictModel MultipartModel HttpModel HttpBase HttpSplit HttpSpec HttpProofs HttpHead HttpBody HttpChunk SkipModel.
Import ListNotations.

(** The content is [content], the bytes after it are left, and the headers are those the message had. *)
Definition read_as (m : msg) (o : outcome (option presult)) (content rest : list Z) : Prop :=
  exists r, o = Ok (Some r) /\ r_rc r = TTrue /\ r_err r = None /\ m_valid (r_msg r) = true /\ m_status (r_msg r) = STATUS_OK
            /\ content_of (r_msg r) = Ok content /\ m_headers (r_msg r) = m_headers m /\ r_rest r = rest.
Definition not_multipart (m : msg) : Prop := forall v, In v (values_of (bs "Content-Type") (m_headers m)) -> ~ exists t, v = bs "multipart/form-data" ++ t.
Definition not_chunks (m : msg) : Prop := forall v, In v (values_of (bs "Transfer-Encoding") (m_headers m)) -> ~ says_chunked v.

Definition sm0 (cf : pcfg) (m : msg) : msg := update_message cf (h_init cf) (update_transfer_encoding (set_m_clen 0 m)).
Lemma sm0_facts cf m : m_headers (sm0 cf m) = m_headers m /\ m_cache (sm0 cf m) = m_cache m /\ m_missing (sm0 cf m) = m_missing m
  /\ m_req_method (sm0 cf m) = m_req_method m /\ (cf_request cf = false -> m_code (sm0 cf m) = 0)
  /\ m_chunked (sm0 cf m) = match d_find (m_headers m) HEADER_TRANSFER_ENCODING with Some v => contains (bs "chunked") (lower_str v) | None => false end.
Proof.
  unfold sm0, update_message, h_init. destruct (cf_request cf); cbn [h_query]; cbn; repeat split; try discriminate; destruct m; reflexivity.
Qed.
Lemma sm0_plain cf m : not_chunks m -> m_chunked (sm0 cf m) = false.
Proof.
  intros N. destruct (sm0_facts cf m) as (_ & _ & _ & _ & _ & ->). pose proof (d_find_perm HEADER_TRANSFER_ENCODING _ _ (Permutation_refl (m_headers m))) as F.
  destruct (d_find _ _) as [v|]; [|reflexivity]. destruct (contains _ _) eqn:E; [|reflexivity]. destruct (N v F). exact (contains_chunked _ E).
Qed.
Lemma sm0_implied cf m : m_req_method m <> bs "HEAD" -> is_content_length_implied (cf_request cf) (sm0 cf m) = false.
Proof.
  intros N. unfold is_content_length_implied. destruct (cf_request cf) eqn:R; [reflexivity|]. destruct (sm0_facts cf m) as (_ & _ & _ & -> & C & _). rewrite C by auto.
  destruct (str_eqb (m_req_method m) (bs "HEAD")) eqn:E; [apply str_eqb_eq in E; contradiction|reflexivity].
Qed.

Lemma seg cf st m pieces s r : pinv cf st m -> cut pieces s -> s <> [] -> parse cf st m s = Ok (Some r) ->
  exists r', feed cf st m pieces = Ok (Some r') /\ same_result r' r.
Proof.
  intros HI [HF HC] N E. assert (pieces <> []) as NP by (intros ->; cbn in HC; congruence).
  assert (same_outcome (feed cf st m pieces) (parse cf st m (concat pieces))) as SG.
  { apply obs_same; [apply feed_obs; auto|]. intros X. pose proof (feed_obs cf pieces st m HI NP HF) as FO. rewrite X in FO. cbn in FO.
    destruct (parse cf st m (concat pieces)) as [[r0|]|] eqn:EP; cbn in FO; try discriminate. eapply parse_some; eauto. }
  rewrite HC, E in SG. destruct (feed cf st m pieces) as [[r2|]|]; cbn in SG; try contradiction. eauto.
Qed.
Lemma parse_first cf st m s r1 : m_missing m = false -> p_round cf st m s = Ok r1 -> s_rc r1 = TTrue ->
  forall m2, finish cf (set_p_phase PEnd (fst (s_st r1))) (snd (s_st r1)) = Ok m2 ->
  exists t, parse cf st m s = Ok (Some (mkpres TTrue (s_err r1) (set_p_last t (set_p_phase PEnd (fst (s_st r1)))) m2 (s_rest r1))).
Proof.
  intros HM R1 T1 m2 F. unfold parse. rewrite HM. rewrite p_loop_S, R1. cbn [obind]. rewrite T1.
  destruct (s_rest r1) eqn:?; cbn [obind]; rewrite ?T1, F; cbn [obind]; eexists; first [reflexivity | congruence | (repeat f_equal; eauto)].
Qed.
Lemma read_intro cf st m0 m pieces s r1 body rest : pinv cf st m0 -> cut pieces s -> s <> [] -> m_missing m0 = false ->
  p_round cf st m0 s = Ok r1 -> s_rc r1 = TTrue -> s_err r1 = None -> s_rest r1 = rest -> content_of (snd (s_st r1)) = Ok body -> m_headers (snd (s_st r1)) = m_headers m -> m_missing (snd (s_st r1)) = false ->
  not_multipart m -> read_as m (feed cf st m0 pieces) body rest.
Proof.
  intros HI HC N MM R T ER RE CO HH MM2 NM.
  destruct (finish_ok cf (set_p_phase PEnd (fst (s_st r1))) (snd (s_st r1)) body (m_headers m)) as (m' & F & D); auto; [rewrite HH; apply Permutation_refl|].
  destruct (parse_first cf st m0 s r1 MM R T m' F) as [t E]. destruct (seg cf st m0 pieces s _ HI HC N E) as (r' & E' & S1 & S2 & S3 & S4 & _). cbn [r_rc r_err r_msg r_rest] in *.
  exists r'. rewrite S1, S2, S3, S4. split; auto. split; auto. split; auto. split; [destruct D as [q ->]; reflexivity|]. split; [destruct D as [q ->]; unfold compute_status; cbn; rewrite MM2; reflexivity|].
  split; [eapply done_content; eauto|]. split; [rewrite (done_headers _ _ D); auto|auto].
Qed.

(** For every parser that stores the content, new, and every message of the caller's with one Content-Length, of any digits, that is the length of the body: the body is the content,
    cut into buffers in any way, what comes after it is left and the headers are unchanged. Not for messages whose chunks or forms are to be read. *)
Theorem C159_length_partial cf m v body more pieces : storing cf -> m_missing m = false -> m_req_method m <> bs "HEAD" -> not_chunks m -> not_multipart m ->
  values_of (bs "Content-Length") (m_headers m) = [v] -> v <> [] -> Forall is_dec v -> dec_value v = zlen body -> zlen body <= cf_max cf -> zlen body < two64 - 1 ->
  body ++ more <> [] -> cut pieces (body ++ more) ->
  read_as m (skip_and_feed feed cf m pieces) body more.
Proof.
  intros (HX & HO & HH) MM NH NC NM VC V1 V2 V3 L1 L2 NE CU. pose proof (zlen_nonneg body).
  destruct (sm0_facts cf m) as (FH & FC & FM & _). pose proof (sm0_plain cf m NC) as PL. pose proof (sm0_implied cf m NH) as IM.
  unfold skip_and_feed, skip_header_parsing, finish_headers. change (p_h (p_init cf)) with (h_init cf). cbv zeta. fold (sm0 cf m). rewrite PL, IM.
  unfold d_has, update_content_length. rewrite FH.
  rewrite (d_find_one HEADER_CONTENT_LENGTH _ _ v (Permutation_refl _) VC). rewrite cast_dec by (auto; lia). rewrite V3. rewrite MM in FM.
  set (m0 := sm0 cf m) in *. clearbody m0. assert (m_clen (set_m_clen (zlen body) m0) = zlen body) as EC by reflexivity. rewrite EC.
  destruct (zlen body =? 0) eqn:E0.
  - assert (body = []) as -> by (destruct body; auto; rewrite zlen_cons in E0; pose proof (zlen_nonneg body); lia). cbn [obind snd fst].
    eapply read_intro with (s := more); [|exact CU|exact NE|exact FM|reflexivity|reflexivity|reflexivity|reflexivity|apply content_of_empty; reflexivity|exact FH|exact FM|exact NM].
    split; [intros X; discriminate X|]. split; [discriminate|lia].
  - replace (cf_max cf <? zlen body) with false by lia. rewrite HO. unfold create_content_buffer. rewrite EC, wrap64_id by lia.
    replace (zlen body + 1 <=? zlen body) with false by lia. cbn [obind snd fst].
    set (st1 := set_p_remaining (zlen body) _). set (m2 := set_m_buf _ _).
    assert (pinv cf st1 m2) as PI.
    { split; [|split]; [|discriminate|lia]. intros _. unfold st1. cbn. repeat split; try lia. intros _. unfold m2. cbn. unfold zlen at 1. rewrite repeat_length. lia. }
    assert (p_phase st1 = PContent) as PP by reflexivity. pose proof (consume_content_eq cf st1 m2 (body ++ more) PI PP) as R2. cbv zeta in R2.
    assert (content_bytes st1 (body ++ more) = zlen body) as CB by (unfold content_bytes, st1; cbn; rewrite zlen_app; pose proof (zlen_nonneg more); lia). rewrite CB in R2.
    assert (p_remaining st1 <=? zlen (body ++ more) = true) as CR by (unfold st1; cbn; rewrite zlen_app; pose proof (zlen_nonneg more); lia). rewrite CR in R2.
    assert (Z.to_nat (zlen body) = List.length body) as TN by (unfold zlen; lia).
    rewrite TN, firstn_app, firstn_all, Nat.sub_diag, skipn_app, skipn_all, Nat.sub_diag in R2. cbn [firstn skipn app] in R2. rewrite app_nil_r in R2.
    assert (p_round cf st1 m2 (body ++ more) = consume_content cf st1 m2 (body ++ more)) as RE by (unfold p_round; rewrite PP; reflexivity).
    eapply read_intro; [exact PI|exact CU|exact NE|exact FM|rewrite RE; exact R2|reflexivity|reflexivity|reflexivity| | | |exact NM]; cbn [s_st snd]; unfold content_msg; rewrite HH.
    + unfold st1, m2. cbn. rewrite Z.sub_0_r. rewrite (firstn_all2 body) by (unfold zlen in *; lia). unfold content_of, wr. cbn. rewrite TN.
      rewrite skipn_all2 by (rewrite repeat_length; unfold zlen in *; lia). rewrite app_nil_r. replace (zlen body <=? zlen (map Some body)) with true by (unfold zlen; rewrite map_length; lia).
      rewrite firstn_all2 by (rewrite map_length; lia). rewrite all_some_map. reflexivity.
    + exact FH.
    + exact FM.
Qed.
Print Assumptions C159_length_partial.

(** The same for every message with one Transfer-Encoding that says chunked: the content is what the chunks hold. *)
Theorem C159_chunks_partial cf m v l size ext more pieces : storing cf -> m_missing m = false -> m_cache m = [] -> not_multipart m ->
  values_of (bs "Transfer-Encoding") (m_headers m) = [v] -> says_chunked v -> Forall chunk_ok l -> last_ok size ext -> zlen (chunk_data l) <= cf_max cf -> zlen (chunk_data l) < two64 - 1 ->
  cut pieces (wire_chunks l size ext [] ++ more) ->
  read_as m (skip_and_feed feed cf m pieces) (chunk_data l) more.
Proof.
  intros (HX & HO & HH) MM MC NM VT SC HF HL L1 L2 CU. destruct (sm0_facts cf m) as (FH & FC & FM & _ & _ & CH).
  assert (m_chunked (sm0 cf m) = true) as PL.
  { rewrite CH. rewrite (d_find_one HEADER_TRANSFER_ENCODING _ _ v (Permutation_refl _) VT). destruct SC as (a & b & HC). change (map ascii_low v) with (lower_str v) in HC. rewrite HC.
    clear. induction a as [|x a IH]; cbn [app].
    - change (bs "chunked") with (99 :: bs "hunked"). cbn [app contains]. change (99 :: bs "hunked") with (bs "chunked").
      replace (is_prefix (bs "chunked") (99 :: bs "hunked" ++ b)) with true; [reflexivity|]. symmetry. apply is_prefix_spec. exists b. reflexivity.
    - cbn [contains]. rewrite IH. apply orb_true_r. }
  unfold skip_and_feed, skip_header_parsing, finish_headers. change (p_h (p_init cf)) with (h_init cf). cbv zeta. fold (sm0 cf m). rewrite PL. cbn [obind snd fst]. rewrite MM in FM. rewrite MC in FC.
  set (m0 := sm0 cf m) in *. clearbody m0. set (st1 := set_p_phase PChunks _). assert (p_k st1 = k_init) as EK by reflexivity.
  destruct (chunks_done cf st1 m0 l size ext more HH EK FC HF HL L1) as (k & n & tot & cr & E).
  assert (wire_chunks l size ext [] ++ more <> []) as NE.
  { unfold wire_chunks. destruct HL as (L3 & _). destruct size; [congruence|]. intros X. rewrite <- !app_assoc in X. apply app_eq_nil in X as [_ X]. discriminate. }
  eapply read_intro; [|exact CU|exact NE|exact FM| | | | | | | |exact NM].
  - split; [intros X; discriminate X|]. split; [discriminate|lia].
  - unfold p_round. assert (p_phase st1 = PChunks) as -> by reflexivity. unfold wire_chunks, wire_hdrs. cbn [map concat]. rewrite <- !app_assoc. cbn [app] in *. rewrite E. cbn [s_rc s_st s_err s_rest fst snd].
    rewrite HH, concatenate_ok by exact L2. cbn [obind]. reflexivity.
  - reflexivity.
  - reflexivity.
  - reflexivity.
  - cbn [s_st snd]. apply (content_of_cache (set_m_cache (chunk_data l) m0) (chunk_data l)).
  - exact FH.
  - exact FM.
Qed.
Print Assumptions C159_chunks_partial.

(** The same for every response with neither: every byte up to the end of the connection is the content. *)
Theorem C159_close_partial cf m body pieces : storing cf -> cf_request cf = false -> m_missing m = false -> m_req_method m <> bs "HEAD" -> not_chunks m -> values_of (bs "Content-Length") (m_headers m) = [] ->
  body <> [] -> zlen body <= cf_max cf -> zlen body < two64 - 1 -> cut pieces body ->
  exists r st m', skip_and_feed feed cf m pieces = Ok (Some r) /\ r_rc r = TIndet /\ r_err r = None /\ check_premature_eof cf (r_st r) (r_msg r) = Ok (false, st, m')
    /\ m_valid m' = true /\ content_of m' = Ok body /\ m_headers m' = m_headers m.
Proof.
  intros (HX & HO & HH) RQ MM NH NC VC NE L1 L2 CU. destruct (sm0_facts cf m) as (FH & FC & FM & _). pose proof (sm0_plain cf m NC) as PL. pose proof (sm0_implied cf m NH) as IM.
  unfold skip_and_feed, skip_header_parsing, finish_headers. change (p_h (p_init cf)) with (h_init cf). cbv zeta. fold (sm0 cf m). rewrite PL, IM. unfold d_has. rewrite FH.
  rewrite (d_find_none HEADER_CONTENT_LENGTH _ _ (Permutation_refl _) VC). rewrite RQ. cbn [obind snd fst]. rewrite MM in FM.
  set (m0 := sm0 cf m) in *. clearbody m0. set (st1 := set_p_phase PContentNoLength _).
  assert (exists n tot cr, parse cf st1 (set_m_cache [] m0) body =
     Ok (Some (mkpres TIndet None (set_p_last n (set_p_total tot (set_p_content_read cr st1))) (set_m_cache body m0) []))) as (n & tot & cr & E).
  { unfold parse. change (m_missing (set_m_cache [] m0)) with (m_missing m0). rewrite FM. rewrite p_loop_S. unfold p_round. assert (p_phase st1 = PContentNoLength) as -> by reflexivity.
    unfold consume_no_length. rewrite HH. cbn [obind s_rc s_rest s_st fst snd s_err].
    assert (cache_fill cf (m_cache (set_m_cache [] m0)) body = body) as ->.
    { unfold cache_fill. cbn [m_cache set_m_cache app]. rewrite zlen_nil. apply firstn_all2. unfold zlen in *. lia. }
    do 3 eexists. reflexivity. }
  destruct (seg cf st1 (set_m_cache [] m0) pieces body _ ltac:(split; [intros X; discriminate X|]; split; [discriminate|lia]) CU NE E) as (r' & E' & S1 & S2 & S3 & S4 & S5). destruct S5 as (T1 & _). cbn [r_rc r_err r_msg r_rest r_st] in *.
  exists r'. rewrite E'. unfold check_premature_eof. rewrite T1, S3. cbn [p_phase set_p_last set_p_total set_p_content_read].
  assert (p_phase st1 = PContentNoLength) as -> by reflexivity. rewrite concatenate_ok by (cbn; auto). cbn [obind].
  unfold finish. cbn [p_phase set_p_phase]. unfold finish_forms. rewrite RQ. cbn [andb obind].
  do 2 eexists. split; [reflexivity|]. split; [auto|]. split; [auto|]. split; [reflexivity|].
  split; [reflexivity|]. split; [apply (content_of_cache (set_m_cache body m0) body)|]. exact FH.
Qed.
Print Assumptions C159_close_partial.

Definition skip_cf (request : bool) : pcfg := {| cf_request := request; cf_max := 1000; cf_headers_only := false; cf_save_raw := false; cf_handler := false; cf_pos := fun _ _ => 0%nat |}.
(** Nothing but the content of the message is changed, its first line is kept: not so, for a request and for a response. *)
Theorem C159_request_refuted : ~ forall cf m st m', cf_request cf = true -> skip_header_parsing cf (p_init cf) m = Ok (st, m') -> m_method m' = m_method m /\ m_resource m' = m_resource m.
Proof.
  intros H. set (m := set_m_resource (bs "/form") (set_m_method (bs "POST") (set_m_headers [(bs "Content-Length", bs "2")] msg_init))).
  assert (exists st m', skip_header_parsing (skip_cf true) (p_init (skip_cf true)) m = Ok (st, m') /\ m_method m' = []) as (st & m' & E & E') by (do 2 eexists; split; [vm_compute; reflexivity|reflexivity]).
  destruct (H (skip_cf true) m st m' eq_refl E) as [X _]. rewrite E' in X. vm_compute in X. discriminate X.
Qed.
Print Assumptions C159_request_refuted.
Theorem C159_response_refuted : ~ forall cf m st m', cf_request cf = false -> skip_header_parsing cf (p_init cf) m = Ok (st, m') -> m_code m' = m_code m.
Proof.
  intros H. set (m := set_m_code 200 (set_m_headers [(bs "Content-Length", bs "2")] msg_init)).
  assert (exists st m', skip_header_parsing (skip_cf false) (p_init (skip_cf false)) m = Ok (st, m') /\ m_code m' = 0) as (st & m' & E & E') by (do 2 eexists; split; [vm_compute; reflexivity|reflexivity]).
  pose proof (H (skip_cf false) m st m' eq_refl E) as X. rewrite E' in X. vm_compute in X. discriminate X.
Qed.
Print Assumptions C159_response_refuted.
(** A response whose status has no content has none: not so, the status was lost before it is looked at. *)
Theorem C159_status_refuted : ~ forall cf m pieces r, cf_request cf = false -> m_code m = 204 -> pieces <> [] -> skip_and_feed feed cf m pieces = Ok (Some r) -> r_rc r = TTrue /\ content_of (r_msg r) = Ok [].
Proof.
  intros H. assert (exists r, skip_and_feed feed (skip_cf false) (set_m_code 204 msg_init) [bs "HTTP/1.1 200 OK"] = Ok (Some r) /\ r_rc r = TIndet) as (r & E & E') by (eexists; split; [vm_compute; reflexivity|reflexivity]).
  assert ([bs "HTTP/1.1 200 OK"] <> []) as N by (intros X; discriminate X).
  destruct (H (skip_cf false) (set_m_code 204 msg_init) [bs "HTTP/1.1 200 OK"] r eq_refl eq_refl N E) as [X _]. rewrite E' in X. discriminate X.
Qed.
Print Assumptions C159_status_refuted.
(** A Content-Length that is no number is reported when content arrives: not so, the content is then read as another message. *)
Theorem C159_invalid_refuted : ~ forall cf m v pieces r, values_of (bs "Content-Length") (m_headers m) = [v] -> ~ Forall is_dec v -> values_of (bs "Transfer-Encoding") (m_headers m) = [] ->
  skip_and_feed feed cf m pieces = Ok (Some r) -> r_rc r = TFalse /\ r_err r = Some E_INVALID_CONTENT_LENGTH.
Proof.
  intros H. set (m := set_m_headers [(bs "Content-Length", bs "ten")] msg_init). set (s := bs "GET / HTTP/1.1" ++ CRLF).
  assert (exists r, skip_and_feed feed (skip_cf true) m [s] = Ok (Some r) /\ r_rc r = TIndet) as (r & E & E') by (eexists; split; [vm_compute; reflexivity|reflexivity]).
  destruct (H (skip_cf true) m (bs "ten") [s] r eq_refl) as [X _]; [|reflexivity|exact E|rewrite E' in X; discriminate X].
  intros F. inversion F as [|? ? D _]; subst. unfold is_dec in D. vm_compute in D. destruct D as [_ D]. apply D. reflexivity.
Qed.
Print Assumptions C159_invalid_refuted.
(** A message read by a parser keeps its cookies: not so, they are read from its headers once more. *)
Theorem C159_cookies_refuted : ~ forall cf s r st m', parse cf (p_init cf) msg_init s = Ok (Some r) -> r_rc r = TTrue -> skip_header_parsing cf (p_init cf) (r_msg r) = Ok (st, m') -> m_cookies m' = m_cookies (r_msg r).
Proof.
  intros H. set (s := bs "GET / HTTP/1.1" ++ CRLF ++ bs "Cookie: a=1" ++ CRLF ++ CRLF).
  assert (exists r st m', parse (skip_cf true) (p_init (skip_cf true)) msg_init s = Ok (Some r) /\ r_rc r = TTrue /\ skip_header_parsing (skip_cf true) (p_init (skip_cf true)) (r_msg r) = Ok (st, m')
    /\ m_cookies (r_msg r) = [(bs "a", bs "1")] /\ m_cookies m' = [(bs "a", bs "1"); (bs "a", bs "1")]) as (r & st & m' & E1 & E2 & E3 & E4 & E5).
  { do 3 eexists. split; [vm_compute; reflexivity|]. split; [reflexivity|]. split; [vm_compute; reflexivity|]. split; reflexivity. }
  pose proof (H _ _ _ _ _ E1 E2 E3) as X. rewrite E4, E5 in X. vm_compute in X. discriminate X.
Qed.
Print Assumptions C159_cookies_refuted.
Example C159_case : let m := set_m_headers [(bs "content-length", bs "05"); (bs "X", bs "y")] msg_init in
  read_as m (skip_and_feed feed (skip_cf true) m [bs "he"; bs "l"; bs "lo, more"]) (bs "hello") (bs ", more")
  /\ (exists r, skip_and_feed feed (skip_cf true) m [bs "he"; bs "l"; bs "lo, more"] = Ok (Some r) /\ content_of (r_msg r) = Ok (bs "hello")).
Proof.
  cbv zeta. split.
  - apply (C159_length_partial _ _ (bs "05")); try reflexivity.
    + unfold storing. cbn. unfold two64. lia.
    + intros X. discriminate X.
    + intros v X. destruct X.
    + intros v X. destruct X.
    + intros X. discriminate X.
    + repeat constructor; vm_compute; discriminate.
    + vm_compute. discriminate.
    + intros X. discriminate X.
    + split; [|reflexivity]. repeat constructor; intros X; discriminate X.
  - eexists. split; [vm_compute; reflexivity|reflexivity].
Qed.
