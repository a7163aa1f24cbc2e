(** Oversized chunked bodies, payload handlers, messages without a body, responses that end with the connection. *)
From Coq Require Import String ZArith List Lia Bool Permutation.
From Coq Require Import ZifyBool ZifyNat.
From Verif Require Import Base Digits AlgModel FormModel DictModel MultipartModel HttpModel HttpBase HttpSplit HttpSpec HttpProofs HttpHead HttpBody HttpChunk.
Import ListNotations.

Local Arguments zlen : simpl never.
Local Arguments Z.add : simpl never.
Local Arguments Z.sub : simpl never.
Local Arguments used : simpl never.
Local Arguments finish : simpl never.
Local Arguments cache_fill : simpl never.

(* ------------------------------------------------------------------ oversized chunked bodies *)

Lemma wire_chunks_nonempty l size ext tr more : last_ok size ext -> wire_chunks l size ext tr ++ more <> [].
Proof.
  intros (L1 & _). unfold wire_chunks. destruct size; [congruence|]. intros E. rewrite <- !app_assoc in E.
  apply app_eq_nil in E as [_ E]. discriminate.
Qed.

Lemma oversized_chunks cf m hd v l more : storing cf -> head_ok cf hd -> m_headers m = [] -> m_cache m = [] -> m_missing m = false ->
  values_of (bs "Transfer-Encoding") (hdrs_of hd) = [v] -> says_chunked v ->
  Forall chunk_ok l -> cf_max cf < zlen (chunk_data l) ->
  exists r, parse cf (p_init cf) m (wire_head hd ++ concat (map wire_chunk l) ++ more) = Ok (Some r) /\ r_rc r = TIndet /\ r_err r = None /\ r_rest r = [].
Proof.
  intros (HX & HO & HH) HD HM HC HMS HT HTC HF HS.
  pose proof (chunk_round1 cf m hd v (concat (map wire_chunk l) ++ more) HO HD HM HT HTC) as R1.
  destruct (head_m0_facts cf m hd HD HM) as (P & C0 & _). set (m0 := head_m0 cf m hd) in *. clearbody m0. rewrite HC in C0.
  assert (concat (map wire_chunk l) ++ more <> []) as N1.
  { destruct l as [|c l]; [unfold chunk_data in HS; cbn in HS; rewrite zlen_nil in HS; lia|]. inversion HF as [|? ? (C1 & _) _]; subst.
    cbn [map concat]. unfold wire_chunk. destruct (c_size c); [congruence|]. cbn. discriminate. }
  destruct (k1_too_much cf (p_payload (chunk_st cf hd)) HH l [] [] 0 0 more HF) as (s1 & s2 & s3 & s4 & E & _); [rewrite zlen_nil; lia|rewrite zlen_nil; lia|].
  unfold parse. rewrite HMS. rewrite p_loop_S, R1. cbn [obind s_rc s_rest s_st fst snd].
  destruct (concat (map wire_chunk l) ++ more) as [|c s] eqn:EC; [congruence|].
  rewrite p_loop_S. unfold p_round. assert (p_phase (chunk_st cf hd) = PChunks) as -> by reflexivity.
  unfold parse_chunks. assert (p_k (chunk_st cf hd) = k_init) as -> by reflexivity. rewrite C0.
  rewrite k_loop_k1; [|intros X; discriminate|auto].
  change k_init with (MkK KSizeStart [] 0 0). rewrite E. cbn [s_rc s_err s_st s_rest obind]. eexists. split; [reflexivity|]. auto.
Qed.

(* ------------------------------------------------------------------ payload handlers *)

Lemma finish_handler cf st m : p_phase st = PEnd -> cf_handler cf = true -> finish cf st m = Ok (compute_status (set_m_valid true m) true).
Proof.
  intros HP HH. unfold finish. rewrite HP. unfold finish_forms. rewrite HH.
  destruct (cf_request cf); reflexivity.
Qed.

Lemma streamed_intro hd m l t st rest p : m_missing m = false -> first_line hd m -> Permutation l (m_headers m) ->
  p_payload st = p -> Forall (fun b => b = None) (m_buf m) -> m_cache m = [] ->
  streamed hd (Ok (Some (mkpres TTrue None (set_p_last t st) (compute_status (set_m_valid true m) true) rest))) p l rest.
Proof.
  intros MS FL P PL NB NC. eexists. split; [reflexivity|]. cbn. unfold compute_status. rewrite MS. cbn.
  repeat (split; [auto; fail|]). auto.
Qed.

Lemma streamed_feed cf hd m pieces s content hs rest : 0 <= cf_max cf -> Forall (fun s => s <> []) pieces -> concat pieces = s -> s <> [] ->
  streamed hd (parse cf (p_init cf) m s) content hs rest -> streamed hd (feed cf (p_init cf) m pieces) content hs rest.
Proof.
  intros HM HF HC HN (r & E & A1 & A2 & A3 & A4 & A5 & A6 & A7 & A8).
  assert (pieces <> []) as NP by (intros ->; cbn in HC; congruence).
  pose proof (segmentation any_msg false cf (p_init cf) m pieces HM (reach_new _ _ _ m I) NP HF) as SG.
  rewrite HC, E in SG. unfold same_outcome in SG.
  destruct (feed cf (p_init cf) m pieces) as [[r2|]|]; try contradiction.
  destruct SG as (S1 & S2 & S3 & S4 & S5). exists r2. destruct S5 as (_ & _ & _ & _ & S5 & _). rewrite S1, S2, S3, S4, S5. tauto.
Qed.

Lemma Forall_repeat_none n : Forall (fun b : option Z => b = None) (repeat None n).
Proof. apply Forall_forall. intros x Hx. apply repeat_spec in Hx. auto. Qed.

Lemma streamed_length cf m hd v body more : streaming cf -> head_ok cf hd -> m_headers m = [] -> m_cache m = [] -> m_buf m = [] -> m_missing m = false ->
  ~ bodiless m hd -> no_chunks hd ->
  values_of (bs "Content-Length") (hdrs_of hd) = [v] -> v <> [] -> Forall is_dec v -> dec_value v = zlen body ->
  zlen body < two64 - 1 ->
  streamed hd (parse cf (p_init cf) m (wire_head hd ++ body ++ more)) body (hdrs_of hd) more.
Proof.
  intros (HX & HO & HH) HD HM HCA HBU HMS HB HT HC V1 V2 V3 HL2. pose proof (zlen_nonneg body).
  pose proof (head_round cf m hd (body ++ more) HD) as HR. rewrite finish_headers_eq in HR. cbv zeta in HR.
  rewrite (not_chunked cf m hd HD HM HT), (implied_bodiless cf m hd HD HM HB) in HR.
  destruct (head_m0_facts cf m hd HD HM) as (P & MC & MB & ML & _). pose proof (head_m0_first cf m hd HD HM) as FL. pose proof (head_m0_missing cf m hd) as MM. rewrite HMS in MM.
  rewrite HCA in MC. rewrite HBU in MB.
  pose proof (d_find_one HEADER_CONTENT_LENGTH _ _ v P HC) as DF.
  unfold d_has, update_content_length in HR. rewrite DF in HR. rewrite cast_dec in HR by (auto; lia).
  rewrite V3 in HR.
  set (m0 := head_m0 cf m hd) in *. clearbody m0.
  assert (m_clen (set_m_clen (zlen body) m0) = zlen body) as EC by reflexivity.
  rewrite EC in HR.
  destruct (zlen body =? 0) eqn:E0.
  - assert (body = []) as -> by (destruct body; auto; rewrite zlen_cons in E0; pose proof (zlen_nonneg body); lia).
    cbn [obind] in HR.
    pose proof (finish_handler cf (set_p_phase PEnd (set_p_phase PEnd (head_st cf hd))) (set_m_clen (zlen (@nil Z)) m0) eq_refl HH) as F.
    destruct (parse_one cf m (wire_head hd ++ [] ++ more) _ HMS HR eq_refl _ F) as [t ->].
    apply streamed_intro; auto. cbn. rewrite MB. constructor.
  - rewrite HO in HR.
    set (m1 := if cf_max cf <? zlen body then set_m_clen (cf_max cf) (set_m_clen (zlen body) m0) else set_m_clen (zlen body) m0) in *.
    assert (0 <= m_clen m1 <= cf_max cf /\ m_clen m1 < two64 - 1) as ML1.
    { unfold m1. destruct (cf_max cf <? zlen body) eqn:EM; cbn; lia. }
    assert (m_cache m1 = [] /\ m_missing m1 = false /\ first_line hd m1 /\ Permutation (hdrs_of hd) (m_headers m1)) as (Q1 & Q2 & Q3 & Q4).
    { unfold m1. destruct (cf_max cf <? zlen body); cbn; auto. }
    clearbody m1.
    unfold create_content_buffer in HR. rewrite wrap64_id in HR by lia.
    replace (m_clen m1 + 1 <=? m_clen m1) with false in HR by lia. cbn [obind] in HR.
    set (st1 := set_p_remaining (zlen body) (set_p_phase PContent (head_st cf hd))) in *.
    set (m2 := set_m_buf (repeat None (Z.to_nat (m_clen m1))) m1) in *.
    assert (pinv cf st1 m2) as PI.
    { split; [|split]; [|discriminate|lia]. intros _. unfold st1, head_st. cbn. repeat split; try lia; intros; try congruence. }
    assert (p_phase st1 = PContent) as PP by reflexivity.
    pose proof (consume_content_eq cf st1 m2 (body ++ more) PI PP) as R2. cbv zeta in R2.
    assert (content_bytes st1 (body ++ more) = zlen body) as CB.
    { unfold content_bytes, st1. cbn. rewrite zlen_app. pose proof (zlen_nonneg more). lia. }
    rewrite CB in R2.
    assert (p_remaining st1 <=? zlen (body ++ more) = true) as CR.
    { unfold st1. cbn. rewrite zlen_app. pose proof (zlen_nonneg more). lia. }
    rewrite CR in R2.
    assert (Z.to_nat (zlen body) = List.length body) as TN by (unfold zlen; lia).
    rewrite TN, firstn_app, firstn_all, Nat.sub_diag, skipn_app, skipn_all, Nat.sub_diag in R2. cbn [firstn skipn app] in R2. rewrite app_nil_r in R2.
    assert (p_round cf st1 m2 (body ++ more) = consume_content cf st1 m2 (body ++ more)) as RE by (unfold p_round; rewrite PP; reflexivity).
    pose proof (finish_handler cf (set_p_phase PEnd (content_st cf st1 body)) (content_msg cf st1 m2 body) eq_refl HH) as F.
    assert (body ++ more <> []) as NE by (destruct body; [discriminate|discriminate]).
    destruct (parse_two cf m _ _ _ _ _ HMS HR NE (eq_trans RE R2) eq_refl _ F) as [t ->].
    cbn [s_err s_st s_rest fst snd]. unfold content_msg. rewrite HH. apply streamed_intro; auto.
    + unfold content_st. rewrite HH. reflexivity.
    + apply Forall_repeat_none.
Qed.

(** the chunks themselves with a handler; parsing ends behind the last one, in front of trailers if there are any *)
Lemma streamed_chunks_gen cf m hd v l size ext s1 : streaming cf -> head_ok cf hd -> m_headers m = [] -> m_cache m = [] -> m_buf m = [] -> m_missing m = false ->
  values_of (bs "Transfer-Encoding") (hdrs_of hd) = [v] -> says_chunked v ->
  Forall chunk_ok l -> last_ok size ext -> (exists more, s1 = CRLF ++ more) \/ (exists c more, s1 = c :: more /\ c <> 13) ->
  streamed hd (parse cf (p_init cf) m (wire_head hd ++ concat (map wire_chunk l) ++ size ++ ext ++ CRLF ++ s1)) (chunk_data l) (hdrs_of hd)
    (match s1 with 13 :: _ :: more => more | _ => s1 end).
Proof.
  intros (HX & HO & HH) HD HM HC HBU HMS HT HTC HF (L1 & L2 & L3 & L4) HS1.
  pose proof (chunk_round1 cf m hd v (concat (map wire_chunk l) ++ size ++ ext ++ CRLF ++ s1) HO HD HM HT HTC) as R1.
  destruct (head_m0_facts cf m hd HD HM) as (P & C0 & MB & _). pose proof (head_m0_first cf m hd HD HM) as FL. pose proof (head_m0_missing cf m hd) as MM. rewrite HMS in MM.
  set (m0 := head_m0 cf m hd) in *. clearbody m0. rewrite HC in C0. rewrite HBU in MB.
  assert (concat (map wire_chunk l) ++ size ++ ext ++ CRLF ++ s1 <> []) as N1.
  { destruct size; [congruence|]. intros E. apply app_eq_nil in E as [_ E]. discriminate. }
  destruct (run_chunks_h cf [] HH l (p_payload (chunk_st cf hd)) [] 0 0 HF) as (q1 & q2 & q3 & ST).
  assert (exists r, p_round cf (chunk_st cf hd) m0 (concat (map wire_chunk l) ++ size ++ ext ++ CRLF ++ s1) = Ok r /\ s_rc r = TTrue /\ s_err r = None
            /\ p_payload (fst (s_st r)) = chunk_data l /\ snd (s_st r) = set_m_cache [] m0
            /\ s_rest r = match s1 with 13 :: _ :: more => more | _ => s1 end) as (r & R2 & T2 & E2 & P2 & M2 & S2).
  { unfold p_round. assert (p_phase (chunk_st cf hd) = PChunks) as -> by reflexivity.
    unfold parse_chunks. assert (p_k (chunk_st cf hd) = k_init) as -> by reflexivity. rewrite C0.
    rewrite k_loop_k1; [|intros X; discriminate|auto]. change k_init with (MkK KSizeStart [] 0 0). rewrite ST.
    replace (size ++ ext ++ CRLF ++ s1) with ((size ++ ext ++ CRLF) ++ s1) by (rewrite <- !app_assoc; auto).
    rewrite (run_size_line cf _ _ q1 q2 q3 size ext) by (auto; lia). rewrite L4. cbn [Z.eqb].
    destruct HS1 as [(more & ->)|(c & more & -> & NC)].
    - cbn -[set_p_content_read set_p_total set_p_last set_p_payload set_p_k set_m_cache]. rewrite HH. eexists. split; [reflexivity|]. cbn. auto.
    - cbn [k1_loop]. unfold k1_char, k_char. cbn [k_state]. replace (c =? 13) with false by lia.
      cbn -[set_p_content_read set_p_total set_p_last set_p_payload set_p_k set_m_cache set_p_h set_p_phase]. rewrite HH.
      eexists. split; [reflexivity|]. cbn -[goto]. repeat (split; [reflexivity|]).
      destruct c as [|c|c]; try reflexivity. do 4 (destruct c as [c|c|]; try reflexivity). congruence. }
  pose proof (finish_handler cf (set_p_phase PEnd (fst (s_st r))) (snd (s_st r)) eq_refl HH) as F.
  destruct (parse_two cf m _ _ _ _ _ HMS R1 N1 R2 T2 _ F) as [t ->].
  rewrite E2, S2, M2. apply streamed_intro; auto. cbn. rewrite MB. constructor.
Qed.

Lemma streamed_chunks cf m hd v l size ext more : streaming cf -> head_ok cf hd -> m_headers m = [] -> m_cache m = [] -> m_buf m = [] -> m_missing m = false ->
  values_of (bs "Transfer-Encoding") (hdrs_of hd) = [v] -> says_chunked v -> Forall chunk_ok l -> last_ok size ext ->
  streamed hd (parse cf (p_init cf) m (wire_head hd ++ wire_chunks l size ext [] ++ more)) (chunk_data l) (hdrs_of hd) more.
Proof.
  intros. unfold wire_chunks, wire_hdrs. cbn [map concat app].
  replace ((concat (map wire_chunk l) ++ size ++ ext ++ CRLF ++ CRLF) ++ more) with (concat (map wire_chunk l) ++ size ++ ext ++ CRLF ++ (CRLF ++ more)) by (rewrite <- !app_assoc; auto).
  apply (streamed_chunks_gen cf m hd v l size ext (CRLF ++ more)); eauto.
Qed.
(** trailers are left over *)
Lemma streamed_trailers cf m hd v l size ext tr more : streaming cf -> head_ok cf hd -> m_headers m = [] -> m_cache m = [] -> m_buf m = [] -> m_missing m = false ->
  values_of (bs "Transfer-Encoding") (hdrs_of hd) = [v] -> says_chunked v -> Forall chunk_ok l -> last_ok size ext -> Forall hdr_ok tr -> tr <> [] ->
  streamed hd (parse cf (p_init cf) m (wire_head hd ++ wire_chunks l size ext tr ++ more)) (chunk_data l) (hdrs_of hd) (wire_hdrs tr ++ CRLF ++ more).
Proof.
  intros HS HD HM HC HB HMS HT HTC HF HL HTR HNE. unfold wire_chunks.
  replace ((concat (map wire_chunk l) ++ size ++ ext ++ CRLF ++ wire_hdrs tr ++ CRLF) ++ more)
    with (concat (map wire_chunk l) ++ size ++ ext ++ CRLF ++ (wire_hdrs tr ++ CRLF ++ more)) by (rewrite <- !app_assoc; auto).
  destruct (wire_hdrs_first tr (CRLF ++ more) HTR HNE) as (c & s & EC & NC).
  pose proof (streamed_chunks_gen cf m hd v l size ext (wire_hdrs tr ++ CRLF ++ more) HS HD HM HC HB HMS HT HTC HF HL) as X.
  rewrite EC in *. assert ((match c :: s with 13 :: _ :: more => more | _ => c :: s end) = c :: s) as EQ.
  { destruct c as [|c|c]; try reflexivity. do 4 (destruct c as [c|c|]; try reflexivity). congruence. }
  rewrite EQ in X. apply X. right. eauto.
Qed.

(* ------------------------------------------------------------------ no body *)

Lemma no_body_request cf m hd more : cf_headers_only cf = false -> head_ok cf hd -> cf_request cf = true -> m_headers m = [] -> m_missing m = false ->
  no_chunks hd -> values_of (bs "Content-Length") (hdrs_of hd) = [] -> no_multipart hd ->
  finished hd (parse cf (p_init cf) m (wire_head hd ++ more)) [] (hdrs_of hd) more.
Proof.
  intros HO HD RQ HM HMS HT HC HMP.
  pose proof (head_round cf m hd more HD) as HR. rewrite finish_headers_eq in HR. cbv zeta in HR.
  assert (is_content_length_implied (cf_request cf) (head_m0 cf m hd) = false) as IC by (unfold is_content_length_implied; rewrite RQ; auto).
  rewrite (not_chunked cf m hd HD HM HT), IC in HR.
  destruct (head_m0_facts cf m hd HD HM) as (P & MC & MB & ML & _). pose proof (head_m0_first cf m hd HD HM) as FL. pose proof (head_m0_missing cf m hd) as MM. rewrite HMS in MM.
  pose proof (d_find_none HEADER_CONTENT_LENGTH _ _ P HC) as DF. unfold d_has in HR. rewrite DF, RQ in HR. cbn [obind] in HR.
  destruct (finish_ok cf (set_p_phase PEnd (set_p_phase PEnd (head_st cf hd))) (head_m0 cf m hd) [] (hdrs_of hd)) as (m' & F & D); auto.
  { apply content_of_empty; auto. }
  destruct (parse_one cf m _ _ HMS HR eq_refl _ F) as [t ->].
  eapply done_finished; eauto. apply content_of_empty; auto.
Qed.

(** responses that cannot have a body *)
Lemma bodiless_response cf m hd more : head_ok cf hd -> m_headers m = [] -> m_missing m = false ->
  no_chunks hd -> bodiless m hd ->
  finished hd (parse cf (p_init cf) m (wire_head hd ++ more)) [] (hdrs_of hd) more.
Proof.
  intros HD HM HMS HT HB.
  pose proof (head_round cf m hd more HD) as HR. rewrite finish_headers_eq in HR. cbv zeta in HR.
  rewrite (not_chunked cf m hd HD HM HT), (implied_bodiless_true cf m hd HD HM HB) in HR.
  destruct (head_m0_facts cf m hd HD HM) as (P & MC & MB & ML & _). pose proof (head_m0_first cf m hd HD HM) as FL. pose proof (head_m0_missing cf m hd) as MM. rewrite HMS in MM.
  cbn [obind] in HR.
  assert (cf_request cf = false) as RQ by (destruct hd; [contradiction|destruct HD; auto]).
  assert (exists m', finish cf (set_p_phase PEnd (set_p_phase PEnd (head_st cf hd))) (head_m0 cf m hd) = Ok m' /\ done_msg (head_m0 cf m hd) m') as (m' & F & D).
  { unfold finish. cbn [p_phase set_p_phase]. unfold finish_forms. rewrite RQ. cbn [andb]. eexists. split; [reflexivity|].
    eexists (m_queries (head_m0 cf m hd)). unfold compute_status. destruct (head_m0 cf m hd); reflexivity. }
  destruct (parse_one cf m _ _ HMS HR eq_refl _ F) as [t ->].
  eapply done_finished; eauto. apply content_of_empty; auto.
Qed.

(* ------------------------------------------------------------------ responses that end with the connection *)

Lemma close_body cf m hd body : storing cf -> head_ok cf hd -> cf_request cf = false -> m_headers m = [] -> m_missing m = false ->
  ~ bodiless m hd -> no_chunks hd -> values_of (bs "Content-Length") (hdrs_of hd) = [] ->
  zlen body <= cf_max cf -> zlen body < two64 - 1 ->
  exists r st m', parse cf (p_init cf) m (wire_head hd ++ body) = Ok (Some r) /\ r_rc r = TIndet /\ r_err r = None /\ r_rest r = []
    /\ check_premature_eof cf (r_st r) (r_msg r) = Ok (false, st, m')
    /\ m_valid m' = true /\ content_of m' = Ok body /\ first_line hd m' /\ Permutation (hdrs_of hd) (m_headers m').
Proof.
  intros (HX & HO & HH) HD RQ HM HMS HB HT HC HL HL2.
  pose proof (head_round cf m hd body HD) as HR. rewrite finish_headers_eq in HR. cbv zeta in HR.
  rewrite (not_chunked cf m hd HD HM HT), (implied_bodiless cf m hd HD HM HB) in HR.
  destruct (head_m0_facts cf m hd HD HM) as (P & MC & MB & ML & _). pose proof (head_m0_first cf m hd HD HM) as FL. pose proof (head_m0_missing cf m hd) as MM. rewrite HMS in MM.
  pose proof (d_find_none HEADER_CONTENT_LENGTH _ _ P HC) as DF. unfold d_has in HR. rewrite DF, RQ, HO in HR. cbn [obind] in HR.
  set (m0 := head_m0 cf m hd) in *. clearbody m0.
  assert (exists n tot cr, parse cf (p_init cf) m (wire_head hd ++ body) =
     Ok (Some (mkpres TIndet None (set_p_last n (set_p_total tot (set_p_content_read cr (set_p_phase PContentNoLength (head_st cf hd))))) (set_m_cache body m0) []))) as (n & tot & cr & E).
  { unfold parse. rewrite HMS. rewrite p_loop_S, HR. cbn [obind s_rc s_rest s_st fst snd].
    destruct body as [|c body].
    - cbn. do 3 eexists. reflexivity.
    - rewrite p_loop_S. unfold p_round. assert (p_phase (set_p_phase PContentNoLength (head_st cf hd)) = PContentNoLength) as -> by reflexivity.
      unfold consume_no_length. rewrite HH. cbn [obind s_rc s_rest s_st fst snd s_err].
      assert (cache_fill cf (m_cache (set_m_cache [] m0)) (c :: body) = c :: body) as ->.
      { unfold cache_fill. cbn [m_cache set_m_cache app]. rewrite zlen_nil. apply firstn_all2. unfold zlen in *. lia. }
      do 3 eexists. reflexivity. }
  rewrite E. do 3 eexists. split; [reflexivity|]. split; [reflexivity|]. split; [reflexivity|]. split; [reflexivity|].
  unfold check_premature_eof. cbn [r_st r_msg p_phase set_p_last set_p_total set_p_content_read set_p_phase].
  rewrite concatenate_ok by (cbn; auto). cbn [obind].
  unfold finish. cbn [p_phase set_p_phase]. unfold finish_forms. rewrite RQ. cbn [andb obind]. split; [reflexivity|].
  split; [reflexivity|]. split; [apply (content_of_cache (set_m_cache body m0) body)|]. split; [exact FL|exact P].
Qed.

(** the same with a payload handler *)
Lemma close_stream cf m hd body : streaming cf -> head_ok cf hd -> cf_request cf = false -> m_headers m = [] -> m_missing m = false ->
  ~ bodiless m hd -> no_chunks hd -> values_of (bs "Content-Length") (hdrs_of hd) = [] ->
  exists r st m', parse cf (p_init cf) m (wire_head hd ++ body) = Ok (Some r) /\ r_rc r = TIndet /\ r_err r = None /\ r_rest r = []
    /\ p_payload (r_st r) = body
    /\ check_premature_eof cf (r_st r) (r_msg r) = Ok (false, st, m')
    /\ m_valid m' = true /\ m_buf m' = [] /\ m_cache m' = [] /\ first_line hd m' /\ Permutation (hdrs_of hd) (m_headers m').
Proof.
  intros (HX & HO & HH) HD RQ HM HMS HB HT HC.
  pose proof (head_round cf m hd body HD) as HR. rewrite finish_headers_eq in HR. cbv zeta in HR.
  rewrite (not_chunked cf m hd HD HM HT), (implied_bodiless cf m hd HD HM HB) in HR.
  destruct (head_m0_facts cf m hd HD HM) as (P & MC & MB & ML & _). pose proof (head_m0_first cf m hd HD HM) as FL. pose proof (head_m0_missing cf m hd) as MM. rewrite HMS in MM.
  pose proof (d_find_none HEADER_CONTENT_LENGTH _ _ P HC) as DF. unfold d_has in HR. rewrite DF, RQ, HO in HR. cbn [obind] in HR.
  set (m0 := head_m0 cf m hd) in *. clearbody m0.
  assert (exists n tot cr, parse cf (p_init cf) m (wire_head hd ++ body) =
     Ok (Some (mkpres TIndet None (set_p_last n (set_p_payload body (set_p_total tot (set_p_content_read cr (set_p_phase PContentNoLength (head_st cf hd)))))) (set_m_cache [] m0) []))) as (n & tot & cr & E).
  { unfold parse. rewrite HMS. rewrite p_loop_S, HR. cbn [obind s_rc s_rest s_st fst snd].
    destruct body as [|c body].
    - cbn. do 3 eexists. reflexivity.
    - rewrite p_loop_S. unfold p_round. assert (p_phase (set_p_phase PContentNoLength (head_st cf hd)) = PContentNoLength) as -> by reflexivity.
      unfold consume_no_length. rewrite HH. cbn [obind s_rc s_rest s_st fst snd s_err].
      do 3 eexists. reflexivity. }
  rewrite E. do 3 eexists. split; [reflexivity|]. split; [reflexivity|]. split; [reflexivity|]. split; [reflexivity|]. split; [reflexivity|].
  unfold check_premature_eof. cbn [r_st r_msg p_phase set_p_last set_p_payload set_p_total set_p_content_read set_p_phase].
  rewrite concatenate_ok by (cbn; reflexivity). cbn [obind].
  unfold finish. cbn [p_phase set_p_phase]. unfold finish_forms. rewrite RQ. cbn [andb obind]. split; [reflexivity|].
  split; [reflexivity|]. split; [reflexivity|]. split; [reflexivity|]. split; [exact FL|exact P].
Qed.
