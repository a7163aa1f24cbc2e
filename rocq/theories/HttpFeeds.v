(** The HTTP body theorems for a message that arrives in arbitrary pieces, and example messages. *)
From Coq Require Import String ZArith List Lia Bool Permutation.
From Verif Require Import Base Digits AlgModel FormModel DictModel MultipartModel HttpModel HttpBase HttpSplit HttpSpec HttpProofs HttpHead HttpBody HttpChunk HttpMore HttpBounds HttpLimits HttpTooLong HttpReset HttpStatus.
Import ListNotations.

Section Feeds.
Variables (cf : pcfg) (m : msg) (hd : head) (pieces : list (list Z)).
Hypotheses (HM : m_headers m = []) (HMS : m_missing m = false) (HD : head_ok cf hd).

Lemma feed_request more : 0 <= cf_max cf -> cf_headers_only cf = false -> cf_request cf = true ->
  no_chunks hd -> values_of (bs "Content-Length") (hdrs_of hd) = [] -> no_multipart hd ->
  cut pieces (wire_head hd ++ more) -> finished hd (feed cf (p_init cf) m pieces) [] (hdrs_of hd) more.
Proof.
  intros H0 H1 H2 H3 H4 H5 [C1 C2]. eapply finished_feed; eauto; [eapply wire_head_nonempty; eauto|]. apply no_body_request; auto.
Qed.
Lemma feed_bodiless more : 0 <= cf_max cf -> no_chunks hd -> bodiless m hd ->
  cut pieces (wire_head hd ++ more) -> finished hd (feed cf (p_init cf) m pieces) [] (hdrs_of hd) more.
Proof.
  intros H0 H1 H2 [C1 C2]. eapply finished_feed; eauto; [eapply wire_head_nonempty; eauto|]. apply bodiless_response; auto.
Qed.
Lemma feed_length v body more : storing cf -> ~ bodiless m hd -> no_chunks hd ->
  values_of (bs "Content-Length") (hdrs_of hd) = [v] -> v <> [] -> Forall is_dec v -> dec_value v = zlen body ->
  zlen body <= cf_max cf -> zlen body < two64 - 1 -> no_multipart hd ->
  cut pieces (wire_head hd ++ body ++ more) -> finished hd (feed cf (p_init cf) m pieces) body (hdrs_of hd) more.
Proof.
  intros ST H1 H2 H3 H4 H5 H6 H7 H8 H9 [C1 C2]. eapply finished_feed; eauto; [apply ST|eapply wire_head_nonempty; eauto|]. eapply content_length_body; eauto.
Qed.
Lemma feed_chunked v l size ext tr more : storing cf -> m_cache m = [] ->
  values_of (bs "Transfer-Encoding") (hdrs_of hd) = [v] -> says_chunked v ->
  Forall chunk_ok l -> last_ok size ext -> zlen (chunk_data l) <= cf_max cf -> zlen (chunk_data l) < two64 - 1 -> Forall hdr_ok tr ->
  (forall v, In v (values_of (bs "Content-Type") (tr ++ hdrs_of hd)) -> ~ exists t, v = bs "multipart/form-data" ++ t) ->
  cut pieces (wire_head hd ++ wire_chunks l size ext tr ++ more) ->
  finished hd (feed cf (p_init cf) m pieces) (chunk_data l) (tr ++ hdrs_of hd) more.
Proof.
  intros ST H1 H2 H3 H4 H5 H6 H7 H8 H9 [C1 C2]. eapply finished_feed; eauto; [apply ST|eapply wire_head_nonempty; eauto|]. eapply chunked_body; eauto.
Qed.
Lemma feed_oversized v l more : storing cf -> m_cache m = [] ->
  values_of (bs "Transfer-Encoding") (hdrs_of hd) = [v] -> says_chunked v ->
  Forall chunk_ok l -> cf_max cf < zlen (chunk_data l) ->
  cut pieces (wire_head hd ++ concat (map wire_chunk l) ++ more) ->
  exists r, feed cf (p_init cf) m pieces = Ok (Some r) /\ r_rc r = TIndet /\ r_err r = None /\ r_rest r = [].
Proof.
  intros ST H1 H2 H3 H4 H5 [C1 C2].
  destruct (oversized_chunks cf m hd v l more ST HD HM H1 HMS H2 H3 H4 H5) as (r & E & A & B & C).
  assert (pieces <> []) as NP by (intros ->; cbn in C2; symmetry in C2; revert C2; eapply wire_head_nonempty; eauto).
  pose proof (segmentation any_msg false cf (p_init cf) m pieces (proj1 (proj1 ST)) (reach_new _ _ _ m I) NP C1) as SG.
  rewrite C2, E in SG. unfold same_outcome in SG.
  destruct (feed cf (p_init cf) m pieces) as [[r2|]|]; try contradiction.
  destruct SG as (S1 & S2 & S3 & S4 & S5). exists r2. rewrite S1, S2, S4. auto.
Qed.
Lemma feed_stream_length v body more : streaming cf -> m_cache m = [] -> m_buf m = [] ->
  ~ bodiless m hd -> no_chunks hd ->
  values_of (bs "Content-Length") (hdrs_of hd) = [v] -> v <> [] -> Forall is_dec v -> dec_value v = zlen body ->
  zlen body < two64 - 1 ->
  cut pieces (wire_head hd ++ body ++ more) ->
  streamed hd (feed cf (p_init cf) m pieces) body (hdrs_of hd) more.
Proof.
  intros ST H1 H2 H3 H4 H5 H6 H7 H8 H9 [C1 C2]. eapply streamed_feed; eauto; [apply ST|eapply wire_head_nonempty; eauto|]. eapply streamed_length; eauto.
Qed.
Lemma feed_stream_chunks v l size ext more : streaming cf -> m_cache m = [] -> m_buf m = [] ->
  values_of (bs "Transfer-Encoding") (hdrs_of hd) = [v] -> says_chunked v -> Forall chunk_ok l -> last_ok size ext ->
  cut pieces (wire_head hd ++ wire_chunks l size ext [] ++ more) ->
  streamed hd (feed cf (p_init cf) m pieces) (chunk_data l) (hdrs_of hd) more.
Proof.
  intros ST H1 H2 H3 H4 H5 H6 [C1 C2]. eapply streamed_feed; eauto; [apply ST|eapply wire_head_nonempty; eauto|]. eapply streamed_chunks; eauto.
Qed.
Lemma feed_stream_trailers v l size ext tr more : streaming cf -> m_cache m = [] -> m_buf m = [] ->
  values_of (bs "Transfer-Encoding") (hdrs_of hd) = [v] -> says_chunked v -> Forall chunk_ok l -> last_ok size ext -> Forall hdr_ok tr -> tr <> [] ->
  cut pieces (wire_head hd ++ wire_chunks l size ext tr ++ more) ->
  streamed hd (feed cf (p_init cf) m pieces) (chunk_data l) (hdrs_of hd) (wire_hdrs tr ++ CRLF ++ more).
Proof.
  intros ST H1 H2 H3 H4 H5 H6 H7 H8 [C1 C2]. eapply streamed_feed; eauto; [apply ST|eapply wire_head_nonempty; eauto|]. eapply streamed_trailers; eauto.
Qed.
Lemma feed_close body : storing cf -> cf_request cf = false ->
  ~ bodiless m hd -> no_chunks hd -> values_of (bs "Content-Length") (hdrs_of hd) = [] ->
  zlen body <= cf_max cf -> zlen body < two64 - 1 ->
  cut pieces (wire_head hd ++ body) ->
  exists r st m', feed cf (p_init cf) m pieces = Ok (Some r) /\ r_rc r = TIndet /\ r_err r = None /\ r_rest r = []
    /\ check_premature_eof cf (r_st r) (r_msg r) = Ok (false, st, m')
    /\ m_valid m' = true /\ content_of m' = Ok body /\ first_line hd m' /\ Permutation (hdrs_of hd) (m_headers m').
Proof.
  intros ST H1 H2 H3 H4 H5 H6 [C1 C2].
  destruct (close_body cf m hd body ST HD H1 HM HMS H2 H3 H4 H5 H6) as (r & st & m' & E & A & B & C & F & G).
  assert (pieces <> []) as NP by (intros ->; cbn in C2; symmetry in C2; revert C2; eapply wire_head_nonempty; eauto).
  pose proof (segmentation any_msg false cf (p_init cf) m pieces (proj1 (proj1 ST)) (reach_new _ _ _ m I) NP C1) as SG.
  rewrite C2, E in SG. unfold same_outcome in SG.
  destruct (feed cf (p_init cf) m pieces) as [[r2|]|]; try contradiction.
  destruct SG as (S1 & S2 & S3 & S4 & S5). destruct S5 as (T1 & _). exists r2.
  unfold check_premature_eof in F |- *. rewrite T1, S3. destruct (p_phase (r_st r)); try discriminate.
  destruct (concatenate_chunks (r_msg r)) as [m1|]; cbn [obind] in F |- *; [|discriminate].
  replace (finish cf (set_p_phase PEnd (r_st r2)) m1) with (finish cf (set_p_phase PEnd (r_st r)) m1) by reflexivity.
  destruct (finish cf _ m1) as [m2|]; cbn [obind] in F |- *; [|discriminate]. injection F as F1 F2. subst m2.
  do 2 eexists. rewrite S1, S2, S4. split; [reflexivity|]. auto 8.
Qed.
Lemma feed_stream_close body : streaming cf -> cf_request cf = false ->
  ~ bodiless m hd -> no_chunks hd -> values_of (bs "Content-Length") (hdrs_of hd) = [] ->
  cut pieces (wire_head hd ++ body) ->
  exists r st m', feed cf (p_init cf) m pieces = Ok (Some r) /\ r_rc r = TIndet /\ r_err r = None /\ r_rest r = []
    /\ p_payload (r_st r) = body
    /\ check_premature_eof cf (r_st r) (r_msg r) = Ok (false, st, m')
    /\ m_valid m' = true /\ m_buf m' = [] /\ m_cache m' = [] /\ first_line hd m' /\ Permutation (hdrs_of hd) (m_headers m').
Proof.
  intros ST H1 H2 H3 H4 [C1 C2].
  destruct (close_stream cf m hd body ST HD H1 HM HMS H2 H3 H4) as (r & st & m' & E & A & B & C & PL & F & G).
  assert (pieces <> []) as NP by (intros ->; cbn in C2; symmetry in C2; revert C2; eapply wire_head_nonempty; eauto).
  pose proof (segmentation any_msg false cf (p_init cf) m pieces (proj1 (proj1 ST)) (reach_new _ _ _ m I) NP C1) as SG.
  rewrite C2, E in SG. unfold same_outcome in SG.
  destruct (feed cf (p_init cf) m pieces) as [[r2|]|]; try contradiction.
  destruct SG as (S1 & S2 & S3 & S4 & S5). destruct S5 as (T1 & _ & _ & _ & T5 & _). exists r2.
  unfold check_premature_eof in F |- *. rewrite T1, S3, T5. destruct (p_phase (r_st r)); try discriminate.
  destruct (concatenate_chunks (r_msg r)) as [m1|]; cbn [obind] in F |- *; [|discriminate].
  replace (finish cf (set_p_phase PEnd (r_st r2)) m1) with (finish cf (set_p_phase PEnd (r_st r)) m1) by reflexivity.
  destruct (finish cf _ m1) as [m2|]; cbn [obind] in F |- *; [|discriminate]. injection F as F1 F2. subst m2.
  do 2 eexists. rewrite S1, S2, S4. split; [reflexivity|]. auto 10.
Qed.
End Feeds.

Lemma reach_content cf st m l : 0 <= cf_max cf < two64 - 1 -> reach new_msg false cf st m ->
  zlen (m_cache m) <= cf_max cf /\ m_clen m <= cf_max cf /\ (content_of m = Ok l -> zlen l <= cf_max cf).
Proof.
  intros HC HR. destruct (reach_binv cf st m HC HR) as [(A & B & C) _]. split; [auto|split; [lia|]].
  unfold content_of. destruct (_ <=? _); [|discriminate].
  destruct (all_some _) as [l0|] eqn:E; [|discriminate]. intros X. injection X as <-.
  assert (length l0 = length (firstn (Z.to_nat (m_clen m)) (m_buf m))) as L.
  { clear -E. revert l0 E. generalize (firstn (Z.to_nat (m_clen m)) (m_buf m)). induction l as [|[x|] l IH]; intros l0 E; cbn in E; try discriminate.
    - injection E as <-. reflexivity.
    - destruct (all_some l); [|discriminate]. injection E as <-. cbn. f_equal. apply IH; reflexivity. }
  unfold zlen. rewrite L, firstn_length. lia.
Qed.

Lemma unfinished_consumed cf st m s r : 0 <= cf_max cf -> reach any_msg true cf st m ->
  parse cf st m s = Ok (Some r) -> r_rc r = TIndet -> r_rest r = [] /\ p_last (r_st r) = zlen s.
Proof.
  intros HC HR HP HI. pose proof (parse_result any_msg true cf st m s HC HR) as PR. rewrite HP in PR. destruct PR as [_ PR]. specialize (PR HI).
  split; auto. destruct (parse_consumed any_msg true cf st m s r HC HR HP) as (p & E & L). rewrite PR, app_nil_r in E. subst p. apply L. rewrite HI. discriminate.
Qed.
