(** Where the variables and cookies of a message come from. *)
From Coq Require Import String ZArith List Lia Bool Permutation.
From Coq Require Import ZifyBool ZifyNat.
From Verif Require Import Base Digits AlgModel FormModel DictModel MultipartModel HttpModel HttpBase HttpSplit HttpSpec HttpProofs HttpHead HttpBody HttpChunk HttpMore.
Import ListNotations.

Local Arguments zlen : simpl never.
Local Arguments Z.add : simpl never.
Local Arguments Z.sub : simpl never.
Local Arguments used : simpl never.
Local Arguments finish : simpl never.
Local Arguments cache_fill : simpl never.

Section Vars.
Variables (cf : pcfg) (m : msg) (hd : head).

(** the message before the form in its content is looked at *)
Definition ready (hs : list hdr) (body : list Z) (m1 : msg) : Prop :=
  content_of m1 = Ok body /\ Permutation hs (m_headers m1) /\ m_queries m1 = m_queries (head_m0 cf m hd) /\ m_cookies m1 = m_cookies (head_m0 cf m hd).
Definition forms_end (hs : list hdr) (body : list Z) : Prop := forall m1, ready hs body m1 -> exists m', finish_forms cf m1 = Ok m'.
Definition got (hs : list hdr) (body : list Z) (o : outcome (option presult)) (rest : list Z) : Prop :=
  exists r m1, o = Ok (Some r) /\ r_rc r = TTrue /\ ready hs body m1 /\ finish_forms cf m1 = Ok (r_msg r) /\ r_rest r = rest.

Lemma finish_got st m0 hs body : p_phase st = PEnd -> ready hs body m0 -> forms_end hs body ->
  exists m' m1, finish cf st m0 = Ok m' /\ ready hs body m1 /\ finish_forms cf m1 = Ok m'.
Proof.
  intros HP R FE. unfold finish. rewrite HP. set (m1 := compute_status (set_m_valid true m0) (m_valid (set_m_valid true m0))).
  assert (ready hs body m1) as R1. { unfold m1. destruct R as (A & B & C & D). split; [exact A|]. split; [exact B|]. split; [exact C|exact D]. }
  destruct (FE m1 R1) as [m' F]. exists m', m1. auto.
Qed.

Hypotheses (HD : head_ok cf hd) (HM : m_headers m = []) (HMS : m_missing m = false).

Lemma ready_head : ready (hdrs_of hd) [] (head_m0 cf m hd).
Proof. destruct (head_m0_facts cf m hd HD HM) as (P & _ & _ & ML & _). split; [apply content_of_empty; auto|]. auto. Qed.

Lemma got_no_body more : cf_request cf = true -> no_chunks hd -> values_of (bs "Content-Length") (hdrs_of hd) = [] -> forms_end (hdrs_of hd) [] ->
  got (hdrs_of hd) [] (parse cf (p_init cf) m (wire_head hd ++ more)) more.
Proof.
  intros RQ HT HC FE.
  pose proof (head_round cf m hd more HD) as HR. rewrite finish_headers_eq in HR. cbv zeta in HR.
  assert (is_content_length_implied (cf_request cf) (head_m0 cf m hd) = false) as IC by (unfold is_content_length_implied; rewrite RQ; auto).
  rewrite (not_chunked cf m hd HD HM HT), IC in HR.
  destruct (head_m0_facts cf m hd HD HM) as (P & MC & MB & ML & _).
  pose proof (d_find_none HEADER_CONTENT_LENGTH _ _ P HC) as DF. unfold d_has in HR. rewrite DF, RQ in HR. cbn [obind] in HR.
  destruct (finish_got (set_p_phase PEnd (set_p_phase PEnd (head_st cf hd))) (head_m0 cf m hd) (hdrs_of hd) []) as (m' & m1 & F & R1 & F1); auto.
  { apply ready_head. }
  destruct (parse_one cf m _ _ HMS HR eq_refl _ F) as [t ->]. eexists. exists m1. split; [reflexivity|]. auto.
Qed.

Lemma got_length v body more : storing cf -> ~ bodiless m hd -> no_chunks hd ->
  values_of (bs "Content-Length") (hdrs_of hd) = [v] -> v <> [] -> Forall is_dec v -> dec_value v = zlen body ->
  zlen body <= cf_max cf -> zlen body < two64 - 1 -> forms_end (hdrs_of hd) body ->
  got (hdrs_of hd) body (parse cf (p_init cf) m (wire_head hd ++ body ++ more)) more.
Proof.
  intros (HX & HO & HH) HB HT HC V1 V2 V3 HL HL2 FE. pose proof (zlen_nonneg body).
  pose proof (not_chunked cf m hd HD HM HT) as NC.
  pose proof (head_round cf m hd (body ++ more) HD) as HR. rewrite finish_headers_eq in HR. cbv zeta in HR.
  rewrite NC, (implied_bodiless cf m hd HD HM HB) in HR.
  destruct (head_m0_facts cf m hd HD HM) as (P & _ & _ & ML & _).
  pose proof (d_find_one HEADER_CONTENT_LENGTH _ _ v P HC) as DF.
  unfold d_has, update_content_length in HR. rewrite DF in HR. rewrite cast_dec in HR by (auto; lia).
  rewrite V3 in HR. clear NC DF.
  assert (m_clen (set_m_clen (zlen body) (head_m0 cf m hd)) = zlen body) as EC by reflexivity.
  rewrite EC in HR.
  destruct (zlen body =? 0) eqn:E0.
  - assert (body = []) as -> by (destruct body; auto; rewrite zlen_cons in E0; pose proof (zlen_nonneg body); lia).
    cbn [obind] in HR.
    destruct (finish_got (set_p_phase PEnd (set_p_phase PEnd (head_st cf hd))) (set_m_clen (zlen (@nil Z)) (head_m0 cf m hd)) (hdrs_of hd) []) as (m' & m1 & F & R1 & F1); auto.
    { split; [apply content_of_empty; reflexivity|]. split; [exact P|]. split; reflexivity. }
    destruct (parse_one cf m (wire_head hd ++ [] ++ more) _ HMS HR eq_refl _ F) as [t ->]. eexists. exists m1. split; [reflexivity|]. auto.
  - replace (cf_max cf <? zlen body) with false in HR by lia. rewrite HO in HR.
    unfold create_content_buffer in HR. rewrite EC in HR. rewrite wrap64_id in HR by lia.
    replace (zlen body + 1 <=? zlen body) with false in HR by lia. cbn [obind] in HR.
    set (st1 := set_p_remaining (zlen body) (set_p_phase PContent (head_st cf hd))) in *.
    set (m2 := set_m_buf (repeat None (Z.to_nat (zlen body))) (set_m_clen (zlen body) (head_m0 cf m hd))) in *.
    assert (pinv cf st1 m2) as PI.
    { split; [|split]; [|discriminate|lia]. intros _. unfold st1, head_st. cbn. repeat split; try lia.
      intros _. unfold m2. cbn. unfold zlen at 1. rewrite repeat_length. lia. }
    assert (p_phase st1 = PContent) as PP by reflexivity.
    pose proof (consume_content_eq cf st1 m2 (body ++ more) PI PP) as R2. cbv zeta in R2.
    assert (content_bytes st1 (body ++ more) = zlen body) as CB.
    { unfold content_bytes, st1. cbn. rewrite zlen_app. pose proof (zlen_nonneg more). lia. }
    rewrite CB in R2.
    assert (p_remaining st1 <=? zlen (body ++ more) = true) as CR.
    { unfold st1. cbn. rewrite zlen_app. pose proof (zlen_nonneg more). lia. }
    rewrite CR in R2.
    assert (Z.to_nat (zlen body) = List.length body) as TN by (unfold zlen; lia).
    rewrite TN, firstn_app, firstn_all, Nat.sub_diag, skipn_app, skipn_all, Nat.sub_diag in R2. cbn [firstn skipn app] in R2. rewrite app_nil_r in R2.
    assert (p_round cf st1 m2 (body ++ more) = consume_content cf st1 m2 (body ++ more)) as RE by (unfold p_round; rewrite PP; reflexivity).
    assert (content_of (content_msg cf st1 m2 body) = Ok body) as CO.
    { unfold content_msg. rewrite HH. unfold st1, m2. cbn. rewrite Z.sub_0_r.
      rewrite (firstn_all2 body) by (unfold zlen in *; lia).
      unfold content_of, wr. cbn. rewrite TN.
      rewrite skipn_all2 by (rewrite repeat_length; unfold zlen in *; lia). rewrite app_nil_r.
      replace (zlen body <=? zlen (map Some body)) with true by (unfold zlen; rewrite map_length; lia).
      rewrite firstn_all2 by (rewrite map_length; lia). rewrite all_some_map. reflexivity. }
    assert (ready (hdrs_of hd) body (content_msg cf st1 m2 body)) as RD.
    { split; [exact CO|]. unfold content_msg. rewrite HH. split; [exact P|]. split; reflexivity. }
    destruct (finish_got (set_p_phase PEnd (content_st cf st1 body)) (content_msg cf st1 m2 body) (hdrs_of hd) body) as (m' & m1 & F & R1 & F1); auto.
    assert (body ++ more <> []) as NE by (destruct body; [discriminate|discriminate]).
    destruct (parse_two cf m _ _ _ _ _ HMS HR NE (eq_trans RE R2) eq_refl _ F) as [t ->].
    cbn [s_err s_st s_rest fst snd]. eexists. exists m1. split; [reflexivity|]. auto.
Qed.

Lemma got_chunks v l size ext tr more : storing cf -> m_cache m = [] ->
  values_of (bs "Transfer-Encoding") (hdrs_of hd) = [v] -> says_chunked v ->
  Forall chunk_ok l -> last_ok size ext -> zlen (chunk_data l) <= cf_max cf -> zlen (chunk_data l) < two64 - 1 -> Forall hdr_ok tr ->
  forms_end (tr ++ hdrs_of hd) (chunk_data l) ->
  got (tr ++ hdrs_of hd) (chunk_data l) (parse cf (p_init cf) m (wire_head hd ++ wire_chunks l size ext tr ++ more)) more.
Proof.
  intros (HX & HO & HH) HC HT HTC HF HL HS HS2 HTR FE.
  assert (wire_chunks l size ext tr ++ more <> []) as N1.
  { unfold wire_chunks. destruct HL as (L1 & _). destruct size; [congruence|]. intros E. rewrite <- !app_assoc in E.
    apply app_eq_nil in E as [_ E]. discriminate. }
  pose proof (chunk_round1 cf m hd v (wire_chunks l size ext tr ++ more) HO HD HM HT HTC) as R1.
  destruct (head_m0_facts cf m hd HD HM) as (P & C0 & _ & _ & _ & VM & _).
  unfold got, forms_end, ready in *. set (m0 := head_m0 cf m hd) in *.
  pose proof (finish_got : forall st m0 hs body, p_phase st = PEnd -> ready hs body m0 -> forms_end hs body -> _) as FG. unfold ready, forms_end in FG. fold m0 in FG. unfold ready in FG. fold m0 in FG. clearbody m0. rewrite HC in C0.
  assert (p_k (chunk_st cf hd) = k_init) as EK by reflexivity.
  set (mc := set_m_buf (map Some (chunk_data l)) (set_m_clen (zlen (chunk_data l)) (set_m_cache (chunk_data l) m0))).
  assert (concatenate_chunks (set_m_cache (chunk_data l) m0) = Ok mc) as CC by (rewrite concatenate_ok; auto).
  destruct tr as [|p tr].
  - destruct (chunks_done cf (chunk_st cf hd) m0 l size ext more HH EK C0 HF HL HS) as (k & n & tot & cr & E).
    assert (p_round cf (chunk_st cf hd) m0 (wire_chunks l size ext [] ++ more) =
            Ok (mksub TTrue None (set_p_content_read cr (set_p_total tot (set_p_last n (set_p_payload (p_payload (chunk_st cf hd)) (set_p_k k (chunk_st cf hd))))), mc) more)) as R2.
    { unfold p_round. assert (p_phase (chunk_st cf hd) = PChunks) as -> by reflexivity.
      unfold wire_chunks, wire_hdrs. cbn [map concat]. rewrite <- !app_assoc. cbn [app] in *. unfold wire_chunks, wire_hdrs in E. 
      cbn [app] in E. rewrite E. cbn [s_rc s_st s_err s_rest fst snd]. rewrite HH, CC. reflexivity. }
    destruct (FG (set_p_phase PEnd (set_p_content_read cr (set_p_total tot (set_p_last n (set_p_payload (p_payload (chunk_st cf hd)) (set_p_k k (chunk_st cf hd))))))) mc (hdrs_of hd) (chunk_data l)) as (m' & m1 & F & RD & F1); auto.
    { split; [apply content_of_cache|]. split; [exact P|]. split; reflexivity. }
    destruct (parse_two cf m _ _ _ _ _ HMS R1 N1 R2 eq_refl _ F) as [t ->].
    cbn [s_err s_st s_rest fst snd app]. eexists. exists m1. split; [reflexivity|]. auto.
  - destruct (wire_hdrs_first (p :: tr) (CRLF ++ more) HTR) as (c & s & EC & NC); [discriminate|].
    destruct (chunks_trailers cf (chunk_st cf hd) m0 l size ext c s HH EK C0 HF HL HS NC) as (k & n & tot & cr & E).
    match type of E with _ = mksub _ _ (?x, _) _ => set (st2 := x) in * end.
    assert (p_round cf (chunk_st cf hd) m0 (wire_chunks l size ext (p :: tr) ++ more) = Ok (mksub TIndet None (st2, mc) (c :: s))) as R2.
    { unfold p_round. assert (p_phase (chunk_st cf hd) = PChunks) as -> by reflexivity.
      unfold wire_chunks. rewrite <- !app_assoc. rewrite EC, E. cbn [s_rc s_st s_err s_rest fst snd]. rewrite HH, CC. reflexivity. }
    assert (exists h3 mf, Permutation ((p :: tr) ++ m_headers mc) (m_headers mf) /\ content_of mf = Ok (chunk_data l) /\ m_queries mf = m_queries m0 /\ m_cookies mf = m_cookies m0 /\
              h_loop cf (p_h st2) mc (c :: s) = mksub TTrue None (h3, mf) more) as (h3 & mf & PF & CF & QF & KF & HL3).
    { assert (exists me re q co rs na va raw, p_h st2 = MkH HHeaderStart me re q co rs na va raw) as (me & re & q & co & rs & na & va & raw & EH).
      { exists (h_method (head_h cf hd)), (h_resource (head_h cf hd)), (h_query (head_h cf hd)), (h_code (head_h cf hd)), (h_reason (head_h cf hd)),
          (h_name (head_h cf hd)), (h_value (head_h cf hd)), (h_raw (head_h cf hd)).
        unfold st2, chunk_st, head_st. cbn. unfold goto. destruct (head_h cf hd); reflexivity. }
      rewrite EH, <- EC. rewrite (run_hdrs cf me re q co rs (p :: tr) mc na va raw HTR).
      - rewrite h_loop_done. do 2 eexists. split; [apply ins_all_perm|]. split; [apply content_of_cache|]. split; [reflexivity|]. split; [reflexivity|reflexivity].
      - intros RQ. unfold mc. cbn. rewrite VM. destruct hd as [r hl|r hl]; destruct HD as (RR & A & _); [|congruence].
        cbn [head_ver]. destruct A as (_ & _ & _ & _ & _ & _ & _ & A). lia. }
    assert (exists r3, p_round cf st2 mc (c :: s) = Ok r3 /\ s_rc r3 = TTrue /\ snd (s_st r3) = mf /\ s_rest r3 = more /\ s_err r3 = None) as (r3 & R3 & T3 & S3 & Q3 & E3).
    { unfold p_round. assert (p_phase st2 = PFooters) as -> by reflexivity. unfold parse_headers. rewrite HL3. eexists. split; [reflexivity|]. auto. }
    assert (Permutation ((p :: tr) ++ hdrs_of hd) (m_headers mf)) as PM.
    { eapply Permutation_trans; [|exact PF]. apply Permutation_app_head. exact P. }
    destruct (FG (set_p_phase PEnd (fst (s_st r3))) mf ((p :: tr) ++ hdrs_of hd) (chunk_data l)) as (m' & m1 & F & RD & F1); auto.
    assert (c :: s <> []) as N2 by discriminate. rewrite <- S3 in F.
    destruct (parse_three cf m _ _ _ _ _ _ _ _ HMS R1 N1 R2 N2 R3 T3 _ F) as [t ->].
    rewrite Q3, E3 in *. eexists. exists m1. split; [reflexivity|]. auto.
Qed.

(** in whatever pieces *)
Lemma got_feed pieces s hs body rest : 0 <= cf_max cf -> cut pieces s -> s <> [] -> got hs body (parse cf (p_init cf) m s) rest -> got hs body (feed cf (p_init cf) m pieces) rest.
Proof.
  intros HX [HF HC] HN (r & m1 & E & A1 & A2 & A3 & A4).
  assert (pieces <> []) as NP by (intros ->; cbn in HC; congruence).
  pose proof (segmentation any_msg false cf (p_init cf) m pieces HX (reach_new _ _ _ m I) NP HF) as SG.
  rewrite HC, E in SG. unfold same_outcome in SG.
  destruct (feed cf (p_init cf) m pieces) as [[r2|]|]; try contradiction.
  destruct SG as (S1 & S2 & S3 & S4 & _). exists r2, m1. rewrite S1, S3, S4. auto.
Qed.
End Vars.
