(** C169: finishing a message whose bytes ended early. *)
From Coq Require Import String ZArith List Lia Bool Permutation.
From Coq Require Import ZifyBool ZifyNat.
From Verif Require Import Base AlgModel DictModel MultipartModel HttpModel HttpBase HttpSplit HttpSpec HttpProofs HttpHead HttpBody HttpChunk HttpMore HttpExamples.
Import ListNotations.
Local Arguments finish : simpl never.
Local Arguments used : simpl never.

(** The caller hands over the pieces, the parser asks for more, and the caller finishes the message. *)
Definition given_up (cf : pcfg) (m : msg) (pieces : list (list Z)) (m' : msg) : Prop :=
  exists r, feed cf (p_init cf) m pieces = Ok (Some r) /\ r_rc r = TIndet /\ r_err r = None /\ r_rest r = [] /\ finish cf (r_st r) (r_msg r) = Ok m'.
Definition truncated (m : msg) : Prop := m_valid m = false /\ m_status m = STATUS_TRUNCATED.
Definition not_multipart (hs : list hdr) : Prop := forall v, In v (values_of (bs "Content-Type") hs) -> ~ exists t, v = bs "multipart/form-data" ++ t.

(* ------------------------------------------------------------------ finishing *)

Lemma finish_same cf a b m : same_state TIndet a b -> finish cf a m = finish cf b m.
Proof.
  intros (A & B & C & D & E & F). destruct (F ltac:(discriminate)) as (_ & G). unfold finish. rewrite A, B, C, G. reflexivity.
Qed.
Lemma given_up_feed cf m s pieces r m' : 0 <= cf_max cf -> s <> [] -> cut pieces s -> parse cf (p_init cf) m s = Ok (Some r) -> r_rc r = TIndet -> r_err r = None -> r_rest r = [] ->
  finish cf (r_st r) (r_msg r) = Ok m' -> given_up cf m pieces m'.
Proof.
  intros HM NS [C1 C2] P RC RE RR F. assert (pieces <> []) as NP by (intros ->; cbn in C2; congruence).
  pose proof (segmentation any_msg false cf (p_init cf) m pieces HM (reach_new _ _ _ m I) NP C1) as SG.
  rewrite C2, P in SG. unfold same_outcome in SG. destruct (feed cf (p_init cf) m pieces) as [[r2|]|] eqn:FD; try contradiction.
  destruct SG as (S1 & S2 & S3 & S4 & S5). exists r2. rewrite S1 in S5 |- *. rewrite RC in S5 |- *. rewrite S2, S4, RE, RR, S3, (finish_same cf _ _ _ S5). auto 6.
Qed.
Lemma forms_ok cf m body l : content_of m = Ok body -> Permutation l (m_headers m) -> body = [] \/ not_multipart l ->
  exists q, finish_forms cf m = Ok (set_m_queries q m).
Proof.
  intros HC HL HM. unfold finish_forms. assert (exists q, Ok m = Ok (set_m_queries q m)) as SAME by (exists (m_queries m); destruct m; reflexivity).
  destruct (cf_request cf && negb (cf_handler cf) && negb (cf_headers_only cf)); [|exact SAME].
  destruct (is_prefix CONTENT_TYPE_URLENCODED (d_get (m_headers m) HEADER_CONTENT_TYPE)).
  { rewrite HC. cbn [obind]. eexists. reflexivity. }
  destruct (is_prefix CONTENT_TYPE_MULTIPART (d_get (m_headers m) HEADER_CONTENT_TYPE)) eqn:EM; [|exact SAME].
  destruct HM as [-> | HM]; [rewrite HC; cbn [obind parse_multipart]; eexists; reflexivity|].
  exfalso. apply is_prefix_spec in EM as [t EM]. unfold d_get in EM. pose proof (d_find_perm HEADER_CONTENT_TYPE _ _ HL) as DP.
  destruct (d_find (m_headers m) HEADER_CONTENT_TYPE) as [v|]; [|discriminate]. apply (HM v); auto. exists t. exact EM.
Qed.
(** the last part of finishing *)
Lemma finish_tail cf m b body l : m_missing m = false -> content_of m = Ok body -> Permutation l (m_headers m) -> body = [] \/ not_multipart l -> m_valid m = b ->
  exists m', finish_forms cf (compute_status m (m_valid m)) = Ok m' /\ content_of m' = Ok body /\ m_valid m' = b
    /\ m_status m' = (if b then STATUS_OK else STATUS_TRUNCATED) /\ m_headers m' = m_headers m /\ (forall hd, first_line hd m -> first_line hd m').
Proof.
  intros HMS HC HL HM HV. destruct (forms_ok cf (compute_status m (m_valid m)) body l HC HL HM) as (q & E). rewrite E. eexists. split; [reflexivity|].
  split; [exact HC|]. split; [exact HV|]. split; [cbn; rewrite HMS, HV; reflexivity|]. split; [reflexivity|]. intros hd FL. exact FL.
Qed.

(* ------------------------------------------------------------------ in the head *)

Lemma update_message_missing cf h m : m_missing (update_message cf h m) = m_missing m.
Proof. exact (proj1 (update_message_flags cf h m)). Qed.
Lemma update_message_buf cf h m : m_headers (update_message cf h m) = m_headers m /\ m_buf (update_message cf h m) = m_buf m /\ m_clen (update_message cf h m) = m_clen m.
Proof. unfold update_message. destruct (cf_request cf); [destruct (h_query h)|]; cbn; auto. Qed.
(** finishing while headers or trailers are read *)
Lemma finish_in_headers cf st m : (p_phase st = PHeaders \/ p_phase st = PFooters) -> m_missing m = false ->
  exists m', finish cf st m = Ok m' /\ content_of m' = Ok [] /\ truncated m' /\ m_headers m' = m_headers m.
Proof.
  intros PH MS. set (m1 := set_m_buf [] (set_m_clen 0 (update_message cf (p_h st) (set_m_valid false m)))).
  assert (finish cf st m = finish_forms cf (compute_status m1 (m_valid m1))) as -> by (unfold finish; destruct PH as [-> | ->]; reflexivity).
  destruct (update_message_buf cf (p_h st) (set_m_valid false m)) as (HH & _).
  destruct (finish_tail cf m1 false [] (m_headers m1)) as (m' & F & C & V & S & H & _); auto.
  { unfold m1. cbn. rewrite update_message_missing. exact MS. }
  { unfold m1. cbn. unfold update_message. destruct (cf_request cf); [destruct (h_query (p_h st))|]; reflexivity. }
  exists m'. split; [exact F|]. split; [exact C|]. split; [split; auto|]. rewrite H. exact HH.
Qed.

(** A proper beginning of a head: not a valid message, no content. *)
Theorem C169_head_partial cf m hd p q pieces : 0 <= cf_max cf -> head_ok cf hd -> m_missing m = false -> wire_head hd = p ++ q -> p <> [] -> q <> [] -> cut pieces p ->
  exists m', given_up cf m pieces m' /\ truncated m' /\ content_of m' = Ok [].
Proof.
  intros HM HD MS W NP NQ CT. pose proof (head_loop cf m hd [] HD) as HL. rewrite app_nil_r, W, h_loop_app in HL. cbv zeta in HL.
  assert (s_rc (h_loop cf (h_init cf) m p) = TIndet) as TI.
  { destruct (s_rc (h_loop cf (h_init cf) m p)); auto; exfalso; try discriminate HL; injection HL as _ _ E; apply app_eq_nil in E as [_ E]; auto. }
  pose proof (h_loop_indet_rest cf p _ _ TI) as RR. pose proof (h_loop_err cf p (h_init cf) m) as EE. rewrite TI in EE.
  pose proof (h_loop_flags cf p (h_init cf) m) as [FL _].
  assert (exists st, p_phase st = PHeaders /\ parse cf (p_init cf) m p = Ok (Some (mkpres TIndet None st (snd (s_st (h_loop cf (h_init cf) m p))) []))) as (st & PH & PE).
  { unfold parse. rewrite MS, p_loop_S. unfold p_round. cbn [p_phase p_init]. unfold parse_headers. change (p_h (set_p_phase PHeaders (p_init cf))) with (h_init cf).
    cbn [s_rc s_st s_rest s_err fst snd]. rewrite TI. cbn [obind s_rc s_rest s_st s_err fst snd]. rewrite RR. cbn [obind s_rc s_rest s_st s_err fst snd]. rewrite ?EE, ?TI. eexists. split; [|reflexivity]. reflexivity. }
  destruct (finish_in_headers cf st (snd (s_st (h_loop cf (h_init cf) m p))) (or_introl PH)) as (m' & F & C & T & _); [congruence|].
  exists m'. split; [|auto]. apply (given_up_feed cf m p pieces _ m' HM NP CT PE); auto.
Qed.
Print Assumptions C169_head_partial.

(* ------------------------------------------------------------------ in content with a length *)

Lemma parse_one_more cf m s st1 m1 : m_missing m = false -> p_round cf (p_init cf) m s = Ok (mksub TIndet None (st1, m1) []) ->
  exists t, parse cf (p_init cf) m s = Ok (Some (mkpres TIndet None (set_p_last t st1) m1 [])).
Proof. intros HM R1. unfold parse. rewrite HM, p_loop_S, R1. cbn. eexists. reflexivity. Qed.
Lemma parse_two_more cf m s st1 m1 s1 st2 m2 : m_missing m = false ->
  p_round cf (p_init cf) m s = Ok (mksub TIndet None (st1, m1) s1) -> s1 <> [] -> p_round cf st1 m1 s1 = Ok (mksub TIndet None (st2, m2) []) ->
  exists t, parse cf (p_init cf) m s = Ok (Some (mkpres TIndet None (set_p_last t st2) m2 [])).
Proof.
  intros HM R1 N1 R2. unfold parse. rewrite HM, p_loop_S, R1. cbn [obind s_rc s_rest s_st fst snd]. destruct s1 as [|c s1]; [congruence|]. rewrite p_loop_S, R2. cbn. eexists. reflexivity.
Qed.

Lemma cut_content (cf : pcfg) st m got n : cf_handler cf = false -> 0 <= cf_max cf -> p_phase st = PContent -> p_content_read st = zlen got -> zlen got < n -> m_missing m = false ->
  m_clen m = Z.min n (cf_max cf) -> (exists rest, m_buf m = map Some (firstn (Z.to_nat (cf_max cf)) got) ++ rest) -> zlen (m_buf m) = Z.min n (cf_max cf) ->
  forall l, Permutation l (m_headers m) -> not_multipart l ->
  exists m', finish cf st m = Ok m' /\ content_of m' = Ok (firstn (Z.to_nat (cf_max cf)) got) /\ truncated m' /\ m_headers m' = m_headers m /\ (forall hd, first_line hd m -> first_line hd m').
Proof.
  intros HH HM PH CR LT MS CL (rest & EB) ZB l HL NM. pose proof (zlen_nonneg got).
  set (m1 := if p_content_read st <? cf_max cf then set_m_clen (p_content_read st) (set_m_valid false m) else set_m_valid false m).
  assert (finish cf st m = finish_forms cf (compute_status m1 (m_valid m1))) as -> by (unfold finish; rewrite PH; reflexivity).
  assert (m_missing m1 = false /\ m_headers m1 = m_headers m /\ m_valid m1 = false /\ (forall hd, first_line hd m -> first_line hd m1) /\ m_buf m1 = m_buf m
    /\ m_clen m1 = zlen (firstn (Z.to_nat (cf_max cf)) got)) as (A & B & C & D & E & F).
  { assert (zlen (firstn (Z.to_nat (cf_max cf)) got) = Z.min (cf_max cf) (zlen got)) as -> by (unfold zlen in *; rewrite firstn_length; lia).
    unfold m1. destruct (p_content_read st <? cf_max cf) eqn:EL; cbn; repeat (split; auto); try lia. }
  assert (content_of m1 = Ok (firstn (Z.to_nat (cf_max cf)) got)) as CO.
  { unfold content_of. rewrite E, F, EB. set (x := firstn (Z.to_nat (cf_max cf)) got). rewrite zlen_app. pose proof (zlen_nonneg rest).
    assert (zlen (map Some x) = zlen x) as -> by (unfold zlen; rewrite map_length; auto). replace (zlen x <=? zlen x + zlen rest) with true by lia.
    rewrite firstn_app, firstn_all2, map_length by (rewrite map_length; unfold zlen; lia). replace (Z.to_nat (zlen x) - List.length x)%nat with O by (unfold zlen; lia).
    cbn [firstn]. rewrite app_nil_r, all_some_map. reflexivity. }
  destruct (finish_tail cf m1 false (firstn (Z.to_nat (cf_max cf)) got) l A CO) as (m' & G1 & G2 & G3 & G4 & G5 & G6); auto; [rewrite B; auto|].
  exists m'. split; [exact G1|]. split; [exact G2|]. split; [split; auto|]. split; [congruence|auto].
Qed.

(** A message whose content has a length, of which [got] came: not valid, the content is what came (as far as content is kept). *)
Theorem C169_length_partial cf m hd v got pieces : storing cf -> head_ok cf hd -> m_headers m = [] -> m_missing m = false ->
  ~ bodiless m hd -> no_chunks hd -> values_of (bs "Content-Length") (hdrs_of hd) = [v] -> v <> [] -> Forall is_dec v -> zlen got < dec_value v < two64 - 1 ->
  not_multipart (hdrs_of hd) -> cut pieces (wire_head hd ++ got) ->
  exists m', given_up cf m pieces m' /\ truncated m' /\ content_of m' = Ok (firstn (Z.to_nat (cf_max cf)) got) /\ Permutation (hdrs_of hd) (m_headers m') /\ first_line hd m'.
Proof.
  intros (HX & HO & HH) HD HM HMS HB NC HC V1 V2 V3 NM CT. pose proof (zlen_nonneg got).
  pose proof (head_round cf m hd got HD) as HR. rewrite finish_headers_eq in HR. cbv zeta in HR.
  rewrite (not_chunked cf m hd HD HM NC), (implied_bodiless cf m hd HD HM HB) in HR.
  destruct (head_m0_facts cf m hd HD HM) as (P & _). pose proof (head_m0_first cf m hd HD HM) as FL. pose proof (head_m0_missing cf m hd) as MM. rewrite HMS in MM.
  unfold d_has, update_content_length in HR. rewrite (d_find_one HEADER_CONTENT_LENGTH _ _ v P HC) in HR. rewrite cast_dec in HR by (auto; lia).
  set (m0 := head_m0 cf m hd) in *. clearbody m0. set (n := dec_value v) in *. clearbody n.
  assert (m_clen (set_m_clen n m0) = n) as EC by reflexivity. rewrite EC in HR.
  replace (n =? 0) with false in HR by lia. rewrite HO in HR. cbv beta iota in HR.
  set (mc := Z.min n (cf_max cf)) in *.
  assert ((if cf_max cf <? n then set_m_clen (cf_max cf) (set_m_clen n m0) else set_m_clen n m0) = set_m_clen mc m0) as EM.
  { unfold mc. destruct (cf_max cf <? n) eqn:E; [|rewrite Z.min_l by lia; reflexivity]. rewrite Z.min_r by lia. destruct m0; reflexivity. }
  rewrite EM in HR. unfold create_content_buffer in HR. assert (m_clen (set_m_clen mc m0) = mc) as EC2 by reflexivity. rewrite EC2 in HR.
  assert (0 <= mc <= n) as MC by lia. rewrite wrap64_id in HR by lia. replace (mc + 1 <=? mc) with false in HR by lia. cbn [obind] in HR.
  set (st1 := set_p_remaining n (set_p_phase PContent (head_st cf hd))) in *.
  set (m2 := set_m_buf (repeat None (Z.to_nat mc)) (set_m_clen mc m0)) in *.
  assert (zlen (m_buf m2) = mc) as ZB by (unfold m2; cbn; unfold zlen; rewrite repeat_length; lia).
  assert (exists st' m', (exists t, parse cf (p_init cf) m (wire_head hd ++ got) = Ok (Some (mkpres TIndet None (set_p_last t st') m' []))) /\ p_phase st' = PContent /\ p_content_read st' = zlen got
    /\ m_missing m' = false /\ m_clen m' = mc /\ (exists rest, m_buf m' = map Some (firstn (Z.to_nat (cf_max cf)) got) ++ rest) /\ zlen (m_buf m') = mc /\ m_headers m' = m_headers m0 /\ (first_line hd m0 -> first_line hd m'))
    as (st' & m' & (t & PE) & Q1 & Q2 & Q3 & Q4 & Q5 & Q6 & Q7 & Q8).
  { destruct got as [|c got].
    - exists st1, m2. split; [apply parse_one_more; auto|]. split; [reflexivity|]. split; [reflexivity|]. split; [exact MM|]. split; [reflexivity|].
      split; [exists (m_buf m2); rewrite firstn_nil; reflexivity|]. split; [exact ZB|]. split; [reflexivity|auto].
    - set (body := c :: got) in *.
      assert (pinv cf st1 m2) as PI.
      { split; [|split]; [|discriminate|lia]. intros _. unfold st1, head_st. cbn [p_remaining p_content_read set_p_remaining set_p_phase]. repeat split; try lia. }
      assert (p_phase st1 = PContent) as PP by reflexivity.
      pose proof (consume_content_eq cf st1 m2 body PI PP) as R2. cbv zeta in R2.
      assert (content_bytes st1 body = zlen body) as CB by (unfold content_bytes, st1; cbn [p_remaining set_p_remaining]; lia). rewrite CB in R2.
      replace (p_remaining st1 <=? zlen body) with false in R2 by (unfold st1; cbn [p_remaining set_p_remaining]; lia).
      rewrite firstn_all2, skipn_all2 in R2 by (unfold zlen; lia).
      exists (content_st cf st1 body), (content_msg cf st1 m2 body). split.
      { apply (parse_two_more cf m _ st1 m2 body); auto. discriminate. }
      unfold content_st, content_msg. rewrite HH. split; [reflexivity|].
      split; [unfold st1; cbn [p_content_read set_p_remaining set_p_content_read set_p_phase head_st]; rewrite wrap64_id; lia|].
      split; [exact MM|]. split; [reflexivity|]. change (p_content_read st1) with 0. rewrite Z.sub_0_r. cbn [m_buf set_m_buf].
      assert (zlen (firstn (Z.to_nat (cf_max cf)) body) <= mc) as LB by (unfold zlen in *; rewrite firstn_length; lia).
      split; [eexists; unfold wr; cbn [firstn Z.to_nat app]; reflexivity|]. split; [|split; [reflexivity|auto]].
      unfold wr. cbn [firstn Z.to_nat app]. rewrite zlen_app. set (x := firstn (Z.to_nat (cf_max cf)) body) in *.
      assert (zlen (map Some x) = zlen x) as -> by (unfold zlen; rewrite map_length; auto). unfold zlen in *. rewrite skipn_length. lia. }
  clear HR. destruct (cut_content cf (set_p_last t st') m' got n HH ltac:(lia) Q1 Q2 ltac:(lia) Q3 Q4 Q5 Q6 (hdrs_of hd)) as (mf & F1 & F2 & F3 & F4 & F5); auto; [rewrite Q7; exact P|].
  exists mf. split; [|split; [exact F3|split; [exact F2|split; [rewrite F4, Q7; exact P|auto]]]].
  apply (given_up_feed cf m _ pieces _ mf ltac:(lia) (wire_head_nonempty cf hd got HD) CT PE); auto.
Qed.
Print Assumptions C169_length_partial.

(* ------------------------------------------------------------------ in chunks *)

(** the state in the middle of chunks, and what was kept *)
Lemma cut_chunks cf m hd v s k ca : storing cf -> head_ok cf hd -> m_headers m = [] -> m_cache m = [] -> m_missing m = false ->
  values_of (bs "Transfer-Encoding") (hdrs_of hd) = [v] -> says_chunked v -> zlen ca < two64 - 1 -> not_multipart (hdrs_of hd) ->
  k1_loop cf k_init [] [] s = mksub TIndet None (mkkout k ca [] false) [] -> s <> [] \/ k = k_init /\ ca = [] ->
  forall pieces, cut pieces (wire_head hd ++ s) ->
  exists m', given_up cf m pieces m' /\ content_of m' = Ok ca /\ Permutation (hdrs_of hd) (m_headers m') /\ first_line hd m'
    /\ (let whole := match k_state k with KSizeStart => true | _ => false end in m_valid m' = whole /\ m_status m' = if whole then STATUS_OK else STATUS_TRUNCATED).
Proof.
  intros (HX & HO & HH) HD HM HC HMS HT HTC HL NM K NS pieces CT.
  pose proof (chunk_round1 cf m hd v s HO HD HM HT HTC) as R1.
  destruct (head_m0_facts cf m hd HD HM) as (P & C0 & _). pose proof (head_m0_first cf m hd HD HM) as FL. pose proof (head_m0_missing cf m hd) as MM. rewrite HMS in MM.
  set (m0 := head_m0 cf m hd) in *. clearbody m0. rewrite HC in C0.
  assert (exists st' t, parse cf (p_init cf) m (wire_head hd ++ s) = Ok (Some (mkpres TIndet None (set_p_last t st') (set_m_cache ca m0) [])) /\ p_phase st' = PChunks /\ p_k st' = k) as (st' & t & PE & PH & PK).
  { destruct s as [|c s].
    - destruct NS as [NS|[-> ->]]; [congruence|]. destruct (parse_one_more cf m _ _ _ HMS R1) as (t & E). exists (chunk_st cf hd), t. split; [|auto]. rewrite E. rewrite <- C0. destruct m0; reflexivity.
    - eassert (p_round cf (chunk_st cf hd) m0 (c :: s) = Ok (mksub TIndet None (_, set_m_cache ca m0) [])) as R2.
      { unfold p_round. assert (p_phase (chunk_st cf hd) = PChunks) as -> by reflexivity. unfold parse_chunks. rewrite C0. change (p_k (chunk_st cf hd)) with k_init. change (p_payload (chunk_st cf hd)) with (@nil Z).
        rewrite k_loop_k1; [|intros X; discriminate|auto]. rewrite K. cbn [s_rc s_st s_err s_rest fst snd ko_cache ko_k ko_payload ko_footers]. reflexivity. }
      destruct (parse_two_more cf m _ _ _ _ _ _ HMS R1 ltac:(discriminate) R2) as (t & E). do 2 eexists. split; [exact E|]. split; reflexivity. }
  set (mc := set_m_buf (map Some ca) (set_m_clen (zlen ca) (set_m_valid (match k_state k with KSizeStart => true | _ => false end) (set_m_cache ca m0)))).
  assert (finish cf (set_p_last t st') (set_m_cache ca m0) = finish_forms cf (compute_status mc (m_valid mc))) as FE.
  { unfold finish. change (p_phase (set_p_last t st')) with (p_phase st'). change (p_k (set_p_last t st')) with (p_k st'). rewrite PH, PK, HH, concatenate_ok by exact HL. reflexivity. }
  destruct (finish_tail cf mc (match k_state k with KSizeStart => true | _ => false end) ca (hdrs_of hd)) as (m' & G1 & G2 & G3 & G4 & G5 & G6); auto.
  { apply content_of_cache. }
  exists m'. split; [|split; [exact G2|split; [rewrite G5; exact P|split; [apply G6; exact FL|cbv zeta; auto]]]].
  apply (given_up_feed cf m _ pieces _ m' ltac:(lia) (wire_head_nonempty cf hd s HD) CT PE); auto. cbn [r_st r_msg]. rewrite FE. exact G1.
Qed.

(** Chunks that end behind a whole chunk: the content is the chunks that came, but the message is taken for whole. *)
Theorem C169_between_partial cf m hd v l pieces : storing cf -> head_ok cf hd -> m_headers m = [] -> m_cache m = [] -> m_missing m = false ->
  values_of (bs "Transfer-Encoding") (hdrs_of hd) = [v] -> says_chunked v -> Forall chunk_ok l -> zlen (chunk_data l) <= cf_max cf -> zlen (chunk_data l) < two64 - 1 ->
  not_multipart (hdrs_of hd) -> cut pieces (wire_head hd ++ concat (map wire_chunk l)) ->
  exists m', given_up cf m pieces m' /\ content_of m' = Ok (chunk_data l) /\ Permutation (hdrs_of hd) (m_headers m') /\ first_line hd m' /\ m_valid m' = true /\ m_status m' = STATUS_OK.
Proof.
  intros ST HD HM HC HMS HT HTC HF HL HL2 NM CT. pose proof ST as (_ & _ & HH).
  destruct (run_chunks cf [] HH l [] [] 0 0 HF) as (s1 & s2 & s3 & KS); [rewrite zlen_nil; lia|]. cbn [app] in KS. specialize (KS []). rewrite app_nil_r in KS. cbn [k1_loop] in KS.
  destruct l as [|c l].
  - destruct (cut_chunks cf m hd v [] k_init [] ST HD HM HC HMS HT HTC ltac:(rewrite zlen_nil; unfold two64; lia) NM eq_refl (or_intror (conj eq_refl eq_refl)) pieces CT) as (m' & A & B & C & D & E & F). exists m'. auto 8.
  - destruct (cut_chunks cf m hd v _ _ _ ST HD HM HC HMS HT HTC HL2 NM KS) with (pieces := pieces) as (m' & A & B & C & D & E & F); auto; [left|exists m'; auto 8].
    cbn [map concat]. unfold wire_chunk. pose proof (Forall_inv HF) as (N & _). destruct (c_size c); [congruence|discriminate].
Qed.
Print Assumptions C169_between_partial.

(** Chunks that end inside the data of a chunk: the content is what came of all of them, and the message is not valid. *)
Theorem C169_inside_partial cf m hd v l size ext d pieces : storing cf -> head_ok cf hd -> m_headers m = [] -> m_cache m = [] -> m_missing m = false ->
  values_of (bs "Transfer-Encoding") (hdrs_of hd) = [v] -> says_chunked v -> Forall chunk_ok l -> size <> [] -> Forall hex_char size -> ext_ok ext ->
  d <> [] -> zlen d <= hex_number size < 9223372036854775808 -> zlen (chunk_data l ++ d) <= cf_max cf -> zlen (chunk_data l ++ d) < two64 - 1 ->
  not_multipart (hdrs_of hd) -> cut pieces (wire_head hd ++ concat (map wire_chunk l) ++ size ++ ext ++ CRLF ++ d) ->
  exists m', given_up cf m pieces m' /\ truncated m' /\ content_of m' = Ok (chunk_data l ++ d) /\ Permutation (hdrs_of hd) (m_headers m') /\ first_line hd m'.
Proof.
  intros ST HD HM HC HMS HT HTC HF S1 S2 S3 ND HD2 HL HL2 NM CT. pose proof ST as (_ & _ & HH). pose proof (zlen_nonneg (chunk_data l)). rewrite zlen_app in HL.
  assert (0 < zlen d) as PD by (destruct d; [congruence|]; rewrite zlen_cons; pose proof (zlen_nonneg d); lia).
  destruct (run_chunks cf [] HH l [] [] 0 0 HF) as (s1 & s2 & s3 & KS); [rewrite zlen_nil; lia|]. cbn [app] in KS.
  pose proof (run_size_line cf (chunk_data l) [] s1 s2 s3 size ext S1 S2 S3 ltac:(lia)) as KL. replace (hex_number size =? 0) with false in KL by lia.
  pose proof (run_data cf [] size (hex_number size) HH d (chunk_data l) 0 ltac:(lia) ND ltac:(lia) HL) as KD.
  pose proof (ksteps_app _ _ _ _ _ _ _ _ _ _ _ _ KS (ksteps_app _ _ _ _ _ _ _ _ _ _ _ _ KL KD)) as K. specialize (K []). rewrite app_nil_r in K. cbn [k1_loop] in K.
  rewrite <- !app_assoc in K.
  destruct (cut_chunks cf m hd v _ _ _ ST HD HM HC HMS HT HTC HL2 NM K) with (pieces := pieces) as (m' & A & B & C & D & E & F); auto.
  { left. intros X. apply app_eq_nil in X as [_ X]. destruct size; [congruence|discriminate]. }
  exists m'. cbn [k_state] in E, F. destruct (0 + zlen d =? hex_number size); (split; [exact A|]; split; [split; auto|]; auto).
Qed.
Print Assumptions C169_inside_partial.

(* ------------------------------------------------------------------ anywhere in the chunks *)

(** [came size ext l p d b]: [p] is a beginning of the chunks [l] and the line of the last chunk ([size] and [ext]); [d] is the data in it; [b]: it ends where a chunk is to begin. *)
Inductive came (size ext : list Z) : list chunk -> list Z -> list Z -> bool -> Prop :=
  | CameNothing l : came size ext l [] [] true
  | CameChunk c l p d b : came size ext l p d b -> came size ext (c :: l) (wire_chunk c ++ p) (c_data c ++ d) b
  | CameLine c l p q : p <> [] -> c_size c ++ c_ext c ++ CRLF = p ++ q -> came size ext (c :: l) p [] false
  | CameData c l d q : d <> [] -> c_data c = d ++ q -> came size ext (c :: l) (c_size c ++ c_ext c ++ CRLF ++ d) d false
  | CameReturn c l : came size ext (c :: l) (c_size c ++ c_ext c ++ CRLF ++ c_data c ++ [13]) (c_data c) false
  | CameLast p q : p <> [] -> size ++ ext ++ CRLF = p ++ q -> came size ext [] p [] false.

(** every beginning is one of these *)
Lemma app_cases {A} (a b p q : list A) : a ++ b = p ++ q -> (exists x, a = p ++ x /\ q = x ++ b) \/ (exists x, x <> [] /\ p = a ++ x /\ b = x ++ q).
Proof.
  intros E. apply app_eq_app in E as (x & [[E1 E2]|[E1 E2]]); [left; eauto|]. destruct x as [|c x]; [|right; exists (c :: x); split; [discriminate|auto]].
  left. exists []. rewrite app_nil_r in *. cbn in *. split; congruence.
Qed.
Lemma came_all size ext l : forall p q, concat (map wire_chunk l) ++ size ++ ext ++ CRLF = p ++ q -> exists d b, came size ext l p d b.
Proof.
  induction l as [|c l IH]; intros p q E.
  - destruct p as [|x p]; [do 2 eexists; apply CameNothing|]. exists [], false. apply CameLast with q; [discriminate|exact E].
  - destruct p as [|x p]; [do 2 eexists; apply CameNothing|]. cbn [map concat] in E. rewrite <- app_assoc in E. apply app_cases in E as [(y & E1 & E2)|(y & N & E1 & E2)].
    + unfold wire_chunk in E1. replace (c_size c ++ c_ext c ++ CRLF ++ c_data c ++ CRLF) with ((c_size c ++ c_ext c ++ CRLF) ++ c_data c ++ CRLF) in E1 by (rewrite <- !app_assoc; auto).
      apply app_cases in E1 as [(z & F1 & F2)|(z & N & F1 & F2)]; [exists [], false; apply CameLine with z; [discriminate|exact F1]|].
      assert ((c_size c ++ c_ext c ++ CRLF) ++ z = c_size c ++ c_ext c ++ CRLF ++ z) as AZ by (rewrite <- !app_assoc; auto). rewrite F1, AZ. clear F1 AZ.
      apply app_cases in F2 as [(w & G1 & G2)|(w & NW & G1 & G2)]; [exists z, false; apply CameData with w; auto|].
      destruct w as [|w0 w]; [congruence|]. injection G2 as <- G2. destruct w as [|w1 w].
      * subst z. do 2 eexists. apply CameReturn.
      * injection G2 as <- G2. symmetry in G2. apply app_eq_nil in G2 as [-> ->]. subst z.
        exists (c_data c ++ []), true. replace (c_size c ++ c_ext c ++ CRLF ++ c_data c ++ [13; 10]) with (wire_chunk c ++ []) by (unfold wire_chunk, CRLF; rewrite app_nil_r; reflexivity). apply CameChunk, CameNothing.
    + destruct (IH _ _ E2) as (d & b & C). rewrite E1. exists (c_data c ++ d), b. apply CameChunk. exact C.
Qed.

Definition starts_chunk (k : chk) : bool := match k_state k with KSizeStart => true | _ => false end.
Lemma ext_prefix a b : ext_ok (a ++ b) -> ext_ok a.
Proof.
  intros [H|(t & E & H)]; [left; apply Forall_app in H; tauto|]. destruct a as [|x a]; [left; constructor|]. injection E as -> E. right. exists a. split; [reflexivity|].
  rewrite <- E in H. apply Forall_app in H. tauto.
Qed.
Lemma run_ext_part cf ca pa str sz rd e : ext_ok e -> exists k, ksteps cf (MkK KSize str sz rd) ca pa e k ca pa /\ starts_chunk k = false.
Proof.
  intros [HB|(t & -> & HT)].
  - destruct e as [|c e]; [eexists; split; [apply ksteps_nil|reflexivity]|]. inversion HB as [|? ? HC HF']; subst. eexists. split.
    + apply ksteps_cons with 1%nat (MkK KCRAfterSize str sz rd) ca pa; [destruct HC as [-> | ->]; reflexivity|]. apply run_blanks; auto.
    + reflexivity.
  - eexists. split; [apply (ksteps_cons cf (MkK KSize str sz rd) ca pa 59 1%nat (MkK KIgnored str sz rd) ca pa); [reflexivity|apply run_ignored; auto]|reflexivity].
Qed.
Lemma run_line_part cf ca pa str sz rd s e p q : s <> [] -> Forall hex_char s -> ext_ok e -> hex_number s < 9223372036854775808 -> p <> [] -> s ++ e ++ CRLF = p ++ q ->
  exists k, ksteps cf (MkK KSizeStart str sz rd) ca pa p k ca pa /\ starts_chunk k = false.
Proof.
  intros S1 S2 S3 S4 NP E. apply app_cases in E as [(x & E1 & _)|(x & _ & E1 & E2)].
  - subst s. eexists. split; [apply run_size; auto; apply Forall_app in S2; tauto|reflexivity].
  - subst p. apply app_cases in E2 as [(y & F1 & _)|(y & NY & F1 & F2)].
    + subst e. destruct (run_ext_part cf ca pa s sz rd x (ext_prefix _ _ S3)) as (k & K & KS). exists k. split; [|exact KS]. eapply ksteps_app; [apply run_size; auto|exact K].
    + subst x. destruct y as [|y0 y]; [congruence|]. injection F2 as <- F2. destruct y as [|y1 y].
      * eexists. split; [eapply ksteps_app; [apply run_size; auto|apply run_ext; auto]|reflexivity].
      * injection F2 as <- F2. symmetry in F2. apply app_eq_nil in F2 as [-> ->]. eexists. split; [apply run_size_line; auto|]. destruct (hex_number s =? 0); reflexivity.
Qed.
Lemma run_came cf size ext : cf_handler cf = false -> last_ok size ext -> forall l p d b, came size ext l p d b -> Forall chunk_ok l -> forall ca str sz rd, zlen ca + zlen d <= cf_max cf ->
  exists k, ksteps cf (MkK KSizeStart str sz rd) ca [] p k (ca ++ d) [] /\ starts_chunk k = b.
Proof.
  intros HH (L1 & L2 & L3 & L4) l p d b C. induction C as [l|c l p d b C IH|c l p q NP E|c l d q ND E|c l|p q NP E]; intros HF ca str sz rd HL.
  - rewrite app_nil_r. eexists. split; [apply ksteps_nil|reflexivity].
  - rewrite zlen_app in HL. pose proof (zlen_nonneg d). inversion HF as [|? ? HC HF']; subst. destruct (IH HF' (ca ++ c_data c) (c_size c) (zlen (c_data c)) (zlen (c_data c))) as (k & K & S); [rewrite zlen_app; lia|].
    exists k. split; [|exact S]. rewrite app_assoc. eapply ksteps_app; [apply run_chunk; auto; lia|exact K].
  - rewrite app_nil_r. pose proof (Forall_inv HF) as (C1 & C2 & C3 & C4 & C5). apply (run_line_part cf ca [] str sz rd (c_size c) (c_ext c) p q); auto. lia.
  - pose proof (Forall_inv HF) as (C1 & C2 & C3 & C4 & C5). assert (zlen (c_data c) = zlen d + zlen q) as LD by (rewrite E, zlen_app; auto). pose proof (zlen_nonneg q). pose proof (zlen_nonneg d).
    replace (c_size c ++ c_ext c ++ CRLF ++ d) with ((c_size c ++ c_ext c ++ CRLF) ++ d) by (rewrite <- !app_assoc; auto). eexists. split.
    + eapply ksteps_app; [apply run_size_line; auto; lia|]. rewrite C4. replace (zlen (c_data c) =? 0) with false by lia. apply run_data; auto; lia.
    + unfold starts_chunk. cbn [k_state]. destruct (0 + zlen d =? zlen (c_data c)); reflexivity.
  - pose proof (Forall_inv HF) as (C1 & C2 & C3 & C4 & C5). replace (c_size c ++ c_ext c ++ CRLF ++ c_data c ++ [13]) with ((c_size c ++ c_ext c ++ CRLF) ++ c_data c ++ [13]) by (rewrite <- !app_assoc; auto). eexists. split.
    + eapply ksteps_app; [apply run_size_line; auto; lia|]. rewrite C4. replace (zlen (c_data c) =? 0) with false by lia.
      eapply ksteps_app; [apply run_data; auto; try lia; destruct (c_data c); [rewrite zlen_nil in C5; lia|discriminate]|].
      replace (0 + zlen (c_data c)) with (zlen (c_data c)) by lia. rewrite Z.eqb_refl. apply ksteps_one with 1%nat. reflexivity.
    + reflexivity.
  - rewrite app_nil_r. apply (run_line_part cf ca [] str sz rd size ext p q); auto. lia.
Qed.

(** Chunks cut anywhere before their last line ends: the content is the data that came. The message is not valid, unless the cut is where a chunk is to begin. *)
Theorem C169_chunks_partial cf m hd v l size ext p q pieces : storing cf -> head_ok cf hd -> m_headers m = [] -> m_cache m = [] -> m_missing m = false ->
  values_of (bs "Transfer-Encoding") (hdrs_of hd) = [v] -> says_chunked v -> Forall chunk_ok l -> last_ok size ext -> zlen (chunk_data l) <= cf_max cf -> zlen (chunk_data l) < two64 - 1 ->
  not_multipart (hdrs_of hd) -> concat (map wire_chunk l) ++ size ++ ext ++ CRLF = p ++ q -> cut pieces (wire_head hd ++ p) ->
  exists m' d b, given_up cf m pieces m' /\ came size ext l p d b /\ content_of m' = Ok d /\ Permutation (hdrs_of hd) (m_headers m') /\ first_line hd m'
    /\ if b then m_valid m' = true /\ m_status m' = STATUS_OK else truncated m'.
Proof.
  intros ST HD HM HC HMS HT HTC HF HLO HL HL2 NM E CT. destruct (came_all size ext l p q E) as (d & b & C).
  assert (zlen d <= zlen (chunk_data l)) as LD.
  { clear - C. induction C as [l|c l p d b C IH|c l p q NP E|c l d q ND E|c l|p q NP E]; unfold chunk_data in *; cbn [map concat]; rewrite ?zlen_app, ?zlen_nil; repeat match goal with |- context [zlen ?x] => lazymatch goal with H : 0 <= zlen x |- _ => fail | _ => pose proof (zlen_nonneg x) end end; try lia.
    rewrite E, zlen_app. pose proof (zlen_nonneg q). lia. }
  pose proof ST as (_ & _ & HH). destruct (run_came cf size ext HH HLO l p d b C HF [] [] 0 0) as (k & K & S); [rewrite zlen_nil; lia|].
  cbn [app] in K. specialize (K []). rewrite app_nil_r in K. cbn [k1_loop] in K.
  destruct (cut_chunks cf m hd v p k d ST HD HM HC HMS HT HTC) with (pieces := pieces) as (m' & A & B & C' & D & V & T); auto; [lia| |].
  { destruct p as [|x p]; [right|left; discriminate]. cbn [k1_loop] in K. injection K as K1 K2. subst. split; reflexivity. }
  exists m', d, b. split; [exact A|]. split; [exact C|]. split; [exact B|]. split; [exact C'|]. split; [exact D|].
  fold (starts_chunk k) in V, T. rewrite S in V, T. destruct b; split; auto.
Qed.
Print Assumptions C169_chunks_partial.

(* ------------------------------------------------------------------ in the trailers *)

Lemma parse_three_more cf m s st1 m1 s1 st2 m2 s2 st3 m3 : m_missing m = false ->
  p_round cf (p_init cf) m s = Ok (mksub TIndet None (st1, m1) s1) -> s1 <> [] -> p_round cf st1 m1 s1 = Ok (mksub TIndet None (st2, m2) s2) -> s2 <> [] ->
  p_round cf st2 m2 s2 = Ok (mksub TIndet None (st3, m3) []) ->
  exists t, parse cf (p_init cf) m s = Ok (Some (mkpres TIndet None (set_p_last t st3) m3 [])).
Proof.
  intros HM R1 N1 R2 N2 R3. unfold parse. rewrite HM, p_loop_S, R1. cbn [obind s_rc s_rest s_st fst snd]. destruct s1 as [|c s1]; [congruence|]. rewrite p_loop_S, R2.
  cbn [obind s_rc s_rest s_st fst snd]. destruct s2 as [|c2 s2]; [congruence|]. rewrite p_loop_S, R3. cbn. eexists. reflexivity.
Qed.

(** All chunks came and a part of the trailers: the content is lost. *)
Theorem C169_trailers_partial cf m hd v l size ext tr p q pieces : storing cf -> head_ok cf hd -> m_headers m = [] -> m_cache m = [] -> m_missing m = false ->
  values_of (bs "Transfer-Encoding") (hdrs_of hd) = [v] -> says_chunked v -> Forall chunk_ok l -> last_ok size ext -> zlen (chunk_data l) <= cf_max cf -> zlen (chunk_data l) < two64 - 1 ->
  Forall hdr_ok tr -> tr <> [] -> wire_hdrs tr ++ CRLF = p ++ q -> p <> [] -> q <> [] ->
  cut pieces (wire_head hd ++ concat (map wire_chunk l) ++ size ++ ext ++ CRLF ++ p) ->
  exists m', given_up cf m pieces m' /\ truncated m' /\ content_of m' = Ok [].
Proof.
  intros (HX & HO & HH) HD HM HC HMS HT HTC HF HL HS HS2 HTR NT W NP NQ CT.
  set (s1 := concat (map wire_chunk l) ++ size ++ ext ++ CRLF ++ p) in *.
  assert (s1 <> []) as N1.
  { unfold s1. intros X. apply app_eq_nil in X as [_ X]. destruct HL as (L1 & _). destruct size; [congruence|discriminate]. }
  pose proof (chunk_round1 cf m hd v s1 HO HD HM HT HTC) as R1.
  destruct (head_m0_facts cf m hd HD HM) as (P & C0 & _ & _ & _ & VM & _). pose proof (head_m0_missing cf m hd) as MM. rewrite HMS in MM.
  set (m0 := head_m0 cf m hd) in *. clearbody m0. rewrite HC in C0.
  assert (p_k (chunk_st cf hd) = k_init) as EK by reflexivity.
  set (mc := set_m_buf (map Some (chunk_data l)) (set_m_clen (zlen (chunk_data l)) (set_m_cache (chunk_data l) m0))).
  assert (concatenate_chunks (set_m_cache (chunk_data l) m0) = Ok mc) as CC by (rewrite concatenate_ok; auto).
  destruct (wire_hdrs_first tr CRLF HTR NT) as (c & s & EC & NC). rewrite W in EC. destruct p as [|c' p]; [congruence|]. cbn [app] in EC. injection EC as -> EC.
  destruct (chunks_trailers cf (chunk_st cf hd) m0 l size ext c p HH EK C0 HF HL HS NC) as (k & n & tot & cr & E).
  match type of E with _ = mksub _ _ (?x, _) _ => set (st2 := x) in * end.
  assert (p_round cf (chunk_st cf hd) m0 s1 = Ok (mksub TIndet None (st2, mc) (c :: p))) as R2.
  { unfold p_round. assert (p_phase (chunk_st cf hd) = PChunks) as -> by reflexivity. unfold s1. rewrite E. cbn [s_rc s_st s_err s_rest fst snd]. rewrite HH, CC. reflexivity. }
  assert (exists x, h_loop cf (p_h st2) mc ((c :: p) ++ q) = mksub TTrue None x []) as (x & HL3).
  { assert (exists me re qq co rs na va raw, p_h st2 = MkH HHeaderStart me re qq co rs na va raw) as (me & re & qq & co & rs & na & va & raw & EH).
    { exists (h_method (head_h cf hd)), (h_resource (head_h cf hd)), (h_query (head_h cf hd)), (h_code (head_h cf hd)), (h_reason (head_h cf hd)),
        (h_name (head_h cf hd)), (h_value (head_h cf hd)), (h_raw (head_h cf hd)).
      unfold st2, chunk_st, head_st. cbn. unfold goto. destruct (head_h cf hd); reflexivity. }
    rewrite EH, <- W. rewrite (run_hdrs cf me re qq co rs tr mc na va raw HTR).
    - pose proof (h_loop_done cf (ins_all cf mc tr) me re qq co rs (fst (last_hdr na va tr)) (snd (last_hdr na va tr)) (rw cf raw (wire_hdrs tr)) []) as X. rewrite app_nil_r in X. rewrite X. eexists. reflexivity.
    - intros RQ. unfold mc. cbn. rewrite VM. destruct hd as [r hl|r hl]; destruct HD as (RR & A & _); [|congruence].
      cbn [head_ver]. destruct A as (_ & _ & _ & _ & _ & _ & _ & A). lia. }
  rewrite h_loop_app in HL3. cbv zeta in HL3.
  assert (s_rc (h_loop cf (p_h st2) mc (c :: p)) = TIndet) as TI.
  { destruct (s_rc (h_loop cf (p_h st2) mc (c :: p))); auto; exfalso; try discriminate HL3; injection HL3 as _ _ X; apply app_eq_nil in X as [_ X]; auto. }
  pose proof (h_loop_indet_rest cf (c :: p) _ _ TI) as RR. pose proof (h_loop_err cf (c :: p) (p_h st2) mc) as EE. rewrite TI in EE.
  pose proof (h_loop_flags cf (c :: p) (p_h st2) mc) as [FL _].
  assert (exists st3, p_phase st3 = PFooters /\ p_round cf st2 mc (c :: p) = Ok (mksub TIndet None (st3, snd (s_st (h_loop cf (p_h st2) mc (c :: p)))) [])) as (st3 & PH & R3).
  { unfold p_round. assert (p_phase st2 = PFooters) as -> by reflexivity. unfold parse_headers. rewrite TI, RR, EE. eexists. split; [|reflexivity]. reflexivity. }
  destruct (parse_three_more cf m _ _ _ _ _ _ _ _ _ HMS R1 N1 R2 ltac:(discriminate) R3) as (t & PE).
  destruct (finish_in_headers cf (set_p_last t st3) (snd (s_st (h_loop cf (p_h st2) mc (c :: p)))) (or_intror PH)) as (m' & F & C & T & _); [rewrite FL; exact MM|].
  exists m'. split; [|auto]. apply (given_up_feed cf m _ pieces _ m' ltac:(lia) (wire_head_nonempty cf hd s1 HD) CT PE); auto.
Qed.
Print Assumptions C169_trailers_partial.

(* ------------------------------------------------------------------ what does not hold *)

(** the result of giving up after one piece, to compute examples *)
Definition gave (cf : pcfg) (m : msg) (pieces : list (list Z)) : option msg :=
  match feed cf (p_init cf) m pieces with
  | Ok (Some (mkpres TIndet None st m1 [])) => match finish cf st m1 with Ok m' => Some m' | Bad _ => None end
  | _ => None
  end.
Lemma gave_ok cf m pieces m' : gave cf m pieces = Some m' -> given_up cf m pieces m'.
Proof.
  unfold gave, given_up. destruct (feed cf (p_init cf) m pieces) as [[[rc e st m1 rest]|]|]; try discriminate. destruct rc, e, rest; try discriminate.
  destruct (finish cf st m1) as [x|] eqn:F; [|discriminate]. intros H. injection H as <-. eexists. split; [reflexivity|]. auto.
Qed.
Definition ends (cf : pcfg) (m : msg) (s : list Z) : bool := match parse cf (p_init cf) m s with Ok (Some (mkpres TTrue _ _ _ [])) => true | _ => false end.
Lemma ends_ok cf m s q : q <> [] -> ends cf m (s ++ q) = true -> exists r, parse cf (p_init cf) m (s ++ q) = Ok (Some r) /\ r_rc r = TTrue /\ r_rest r = [].
Proof.
  unfold ends. intros _. destruct (parse cf (p_init cf) m (s ++ q)) as [[[rc e st m1 rest]|]|]; try discriminate. destruct rc, rest; try discriminate. intros _. eexists. split; [reflexivity|]. auto.
Qed.

(** a chunked request with a variable *)
Definition ex_query_chunked : head := HReq {| rl_method := bs "PUT"; rl_resource := bs "/p"; rl_query := Some (bs "a=b"); rl_version := v11 |} [(bs "Transfer-Encoding", bs "chunked")].

(** a proper beginning of a message *)
Definition beginning_of (cf : pcfg) (m : msg) (s : list Z) : Prop :=
  exists q r, q <> [] /\ parse cf (p_init cf) m (s ++ q) = Ok (Some r) /\ r_rc r = TTrue /\ r_rest r = [].

Lemma beginning_ok cf m s q : q <> [] -> ends cf m (s ++ q) = true -> beginning_of cf m s.
Proof. intros N E. destruct (ends_ok cf m s q N E) as (r & A & B & C). exists q, r. auto. Qed.
Lemma ex_storing : storing (ex_cf true false). Proof. repeat split; discriminate. Qed.
Lemma ex_new : new_msg ex_msg. Proof. repeat split. Qed.
Definition ex_chunks_only (hd : head) : list Z := wire_head hd ++ concat (map wire_chunk ex_chunks).
Definition ex_some_trailer : list Z := bs "0" ++ CRLF ++ bs "X-Su".
Lemma ex_begins1 : beginning_of (ex_cf true false) ex_msg (ex_chunks_only ex_chunked).
Proof. apply beginning_ok with (bs "0" ++ CRLF ++ CRLF); [discriminate|]. vm_compute. reflexivity. Qed.
Lemma ex_begins2 : beginning_of (ex_cf true false) ex_msg (ex_chunks_only ex_query_chunked ++ ex_some_trailer).
Proof. apply beginning_ok with (bs "m: 1" ++ CRLF ++ CRLF); [discriminate|]. vm_compute. reflexivity. Qed.
Lemma ex_gave1 : exists m', given_up (ex_cf true false) ex_msg [ex_chunks_only ex_chunked] m' /\ m_valid m' = true /\ content_of m' = Ok (bs "hello0123456789").
Proof. eexists. split; [apply gave_ok; vm_compute; reflexivity|]. split; vm_compute; reflexivity. Qed.
Lemma ex_gave2 : exists m', given_up (ex_cf true false) ex_msg [ex_chunks_only ex_query_chunked] m' /\ content_of m' = Ok (bs "hello0123456789").
Proof. eexists. split; [apply gave_ok; vm_compute; reflexivity|]. vm_compute; reflexivity. Qed.
Lemma ex_gave3 : exists m', given_up (ex_cf true false) ex_msg [ex_chunks_only ex_query_chunked ++ ex_some_trailer] m' /\ truncated m' /\ content_of m' = Ok [] /\ m_queries m' = [(bs "a", bs "b"); (bs "a", bs "b")].
Proof. eexists. split; [apply gave_ok; vm_compute; reflexivity|]. split; [split; vm_compute; reflexivity|]. split; vm_compute; reflexivity. Qed.

(** A message of which only a beginning came can be valid. *)
Theorem C169_valid_refuted : ~ (forall cf m s m', storing cf -> new_msg m -> beginning_of cf m s -> given_up cf m [s] m' -> m_valid m' = false).
Proof. intros H. destruct ex_gave1 as (m' & G & V & _). rewrite (H _ _ _ _ ex_storing ex_new ex_begins1 G) in V. discriminate V. Qed.
Print Assumptions C169_valid_refuted.

(** Content that came can be lost: more of the message gives less content. *)
Theorem C169_content_refuted : ~ (forall cf m s t m1 m2 c1 c2, storing cf -> new_msg m -> beginning_of cf m (s ++ t) -> given_up cf m [s] m1 -> given_up cf m [s ++ t] m2 ->
  content_of m1 = Ok c1 -> content_of m2 = Ok c2 -> exists more, c2 = c1 ++ more).
Proof.
  intros H. destruct ex_gave2 as (m1 & G1 & C1). destruct ex_gave3 as (m2 & G2 & _ & C2 & _).
  destruct (H _ _ _ _ _ _ _ _ ex_storing ex_new ex_begins2 G1 G2 C1 C2) as (more & E). discriminate E.
Qed.
Print Assumptions C169_content_refuted.

(** The variables of the query string can come twice. *)
Theorem C169_variables_refuted : ~ (forall cf m s m', storing cf -> new_msg m -> m_queries m = [] -> beginning_of cf m s -> given_up cf m [s] m' -> NoDup (m_queries m')).
Proof.
  intros H. destruct ex_gave3 as (m' & G & _ & _ & V). pose proof (H _ _ _ _ ex_storing ex_new eq_refl ex_begins2 G) as N. rewrite V in N. inversion N as [|? ? X _]. apply X. left. reflexivity.
Qed.
Print Assumptions C169_variables_refuted.

(* ------------------------------------------------------------------ cases *)

Example C169_case : exists m', given_up (ex_cf true false) ex_msg [wire_head ex_post ++ bs "hel"; bs "lo"] m' /\ truncated m' /\ content_of m' = Ok (bs "hello").
Proof.
  destruct (C169_length_partial (ex_cf true false) ex_msg ex_post (bs "11") (bs "hello") [wire_head ex_post ++ bs "hel"; bs "lo"]) as (m' & A & B & C & _).
  - repeat split; discriminate.
  - apply ex_post_ok.
  - reflexivity.
  - reflexivity.
  - intros [].
  - intros v [].
  - reflexivity.
  - discriminate.
  - http_ok.
  - split; reflexivity.
  - intros v [<-|[]] [t E]. discriminate E.
  - split; [repeat constructor; discriminate|]. vm_compute. reflexivity.
  - exists m'. auto.
Qed.
Example C169_chunk_cases :
  (exists m', given_up (ex_cf true false) ex_msg [wire_head ex_chunked ++ bs "5" ++ CRLF; bs "hel"] m' /\ truncated m' /\ content_of m' = Ok (bs "hel"))
  /\ (exists m', given_up (ex_cf true false) ex_msg [bs "GET /a HTTP/1.1" ++ CRLF ++ bs "Ho"] m' /\ truncated m' /\ content_of m' = Ok []).
Proof. split; (eexists; split; [apply gave_ok; vm_compute; reflexivity|]; split; [split; vm_compute; reflexivity|vm_compute; reflexivity]). Qed.
