(** Bodies with gaps. *)
From Coq Require Import String ZArith List Bool Lia Permutation.
From Coq Require Import ZifyBool ZifyNat.
From Verif Require Import Base Digits AlgModel FormModel DictModel MultipartModel HttpModel HttpSpec HttpBase HttpSplit HttpProofs HttpHead HttpBody HttpChunk MissingSpec.
Import ListNotations.
Local Arguments zlen : simpl never.
Local Arguments Z.add : simpl never.
Local Arguments Z.sub : simpl never.
Local Arguments finish : simpl never.

(** [done] bytes of a body of length [n] have been stored *)
Definition cinv (cf : pcfg) (hd : head) (n : Z) (done : list Z) (miss after : bool) (st : pst) (m : msg) : Prop :=
  p_phase st = PContent /\ p_remaining st = n - zlen done /\ p_content_read st = zlen done /\ zlen done < n
  /\ m_clen m = n /\ m_buf m = map Some done ++ repeat None (Z.to_nat (n - zlen done))
  /\ m_missing m = miss /\ m_after m = after /\ Permutation (hdrs_of hd) (m_headers m) /\ first_line hd m /\ k_ok (p_k st).

Lemma cinv_pinv cf hd n d mi af st m : cinv cf hd n d mi af st m -> 0 <= n < two64 - 1 -> n <= cf_max cf -> pinv cf st m.
Proof.
  intros (P & R & C & L & CL & B & _ & _ & _ & _ & K) N M. pose proof (zlen_nonneg d). split; [|split; [exact K|lia]].
  intros _. repeat split; try lia. intros _. rewrite B, zlen_app, C. unfold zlen in *. rewrite map_length, repeat_length. lia.
Qed.

Lemma buf_next (d s : list Z) n : zlen d + zlen s <= n ->
  wr (map Some d ++ repeat None (Z.to_nat (n - zlen d))) (zlen d) s = map Some (d ++ s) ++ repeat None (Z.to_nat (n - zlen (d ++ s))).
Proof.
  intros L. unfold wr. assert (Z.to_nat (zlen d) = List.length (map (@Some Z) d)) as -> by (rewrite map_length; unfold zlen; lia).
  rewrite firstn_app, Nat.sub_diag, firstn_all. cbn [firstn]. rewrite app_nil_r, map_app, <- app_assoc. do 2 f_equal.
  rewrite skipn_app, skipn_all2 by (rewrite map_length; unfold zlen in *; lia). cbn [app]. rewrite map_length, zlen_app.
  assert (forall k j, skipn k (repeat (@None Z) j) = repeat None (j - k)) as SR.
  { induction k; intros [|j]; cbn [repeat skipn]; rewrite ?Nat.sub_0_r; auto. rewrite IHk. reflexivity. }
  rewrite SR. f_equal. unfold zlen in *. lia.
Qed.
Definition full_msg (hd : head) (body : list Z) (miss after : bool) (rest : list Z) (o : outcome (option presult)) : Prop :=
  exists r, o = Ok (Some r) /\ r_rc r = TTrue /\ r_err r = None /\ m_valid (r_msg r) = true
    /\ m_status (r_msg r) = (if miss then if after then STATUS_PARTIAL else STATUS_TRUNCATED else STATUS_OK)
    /\ content_of (r_msg r) = Ok body /\ first_line hd (r_msg r) /\ Permutation (hdrs_of hd) (m_headers (r_msg r)) /\ r_rest r = rest.

Lemma first_line_ext hd m m' : first_line hd m -> m_vmaj m' = m_vmaj m -> m_vmin m' = m_vmin m -> m_method m' = m_method m -> m_resource m' = m_resource m
  -> m_query_string m' = m_query_string m -> m_code m' = m_code m -> m_reason m' = m_reason m -> first_line hd m'.
Proof. intros F E1 E2 E3 E4 E5 E6 E7. unfold first_line in *. destruct hd; rewrite ?E1, ?E2, ?E3, ?E4, ?E5, ?E6, ?E7; exact F. Qed.

Section Body.
Variables (cf : pcfg) (hd : head) (n : Z).
Hypotheses (ST : storing cf) (NM : no_multipart hd) (N : 0 <= n < two64 - 1) (NX : n <= cf_max cf).

Lemma content_full m d : m_clen m = n -> zlen d = n -> m_buf m = map Some d ++ repeat None (Z.to_nat (n - zlen d)) -> content_of m = Ok d.
Proof.
  intros C L B. unfold content_of. rewrite C, B, L, Z.sub_diag. cbn [repeat Z.to_nat]. rewrite app_nil_r.
  replace (n <=? zlen (map Some d)) with true by (unfold zlen in *; rewrite map_length; lia).
  rewrite firstn_all2 by (rewrite map_length; unfold zlen in *; lia). rewrite all_some_map. reflexivity.
Qed.
Lemma finish_full st m d mi af : p_phase st = PEnd -> m_clen m = n -> zlen d = n -> m_buf m = map Some d ++ repeat None (Z.to_nat (n - zlen d)) ->
  m_missing m = mi -> m_after m = af -> Permutation (hdrs_of hd) (m_headers m) -> first_line hd m ->
  exists m', finish cf st m = Ok m' /\ forall st' rest, full_msg hd d mi af rest (Ok (Some (mkpres TTrue None st' m' rest))).
Proof.
  intros P C L B MI AF PH FL. pose proof (content_full m d C L B) as CO.
  destruct (finish_ok cf st m d (hdrs_of hd) P CO PH) as (m' & F & D); [exact NM|].
  exists m'. split; auto. intros. eexists. split; [reflexivity|]. cbn [r_rc r_err r_msg r_rest].
  split; auto. split; auto. split; [destruct D as [q ->]; reflexivity|]. split; [destruct D as [q ->]; unfold compute_status; cbn; rewrite MI, AF; reflexivity|].
  split; [eapply done_content; eauto|]. split; [destruct D as [q ->]; exact FL|]. split; auto. rewrite (done_headers _ _ D). auto.
Qed.

(** the end of [parse] after its loop *)
Definition parse_end (o : outcome (option (sub (pst * msg) * Z))) : outcome (option presult) :=
  obind o (fun o =>
    match o with
    | None => Ok None
    | Some (r, total) =>
      match s_rc r with
      | TTrue =>
        let st1 := set_p_phase PEnd (fst (s_st r)) in
        obind (finish cf st1 (snd (s_st r))) (fun m1 =>
          Ok (Some (mkpres TTrue (s_err r) (set_p_last total st1) m1 (s_rest r))))
      | TFalse =>
        Ok (Some (mkpres TFalse (s_err r) (set_p_last total (fst (s_st r))) (compute_status (snd (s_st r)) false) (s_rest r)))
      | TIndet => Ok (Some (mkpres TIndet (s_err r) (set_p_last total (fst (s_st r))) (snd (s_st r)) (s_rest r)))
      end
    end).

Lemma loop_step f t d mi af st m s : cinv cf hd n d mi af st m -> s <> [] ->
  if zlen d + zlen s <? n
  then exists r, parse_end (p_loop (S f) cf st m s t) = Ok (Some r) /\ r_rc r = TIndet /\ cinv cf hd n (d ++ s) mi af (r_st r) (r_msg r)
  else full_msg hd (d ++ firstn (Z.to_nat (n - zlen d)) s) mi af (skipn (Z.to_nat (n - zlen d)) s) (parse_end (p_loop (S f) cf st m s t)).
Proof.
  intros CI0 NE. unfold parse_end. pose proof (cinv_pinv _ _ _ _ _ _ _ _ CI0 N NX) as PI.
  destruct CI0 as (P & R & C & L & CL & B & MI & AF & PH & FL & K). destruct ST as (HX & HO & HH).
  rewrite p_loop_S. unfold p_round. rewrite P. rewrite consume_content_eq by auto. cbn [obind s_rc s_st s_rest fst snd].
  pose proof (zlen_nonneg d). assert (0 < zlen s) as ZS by (destruct s; [congruence|rewrite zlen_cons; pose proof (zlen_nonneg s); lia]).
  unfold content_bytes. rewrite R.
  destruct (zlen d + zlen s <? n) eqn:E.
  - replace (n - zlen d <=? zlen s) with false by lia. replace (Z.min (n - zlen d) (zlen s)) with (zlen s) by lia.
    assert (Z.to_nat (zlen s) = List.length s) as -> by (unfold zlen; lia). rewrite firstn_all, skipn_all. cbn [obind s_rc s_st s_rest s_err fst snd].
    eexists. split; [reflexivity|]. cbn [r_rc r_st r_msg]. split; auto.
    unfold content_msg, content_st. rewrite HH. unfold cinv. cbn. rewrite C.
    rewrite (firstn_all2 s) by (unfold zlen in *; lia). rewrite B, buf_next, wrap64_id by lia. rewrite zlen_app, R.
    do 9 (split; [first [assumption|reflexivity|lia]|]). split; [exact FL|exact K].
  - replace (n - zlen d <=? zlen s) with true by lia. replace (Z.min (n - zlen d) (zlen s)) with (n - zlen d) by lia.
    set (s1 := firstn (Z.to_nat (n - zlen d)) s). assert (zlen s1 = n - zlen d) as L1 by (unfold s1, zlen in *; rewrite firstn_length; lia).
    destruct (finish_full (set_p_phase PEnd (content_st cf st s1)) (content_msg cf st m s1) (d ++ s1) mi af) as (m' & F & FU); auto.
    { unfold content_msg. rewrite HH. exact CL. } { rewrite zlen_app; lia. }
    { unfold content_msg. rewrite HH. cbn. rewrite C, (firstn_all2 s1) by (unfold zlen in *; lia). rewrite B. apply buf_next. lia. }
    { unfold content_msg. rewrite HH. exact MI. } { unfold content_msg. rewrite HH. exact AF. } { unfold content_msg. rewrite HH. exact PH. } { unfold content_msg. rewrite HH. exact FL. }
    destruct (skipn _ s) eqn:SK; cbn [obind s_rc s_st s_rest s_err fst snd]; rewrite F; cbn [obind]; apply FU.
Qed.
Lemma bytes_step d mi af st m s : cinv cf hd n d mi af st m -> s <> [] ->
  if zlen d + zlen s <? n
  then exists r, parse cf st m s = Ok (Some r) /\ r_rc r = TIndet /\ cinv cf hd n (d ++ s) mi (mi || af) (r_st r) (r_msg r)
  else full_msg hd (d ++ firstn (Z.to_nat (n - zlen d)) s) mi (mi || af) (skipn (Z.to_nat (n - zlen d)) s) (parse cf st m s).
Proof.
  intros CI NE. unfold parse.
  set (m0 := if m_missing m then set_m_after true m else m).
  assert (cinv cf hd n d mi (mi || af) st m0) as CI0.
  { unfold cinv in *. unfold m0. destruct CI as (P & R & C & L & CL & B & MI & AF & PH & FL & K). subst mi af. destruct (m_missing m) eqn:E; cbn [orb]; cbn; rewrite ?E; repeat (split; auto). }
  exact (loop_step 3 0 d mi (mi || af) st m0 s CI0 NE).
Qed.

Lemma gap_step d mi af st m k : cinv cf hd n d mi af st m -> 0 < k ->
  if zlen d + k <? n
  then exists e st' m', parse_missing_data cf st m k = Ok (TIndet, e, st', m') /\ cinv cf hd n (d ++ repeat 88 (Z.to_nat k)) true af st' m'
  else if zlen d + k =? n
  then exists st' m', parse_missing_data cf st m k = Ok (TTrue, None, st', m') /\ full_msg hd (d ++ repeat 88 (Z.to_nat k)) true af [] (Ok (Some (mkpres TTrue None st' m' [])))
  else exists m', parse_missing_data cf st m k = Ok (TFalse, Some E_MISSING_TOO_MUCH_CONTENT, st, m') /\ m_status m' = (if af then STATUS_PARTIAL else STATUS_TRUNCATED).
Proof.
  intros CI KP. unfold parse_missing_data. set (m0 := set_m_missing true m).
  assert (cinv cf hd n d true af st m0) as CI0 by (unfold cinv in *; destruct CI as (P & R & C & L & CL & B & MI & AF & PH & FL & K); repeat (split; auto)).
  clearbody m0. clear CI. destruct CI0 as (P & R & C & L & CL & B & MI & AF & PH & FL & K). destruct ST as (HX & HO & HH).
  unfold missing_step. rewrite P, R, HH, C. pose proof (zlen_nonneg d). replace (n - zlen d =? 0) with false by lia.
  assert (zlen (missing_bytes k) = k) as ZK by (unfold missing_bytes, zlen; rewrite repeat_length; lia).
  assert (missing_bytes k = repeat 88 (Z.to_nat k)) as MB by reflexivity. rewrite <- MB.
  destruct (zlen d + k <? n) eqn:E; [|destruct (zlen d + k =? n) eqn:E2].
  - replace (n - zlen d <? k) with false by lia. rewrite wrap64_id by lia. replace (zlen d + k <=? cf_max cf) with true by lia.
    unfold buf_write. rewrite ZK. replace (zlen d + k <=? zlen (m_buf m0)) with true by (rewrite B, zlen_app; unfold zlen in *; rewrite map_length, repeat_length; lia).
    cbn [obind fst snd]. replace (n - zlen d - k =? 0) with false by lia. cbn [obind]. do 3 eexists. split; [reflexivity|].
    unfold cinv. cbn. rewrite B. pose proof (buf_next d (missing_bytes k) n ltac:(lia)) as WB. unfold wr in WB. rewrite ZK in WB. rewrite WB. rewrite zlen_app, ZK.
    do 9 (split; [first [assumption|reflexivity|lia]|]). split; [exact FL|exact K].
  - replace (n - zlen d <? k) with false by lia. rewrite wrap64_id by lia. replace (zlen d + k <=? cf_max cf) with true by lia.
    unfold buf_write. rewrite ZK. replace (zlen d + k <=? zlen (m_buf m0)) with true by (rewrite B, zlen_app; unfold zlen in *; rewrite map_length, repeat_length; lia).
    cbn [obind fst snd]. replace (n - zlen d - k =? 0) with true by lia. cbn [obind].
    match goal with |- context [finish cf ?st1 ?m1] => destruct (finish_full st1 m1 (d ++ missing_bytes k) true af) as (m' & F & FU); auto end.
    { rewrite zlen_app, ZK. lia. }
    { cbn. rewrite B. pose proof (buf_next d (missing_bytes k) n ltac:(lia)) as WB. unfold wr in WB. rewrite ZK in WB. exact WB. }
    rewrite F. cbn [obind]. do 2 eexists. split; [reflexivity|]. apply FU.
  - replace (n - zlen d <? k) with true by lia. cbn [obind]. eexists. split; [reflexivity|]. unfold compute_status. cbn. rewrite MI, AF. reflexivity.
Qed.

Definition st_after (mi af : bool) (l : list event) : bool * bool :=
  fold_left (fun x e => match e with Gap _ => (true, snd x) | Bytes _ => (fst x, fst x || snd x) end) l (mi, af).

Lemma events_run l : forall d mi af st m, cinv cf hd n d mi af st m -> Forall event_ok l -> zlen d + zlen (expand l) = n ->
  full_msg hd (d ++ expand l) (fst (st_after mi af l)) (snd (st_after mi af l)) [] (feed_events cf st m l).
Proof.
  induction l as [|e l IH]; intros d mi af st m CI EO L.
  - exfalso. destruct CI as (_ & _ & _ & H & _). cbn in L. unfold zlen in *. cbn in L. lia.
  - pose proof (Forall_inv EO) as E1. pose proof (Forall_inv_tail EO) as E2. unfold expand in L. cbn [map concat] in L. fold (expand l) in L. rewrite zlen_app in L.
    unfold expand. cbn [map concat]. fold (expand l).
    assert (l = [] \/ 0 < zlen (expand l)) as LL.
    { destruct l as [|e2 l]; auto. right. pose proof (Forall_inv E2) as Q. unfold expand. cbn [map concat]. rewrite zlen_app. pose proof (zlen_nonneg (concat (map expand1 l))).
      destruct e2 as [[|x s]|k]; cbn [event_ok expand1] in *; [congruence|rewrite zlen_cons; pose proof (zlen_nonneg s); lia|unfold zlen at 1; rewrite repeat_length; lia]. }
    destruct e as [s|k]; cbn [feed_events event_ok expand1] in *.
    + pose proof (bytes_step d mi af st m s CI E1) as B. destruct (zlen d + zlen s <? n) eqn:Q.
      * destruct B as (r & -> & RC & CI'). rewrite RC. rewrite app_assoc.
        change (st_after mi af (Bytes s :: l)) with (st_after mi (mi || af) l). apply IH; auto. rewrite zlen_app. lia.
      * destruct LL as [->|LL]; [|lia]. cbn [expand map concat] in *. rewrite zlen_nil in L. 
        replace (n - zlen d) with (zlen s) in B by lia. assert (Z.to_nat (zlen s) = List.length s) as TN by (unfold zlen; lia). rewrite TN, firstn_all, skipn_all in B.
        change (concat (map expand1 [])) with (@nil Z). rewrite app_nil_r. cbn [st_after fold_left fst snd].
        destruct B as (r & -> & RC & B'). rewrite RC. exists r. split; auto.
    + pose proof (gap_step d mi af st m k CI E1) as B. assert (zlen (repeat 88 (Z.to_nat k)) = k) as ZK by (unfold zlen; rewrite repeat_length; lia). rewrite ZK in L.
      destruct (zlen d + k <? n) eqn:Q.
      * destruct B as (e & st' & m' & -> & CI'). rewrite app_assoc.
        change (st_after mi af (Gap k :: l)) with (st_after true af l). apply IH; auto. rewrite zlen_app. lia.
      * destruct LL as [->|LL]; [|lia]. change (expand []) with (@nil Z) in *. rewrite zlen_nil in L. replace (zlen d + k =? n) with true in B by lia.
        destruct B as (st' & m' & -> & B'). rewrite app_nil_r. exact B'.
Qed.

Lemma head_cinv m v : head_ok cf hd -> m_headers m = [] -> m_missing m = false -> m_after m = false -> 0 < n ->
  ~ bodiless m hd -> no_chunks hd ->
  values_of (bs "Content-Length") (hdrs_of hd) = [v] -> v <> [] -> Forall is_dec v -> dec_value v = n ->
  exists st1 m1, (forall s, p_round cf (p_init cf) m (wire_head hd ++ s) = Ok (mksub TIndet None (st1, m1) s)) /\ cinv cf hd n [] false false st1 m1.
Proof.
  intros HD HM HMS HMA NP HB HT HC V1 V2 V3. destruct ST as (HX & HO & HH).
  assert (exists st1 m1, finish_headers cf (head_st cf hd) (head_m1 cf m hd) = Ok (TIndet, None, (st1, m1)) /\ cinv cf hd n [] false false st1 m1) as (st1 & m1 & E & CI).
  { rewrite finish_headers_eq. cbv zeta. rewrite (not_chunked cf m hd HD HM HT), (implied_bodiless cf m hd HD HM HB).
    destruct (head_m0_facts cf m hd HD HM) as (P & _ & _ & ML & _). pose proof (head_m0_first cf m hd HD HM) as FL. pose proof (head_m0_missing cf m hd) as MM. rewrite HMS in MM.
    assert (m_after (head_m0 cf m hd) = false) as MA by (rewrite <- HMA; unfold head_m0, update_message, update_transfer_encoding; destruct (cf_request cf); [destruct (h_query _)|]; reflexivity).
    pose proof (d_find_one HEADER_CONTENT_LENGTH _ _ v P HC) as DF.
    unfold d_has, update_content_length. rewrite DF. rewrite cast_dec by (auto; lia). rewrite V3.
    set (m0 := head_m0 cf m hd) in *. clearbody m0.
    assert (m_clen (set_m_clen n m0) = n) as EC by reflexivity. rewrite EC. replace (n =? 0) with false by lia.
    replace (cf_max cf <? n) with false by lia. rewrite HO. unfold create_content_buffer. rewrite EC. rewrite wrap64_id by lia.
    replace (n + 1 <=? n) with false by lia. cbn [obind]. do 2 eexists. split; [reflexivity|].
    unfold cinv. cbn. rewrite zlen_nil, Z.sub_0_r. do 9 (split; [first [assumption|reflexivity|lia]|]). split; [exact FL|]. intros Q. discriminate Q. }
  exists st1, m1. split; auto. intros s. rewrite (head_round cf m hd s HD), E. reflexivity.
Qed.

Lemma st_after_status l : forall mi af, fst (st_after mi af l) = mi || existsb is_gap l
  /\ snd (st_after mi af l) = af || (if mi then existsb (fun e => negb (is_gap e)) l || resumes l else resumes l).
Proof.
  induction l as [|e l IH]; intros mi af; [split; cbn; destruct mi, af; reflexivity|].
  destruct e as [s|k].
  - change (st_after mi af (Bytes s :: l)) with (st_after mi (mi || af) l). destruct (IH mi (mi || af)) as [-> ->]. cbn [existsb is_gap negb resumes orb]. split; auto.
    destruct mi, af; cbn [orb]; auto.
  - change (st_after mi af (Gap k :: l)) with (st_after true af l). destruct (IH true af) as [-> ->]. cbn [existsb is_gap negb resumes orb]. split; [rewrite orb_true_r; auto|].
    destruct mi, (existsb (fun e => negb (is_gap e)) l), (resumes l); reflexivity.
Qed.

Lemma gaps_in_body m v b0 l : head_ok cf hd -> m_headers m = [] -> m_missing m = false -> m_after m = false ->
  ~ bodiless m hd -> no_chunks hd ->
  values_of (bs "Content-Length") (hdrs_of hd) = [v] -> v <> [] -> Forall is_dec v -> dec_value v = n ->
  Forall event_ok l -> l <> [] -> zlen (b0 ++ expand l) = n ->
  full_msg hd (b0 ++ expand l) (existsb is_gap l) (resumes l) [] (feed_events cf (p_init cf) m (Bytes (wire_head hd ++ b0) :: l)).
Proof.
  intros HD HM HMS HMA HB HT HC V1 V2 V3 EO NE L. rewrite zlen_app in L. pose proof (zlen_nonneg b0).
  assert (0 < zlen (expand l)) as LL.
  { destruct l as [|e2 l]; [congruence|]. pose proof (Forall_inv EO) as Q. unfold expand. cbn [map concat]. rewrite zlen_app. pose proof (zlen_nonneg (concat (map expand1 l))).
      destruct e2 as [[|x s]|k]; cbn [event_ok expand1] in *; [congruence|rewrite zlen_cons; pose proof (zlen_nonneg s); lia|unfold zlen at 1; rewrite repeat_length; lia]. }
  destruct (head_cinv m v HD HM HMS HMA ltac:(lia) HB HT HC V1 V2 V3) as (st1 & m1 & R & CI).
  assert (exists r, parse cf (p_init cf) m (wire_head hd ++ b0) = Ok (Some r) /\ r_rc r = TIndet /\ cinv cf hd n b0 false false (r_st r) (r_msg r)) as (r & E & RC & CI').
  { unfold parse. rewrite HMS. destruct b0 as [|x b0].
    - rewrite p_loop_S, R. cbn [obind s_rc s_rest s_st s_err fst snd]. eexists. split; [reflexivity|]. split; [reflexivity|]. cbn [r_st r_msg]. exact CI.
    - pose proof (loop_step 2 (0 + round_bytes (p_init cf) st1) [] false false st1 m1 (x :: b0) CI ltac:(discriminate)) as LS.
      rewrite zlen_nil in LS. replace (0 + zlen (x :: b0) <? n) with true in LS by lia. destruct LS as (r & E & RC & CI').
      exists r. split; auto. rewrite p_loop_S, R. cbn [obind s_rc s_rest s_st fst snd]. exact E. }
  cbn [feed_events]. rewrite E, RC. pose proof (events_run l b0 false false _ _ CI' EO L) as ER.
  destruct (st_after_status l false false) as [S1 S2]. rewrite S1, S2 in ER. exact ER.
Qed.
End Body.

(** a gap inside chunk data or a body that ends with the connection is the same as that many dummy bytes *)
Lemma gap_is_bytes ok cf st m k rc e st' m' : 0 <= cf_max cf -> reach ok true cf st m -> 0 < k < two64 ->
  p_phase st = PChunks \/ p_phase st = PContentNoLength ->
  cf_handler cf = true \/ zlen (m_cache m) + k <= cf_max cf ->
  parse_missing_data cf st m k = Ok (rc, e, st', m') -> rc <> TFalse ->
  exists r, parse cf st m (repeat 88 (Z.to_nat k)) = Ok (Some r) /\ r_rc r = rc /\ rc = TIndet /\ r_rest r = [] /\ r_st r = st'
    /\ set_m_after true (set_m_missing true (r_msg r)) = set_m_after true m'.
Proof.
  intros HX HR HK HP HF HM NF. destruct (reach_pinv _ _ _ _ _ HX HR) as (_ & KO & _).
  assert (zlen (missing_bytes k) = k) as ZK by (unfold missing_bytes, zlen; rewrite repeat_length; lia).
  change (repeat 88 (Z.to_nat k)) with (missing_bytes k).
  assert (missing_bytes k <> []) as NE by (intros E; rewrite E, zlen_nil in ZK; lia).
  unfold parse_missing_data, missing_step in HM. unfold parse. set (m0 := if m_missing m then set_m_after true m else m).
  assert (m_cache m0 = m_cache m) as MC by (unfold m0; destruct (m_missing m); reflexivity).
  assert (forall c, set_m_after true (set_m_missing true (set_m_cache c m0)) = set_m_after true (set_m_cache c (set_m_missing true m))) as MF by (intros; unfold m0; destruct (m_missing m), m; reflexivity).
  assert (set_m_after true (set_m_missing true m0) = set_m_after true (set_m_missing true m)) as MF2 by (unfold m0; destruct (m_missing m), m; reflexivity).
  clearbody m0. destruct HP as [HP|HP]; rewrite HP in HM.
  - destruct (match k_state (p_k st) with KChunk => true | _ => false end && (k_read (p_k st) <? k_size (p_k st)) && (k <=? k_size (p_k st) - k_read (p_k st))) eqn:C;
      [|cbn [obind] in HM; congruence].
    cbn [obind] in HM. destruct (p_k st) as [ks str sz rd] eqn:EK. cbn [k_state k_read k_size] in *.
    assert (ks = KChunk) by (destruct ks; cbn in C; congruence). subst ks. specialize (KO eq_refl). cbn [k_read k_size] in KO. assert (k <= sz - rd) by lia.
    rewrite p_loop_S. unfold p_round. rewrite HP. unfold parse_chunks. rewrite EK, MC. rewrite k_loop_k1; [|intros _; cbn; lia|lia].
    assert (k1_loop cf (Build_chk KChunk str sz rd) (m_cache m) (p_payload st) (missing_bytes k) =
      mksub TIndet None {| ko_k := Build_chk (if rd + k =? sz then KCRAfterChunk else KChunk) str sz (rd + k); ko_cache := if cf_handler cf then m_cache m else m_cache m ++ missing_bytes k;
        ko_payload := if cf_handler cf then p_payload st ++ missing_bytes k else p_payload st; ko_footers := false |} []) as ->.
    { destruct (cf_handler cf) eqn:HH.
      - pose proof (k1_block cf (missing_bytes k) (Build_chk KChunk str sz rd) (m_cache m) (p_payload st) [] eq_refl HH) as B. cbn [k_read k_size set_k_read] in B. rewrite ZK, app_nil_r in B.
        rewrite B by (auto; lia). cbn. destruct (rd + k =? sz); reflexivity.
      - destruct HF as [HF|HF]; [discriminate|].
        pose proof (run_data cf (p_payload st) str sz HH (missing_bytes k) (m_cache m) rd) as B. rewrite ZK in B. specialize (B ltac:(lia) NE ltac:(lia) ltac:(lia) []). rewrite app_nil_r in B. rewrite B. reflexivity. }
    cbn [obind s_rc s_rest s_st s_err fst snd ko_k ko_cache ko_payload ko_footers]. unfold used. rewrite ZK, zlen_nil.
    injection HM as <- <- <- <-. eexists. split; [reflexivity|]. cbn [r_rc r_rest r_st r_msg]. split; [reflexivity|]. split; [reflexivity|]. split; [reflexivity|]. rewrite Z.sub_0_r.
    split.
    + unfold round_bytes. rewrite HP. cbn [k_read set_k_read]. destruct st; cbn in *. rewrite EK. destruct (cf_handler cf), (rd + k =? sz); reflexivity.
    + destruct (cf_handler cf) eqn:HH.
      * rewrite <- MC. replace (set_m_cache (m_cache m0) m0) with m0 by (destruct m0; reflexivity). exact MF2.
      * rewrite MF. do 2 f_equal. unfold cache_fill. destruct HF as [HF|HF]; [discriminate|]. f_equal. cbn [m_cache set_m_missing].
        rewrite firstn_all2; [reflexivity|]. unfold missing_bytes. rewrite repeat_length. cbn. lia.
  - cbn [obind] in HM. injection HM as <- <- <- <-. rewrite p_loop_S. unfold p_round. rewrite HP. cbn [obind s_rc s_rest s_st s_err fst snd].
    eexists. split; [reflexivity|]. cbn [r_rc r_rest r_st r_msg]. split; [reflexivity|]. split; [reflexivity|]. split; [reflexivity|].
    unfold consume_no_length, round_bytes. rewrite HP, ZK. destruct (cf_handler cf) eqn:HH; cbn [fst snd].
    + split; [destruct st; reflexivity|exact MF2].
    + split; [destruct st; reflexivity|]. rewrite MC, MF. reflexivity.
Qed.

(** more bytes missing than the maximum content length: the message is complete and its content was never written *)
Lemma gap_beyond_maximum cf hd m v n : storing cf -> cf_request cf = false -> head_ok cf hd -> m_headers m = [] -> m_missing m = false ->
  ~ bodiless m hd -> no_chunks hd ->
  values_of (bs "Content-Length") (hdrs_of hd) = [v] -> v <> [] -> Forall is_dec v -> dec_value v = n -> 0 < cf_max cf < n -> n < two64 ->
  exists r, feed_events cf (p_init cf) m [Bytes (wire_head hd); Gap n] = Ok (Some r) /\ r_rc r = TTrue /\ m_valid (r_msg r) = true
    /\ m_clen (r_msg r) = cf_max cf /\ content_of (r_msg r) = Bad BadMemory.
Proof.
  intros (HX & HO & HH) HQ HD HM HMS HB HT HC V1 V2 V3 NX NB.
  assert (exists st1 m1, finish_headers cf (head_st cf hd) (head_m1 cf m hd) = Ok (TIndet, None, (st1, m1)) /\ p_phase st1 = PContent /\ p_remaining st1 = n /\ p_content_read st1 = 0
     /\ m_clen m1 = cf_max cf /\ m_buf m1 = repeat None (Z.to_nat (cf_max cf))) as (st1 & m1 & E & P1 & P2 & P3 & P4 & P5).
  { rewrite finish_headers_eq. cbv zeta. rewrite (not_chunked cf m hd HD HM HT), (implied_bodiless cf m hd HD HM HB).
    destruct (head_m0_facts cf m hd HD HM) as (P & _ & _ & ML & _).
    pose proof (d_find_one HEADER_CONTENT_LENGTH _ _ v P HC) as DF.
    unfold d_has, update_content_length. rewrite DF. rewrite cast_dec by (auto; lia). rewrite V3.
    set (m0 := head_m0 cf m hd) in *. clearbody m0.
    assert (m_clen (set_m_clen n m0) = n) as EC by reflexivity. rewrite EC. replace (n =? 0) with false by lia.
    replace (cf_max cf <? n) with true by lia. rewrite HO. unfold create_content_buffer.
    assert (m_clen (set_m_clen (cf_max cf) (set_m_clen n m0)) = cf_max cf) as -> by reflexivity. rewrite wrap64_id by lia.
    replace (cf_max cf + 1 <=? cf_max cf) with false by lia. cbn [obind]. do 2 eexists. split; [reflexivity|]. cbn. auto. }
  cbn [feed_events]. unfold parse. rewrite HMS. pose proof (head_round cf m hd [] HD) as R. rewrite app_nil_r in R. rewrite p_loop_S, R, E.
  cbn [obind s_rc s_rest s_st s_err fst snd r_rc r_st r_msg].
  unfold parse_missing_data, missing_step. cbn [p_phase set_p_last]. rewrite P1. cbn [p_remaining p_content_read set_p_last]. rewrite P2, P3, HH.
  replace (n =? 0) with false by lia. replace (n <? n) with false by lia. rewrite wrap64_id by lia. replace (0 + n <=? cf_max cf) with false by lia.
  cbn [obind fst snd]. rewrite Z.sub_diag. cbn [Z.eqb obind]. unfold finish. cbn [p_phase set_p_phase]. unfold finish_forms. rewrite HQ. cbn [andb obind].
  eexists. split; [reflexivity|]. cbn [r_rc r_msg]. split; [reflexivity|]. split; [reflexivity|]. split; [exact P4|].
  unfold content_of, compute_status. cbn. rewrite P4, P5. replace (cf_max cf <=? zlen (repeat None (Z.to_nat (cf_max cf)))) with true by (unfold zlen; rewrite repeat_length; lia).
  rewrite firstn_all2 by (rewrite repeat_length; lia). destruct (Z.to_nat (cf_max cf)) eqn:Q; [lia|]. reflexivity.
Qed.
(** with a payload handler, reported bytes are not counted as content *)
Lemma gap_not_counted cf st m k rc e st' m' : cf_handler cf = true -> p_phase st = PContent -> 0 < k <= p_remaining st ->
  parse_missing_data cf st m k = Ok (rc, e, st', m') -> p_content_read st' = p_content_read st /\ p_payload st' = p_payload st ++ repeat 88 (Z.to_nat k).
Proof.
  intros HH P K HM. unfold parse_missing_data, missing_step in HM. rewrite P, HH in HM. replace (p_remaining st =? 0) with false in HM by lia. replace (p_remaining st <? k) with false in HM by lia.
  cbn [obind fst snd] in HM. destruct (p_remaining st - k =? 0); cbn [obind] in HM.
  - match type of HM with obind ?f _ = _ => destruct f; [|discriminate] end. cbn [obind] in HM. injection HM as <- <- <- <-. split; reflexivity.
  - injection HM as <- <- <- <-. split; reflexivity.
Qed.
