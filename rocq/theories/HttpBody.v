(** Parsing of well-formed messages with bodies. *)
From Coq Require Import String ZArith List Lia Bool Permutation.
From Coq Require Import ZifyBool ZifyNat.
From Verif Require Import Base Digits AlgModel FormModel DictModel MultipartModel HttpModel HttpBase HttpSplit HttpSpec HttpProofs HttpHead.
Import ListNotations.

Local Arguments zlen : simpl never.
Local Arguments Z.add : simpl never.
Local Arguments Z.sub : simpl never.
Local Arguments used : simpl never.
Local Arguments finish : simpl never.
Local Arguments cache_fill : simpl never.

(* ------------------------------------------------------------------ dictionary lookups *)

Lemma same_name_match key p : d_match key p = same_name (fst p) key.
Proof.
  unfold d_match, iequals, same_name. change (map ascii_low) with lower_str.
  destruct (list_eq_dec Z.eq_dec (lower_str (fst p)) (lower_str key)) as [E|E].
  - rewrite E. apply str_eqb_refl.
  - apply str_eqb_neq; auto.
Qed.

Lemma find_filter {A} (f : A -> bool) l : find f l = hd_error (filter f l).
Proof. induction l as [|x l IH]; cbn; auto. destruct (f x); auto. Qed.

Lemma filter_perm {A} (f : A -> bool) l l' : Permutation l l' -> Permutation (filter f l) (filter f l').
Proof.
  induction 1; cbn; auto.
  - destruct (f x); auto.
  - destruct (f x), (f y); auto. apply perm_swap.
  - eapply Permutation_trans; eauto.
Qed.

Lemma d_find_perm key l d : Permutation l d ->
  match d_find d key with Some v => In v (values_of key l) | None => values_of key l = [] end.
Proof.
  intros HP. unfold d_find, values_of.
  rewrite (filter_ext _ (d_match key)) by (intros; symmetry; apply same_name_match).
  rewrite find_filter. pose proof (filter_perm (d_match key) _ _ HP) as FP.
  destruct (filter (d_match key) d) as [|p q] eqn:E; cbn.
  - apply Permutation_sym, Permutation_nil in FP. rewrite FP. reflexivity.
  - apply in_map. eapply Permutation_in; [apply Permutation_sym; eauto|]. left; auto.
Qed.

Lemma d_find_none key l d : Permutation l d -> values_of key l = [] -> d_find d key = None.
Proof. intros HP E. pose proof (d_find_perm key l d HP) as H. rewrite E in H. destruct (d_find d key); auto. destruct H. Qed.
Lemma d_find_one key l d v : Permutation l d -> values_of key l = [v] -> d_find d key = Some v.
Proof.
  intros HP E. pose proof (d_find_perm key l d HP) as H. rewrite E in H. destruct (d_find d key).
  - destruct H as [-> |[]]; auto.
  - discriminate.
Qed.

(* ------------------------------------------------------------------ the head *)

Definition head_h (cf : pcfg) (hd : head) : hdrs :=
  let nv := last_hdr [] [] (hdrs_of hd) in
  match hd with
  | HReq r l => MkH HFinalNewline (rl_method r) (rl_resource r) (match rl_query r with Some q => q | None => [] end) 0 []
                  (fst nv) (snd nv) (rw cf [] (wire_head hd))
  | HResp r l => MkH HFinalNewline [] [] [] (dec_value (sl_code r)) (sl_reason r) (fst nv) (snd nv) (rw cf [] (wire_head hd))
  end.
Definition head_ver (hd : head) : version := match hd with HReq r _ => rl_version r | HResp r _ => sl_version r end.
Definition head_m1 (cf : pcfg) (m : msg) (hd : head) : msg := ins_all cf (set_ver (head_ver hd) m) (hdrs_of hd).

Lemma head_loop cf m hd s : head_ok cf hd ->
  h_loop cf (h_init cf) m (wire_head hd ++ s) = mksub TTrue None (head_h cf hd, head_m1 cf m hd) s.
Proof.
  intros HO. unfold wire_head, h_init. destruct hd as [r l|r l]; cbn [hdrs_of]; destruct HO as (R & A & B); rewrite R.
  - rewrite <- app_assoc. rewrite (run_reqline cf m [] [] [] r R A). rewrite <- app_assoc.
    assert (cf_request cf = true -> m_vmaj (set_ver (rl_version r) m) <> 0) as HV.
    { intros _. destruct A as (_ & _ & _ & _ & _ & _ & _ & A). unfold set_ver. destruct m; cbn. lia. }
    rewrite (run_hdrs cf _ _ _ _ _ l _ _ _ _ B HV). rewrite h_loop_done. rewrite !rw_app. unfold head_h, wire_head. cbn [hdrs_of]. reflexivity.
  - rewrite <- app_assoc. rewrite (run_statline cf m [] [] [] r R A). rewrite <- app_assoc.
    assert (cf_request cf = true -> m_vmaj (set_ver (sl_version r) m) <> 0) as HV by (intros X; congruence).
    rewrite (run_hdrs cf _ _ _ _ _ l _ _ _ _ B HV). rewrite h_loop_done. rewrite !rw_app. unfold head_h, wire_head. cbn [hdrs_of]. reflexivity.
Qed.

(** parser state and message when finish_header_parsing starts *)
Definition head_st (cf : pcfg) (hd : head) : pst :=
  Build_pst PHeaders (head_h cf hd) k_init 0 0 (zlen (wire_head hd)) (wrap64 (zlen (wire_head hd))) [].
Definition head_m0 (cf : pcfg) (m : msg) (hd : head) : msg :=
  update_message cf (head_h cf hd) (update_transfer_encoding (set_m_clen 0 (head_m1 cf m hd))).

Lemma head_round cf m hd s : head_ok cf hd ->
  p_round cf (p_init cf) m (wire_head hd ++ s) =
  obind (finish_headers cf (head_st cf hd) (head_m1 cf m hd)) (fun x => match x with (rc, e, stm) => Ok (mksub rc e stm s) end).
Proof.
  intros HO. unfold p_round. cbn [p_phase p_init]. unfold parse_headers. cbn [p_h set_p_phase].
  rewrite head_loop by auto. cbn [s_rc s_st s_rest s_err fst snd]. unfold used. rewrite zlen_app.
  replace (zlen (wire_head hd) + zlen s - zlen s) with (zlen (wire_head hd)) by lia. reflexivity.
Qed.

(** what the headers leave in the message *)
Lemma head_m0_facts cf m hd : head_ok cf hd -> m_headers m = [] ->
  let m0 := head_m0 cf m hd in
  Permutation (hdrs_of hd) (m_headers m0) /\ m_cache m0 = m_cache m /\ m_buf m0 = m_buf m /\ m_clen m0 = 0
  /\ m_req_method m0 = m_req_method m
  /\ m_vmaj m0 = dec_value (v_maj (head_ver hd)) /\ m_vmin m0 = dec_value (v_min (head_ver hd))
  /\ m_chunked m0 = match d_find (m_headers m0) HEADER_TRANSFER_ENCODING with Some v => contains (bs "chunked") (lower_str v) | None => false end
  /\ match hd with
     | HReq r _ => m_method m0 = rl_method r /\ m_resource m0 = rl_resource r
                   /\ m_query_string m0 = match rl_query r with Some q => q | None => [] end
     | HResp r _ => m_code m0 = dec_value (sl_code r) /\ m_reason m0 = sl_reason r
     end.
Proof.
  intros HO HM m0.
  assert (forall h mm, m_headers (update_message cf h mm) = m_headers mm /\ m_cache (update_message cf h mm) = m_cache mm
    /\ m_buf (update_message cf h mm) = m_buf mm /\ m_clen (update_message cf h mm) = m_clen mm
    /\ m_req_method (update_message cf h mm) = m_req_method mm /\ m_chunked (update_message cf h mm) = m_chunked mm
    /\ m_vmaj (update_message cf h mm) = m_vmaj mm /\ m_vmin (update_message cf h mm) = m_vmin mm
    /\ if cf_request cf then m_method (update_message cf h mm) = h_method h /\ m_resource (update_message cf h mm) = h_resource h
                             /\ m_query_string (update_message cf h mm) = h_query h
       else m_code (update_message cf h mm) = h_code h /\ m_reason (update_message cf h mm) = h_reason h) as UM.
  { intros h mm. unfold update_message. destruct (cf_request cf); [destruct (h_query h)|]; cbn; repeat split; auto. }
  unfold m0, head_m0. destruct (UM (head_h cf hd) (update_transfer_encoding (set_m_clen 0 (head_m1 cf m hd)))) as (U1 & U2 & U3 & U4 & U5 & U6 & U7 & U8 & U9).
  clear m0 UM. rewrite U1, U2, U3, U4, U5, U6, U7, U8.
  match goal with |- ?G => assert (match hd with
     | HReq r _ => m_method (head_m0 cf m hd) = rl_method r /\ m_resource (head_m0 cf m hd) = rl_resource r
                   /\ m_query_string (head_m0 cf m hd) = match rl_query r with Some q => q | None => [] end
     | HResp r _ => m_code (head_m0 cf m hd) = dec_value (sl_code r) /\ m_reason (head_m0 cf m hd) = sl_reason r
     end) as F9 end.
  { destruct hd as [r l|r l]; destruct HO as (R & A & B); rewrite R in U9; exact U9. }
  unfold head_m0 in F9. fold (head_m0 cf m hd) in F9 |- *. set (LAST := match hd with HReq _ _ => _ | HResp _ _ => _ end) in F9 |- *. clearbody LAST. unfold head_m0. 
  unfold update_transfer_encoding, head_m1, ins_all, set_ver. cbn. rewrite HM.
  split. { rewrite <- (app_nil_r (hdrs_of hd)) at 1. apply d_insert_all_perm. }
  repeat (split; [reflexivity|]). exact F9.
Qed.

Lemma finish_headers_eq cf hd m : finish_headers cf (head_st cf hd) (head_m1 cf m hd) =
  let st0 := head_st cf hd in
  let m0 := head_m0 cf m hd in
  let ho := if cf_headers_only cf then TTrue else TIndet in
  if m_chunked m0 then Ok (ho, None, (set_p_phase PChunks st0, m0))
  else if is_content_length_implied (cf_request cf) m0 then Ok (TTrue, None, (set_p_phase PEnd st0, m0))
  else if d_has (m_headers m0) HEADER_CONTENT_LENGTH then
    match update_content_length m0 with
    | None => Ok (TFalse, Some E_INVALID_CONTENT_LENGTH, (st0, m0))
    | Some m1 =>
      if m_clen m1 =? 0 then Ok (TTrue, None, (set_p_phase PEnd st0, m1))
      else
        let st1 := set_p_remaining (m_clen m1) (set_p_phase PContent st0) in
        let m2 := if cf_max cf <? m_clen m1 then set_m_clen (cf_max cf) m1 else m1 in
        if cf_headers_only cf then Ok (TTrue, None, (st1, m2))
        else obind (create_content_buffer m2) (fun m3 => Ok (TIndet, None, (st1, m3)))
    end
  else if cf_request cf then Ok (TTrue, None, (set_p_phase PEnd st0, m0))
  else Ok (ho, None, (set_p_phase PContentNoLength st0, set_m_cache [] m0)).
Proof. reflexivity. Qed.

(* ------------------------------------------------------------------ content length *)

Lemma dec_value_undigits s : forall a, undigits 10 a (map (fun c => c - 48) s) = fold_left (fun a c => a * 10 + digit_val c) s a.
Proof. induction s as [|c s IH]; intros a; cbn [map undigits fold_left]; auto. Qed.

Lemma trim_left_dec s : Forall is_dec s -> trim_left s = s.
Proof.
  destruct s as [|c s]; auto. intros HF. inversion HF as [|? ? HD ?]; subst. cbn [trim_left].
  unfold is_dec in HD. unfold c_isspace. replace (_ || _) with false by lia. reflexivity.
Qed.

Lemma cast_dec v : v <> [] -> Forall is_dec v -> dec_value v < two64 -> lexical_cast_size (trim v) = Some (dec_value v).
Proof.
  intros HN HF HV. unfold trim. rewrite (trim_left_dec v) by auto. rewrite (trim_left_dec (rev v)) by (apply Forall_rev; auto).
  rewrite rev_involutive. unfold lexical_cast_size. destruct v as [|c v]; [congruence|].
  inversion HF as [|? ? HD HF']; subst. unfold is_dec in HD.
  change (ch "-") with 45. change (ch "+") with 43. replace (c =? 45) with false by lia. replace (c =? 43) with false by lia.
  unfold dec_digits. assert (forallb is_digit (c :: v) = true) as ->.
  { apply forallb_forall. intros x Hx. rewrite Forall_forall in HF. specialize (HF x Hx). unfold is_dec in HF. unfold is_digit. lia. }
  rewrite dec_value_undigits. fold (dec_value (c :: v)). replace (dec_value (c :: v) <? two64) with true by lia. reflexivity.
Qed.

(** [finish] of a message with readable content and no multipart type *)
Lemma all_some_map l : all_some (map Some l) = Some l.
Proof. induction l as [|x l IH]; cbn; auto. rewrite IH. reflexivity. Qed.

Definition done_msg (m m' : msg) : Prop :=
  exists q, m' = set_m_queries q (compute_status (set_m_valid true m) true).

Lemma finish_ok cf st m body l : p_phase st = PEnd -> content_of m = Ok body ->
  Permutation l (m_headers m) ->
  (forall v, In v (values_of (bs "Content-Type") l) -> ~ exists t, v = bs "multipart/form-data" ++ t) ->
  exists m', finish cf st m = Ok m' /\ done_msg m m'.
Proof.
  intros HP HC HL HM. unfold finish. rewrite HP.
  assert (m_valid (set_m_valid true m) = true) as -> by reflexivity.
  set (m1 := compute_status (set_m_valid true m) true).
  assert (done_msg m m1) as D0. { exists (m_queries m1). unfold m1. destruct m; reflexivity. }
  unfold finish_forms. destruct (cf_request cf && negb (cf_handler cf) && negb (cf_headers_only cf)); [|eauto].
  assert (m_headers m1 = m_headers m) as -> by reflexivity.
  assert (content_of m1 = Ok body) as HC1 by exact HC.
  destruct (is_prefix CONTENT_TYPE_URLENCODED (d_get (m_headers m) HEADER_CONTENT_TYPE)).
  { rewrite HC1. cbn [obind]. eexists. split; [reflexivity|]. eexists. reflexivity. }
  destruct (is_prefix CONTENT_TYPE_MULTIPART (d_get (m_headers m) HEADER_CONTENT_TYPE)) eqn:EM; [|eauto].
  exfalso. apply is_prefix_spec in EM as [t EM]. unfold d_get in EM.
  pose proof (d_find_perm HEADER_CONTENT_TYPE _ _ HL) as DP.
  destruct (d_find (m_headers m) HEADER_CONTENT_TYPE) as [v|].
  - apply (HM v); auto. exists t. exact EM.
  - discriminate.
Qed.

Lemma done_content m m' body : done_msg m m' -> content_of m = Ok body -> content_of m' = Ok body.
Proof. intros [q ->] H. exact H. Qed.
Lemma done_headers m m' : done_msg m m' -> m_headers m' = m_headers m.
Proof. intros [q ->]. reflexivity. Qed.

(** one call of [parse] from two rounds *)
Lemma parse_two cf m s st1 m1 s1 r2 : m_missing m = false ->
  p_round cf (p_init cf) m s = Ok (mksub TIndet None (st1, m1) s1) -> s1 <> [] ->
  p_round cf st1 m1 s1 = Ok r2 -> s_rc r2 = TTrue ->
  forall m2, finish cf (set_p_phase PEnd (fst (s_st r2))) (snd (s_st r2)) = Ok m2 ->
  exists t, parse cf (p_init cf) m s = Ok (Some (mkpres TTrue (s_err r2) (set_p_last t (set_p_phase PEnd (fst (s_st r2)))) m2 (s_rest r2))).
Proof.
  intros HM R1 N1 R2 T2 m2 F. unfold parse. rewrite HM. rewrite p_loop_S, R1. cbn [obind s_rc s_rest s_st fst snd].
  destruct s1 as [|c s1]; [congruence|]. rewrite p_loop_S, R2. cbn [obind]. rewrite T2.
  destruct (s_rest r2) eqn:?; cbn [obind]; rewrite ?T2, F; cbn [obind]; eexists; first [reflexivity | congruence | (repeat f_equal; eauto)].
Qed.
Lemma parse_one cf m s r1 : m_missing m = false ->
  p_round cf (p_init cf) m s = Ok r1 -> s_rc r1 = TTrue ->
  forall m2, finish cf (set_p_phase PEnd (fst (s_st r1))) (snd (s_st r1)) = Ok m2 ->
  exists t, parse cf (p_init cf) m s = Ok (Some (mkpres TTrue (s_err r1) (set_p_last t (set_p_phase PEnd (fst (s_st r1)))) m2 (s_rest r1))).
Proof.
  intros HM R1 T1 m2 F. unfold parse. rewrite HM. rewrite p_loop_S, R1. cbn [obind]. rewrite T1.
  destruct (s_rest r1) eqn:?; cbn [obind]; rewrite ?T1, F; cbn [obind]; eexists; first [reflexivity | congruence | (repeat f_equal; eauto)].
Qed.

Lemma head_m0_missing cf m hd : m_missing (head_m0 cf m hd) = m_missing m.
Proof. unfold head_m0, update_message, update_transfer_encoding. destruct (cf_request cf); [destruct (h_query _)|]; reflexivity. Qed.

Lemma implied_bodiless cf m hd : head_ok cf hd -> m_headers m = [] -> ~ bodiless m hd ->
  is_content_length_implied (cf_request cf) (head_m0 cf m hd) = false.
Proof.
  intros HO HM HB. destruct (head_m0_facts cf m hd HO HM) as (_ & _ & _ & _ & RM & _ & _ & _ & F).
  unfold is_content_length_implied. destruct hd as [r l|r l]; destruct HO as (R & A & B); rewrite R; auto.
  destruct F as [F1 F2]. rewrite F1, RM. unfold bodiless in HB.
  destruct (str_eqb (m_req_method m) (bs "HEAD")) eqn:E; [apply str_eqb_eq in E; tauto|].
  lia.
Qed.
Lemma implied_bodiless_true cf m hd : head_ok cf hd -> m_headers m = [] -> bodiless m hd ->
  is_content_length_implied (cf_request cf) (head_m0 cf m hd) = true.
Proof.
  intros HO HM HB. destruct (head_m0_facts cf m hd HO HM) as (_ & _ & _ & _ & RM & _ & _ & _ & F).
  unfold is_content_length_implied. destruct hd as [r l|r l]; destruct HO as (R & A & B); rewrite R; [contradiction|].
  destruct F as [F1 F2]. rewrite F1, RM. unfold bodiless in HB.
  destruct HB as [-> |HB]; auto. lia.
Qed.

Lemma contains_chunked s : contains (bs "chunked") s = true -> exists a b, s = a ++ bs "chunked" ++ b.
Proof.
  induction s as [|c s IH]; intros H.
  - vm_compute in H. discriminate.
  - cbn [contains] in H. apply orb_prop in H as [H|H].
    + apply is_prefix_spec in H as [b ->]. exists [], b. reflexivity.
    + destruct (IH H) as (a & b & ->). exists (c :: a), b. reflexivity.
Qed.
Lemma no_te hd : values_of (bs "Transfer-Encoding") (hdrs_of hd) = [] -> no_chunks hd.
Proof. intros E v. rewrite E. intros []. Qed.
Lemma not_chunked cf m hd : head_ok cf hd -> m_headers m = [] -> no_chunks hd -> m_chunked (head_m0 cf m hd) = false.
Proof.
  intros HO HM HT. destruct (head_m0_facts cf m hd HO HM) as (P & _ & _ & _ & _ & _ & _ & C & _).
  rewrite C. pose proof (d_find_perm HEADER_TRANSFER_ENCODING _ _ P) as F.
  destruct (d_find _ _) as [v|]; [|reflexivity]. destruct (contains _ _) eqn:E; [|reflexivity].
  destruct (HT v F). exact (contains_chunked _ E).
Qed.

Lemma content_of_empty m : m_clen m = 0 -> content_of m = Ok [].
Proof. intros E. unfold content_of. rewrite E. pose proof (zlen_nonneg (m_buf m)). replace (0 <=? zlen (m_buf m)) with true by lia. reflexivity. Qed.

Lemma head_m0_first cf m hd : head_ok cf hd -> m_headers m = [] -> first_line hd (head_m0 cf m hd).
Proof.
  intros HO HM. destruct (head_m0_facts cf m hd HO HM) as (_ & _ & _ & _ & _ & V1 & V2 & _ & F). unfold first_line, head_ver in *.
  destruct hd; tauto.
Qed.

Lemma done_finished hd m m' body l e t st rest : done_msg m m' -> content_of m = Ok body -> m_missing m = false -> first_line hd m ->
  Permutation l (m_headers m) -> e = None ->
  finished hd (Ok (Some (mkpres TTrue e (set_p_last t st) m' rest))) body l rest.
Proof.
  intros D C MS FL P ->. eexists. split; [reflexivity|]. cbn.
  split; [reflexivity|]. split; [reflexivity|]. split; [destruct D as [q ->]; reflexivity|].
  split; [destruct D as [q ->]; unfold compute_status; cbn; rewrite MS; reflexivity|].
  split; [eapply done_content; eauto|]. split; [destruct D as [q ->]; exact FL|]. split; auto. rewrite (done_headers _ _ D). auto.
Qed.

(** the body ends where the Content-Length header that is found says, if no transfer coding is found that means chunks *)
Lemma content_length_found cf m hd v body more : storing cf -> head_ok cf hd -> m_headers m = [] -> m_missing m = false ->
  ~ bodiless m hd -> m_chunked (head_m0 cf m hd) = false ->
  d_find (m_headers (head_m0 cf m hd)) HEADER_CONTENT_LENGTH = Some v -> v <> [] -> Forall is_dec v -> dec_value v = zlen body ->
  zlen body <= cf_max cf -> zlen body < two64 - 1 -> no_multipart hd ->
  finished hd (parse cf (p_init cf) m (wire_head hd ++ body ++ more)) body (hdrs_of hd) more.
Proof.
  intros (HX & HO & HH) HD HM HMS HB NC DF V1 V2 V3 HL HL2 HMP. pose proof (zlen_nonneg body).
  pose proof (head_round cf m hd (body ++ more) HD) as HR. rewrite finish_headers_eq in HR. cbv zeta in HR.
  rewrite NC, (implied_bodiless cf m hd HD HM HB) in HR.
  destruct (head_m0_facts cf m hd HD HM) as (P & _ & _ & ML & _). pose proof (head_m0_first cf m hd HD HM) as FL. pose proof (head_m0_missing cf m hd) as MM. rewrite HMS in MM.
  unfold d_has, update_content_length in HR. rewrite DF in HR. rewrite cast_dec in HR by (auto; lia).
  rewrite V3 in HR. clear NC DF.
  set (m0 := head_m0 cf m hd) in *. clearbody m0.
  assert (m_clen (set_m_clen (zlen body) m0) = zlen body) as EC by reflexivity.
  rewrite EC in HR.
  destruct (zlen body =? 0) eqn:E0.
  - assert (body = []) as -> by (destruct body; auto; rewrite zlen_cons in E0; pose proof (zlen_nonneg body); lia).
    cbn [obind] in HR.
    destruct (finish_ok cf (set_p_phase PEnd (set_p_phase PEnd (head_st cf hd))) (set_m_clen (zlen (@nil Z)) m0) [] (hdrs_of hd)) as (m' & F & D); auto.
    { apply content_of_empty. reflexivity. }
    destruct (parse_one cf m (wire_head hd ++ [] ++ more) _ HMS HR eq_refl _ F) as [t ->].
    eapply done_finished; eauto. apply content_of_empty; reflexivity.
  - replace (cf_max cf <? zlen body) with false in HR by lia. rewrite HO in HR.
    unfold create_content_buffer in HR. rewrite EC in HR. rewrite wrap64_id in HR by lia.
    replace (zlen body + 1 <=? zlen body) with false in HR by lia. cbn [obind] in HR.
    set (st1 := set_p_remaining (zlen body) (set_p_phase PContent (head_st cf hd))) in *.
    set (m2 := set_m_buf (repeat None (Z.to_nat (zlen body))) (set_m_clen (zlen body) m0)) in *.
    assert (pinv cf st1 m2) as PI.
    { split; [|split]; [|discriminate|lia]. intros _. unfold st1, head_st. cbn. repeat split; try lia.
      intros _. unfold m2. cbn. unfold zlen at 1. rewrite repeat_length. lia. }
    assert (p_phase st1 = PContent) as PP by reflexivity.
    pose proof (consume_content_eq cf st1 m2 (body ++ more) PI PP) as R2. cbv zeta in R2.
    assert (content_bytes st1 (body ++ more) = zlen body) as CB.
    { unfold content_bytes, st1. cbn. rewrite zlen_app. pose proof (zlen_nonneg more). lia. }
    rewrite CB in R2.
    assert (p_remaining st1 <=? zlen (body ++ more) = true) as CR.
    { unfold st1. cbn. rewrite zlen_app. pose proof (zlen_nonneg more). lia. }
    rewrite CR in R2.
    assert (Z.to_nat (zlen body) = List.length body) as TN by (unfold zlen; lia).
    rewrite TN, firstn_app, firstn_all, Nat.sub_diag, skipn_app, skipn_all, Nat.sub_diag in R2. cbn [firstn skipn app] in R2. rewrite app_nil_r in R2.
    assert (p_round cf st1 m2 (body ++ more) = consume_content cf st1 m2 (body ++ more)) as RE by (unfold p_round; rewrite PP; reflexivity).
    assert (content_of (content_msg cf st1 m2 body) = Ok body) as CO.
    { unfold content_msg. rewrite HH. unfold st1, m2. cbn. rewrite Z.sub_0_r.
      rewrite (firstn_all2 body) by (unfold zlen in *; lia).
      unfold content_of, wr. cbn. rewrite TN.
      rewrite skipn_all2 by (rewrite repeat_length; unfold zlen in *; lia). rewrite app_nil_r.
      replace (zlen body <=? zlen (map Some body)) with true by (unfold zlen; rewrite map_length; lia).
      rewrite firstn_all2 by (rewrite map_length; lia). rewrite all_some_map. reflexivity. }
    assert (Permutation (hdrs_of hd) (m_headers (content_msg cf st1 m2 body))) as PH.
    { unfold content_msg. rewrite HH. exact P. }
    destruct (finish_ok cf (set_p_phase PEnd (content_st cf st1 body)) (content_msg cf st1 m2 body) body (hdrs_of hd)) as (m' & F & D); auto.
    assert (body ++ more <> []) as NE by (destruct body; [discriminate|discriminate]).
    destruct (parse_two cf m _ _ _ _ _ HMS HR NE (eq_trans RE R2) eq_refl _ F) as [t ->].
    cbn [s_err s_st s_rest fst snd]. eapply done_finished; eauto; unfold content_msg; rewrite HH; [exact MM|exact FL].
Qed.

Lemma content_length_body cf m hd v body more : storing cf -> head_ok cf hd -> m_headers m = [] -> m_missing m = false ->
  ~ bodiless m hd -> no_chunks hd ->
  values_of (bs "Content-Length") (hdrs_of hd) = [v] -> v <> [] -> Forall is_dec v -> dec_value v = zlen body ->
  zlen body <= cf_max cf -> zlen body < two64 - 1 -> no_multipart hd ->
  finished hd (parse cf (p_init cf) m (wire_head hd ++ body ++ more)) body (hdrs_of hd) more.
Proof.
  intros ST HD HM HMS HB HT HC. intros. eapply content_length_found; eauto; [apply not_chunked; auto|].
  destruct (head_m0_facts cf m hd HD HM) as (P & _). exact (d_find_one HEADER_CONTENT_LENGTH _ _ v P HC).
Qed.

(** lifting a result of one call to any segmentation *)
Lemma finished_feed cf hd m pieces s content hs rest : 0 <= cf_max cf -> Forall (fun s => s <> []) pieces -> concat pieces = s -> s <> [] ->
  finished hd (parse cf (p_init cf) m s) content hs rest -> finished hd (feed cf (p_init cf) m pieces) content hs rest.
Proof.
  intros HM HF HC HN (r & E & A1 & A2 & A3 & A4 & A5 & A6 & A7 & A8).
  assert (pieces <> []) as NP by (intros ->; cbn in HC; congruence).
  pose proof (segmentation any_msg false cf (p_init cf) m pieces HM (reach_new _ _ _ m I) NP HF) as SG.
  rewrite HC, E in SG. unfold same_outcome in SG.
  destruct (feed cf (p_init cf) m pieces) as [[r2|]|]; try contradiction.
  destruct SG as (S1 & S2 & S3 & S4 & _). exists r2. rewrite S1, S2, S3, S4. repeat split; auto.
Qed.

Lemma wire_head_nonempty cf hd s : head_ok cf hd -> wire_head hd ++ s <> [].
Proof.
  intros HO E. apply app_eq_nil in E as [E _]. unfold wire_head in E. apply app_eq_nil in E as [_ E].
  apply app_eq_nil in E as [_ E]. discriminate.
Qed.
