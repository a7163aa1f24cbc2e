(** Parsing of chunked bodies. *)
From Coq Require Import String ZArith List Lia Bool Permutation.
From Coq Require Import ZifyBool ZifyNat.
From Verif Require Import Base Digits AlgModel FormModel DictModel MultipartModel HttpModel HttpBase HttpSplit HttpSpec HttpProofs HttpHead HttpBody.
Import ListNotations.

Local Arguments zlen : simpl never.
Local Arguments Z.add : simpl never.
Local Arguments Z.sub : simpl never.
Local Arguments used : simpl never.
Local Arguments finish : simpl never.
Local Arguments cache_fill : simpl never.

Notation MkK := Build_chk.
Definition ksteps (cf : pcfg) (k : chk) (ca pa : list Z) (a : list Z) (k' : chk) (ca' pa' : list Z) : Prop :=
  forall s, k1_loop cf k ca pa (a ++ s) = k1_loop cf k' ca' pa' s.
Lemma ksteps_nil cf k ca pa : ksteps cf k ca pa [] k ca pa.
Proof. intros s. reflexivity. Qed.
Lemma ksteps_app cf k ca pa a k1 ca1 pa1 b k2 ca2 pa2 :
  ksteps cf k ca pa a k1 ca1 pa1 -> ksteps cf k1 ca1 pa1 b k2 ca2 pa2 -> ksteps cf k ca pa (a ++ b) k2 ca2 pa2.
Proof. intros A B s. rewrite <- app_assoc, A, B. reflexivity. Qed.
Lemma ksteps_one cf k ca pa c n k1 ca1 pa1 : k1_char cf k ca pa c = KCont n k1 ca1 pa1 -> ksteps cf k ca pa [c] k1 ca1 pa1.
Proof. intros E s. cbn [app k1_loop]. rewrite E. reflexivity. Qed.
Lemma ksteps_cons cf k ca pa c n k1 ca1 pa1 b k2 ca2 pa2 :
  k1_char cf k ca pa c = KCont n k1 ca1 pa1 -> ksteps cf k1 ca1 pa1 b k2 ca2 pa2 -> ksteps cf k ca pa (c :: b) k2 ca2 pa2.
Proof. intros A B. apply (ksteps_app _ _ _ _ [c] _ _ _ b _ _ _ (ksteps_one _ _ _ _ _ _ _ _ _ A) B). Qed.

Lemma hex_char_digit c : hex_char c -> is_hex_digit c = true.
Proof. unfold hex_char, is_hex_digit, is_digit. intros H. cbn. lia. Qed.
Lemma hex_digit_value c : hex_char c -> hex_value c = hex_digit_val c.
Proof.
  unfold hex_char, hex_value, hex_val, hex_digit_val. intros H.
  destruct ((48 <=? c) && (c <=? 57)) eqn:E1; [replace (c <=? 57) with true by lia; reflexivity|].
  replace (c <=? 57) with false by lia.
  destruct ((65 <=? c) && (c <=? 70)) eqn:E2; [replace (c <=? 70) with true by lia; reflexivity|].
  replace (c <=? 70) with false by lia.
  destruct ((97 <=? c) && (c <=? 102)) eqn:E3; lia.
Qed.
Lemma hex_number_strtol s : Forall hex_char s -> hex_number s < 9223372036854775808 -> strtol_hex s = hex_number s.
Proof.
  intros HF HV. unfold strtol_hex. rewrite Z.min_l.
  - unfold hex_number. clear HV. generalize 0. induction HF as [|c s HC HF IH]; intros a; cbn [map undigits fold_left]; auto.
    rewrite hex_digit_value by auto. apply IH.
  - enough (undigits 16 0 (map hex_value s) = hex_number s) by lia.
    unfold hex_number. clear HV. generalize 0. induction HF as [|c s HC HF IH]; intros a; cbn [map undigits fold_left]; auto.
    rewrite hex_digit_value by auto. apply IH.
Qed.

Lemma run_size1 cf ca pa sz rd : forall s str, Forall hex_char s ->
  ksteps cf (MkK KSize str sz rd) ca pa s (MkK KSize (str ++ s) sz rd) ca pa.
Proof.
  induction s as [|c s IH]; intros str HF; [rewrite app_nil_r; apply ksteps_nil|].
  inversion HF; subst. replace (str ++ c :: s) with ((str ++ [c]) ++ s) by (rewrite <- app_assoc; auto).
  eapply ksteps_cons; [|apply IH; auto]. unfold k1_char, k_char. cbn [k_state]. rewrite hex_char_digit by auto. reflexivity.
Qed.
Lemma run_size cf ca pa str sz rd s : s <> [] -> Forall hex_char s ->
  ksteps cf (MkK KSizeStart str sz rd) ca pa s (MkK KSize s sz rd) ca pa.
Proof.
  destruct s as [|c s]; [congruence|]. intros _ HF. inversion HF; subst.
  eapply ksteps_cons; [|apply (run_size1 _ _ _ _ _ s [c]); auto].
  unfold k1_char, k_char. cbn [k_state]. rewrite hex_char_digit by auto. reflexivity.
Qed.

Lemma run_blanks cf ca pa str sz rd : forall e, Forall (fun c => c = 32 \/ c = 9) e ->
  ksteps cf (MkK KCRAfterSize str sz rd) ca pa e (MkK KCRAfterSize str sz rd) ca pa.
Proof.
  induction e as [|c e IH]; intros HF; [apply ksteps_nil|]. inversion HF as [|? ? HC HF']; subst.
  eapply ksteps_cons; [|apply IH; auto]. unfold k1_char, k_char. cbn [k_state]. destruct HC as [-> | ->]; reflexivity.
Qed.
Lemma run_ignored cf ca pa str sz rd : forall e, Forall (fun c => c <> 13) e ->
  ksteps cf (MkK KIgnored str sz rd) ca pa e (MkK KIgnored str sz rd) ca pa.
Proof.
  induction e as [|c e IH]; intros HF; [apply ksteps_nil|]. inversion HF as [|? ? HC HF']; subst.
  eapply ksteps_cons; [|apply IH; auto]. unfold k1_char, k_char. cbn [k_state]. replace (c =? 13) with false by lia. reflexivity.
Qed.
Lemma run_ext cf ca pa str sz rd e : ext_ok e ->
  ksteps cf (MkK KSize str sz rd) ca pa (e ++ [13]) (MkK KLFAfterSize str sz rd) ca pa.
Proof.
  intros [HB|(t & -> & HT)].
  - destruct e as [|c e]; [apply ksteps_one with 1%nat; reflexivity|]. inversion HB as [|? ? HC HF']; subst.
    change ((c :: e) ++ [13]) with (c :: (e ++ [13])).
    apply ksteps_cons with 1%nat (MkK KCRAfterSize str sz rd) ca pa; [destruct HC as [-> | ->]; reflexivity|].
    eapply ksteps_app; [apply run_blanks; auto|]. apply ksteps_one with 1%nat; reflexivity.
  - change ((bs ";" ++ t) ++ [13]) with (59 :: (t ++ [13])).
    apply ksteps_cons with 1%nat (MkK KIgnored str sz rd) ca pa; [reflexivity|].
    eapply ksteps_app; [apply run_ignored; auto|]. apply ksteps_one with 1%nat; reflexivity.
Qed.

(** the size line of a chunk *)
Lemma run_size_line cf ca pa str sz rd s e : s <> [] -> Forall hex_char s -> ext_ok e -> hex_number s < 9223372036854775808 ->
  ksteps cf (MkK KSizeStart str sz rd) ca pa (s ++ e ++ CRLF)
    (MkK (if hex_number s =? 0 then KFinalCROrFooters else KChunk) s (hex_number s) 0) ca pa.
Proof.
  intros HN HF HE HV. change CRLF with ([13] ++ [10]). rewrite (app_assoc e).
  eapply ksteps_app; [apply run_size; auto|]. eapply ksteps_app; [apply run_ext; auto|].
  apply ksteps_one with 1%nat. unfold k1_char, k_char. cbn [k_state k_size_str]. rewrite hex_number_strtol by auto. reflexivity.
Qed.

(** chunk data without a handler *)
Lemma run_data cf pa str sz : cf_handler cf = false -> forall d ca rd, 0 <= rd -> d <> [] -> rd + zlen d <= sz -> zlen ca + zlen d <= cf_max cf ->
  ksteps cf (MkK KChunk str sz rd) ca pa d
    (MkK (if rd + zlen d =? sz then KCRAfterChunk else KChunk) str sz (rd + zlen d)) (ca ++ d) pa.
Proof.
  intros HH. induction d as [|c d IH]; intros ca rd HR HN HL HC; [congruence|].
  rewrite zlen_cons in *. pose proof (zlen_nonneg d).
  destruct d as [|c2 d].
  - apply ksteps_one with 1%nat. unfold k1_char, k_char. cbn [k_state k_read k_size]. rewrite HH, zlen_nil in *.
    replace (rd <? sz) with true by lia. replace (zlen ca <? cf_max cf) with true by lia. cbn.
    replace (rd + (1 + 0)) with (rd + 1) by lia. destruct (rd + 1 =? sz); reflexivity.
  - replace (rd + (1 + zlen (c2 :: d))) with ((rd + 1) + zlen (c2 :: d)) in * by lia.
    replace (ca ++ c :: c2 :: d) with ((ca ++ [c]) ++ c2 :: d) by (rewrite <- app_assoc; auto).
    eapply ksteps_cons; [|apply (IH (ca ++ [c]) (rd + 1))]; try lia; try congruence.
    + rewrite zlen_cons in *. pose proof (zlen_nonneg d). unfold k1_char, k_char. cbn [k_state k_read k_size]. rewrite HH.
      replace (rd <? sz) with true by lia. replace (zlen ca <? cf_max cf) with true by lia. cbn.
      replace (rd + 1 =? sz) with false by lia. reflexivity.
    + rewrite zlen_app, (zlen_cons c), zlen_nil. lia.
Qed.

(** ... and with one *)
Lemma run_data_h cf str sz ca d pa : cf_handler cf = true -> d <> [] -> zlen d = sz ->
  ksteps cf (MkK KChunk str sz 0) ca pa d (MkK KCRAfterChunk str sz sz) ca (pa ++ d).
Proof.
  intros HH HN HL s. pose proof (zlen_nonneg d).
  rewrite (k1_block cf d (MkK KChunk str sz 0) ca pa s) by (auto; cbn; lia).
  cbn. replace (0 + zlen d =? sz) with true by lia. replace (0 + zlen d) with sz by lia. reflexivity.
Qed.

Lemma run_chunk_crlf cf ca pa str sz rd : ksteps cf (MkK KCRAfterChunk str sz rd) ca pa CRLF (MkK KSizeStart str sz rd) ca pa.
Proof. apply ksteps_cons with 1%nat (MkK KLFAfterChunk str sz rd) ca pa; [reflexivity|]. apply ksteps_one with 1%nat; reflexivity. Qed.

Definition after_chunk (k : chk) (c : chunk) : chk := MkK KSizeStart (c_size c) (zlen (c_data c)) (zlen (c_data c)).
Lemma run_chunk cf ca pa str sz rd c : cf_handler cf = false -> chunk_ok c -> zlen ca + zlen (c_data c) <= cf_max cf ->
  ksteps cf (MkK KSizeStart str sz rd) ca pa (wire_chunk c) (MkK KSizeStart (c_size c) (zlen (c_data c)) (zlen (c_data c))) (ca ++ c_data c) pa.
Proof.
  intros HH (C1 & C2 & C3 & C4 & C5) HL. unfold wire_chunk. replace (c_size c ++ c_ext c ++ CRLF ++ c_data c ++ CRLF) with ((c_size c ++ c_ext c ++ CRLF) ++ c_data c ++ CRLF) by (rewrite <- !app_assoc; auto).
  eapply ksteps_app; [apply run_size_line; auto; lia|]. rewrite C4. replace (zlen (c_data c) =? 0) with false by lia.
  eapply ksteps_app; [apply run_data; auto; try lia|]. { destruct (c_data c); [rewrite zlen_nil in C5; lia|discriminate]. }
  replace (0 + zlen (c_data c)) with (zlen (c_data c)) by lia. rewrite Z.eqb_refl. apply run_chunk_crlf.
Qed.
Lemma run_chunk_h cf ca pa str sz rd c : cf_handler cf = true -> chunk_ok c ->
  ksteps cf (MkK KSizeStart str sz rd) ca pa (wire_chunk c) (MkK KSizeStart (c_size c) (zlen (c_data c)) (zlen (c_data c))) ca (pa ++ c_data c).
Proof.
  intros HH (C1 & C2 & C3 & C4 & C5). unfold wire_chunk. replace (c_size c ++ c_ext c ++ CRLF ++ c_data c ++ CRLF) with ((c_size c ++ c_ext c ++ CRLF) ++ c_data c ++ CRLF) by (rewrite <- !app_assoc; auto).
  eapply ksteps_app; [apply run_size_line; auto; lia|]. rewrite C4. replace (zlen (c_data c) =? 0) with false by lia.
  eapply ksteps_app; [apply run_data_h; auto|]. { destruct (c_data c); [rewrite zlen_nil in C5; lia|discriminate]. }
  apply run_chunk_crlf.
Qed.

Lemma run_chunks cf pa : cf_handler cf = false -> forall l ca str sz rd, Forall chunk_ok l -> zlen ca + zlen (chunk_data l) <= cf_max cf ->
  exists str' sz' rd', ksteps cf (MkK KSizeStart str sz rd) ca pa (concat (map wire_chunk l)) (MkK KSizeStart str' sz' rd') (ca ++ chunk_data l) pa.
Proof.
  intros HH. induction l as [|c l IH]; intros ca str sz rd HF HL.
  - do 3 eexists. unfold chunk_data. cbn. rewrite app_nil_r. apply ksteps_nil.
  - inversion HF as [|? ? HC HF']; subst. unfold chunk_data in *. cbn [map concat] in *. rewrite zlen_app in HL. pose proof (zlen_nonneg (concat (map c_data l))).
    destruct (IH (ca ++ c_data c) (c_size c) (zlen (c_data c)) (zlen (c_data c)) HF') as (s1 & s2 & s3 & ST); [rewrite zlen_app; lia|].
    exists s1, s2, s3. rewrite app_assoc. eapply ksteps_app; [apply run_chunk; auto; lia|exact ST].
Qed.
Lemma run_chunks_h cf ca : cf_handler cf = true -> forall l pa str sz rd, Forall chunk_ok l ->
  exists str' sz' rd', ksteps cf (MkK KSizeStart str sz rd) ca pa (concat (map wire_chunk l)) (MkK KSizeStart str' sz' rd') ca (pa ++ chunk_data l).
Proof.
  intros HH. induction l as [|c l IH]; intros pa str sz rd HF.
  - do 3 eexists. unfold chunk_data. cbn. rewrite app_nil_r. apply ksteps_nil.
  - inversion HF as [|? ? HC HF']; subst. unfold chunk_data in *. cbn [map concat] in *.
    destruct (IH (pa ++ c_data c) (c_size c) (zlen (c_data c)) (zlen (c_data c)) HF') as (s1 & s2 & s3 & ST).
    exists s1, s2, s3. rewrite app_assoc. eapply ksteps_app; [apply run_chunk_h; auto|exact ST].
Qed.

(** a full chunk cache: every byte is read and nothing changes *)
Lemma k1_wedged cf pa str sz rd ca : cf_handler cf = false -> rd < sz -> cf_max cf <= zlen ca -> forall s,
  k1_loop cf (MkK KChunk str sz rd) ca pa s = mksub TIndet None (mkkout (MkK KChunk str sz rd) ca pa false) [].
Proof.
  intros HH HR HC. induction s as [|c s IH]; auto. cbn [k1_loop]. unfold k1_char, k_char. cbn [k_state k_read k_size]. rewrite HH.
  replace (rd <? sz) with true by lia. replace (zlen ca <? cf_max cf) with false by lia. cbn.
  replace (rd =? sz) with false by lia. exact IH.
Qed.
Lemma k1_too_much cf pa : cf_handler cf = false -> forall l ca str sz rd more, Forall chunk_ok l ->
  zlen ca <= cf_max cf -> cf_max cf < zlen ca + zlen (chunk_data l) ->
  exists str' sz' rd' ca', k1_loop cf (MkK KSizeStart str sz rd) ca pa (concat (map wire_chunk l) ++ more) =
    mksub TIndet None (mkkout (MkK KChunk str' sz' rd') ca' pa false) [] /\ rd' < sz' /\ cf_max cf <= zlen ca'.
Proof.
  intros HH. induction l as [|c l IH]; intros ca str sz rd more HF HL HC.
  - unfold chunk_data in HC. cbn in HC. rewrite zlen_nil in HC. lia.
  - inversion HF as [|? ? HK HF']; subst. unfold chunk_data in *. cbn [map concat] in *. rewrite zlen_app in HC.
    rewrite <- app_assoc. destruct (Z_le_gt_dec (zlen ca + zlen (c_data c)) (cf_max cf)) as [LE|GT].
    + rewrite (run_chunk cf ca pa str sz rd c HH HK LE). apply IH; auto; rewrite zlen_app; lia.
    + destruct HK as (C1 & C2 & C3 & C4 & C5).
      set (tl := concat (map wire_chunk l) ++ more) in *.
      replace (wire_chunk c ++ tl)
        with ((c_size c ++ c_ext c ++ CRLF) ++ c_data c ++ (CRLF ++ tl)) by (unfold wire_chunk; rewrite <- !app_assoc; auto).
      rewrite (run_size_line cf ca pa str sz rd (c_size c) (c_ext c)) by (auto; lia). rewrite C4. replace (zlen (c_data c) =? 0) with false by lia.
      set (n := Z.to_nat (cf_max cf - zlen ca)).
      replace (c_data c ++ CRLF ++ tl) with (firstn n (c_data c) ++ skipn n (c_data c) ++ CRLF ++ tl) by (rewrite app_assoc, firstn_skipn; auto).
      assert (zlen (firstn n (c_data c)) = cf_max cf - zlen ca) as ZN. { unfold zlen in *. rewrite firstn_length. lia. }
      destruct (firstn n (c_data c)) as [|d1 dl] eqn:ED.
      * rewrite zlen_nil in ZN. cbn [app]. do 4 eexists. split; [apply k1_wedged; auto; lia|]. split; lia.
      * rewrite <- ED in *. rewrite (run_data cf pa (c_size c) (zlen (c_data c)) HH (firstn n (c_data c)) ca 0); try lia; [|rewrite ED; discriminate].
        replace (0 + zlen (firstn n (c_data c)) =? zlen (c_data c)) with false by lia.
        do 4 eexists. split; [apply k1_wedged; auto|]; rewrite ?zlen_app; try lia.
Qed.

(* ------------------------------------------------------------------ whole messages *)

Lemma head_chunked cf m hd v : head_ok cf hd -> m_headers m = [] ->
  values_of (bs "Transfer-Encoding") (hdrs_of hd) = [v] -> says_chunked v -> m_chunked (head_m0 cf m hd) = true.
Proof.
  intros HO HM HT (a & b & HC). destruct (head_m0_facts cf m hd HO HM) as (P & _ & _ & _ & _ & _ & _ & C & _).
  rewrite C. rewrite (d_find_one HEADER_TRANSFER_ENCODING _ _ v P HT). change (map ascii_low v) with (lower_str v) in HC.
  rewrite HC. clear. induction a as [|x a IH]; cbn [app].
  - change (bs "chunked") with (99 :: bs "hunked"). cbn [app contains]. change (99 :: bs "hunked") with (bs "chunked").
    replace (is_prefix (bs "chunked") (99 :: bs "hunked" ++ b)) with true; [reflexivity|]. symmetry. apply is_prefix_spec. exists b. reflexivity.
  - cbn [contains]. rewrite IH. apply orb_true_r.
Qed.

(** state after the head of a chunked message *)
Definition chunk_st (cf : pcfg) (hd : head) : pst := set_p_phase PChunks (head_st cf hd).
Lemma chunk_round1 cf m hd v s : cf_headers_only cf = false -> head_ok cf hd -> m_headers m = [] ->
  values_of (bs "Transfer-Encoding") (hdrs_of hd) = [v] -> says_chunked v ->
  p_round cf (p_init cf) m (wire_head hd ++ s) = Ok (mksub TIndet None (chunk_st cf hd, head_m0 cf m hd) s).
Proof.
  intros HO HD HM HT HC. rewrite head_round by auto. rewrite finish_headers_eq. cbv zeta.
  rewrite (head_chunked cf m hd v) by auto. rewrite HO. reflexivity.
Qed.

(** [concatenate_chunks] makes the cache readable *)
Lemma concatenate_ok m : zlen (m_cache m) < two64 - 1 ->
  concatenate_chunks m = Ok (set_m_buf (map Some (m_cache m)) (set_m_clen (zlen (m_cache m)) m)).
Proof.
  intros H. pose proof (zlen_nonneg (m_cache m)). unfold concatenate_chunks, create_content_buffer.
  assert (m_clen (set_m_clen (zlen (m_cache m)) m) = zlen (m_cache m)) as -> by reflexivity.
  rewrite wrap64_id by lia. replace (zlen (m_cache m) + 1 <=? zlen (m_cache m)) with false by lia. cbn [obind].
  unfold buf_write. assert (zlen (m_buf (set_m_buf (repeat None (Z.to_nat (zlen (m_cache m)))) (set_m_clen (zlen (m_cache m)) m))) = zlen (m_cache m)) as Z1.
  { unfold zlen at 1. cbn. rewrite repeat_length. lia. }
  rewrite Z1. replace (0 + zlen (m_cache m) <=? zlen (m_cache m)) with true by lia. f_equal.
  assert (forall x y mm, set_m_buf x (set_m_buf y mm) = set_m_buf x mm) as SS by (intros; destruct mm; reflexivity). rewrite SS. f_equal.
  cbn [firstn Z.to_nat app]. rewrite skipn_all2; [apply app_nil_r|]. unfold zlen in *. lia.
Qed.
Lemma content_of_cache m c : content_of (set_m_buf (map Some c) (set_m_clen (zlen c) m)) = Ok c.
Proof.
  unfold content_of. cbn. unfold zlen at 2. rewrite map_length. fold (zlen c). rewrite Z.leb_refl.
  rewrite firstn_all2 by (rewrite map_length; unfold zlen; lia). rewrite all_some_map. reflexivity.
Qed.

(** what parse_chunks gives on a whole body *)
Lemma chunks_done cf st m l size ext more : cf_handler cf = false -> p_k st = k_init -> m_cache m = [] ->
  Forall chunk_ok l -> last_ok size ext -> zlen (chunk_data l) <= cf_max cf ->
  exists k n tot cr, parse_chunks cf st m (concat (map wire_chunk l) ++ size ++ ext ++ CRLF ++ CRLF ++ more) =
    mksub TTrue None (set_p_content_read cr (set_p_total tot (set_p_last n (set_p_payload (p_payload st) (set_p_k k st)))),
                      set_m_cache (chunk_data l) m) more.
Proof.
  intros HH HK HC HF (L1 & L2 & L3 & L4) HL. unfold parse_chunks. rewrite HC, HK.
  rewrite k_loop_k1; [|intros X; discriminate|auto].
  destruct (run_chunks cf (p_payload st) HH l [] [] 0 0 HF) as (s1 & s2 & s3 & ST); [rewrite zlen_nil; lia|].
  rewrite (ST : forall s, k1_loop cf k_init [] _ (_ ++ s) = _).
  replace (size ++ ext ++ CRLF ++ CRLF ++ more) with ((size ++ ext ++ CRLF) ++ CRLF ++ more) by (rewrite <- !app_assoc; auto).
  rewrite (run_size_line cf _ _ s1 s2 s3 size ext) by (auto; lia). rewrite L4. cbn [Z.eqb].
  cbn -[set_p_content_read set_p_total set_p_last set_p_payload set_p_k set_m_cache]. do 4 eexists. reflexivity.
Qed.
Lemma chunks_trailers cf st m l size ext c more : cf_handler cf = false -> p_k st = k_init -> m_cache m = [] ->
  Forall chunk_ok l -> last_ok size ext -> zlen (chunk_data l) <= cf_max cf -> c <> 13 ->
  exists k n tot cr, parse_chunks cf st m (concat (map wire_chunk l) ++ size ++ ext ++ CRLF ++ c :: more) =
    mksub TTrue None (set_p_content_read cr (set_p_total tot (set_p_last n
             (set_p_phase PFooters (set_p_h (goto (p_h st) HHeaderStart) (set_p_payload (p_payload st) (set_p_k k st)))))),
                      set_m_cache (chunk_data l) m) (c :: more).
Proof.
  intros HH HK HC HF (L1 & L2 & L3 & L4) HL HN. unfold parse_chunks. rewrite HC, HK.
  rewrite k_loop_k1; [|intros X; discriminate|auto].
  destruct (run_chunks cf (p_payload st) HH l [] [] 0 0 HF) as (s1 & s2 & s3 & ST); [rewrite zlen_nil; lia|].
  rewrite (ST : forall s, k1_loop cf k_init [] _ (_ ++ s) = _).
  replace (size ++ ext ++ CRLF ++ c :: more) with ((size ++ ext ++ CRLF) ++ c :: more) by (rewrite <- !app_assoc; auto).
  rewrite (run_size_line cf _ _ s1 s2 s3 size ext) by (auto; lia). rewrite L4. cbn [Z.eqb k1_loop].
  unfold k1_char, k_char. cbn [k_state]. replace (c =? 13) with false by lia.
  cbn -[set_p_content_read set_p_total set_p_last set_p_payload set_p_k set_m_cache]. do 4 eexists. reflexivity.
Qed.

Lemma parse_three cf m s st1 m1 s1 st2 m2 s2 r3 : m_missing m = false ->
  p_round cf (p_init cf) m s = Ok (mksub TIndet None (st1, m1) s1) -> s1 <> [] ->
  p_round cf st1 m1 s1 = Ok (mksub TIndet None (st2, m2) s2) -> s2 <> [] ->
  p_round cf st2 m2 s2 = Ok r3 -> s_rc r3 = TTrue ->
  forall m3, finish cf (set_p_phase PEnd (fst (s_st r3))) (snd (s_st r3)) = Ok m3 ->
  exists t, parse cf (p_init cf) m s = Ok (Some (mkpres TTrue (s_err r3) (set_p_last t (set_p_phase PEnd (fst (s_st r3)))) m3 (s_rest r3))).
Proof.
  intros HM R1 N1 R2 N2 R3 T3 m3 F. unfold parse. rewrite HM. rewrite p_loop_S, R1. cbn [obind s_rc s_rest s_st fst snd].
  destruct s1 as [|c1 s1]; [congruence|]. rewrite p_loop_S, R2. cbn [obind s_rc s_rest s_st fst snd].
  destruct s2 as [|c2 s2]; [congruence|]. rewrite p_loop_S, R3. cbn [obind]. rewrite T3.
  destruct (s_rest r3) eqn:?; cbn [obind]; rewrite ?T3, F; cbn [obind]; eexists; first [reflexivity | congruence | (repeat f_equal; eauto)].
Qed.

Lemma wire_hdr_first p : hdr_ok p -> exists c s, wire_hdr p = c :: s /\ c <> 13.
Proof.
  intros (A & B & _). unfold wire_hdr. destruct (fst p) as [|c s]; [congruence|]. inversion B as [|? ? T _]; subst.
  exists c. cbn [app]. eexists. split; [reflexivity|]. intros ->. destruct T as (T & _). unfold is_byte in *. lia.
Qed.

Lemma wire_hdrs_first l more : Forall hdr_ok l -> l <> [] -> exists c s, wire_hdrs l ++ more = c :: s /\ c <> 13.
Proof.
  destruct l as [|p l]; [congruence|]. intros HF _. inversion HF; subst. destruct (wire_hdr_first p) as (c & s & E & N); auto.
  unfold wire_hdrs. cbn [map concat]. rewrite E. cbn [app]. eauto.
Qed.

Lemma ins_all_perm cf m l : Permutation (l ++ m_headers m) (m_headers (ins_all cf m l)).
Proof. unfold ins_all. cbn. apply d_insert_all_perm. Qed.

(** a chunked body without a handler, with or without trailers *)
Lemma chunked_body cf m hd v l size ext tr more : storing cf -> head_ok cf hd -> m_headers m = [] -> m_cache m = [] -> m_missing m = false ->
  values_of (bs "Transfer-Encoding") (hdrs_of hd) = [v] -> says_chunked v ->
  Forall chunk_ok l -> last_ok size ext -> zlen (chunk_data l) <= cf_max cf -> zlen (chunk_data l) < two64 - 1 -> Forall hdr_ok tr ->
  (forall v, In v (values_of (bs "Content-Type") (tr ++ hdrs_of hd)) -> ~ exists t, v = bs "multipart/form-data" ++ t) ->
  finished hd (parse cf (p_init cf) m (wire_head hd ++ wire_chunks l size ext tr ++ more)) (chunk_data l) (tr ++ hdrs_of hd) more.
Proof.
  intros (HX & HO & HH) HD HM HC HMS HT HTC HF HL HS HS2 HTR HMP.
  assert (wire_chunks l size ext tr ++ more <> []) as N1.
  { unfold wire_chunks. destruct HL as (L1 & _). destruct size; [congruence|]. intros E. rewrite <- !app_assoc in E.
    apply app_eq_nil in E as [_ E]. discriminate. }
  pose proof (chunk_round1 cf m hd v (wire_chunks l size ext tr ++ more) HO HD HM HT HTC) as R1.
  destruct (head_m0_facts cf m hd HD HM) as (P & C0 & _ & _ & _ & VM & _). pose proof (head_m0_first cf m hd HD HM) as FL. pose proof (head_m0_missing cf m hd) as MM. rewrite HMS in MM.
  set (m0 := head_m0 cf m hd) in *. clearbody m0. rewrite HC in C0.
  assert (p_k (chunk_st cf hd) = k_init) as EK by reflexivity.
  set (mc := set_m_buf (map Some (chunk_data l)) (set_m_clen (zlen (chunk_data l)) (set_m_cache (chunk_data l) m0))).
  assert (concatenate_chunks (set_m_cache (chunk_data l) m0) = Ok mc) as CC by (rewrite concatenate_ok; auto).
  destruct tr as [|p tr].
  - destruct (chunks_done cf (chunk_st cf hd) m0 l size ext more HH EK C0 HF HL HS) as (k & n & tot & cr & E).
    assert (p_round cf (chunk_st cf hd) m0 (wire_chunks l size ext [] ++ more) =
            Ok (mksub TTrue None (set_p_content_read cr (set_p_total tot (set_p_last n (set_p_payload (p_payload (chunk_st cf hd)) (set_p_k k (chunk_st cf hd))))), mc) more)) as R2.
    { unfold p_round. assert (p_phase (chunk_st cf hd) = PChunks) as -> by reflexivity.
      unfold wire_chunks, wire_hdrs. cbn [map concat]. rewrite <- !app_assoc. cbn [app] in *. unfold wire_chunks, wire_hdrs in E. 
      cbn [app] in E. rewrite E. cbn [s_rc s_st s_err s_rest fst snd]. rewrite HH, CC. reflexivity. }
    destruct (finish_ok cf (set_p_phase PEnd (set_p_content_read cr (set_p_total tot (set_p_last n (set_p_payload (p_payload (chunk_st cf hd)) (set_p_k k (chunk_st cf hd))))))) mc (chunk_data l) (hdrs_of hd)) as (m' & F & D); auto.
    { apply content_of_cache. }
    destruct (parse_two cf m _ _ _ _ _ HMS R1 N1 R2 eq_refl _ F) as [t ->].
    cbn [s_err s_st s_rest fst snd]. eapply done_finished; eauto. apply content_of_cache.
  - destruct (wire_hdrs_first (p :: tr) (CRLF ++ more) HTR) as (c & s & EC & NC); [discriminate|].
    destruct (chunks_trailers cf (chunk_st cf hd) m0 l size ext c s HH EK C0 HF HL HS NC) as (k & n & tot & cr & E).
    match type of E with _ = mksub _ _ (?x, _) _ => set (st2 := x) in * end.
    assert (p_round cf (chunk_st cf hd) m0 (wire_chunks l size ext (p :: tr) ++ more) = Ok (mksub TIndet None (st2, mc) (c :: s))) as R2.
    { unfold p_round. assert (p_phase (chunk_st cf hd) = PChunks) as -> by reflexivity.
      unfold wire_chunks. rewrite <- !app_assoc. rewrite EC, E. cbn [s_rc s_st s_err s_rest fst snd]. rewrite HH, CC. reflexivity. }
    set (nv := last_hdr (h_name (head_h cf hd)) (h_value (head_h cf hd)) (p :: tr)).
    assert (exists h3 mf, Permutation ((p :: tr) ++ m_headers mc) (m_headers mf) /\ content_of mf = Ok (chunk_data l) /\ m_missing mf = false /\ first_line hd mf /\
              h_loop cf (p_h st2) mc (c :: s) = mksub TTrue None (h3, mf) more) as (h3 & mf & PF & CF & MF & FF & HL3).
    { assert (exists me re q co rs na va raw, p_h st2 = MkH HHeaderStart me re q co rs na va raw) as (me & re & q & co & rs & na & va & raw & EH).
      { exists (h_method (head_h cf hd)), (h_resource (head_h cf hd)), (h_query (head_h cf hd)), (h_code (head_h cf hd)), (h_reason (head_h cf hd)),
          (h_name (head_h cf hd)), (h_value (head_h cf hd)), (h_raw (head_h cf hd)).
        unfold st2, chunk_st, head_st. cbn. unfold goto. destruct (head_h cf hd); reflexivity. }
      rewrite EH, <- EC. rewrite (run_hdrs cf me re q co rs (p :: tr) mc na va raw HTR).
      - rewrite h_loop_done. do 2 eexists. split; [apply ins_all_perm|]. split; [apply content_of_cache|]. split; [exact MM|]. split; [exact FL|reflexivity].
      - intros RQ. unfold mc. cbn. rewrite VM. destruct hd as [r hl|r hl]; destruct HD as (RR & A & _); [|congruence].
        cbn [head_ver]. destruct A as (_ & _ & _ & _ & _ & _ & _ & A). lia. }
    assert (exists r3, p_round cf st2 mc (c :: s) = Ok r3 /\ s_rc r3 = TTrue /\ snd (s_st r3) = mf /\ s_rest r3 = more /\ s_err r3 = None) as (r3 & R3 & T3 & S3 & Q3 & E3).
    { unfold p_round. assert (p_phase st2 = PFooters) as -> by reflexivity. unfold parse_headers. rewrite HL3. eexists. split; [reflexivity|]. auto. }
    assert (Permutation ((p :: tr) ++ hdrs_of hd) (m_headers mf)) as PM.
    { eapply Permutation_trans; [|exact PF]. apply Permutation_app_head. exact P. }
    destruct (finish_ok cf (set_p_phase PEnd (fst (s_st r3))) (snd (s_st r3)) (chunk_data l) ((p :: tr) ++ hdrs_of hd)) as (m' & F & D); rewrite ?S3; auto.
    assert (c :: s <> []) as N2 by discriminate.
    destruct (parse_three cf m _ _ _ _ _ _ _ _ HMS R1 N1 R2 N2 R3 T3 _ F) as [t ->].
    rewrite Q3, E3, S3 in *. eapply done_finished; eauto.
Qed.
