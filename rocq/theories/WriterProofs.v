(** Proofs about the writer. *)
From Coq Require Import String ZArith List Lia Bool Permutation.
From Verif Require Import Base Digits AlgModel FormModel DictModel MultipartModel HttpModel HttpBase HttpSplit HttpSpec HttpProofs HttpHead HttpBody HttpChunk HttpFeeds DictSpec DictProofs MessageModel MessageSpec MessageProofs WriterModel WriterSpec.
Import ListNotations.

Local Arguments zlen : simpl never.
Local Arguments Z.add : simpl never.
Local Arguments Z.sub : simpl never.
Local Arguments print_dec : simpl never.
Local Arguments print_hex : simpl never.
Local Arguments wrap64 : simpl never.

(** the payload not yet sent or cleared *)
Definition pend (w : wst) : list Z := w_bufs w ++ w_stream w.
Definition winv (w : wst) : Prop := (w_stream_empty w = true -> w_stream w = []) /\ w_len w = wrap64 (zlen (w_bufs w)).
(** what payload calls leave alone *)
Definition same_rest (w w' : wst) : Prop :=
  w_msg w' = w_msg w /\ w_life w' = w_life w /\ w_open w' = w_open w /\ w_out w' = w_out w /\ w_chunks w' = w_chunks w
  /\ w_chunking w' = w_chunking w /\ w_sent_headers w' = w_sent_headers w.
Lemma same_rest_refl w : same_rest w w.
Proof. unfold same_rest. auto 10. Qed.
Lemma same_rest_trans a b c : same_rest a b -> same_rest b c -> same_rest a c.
Proof. unfold same_rest. intuition congruence. Qed.

Lemma wrap64_add a b : wrap64 (wrap64 a + b) = wrap64 (a + b).
Proof. unfold wrap64. apply Zplus_mod_idemp_l. Qed.

Lemma flush_ok w : winv w -> let w' := w_flush w in
  winv w' /\ w_bufs w' = pend w /\ w_stream w' = [] /\ w_stream_empty w' = true /\ same_rest w w'.
Proof.
  intros [I1 I2]. cbv zeta. unfold w_flush, pend. destruct (w_stream_empty w) eqn:E.
  - rewrite I1 by auto. rewrite app_nil_r. split; [split; auto|]. auto using same_rest_refl.
  - destruct (w_stream w) as [|c s] eqn:S; cbn.
    + rewrite app_nil_r. unfold winv, same_rest. cbn. auto 12.
    + unfold winv, same_rest. cbn. split; [split; auto|auto 10]. rewrite I2, wrap64_add, zlen_app. reflexivity.
Qed.

Lemma write_ok pos w x : winv w -> is_write x -> let w' := w_op pos w x in winv w' /\ pend w' = pend w ++ payload x /\ same_rest w w'.
Proof.
  intros I W. cbv zeta. destruct x; try contradiction; cbn [w_op payload].
  - unfold w_text, winv, pend, same_rest. cbn. destruct I as [I1 I2]. split; [split; [discriminate|auto]|]. rewrite app_assoc. auto 10.
  - unfold w_binary. destruct s as [|c s]; [rewrite app_nil_r; auto using same_rest_refl|]. destruct (flush_ok w I) as ([J1 J2] & B & S & SE & R).
    unfold winv, pend, same_rest in *. cbn. rewrite SE, S, B in *. rewrite !app_nil_r. split; [split; auto|auto]. rewrite J2, wrap64_add, !zlen_app. reflexivity.
  - unfold w_no_copy. destruct s as [|c s]; [rewrite app_nil_r; auto using same_rest_refl|]. destruct (flush_ok w I) as ([J1 J2] & B & S & SE & R).
    unfold winv, pend, same_rest in *. cbn. rewrite SE, S, B in *. rewrite !app_nil_r. split; [split; auto|auto]. rewrite J2, wrap64_add, !zlen_app. reflexivity.
Qed.

Lemma zlen_zero {A} (l : list A) : (0 <? zlen l) = false -> l = [].
Proof. destruct l as [|b t]; [reflexivity|]. rewrite zlen_cons. pose proof (zlen_nonneg t). lia. Qed.

(* ------------------------------------------------------------------ set-up calls *)

Definition setup_state (w w' : wst) : Prop :=
  w_life w' = w_life w /\ w_open w' = w_open w /\ w_out w' = w_out w /\ w_chunks w' = w_chunks w
  /\ w_chunking w' = w_chunking w /\ w_sent_headers w' = w_sent_headers w /\ o_request (w_msg w') = o_request (w_msg w).

Lemma op_request pos o x : o_request (msg_op pos o x) = o_request o.
Proof. exact (ops_request pos [x] o). Qed.

Lemma setup_ok pos l : forall w, winv w -> line_inv (w_msg w) -> Forall is_setup l -> let w' := w_ops pos w l in
  winv w' /\ pend w' = collected (pend w) l /\ setup_state w w' /\ line_inv (w_msg w').
Proof.
  induction l as [|x l IH]; intros w I L F; cbv zeta; [unfold setup_state; auto 12|].
  change (w_ops pos w (x :: l)) with (w_ops pos (w_op pos w x) l).
  pose proof (Forall_inv F) as FX. pose proof (Forall_inv_tail F) as FL.
  assert (winv (w_op pos w x) /\ pend (w_op pos w x) = (match x with WClear => [] | _ => pend w ++ payload x end) /\ setup_state w (w_op pos w x) /\ line_inv (w_msg (w_op pos w x))) as (A & B & C & D).
  { destruct x; try contradiction.
    1: pose proof (write_ok pos w (WText s) I Logic.I) as WO. 2: pose proof (write_ok pos w (WBinary s) I Logic.I) as WO. 3: pose proof (write_ok pos w (WNoCopy s) I Logic.I) as WO.
    1-3: destruct WO as (A & B & C); split; [exact A|]; split; [exact B|]; unfold same_rest, setup_state in *;
      destruct C as (C1 & C2 & C3 & C4 & C5 & C6 & C7); rewrite C1, C2, C3, C4, C5, C6, C7; auto 12.
    - unfold winv, pend, setup_state. cbn. auto 12.
    - cbn [w_op payload]. unfold winv, pend, setup_state. cbn. rewrite app_nil_r, op_request. destruct I. split; [auto|]. split; [auto|]. split; [auto 10|].
      apply op_line; auto. }
  destruct (IH _ A D FL) as (E & G & H & K). split; [auto|]. split; [|split; [|auto]].
  - rewrite G, B. destruct x; reflexivity.
  - unfold setup_state in *. destruct C as (C1 & C2 & C3 & C4 & C5 & C6 & C7). destruct H as (H1 & H2 & H3 & H4 & H5 & H6 & H7).
    rewrite <- C1, <- C2, <- C3, <- C4, <- C5, <- C6, <- C7. auto 12.
Qed.

(* ------------------------------------------------------------------ creation *)

Definition fresh (w : wst) : Prop := winv w /\ w_open w = true /\ w_out w = [] /\ w_chunking w = false /\ w_sent_headers w = false.
Lemma w_new_fresh o life c : fresh (w_new o life c).
Proof. unfold fresh, winv. cbn. auto 10. Qed.

Lemma zlen_pos_nonnil {A} (l : list A) : l <> [] -> 0 < zlen l.
Proof. destruct l; [congruence|]. rewrite zlen_cons. pose proof (zlen_nonneg l). lia. Qed.

Lemma create_ok o life body : 0 <= m_clen (o_msg o) -> content_of (o_msg o) = Ok body -> no_nul body ->
  exists w, w_create o life = Ok w /\ fresh w /\ pend w = body /\ w_msg w = o /\ w_life w = life
    /\ w_chunks w = (if o_request o then true else o_chunks o).
Proof.
  intros C0 CO NN. pose proof (content_len _ _ C0 CO) as CL. unfold w_create. rewrite CL, CO. destruct (0 <? zlen body) eqn:E.
  - assert (exists c t, m_buf (o_msg o) = Some c :: t /\ exists t', body = c :: t') as (c & t & MB & t' & ->).
    { unfold content_of in CO. rewrite CL in CO. destruct (zlen body <=? zlen (m_buf (o_msg o))); [|discriminate].
      destruct (m_buf (o_msg o)) as [|x t]; [rewrite firstn_nil in CO; cbn in CO; injection CO as <-; discriminate|].
      replace (Z.to_nat (zlen body)) with (S (Z.to_nat (zlen body - 1))) in CO by lia. cbn in CO. destruct x as [c|]; [|discriminate].
      destruct (all_some _) eqn:A; [|discriminate]. injection CO as <-. eauto. }
    rewrite MB. assert ((c =? 0) = false) as -> by (apply Z.eqb_neq; intros ->; eapply NN; reflexivity). cbn [obind].
    eexists. split; [reflexivity|]. pose proof (w_new_fresh o life (if o_request o then true else o_chunks o)) as (I & F1 & F2 & F3 & F4).
    set (w := w_new o life (if o_request o then true else o_chunks o)) in *.
    destruct (write_ok (fun _ _ => 0%nat) w (WNoCopy (c :: t')) I Logic.I) as (A & B & C). cbn [w_op payload] in *.
    destruct C as (C1 & C2 & C3 & C4 & C5 & C6 & C7). unfold fresh. rewrite B, C1, C2, C3, C4, C5, C6, C7. subst w. auto 12.
  - eexists. split; [reflexivity|]. split; [apply w_new_fresh|]. destruct body as [|b body]; [|rewrite zlen_cons in E; pose proof (zlen_nonneg body); lia].
    cbn. auto.
Qed.

(* ------------------------------------------------------------------ the first send *)

Definition with_len (o : omsg) (n : Z) : omsg := if 0 <? n then o_with o (set_m_clen n (o_msg o)) else o.
Lemma with_len_line o n : same_line o (with_len o n).
Proof. unfold with_len, same_line, update_first_line, version_string, o_with. destruct (0 <? n); cbn; auto. Qed.
Lemma with_len_same o n : o_request (with_len o n) = o_request o /\ o_chunks (with_len o n) = o_chunks o /\ o_nolen (with_len o n) = o_nolen o
  /\ m_headers (o_msg (with_len o n)) = m_headers (o_msg o) /\ m_cookies (o_msg (with_len o n)) = m_cookies (o_msg o).
Proof. unfold with_len. destruct (0 <? n); cbn; auto. Qed.
Lemma with_len_legal o n : legal o -> legal (with_len o n).
Proof. unfold with_len. destruct (0 <? n); auto. Qed.
Lemma with_len_head o n l : head_of (with_len o n) l = head_of o l.
Proof. unfold with_len. destruct (0 <? n); auto. Qed.
Lemma with_len_clen o n : m_clen (o_msg (with_len o n)) = if 0 <? n then n else m_clen (o_msg o).
Proof. unfold with_len. destruct (0 <? n); auto. Qed.

(** the content of a message on the wire *)
Definition content_wire (w : wst) (final : bool) (body : list Z) : list Z :=
  (if 0 <? zlen body then if w_chunks w && w_chunking w then print_hex (zlen body) ++ [13; 10] ++ body ++ [13; 10] else body else [])
  ++ (if final && (w_chunks w && w_chunking w) then bs "0" ++ [13; 10; 13; 10] else []).

Lemma send_first pos w final : winv w -> line_inv (w_msg w) -> w_open w = true -> w_sent_headers w = false -> zlen (pend w) < two64 ->
  let w' := w_send_more pos w final in
  let o := with_len (w_msg w) (zlen (pend w)) in
  w_out w' = w_out w ++ wire_head (head_of (w_msg w) (sent_headers pos o (keeps (w_life w)) (w_chunking w))) ++ content_wire w final (pend w)
  /\ winv w' /\ w_sent_headers w' = true /\ w_open w' = true /\ w_life w' = w_life w /\ w_chunks w' = w_chunks w /\ w_chunking w' = w_chunking w
  /\ pend w' = pend w.
Proof.
  intros I L O SH PL. cbv zeta. unfold w_send_more. rewrite O. cbn [negb]. destruct (flush_ok w I) as (J & B & S & SE & R1 & R2 & R3 & R4 & R5 & R6 & R7).
  set (w1 := w_flush w) in *. clearbody w1. rewrite R7, SH.
  assert (w_len w1 = zlen (pend w)) as WL.
  { destruct J as [_ ->]. rewrite B. unfold wrap64. apply Z.mod_small. split; [apply zlen_nonneg|exact PL]. }
  assert (w_head pos w1 = prepare_buffers pos (with_len (w_msg w) (zlen (pend w))) (keeps (w_life w)) (w_chunking w)) as WH.
  { unfold w_head. rewrite WL, R1, R2, R6. reflexivity. }
  rewrite WH. pose proof (prepared_bytes pos (with_len (w_msg w) (zlen (pend w))) (keeps (w_life w)) (w_chunking w)) as PB.
  destruct (prepare_buffers _ _ _ _) as [h o'] eqn:E. cbn [fst] in PB. rewrite PB by (eapply same_line_inv; [apply with_len_line|auto]).
  rewrite with_len_head. cbn. rewrite R4, R5, R6, WL, B. unfold content_wire, winv, pend. cbn. rewrite S, app_nil_r.
  split; [reflexivity|]. split; [split; [auto|]|].
  - unfold wrap64. symmetry. apply Z.mod_small. split; [apply zlen_nonneg|exact PL].
  - rewrite R2, R3. auto 8.
Qed.

Lemma send_next pos w final : winv w -> w_open w = true -> w_sent_headers w = true -> zlen (pend w) < two64 ->
  let w' := w_send_more pos w final in
  w_out w' = w_out w ++ content_wire w final (pend w)
  /\ winv w' /\ w_sent_headers w' = true /\ w_open w' = true /\ w_life w' = w_life w /\ w_chunks w' = w_chunks w /\ w_chunking w' = w_chunking w
  /\ pend w' = pend w.
Proof.
  intros I O SH PL. cbv zeta. unfold w_send_more. rewrite O. cbn [negb]. destruct (flush_ok w I) as (J & B & S & SE & R1 & R2 & R3 & R4 & R5 & R6 & R7).
  set (w1 := w_flush w) in *. clearbody w1. rewrite R7, SH.
  assert (w_len w1 = zlen (pend w)) as WL.
  { destruct J as [_ ->]. rewrite B. unfold wrap64. apply Z.mod_small. split; [apply zlen_nonneg|exact PL]. }
  cbn. rewrite R4, R5, R6, WL, B. unfold content_wire, winv, pend. cbn. rewrite S, app_nil_r.
  split; [reflexivity|]. split; [split; [auto|]|].
  - unfold wrap64. symmetry. apply Z.mod_small. split; [apply zlen_nonneg|exact PL].
  - rewrite R2, R3. auto 8.
Qed.

(* ------------------------------------------------------------------ send(): the announced length *)

Lemma sent_length pos o ka n : o_nolen o = false -> 0 <= n -> m_clen (o_msg o) = n ->
  exists v, values_of (bs "Content-Length") (sent_headers pos o ka false) = [v] /\ numeral n v.
Proof.
  intros NL N0 CL. exists (print_dec n). split; [|apply print_dec_numeral; auto].
  apply Permutation_length_1_inv, Permutation_sym. etransitivity; [apply sent_values|]. unfold len_header. rewrite NL, CL. destruct (o_request o); reflexivity.
Qed.

Lemma send_announced pos w0 l : fresh w0 -> line_inv (w_msg w0) -> Forall is_setup l ->
  let w := w_ops pos w0 l in let body := collected (pend w0) l in
  zlen body < two64 -> o_nolen (w_msg w) = false -> 0 <= m_clen (o_msg (w_msg w)) ->
  exists hd announced v, w_out (w_send pos w) = wire_head hd ++ body /\ values_of (bs "Content-Length") (hdrs_of hd) = [v] /\ numeral announced v
    /\ announced = (if 0 <? zlen body then zlen body else m_clen (o_msg (w_msg w))).
Proof.
  intros (I & FO & FU & FC & FS) L F. cbv zeta. intros BL NL C0. destruct (setup_ok pos l w0 I L F) as (J & P & ST & L').
  destruct ST as (S1 & S2 & S3 & S4 & S5 & S6 & S7). set (w := w_ops pos w0 l) in *. rewrite <- P in *.
  destruct (send_first pos w false J L' ltac:(congruence) ltac:(congruence) BL) as (OUT & _). unfold w_send. rewrite OUT, S3, FU. cbn [app].
  assert (w_chunking w = false) as CH by congruence. rewrite CH.
  destruct (with_len_same (w_msg w) (zlen (pend w))) as (_ & _ & WN & _).
  destruct (sent_length pos (with_len (w_msg w) (zlen (pend w))) (keeps (w_life w)) (m_clen (o_msg (with_len (w_msg w) (zlen (pend w)))))) as (v & V1 & V2); auto.
  { congruence. }
  { rewrite with_len_clen. destruct (0 <? zlen (pend w)) eqn:E; auto. apply zlen_nonneg. }
  eexists _, _, v. split; [|split; [|split; [exact V2|apply with_len_clen]]].
  - f_equal. unfold content_wire. rewrite CH, andb_false_r. cbn [andb]. rewrite app_nil_r.
    destruct (0 <? zlen (pend w)) eqn:E; [reflexivity|]. rewrite (zlen_zero _ E). reflexivity.
  - rewrite head_of_hdrs. exact V1.
Qed.

(** what the receiver of a message sent with send() sees *)
Lemma send_round_trip pos w0 l cf m : fresh w0 -> line_inv (w_msg w0) -> Forall is_setup l ->
  let w := w_ops pos w0 l in let o := w_msg w in let body := collected (pend w0) l in
  legal o -> o_nolen o = false -> body <> [] \/ m_clen (o_msg o) = 0 -> zlen body < two64 - 1 ->
  values_of (bs "Transfer-Encoding") (m_headers (o_msg o)) = [] -> not_multipart (o_msg o) ->
  storing cf -> cf_request cf = o_request o -> zlen body <= cf_max cf ->
  m_headers m = [] -> m_missing m = false -> ~ no_body_expected m o ->
  forall pieces more, cut pieces (w_out (w_send pos w) ++ more) ->
  exists r, feed cf (p_init cf) m pieces = Ok (Some r) /\ r_rc r = TTrue /\ r_err r = None /\ r_rest r = more
    /\ m_valid (r_msg r) = true /\ content_of (r_msg r) = Ok body /\ same_first_line (o_request o) (r_msg r) (o_msg o)
    /\ headers_received o (keeps (w_life w0)) (bs "Content-Length") (numeral (zlen body)) (m_headers (r_msg r)).
Proof.
  intros (I & FO & FU & FC & FS) L F. cbv zeta. intros LE NL BC CL TE NM ST CR MX MH MM NB pieces more CU. destruct (setup_ok pos l w0 I L F) as (J & P & SS & L').
  destruct SS as (S1 & S2 & S3 & S4 & S5 & S6 & S7). set (w := w_ops pos w0 l) in *. rewrite <- P in *.
  destruct (send_first pos w false J L' ltac:(congruence) ltac:(congruence) ltac:(clear - CL; lia)) as (OUT & _). unfold w_send in CU. rewrite OUT, S3, FU in CU. cbn [app] in CU.
  assert (w_chunking w = false) as CH by congruence. rewrite CH in CU.
  assert (content_wire w false (pend w) = pend w) as CW.
  { unfold content_wire. rewrite CH, andb_false_r. cbn [andb]. rewrite app_nil_r.
    destruct (0 <? zlen (pend w)) eqn:E; [reflexivity|]. rewrite (zlen_zero _ E). reflexivity. }
  rewrite CW in CU. set (o := w_msg w) in *. set (n := zlen (pend w)) in *.
  destruct (with_len_same o n) as (W1 & W2 & W3 & W4 & W5). rewrite <- (with_len_head o n) in CU.
  assert (same_first_line (o_request o) (o_msg (with_len o n)) (o_msg o)) as SF by (unfold with_len, same_first_line; destruct (0 <? n); destruct (o_request o); cbn; auto).
  destruct (length_core pos (with_len o n) (keeps (w_life w)) cf m (pend w)) with (pieces := pieces) (more := more) as (r & F1 & F2 & F3 & F4 & F5 & F6 & F7 & F8); auto.
  - apply with_len_legal; auto.
  - congruence.
  - rewrite with_len_clen. fold n. destruct (0 <? n) eqn:E; auto. pose proof (zlen_zero _ E) as Z0. destruct BC as [BC|BC]; [contradiction|].
    rewrite BC. subst n. rewrite Z0. reflexivity.
  - rewrite W4. exact TE.
  - unfold not_multipart. rewrite W4. exact NM.
  - congruence.
  - intros X. apply NB. destruct X as [X1 X2]. split; [congruence|]. assert (m_code (o_msg (with_len o n)) = m_code (o_msg o)) as Y by (unfold with_len; destruct (0 <? n); reflexivity).
    rewrite Y in X2. exact X2.
  - exists r. do 6 (split; [assumption|]). split.
    + rewrite W1 in F7. unfold same_first_line in *. destruct (o_request o); intuition congruence.
    + unfold headers_received in *. rewrite W1, W4, W5, S1 in F8. exact F8.
Qed.

(** a response to a receiver that expects no body: the payload is left behind *)
Lemma send_left pos w0 l cf m : fresh w0 -> line_inv (w_msg w0) -> Forall is_setup l ->
  let w := w_ops pos w0 l in let o := w_msg w in let body := collected (pend w0) l in
  legal o -> 0 <= m_clen (o_msg o) < two64 -> zlen body < two64 - 1 ->
  values_of (bs "Transfer-Encoding") (m_headers (o_msg o)) = [] ->
  0 <= cf_max cf -> cf_request cf = o_request o -> m_headers m = [] -> m_missing m = false -> no_body_expected m o ->
  forall pieces more, cut pieces (w_out (w_send pos w) ++ more) ->
  exists r, feed cf (p_init cf) m pieces = Ok (Some r) /\ r_rc r = TTrue /\ r_err r = None /\ r_rest r = body ++ more
    /\ m_valid (r_msg r) = true /\ content_of (r_msg r) = Ok [] /\ same_first_line (o_request o) (r_msg r) (o_msg o).
Proof.
  intros (I & FO & FU & FC & FS) L F. cbv zeta. intros LE CLN CL TE MX CR MH MM NB pieces more CU. destruct (setup_ok pos l w0 I L F) as (J & P & SS & L').
  destruct SS as (S1 & S2 & S3 & S4 & S5 & S6 & S7). set (w := w_ops pos w0 l) in *. rewrite <- P in *.
  destruct (send_first pos w false J L' ltac:(congruence) ltac:(congruence) ltac:(clear - CL; lia)) as (OUT & _). unfold w_send in CU. rewrite OUT, S3, FU in CU. cbn [app] in CU.
  assert (w_chunking w = false) as CH by congruence. rewrite CH in CU.
  assert (content_wire w false (pend w) = pend w) as CW.
  { unfold content_wire. rewrite CH, andb_false_r. cbn [andb]. rewrite app_nil_r.
    destruct (0 <? zlen (pend w)) eqn:E; [reflexivity|]. rewrite (zlen_zero _ E). reflexivity. }
  rewrite CW in CU. set (o := w_msg w) in *. set (n := zlen (pend w)) in *.
  destruct (with_len_same o n) as (W1 & W2 & W3 & W4 & W5). rewrite <- (with_len_head o n) in CU.
  assert (same_first_line (o_request o) (o_msg (with_len o n)) (o_msg o)) as SF by (unfold with_len, same_first_line; destruct (0 <? n); destruct (o_request o); cbn; auto).
  assert (legal (with_len o n)) as LE' by (apply with_len_legal; auto).
  set (hs := sent_headers pos (with_len o n) (keeps (w_life w)) false) in *.
  assert (Forall hdr_ok hs) as HO.
  { apply sent_ok; auto. rewrite with_len_clen. fold n. destruct (0 <? n) eqn:E0; [|exact CLN]. clear - CL E0. lia. }
  assert (values_of (bs "Transfer-Encoding") hs = []) as VT.
  { apply Permutation_nil, Permutation_sym. unfold hs. etransitivity; [apply sent_values|]. unfold len_header. rewrite W4, TE. destruct (o_nolen (with_len o n)), (o_request (with_len o n)); reflexivity. }
  rewrite <- app_assoc in CU.
  destruct (feed_bodiless cf m (head_of (with_len o n) hs) pieces MH MM (head_of_ok cf (with_len o n) hs LE' ltac:(congruence) HO) (pend w ++ more)) as (r & F1 & F2 & F3 & F4 & F5 & F6 & F7 & F8 & F9); auto.
  - apply no_te. rewrite head_of_hdrs. exact VT.
  - destruct NB as [N1 N2]. unfold bodiless, head_of. rewrite W1, N1. cbn [sl_code]. destruct LE' as (LE' & _). rewrite W1, N1 in LE'.
    pose proof (print_dec_numeral (m_code (o_msg (with_len o n))) (proj1 (proj1 LE'))) as (_ & _ & ->).
    assert (m_code (o_msg (with_len o n)) = m_code (o_msg o)) as -> by (unfold with_len; destruct (0 <? n); reflexivity). exact N2.
  - exists r. do 6 (split; [assumption|]). assert (same_first_line (o_request (with_len o n)) (r_msg r) (o_msg (with_len o n))) as X by (eapply head_of_line; eauto).
    rewrite W1 in X. unfold same_first_line in *. destruct (o_request o); intuition congruence.
Qed.

(* ------------------------------------------------------------------ chunked messages *)

Lemma hex_of_print n : 0 <= n -> Forall hex_char (print_hex n) /\ hex_number (print_hex n) = n.
Proof.
  intros H. pose proof (digits_range 16 n ltac:(lia) H) as R. unfold print_hex. split.
  - apply Forall_forall. intros c HC. apply in_map_iff in HC as (d & <- & HD). rewrite Forall_forall in R. specialize (R d HD).
    unfold digit_char, hex_char. destruct (d <? 10) eqn:E; lia.
  - unfold hex_number. rewrite <- (undigits_digits 16 n) at 2 by lia. clear H.
    assert (forall acc, fold_left (fun a c => a * 16 + hex_digit_val c) (map digit_char (digits 16 n)) acc = undigits 16 acc (digits 16 n)) as A; [|apply A].
    revert R. generalize (digits 16 n) as l. induction l as [|d l IH]; intros R acc; [reflexivity|]. cbn [map fold_left undigits].
    rewrite IH by (apply (Forall_inv_tail R)). pose proof (Forall_inv R) as RD. cbn beta in RD. f_equal.
    unfold hex_digit_val, digit_char. destruct (d <? 10) eqn:E.
    + replace (48 + d <=? 57) with true by lia. lia.
    + replace (87 + d <=? 57) with false by lia. replace (87 + d <=? 70) with false by lia. lia.
Qed.

Lemma sent_headers_len pos o n ka : sent_headers pos (with_len o n) ka true = sent_headers pos o ka true.
Proof.
  destruct (prepared_headers pos (with_len o n) ka true) as [_ ->]. destruct (prepared_headers pos o ka true) as [_ ->].
  destruct (with_len_same o n) as (-> & E & _ & -> & ->). unfold len_header. rewrite E. reflexivity.
Qed.

Section Steps.
Variables (pos : dpos) (o : omsg) (life0 : lifecycle) (cl : bool).
Hypothesis LI : line_inv o.

Definition hd0 : head := head_of o (sent_headers pos o (if cl then keeps life0 else false) true).
Definition ready (w : wst) : Prop :=
  winv w /\ w_open w = true /\ w_chunks w = cl /\ (w_sent_headers w = false -> w_out w = [] /\ w_msg w = o)
  /\ (cl = true -> w_life w = life0) /\ (cl = false -> w_sent_headers w = true -> w_life w = LClose).
Definition base (w : wst) : list Z := if w_sent_headers w then w_out w else wire_head hd0.
Definition enc (s : list Z) : list Z :=
  if 0 <? zlen s then if cl then print_hex (zlen s) ++ [13; 10] ++ s ++ [13; 10] else s else [].

Lemma ready_write w x : ready w -> is_write x -> ready (w_op pos w x) /\ base (w_op pos w x) = base w /\ pend (w_op pos w x) = pend w ++ payload x
  /\ w_sent_headers (w_op pos w x) = w_sent_headers w.
Proof.
  intros (I & O & C & N & L1 & L2) W. destruct (write_ok pos w x I W) as (A & B & R1 & R2 & R3 & R4 & R5 & R6 & R7).
  unfold ready, base. rewrite R1, R2, R3, R4, R5, R7. auto 12.
Qed.

Lemma ready_chunk w : ready w -> zlen (pend w) < two64 -> let w' := w_op pos (w_op pos w WSendChunk) WClear in
  ready w' /\ base w' = base w ++ enc (pend w) /\ pend w' = [] /\ w_sent_headers w' = true.
Proof.
  intros (I & O & C & N & L1 & L2) PL. cbv zeta. cbn [w_op]. unfold w_send_chunk.
  set (w1 := w_start_chunks (if w_chunks w then w_life w else LClose) w).
  assert (winv w1 /\ w_open w1 = true /\ w_chunks w1 = cl /\ w_chunking w1 = true /\ w_sent_headers w1 = w_sent_headers w /\ w_out w1 = w_out w /\ w_msg w1 = w_msg w /\ pend w1 = pend w
    /\ w_life w1 = if cl then life0 else LClose) as (J & O1 & C1 & CH & S1 & U1 & M1 & P1 & LF).
  { subst w1. unfold w_start_chunks, winv, pend in *. cbn. rewrite C. split; [exact I|]. rewrite O. do 7 (split; [reflexivity|]). destruct cl; auto. }
  clearbody w1. assert (content_wire w1 false (pend w) = enc (pend w)) as CW.
  { unfold content_wire, enc. rewrite C1, CH. cbn [andb]. rewrite app_nil_r, andb_true_r. reflexivity. }
  destruct (w_sent_headers w) eqn:SH.
  - destruct (send_next pos w1 false J O1 S1 ltac:(rewrite P1; auto)) as (OUT & A1 & A2 & A3 & A4 & A5 & A6 & A7).
    unfold ready, base, winv, pend, w_clear. cbn. rewrite A2, A3, A4, A5, OUT, U1, SH, P1, CW, C1, LF.
    split; [split; [auto|]|auto]. split; auto. split; auto. split; [discriminate|]. split; intros ->; auto.
  - destruct (N eq_refl) as [N1 N2].
    destruct (send_first pos w1 false J ltac:(rewrite M1, N2; exact LI) O1 S1 ltac:(rewrite P1; auto)) as (OUT & A1 & A2 & A3 & A4 & A5 & A6 & A7).
    unfold ready, base, winv, pend, w_clear. cbn. rewrite A2, A3, A4, A5, OUT, U1, SH, P1, CW, C1, LF, N1, M1, N2, CH. cbn [app].
    split; [split; [auto|]|]; [|split; [|auto]].
    + split; auto. split; auto. split; [discriminate|]. split; intros ->; auto.
    + rewrite sent_headers_len. unfold hd0. destruct cl; reflexivity.
Qed.

Lemma ready_steps l : forall w, ready w -> Forall step_ok l -> zlen (pend w ++ steps_payload l) < two64 ->
  let w' := w_ops pos w (concat (map step_ops l)) in
  exists ds, ready w' /\ base w' = base w ++ concat (map enc ds) /\ concat ds ++ pend w' = pend w ++ steps_payload l
    /\ (In SChunk l \/ w_sent_headers w = true -> w_sent_headers w' = true).
Proof.
  induction l as [|x l IH]; intros w R F PL; cbv zeta.
  - exists []. cbn. rewrite !app_nil_r. split; auto. split; auto. split; auto. intros [[]|H]; auto.
  - cbn [map concat]. unfold w_ops. rewrite fold_left_app. fold (w_ops pos w (step_ops x)). set (w1 := w_ops pos w (step_ops x)).
    change (fold_left (w_op pos) (concat (map step_ops l)) w1) with (w_ops pos w1 (concat (map step_ops l))).
    pose proof (Forall_inv F) as FX. pose proof (Forall_inv_tail F) as FL.
    unfold steps_payload in PL. cbn [map concat] in PL. fold (steps_payload l) in PL. 
    destruct x as [x|].
    + destruct (ready_write w x R FX) as (A & B & C & D). change (w_op pos w x) with w1 in *.
      destruct (IH w1 A FL) as (ds & E1 & E2 & E3 & E4); [rewrite C, <- app_assoc; exact PL|].
      exists ds. split; auto. split; [rewrite E2, B; reflexivity|]. split.
      * rewrite E3, C. unfold steps_payload at 2. cbn [map concat]. rewrite <- app_assoc. reflexivity.
      * intros [[H|H]|H]; [discriminate|auto|]. apply E4. right. congruence.
    + destruct (ready_chunk w R) as (A & B & C & D).
      { rewrite !zlen_app in PL. pose proof (zlen_nonneg (steps_payload l)). change (zlen (@nil Z)) with 0 in PL. lia. }
      change (w_op pos (w_op pos w WSendChunk) WClear) with w1 in *.
      destruct (IH w1 A FL) as (ds & E1 & E2 & E3 & E4).
      { rewrite C. rewrite !zlen_app in PL. cbn [app]. pose proof (zlen_nonneg (pend w)). change (zlen (@nil Z)) with 0 in PL. lia. }
      exists (pend w :: ds). split; auto. split; [rewrite E2, B; cbn [map concat]; rewrite <- app_assoc; reflexivity|]. split.
      * cbn [concat]. rewrite <- app_assoc, E3, C. reflexivity.
      * intros _. apply E4. auto.
Qed.

Lemma ready_final w : ready w -> zlen (pend w) < two64 -> cl = true \/ w_sent_headers w = true -> let w' := w_op pos w WSendFinal in
  w_out w' = base w ++ enc (pend w) ++ (if cl then bs "0" ++ [13; 10; 13; 10] else []) /\ w_life w' = if cl then life0 else LClose.
Proof.
  intros (I & O & C & N & L1 & L2) PL CS. cbv zeta. cbn [w_op]. unfold w_send_final. set (w1 := w_start_chunks (w_life w) w).
  assert (winv w1 /\ w_open w1 = true /\ w_chunks w1 = cl /\ w_chunking w1 = true /\ w_sent_headers w1 = w_sent_headers w /\ w_out w1 = w_out w /\ w_msg w1 = w_msg w /\ pend w1 = pend w
    /\ w_life w1 = w_life w) as (J & O1 & C1 & CH & S1 & U1 & M1 & P1 & LF).
  { subst w1. unfold w_start_chunks, winv, pend in *. cbn. auto 12. }
  clearbody w1. assert (content_wire w1 true (pend w) = enc (pend w) ++ (if cl then bs "0" ++ [13; 10; 13; 10] else [])) as CW.
  { unfold content_wire, enc. rewrite C1, CH. cbn [andb]. rewrite andb_true_r. destruct cl; reflexivity. }
  destruct (w_sent_headers w) eqn:SH.
  - destruct (send_next pos w1 true J O1 S1 ltac:(rewrite P1; auto)) as (OUT & A1 & A2 & A3 & A4 & A5 & A6 & A7).
    unfold base. rewrite OUT, U1, SH, P1, CW, A4, LF. split; auto. destruct cl; auto.
  - destruct CS as [CS|CS]; [|discriminate]. destruct (N eq_refl) as [N1 N2].
    destruct (send_first pos w1 true J ltac:(rewrite M1, N2; exact LI) O1 S1 ltac:(rewrite P1; auto)) as (OUT & A1 & A2 & A3 & A4 & A5 & A6 & A7).
    unfold base. rewrite OUT, U1, SH, P1, CW, A4, LF, N1, M1, N2, CH. cbn [app]. rewrite L1 by auto. rewrite sent_headers_len. unfold hd0. rewrite CS. auto.
Qed.

Lemma steps_out w l : ready w -> w_sent_headers w = false -> Forall step_ok l -> zlen (pend w ++ steps_payload l) < two64 -> cl = true \/ In SChunk l ->
  exists ds, concat ds = pend w ++ steps_payload l
    /\ w_out (w_ops pos w (chunked_ops l)) = wire_head hd0 ++ concat (map enc ds) ++ (if cl then bs "0" ++ [13; 10; 13; 10] else [])
    /\ w_life (w_ops pos w (chunked_ops l)) = if cl then life0 else LClose.
Proof.
  intros R SH F PL CS. destruct (ready_steps l w R F PL) as (ds & A & B & C & D). unfold chunked_ops, w_ops. rewrite fold_left_app.
  fold (w_ops pos w (concat (map step_ops l))). set (w1 := w_ops pos w (concat (map step_ops l))) in *. cbn [fold_left].
  destruct (ready_final w1 A) as (E & G).
  { rewrite <- C in PL. rewrite zlen_app in PL. pose proof (zlen_nonneg (concat ds)). lia. }
  { destruct CS; auto. }
  exists (ds ++ [pend w1]). split; [rewrite concat_app; cbn [concat]; rewrite app_nil_r; exact C|]. split; [|exact G].
  rewrite E, B. unfold base. rewrite SH. rewrite map_app, concat_app. cbn [map concat]. rewrite app_nil_r, <- !app_assoc. reflexivity.
Qed.
End Steps.

Definition chunk_of (s : list Z) : chunk := {| c_size := print_hex (zlen s); c_ext := []; c_data := s |}.
Lemma enc_chunks ds : zlen (concat ds) < 9223372036854775808 ->
  exists cs, concat (map (enc true) ds) = concat (map wire_chunk cs) /\ chunk_data cs = concat ds /\ Forall chunk_ok cs.
Proof.
  induction ds as [|d ds IH]; intros L; [exists []; split; [reflexivity|split; [reflexivity|constructor]]|].
  cbn [concat] in L. rewrite zlen_app in L. pose proof (zlen_nonneg d). pose proof (zlen_nonneg (concat ds)). destruct IH as (cs & A & B & C); [lia|].
  cbn [map concat]. unfold enc at 1. destruct (0 <? zlen d) eqn:E.
  - exists (chunk_of d :: cs). cbn [map concat]. unfold chunk_data in *. cbn [map concat]. rewrite B, A. split; [|split; [reflexivity|]].
    + unfold wire_chunk at 2. cbn [chunk_of c_size c_ext c_data]. rewrite <- !app_assoc. reflexivity.
    + constructor; auto. unfold chunk_ok. cbn [chunk_of c_size c_ext c_data]. destruct (hex_of_print (zlen d)) as [X1 X2]; [lia|].
      split; [apply print_hex_nonempty|]. split; auto. split; [left; constructor|]. split; auto. lia.
  - destruct d as [|b t]; [|rewrite zlen_cons in E; pose proof (zlen_nonneg t); lia]. exists cs. auto.
Qed.
Lemma enc_plain ds : concat (map (enc false) ds) = concat ds.
Proof.
  induction ds as [|d ds IH]; [reflexivity|]. cbn [map concat]. rewrite IH. f_equal. unfold enc. destruct (0 <? zlen d) eqn:E; auto.
  destruct d as [|b t]; auto. rewrite zlen_cons in E; pose proof (zlen_nonneg t); lia.
Qed.

Lemma received_chunked pos o ka hs : o_chunks o = true -> Permutation (sent_headers pos o ka true) hs ->
  headers_received o ka (bs "Transfer-Encoding") (eq (bs "chunked")) hs.
Proof.
  intros C P. eapply received; eauto; [unfold len_header; rewrite C; reflexivity|destruct (o_request o); reflexivity].
Qed.

Lemma chunked_from pos w steps cf m :
  let o := w_msg w in let life := w_life w in let content := pend w ++ steps_payload steps in
  winv w -> w_open w = true -> w_out w = [] -> w_sent_headers w = false -> line_inv o -> w_chunks w = true ->
  legal o -> o_chunks o = true -> 0 <= m_clen (o_msg o) < two64 -> Forall step_ok steps -> zlen content < 9223372036854775808 ->
  not_multipart (o_msg o) -> storing cf -> cf_request cf = o_request o -> zlen content <= cf_max cf ->
  m_headers m = [] -> m_missing m = false -> m_cache m = [] ->
  w_life (w_ops pos w (chunked_ops steps)) = life /\
  forall pieces more, cut pieces (w_out (w_ops pos w (chunked_ops steps)) ++ more) ->
  exists r, feed cf (p_init cf) m pieces = Ok (Some r) /\ r_rc r = TTrue /\ r_err r = None /\ r_rest r = more
    /\ m_valid (r_msg r) = true /\ content_of (r_msg r) = Ok content /\ same_first_line (o_request o) (r_msg r) (o_msg o)
    /\ headers_received o (keeps life) (bs "Transfer-Encoding") (eq (bs "chunked")) (m_headers (r_msg r)).
Proof.
  cbv zeta. intros I O U SH LI W5 LE OC CL SK PL NM ST CR MX MH MM MC. set (o := w_msg w) in *. set (life := w_life w) in *.
  assert (ready o life true w) as R. { unfold ready. split; auto. split; auto. split; auto. split; auto. split; auto. discriminate. }
  destruct (steps_out pos o life true LI w steps R SH SK) as (ds & D1 & D2 & D3); [clear - PL; unfold two64; lia|auto|]. split; auto.
  intros pieces more CU. rewrite D2 in CU. rewrite <- D1 in *. destruct (enc_chunks ds PL) as (cs & E1 & E2 & E3). rewrite E1 in CU.
  rewrite <- !app_assoc in CU. unfold hd0 in CU. set (hs := sent_headers pos o (keeps life) true) in *.
  assert (values_of (bs "Transfer-Encoding") hs = [bs "chunked"]) as VT.
  { apply Permutation_length_1_inv, Permutation_sym. unfold hs. etransitivity; [apply sent_values|]. unfold len_header. rewrite OC. destruct (o_request o); reflexivity. }
  assert (forall v, In v (values_of (bs "Content-Type") hs) -> In v (values_of (bs "Content-Type") (m_headers (o_msg o)))) as CT.
  { intros v HV. apply (Permutation_in _ (sent_values pos o (keeps life) true (bs "Content-Type"))) in HV. unfold len_header in HV. rewrite OC in HV.
    destruct (o_request o); cbn in HV; rewrite app_nil_r in HV; exact HV. }
  assert (Forall hdr_ok hs) as HO by (apply sent_ok; auto).
  pose proof (feed_chunked cf m (head_of o hs) pieces MH MM (head_of_ok cf o hs LE CR HO) (bs "chunked") cs (bs "0") [] [] more ST MC) as FC.
  rewrite head_of_hdrs in FC. rewrite E2 in FC. cbn [app] in FC.
  destruct FC as (r & F1 & F2 & F3 & F4 & F5 & F6 & F7 & F8 & F9); auto.
  - exists [], []. reflexivity.
  - split; [discriminate|]. split; [constructor; [left; vm_compute; split; discriminate|constructor]|]. split; [left; constructor|reflexivity].
  - clear - PL. unfold two64. lia.
  - unfold wire_chunks. rewrite <- !app_assoc. exact CU.
  - exists r. do 4 (split; [assumption|]). split; [assumption|]. split; [assumption|]. split.
    + eapply head_of_line; eauto.
    + eapply received_chunked; eauto.
Qed.

Lemma chunked_round_trip pos request mops life steps cf m body0 :
  let o := msg_ops pos (o_new request) mops in
  let content := body0 ++ steps_payload steps in
  Forall keeps_line mops -> legal o -> o_chunks o = true ->
  content_of (o_msg o) = Ok body0 -> no_nul body0 -> Forall step_ok steps -> zlen content < 9223372036854775808 ->
  not_multipart (o_msg o) -> storing cf -> cf_request cf = request -> zlen content <= cf_max cf ->
  m_headers m = [] -> m_missing m = false -> m_cache m = [] ->
  exists w, w_create o life = Ok w /\ w_life (w_ops pos w (chunked_ops steps)) = life /\
  forall pieces more, cut pieces (w_out (w_ops pos w (chunked_ops steps)) ++ more) ->
  exists r, feed cf (p_init cf) m pieces = Ok (Some r) /\ r_rc r = TTrue /\ r_err r = None /\ r_rest r = more
    /\ m_valid (r_msg r) = true /\ content_of (r_msg r) = Ok content /\ same_first_line request (r_msg r) (o_msg o)
    /\ headers_received o (keeps life) (bs "Transfer-Encoding") (eq (bs "chunked")) (m_headers (r_msg r)).
Proof.
  cbv zeta. intros KL LE OC CO NN SK PL NM ST CR MX MH MM MC.
  pose proof (ops_request pos mops (o_new request)) as RQ. change (o_request (o_new request)) with request in RQ.
  assert (line_inv (msg_ops pos (o_new request) mops)) as LI by (apply ops_line; auto; left; reflexivity).
  pose proof (ops_clen pos mops (o_new request) ltac:(cbn; lia)) as C0.
  set (o := msg_ops pos (o_new request) mops) in *. clearbody o. clear mops KL.
  destruct (create_ok o life body0 C0 CO NN) as (w & W1 & (I & O & U & CH & SH) & W2 & W3 & W4 & W5). exists w. split; auto.
  assert (0 <= m_clen (o_msg o) < two64) as CL.
  { split; auto. pose proof (content_len _ _ C0 CO) as X. rewrite X. rewrite zlen_app in PL. pose proof (zlen_nonneg (steps_payload steps)) as Y. clear - PL Y. unfold two64. lia. }
  subst o life body0. rewrite <- RQ. apply chunked_from; auto; [|congruence]. rewrite W5, OC. destruct (o_request (w_msg w)); auto.
Qed.

(** a client that does not support chunks gets the content up to the end of the connection *)
Lemma unchunked_from pos w steps cf m :
  let o := w_msg w in let content := pend w ++ steps_payload steps in
  winv w -> w_open w = true -> w_out w = [] -> w_sent_headers w = false -> line_inv o -> w_chunks w = false -> o_request o = false ->
  legal o -> o_chunks o = false -> 0 <= m_clen (o_msg o) < two64 -> Forall step_ok steps -> In SChunk steps -> zlen content < two64 - 1 ->
  values_of (bs "Transfer-Encoding") (m_headers (o_msg o)) = [] -> values_of (bs "Content-Length") (m_headers (o_msg o)) = [] ->
  storing cf -> cf_request cf = false -> zlen content <= cf_max cf ->
  m_headers m = [] -> m_missing m = false -> ~ no_body_expected m o ->
  w_life (w_ops pos w (chunked_ops steps)) = LClose /\
  forall pieces, cut pieces (w_out (w_ops pos w (chunked_ops steps))) ->
  exists r st m', feed cf (p_init cf) m pieces = Ok (Some r) /\ r_rc r = TIndet /\ r_err r = None /\ r_rest r = []
    /\ check_premature_eof cf (r_st r) (r_msg r) = Ok (false, st, m')
    /\ m_valid m' = true /\ content_of m' = Ok content /\ same_first_line false m' (o_msg o)
    /\ values_of (bs "Connection") (m_headers m') = [bs "close"]
    /\ forall name, same_name name (bs "Connection") = false -> Permutation (values_of name (m_headers m'))
       (values_of name (m_headers (o_msg o)) ++ (if same_name name (cookie_name false) then map (cookie_line false) (m_cookies (o_msg o)) else [])).
Proof.
  cbv zeta. intros I O U SH LI W5 RQ LE OC CL SK IC PL TE CLN ST CR MX MH MM NB. set (o := w_msg w) in *. set (life := w_life w) in *.
  assert (ready o life false w) as R. { unfold ready. split; auto. split; auto. split; auto. split; auto. split; [discriminate|congruence]. }
  destruct (steps_out pos o life false LI w steps R SH SK) as (ds & D1 & D2 & D3); [clear - PL; lia|auto|]. split; auto.
  intros pieces CU. rewrite D2, enc_plain, app_nil_r in CU. rewrite <- D1 in *. unfold hd0 in CU. set (hs := sent_headers pos o false true) in *.
  assert (forall n, Permutation (values_of n hs) ((if same_name HEADER_CONNECTION n then [bs "close"] else values_of n (m_headers (o_msg o)))
     ++ (if same_name (cookie_name (o_request o)) n then map (cookie_line (o_request o)) (m_cookies (o_msg o)) else []))) as SV.
  { intros n. etransitivity; [apply sent_values|]. unfold len_header. rewrite OC. reflexivity. }
  assert (Forall hdr_ok hs) as HO by (apply sent_ok; auto).
  pose proof (feed_close cf m (head_of o hs) pieces MH MM (head_of_ok cf o hs LE (eq_trans CR (eq_sym RQ)) HO) (concat ds) ST CR) as FC.
  rewrite head_of_hdrs in FC.
  destruct FC as (r & st & m' & F1 & F2 & F3 & F4 & F5 & F6 & F7 & F8 & F9); auto.
  - intros B. apply NB. eapply head_of_bodiless; eauto.
  - apply no_te. rewrite head_of_hdrs. apply Permutation_nil, Permutation_sym. etransitivity; [apply SV|]. rewrite TE, RQ. reflexivity.
  - apply Permutation_nil, Permutation_sym. etransitivity; [apply SV|]. rewrite CLN, RQ. reflexivity.
  - exists r, st, m'. do 5 (split; [assumption|]). split; [assumption|]. split; [assumption|]. split.
    + rewrite <- RQ. eapply head_of_line; eauto.
    + split; [apply Permutation_length_1_inv, Permutation_sym; etransitivity; [apply values_perm, Permutation_sym; exact F9|]; etransitivity; [apply SV|]; rewrite RQ; reflexivity|].
      intros name N. etransitivity; [apply values_perm, Permutation_sym; exact F9|]. etransitivity; [apply SV|]. rewrite RQ. change (bs "Connection") with HEADER_CONNECTION in N. rewrite (same_name_sym _ name), N, (same_name_sym _ name). reflexivity.
Qed.

Lemma unchunked_round_trip pos mops life steps cf m body0 :
  let o := msg_ops pos (o_new false) mops in
  let content := body0 ++ steps_payload steps in
  Forall keeps_line mops -> legal o -> o_chunks o = false ->
  content_of (o_msg o) = Ok body0 -> no_nul body0 -> Forall step_ok steps -> In SChunk steps -> zlen content < two64 - 1 ->
  values_of (bs "Transfer-Encoding") (m_headers (o_msg o)) = [] -> values_of (bs "Content-Length") (m_headers (o_msg o)) = [] ->
  storing cf -> cf_request cf = false -> zlen content <= cf_max cf ->
  m_headers m = [] -> m_missing m = false -> ~ no_body_expected m o ->
  exists w, w_create o life = Ok w /\ w_life (w_ops pos w (chunked_ops steps)) = LClose /\
  forall pieces, cut pieces (w_out (w_ops pos w (chunked_ops steps))) ->
  exists r st m', feed cf (p_init cf) m pieces = Ok (Some r) /\ r_rc r = TIndet /\ r_err r = None /\ r_rest r = []
    /\ check_premature_eof cf (r_st r) (r_msg r) = Ok (false, st, m')
    /\ m_valid m' = true /\ content_of m' = Ok content /\ same_first_line false m' (o_msg o)
    /\ values_of (bs "Connection") (m_headers m') = [bs "close"]
    /\ forall name, same_name name (bs "Connection") = false -> Permutation (values_of name (m_headers m'))
       (values_of name (m_headers (o_msg o)) ++ (if same_name name (cookie_name false) then map (cookie_line false) (m_cookies (o_msg o)) else [])).
Proof.
  cbv zeta. intros KL LE OC CO NN SK IC PL TE CLN ST CR MX MH MM NB.
  pose proof (ops_request pos mops (o_new false)) as RQ. change (o_request (o_new false)) with false in RQ.
  assert (line_inv (msg_ops pos (o_new false) mops)) as LI by (apply ops_line; auto; left; reflexivity).
  pose proof (ops_clen pos mops (o_new false) ltac:(cbn; lia)) as C0.
  set (o := msg_ops pos (o_new false) mops) in *. clearbody o. clear mops KL.
  destruct (create_ok o life body0 C0 CO NN) as (w & W1 & (I & O & U & CH & SH) & W2 & W3 & W4 & W5). exists w. split; auto.
  assert (0 <= m_clen (o_msg o) < two64) as CL.
  { split; auto. pose proof (content_len _ _ C0 CO) as X. rewrite X. rewrite zlen_app in PL. pose proof (zlen_nonneg (steps_payload steps)) as Y. clear - PL Y. lia. }
  subst o life body0. apply unchunked_from; auto. rewrite W5, OC, RQ. auto.
Qed.

(* ------------------------------------------------------------------ where the body ends *)

(** once the connection is to be closed, no call of the writer keeps it open *)
Lemma op_life pos w x : w_life w = LClose -> w_life (w_op pos w x) = LClose.
Proof.
  assert (forall w, w_life (w_flush w) = w_life w) as FL by (intros v; unfold w_flush; destruct (w_stream_empty v); auto; destruct (w_stream v); auto).
  assert (forall w f, w_life (w_send_more pos w f) = w_life w) as SM.
  { intros v f. unfold w_send_more. destruct (negb (w_open v)); auto. destruct (if w_sent_headers (w_flush v) then _ else _). cbn. apply FL. }
  intros H. destruct x; cbn [w_op]; auto.
  - unfold w_binary. destruct s; auto. cbn. rewrite FL. auto.
  - unfold w_no_copy. destruct s; auto. cbn. rewrite FL. auto.
  - unfold w_send. rewrite SM. auto.
  - unfold w_send_chunk. rewrite SM. cbn. destruct (w_chunks w); auto.
  - unfold w_send_final. rewrite SM. auto.
Qed.
Lemma ops_life pos l : forall w, w_life w = LClose -> w_life (w_ops pos w l) = LClose.
Proof. induction l as [|x l IH]; intros w H; [exact H|]. apply (IH (w_op pos w x)). apply op_life; auto. Qed.

(** nothing that was sent is taken back *)
Lemma op_out pos w x : exists t, w_out (w_op pos w x) = w_out w ++ t.
Proof.
  assert (forall w, w_out (w_flush w) = w_out w) as FL by (intros v; unfold w_flush; destruct (w_stream_empty v); auto; destruct (w_stream v); auto).
  assert (forall w f, exists t, w_out (w_send_more pos w f) = w_out w ++ t) as SM.
  { intros v f. unfold w_send_more. destruct (negb (w_open v)); [exists []; rewrite app_nil_r; auto|]. destruct (if w_sent_headers (w_flush v) then _ else _). cbn.
    rewrite FL. eexists. reflexivity. }
  destruct x; cbn [w_op]; try (exists []; rewrite app_nil_r; reflexivity).
  - exists []. rewrite app_nil_r. unfold w_binary. destruct s; auto. cbn. apply FL.
  - exists []. rewrite app_nil_r. unfold w_no_copy. destruct s; auto. cbn. apply FL.
  - apply SM.
  - destruct (SM (w_start_chunks (if w_chunks w then w_life w else LClose) w) false) as (t & E). exists t. exact E.
  - destruct (SM (w_start_chunks (w_life w) w) true) as (t & E). exists t. exact E.
Qed.
Lemma ops_out pos l : forall w, exists t, w_out (w_ops pos w l) = w_out w ++ t.
Proof.
  induction l as [|x l IH]; intros w; [exists []; rewrite app_nil_r; reflexivity|]. destruct (op_out pos w x) as (t & E). destruct (IH (w_op pos w x)) as (t' & E').
  exists (t ++ t'). change (w_ops pos w (x :: l)) with (w_ops pos (w_op pos w x) l). rewrite E', E, app_assoc. reflexivity.
Qed.

Lemma delimited_first pos w0 l x after : fresh w0 -> line_inv (w_msg w0) -> Forall is_setup l -> x = WSend \/ x = WSendChunk ->
  let w := w_ops pos w0 l in
  zlen (collected (pend w0) l) < two64 -> o_nolen (w_msg w) = false -> o_chunks (w_msg w) = w_chunks w -> 0 <= m_clen (o_msg (w_msg w)) ->
  exists hd rest, w_out (w_ops pos w (x :: after)) = wire_head hd ++ rest /\ delimited (hdrs_of hd) (w_life (w_ops pos w (x :: after))).
Proof.
  intros (I & FO & FU & FC & FS) L F HX. cbv zeta. intros BL NL CC C0. destruct (setup_ok pos l w0 I L F) as (J & P & ST & L').
  destruct ST as (S1 & S2 & S3 & S4 & S5 & S6 & S7). set (w := w_ops pos w0 l) in *. rewrite <- P in *.
  change (w_ops pos w (x :: after)) with (w_ops pos (w_op pos w x) after). destruct (ops_out pos after (w_op pos w x)) as (t & ET). rewrite ET.
  destruct HX as [-> | ->]; cbn [w_op] in *.
  - destruct (send_first pos w false J L' ltac:(congruence) ltac:(congruence) BL) as (OUT & _). unfold w_send in *. rewrite OUT, S3, FU. cbn [app].
    assert (w_chunking w = false) as CH by congruence. rewrite CH.
    eexists _, _. split; [rewrite <- app_assoc; reflexivity|]. left. rewrite head_of_hdrs.
    destruct (with_len_same (w_msg w) (zlen (pend w))) as (_ & _ & WN & _).
    destruct (sent_length pos (with_len (w_msg w) (zlen (pend w))) (keeps (w_life w)) (m_clen (o_msg (with_len (w_msg w) (zlen (pend w)))))) as (v & V1 & V2).
    + rewrite WN. exact NL.
    + rewrite with_len_clen. destruct (0 <? zlen (pend w)) eqn:E; [apply zlen_nonneg|exact C0].
    + reflexivity.
    + exists v. eauto.
  - unfold w_send_chunk in *. set (w1 := w_start_chunks (if w_chunks w then w_life w else LClose) w) in *.
    assert (pend w1 = pend w) as P1 by reflexivity.
    destruct (send_first pos w1 false J L' ltac:(cbn; congruence) ltac:(cbn; congruence) ltac:(rewrite P1; exact BL)) as (OUT & A1 & A2 & A3 & A4 & _). rewrite OUT.
    change (w_out w1) with (w_out w). rewrite S3, FU. cbn [app].
    eexists _, _. split; [rewrite <- app_assoc; reflexivity|]. rewrite head_of_hdrs. change (w_chunking w1) with true. rewrite sent_headers_len. change (w_msg w1) with (w_msg w).
    destruct (w_chunks w) eqn:WC.
    + right. left. apply Permutation_length_1_inv, Permutation_sym. etransitivity; [apply sent_values|]. unfold len_header. rewrite CC. destruct (o_request (w_msg w)); reflexivity.
    + right. right. split; [|apply ops_life; rewrite A4; reflexivity].
      apply Permutation_length_1_inv, Permutation_sym. etransitivity; [apply sent_values|]. unfold len_header. rewrite CC. destruct (o_request (w_msg w)); reflexivity.
Qed.

(* ------------------------------------------------------------------ copies *)

Lemma op_copies pos w x : w_copies (w_op pos w x) - w_cache (w_op pos w x) = w_copies w - w_cache w + (match x with WClear => w_cache w | _ => 0 end).
Proof.
  assert (forall w, w_copies (w_flush w) = w_copies w /\ w_cache (w_flush w) = w_cache w) as FL by (intros v; unfold w_flush; destruct (w_stream_empty v); auto; destruct (w_stream v); auto).
  assert (forall w f, w_copies (w_send_more pos w f) = w_copies w /\ w_cache (w_send_more pos w f) = w_cache w) as SM.
  { intros v f. unfold w_send_more. destruct (negb (w_open v)); auto. destruct (if w_sent_headers (w_flush v) then _ else _). cbn. apply FL. }
  destruct x; cbn [w_op]; unfold w_send, w_send_chunk, w_send_final; rewrite ?(proj1 (SM _ _)), ?(proj2 (SM _ _)); cbn; try lia.
  - unfold w_binary. destruct s; [lia|]. cbn. destruct (FL w) as [-> ->]. lia.
  - unfold w_no_copy. destruct s; [lia|]. cbn. destruct (FL w) as [-> ->]. lia.
Qed.
Lemma no_leak pos o life c l : ~ In WClear l -> w_destroy (w_ops pos (w_new o life c) l) = 0.
Proof.
  assert (forall w, ~ In WClear l -> w_copies (w_ops pos w l) - w_cache (w_ops pos w l) = w_copies w - w_cache w) as A.
  { induction l as [|x l IH]; intros w H; [reflexivity|]. change (w_ops pos w (x :: l)) with (w_ops pos (w_op pos w x) l).
    rewrite IH by (intros X; apply H; right; exact X). rewrite op_copies. destruct x; try lia. exfalso. apply H. left. reflexivity. }
  intros H. unfold w_destroy. rewrite A by auto. reflexivity.
Qed.

(* ------------------------------------------------------------------ all writers *)

Lemma created_ok pos w body : created pos w body -> fresh w /\ pend w = body /\ line_inv (w_msg w) /\ 0 <= m_clen (o_msg (w_msg w)).
Proof.
  intros [request mops life w' body' KL CO NN W|method vmaj vmin life|life].
  - pose proof (ops_clen pos mops (o_new request) ltac:(cbn; lia)) as C0.
    destruct (create_ok _ life _ C0 CO NN) as (w1 & W1 & F & P & M & _). rewrite W in W1. injection W1 as <-. rewrite M.
    split; auto. split; auto. split; auto. apply ops_line; auto. left. reflexivity.
  - split; [apply w_new_fresh|]. split; [reflexivity|]. cbn. unfold response_to. destruct ((vmaj =? 1) && (1 <=? vmin)); [|destruct (vmaj =? 0)]; (split; [left; reflexivity|cbn; lia]).
  - split; [apply w_new_fresh|]. split; [reflexivity|]. split; [left; reflexivity|cbn; lia].
Qed.
Lemma setup_clen pos l : forall w, Forall is_setup l -> 0 <= m_clen (o_msg (w_msg w)) -> 0 <= m_clen (o_msg (w_msg (w_ops pos w l))).
Proof.
  induction l as [|x l IH]; intros w F H; [exact H|]. change (w_ops pos w (x :: l)) with (w_ops pos (w_op pos w x) l). apply IH; [apply (Forall_inv_tail F)|].
  pose proof (Forall_inv F) as FX. assert (forall v, w_msg (w_flush v) = w_msg v) as FL by (intros v; unfold w_flush; destruct (w_stream_empty v); auto; destruct (w_stream v); auto).
  destruct x; try contradiction; cbn [w_op]; auto.
  - unfold w_binary. destruct s; auto. cbn [w_msg]. rewrite FL. auto.
  - unfold w_no_copy. destruct s; auto. cbn [w_msg]. rewrite FL. auto.
  - exact (ops_clen pos [x] (w_msg w) H).
Qed.

Lemma announced_length pos w0 body0 l : created pos w0 body0 -> Forall is_setup l ->
  let w := w_ops pos w0 l in let body := collected body0 l in
  zlen body < two64 -> o_nolen (w_msg w) = false ->
  exists hd announced v, w_out (w_send pos w) = wire_head hd ++ body /\ values_of (bs "Content-Length") (hdrs_of hd) = [v] /\ numeral announced v
    /\ (announced = zlen body <-> body <> [] \/ m_clen (o_msg (w_msg w)) = 0).
Proof.
  intros CR F. cbv zeta. intros BL NL. destruct (created_ok _ _ _ CR) as (FR & P & L & C0). rewrite <- P in *.
  pose proof (setup_clen pos l w0 F C0) as C1.
  destruct (send_announced pos w0 l FR L F BL NL C1) as (hd & n & v & A & B & C & D). exists hd, n, v. do 3 (split; auto).
  rewrite D. clear - C1. set (b := collected (pend w0) l). destruct (0 <? zlen b) eqn:E.
  - split; auto. intros _. left. intros X. rewrite X in E. discriminate.
  - rewrite (zlen_zero _ E). change (zlen []) with 0. split; auto. intros [X|X]; [congruence|auto].
Qed.

Lemma writer_round_trip pos w0 body0 l cf m : created pos w0 body0 -> Forall is_setup l ->
  let w := w_ops pos w0 l in let o := w_msg w in let body := collected body0 l in
  legal o -> o_nolen o = false -> body <> [] \/ m_clen (o_msg o) = 0 -> zlen body < two64 - 1 ->
  values_of (bs "Transfer-Encoding") (m_headers (o_msg o)) = [] -> not_multipart (o_msg o) ->
  storing cf -> cf_request cf = o_request o -> zlen body <= cf_max cf ->
  m_headers m = [] -> m_missing m = false -> ~ no_body_expected m o ->
  forall pieces more, cut pieces (w_out (w_send pos w) ++ more) ->
  exists r, feed cf (p_init cf) m pieces = Ok (Some r) /\ r_rc r = TTrue /\ r_err r = None /\ r_rest r = more
    /\ m_valid (r_msg r) = true /\ content_of (r_msg r) = Ok body /\ same_first_line (o_request o) (r_msg r) (o_msg o)
    /\ headers_received o (keeps (w_life w0)) (bs "Content-Length") (numeral (zlen body)) (m_headers (r_msg r)).
Proof. intros CR F. destruct (created_ok _ _ _ CR) as (FR & P & L & C0). rewrite <- P. apply send_round_trip; auto. Qed.

Lemma writer_left pos w0 body0 l cf m : created pos w0 body0 -> Forall is_setup l ->
  let w := w_ops pos w0 l in let o := w_msg w in let body := collected body0 l in
  legal o -> m_clen (o_msg o) < two64 -> zlen body < two64 - 1 ->
  values_of (bs "Transfer-Encoding") (m_headers (o_msg o)) = [] ->
  0 <= cf_max cf -> cf_request cf = o_request o -> m_headers m = [] -> m_missing m = false -> no_body_expected m o ->
  forall pieces more, cut pieces (w_out (w_send pos w) ++ more) ->
  exists r, feed cf (p_init cf) m pieces = Ok (Some r) /\ r_rc r = TTrue /\ r_err r = None /\ r_rest r = body ++ more
    /\ m_valid (r_msg r) = true /\ content_of (r_msg r) = Ok [] /\ same_first_line (o_request o) (r_msg r) (o_msg o).
Proof.
  intros CR F. destruct (created_ok _ _ _ CR) as (FR & P & L & C0). rewrite <- P. cbv zeta. intros. eapply send_left; eauto. split; auto. apply setup_clen; auto.
Qed.
Lemma writer_bodiless pos w0 body0 l cf m : created pos w0 body0 -> Forall is_setup l ->
  let w := w_ops pos w0 l in let o := w_msg w in
  collected body0 l = [] -> legal o -> m_clen (o_msg o) < two64 ->
  values_of (bs "Transfer-Encoding") (m_headers (o_msg o)) = [] ->
  0 <= cf_max cf -> cf_request cf = o_request o -> m_headers m = [] -> m_missing m = false -> no_body_expected m o ->
  forall pieces more, cut pieces (w_out (w_send pos w) ++ more) ->
  exists r, feed cf (p_init cf) m pieces = Ok (Some r) /\ r_rc r = TTrue /\ r_err r = None /\ r_rest r = more
    /\ m_valid (r_msg r) = true /\ content_of (r_msg r) = Ok [] /\ same_first_line (o_request o) (r_msg r) (o_msg o).
Proof.
  intros CR F. cbv zeta. intros E. intros. pose proof (writer_left pos w0 body0 l cf m CR F) as W. cbv zeta in W. rewrite E in W. eapply W; eauto. reflexivity.
Qed.

Lemma delimited_writer pos w0 body0 l x after : created pos w0 body0 -> Forall is_setup l -> x = WSend \/ x = WSendChunk ->
  let w := w_ops pos w0 l in
  zlen (collected body0 l) < two64 -> o_nolen (w_msg w) = false -> o_chunks (w_msg w) = w_chunks w ->
  exists hd rest, w_out (w_ops pos w (x :: after)) = wire_head hd ++ rest /\ delimited (hdrs_of hd) (w_life (w_ops pos w (x :: after))).
Proof.
  intros CR F HX. destruct (created_ok _ _ _ CR) as (FR & P & L & C0). rewrite <- P. cbv zeta. intros. apply delimited_first; auto. apply setup_clen; auto.
Qed.

(* ------------------------------------------------------------------ counterexamples *)

Definition pos0 : dpos := fun d _ => length d.
Definition nul_response : omsg := msg_ops pos0 (o_new false) [MsgContent [0; 1; 2]].
Definition http10_writer : wst := w_respond (bs "GET") 1 0 LKeep.
Definition head_writer : wst := w_respond (bs "HEAD") 1 1 LKeep.

Lemma nul_example : exists w hd, w_create nul_response LKeep = Ok w /\ w_out (w_send pos0 w) = wire_head hd /\ values_of (bs "Content-Length") (hdrs_of hd) = [bs "3"].
Proof.
  exists (w_new nul_response LKeep false), (head_of nul_response (sent_headers pos0 nul_response true false)). vm_compute. auto.
Qed.
Lemma clear_example : let o := msg_ops pos0 (o_new false) [MsgContent (bs "abc")] in
  exists w hd, w_create o LKeep = Ok w /\ w_out (w_send pos0 (w_ops pos0 w [WClear])) = wire_head hd /\ values_of (bs "Content-Length") (hdrs_of hd) = [bs "3"].
Proof.
  cbv zeta. eexists. exists (head_of (msg_ops pos0 (o_new false) [MsgContent (bs "abc")]) (sent_headers pos0 (msg_ops pos0 (o_new false) [MsgContent (bs "abc")]) true false)).
  split; [reflexivity|]. vm_compute. auto.
Qed.
Lemma final_example : let w := w_ops pos0 http10_writer [WText (bs "abc"); WSendFinal] in
  exists hd, w_out w = wire_head hd ++ bs "abc" /\ ~ delimited (hdrs_of hd) (w_life w).
Proof.
  cbv zeta. exists (head_of (response_to (bs "GET") 1 0) (sent_headers pos0 (response_to (bs "GET") 1 0) true true)). split; [vm_compute; reflexivity|].
  intros [(v & n & A & _)|[A|[A B]]]; vm_compute in A; discriminate.
Qed.
Lemma nolen_example : let w := w_ops pos0 http10_writer [WText (bs "abc"); WMsg MsgNoLength; WSend] in
  exists hd, w_out w = wire_head hd ++ bs "abc" /\ ~ delimited (hdrs_of hd) (w_life w).
Proof.
  cbv zeta. exists (head_of (response_to (bs "GET") 1 0) (sent_headers pos0 (mkomsg false (o_msg (response_to (bs "GET") 1 0)) [] false true) true false)). split; [vm_compute; reflexivity|].
  intros [(v & n & A & _)|[A|[A B]]]; vm_compute in A; discriminate.
Qed.

Definition cf_in (request : bool) : pcfg :=
  {| cf_request := request; cf_max := 1048576; cf_headers_only := false; cf_save_raw := false; cf_handler := false; cf_pos := pos0 |}.

(** request_writer: the writer takes the peer to support chunks, the request does not *)
Lemma request_chunks_example : let steps := [SWrite (WText (bs "abc")); SChunk] in
  let w := w_ops pos0 (w_new (o_new true) LKeep true) (chunked_ops steps) in
  exists r, feed (cf_in true) (p_init (cf_in true)) msg_init [w_out w] = Ok (Some r) /\ r_rc r = TTrue /\ content_of (r_msg r) = Ok []
    /\ r_rest r = bs "3" ++ [13; 10] ++ bs "abc" ++ [13; 10] ++ bs "0" ++ [13; 10; 13; 10].
Proof.
  cbv zeta. set (f := feed _ _ _ _).
  assert (match f with Ok (Some r) => r_rc r = TTrue /\ content_of (r_msg r) = Ok [] /\ r_rest r = bs "3" ++ [13; 10] ++ bs "abc" ++ [13; 10] ++ bs "0" ++ [13; 10; 13; 10] | _ => False end) as A
    by (vm_compute; auto).
  destruct f as [[r|]|]; try contradiction. exists r. auto.
Qed.
(** the body of a response to HEAD is sent; the client takes it for the next response *)
Lemma head_example : let w := w_ops pos0 head_writer [WText (bs "abc"); WSend] in
  exists r, feed (cf_in false) (p_init (cf_in false)) (set_m_req_method (bs "HEAD") msg_init) [w_out w] = Ok (Some r) /\ r_rc r = TTrue /\ r_rest r = bs "abc".
Proof.
  cbv zeta. set (f := feed _ _ _ _).
  assert (match f with Ok (Some r) => r_rc r = TTrue /\ r_rest r = bs "abc" | _ => False end) as A by (vm_compute; auto).
  destruct f as [[r|]|]; try contradiction. exists r. auto.
Qed.
(** chunks sent without clearing the writer are sent again *)
Lemma no_clear_example : let w := w_ops pos0 (w_respond (bs "GET") 1 1 LKeep) [WText (bs "a"); WSendChunk; WText (bs "b"); WSendFinal] in
  exists r, feed (cf_in false) (p_init (cf_in false)) msg_init [w_out w] = Ok (Some r) /\ r_rc r = TTrue /\ content_of (r_msg r) = Ok (bs "aab").
Proof.
  cbv zeta. set (f := feed _ _ _ _).
  assert (match f with Ok (Some r) => r_rc r = TTrue /\ content_of (r_msg r) = Ok (bs "aab") | _ => False end) as A by (vm_compute; auto).
  destruct f as [[r|]|]; try contradiction. exists r. auto.
Qed.
Lemma leak_example : w_destroy (w_ops pos0 http10_writer [WBinary [1; 2]; WSendChunk; WClear; WBinary [3]; WSendFinal]) = 1.
Proof. vm_compute. reflexivity. Qed.

(** a resource changed by [change_resource] after the first line was made *)
Definition redirected : omsg := msg_ops pos0 (o_new true) [MsgResource (bs "/a"); MsgSend true false; MsgChangeResource (bs "/b")].
Lemma stale_line_example : m_resource (o_msg redirected) = bs "/b"
  /\ forall line, first_line_text true (o_msg redirected) line -> ~ starts_with_line line (fst (prepare_buffers pos0 redirected true false)).
Proof.
  split; [reflexivity|]. intros line (a & b & c & _ & _ & _ & ->) (rest & E). vm_compute in E. discriminate.
Qed.
(** cookies are added to the headers by every send *)
Definition cookie_message : omsg := msg_ops pos0 (o_new false) [MsgAddCookie (bs "a") (bs "1")].
Lemma resend_example : exists b1 o1 b2 o2, msg_send pos0 cookie_message true false = Ok (b1, o1) /\ msg_send pos0 o1 true false = Ok (b2, o2)
  /\ b1 <> b2 /\ length (values_of (bs "Set-Cookie") (m_headers (o_msg o1))) = 1%nat /\ length (values_of (bs "Set-Cookie") (m_headers (o_msg o2))) = 2%nat.
Proof.
  do 4 eexists. split; [vm_compute; reflexivity|]. split; [vm_compute; reflexivity|]. split; [vm_compute; discriminate|]. vm_compute. auto.
Qed.

(* ------------------------------------------------------------------ example messages *)

Definition post_ops : list mop :=
  [MsgMethod (bs "POST"); MsgResource (bs "/form"); MsgQueryString (bs "a=b"); MsgAddHeader (bs "Host") (bs "example.com"); MsgAddHeader (bs "X-A") (bs "1");
   MsgSend true false; MsgAddHeader (bs "x-a") (bs "2"); MsgContentType (bs "text/plain"); MsgAddCookie (bs "id") (bs "7"); MsgContent (bs "hello")].
Definition reply_ops : list mop := [MsgCode 404; MsgReason (bs "Not Found"); MsgAddCookie (bs "id") (bs "7"); MsgContentType (bs "text/html"); MsgContent (bs "<p>")].

Definition value_charb (c : Z) : bool := ((32 <=? c) && (c <? 256) && negb (c =? 127)) || (c =? 9).
Definition token_charb (c : Z) : bool := (33 <=? c) && (c <=? 126) && negb (existsb (Z.eqb c) separators).
Lemma value_chars s : forallb value_charb s = true -> Forall value_char s.
Proof. intros H. apply Forall_forall. intros c HC. rewrite forallb_forall in H. specialize (H c HC). unfold value_charb, value_char, text_char in *. lia. Qed.
Lemma token_chars s : forallb token_charb s = true -> Forall token_char s.
Proof.
  intros H. apply Forall_forall. intros c HC. rewrite forallb_forall in H. specialize (H c HC). unfold token_charb, token_char in *.
  apply andb_prop in H as [H1 H2]. split; [lia|]. intros X. assert (existsb (Z.eqb c) separators = true) as Y by (apply existsb_exists; exists c; split; auto; apply Z.eqb_refl). rewrite Y in H2. discriminate.
Qed.
Definition legalb (o : omsg) : bool :=
  let m := o_msg o in
  (if o_request o then
     negb (match m_method m with [] => true | _ => false end) && forallb token_charb (m_method m) && (zlen (m_method m) <=? 1024)
     && forallb (fun c => (33 <=? c) && (c <? 256) && negb (c =? 127) && negb (c =? 63)) (m_resource m) && (zlen (m_resource m) <=? 262144)
     && forallb (fun c => (33 <=? c) && (c <? 256) && negb (c =? 127)) (m_query_string m) && (zlen (m_query_string m) <=? 1048576) && (0 <? m_vmaj m)
   else (0 <=? m_code m) && (m_code m <? 65536) && forallb (fun c => (32 <=? c) && (c <? 256) && negb (c =? 127)) (m_reason m) && (zlen (m_reason m) <=? 1024))
  && ((0 <=? m_vmaj m) && (m_vmaj m <? 65536) && (0 <=? m_vmin m) && (m_vmin m <? 65536)
  && forallb (fun p => negb (match fst p with [] => true | _ => false end) && forallb token_charb (fst p) && (zlen (fst p) <=? 1024) && forallb value_charb (snd p) && (zlen (snd p) <=? 1048576)) (m_headers m)
  && forallb (fun p => forallb value_charb (fst p) && forallb value_charb (snd p) && (zlen (fst p) + zlen (snd p) <=? 1000000)) (m_cookies m)).
Lemma forallb_Forall {A} (f : A -> bool) (P : A -> Prop) l : (forall x, f x = true -> P x) -> forallb f l = true -> Forall P l.
Proof. intros H F. rewrite forallb_forall in F. apply Forall_forall. auto. Qed.
Ltac andbs := repeat match goal with H : _ && _ = true |- _ => apply andb_prop in H as [? ?] end.
Lemma legalb_ok o : legalb o = true -> legal o.
Proof.
  unfold legalb, legal. intros H. apply andb_prop in H as [H1 H2]. andbs. split.
  - destruct (o_request o); andbs.
    + repeat match goal with |- _ /\ _ => split end; try lia; try (apply token_chars; assumption).
      * destruct (m_method (o_msg o)); discriminate.
      * eapply forallb_Forall; [|eassumption]. intros c HC. unfold uri_char. lia.
      * eapply forallb_Forall; [|eassumption]. intros c HC. unfold query_char. lia.
    + repeat match goal with |- _ /\ _ => split end; try lia. eapply forallb_Forall; [|eassumption]. intros c HC. unfold text_char. lia.
  - split; [lia|]. split; [lia|]. split.
    + eapply forallb_Forall; [|eassumption]. intros p HP. cbn beta in HP. andbs. unfold hdr_ok. repeat match goal with |- _ /\ _ => split end; try lia.
      * destruct (fst p); discriminate.
      * apply token_chars; auto.
      * apply value_chars; auto.
    + eapply forallb_Forall; [|eassumption]. intros p HP. cbn beta in HP. andbs. unfold cookie_ok. repeat match goal with |- _ /\ _ => split end; try lia; apply value_chars; auto.
Qed.
