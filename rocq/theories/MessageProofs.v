(** Proofs about message serialisation. *)
From Coq Require Import String ZArith List Lia Bool Permutation.
From Verif Require Import Base Digits AlgModel FormModel DictModel MultipartModel HttpModel HttpBase HttpSplit HttpSpec HttpProofs HttpHead HttpBody HttpFeeds DictSpec DictProofs MessageModel MessageSpec.
Import ListNotations.

Local Arguments zlen : simpl never.
Local Arguments Z.add : simpl never.
Local Arguments Z.sub : simpl never.
Local Arguments print_dec : simpl never.

(* ------------------------------------------------------------------ numerals *)

Lemma print_dec_numeral n : 0 <= n -> numeral n (print_dec n).
Proof.
  intros H. unfold numeral, print_dec. pose proof (digits_range 10 n ltac:(lia) H) as R.
  split; [|split].
  - pose proof (digits_nonempty 10 n). destruct (digits 10 n); [congruence|discriminate].
  - induction (digits 10 n) as [|d l IH]; cbn [map]; [constructor|]. inversion R; subst. constructor; auto.
    unfold digit_char, is_dec. replace (d <? 10) with true by lia. lia.
  - unfold dec_value. rewrite <- dec_value_undigits, map_map.
    rewrite (map_ext_in _ (fun x => x)); [rewrite map_id; apply undigits_digits; lia|].
    intros a HA. rewrite Forall_forall in R. specialize (R a HA). unfold digit_char. replace (a <? 10) with true by lia. lia.
Qed.

(* ------------------------------------------------------------------ the first line *)

Definition line_inv (o : omsg) : Prop := o_line o = [] \/ o_line o = update_first_line o.

Lemma get_line o : line_inv o -> fst (get_first_line o) = update_first_line o.
Proof. unfold line_inv, get_first_line. intros [H|H]; destruct (o_line o) eqn:E; cbn; auto; congruence. Qed.

Lemma get_line_msg o : o_msg (snd (get_first_line o)) = o_msg o /\ o_request (snd (get_first_line o)) = o_request o
  /\ o_chunks (snd (get_first_line o)) = o_chunks o /\ o_nolen (snd (get_first_line o)) = o_nolen o.
Proof. unfold get_first_line. destruct (o_line o); cbn; auto. Qed.

(** what only touches headers, cookies or content *)
Definition same_line (o o' : omsg) : Prop := o_request o' = o_request o /\ o_line o' = o_line o /\ update_first_line o' = update_first_line o.
Lemma same_line_refl o : same_line o o.
Proof. repeat split. Qed.
Lemma same_line_trans a b c : same_line a b -> same_line b c -> same_line a c.
Proof. unfold same_line. intuition congruence. Qed.
Lemma same_line_inv a b : same_line a b -> line_inv a -> line_inv b.
Proof. unfold same_line, line_inv. intros (A & B & C) [H|H]; [left|right]; congruence. Qed.
Lemma same_line_headers o d : same_line o (o_with o (set_m_headers d (o_msg o))).
Proof. unfold same_line, update_first_line, version_string, o_with. cbn. auto. Qed.
Lemma same_line_cookies o d : same_line o (o_with o (set_m_cookies d (o_msg o))).
Proof. unfold same_line, update_first_line, version_string, o_with. cbn. auto. Qed.
Lemma same_line_prepare pos o ka ch : same_line o (prepare_headers pos o ka ch).
Proof.
  unfold prepare_headers, change_hdr. destruct ch; [|destruct (negb _)]; [destruct (o_chunks _)|..];
    repeat first [apply same_line_headers | apply same_line_refl | (eapply same_line_trans; [apply same_line_headers|])].
Qed.
Lemma same_line_append_aux pos l : forall o, same_line o (fold_left (fun o c =>
    if o_request o then add_hdr pos o HEADER_COOKIE (fst c ++ bs "=" ++ snd c)
    else add_hdr pos o HEADER_SET_COOKIE (set_cookie_header (fst c) (snd c) (bs "/"))) l o).
Proof.
  induction l as [|c l IH]; intros o; [apply same_line_refl|]. cbn [fold_left].
  eapply same_line_trans; [|apply IH]. destruct (o_request o); apply same_line_headers.
Qed.
Lemma same_line_append pos o : same_line o (append_cookies pos o).
Proof. apply same_line_append_aux. Qed.

Lemma get_line_inv o : line_inv o -> line_inv (snd (get_first_line o)).
Proof. intros H. unfold get_first_line. destruct (o_line o) eqn:E; [right; reflexivity|exact H]. Qed.

Lemma prepare_buffers_eq pos o ka ch : prepare_buffers pos o ka ch =
  (fst (get_first_line (prepare_headers pos o ka ch)) ++ [13;10]
   ++ header_lines (m_headers (o_msg (append_cookies pos (snd (get_first_line (prepare_headers pos o ka ch)))))),
   append_cookies pos (snd (get_first_line (prepare_headers pos o ka ch)))).
Proof. unfold prepare_buffers. destruct (get_first_line _). reflexivity. Qed.

Lemma prepare_line pos o ka ch : line_inv o -> line_inv (snd (prepare_buffers pos o ka ch)).
Proof.
  intros H. rewrite prepare_buffers_eq. cbn [snd]. eapply same_line_inv; [apply same_line_append|]. apply get_line_inv.
  eapply same_line_inv; [apply same_line_prepare|auto].
Qed.

Lemma op_line pos o x : keeps_line x -> line_inv o -> line_inv (msg_op pos o x).
Proof.
  intros K H. destruct x; try contradiction; cbn [msg_op]; try (left; reflexivity).
  all: try (unfold add_hdr, change_hdr; eapply same_line_inv; [first [apply same_line_headers|apply same_line_cookies]|exact H]).
  - destruct H as [H|H]; [left|right]; cbn; auto.
  - destruct H as [H|H]; [left|right]; cbn; auto.
  - destruct H as [H|H]; [left|right]; cbn; auto.
  - destruct H as [H|H]; [left|right]; cbn; auto.
  - destruct H as [H|H]; [left|right]; cbn; auto.
  - apply prepare_line; auto.
Qed.
Lemma ops_line pos l : forall o, Forall keeps_line l -> line_inv o -> line_inv (msg_ops pos o l).
Proof.
  induction l as [|x l IH]; intros o F H; [exact H|]. cbn. apply IH; [apply (Forall_inv_tail F)|]. apply op_line; auto. apply (Forall_inv F).
Qed.
Lemma ops_request pos l : forall o, o_request (msg_ops pos o l) = o_request o.
Proof.
  induction l as [|x l IH]; intros o; [reflexivity|]. change (msg_ops pos o (x :: l)) with (msg_ops pos (msg_op pos o x) l). rewrite IH. destruct x; auto. cbn [msg_op]. rewrite prepare_buffers_eq. cbn [snd].
  destruct (same_line_append pos (snd (get_first_line (prepare_headers pos o keep_alive using_chunks)))) as (-> & _).
  destruct (get_line_msg (prepare_headers pos o keep_alive using_chunks)) as (_ & -> & _).
  destruct (same_line_prepare pos o keep_alive using_chunks) as (-> & _). reflexivity.
Qed.

(* ------------------------------------------------------------------ the headers *)

Definition sent_headers (pos : dpos) (o : omsg) (ka ch : bool) : dict := m_headers (o_msg (snd (prepare_buffers pos o ka ch))).

Lemma values_change pos d k v n : Permutation (values_of n (d_change pos d k v)) (if same_name k n then [v] else values_of n d).
Proof. exact (do_op_values pos d (OpChange k v) n (values_of n d) (Permutation_refl _)). Qed.

Lemma Forall_insert {P : hdr -> Prop} pos d p : Forall P d -> P p -> Forall P (d_insert pos d p).
Proof.
  intros F H. unfold d_insert. rewrite <- (firstn_skipn (pos d p) d) in F. apply Forall_app in F as [F1 F2].
  apply Forall_app. split; auto.
Qed.
Lemma hdr_change_first d k v : Forall hdr_ok d -> Forall value_char v -> zlen v <= 1048576 -> Forall hdr_ok (d_change_first d k v).
Proof.
  intros F V L. induction F as [|p d H F IH]; [constructor|]. cbn [d_change_first]. destruct (d_match k p).
  - constructor.
    + unfold hdr_ok in *. cbn [fst snd]. intuition.
    + unfold d_erase. clear IH. induction F; cbn [filter]; auto. destruct (negb _); auto.
  - constructor; auto.
Qed.
Lemma hdr_change pos d k v : Forall hdr_ok d -> hdr_ok (k, v) -> Forall hdr_ok (d_change pos d k v).
Proof.
  intros F H. unfold d_change. destruct (d_has d k); [|apply Forall_insert; auto].
  destruct H as (_ & _ & _ & V & L). apply hdr_change_first; auto.
Qed.

Lemma append_headers_aux pos l : forall o, o_request (fold_left (fun o c =>
    if o_request o then add_hdr pos o HEADER_COOKIE (fst c ++ bs "=" ++ snd c)
    else add_hdr pos o HEADER_SET_COOKIE (set_cookie_header (fst c) (snd c) (bs "/"))) l o) = o_request o
  /\ m_headers (o_msg (fold_left (fun o c =>
    if o_request o then add_hdr pos o HEADER_COOKIE (fst c ++ bs "=" ++ snd c)
    else add_hdr pos o HEADER_SET_COOKIE (set_cookie_header (fst c) (snd c) (bs "/"))) l o)) =
  d_insert_all pos (m_headers (o_msg o)) (map (fun c => (cookie_name (o_request o), cookie_line (o_request o) c)) l).
Proof.
  induction l as [|c l IH]; intros o; [split; reflexivity|]. cbn [fold_left map].
  assert (forall n v, o_request (add_hdr pos o n v) = o_request o /\ m_headers (o_msg (add_hdr pos o n v)) = d_insert pos (m_headers (o_msg o)) (n, v)) as A
    by (intros; split; reflexivity).
  destruct (o_request o) eqn:R.
  - destruct (IH (add_hdr pos o HEADER_COOKIE (fst c ++ bs "=" ++ snd c))) as [I1 I2]. destruct (A HEADER_COOKIE (fst c ++ bs "=" ++ snd c)) as [A1 A2].
    split; [rewrite I1, A1; auto|]. rewrite I2, A1, A2. reflexivity.
  - destruct (IH (add_hdr pos o HEADER_SET_COOKIE (set_cookie_header (fst c) (snd c) (bs "/")))) as [I1 I2].
    destruct (A HEADER_SET_COOKIE (set_cookie_header (fst c) (snd c) (bs "/"))) as [A1 A2].
    split; [rewrite I1, A1; auto|]. rewrite I2, A1, A2. reflexivity.
Qed.
Lemma append_headers pos o : m_headers (o_msg (append_cookies pos o)) =
  d_insert_all pos (m_headers (o_msg o)) (map (fun c => (cookie_name (o_request o), cookie_line (o_request o) c)) (m_cookies (o_msg o))).
Proof. apply append_headers_aux. Qed.

Lemma prepare_keeps pos o ka ch : let o' := prepare_headers pos o ka ch in
  m_cookies (o_msg o') = m_cookies (o_msg o) /\ m_clen (o_msg o') = m_clen (o_msg o) /\ m_buf (o_msg o') = m_buf (o_msg o)
  /\ o_chunks o' = o_chunks o /\ o_nolen o' = o_nolen o.
Proof. cbv zeta. unfold prepare_headers, change_hdr. destruct ch; cbn; [destruct (o_chunks o) eqn:?|destruct (o_nolen o) eqn:?]; cbn; auto 10. Qed.

(** which header frames the body *)
Definition len_header (o : omsg) (ch : bool) : option (list Z * list Z) :=
  if ch then (if o_chunks o then Some (HEADER_TRANSFER_ENCODING, bs "chunked") else None)
  else if o_nolen o then None else Some (HEADER_CONTENT_LENGTH, print_dec (m_clen (o_msg o))).

Lemma prepared_headers pos o (ka ch : bool) :
  let d1 := d_change pos (m_headers (o_msg o)) HEADER_CONNECTION (if ka then bs "Keep-Alive" else bs "close") in
  let d2 := match len_header o ch with Some (k, v) => d_change pos d1 k v | None => d1 end in
  m_headers (o_msg (prepare_headers pos o ka ch)) = d2
  /\ sent_headers pos o ka ch = d_insert_all pos d2 (map (fun c => (cookie_name (o_request o), cookie_line (o_request o) c)) (m_cookies (o_msg o))).
Proof.
  cbv zeta. assert (m_headers (o_msg (prepare_headers pos o ka ch)) =
    match len_header o ch with Some (k, v) => d_change pos (d_change pos (m_headers (o_msg o)) HEADER_CONNECTION (if ka then bs "Keep-Alive" else bs "close")) k v
      | None => d_change pos (m_headers (o_msg o)) HEADER_CONNECTION (if ka then bs "Keep-Alive" else bs "close") end) as E.
  { unfold prepare_headers, change_hdr, len_header. cbn. destruct ch; [destruct (o_chunks o); reflexivity|]. destruct (o_nolen o); reflexivity. }
  split; [exact E|]. unfold sent_headers. rewrite prepare_buffers_eq. cbn [snd]. rewrite append_headers.
  destruct (get_line_msg (prepare_headers pos o ka ch)) as (-> & -> & _).
  destruct (same_line_prepare pos o ka ch) as (-> & _). destruct (prepare_keeps pos o ka ch) as (-> & _). rewrite E. reflexivity.
Qed.

Lemma values_insert_all pos n l : forall d, Permutation (values_of n (d_insert_all pos d l)) (values_of n d ++ values_of n l).
Proof.
  intros d. rewrite <- values_app. unfold values_of. apply Permutation_map. apply filter_perm.
  etransitivity; [apply Permutation_sym, d_insert_all_perm|]. apply Permutation_app_comm.
Qed.

Lemma values_cookies n c0 (f : list Z * list Z -> list Z) l :
  values_of n (map (fun c => (c0, f c)) l) = if same_name c0 n then map f l else [].
Proof.
  induction l as [|c l IH]; cbn [map]; [destruct (same_name c0 n); reflexivity|]. rewrite values_cons, IH. cbn [fst snd]. destruct (same_name c0 n); reflexivity.
Qed.

Lemma values_perm n a b : Permutation a b -> Permutation (values_of n a) (values_of n b).
Proof. intros P. unfold values_of. apply Permutation_map, filter_perm; auto. Qed.

Lemma sent_values pos o (ka ch : bool) n :
  Permutation (values_of n (sent_headers pos o ka ch))
    ((if match len_header o ch with Some (k, _) => same_name k n | None => false end then [match len_header o ch with Some (_, v) => v | None => [] end]
      else if same_name HEADER_CONNECTION n then [if ka then bs "Keep-Alive" else bs "close"] else values_of n (m_headers (o_msg o)))
     ++ (if same_name (cookie_name (o_request o)) n then map (cookie_line (o_request o)) (m_cookies (o_msg o)) else [])).
Proof.
  destruct (prepared_headers pos o ka ch) as [_ ->].
  etransitivity; [apply values_insert_all|]. rewrite values_cookies. apply Permutation_app_tail.
  destruct (len_header o ch) as [[k v]|].
  - etransitivity; [apply values_change|]. destruct (same_name k n); auto. apply values_change.
  - apply values_change.
Qed.

Lemma Forall_value_bs s : forallb (fun c => ((32 <=? c) && (c <? 256) && negb (c =? 127)) || (c =? 9)) (bs s) = true -> Forall value_char (bs s).
Proof.
  intros H. apply Forall_forall. intros c HC. rewrite forallb_forall in H. specialize (H c HC). unfold value_char, text_char. lia.
Qed.

Lemma numeral_value n s : numeral n s -> Forall value_char s.
Proof. intros (_ & F & _). eapply Forall_impl; [|exact F]. intros c H. unfold is_dec, value_char, text_char in *. lia. Qed.

Lemma print_dec_len n : 0 <= n < two64 -> zlen (print_dec n) <= 20.
Proof.
  intros H. unfold print_dec. unfold zlen. rewrite map_length. change (Z.of_nat (length (digits 10 n))) with (zlen (digits 10 n)).
  unfold digits. etransitivity; [apply (digits_fuel_len 10 19); [lia|]|unfold zlen; cbn; lia].
  change (Z.of_nat 20) with 20. unfold two64 in H. assert (18446744073709551616 <= 10 ^ 20) by (vm_compute; discriminate). lia.
Qed.

Ltac token_name := repeat apply Forall_cons; auto using Forall_nil; (split; [vm_compute; split; discriminate|vm_compute; intuition discriminate]).

Lemma cookie_hdr request c : cookie_ok c -> hdr_ok (cookie_name request, cookie_line request c).
Proof.
  intros (A & B & C). unfold hdr_ok. cbn [fst snd].
  assert (zlen (cookie_line request c) <= 1048576 /\ Forall value_char (cookie_line request c)) as [L V].
  { unfold cookie_line. destruct request; rewrite ?zlen_app.
    - split; [change (zlen (bs "=")) with 1; lia|]. apply Forall_app; split; auto. apply Forall_app; split; auto. apply Forall_value_bs. reflexivity.
    - split; [change (zlen (bs "=")) with 1; change (zlen [34]) with 1; change (zlen (bs "; Version=1; Path=/")) with 19; lia|].
      apply Forall_app; split; auto. apply Forall_app; split; [apply Forall_value_bs; reflexivity|].
      assert (value_char 34) by (left; unfold text_char; lia).
      apply Forall_app; split; [constructor; auto|]. apply Forall_app; split; auto. apply Forall_app; split; [constructor; auto|].
      apply Forall_value_bs. reflexivity. }
  destruct request; cbn [cookie_name]; (split; [discriminate|]; split; [|split; [vm_compute; discriminate|auto]]);
    token_name.
Qed.


Lemma conn_hdr (ka : bool) : hdr_ok (HEADER_CONNECTION, if ka then bs "Keep-Alive" else bs "close").
Proof.
  unfold hdr_ok. cbn [fst snd]. split; [discriminate|]. split; [token_name|]. split; [vm_compute; discriminate|].
  destruct ka; (split; [apply Forall_value_bs; reflexivity|vm_compute; discriminate]).
Qed.
Lemma len_hdr o ch k v : 0 <= m_clen (o_msg o) < two64 -> len_header o ch = Some (k, v) -> hdr_ok (k, v).
Proof.
  intros L. unfold len_header, hdr_ok. cbn [fst snd]. destruct ch.
  - destruct (o_chunks o); [|discriminate]. intros E; injection E as <- <-. split; [discriminate|]. split; [token_name|]. split; [vm_compute; discriminate|].
    split; [apply (Forall_value_bs "chunked"); reflexivity|vm_compute; discriminate].
  - destruct (o_nolen o); [discriminate|]. intros E; injection E as <- <-. split; [discriminate|]. split; [token_name|]. split; [vm_compute; discriminate|].
    split; [eapply numeral_value; apply print_dec_numeral; lia|]. pose proof (print_dec_len _ L). lia.
Qed.

Lemma Forall_insert_all {P : hdr -> Prop} pos l : forall d, Forall P d -> Forall P l -> Forall P (d_insert_all pos d l).
Proof.
  induction l as [|p l IH]; intros d F G; [exact F|]. cbn. apply IH; [|apply (Forall_inv_tail G)]. apply Forall_insert; auto. apply (Forall_inv G).
Qed.

Lemma sent_ok pos o ka ch : legal o -> 0 <= m_clen (o_msg o) < two64 -> Forall hdr_ok (sent_headers pos o ka ch).
Proof.
  intros (_ & _ & _ & H & C) L. destruct (prepared_headers pos o ka ch) as [_ ->]. apply Forall_insert_all.
  - assert (Forall hdr_ok (d_change pos (m_headers (o_msg o)) HEADER_CONNECTION (if ka then bs "Keep-Alive" else bs "close"))) as D
      by (apply hdr_change; auto; apply conn_hdr).
    destruct (len_header o ch) as [[k v]|] eqn:E; auto. apply hdr_change; auto. eapply len_hdr; eauto.
  - apply Forall_forall. intros p HP. apply in_map_iff in HP as (c & <- & HC). apply cookie_hdr. rewrite Forall_forall in C. auto.
Qed.

(* ------------------------------------------------------------------ what is written is a message head *)

Definition head_of (o : omsg) (l : list hdr) : head :=
  let m := o_msg o in
  let v := {| v_maj := print_dec (m_vmaj m); v_min := print_dec (m_vmin m) |} in
  if o_request o then
    HReq {| rl_method := m_method m; rl_resource := m_resource m; rl_query := match m_query_string m with [] => None | q => Some q end; rl_version := v |} l
  else HResp {| sl_version := v; sl_code := print_dec (m_code m); sl_reason := m_reason m |} l.

Lemma head_of_hdrs o l : hdrs_of (head_of o l) = l.
Proof. unfold head_of. destruct (o_request o); reflexivity. Qed.

Lemma header_lines_wire l : header_lines l = wire_hdrs l ++ CRLF.
Proof. reflexivity. Qed.

Lemma head_of_wire o l : update_first_line o ++ [13;10] ++ header_lines l = wire_head (head_of o l).
Proof.
  unfold update_first_line, head_of, wire_head, version_string, header_lines, wire_hdrs, wire_hdr. destruct (o_request o); cbn [hdrs_of].
  - unfold wire_reqline, wire_version. cbn [rl_method rl_resource rl_query rl_version v_maj v_min]. rewrite <- !app_assoc.
    destruct (m_query_string (o_msg o)); rewrite <- ?app_assoc; reflexivity.
  - unfold wire_statline, wire_version. cbn [sl_version sl_code sl_reason v_maj v_min]. rewrite <- !app_assoc. reflexivity.
Qed.

Lemma head_of_ok cf o l : legal o -> cf_request cf = o_request o -> Forall hdr_ok l -> head_ok cf (head_of o l).
Proof.
  intros (A & V1 & V2 & _ & _) R F. unfold head_of, head_ok.
  pose proof (print_dec_numeral (m_vmaj (o_msg o)) ltac:(lia)) as (M1 & M2 & M3).
  pose proof (print_dec_numeral (m_vmin (o_msg o)) ltac:(lia)) as (N1 & N2 & N3).
  assert (version_ok {| v_maj := print_dec (m_vmaj (o_msg o)); v_min := print_dec (m_vmin (o_msg o)) |}) as VO.
  { unfold version_ok. cbn [v_maj v_min]. rewrite M3, N3. do 4 (split; [assumption|]). lia. }
  destruct (o_request o).
  - destruct A as (A1 & A2 & A3 & A4 & A5 & A6 & A7 & A8). split; auto. split; auto. unfold reqline_ok. cbn [rl_method rl_resource rl_query rl_version].
    do 5 (split; [assumption|]). split; [destruct (m_query_string (o_msg o)); auto|]. split; auto. cbn [v_maj]. rewrite M3. exact A8.
  - destruct A as (A1 & A2 & A3). split; auto. split; auto. unfold statline_ok. cbn [sl_version sl_code sl_reason].
    pose proof (print_dec_numeral (m_code (o_msg o)) ltac:(lia)) as (C1 & C2 & C3). rewrite C3. split; auto. do 2 (split; [assumption|]). split; [lia|]. auto.
Qed.

Lemma head_of_line o l m : legal o -> first_line (head_of o l) m -> same_first_line (o_request o) m (o_msg o).
Proof.
  intros (A & V1 & V2 & _ & _). unfold head_of, same_first_line. 
  pose proof (print_dec_numeral (m_vmaj (o_msg o)) ltac:(lia)) as (_ & _ & M3).
  pose proof (print_dec_numeral (m_vmin (o_msg o)) ltac:(lia)) as (_ & _ & N3).
  destruct (o_request o); cbn [first_line rl_method rl_resource rl_query rl_version sl_version sl_code sl_reason v_maj v_min].
  - intros (B1 & B2 & B3 & B4 & B5). rewrite M3 in B4. rewrite N3 in B5. repeat split; auto. destruct (m_query_string (o_msg o)); auto.
  - intros (B1 & B2 & B3 & B4). rewrite M3 in B3. rewrite N3 in B4.
    pose proof (print_dec_numeral (m_code (o_msg o)) ltac:(lia)) as (_ & _ & C3). rewrite C3 in B1. auto.
Qed.

Lemma head_of_bodiless o l m : legal o -> bodiless m (head_of o l) -> no_body_expected m o.
Proof.
  intros (A & _). unfold head_of, no_body_expected. destruct (o_request o); cbn [bodiless]; [contradiction|].
  cbn [sl_code]. pose proof (print_dec_numeral (m_code (o_msg o)) ltac:(lia)) as (_ & _ & ->). auto.
Qed.

Lemma prepared_bytes pos o ka ch : line_inv o -> fst (prepare_buffers pos o ka ch) = wire_head (head_of o (sent_headers pos o ka ch)).
Proof.
  intros H. unfold sent_headers. rewrite prepare_buffers_eq. cbn [fst snd]. rewrite <- head_of_wire.
  pose proof (same_line_prepare pos o ka ch) as SL. rewrite get_line by (eapply same_line_inv; eauto). destruct SL as (_ & _ & ->). reflexivity.
Qed.

Lemma prepared_content pos o ka ch : let m' := o_msg (snd (prepare_buffers pos o ka ch)) in
  m_clen m' = m_clen (o_msg o) /\ m_buf m' = m_buf (o_msg o).
Proof.
  cbv zeta. rewrite prepare_buffers_eq. cbn [snd].
  assert (forall l x, m_clen (o_msg (fold_left (fun o c =>
    if o_request o then add_hdr pos o HEADER_COOKIE (fst c ++ bs "=" ++ snd c)
    else add_hdr pos o HEADER_SET_COOKIE (set_cookie_header (fst c) (snd c) (bs "/"))) l x)) = m_clen (o_msg x) /\
    m_buf (o_msg (fold_left (fun o c =>
    if o_request o then add_hdr pos o HEADER_COOKIE (fst c ++ bs "=" ++ snd c)
    else add_hdr pos o HEADER_SET_COOKIE (set_cookie_header (fst c) (snd c) (bs "/"))) l x)) = m_buf (o_msg x)) as A.
  { induction l as [|c l IH]; intros x; [auto|]. cbn [fold_left]. destruct (o_request x); rewrite (proj1 (IH _)), (proj2 (IH _)); auto. }
  unfold append_cookies. rewrite (proj1 (A _ _)), (proj2 (A _ _)). destruct (get_line_msg (prepare_headers pos o ka ch)) as (-> & _).
  destruct (prepare_keeps pos o ka ch) as (_ & -> & -> & _). auto.
Qed.

Lemma content_len m body : 0 <= m_clen m -> content_of m = Ok body -> m_clen m = zlen body.
Proof.
  unfold content_of. intros H0. destruct (m_clen m <=? zlen (m_buf m)) eqn:E; [|discriminate].
  destruct (all_some _) eqn:A; [|discriminate]. intros X; injection X as <-.
  assert (forall l r, all_some l = Some r -> length r = length l) as AL.
  { clear. induction l as [|x l IH]; intros r; cbn; [intros X; injection X as <-; auto|]. destruct x; [|discriminate].
    destruct (all_some l); [|discriminate]. intros X; injection X as <-. cbn. f_equal. auto. }
  apply AL in A. unfold zlen in *. rewrite A, firstn_length. lia.
Qed.
Lemma ops_clen pos l : forall o, 0 <= m_clen (o_msg o) -> 0 <= m_clen (o_msg (msg_ops pos o l)).
Proof.
  induction l as [|x l IH]; intros o H; [exact H|]. change (msg_ops pos o (x :: l)) with (msg_ops pos (msg_op pos o x) l). apply IH.
  destruct x; try exact H; cbn [msg_op].
  - apply zlen_nonneg.
  - vm_compute. discriminate.
  - unfold o_with. cbn. unfold wrap64. apply Z.mod_pos_bound. reflexivity.
  - unfold o_clear. destruct (o_request o); cbn; lia.
  - destruct (prepared_content pos o keep_alive using_chunks) as [-> _]. exact H.
Qed.
Lemma content_same m m' : m_clen m' = m_clen m -> m_buf m' = m_buf m -> content_of m' = content_of m.
Proof. intros A B. unfold content_of. rewrite A, B. reflexivity. Qed.

(** the headers as the receiver has them *)
Lemma received pos o ka ch hs k v (P : list Z -> Prop) : len_header o ch = Some (k, v) -> P v ->
  same_name k (cookie_name (o_request o)) = false -> same_name k HEADER_CONNECTION = false ->
  Permutation (sent_headers pos o ka ch) hs -> headers_received o ka k P hs.
Proof.
  intros LH HP NC NK PE. assert (forall n, Permutation (values_of n hs) (values_of n (sent_headers pos o ka ch))) as V
    by (intros; apply values_perm, Permutation_sym; auto).
  unfold headers_received. split; [|split].
  - apply Permutation_length_1_inv. apply Permutation_sym. etransitivity; [apply V|]. etransitivity; [apply sent_values|]. rewrite LH. change (bs "Connection") with HEADER_CONNECTION.
    rewrite NK, same_name_refl. assert (same_name (cookie_name (o_request o)) HEADER_CONNECTION = false) as -> by (destruct (o_request o); reflexivity). auto.
  - exists v. split; auto. apply Permutation_length_1_inv. apply Permutation_sym. etransitivity; [apply V|]. etransitivity; [apply sent_values|]. rewrite LH.
    rewrite same_name_refl. rewrite same_name_sym in NC. rewrite NC. auto.
  - intros name N1 N2. etransitivity; [apply V|]. etransitivity; [apply sent_values|]. rewrite LH.
    rewrite (same_name_sym k name), N2. change (bs "Connection") with HEADER_CONNECTION in N1. rewrite (same_name_sym _ name), N1. 
    rewrite (same_name_sym _ name). auto.
Qed.

Lemma length_core pos o ka cf m body : legal o -> o_nolen o = false -> m_clen (o_msg o) = zlen body -> zlen body < two64 - 1 ->
  values_of (bs "Transfer-Encoding") (m_headers (o_msg o)) = [] -> not_multipart (o_msg o) ->
  storing cf -> cf_request cf = o_request o -> zlen body <= cf_max cf ->
  m_headers m = [] -> m_missing m = false -> ~ no_body_expected m o ->
  forall pieces more, cut pieces ((wire_head (head_of o (sent_headers pos o ka false)) ++ body) ++ more) ->
  exists r, feed cf (p_init cf) m pieces = Ok (Some r) /\ r_rc r = TTrue /\ r_err r = None /\ r_rest r = more
    /\ m_valid (r_msg r) = true /\ content_of (r_msg r) = Ok body /\ same_first_line (o_request o) (r_msg r) (o_msg o)
    /\ headers_received o ka (bs "Content-Length") (numeral (zlen body)) (m_headers (r_msg r)).
Proof.
  intros LE NL BL CL TE NM ST CR MX MH MM NB. pose proof (zlen_nonneg body) as B0.
  intros pieces more CU. set (hs := sent_headers pos o ka false) in *.
  assert (Forall hdr_ok hs) as HO by (apply sent_ok; auto; lia).
  assert (len_header o false = Some (HEADER_CONTENT_LENGTH, print_dec (m_clen (o_msg o)))) as LH by (unfold len_header; rewrite NL; reflexivity).
  assert (numeral (zlen body) (print_dec (m_clen (o_msg o)))) as NU by (rewrite BL; apply print_dec_numeral, zlen_nonneg).
  assert (values_of (bs "Content-Length") hs = [print_dec (m_clen (o_msg o))]) as VL.
  { apply Permutation_length_1_inv, Permutation_sym. unfold hs. etransitivity; [apply sent_values|]. rewrite LH. destruct (o_request o); reflexivity. }
  assert (forall v, In v (values_of (bs "Content-Type") hs) -> In v (values_of (bs "Content-Type") (m_headers (o_msg o)))) as CT.
  { intros v HV. apply (Permutation_in _ (sent_values pos o ka false (bs "Content-Type"))) in HV. rewrite LH in HV.
    destruct (o_request o); cbn in HV; rewrite app_nil_r in HV; exact HV. }
  assert (values_of (bs "Transfer-Encoding") hs = []) as VT.
  { apply Permutation_nil, Permutation_sym. unfold hs. etransitivity; [apply sent_values|]. rewrite LH, TE. destruct (o_request o); reflexivity. }
  assert (no_chunks (head_of o hs)) as NCH by (apply no_te; rewrite head_of_hdrs; exact VT).
  rewrite <- app_assoc in CU.
  pose proof (feed_length cf m (head_of o hs) pieces MH MM (head_of_ok cf o hs LE CR HO)
    (print_dec (m_clen (o_msg o))) body more ST) as FL. rewrite head_of_hdrs in FL.
  destruct NU as (U1 & U2 & U3). unfold no_multipart in FL. rewrite head_of_hdrs in FL.
  destruct FL as (r & F1 & F2 & F3 & F4 & F5 & F6 & F7 & F8 & F9); auto.
  - intros B. apply NB. eapply head_of_bodiless; eauto.
  - exists r. do 4 (split; [assumption|]). split; [assumption|]. split; [assumption|]. split.
    + eapply head_of_line; eauto.
    + eapply received; eauto; [split; [|split]; auto|destruct (o_request o); reflexivity].
Qed.

Lemma message_round_trip pos request ops ka cf m body :
  let o := msg_ops pos (o_new request) ops in
  Forall keeps_line ops -> legal o -> o_nolen o = false ->
  content_of (o_msg o) = Ok body -> zlen body < two64 - 1 ->
  values_of (bs "Transfer-Encoding") (m_headers (o_msg o)) = [] -> not_multipart (o_msg o) ->
  storing cf -> cf_request cf = request -> zlen body <= cf_max cf ->
  m_headers m = [] -> m_missing m = false -> ~ no_body_expected m o ->
  exists bytes o', msg_send pos o ka false = Ok (bytes, o') /\
  forall pieces more, cut pieces (bytes ++ more) ->
  exists r, feed cf (p_init cf) m pieces = Ok (Some r) /\ r_rc r = TTrue /\ r_err r = None /\ r_rest r = more
    /\ m_valid (r_msg r) = true /\ content_of (r_msg r) = Ok body /\ same_first_line request (r_msg r) (o_msg o)
    /\ headers_received o ka (bs "Content-Length") (numeral (zlen body)) (m_headers (r_msg r)).
Proof.
  cbv zeta. intros KL LE NL CO CL TE NM ST CR MX MH MM NB.
  pose proof (ops_request pos ops (o_new request)) as RQ. change (o_request (o_new request)) with request in RQ.
  assert (line_inv (msg_ops pos (o_new request) ops)) as LI by (apply ops_line; auto; left; reflexivity).
  pose proof (ops_clen pos ops (o_new request) ltac:(cbn; lia)) as C0.
  set (o := msg_ops pos (o_new request) ops) in *. clearbody o. clear ops KL.
  pose proof (content_len _ _ C0 CO) as BL.
  destruct (prepared_content pos o ka false) as [PC PB]. pose proof (prepared_bytes pos o ka false LI) as PH.
  exists (fst (prepare_buffers pos o ka false) ++ body), (snd (prepare_buffers pos o ka false)). split.
  { unfold msg_send. destruct (prepare_buffers pos o ka false) as [h o'] eqn:E. cbn [fst snd] in *. cbn [negb andb]. rewrite PC.
    destruct (0 <? m_clen (o_msg o)) eqn:E0.
    - rewrite (content_same (o_msg o)) by auto. rewrite CO. reflexivity.
    - assert (zlen body = 0) as Z0 by lia. destruct body; [rewrite app_nil_r; reflexivity|]. rewrite zlen_cons in Z0. pose proof (zlen_nonneg body). lia. }
  rewrite PH, <- RQ. apply length_core; auto. congruence.
Qed.

(* ------------------------------------------------------------------ the first line follows the fields *)


Definition nums_ok (o : omsg) : Prop := 0 <= m_vmaj (o_msg o) /\ 0 <= m_vmin (o_msg o) /\ 0 <= m_code (o_msg o).
Lemma ops_nums pos l : forall o, nums_ok o -> nums_ok (msg_ops pos o l).
Proof.
  assert (forall a b, 0 < b -> 0 <= a mod b) as MP by (intros; apply Z.mod_pos_bound; auto).
  induction l as [|x l IH]; intros o H; [exact H|]. change (msg_ops pos o (x :: l)) with (msg_ops pos (msg_op pos o x) l). apply IH.
  destruct x; try exact H; cbn [msg_op].
  - destruct H as (A & B & C). unfold nums_ok; cbn. split; [exact A|]. split; [exact B|]. apply MP. reflexivity.
  - destruct H as (A & B & C). unfold nums_ok; cbn. split; [apply MP; reflexivity|]. split; [exact B|exact C].
  - destruct H as (A & B & C). unfold nums_ok; cbn. split; [exact A|]. split; [apply MP; reflexivity|exact C].
  - unfold o_clear, nums_ok. destruct (o_request o); vm_compute; intuition discriminate.
  - rewrite prepare_buffers_eq. cbn [snd].
    assert (forall l x, nums_ok x -> nums_ok (fold_left (fun o c =>
      if o_request o then add_hdr pos o HEADER_COOKIE (fst c ++ bs "=" ++ snd c)
      else add_hdr pos o HEADER_SET_COOKIE (set_cookie_header (fst c) (snd c) (bs "/"))) l x)) as A.
    { induction l0 as [|c l0 IH0]; intros y Y; [auto|]. cbn [fold_left]. destruct (o_request y); apply IH0; exact Y. }
    apply A. unfold nums_ok. destruct (get_line_msg (prepare_headers pos o keep_alive using_chunks)) as (-> & _).
    unfold prepare_headers, change_hdr. destruct using_chunks; cbn; [destruct (o_chunks o)|destruct (o_nolen o)]; exact H.
Qed.

(** the first line of a message on the wire, from its fields *)
Lemma first_line_follows pos request ops ka ch : Forall keeps_line ops ->
  let o := msg_ops pos (o_new request) ops in
  exists line, first_line_text request (o_msg o) line /\ starts_with_line line (fst (prepare_buffers pos o ka ch)).
Proof.
  intros F. pose proof (ops_line pos ops (o_new request) F ltac:(left; reflexivity)) as LI. cbv zeta.
  pose proof (ops_request pos ops (o_new request)) as RQ. change (o_request (o_new request)) with request in RQ.
  pose proof (ops_nums pos ops (o_new request) ltac:(vm_compute; intuition discriminate)) as (N1 & N2 & N3).
  set (o := msg_ops pos (o_new request) ops) in *. exists (update_first_line o). split.
  - exists (print_dec (m_vmaj (o_msg o))), (print_dec (m_vmin (o_msg o))), (print_dec (m_code (o_msg o))).
    do 3 (split; [apply print_dec_numeral; auto|]). unfold update_first_line, version_string. rewrite RQ.
    destruct request; rewrite <- ?app_assoc; reflexivity.
  - rewrite prepare_buffers_eq. cbn [fst].
    pose proof (same_line_prepare pos o ka ch) as SL. rewrite get_line by (eapply same_line_inv; eauto). destruct SL as (_ & _ & ->). eexists; reflexivity.
Qed.

(* ------------------------------------------------------------------ sending twice *)

Lemma d_change_same pos d k v : values_of k d = [v] -> d_change pos d k v = d.
Proof.
  intros H. unfold d_change. rewrite has_values, H. cbn [negb].
  induction d as [|p d IH]; [reflexivity|]. cbn [d_change_first]. rewrite values_cons in H. rewrite same_name_match. destruct (same_name (fst p) k).
  - injection H as <- H2. destruct p as [a b]. cbn [fst snd]. f_equal. clear IH. induction d as [|q d IH]; [reflexivity|]. rewrite values_cons in H2.
    unfold d_erase in *. cbn [filter]. rewrite same_name_match. destruct (same_name (fst q) k); [discriminate|]. cbn [negb]. f_equal. auto.
  - f_equal. auto.
Qed.
Lemma set_headers_same m : set_m_headers (m_headers m) m = m.
Proof. destruct m; reflexivity. Qed.
Lemma o_with_same o : o_with o (o_msg o) = o.
Proof. destruct o; reflexivity. Qed.

Lemma change_hdr_same pos o k v : values_of k (m_headers (o_msg o)) = [v] -> change_hdr pos o k v = o.
Proof. intros H. unfold change_hdr. rewrite d_change_same by auto. rewrite set_headers_same. apply o_with_same. Qed.

Lemma append_none pos o : m_cookies (o_msg o) = [] -> append_cookies pos o = o.
Proof. intros H. unfold append_cookies. rewrite H. reflexivity. Qed.

Lemma line_nonempty o : update_first_line o <> [].
Proof. unfold update_first_line, version_string. destruct (o_request o); [destruct (m_method (o_msg o)); discriminate|discriminate]. Qed.

Lemma prepare_again pos o ka ch h o' : m_cookies (o_msg o) = [] -> prepare_buffers pos o ka ch = (h, o') -> prepare_buffers pos o' ka ch = (h, o').
Proof.
  intros NC. rewrite (prepare_buffers_eq pos o). destruct (prepare_keeps pos o ka ch) as (K1 & K2 & K3 & K4 & K5).
  destruct (prepared_headers pos o ka ch) as [PH _]. set (o1 := prepare_headers pos o ka ch) in *.
  destruct (get_line_msg o1) as (G1 & G2 & G3 & G4). rewrite append_none by congruence. intros E. injection E as <- <-.
  set (o2 := snd (get_first_line o1)) in *.
  assert (prepare_headers pos o2 ka ch = o2) as P2.
  { assert (values_of HEADER_CONNECTION (m_headers (o_msg o2)) = [if ka then bs "Keep-Alive" else bs "close"]) as V1.
    { apply Permutation_length_1_inv, Permutation_sym. rewrite G1, PH. unfold len_header. destruct ch.
      - destruct (o_chunks o); [etransitivity; [apply values_change|]|]; apply values_change.
      - destruct (o_nolen o); [|etransitivity; [apply values_change|]]; apply values_change. }
    unfold prepare_headers. rewrite (change_hdr_same pos o2) by exact V1. rewrite G3, G4, K4, K5. destruct ch.
    - destruct (o_chunks o) eqn:OC; [|reflexivity]. apply change_hdr_same. apply Permutation_length_1_inv, Permutation_sym. rewrite G1, PH.
      unfold len_header. rewrite OC. etransitivity; [apply values_change|]. rewrite same_name_refl. auto.
    - destruct (o_nolen o) eqn:ON; [reflexivity|]. cbn [negb]. apply change_hdr_same. apply Permutation_length_1_inv, Permutation_sym. rewrite G1 at 1. rewrite PH.
      unfold len_header. rewrite ON. etransitivity; [apply values_change|]. rewrite same_name_refl. rewrite G1, K2. auto. }
  rewrite prepare_buffers_eq, P2.
  assert (get_first_line o2 = (fst (get_first_line o1), o2)) as ->.
  { unfold o2, get_first_line. destruct (o_line o1) eqn:OL; cbn [fst snd o_line]; [|rewrite OL; reflexivity].
    destruct (update_first_line o1) eqn:U; [exfalso; eapply line_nonempty; eauto|]. reflexivity. }
  cbn [fst snd]. rewrite append_none by congruence. reflexivity.
Qed.
Lemma send_again pos o ka ho bytes o' : m_cookies (o_msg o) = [] -> msg_send pos o ka ho = Ok (bytes, o') -> msg_send pos o' ka ho = Ok (bytes, o').
Proof.
  intros NC. unfold msg_send. destruct (prepare_buffers pos o ka false) as [h o1] eqn:E. pose proof (prepare_again _ _ _ _ _ _ NC E) as E1.
  destruct (negb ho && (0 <? m_clen (o_msg o1))) eqn:C.
  - destruct (content_of (o_msg o1)) eqn:CO; cbn [obind]; [|discriminate]. intros X; injection X as <- <-. rewrite E1, C, CO. reflexivity.
  - intros X; injection X as <- <-. rewrite E1, C. reflexivity.
Qed.

(* ------------------------------------------------------------------ reading from a stream *)

Definition single (s : list Z) : list (list Z) := map (fun c => [c]) s.
Lemma single_concat s : concat (single s) = s.
Proof. induction s; cbn; [|f_equal]; auto. Qed.
Lemma single_cut s : cut (single s) s.
Proof. split; [|apply single_concat]. apply Forall_forall. intros p HP. apply in_map_iff in HP as (c & <- & _). discriminate. Qed.

Lemma read_feed cf more s : forall st m r, feed cf st m (single s) = Ok (Some r) -> r_rc r = TTrue -> r_rest r = [] ->
  read_loop cf st m (s ++ more) = Ok (Some (TTrue, match r_err r with Some _ => true | None => false end, r_st r, r_msg r, more)).
Proof.
  induction s as [|c s IH]; intros st m r F RC RR.
  - cbn in F. injection F as <-. discriminate.
  - cbn [single map feed] in F. cbn [app read_loop]. destruct (parse cf st m [c]) as [[q|]|]; try discriminate.
    destruct (r_rc q) eqn:RQ.
    2: { injection F as <-. cbn in RC. congruence. }
    + injection F as <-. cbn [r_rest] in RR. apply app_eq_nil in RR as [_ RR]. fold (single s) in RR. rewrite single_concat in RR. subst s. cbn. rewrite ?RQ. reflexivity.
    + apply IH; auto.
Qed.

Lemma write_read_round_trip pos request ops cf m body more :
  let o := msg_ops pos (o_new request) ops in
  Forall keeps_line ops -> legal o -> o_nolen o = false ->
  content_of (o_msg o) = Ok body -> zlen body < two64 - 1 ->
  values_of (bs "Transfer-Encoding") (m_headers (o_msg o)) = [] -> not_multipart (o_msg o) ->
  storing cf -> cf_request cf = request -> zlen body <= cf_max cf ->
  m_headers m = [] -> m_missing m = false -> ~ no_body_expected m o ->
  exists bytes o', msg_send pos o true false = Ok (bytes, o') /\
  exists m', msg_read cf m (bytes ++ more) = Ok (Some (false, m', more))
    /\ m_valid m' = true /\ content_of m' = Ok body /\ same_first_line request m' (o_msg o)
    /\ headers_received o true (bs "Content-Length") (numeral (zlen body)) (m_headers m').
Proof.
  cbv zeta. intros. edestruct (message_round_trip pos request ops true cf m body) as (bytes & o' & S1 & S2); eauto.
  exists bytes, o'. split; [exact S1|]. destruct (S2 (single bytes) []) as (r & F1 & F2 & F3 & F4 & F5 & F6 & F7 & F8).
  { rewrite app_nil_r. apply single_cut. }
  exists (r_msg r). split; [|auto]. unfold msg_read. pose proof (read_feed cf more bytes _ _ _ F1 F2 F4) as RF. rewrite F3 in RF.
  destruct bytes as [|b bytes]; [cbn in F1; injection F1 as <-; discriminate|]. cbn [app] in *. rewrite RF. reflexivity.
Qed.
