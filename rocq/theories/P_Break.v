(** C170: line breaks in the texts of a message that is sent. *)
From Coq Require Import String ZArith List Bool Lia Permutation.
From Verif Require Import Base Digits AlgModel FormModel DictModel HttpModel HttpBase HttpSpec HttpProofs HttpHead HttpBody HttpFeeds HttpExamples DictSpec DictProofs MessageModel MessageSpec MessageProofs WriterModel WriterSpec WriterProofs.
Import ListNotations.

Local Arguments zlen : simpl never.
Local Arguments print_dec : simpl never.

(** text without line breaks; bytes that are lines, each ended by CR LF *)
Definition no_break (s : list Z) : Prop := Forall (fun c => c <> 13 /\ c <> 10) s.
Definition are_lines (ls : list (list Z)) (s : list Z) : Prop := s = concat (map (fun l => l ++ CRLF) ls) /\ Forall no_break ls.
(** no text of the message has a line break; other control characters, and any length, are allowed *)
Definition unbroken (o : omsg) : Prop :=
  let m := o_msg o in
  (if o_request o then no_break (m_method m) /\ no_break (m_resource m) /\ no_break (m_query_string m) else no_break (m_reason m))
  /\ Forall (fun p : hdr => no_break (fst p) /\ no_break (snd p)) (m_headers m) /\ Forall (fun c : list Z * list Z => no_break (fst c) /\ no_break (snd c)) (m_cookies m).
Definition header_line (p : hdr) : list Z := fst p ++ bs ": " ++ snd p.
(** names of headers the library sets itself *)
Definition own_name (n : list Z) : bool := same_name n (bs "Connection") || same_name n (bs "Content-Length") || same_name n (bs "Transfer-Encoding").

Lemma no_break_app a b : no_break (a ++ b) <-> no_break a /\ no_break b.
Proof. apply Forall_app. Qed.
Lemma no_break_bs s : forallb (fun c => negb (c =? 13) && negb (c =? 10)) (bs s) = true -> no_break (bs s).
Proof. intros H. apply Forall_forall. intros c HC. rewrite forallb_forall in H. apply H in HC. lia. Qed.
Lemma no_break_dec s : Forall is_dec s -> no_break s.
Proof. apply Forall_impl. unfold is_dec. intros; lia. Qed.
Lemma first_break a : forall b x y, no_break a -> no_break b -> a ++ 13 :: x = b ++ 13 :: y -> a = b /\ x = y.
Proof.
  induction a as [|c a IH]; intros [|d b] x y A B E; cbn [app] in E.
  - injection E as E. auto.
  - injection E as E1 E2. inversion B; subst. lia.
  - injection E as E1 E2. inversion A; subst. lia.
  - injection E as E1 E2. inversion A; inversion B; subst. destruct (IH b x y) as [-> ->]; auto.
Qed.
(** there is only one way to take bytes for lines *)
Lemma one_way ls : forall ls' s, are_lines ls s -> are_lines ls' s -> ls' = ls.
Proof.
  induction ls as [|l ls IH]; intros [|l' ls'] s [E F] [E' F']; auto.
  - rewrite E in E'. cbn in E'. destruct l'; discriminate E'.
  - rewrite E in E'. cbn in E'. destruct l; discriminate E'.
  - rewrite E in E'. cbn [map concat] in E'. rewrite <- !app_assoc in E'. inversion F; inversion F'; subst.
    apply first_break in E' as [<- E']; auto. injection E' as E'. f_equal. eapply IH; split; eauto.
Qed.

Section Change.
Variable P : hdr -> Prop.
Lemma erase_keeps d k : Forall P d -> Forall P (d_erase d k).
Proof. intros F. unfold d_erase. induction F; cbn [filter]; auto. destruct (negb _); auto. Qed.
Lemma change_keeps pos d k v : (forall p, P p -> P (fst p, v)) -> P (k, v) -> Forall P d -> Forall P (d_change pos d k v).
Proof.
  intros H K F. unfold d_change. destruct (d_has d k); [|apply Forall_insert; auto].
  induction F as [|p d HP F IH]; [constructor|]. cbn [d_change_first]. destruct (d_match k p); constructor; auto. apply erase_keeps; auto.
Qed.
(** a property of all headers of the message, of the cookies, and of what the library sets, is one of all headers that are sent *)
Lemma sent_keeps pos o (ka ch : bool) :
  (forall p v, P p -> In v [bs "Keep-Alive"; bs "close"; bs "chunked"; print_dec (m_clen (o_msg o))] -> P (fst p, v)) ->
  (forall b : bool, P (HEADER_CONNECTION, if b then bs "Keep-Alive" else bs "close")) -> P (HEADER_TRANSFER_ENCODING, bs "chunked") \/ ch = false ->
  P (HEADER_CONTENT_LENGTH, print_dec (m_clen (o_msg o))) \/ ch = true ->
  Forall P (m_headers (o_msg o)) -> Forall (fun c => P (cookie_name (o_request o), cookie_line (o_request o) c)) (m_cookies (o_msg o)) ->
  Forall P (sent_headers pos o ka ch).
Proof.
  intros R C T L F K. destruct (prepared_headers pos o ka ch) as [_ ->]. apply Forall_insert_all.
  - assert (Forall P (d_change pos (m_headers (o_msg o)) HEADER_CONNECTION (if ka then bs "Keep-Alive" else bs "close"))) as D.
    { apply change_keeps; auto. intros p HP. apply R; auto. destruct ka; cbn [In]; auto. }
    unfold len_header. destruct ch.
    + destruct T as [T|T]; [|discriminate]. destruct (o_chunks o); auto. apply change_keeps; auto. intros p HP. apply R; cbn [In]; auto.
    + destruct L as [L|L]; [|discriminate]. destruct (o_nolen o); auto. apply change_keeps; auto. intros p HP. apply R; cbn [In]; auto 6.
  - apply Forall_forall. intros p HP. apply in_map_iff in HP as (c & <- & HC). rewrite Forall_forall in K. auto.
Qed.
End Change.

Lemma others_sent pos o ka ch name : own_name name = false ->
  Permutation (values_of name (sent_headers pos o ka ch))
    (values_of name (m_headers (o_msg o)) ++ (if same_name name (cookie_name (o_request o)) then map (cookie_line (o_request o)) (m_cookies (o_msg o)) else [])).
Proof.
  intros N. unfold own_name in N. apply orb_false_iff in N as [N N3]. apply orb_false_iff in N as [N1 N2].
  etransitivity; [apply sent_values|]. rewrite (same_name_sym (cookie_name _)). apply Permutation_app_tail.
  rewrite (same_name_sym HEADER_CONNECTION). change HEADER_CONNECTION with (bs "Connection"). rewrite N1.
  assert (match len_header o ch with Some (k, _) => same_name k name | None => false end = false) as ->; [|auto].
  unfold len_header. destruct ch; [destruct (o_chunks o)|destruct (o_nolen o)]; auto; rewrite same_name_sym; auto.
Qed.

(** Without line breaks in its texts a message is sent as its first line, one line for each header and cookie and for what the
    library adds, and the empty line that ends the head; no receiver can take the bytes for other lines. *)
Theorem C170_lines_partial pos request ops ka ch : Forall keeps_line ops ->
  let o := msg_ops pos (o_new request) ops in unbroken o ->
  exists line hs, first_line_text request (o_msg o) line
    /\ are_lines (line :: map header_line hs ++ [[]]) (fst (prepare_buffers pos o ka ch))
    /\ (forall ls, are_lines ls (fst (prepare_buffers pos o ka ch)) -> ls = line :: map header_line hs ++ [[]])
    /\ (forall name, own_name name = false -> Permutation (values_of name hs)
         (values_of name (m_headers (o_msg o)) ++ (if same_name name (cookie_name request) then map (cookie_line request) (m_cookies (o_msg o)) else []))).
Proof.
  intros KL. cbv zeta. intros U.
  pose proof (ops_line pos ops (o_new request) KL ltac:(left; reflexivity)) as LI.
  pose proof (ops_request pos ops (o_new request)) as RQ. change (o_request (o_new request)) with request in RQ.
  pose proof (ops_nums pos ops (o_new request) ltac:(vm_compute; intuition discriminate)) as (N1 & N2 & N3).
  pose proof (ops_clen pos ops (o_new request) ltac:(cbn; lia)) as C0.
  set (o := msg_ops pos (o_new request) ops) in *. clearbody o. clear ops KL.
  pose proof (print_dec_numeral _ N1) as NU1. pose proof (print_dec_numeral _ N2) as NU2. pose proof (print_dec_numeral _ N3) as NU3. pose proof (print_dec_numeral _ C0) as NU4.
  exists (update_first_line o), (sent_headers pos o ka ch).
  assert (first_line_text request (o_msg o) (update_first_line o)) as FT.
  { exists (print_dec (m_vmaj (o_msg o))), (print_dec (m_vmin (o_msg o))), (print_dec (m_code (o_msg o))). do 3 (split; [assumption|]).
    unfold update_first_line, version_string. rewrite RQ. destruct request; rewrite <- ?app_assoc; reflexivity. }
  split; [exact FT|].
  destruct U as (U1 & U2 & U3).
  assert (Forall (fun p : hdr => no_break (fst p) /\ no_break (snd p)) (sent_headers pos o ka ch)) as SH.
  { assert (no_break (print_dec (m_clen (o_msg o)))) as NL by (apply no_break_dec, NU4).
    assert (forall v, In v [bs "Keep-Alive"; bs "close"; bs "chunked"; print_dec (m_clen (o_msg o))] -> no_break v) as NV.
    { intros v [<-|[<-|[<-|[<-|[]]]]]; auto; apply no_break_bs; reflexivity. }
    apply sent_keeps; cbn [fst snd]; auto.
    - intros p v [A _] HV. auto.
    - intros b. split; [apply no_break_bs; reflexivity|]. apply NV. destruct b; cbn [In]; auto.
    - left. split; apply no_break_bs; reflexivity.
    - left. split; auto. apply no_break_bs; reflexivity.
    - eapply Forall_impl; [|exact U3]. intros c [A B]. destruct (o_request o); cbn [cookie_name cookie_line].
      + split; [apply no_break_bs; reflexivity|]. rewrite !no_break_app. split; auto. split; auto. apply no_break_bs; reflexivity.
      + split; [apply no_break_bs; reflexivity|]. rewrite !no_break_app. repeat split; auto; try (apply no_break_bs; reflexivity); repeat constructor; lia. }
  assert (no_break (update_first_line o)) as NF.
  { destruct FT as (a & b & c & (_ & A & _) & (_ & B & _) & (_ & C & _) & ->). apply no_break_dec in A, B, C. rewrite RQ in U1. destruct request.
    - destruct U1 as (M1 & M2 & M3). rewrite !no_break_app. repeat split; auto; try (apply no_break_bs; reflexivity).
      destruct (m_query_string (o_msg o)); [constructor|]. apply no_break_app. split; auto. apply no_break_bs; reflexivity.
    - rewrite !no_break_app. repeat split; auto; apply no_break_bs; reflexivity. }
  assert (are_lines (update_first_line o :: map header_line (sent_headers pos o ka ch) ++ [[]]) (fst (prepare_buffers pos o ka ch))) as AL.
  { split.
    - rewrite (prepared_bytes pos o ka ch LI), <- head_of_wire. cbn [map concat]. rewrite <- app_assoc. f_equal. unfold CRLF. cbn [app]. do 2 f_equal.
      unfold header_lines. rewrite map_app, concat_app, map_map. cbn [map concat app]. f_equal. f_equal. apply map_ext. intros p. unfold header_line. rewrite <- !app_assoc. reflexivity.
    - constructor; auto. apply Forall_app. split; [|repeat constructor]. apply Forall_map. eapply Forall_impl; [|exact SH].
      intros p [A B]. unfold header_line. rewrite !no_break_app. split; auto. split; auto. apply no_break_bs; reflexivity. }
  split; [exact AL|]. split; [intros ls H; eapply one_way; eauto|].
  rewrite <- RQ. intros name. apply others_sent.
Qed.
Print Assumptions C170_lines_partial.

(** The header lines a receiver sees in one header of the sender: the value up to a line break, then what follows it. *)
Inductive seen : hdr -> list hdr -> Prop :=
  | S_one p : hdr_ok p -> seen p [p]
  | S_more n a n' v l : hdr_ok (n, a) -> seen (n', v) l -> seen (n, a ++ CRLF ++ n' ++ bs ": " ++ v) ((n, a) :: l).
(** lines that do not touch how the content is read *)
Definition calm (h : hdr) : Prop :=
  same_name (fst h) (bs "Transfer-Encoding") = false /\ (same_name (fst h) (bs "Content-Type") = true -> ~ exists t, snd h = bs "multipart/form-data" ++ t).
Definition adds (p : hdr) (l : list hdr) : Prop := seen p l /\ Forall calm l /\ values_of (bs "Content-Length") l = values_of (bs "Content-Length") [p].
(** the first line is legal *)
Definition line_legal (o : omsg) : Prop := legal (o_with o (set_m_headers [] (set_m_cookies [] (o_msg o)))).

Lemma seen_wire p l : seen p l -> wire_hdrs l = wire_hdr p.
Proof.
  induction 1 as [p _|n a n' v l _ _ IH]; [unfold wire_hdrs; cbn; apply app_nil_r|].
  unfold wire_hdrs in *. cbn [map concat]. rewrite IH. unfold wire_hdr. cbn [fst snd]. rewrite <- !app_assoc. reflexivity.
Qed.
Lemma seen_ok p l : seen p l -> Forall hdr_ok l.
Proof. induction 1; auto. Qed.
Lemma seen_name p l : seen p l -> exists a t, l = (fst p, a) :: t /\ hdr_ok (fst p, a).
Proof. intros H. inversion H; subst; [destruct p; cbn [fst]; eauto|eauto]. Qed.

Lemma all_seen sent : Forall (fun p => exists l, adds p l) sent -> exists ls, Forall2 seen sent ls /\ Forall calm (concat ls)
  /\ values_of (bs "Content-Length") (concat ls) = values_of (bs "Content-Length") sent /\ wire_hdrs (concat ls) = wire_hdrs sent /\ Forall hdr_ok (concat ls).
Proof.
  induction 1 as [|p sent (l & S & C & V) F (ls & I1 & I2 & I3 & I4 & I5)].
  - exists []. cbn [concat]. repeat split; auto.
  - exists (l :: ls). cbn [concat]. split; [auto|]. split; [apply Forall_app; auto|]. split; [|split].
    + rewrite values_app, V, I3. change (p :: sent) with ([p] ++ sent). rewrite values_app. reflexivity.
    + unfold wire_hdrs in *. rewrite map_app, concat_app, I4. cbn [map concat]. f_equal. apply (seen_wire p l S).
    + apply Forall_app. split; auto. eapply seen_ok; eauto.
Qed.

Lemma adds_one p : hdr_ok p -> calm p -> adds p [p].
Proof. intros. split; [constructor; auto|]. split; auto. Qed.
Lemma calm_value n a v : calm (n, a) -> (forall t, v <> bs "multipart/form-data" ++ t) -> calm (n, v).
Proof. intros [A _] B. split; [exact A|]. cbn [fst snd]. intros _ (t & E). apply (B t E). Qed.

(** A message whose header values and cookies have line breaks, each followed by a legal header line: the receiver reads every such
    line as a header of its own, and the rest of the message as if nothing had happened. *)
Theorem C170_added_partial pos request ops ka cf m body :
  let o := msg_ops pos (o_new request) ops in
  Forall keeps_line ops -> line_legal o -> o_nolen o = false ->
  Forall (fun p => exists l, adds p l) (m_headers (o_msg o)) ->
  Forall (fun c => exists l, adds (cookie_name request, cookie_line request c) l) (m_cookies (o_msg o)) ->
  content_of (o_msg o) = Ok body -> zlen body < two64 - 1 ->
  storing cf -> cf_request cf = request -> zlen body <= cf_max cf ->
  m_headers m = [] -> m_missing m = false -> ~ no_body_expected m o ->
  exists bytes o' sent ls, msg_send pos o ka false = Ok (bytes, o') /\ Forall2 seen sent ls
    /\ (forall name, own_name name = false -> Permutation (values_of name sent)
         (values_of name (m_headers (o_msg o)) ++ (if same_name name (cookie_name request) then map (cookie_line request) (m_cookies (o_msg o)) else [])))
    /\ forall pieces more, cut pieces (bytes ++ more) ->
       exists r, feed cf (p_init cf) m pieces = Ok (Some r) /\ r_rc r = TTrue /\ r_err r = None /\ r_rest r = more /\ m_valid (r_msg r) = true
         /\ content_of (r_msg r) = Ok body /\ same_first_line request (r_msg r) (o_msg o) /\ Permutation (concat ls) (m_headers (r_msg r)).
Proof.
  cbv zeta. intros KL LE NL HS CS CO CL ST CR MX MH MM NB.
  pose proof (ops_request pos ops (o_new request)) as RQ. change (o_request (o_new request)) with request in RQ.
  assert (line_inv (msg_ops pos (o_new request) ops)) as LI by (apply ops_line; auto; left; reflexivity).
  pose proof (ops_clen pos ops (o_new request) ltac:(cbn; lia)) as C0.
  set (o := msg_ops pos (o_new request) ops) in *. clearbody o. clear ops KL.
  pose proof (content_len _ _ C0 CO) as BL. pose proof (zlen_nonneg body) as B0.
  pose proof (print_dec_numeral _ C0) as (NU1 & NU2 & NU3).
  assert (hdr_ok (HEADER_CONTENT_LENGTH, print_dec (m_clen (o_msg o)))) as HL by (apply (len_hdr o false); [lia|unfold len_header; rewrite NL; reflexivity]).
  assert (forall v, In v [bs "Keep-Alive"; bs "close"; bs "chunked"; print_dec (m_clen (o_msg o))] ->
    Forall value_char v /\ zlen v <= 1048576 /\ forall t, v <> bs "multipart/form-data" ++ t) as NV.
  { intros v [<-|[<-|[<-|[<-|[]]]]].
    - split; [apply Forall_value_bs; reflexivity|]. split; [vm_compute; discriminate|]. intros t X; discriminate X.
    - split; [apply Forall_value_bs; reflexivity|]. split; [vm_compute; discriminate|]. intros t X; discriminate X.
    - split; [apply Forall_value_bs; reflexivity|]. split; [vm_compute; discriminate|]. intros t X; discriminate X.
    - destruct HL as (_ & _ & _ & A & B). split; [exact A|]. split; [exact B|]. intros t X. rewrite X in NU2. inversion NU2 as [|? ? D _]. unfold is_dec in D. vm_compute in D. destruct D as [_ D]. apply D. reflexivity. }
  assert (Forall (fun p => exists l, adds p l) (sent_headers pos o ka false)) as SA.
  { apply sent_keeps.
    - intros p v (l & S & C & _) HV. destruct (NV v HV) as (V1 & V2 & V3). destruct (seen_name p l S) as (a & t & -> & HO). exists [(fst p, v)].
      apply adds_one; [destruct HO as (H1 & H2 & H3 & _); repeat split; assumption|]. inversion C; subst. eapply calm_value; eauto.
    - intros b. exists [(HEADER_CONNECTION, if b then bs "Keep-Alive" else bs "close")]. apply adds_one; [apply conn_hdr|]. split; [reflexivity|]. intros X; discriminate X.
    - right; reflexivity.
    - left. exists [(HEADER_CONTENT_LENGTH, print_dec (m_clen (o_msg o)))]. apply adds_one; auto. split; [reflexivity|]. intros X; discriminate X.
    - exact HS.
    - rewrite RQ. exact CS. }
  destruct (all_seen _ SA) as (ls & L1 & L2 & L3 & L4 & L5).
  destruct (prepared_content pos o ka false) as [PC PB]. pose proof (prepared_bytes pos o ka false LI) as PH.
  exists (fst (prepare_buffers pos o ka false) ++ body), (snd (prepare_buffers pos o ka false)), (sent_headers pos o ka false), ls. split.
  { unfold msg_send. destruct (prepare_buffers pos o ka false) as [h o'] eqn:E. cbn [fst snd] in *. cbn [negb andb]. rewrite PC.
    destruct (0 <? m_clen (o_msg o)) eqn:E0.
    - rewrite (content_same (o_msg o)) by auto. rewrite CO. reflexivity.
    - assert (zlen body = 0) as Z0 by lia. destruct body; [rewrite app_nil_r; reflexivity|]. rewrite zlen_cons in Z0. pose proof (zlen_nonneg body). lia. }
  split; [exact L1|]. split; [rewrite <- RQ; intros name; apply others_sent|].
  intros pieces more CU. rewrite PH in CU.
  assert (wire_head (head_of o (sent_headers pos o ka false)) = wire_head (head_of o (concat ls))) as WE.
  { rewrite <- !head_of_wire, !header_lines_wire, L4. reflexivity. }
  rewrite WE, <- app_assoc in CU.
  set (o0 := o_with o (set_m_headers [] (set_m_cookies [] (o_msg o)))) in *.
  assert (head_of o (concat ls) = head_of o0 (concat ls)) as HE by reflexivity.
  assert (o_request o0 = o_request o) as R0 by reflexivity.
  assert (values_of (bs "Content-Length") (concat ls) = [print_dec (m_clen (o_msg o))]) as VL.
  { rewrite L3. apply Permutation_length_1_inv, Permutation_sym. etransitivity; [apply sent_values|]. unfold len_header. rewrite NL. destruct (o_request o); reflexivity. }
  assert (forall n p, In p (values_of n (concat ls)) -> exists k, same_name k n = true /\ calm (k, p)) as IV.
  { intros n p HP. unfold values_of in HP. apply in_map_iff in HP as ([k v] & <- & HP). apply filter_In in HP as [HP SN]. exists k. split; [exact SN|]. rewrite Forall_forall in L2. exact (L2 _ HP). }
  pose proof (feed_length cf m (head_of o (concat ls)) pieces MH MM) as FL. rewrite HE in FL at 1.
  specialize (FL (head_of_ok cf o0 (concat ls) LE ltac:(congruence) L5) (print_dec (m_clen (o_msg o))) body more ST).
  unfold no_chunks, no_multipart in FL. rewrite head_of_hdrs in FL.
  destruct FL as (r & F1 & F2 & F3 & F4 & F5 & F6 & F7 & F8 & F9); auto; try congruence.
  - intros B. apply NB. rewrite HE in B. apply (head_of_bodiless o0 (concat ls) m LE) in B. exact B.
  - intros v HV. destruct (IV _ _ HV) as (k & A & B & _). cbn [fst] in B. congruence.
  - intros v HV. destruct (IV _ _ HV) as (k & A & _ & B). apply B, A.
  - exists r. do 4 (split; [assumption|]). split; [assumption|]. split; [assumption|]. split; [|exact F8].
    rewrite HE in F7. apply (head_of_line o0 (concat ls) (r_msg r) LE) in F7. rewrite R0, RQ in F7. exact F7.
Qed.
Print Assumptions C170_added_partial.

(** A status text with the end of a head in it ends the message there, whatever else was set: the bytes behind it are left for the
    next message, and begin with what the text goes on with. *)
Theorem C170_split_partial pos ops ka bytes o' cf m a s :
  let o := msg_ops pos (o_new false) ops in
  Forall keeps_line ops -> m_reason (o_msg o) = a ++ CRLF ++ bs "Content-Length: 0" ++ CRLF ++ CRLF ++ s ->
  Forall text_char a -> zlen a <= 1024 -> 0 <= m_code (o_msg o) < 65536 -> 0 <= m_vmaj (o_msg o) < 65536 -> 0 <= m_vmin (o_msg o) < 65536 ->
  storing cf -> cf_request cf = false -> m_headers m = [] -> m_missing m = false -> ~ no_body_expected m o ->
  msg_send pos o ka false = Ok (bytes, o') ->
  forall pieces, cut pieces bytes ->
  exists r t, feed cf (p_init cf) m pieces = Ok (Some r) /\ r_rc r = TTrue /\ r_err r = None /\ r_rest r = s ++ CRLF ++ t /\ m_valid (r_msg r) = true
    /\ content_of (r_msg r) = Ok [] /\ m_code (r_msg r) = m_code (o_msg o) /\ m_reason (r_msg r) = a /\ m_headers (r_msg r) = [(bs "Content-Length", bs "0")].
Proof.
  cbv zeta. intros KL RE TA LA C1 V1 V2 ST CR MH MM NB MS pieces CU.
  pose proof (ops_request pos ops (o_new false)) as RQ. change (o_request (o_new false)) with false in RQ.
  assert (line_inv (msg_ops pos (o_new false) ops)) as LI by (apply ops_line; auto; left; reflexivity).
  set (o := msg_ops pos (o_new false) ops) in *. clearbody o. clear ops KL.
  pose proof (prepared_bytes pos o ka false LI) as PH.
  set (hd := HResp {| sl_version := {| v_maj := print_dec (m_vmaj (o_msg o)); v_min := print_dec (m_vmin (o_msg o)) |}; sl_code := print_dec (m_code (o_msg o)); sl_reason := a |}
    [(bs "Content-Length", bs "0")]).
  assert (exists t, bytes = wire_head hd ++ s ++ CRLF ++ t) as (t & BE).
  { assert (exists body, bytes = fst (prepare_buffers pos o ka false) ++ body) as (body & ->).
    { unfold msg_send in MS. destruct (prepare_buffers pos o ka false) as [h o1]. cbn [fst]. destruct (negb false && _).
      - destruct (content_of (o_msg o1)) as [b|]; cbn [obind] in MS; [injection MS as <- _; eauto|discriminate].
      - injection MS as <- _. exists []. rewrite app_nil_r. reflexivity. }
    rewrite PH. exists (wire_hdrs (sent_headers pos o ka false) ++ CRLF ++ body). unfold head_of. rewrite RQ, RE. unfold hd, wire_head, wire_statline, wire_version.
    cbn [hdrs_of sl_version sl_code sl_reason v_maj v_min]. unfold wire_hdrs at 2, wire_hdr. cbn [map concat fst snd]. rewrite <- !app_assoc. reflexivity. }
  pose proof (print_dec_numeral (m_vmaj (o_msg o)) ltac:(lia)) as (M1 & M2 & M3).
  pose proof (print_dec_numeral (m_vmin (o_msg o)) ltac:(lia)) as (N1 & N2 & N3).
  pose proof (print_dec_numeral (m_code (o_msg o)) ltac:(lia)) as (K1 & K2 & K3).
  assert (head_ok cf hd) as HO.
  { split; [exact CR|]. split.
    - unfold statline_ok, version_ok. cbn [sl_version sl_code sl_reason v_maj v_min]. rewrite M3, N3, K3. repeat split; auto; lia.
    - constructor; [|constructor]. split; [discriminate|]. split; [apply token_chars; reflexivity|]. split; [vm_compute; discriminate|]. split; [apply Forall_value_bs; reflexivity|vm_compute; discriminate]. }
  destruct (feed_length cf m hd pieces MH MM HO (bs "0") [] (s ++ CRLF ++ t) ST) as (r & F1 & F2 & F3 & F4 & F5 & F6 & F7 & F8 & F9).
  - intros B. apply NB. unfold hd, bodiless in B. cbn [sl_code] in B. rewrite K3 in B. unfold no_body_expected. rewrite RQ. auto.
  - intros v HV. vm_compute in HV. contradiction.
  - reflexivity.
  - discriminate.
  - repeat constructor; unfold is_dec; vm_compute; discriminate.
  - reflexivity.
  - destruct ST as [[A _] _]. exact A.
  - reflexivity.
  - intros v HV. vm_compute in HV. contradiction.
  - cbn [app]. rewrite <- BE. exact CU.
  - exists r, t. do 3 (split; [assumption|]). split; [exact F9|]. split; [assumption|]. split; [assumption|].
    unfold hd, first_line in F7. cbn [sl_code sl_reason] in F7. rewrite K3 in F7. destruct F7 as (G1 & G2 & _). split; [exact G1|]. split; [exact G2|].
    apply Permutation_length_1_inv. exact F8.
Qed.
Print Assumptions C170_split_partial.

(** The claim for all texts: a receiver that takes the bytes for a message sees the headers and cookies of the message that was sent, and no
    bytes are left over. *)
Definition headers_stay : Prop := forall pos request ops ka bytes o' cf pieces r,
  let o := msg_ops pos (o_new request) ops in
  Forall keeps_line ops -> msg_send pos o ka false = Ok (bytes, o') -> storing cf -> cf_request cf = request -> cut pieces bytes ->
  feed cf (p_init cf) msg_init pieces = Ok (Some r) -> r_rc r = TTrue ->
  forall name, own_name name = false -> Permutation (values_of name (m_headers (r_msg r)))
    (values_of name (m_headers (o_msg o)) ++ (if same_name name (cookie_name request) then map (cookie_line request) (m_cookies (o_msg o)) else [])).
Definition one_message : Prop := forall pos request ops ka bytes o' cf pieces r,
  let o := msg_ops pos (o_new request) ops in
  Forall keeps_line ops -> msg_send pos o ka false = Ok (bytes, o') -> storing cf -> cf_request cf = request -> cut pieces bytes ->
  feed cf (p_init cf) msg_init pieces = Ok (Some r) -> r_rc r = TTrue -> r_rest r = [].
Definition broken_value : list Z := bs "1" ++ CRLF ++ bs "X-B: 2".
Definition header_ops : list mop := [MsgAddHeader (bs "X-A") broken_value; MsgContent (bs "hello")].
Definition second : list Z := bs "HTTP/1.1 200 OK" ++ CRLF ++ bs "Content-Length: 4" ++ CRLF ++ CRLF ++ bs "evil".
Definition broken_reason : list Z := bs "OK" ++ CRLF ++ bs "Content-Length: 0" ++ CRLF ++ CRLF ++ second.
Definition reason_ops : list mop := [MsgReason broken_reason; MsgContent (bs "good")].
Definition bytes_of (ops : list mop) : list Z := match msg_send pos0 (msg_ops pos0 (o_new false) ops) true false with Ok (b, _) => b | _ => [] end.
Definition ccf : pcfg := ex_cf false false.
Lemma read_some (o : outcome (option presult)) (P : presult -> Prop) : match o with Ok (Some r) => P r | _ => False end -> exists r, o = Ok (Some r) /\ P r.
Proof. destruct o as [[r|]|]; try contradiction. exists r. auto. Qed.
Lemma send_of ops : bytes_of ops <> [] -> exists o', msg_send pos0 (msg_ops pos0 (o_new false) ops) true false = Ok (bytes_of ops, o').
Proof. unfold bytes_of. destruct (msg_send _ _ _ _) as [[b o']|]; [eauto|congruence]. Qed.
Lemma one_piece s : s <> [] -> cut [s] s.
Proof. intros H. split; [repeat constructor; auto|]. cbn [concat]. apply app_nil_r. Qed.
Lemma storing_ccf : storing ccf.
Proof. repeat split; vm_compute; congruence. Qed.

Theorem C170_headers_refuted : ~ headers_stay.
Proof.
  intros H. destruct (send_of header_ops ltac:(vm_compute; discriminate)) as (o' & MS).
  destruct (read_some (feed ccf (p_init ccf) msg_init [bytes_of header_ops]) (fun r => r_rc r = TTrue /\ values_of (bs "X-B") (m_headers (r_msg r)) = [bs "2"]) ltac:(vm_compute; auto)) as (r & F & T & V).
  assert (Forall keeps_line header_ops) as KL by (repeat constructor).
  assert (cut [bytes_of header_ops] (bytes_of header_ops)) as CU by (apply one_piece; vm_compute; discriminate).
  pose proof (H pos0 false header_ops true (bytes_of header_ops) o' ccf [bytes_of header_ops] r KL MS storing_ccf eq_refl CU F T (bs "X-B") eq_refl) as X.
  rewrite V in X. apply Permutation_length in X. vm_compute in X. discriminate.
Qed.
Print Assumptions C170_headers_refuted.
Theorem C170_message_refuted : ~ one_message.
Proof.
  intros H. destruct (send_of reason_ops ltac:(vm_compute; discriminate)) as (o' & MS).
  destruct (read_some (feed ccf (p_init ccf) msg_init [bytes_of reason_ops]) (fun r => r_rc r = TTrue /\ r_rest r <> []) ltac:(vm_compute; split; [reflexivity|discriminate])) as (r & F & T & V).
  assert (Forall keeps_line reason_ops) as KL by (repeat constructor).
  assert (cut [bytes_of reason_ops] (bytes_of reason_ops)) as CU by (apply one_piece; vm_compute; discriminate).
  apply V. exact (H pos0 false reason_ops true (bytes_of reason_ops) o' ccf [bytes_of reason_ops] r KL MS storing_ccf eq_refl CU F T).
Qed.
Print Assumptions C170_message_refuted.

(** cases: a reply with control characters but without line breaks; one header that becomes two; one response that becomes two *)
Example C170_case : Forall keeps_line (MsgAddHeader (bs "X-A") [1; 9; 127] :: reply_ops) /\ unbroken (msg_ops pos0 (o_new false) (MsgAddHeader (bs "X-A") [1; 9; 127] :: reply_ops)).
Proof.
  split; [repeat constructor|]. assert (forall l, forallb (fun c => negb (c =? 13) && negb (c =? 10)) l = true -> no_break l) as A.
  { intros l H. apply Forall_forall. intros c HC. rewrite forallb_forall in H. apply H in HC. lia. }
  assert (forall d : list hdr, forallb (fun p => forallb (fun c => negb (c =? 13) && negb (c =? 10)) (fst p) && forallb (fun c => negb (c =? 13) && negb (c =? 10)) (snd p)) d = true ->
    Forall (fun p : hdr => no_break (fst p) /\ no_break (snd p)) d) as B.
  { intros d H. apply Forall_forall. intros p HP. rewrite forallb_forall in H. apply H in HP. apply andb_true_iff in HP as [X Y]. auto. }
  split; [apply A; vm_compute; reflexivity|]. split; apply B; vm_compute; reflexivity.
Qed.
Example C170_added_case : adds (bs "X-A", broken_value) [(bs "X-A", bs "1"); (bs "X-B", bs "2")] /\ line_legal (msg_ops pos0 (o_new false) header_ops)
  /\ m_headers (o_msg (msg_ops pos0 (o_new false) header_ops)) = [(bs "X-A", broken_value)] /\ ~ no_body_expected msg_init (msg_ops pos0 (o_new false) header_ops).
Proof.
  split; [|split; [apply legalb_ok; vm_compute; reflexivity|split; [reflexivity|]]].
  - split; [|split; [|reflexivity]].
    + unfold broken_value. change (bs "X-B: 2") with (bs "X-B" ++ bs ": " ++ bs "2"). apply S_more; [|apply S_one];
        (split; [discriminate|split; [apply token_chars; reflexivity|split; [vm_compute; discriminate|split; [apply value_chars; reflexivity|vm_compute; discriminate]]]]).
    + repeat constructor; intros X; discriminate X.
  - intros N. vm_compute in N. intuition discriminate.
Qed.
Example C170_split_case : m_reason (o_msg (msg_ops pos0 (o_new false) reason_ops)) = bs "OK" ++ CRLF ++ bs "Content-Length: 0" ++ CRLF ++ CRLF ++ second
  /\ exists r r2, feed ccf (p_init ccf) msg_init [bytes_of reason_ops] = Ok (Some r) /\ m_reason (r_msg r) = bs "OK"
  /\ feed ccf (p_init ccf) msg_init [r_rest r] = Ok (Some r2) /\ r_rc r2 = TTrue /\ content_of (r_msg r2) = Ok (bs "evil").
Proof.
  split; [reflexivity|].
  destruct (read_some (feed ccf (p_init ccf) msg_init [bytes_of reason_ops]) (fun r => m_reason (r_msg r) = bs "OK" /\
    match feed ccf (p_init ccf) msg_init [r_rest r] with Ok (Some r2) => r_rc r2 = TTrue /\ content_of (r_msg r2) = Ok (bs "evil") | _ => False end) ltac:(vm_compute; auto)) as (r & F & R & H).
  destruct (read_some _ _ H) as (r2 & F2 & A & B). exists r, r2. auto.
Qed.
