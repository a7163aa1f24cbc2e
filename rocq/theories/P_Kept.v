(** What a parser and its message hold against what was received (C165). *)
From Coq Require Import String ZArith List Lia Bool Permutation.
From Coq Require Import ZifyBool ZifyNat.
From Verif Require Import Base Digits AlgModel AlgProofs FormModel FormProofs DictModel MultipartModel HttpModel HttpSplit HttpSpec HttpProofs HttpHead HttpBody HttpExamples HttpFeeds KeptSpec KeptProofs.
Import ListNotations.

(** A new parser and message, one non-empty block after the other as long as more is wanted: [n] bytes so far, the
    parser, the message and what the last call gave. *)
Inductive received (cf : pcfg) : Z -> pst -> msg -> tri -> Prop :=
| received_none : received cf 0 (p_init cf) msg_init TIndet
| received_more n st m s r : received cf n st m TIndet -> s <> [] -> parse cf st m s = Ok (Some r) ->
    received cf (n + zlen s) (r_st r) (r_msg r) (r_rc r).

(** the name and value of the header that is being read, if there is one *)
Definition begun (h : hdrs) : Z :=
  match h_state h with
  | HHeaderName => zlen (h_name h)
  | HSpaceBeforeValue | HHeaderValue => zlen (h_name h) + zlen (h_value h)
  | _ => 0 end.

Lemma received_kept cf n st m rc : 0 <= cf_max cf -> received cf n st m rc ->
  kept_ok cf n st m /\ (rc = TIndet -> kinv cf n st m /\ pinv cf st m).
Proof.
  intros MX H. induction H as [|n st m s r H [_ IH] NE E].
  - pose proof (kinv_init cf). split; [apply kinv_kept; auto|]. intros _. split; auto. apply p_init_pinv; auto.
  - destruct (IH eq_refl) as [KI PI]. destruct (parse_kept _ _ _ _ _ _ PI KI E) as [A B]. split; auto. intros T. split; auto.
    eapply parse_pinv; eauto.
Qed.

(** Headers with the one begun, cookies, collected chunks with the size begun: each at most what was received.
    Variables of the query and of forms: at most 1024 times that. *)
Theorem C165_kept_partial : forall cf n st m rc, 0 <= cf_max cf -> received cf n st m rc ->
  text_size (m_headers m) + begun (p_h st) <= n
  /\ text_size (m_cookies m) <= n
  /\ text_size (m_queries m) <= 1024 * n
  /\ zlen (m_cache m) + zlen (k_size_str (p_k st)) <= n
  /\ (cf_request cf = true -> zlen (m_method m) + zlen (m_resource m) + zlen (m_query_string m) <= n + 3)
  /\ (cf_request cf = false -> zlen (m_reason m) <= n + 3).
Proof.
  intros cf n st m rc MX H. destruct (received_kept _ _ _ _ _ MX H) as [(A & B & C & D & E) _].
  change (begun (p_h st)) with (prog (p_h st)). unfold mline in B. repeat split; auto; intros X; rewrite X in B; auto.
Qed.
Print Assumptions C165_kept_partial.

(** the parsers of forms and cookies by themselves *)
Theorem C165_forms_partial : forall s, text_size (snd (parse_url_encoded s)) <= 1024 * zlen s.
Proof. exact url_encoded_size. Qed.
Print Assumptions C165_forms_partial.
Theorem C165_cookies_partial : forall set_cookie s, text_size (snd (parse_cookie_header set_cookie s)) <= zlen s.
Proof. exact cookie_header_size. Qed.
Print Assumptions C165_cookies_partial.
Theorem C165_multipart_partial : forall content_type s ret out, parse_multipart content_type s = MPOk ret out -> text_size out <= 20 * zlen s.
Proof. exact multipart_size. Qed.
Print Assumptions C165_multipart_partial.

(* ------------------------------------------------------------------ commas *)

(** a character that stands for itself in a name *)
Definition plain_char (c : Z) : Prop := 33 <= c <= 126 /\ ~ In c (bs "%+=&").

Lemma plain_facts c : plain_char c -> (c =? ch "=") = false /\ (c =? ch "&") = false /\ is_crlftab c = false /\ is_control c = false
  /\ (c =? ch "+") = false /\ (c =? ch "%") = false.
Proof.
  intros [A B]. cbn in B. unfold is_crlftab, is_control, schar. change (ch "=") with 61. change (ch "&") with 38. change (ch "+") with 43. change (ch "%") with 37.
  destruct (c <? 128) eqn:E; try lia; repeat split; try lia.
Qed.

Lemma decode_plain s : Forall plain_char s -> url_decode s = s.
Proof.
  induction 1 as [|c s H _ IH]; [reflexivity|]. destruct (plain_facts c H) as (_ & _ & _ & _ & A & B). cbn [url_decode]. rewrite A, B, IH. reflexivity.
Qed.

Lemma run_name s : forall n, Forall plain_char s -> zlen n + zlen s <= 1024 -> forall t,
  run u_step {| u_value_state := false; u_name := n; u_value := []; u_out := [] |} (s ++ t)
  = run u_step {| u_value_state := false; u_name := n ++ s; u_value := []; u_out := [] |} t.
Proof.
  induction s as [|c s IH]; intros n HF HL t; [rewrite app_nil_r; reflexivity|].
  inversion HF as [|? ? HC HS]; subst. destruct (plain_facts c HC) as (A1 & A2 & A3 & A4 & _). rewrite zlen_cons in HL. pose proof (zlen_nonneg s).
  cbn [app run]. unfold u_step at 1. cbn [u_value_state u_name u_value u_out]. rewrite A1, A2, A3, A4. unfold QUERY_NAME_MAX.
  replace (1024 <=? zlen n) with false by lia. cbn [orb]. rewrite IH; auto; [rewrite <- app_assoc; reflexivity|].
  rewrite zlen_app, zlen_cons, zlen_nil. lia.
Qed.

Lemma run_commas k n : n <> [] -> forall out,
  run u_step {| u_value_state := true; u_name := n; u_value := []; u_out := out |} (repeat (ch ",") k)
  = (true, {| u_value_state := true; u_name := n; u_value := []; u_out := out ++ repeat (url_decode n, []) k |}).
Proof.
  intros NE. induction k as [|k IH]; intros out; cbn [repeat run]; [rewrite app_nil_r; reflexivity|].
  unfold u_step at 1. cbn [u_value_state u_name u_value u_out]. change (ch "," =? ch "&") with false. change (ch "," =? ch ",") with true. cbn iota.
  unfold u_insert. cbn [u_name u_value u_out]. destruct n as [|c n]; [congruence|]. rewrite IH. rewrite <- app_assoc. reflexivity.
Qed.

(** every comma of a value adds the whole name once more *)
Theorem C165_commas_partial : forall name k, name <> [] -> Forall plain_char name -> zlen name <= 1024 ->
  parse_url_encoded (name ++ bs "=" ++ repeat (ch ",") k) = (true, repeat (name, []) (S k)).
Proof.
  intros name k NE HF HL. unfold parse_url_encoded. destruct (name ++ bs "=" ++ repeat (ch ",") k) as [|c0 s0] eqn:E; [destruct name; discriminate|].
  rewrite <- E. unfold u_init. rewrite run_name by (auto; rewrite zlen_nil; lia). cbn [app].
  change (bs "=" ++ repeat (ch ",") k) with (ch "=" :: repeat (ch ",") k). cbn [run]. unfold u_step at 1. cbn [u_value_state u_name u_value u_out].
  change (ch "=" =? ch "=") with true. cbn iota. rewrite run_commas by auto. unfold u_insert. cbn [u_name u_value u_out].
  rewrite (decode_plain name) by auto. change (url_decode []) with (@nil Z). destruct name as [|c name]; [congruence|]. f_equal.
  symmetry. apply (repeat_cons k (c :: name, @nil Z)).
Qed.
Print Assumptions C165_commas_partial.

Lemma size_repeat name k : text_size (repeat (name, []) k) = Z.of_nat k * zlen name.
Proof. induction k as [|k IH]; [reflexivity|]. cbn [repeat text_size fst snd]. rewrite IH, zlen_nil. lia. Qed.

(** not in proportion to the text by any factor below the greatest length of a name *)
Theorem C165_forms_refuted : forall f, f < 1024 -> ~ (forall s, text_size (snd (parse_url_encoded s)) <= f * zlen s).
Proof.
  intros f Hf H. set (name := repeat (ch "a") (Z.to_nat 1024)). set (k := Z.to_nat 2000000).
  assert (zlen name = 1024) as LN by (unfold name, zlen; rewrite repeat_length; lia).
  specialize (H (name ++ bs "=" ++ repeat (ch ",") k)). rewrite C165_commas_partial in H.
  - cbn [snd] in H. rewrite size_repeat, !zlen_app, LN in H. change (zlen (bs "=")) with 1 in H.
    assert (zlen (repeat (ch ",") k) = Z.of_nat k) as LK by (unfold zlen; rewrite repeat_length; reflexivity). rewrite LK in H.
    assert (Z.of_nat k = 2000000) as EK by (unfold k; lia). rewrite Nat2Z.inj_succ, EK in H. lia.
  - intros E. rewrite E in LN. discriminate.
  - unfold name. apply Forall_forall. intros x Hx. apply repeat_spec in Hx. subst. split; [cbn; lia|]. cbn. intuition congruence.
  - lia.
Qed.
Print Assumptions C165_forms_refuted.

(* ------------------------------------------------------------------ messages *)

Definition many_commas : list Z := bs "GET /?" ++ repeat (ch "a") 500 ++ bs "=" ++ repeat (ch ",") 500 ++ bs " HTTP/1.1" ++ CRLF ++ CRLF.

(** the variables of a request are not in proportion to the request *)
Theorem C165_variables_refuted : ~ (forall cf n st m rc, 0 <= cf_max cf -> received cf n st m rc -> text_size (m_queries m) <= 100 * n).
Proof.
  intros H. set (cf := ex_cf true false).
  assert (match parse cf (p_init cf) msg_init many_commas with
          | Ok (Some r) => text_size (m_queries (r_msg r)) = 250500 /\ zlen many_commas = 1020 | _ => False end) as C by (vm_compute; auto).
  destruct (parse cf (p_init cf) msg_init many_commas) as [[r|]|] eqn:E; try contradiction. destruct C as [C1 C2].
  assert (received cf (0 + zlen many_commas) (r_st r) (r_msg r) (r_rc r)) as R.
  { eapply received_more; [constructor|discriminate|exact E]. }
  apply H in R; [|vm_compute; discriminate]. rewrite C1, C2 in R. lia.
Qed.
Print Assumptions C165_variables_refuted.

Definition announcing : list Z := bs "POST / HTTP/1.1" ++ CRLF ++ bs "Content-Length: 60000" ++ CRLF ++ CRLF.

(** the buffer for the content is as large as announced at once *)
Theorem C165_buffer_refuted : ~ (forall cf n st m rc, 0 <= cf_max cf -> received cf n st m rc -> zlen (m_buf m) <= 1000 * n).
Proof.
  intros H. set (cf := {| cf_request := true; cf_max := 1048576; cf_headers_only := false; cf_handler := false; cf_save_raw := false; cf_pos := fun _ _ => O |}).
  assert (match parse cf (p_init cf) msg_init announcing with
          | Ok (Some r) => zlen (m_buf (r_msg r)) = 60000 /\ zlen announcing = 42 | _ => False end) as C by (vm_compute; auto).
  destruct (parse cf (p_init cf) msg_init announcing) as [[r|]|] eqn:E; try contradiction. destruct C as [C1 C2].
  assert (received cf (0 + zlen announcing) (r_st r) (r_msg r) (r_rc r)) as R.
  { eapply received_more; [constructor|discriminate|exact E]. }
  apply H in R; [|vm_compute; discriminate]. rewrite C1, C2 in R. lia.
Qed.
Print Assumptions C165_buffer_refuted.

Definition with_headers (k : nat) : head := HReq {| rl_method := bs "GET"; rl_resource := bs "/"; rl_query := None; rl_version := v11 |} (repeat (bs "a", bs "b") k).

Lemma with_one_ok cf : cf_request cf = true -> head_ok cf (with_headers 1).
Proof. intros H. unfold head_ok, with_headers. cbn [repeat]. split; [exact H|]. http_ok. Qed.

Lemma feed_one cf st m s r : feed cf st m [s] = Ok (Some r) -> exists r0, parse cf st m s = Ok (Some r0) /\ m_headers (r_msg r0) = m_headers (r_msg r).
Proof.
  cbn [feed]. destruct (parse cf st m s) as [[r0|]|]; try discriminate. intros E. exists r0. split; auto. destruct (r_rc r0); inversion E; reflexivity.
Qed.

(** nothing limits how much there is of headers *)
Theorem C165_headers_refuted : ~ (exists most, forall cf n st m rc, 0 <= cf_max cf -> received cf n st m rc -> text_size (m_headers m) <= most).
Proof.
  intros [most H]. assert (exists k, most < Z.of_nat k) as [k Hk] by (exists (Z.to_nat (Z.max 0 most + 1)); lia). set (hd := with_headers k). set (cf := ex_cf true false).
  assert (head_ok cf hd) as OK.
  { destruct (with_one_ok cf eq_refl) as (A & B & C). split; [reflexivity|]. split; [exact B|].
    apply Forall_forall. intros x Hx. apply repeat_spec in Hx. subst x. exact (Forall_inv C). }
  assert (wire_head hd <> []) as NE by (unfold wire_head, hd, with_headers, wire_reqline; cbn [rl_method app]; discriminate).
  assert (forall n, same_name (bs "a") n = false -> values_of n (hdrs_of hd) = []) as VN.
  { intros n Hn. unfold hd, with_headers, hdrs_of, values_of. clear -Hn. induction k as [|k IH]; [reflexivity|]. cbn [repeat filter fst]. rewrite Hn. exact IH. }
  assert (finished hd (feed cf (p_init cf) msg_init [wire_head hd]) [] (hdrs_of hd) []) as (r & E & T & _ & _ & _ & _ & _ & P & _).
  { apply (feed_request cf msg_init hd [wire_head hd]); auto.
    - vm_compute; discriminate.
    - intros v Hv. rewrite VN in Hv by reflexivity. contradiction.
    - intros v Hv. rewrite VN in Hv by reflexivity. contradiction.
    - split; [constructor; [exact NE|constructor]|]. cbn [concat]. reflexivity. }
  assert (hdrs_of hd = repeat (bs "a", bs "b") k) as HS by reflexivity. clearbody hd. apply feed_one in E as (r0 & EP & EM). 
  assert (received cf (0 + zlen (wire_head hd)) (r_st r0) (r_msg r0) (r_rc r0)) as R by (eapply received_more; [constructor|exact NE|exact EP]).
  apply H in R; [|vm_compute; discriminate].
  rewrite EM, <- (ts_perm _ _ P), HS in R.
  assert (forall j, text_size (repeat (bs "a", bs "b") j) = 2 * Z.of_nat j) as TS.
  { induction j as [|j IH]; [reflexivity|]. cbn [repeat text_size fst snd]. rewrite IH. change (zlen (bs "a")) with 1. change (zlen (bs "b")) with 1. lia. }
  rewrite TS in R. lia.
Qed.
Print Assumptions C165_headers_refuted.

(** a request in two blocks: what was received bounds what is held *)
Definition two_blocks : list (list Z) := [bs "GET /?a=1,2 HTTP/1.1" ++ CRLF ++ bs "Cookie: k=v" ++ CRLF ++ bs "Ho"; bs "st: h" ++ CRLF ++ CRLF].
Example C165_case : exists st m, received (ex_cf true false) 46 st m TTrue /\ text_size (m_headers m) = 14 /\ text_size (m_cookies m) = 2
  /\ m_queries m = [(bs "a", bs "2"); (bs "a", bs "1")]
  /\ snd (parse_url_encoded (bs "nm=1,,2")) = [(bs "nm", bs "1"); (bs "nm", []); (bs "nm", bs "2")].
Proof.
  set (cf := ex_cf true false).
  assert (match parse cf (p_init cf) msg_init (nth 0 two_blocks []) with
    | Ok (Some r) => r_rc r = TIndet /\ match parse cf (r_st r) (r_msg r) (nth 1 two_blocks []) with
       | Ok (Some r') => r_rc r' = TTrue /\ text_size (m_headers (r_msg r')) = 14 /\ text_size (m_cookies (r_msg r')) = 2
           /\ m_queries (r_msg r') = [(bs "a", bs "2"); (bs "a", bs "1")] | _ => False end | _ => False end) as C by (vm_compute; auto 10).
  destruct (parse cf (p_init cf) msg_init (nth 0 two_blocks [])) as [[r|]|] eqn:E1; try contradiction. destruct C as [C1 C].
  destruct (parse cf (r_st r) (r_msg r) (nth 1 two_blocks [])) as [[r'|]|] eqn:E2; try contradiction. destruct C as (C2 & C3 & C4 & C5).
  exists (r_st r'), (r_msg r'). split; [|repeat split; auto].
  rewrite <- C2. change 46 with (0 + zlen (nth 0 two_blocks []) + zlen (nth 1 two_blocks [])).
  eapply received_more; [|discriminate|exact E2]. rewrite <- C1. eapply received_more; [constructor|discriminate|exact E1].
Qed.
