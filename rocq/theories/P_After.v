(** C171: calls of the parser after the end of a message. *)
From Coq Require Import String ZArith List Bool Lia Permutation.
From Verif Require Import Base FormModel DictModel MultipartModel HttpModel HttpSpec HttpExamples DictSpec DictProofs HttpHead.
Import ListNotations.

(** What can be called once [parse] has said that the message is finished: [parse] again, on bytes that come later, or [finish]. *)
Inductive call := CParse (s : list Z) | CFinish.
(** a call on the parser and the message of a result; what a caller of [finish] has is the result before with the message changed *)
Definition do_call (cf : pcfg) (r : presult) (c : call) : outcome (option presult) :=
  match c with
  | CParse s => parse cf (r_st r) (r_msg r) s
  | CFinish => obind (finish cf (r_st r) (r_msg r)) (fun m => Ok (Some (mkpres (r_rc r) (r_err r) (r_st r) m (r_rest r))))
  end.
Fixpoint do_calls (cf : pcfg) (r : presult) (l : list call) : outcome (option presult) :=
  match l with
  | [] => Ok (Some r)
  | c :: l' => match do_call cf r c with Ok (Some r') => do_calls cf r' l' | o => o end
  end.
(** the two messages are the same but for the variables *)
Definition same_but_variables (a b : msg) : Prop := set_m_queries [] a = set_m_queries [] b.
(** a message in which no form is looked for *)
Definition no_form (cf : pcfg) (m : msg) : Prop :=
  cf_request cf = false \/ cf_handler cf = true \/ cf_headers_only cf = true \/
  forall v, In v (values_of (bs "Content-Type") (m_headers m)) -> ~ (exists t, v = bs "application/x-www-form-urlencoded" ++ t) /\ ~ (exists t, v = bs "multipart/form-data" ++ t).
Fixpoint times {A} (n : nat) (l : list A) : list A := match n with O => [] | S n' => l ++ times n' l end.

Lemma forms_again cf m m' : finish_forms cf m = Ok m' -> exists l, m' = set_m_queries (d_insert_all (cf_pos cf) (m_queries m) l) m /\ (no_form cf m -> l = [])
  /\ forall q, finish_forms cf (set_m_queries q m) = Ok (set_m_queries (d_insert_all (cf_pos cf) q l) m).
Proof.
  assert (forall x, set_m_queries (m_queries x) x = x) as SQ by (intros []; reflexivity).
  assert (forall a b x, set_m_queries a (set_m_queries b x) = set_m_queries a x) as SS by (intros ? ? []; reflexivity).
  assert (forall q, content_of (set_m_queries q m) = content_of m) as CQ by reflexivity.
  unfold finish_forms. destruct (cf_request cf && negb (cf_handler cf) && negb (cf_headers_only cf)) eqn:E.
  - cbn zeta. assert (forall p t, no_form cf m -> is_prefix p (d_get (m_headers m) HEADER_CONTENT_TYPE) = true -> p = CONTENT_TYPE_URLENCODED \/ p = CONTENT_TYPE_MULTIPART -> t = @nil (list Z * list Z)) as NF.
    { intros p t N P W. exfalso. destruct N as [N|[N|[N|N]]]; [rewrite N in E; discriminate|rewrite N in E; cbn in E; rewrite andb_false_r in E; discriminate|rewrite N, andb_false_r in E; discriminate|].
      unfold d_get in P. rewrite find_values in P. change HEADER_CONTENT_TYPE with (bs "Content-Type") in P.
      destruct (values_of (bs "Content-Type") (m_headers m)) as [|v vs]; [destruct W as [-> | ->]; discriminate P|]. destruct (N v (or_introl eq_refl)) as [N1 N2].
      apply is_prefix_spec in P as (u & ->). destruct W as [-> | ->]; [apply N1|apply N2]; exists u; reflexivity. }
    destruct (is_prefix CONTENT_TYPE_URLENCODED _) eqn:P1.
    + destruct (content_of m) as [body|] eqn:C; [|discriminate]. cbn [obind]. intros X; injection X as <-. exists (snd (parse_url_encoded body)). split; [reflexivity|]. split; [intros N; exact (NF _ _ N P1 (or_introl eq_refl))|].
      intros q. change (m_headers (set_m_queries q m)) with (m_headers m). rewrite P1, CQ. cbn [obind]. change (m_queries (set_m_queries q m)) with q. rewrite SS. reflexivity.
    + destruct (is_prefix CONTENT_TYPE_MULTIPART _) eqn:P2.
      * destruct (content_of m) as [body|] eqn:C; [|discriminate]. cbn [obind]. destruct (parse_multipart _ body) eqn:MP; try discriminate. intros X; injection X as <-.
        eexists. split; [reflexivity|]. split; [intros N; exact (NF _ _ N P2 (or_intror eq_refl))|].
        intros q. change (m_headers (set_m_queries q m)) with (m_headers m). rewrite P1, P2, CQ. cbn [obind]. rewrite MP. change (m_queries (set_m_queries q m)) with q. rewrite SS. reflexivity.
      * intros X; injection X as <-. exists []. cbn [d_insert_all fold_left]. rewrite SQ. split; [reflexivity|]. split; [reflexivity|].
        intros q. change (m_headers (set_m_queries q m)) with (m_headers m). rewrite P1, P2. reflexivity.
  - intros X; injection X as <-. exists []. cbn [d_insert_all fold_left]. rewrite SQ. auto.
Qed.

(** the end of a message *)
Lemma parse_end cf st m s r : parse cf st m s = Ok (Some r) -> r_rc r = TTrue -> p_phase (r_st r) = PEnd /\ exists m1, finish_forms cf (compute_status (set_m_valid true m1) true) = Ok (r_msg r).
Proof.
  unfold parse. destruct (p_loop _ _ _ _ _ _) as [[[x t]|]|]; cbn [obind]; try discriminate.
  destruct (s_rc x); try (intros H; injection H as <-; discriminate).
  unfold finish. cbn [p_phase set_p_phase]. destruct (finish_forms _ _) as [m1|] eqn:E; cbn [obind]; [|discriminate].
  intros H; injection H as <-. intros _. split; [destruct (fst (s_st x)); reflexivity|]. eexists. exact E.
Qed.
Lemma finish_end cf st m : p_phase st = PEnd -> finish cf st m = finish_forms cf (compute_status (set_m_valid true m) true).
Proof. intros E. unfold finish. rewrite E. reflexivity. Qed.
Lemma feed_end cf : forall pieces st m r, feed cf st m pieces = Ok (Some r) -> r_rc r = TTrue -> p_phase (r_st r) = PEnd /\ exists m1, finish_forms cf (compute_status (set_m_valid true m1) true) = Ok (r_msg r).
Proof.
  induction pieces as [|p l IH]; intros st m r; cbn [feed].
  - intros H; injection H as <-. discriminate.
  - destruct (parse cf st m p) as [[r1|]|] eqn:E; cbn [obind]; try discriminate. destruct (r_rc r1) eqn:R; intros H T.
    + injection H as <-. exact (parse_end _ _ _ _ _ E R).
    + injection H as <-. discriminate T.
    + eapply IH; eauto.
Qed.

Section Calls.
Variables (cf : pcfg) (m1 : msg) (l : list (list Z * list Z)).
Let M := compute_status (set_m_valid true m1) true.
Hypothesis HL : forall q, finish_forms cf (set_m_queries q M) = Ok (set_m_queries (d_insert_all (cf_pos cf) q l) M).
Hypothesis HA : m_missing m1 = true -> m_after m1 = true.
Definition at_end (q : dict) (r : presult) : Prop := p_phase (r_st r) = PEnd /\ r_rc r = TTrue /\ r_msg r = set_m_queries q M.

Lemma status_again q : compute_status (set_m_valid true (set_m_queries q M)) true = set_m_queries q M.
Proof. unfold M, compute_status. destruct m1. reflexivity. Qed.
Lemma after_again q : (if m_missing (set_m_queries q M) then set_m_after true (set_m_queries q M) else set_m_queries q M) = set_m_queries q M.
Proof.
  change (m_missing (set_m_queries q M)) with (m_missing m1). destruct (m_missing m1) eqn:E; [|reflexivity].
  specialize (HA eq_refl). unfold M, compute_status. destruct m1. cbn in HA. subst. reflexivity.
Qed.
Lemma parse_at_end q r s : at_end q r -> exists r', parse cf (r_st r) (r_msg r) s = Ok (Some r') /\ at_end (d_insert_all (cf_pos cf) q l) r' /\ r_err r' = None /\ r_rest r' = s /\ p_last (r_st r') = 0.
Proof.
  intros (P & T & ->). unfold parse. rewrite after_again. cbn [p_loop]. unfold p_round. rewrite P. cbn [obind s_rc s_st s_rest fst snd s_err].
  rewrite finish_end by (destruct (r_st r); reflexivity). rewrite status_again, HL. cbn [obind]. eexists. split; [reflexivity|].
  split; [split; [destruct (r_st r); reflexivity|split; reflexivity]|]. split; [reflexivity|]. split; [reflexivity|]. unfold round_bytes. rewrite P. destruct (r_st r); reflexivity.
Qed.
Lemma call_at_end q r c : at_end q r -> exists r', do_call cf r c = Ok (Some r') /\ at_end (d_insert_all (cf_pos cf) q l) r'.
Proof.
  intros H. destruct c as [s|]; cbn [do_call].
  - destruct (parse_at_end q r s H) as (r' & A & B & _). eauto.
  - destruct H as (P & T & ->). rewrite finish_end by exact P. rewrite status_again, HL. cbn [obind]. eexists. split; [reflexivity|]. split; [exact P|]. split; [exact T|reflexivity].
Qed.
Lemma calls_at_end base : forall calls q r k, at_end q r -> Permutation q (base ++ times k l) ->
  exists r' q', do_calls cf r calls = Ok (Some r') /\ at_end q' r' /\ Permutation q' (base ++ times (length calls + k) l).
Proof.
  induction calls as [|c calls IH]; intros q r k H P.
  - exists r, q. cbn [do_calls length plus]. auto.
  - destruct (call_at_end q r c H) as (r1 & D & H1). cbn [do_calls]. rewrite D.
    destruct (IH _ r1 (S k) H1) as (r' & q' & A & B & C).
    + etransitivity; [apply Permutation_sym, d_insert_all_perm|]. cbn [times]. etransitivity; [apply Permutation_app_head; exact P|].
      rewrite !app_assoc. apply Permutation_app_tail. apply Permutation_app_comm.
    + exists r', q'. split; [exact A|]. split; [exact B|]. replace (length (c :: calls) + k)%nat with (length calls + S k)%nat by (cbn [length]; lia). exact C.
Qed.
End Calls.

(** C171. Once [parse] has said that the message is finished, calls of [parse] with later bytes and of [finish] change nothing but the
    variables: the variables [l] of a form in the content are added again by every call. A message without a form stays as it is. *)
Theorem C171_calls_partial cf m pieces r : feed cf (p_init cf) m pieces = Ok (Some r) -> r_rc r = TTrue -> (m_missing (r_msg r) = true -> m_after (r_msg r) = true) ->
  exists base l, Permutation (m_queries (r_msg r)) (base ++ l) /\ (no_form cf (r_msg r) -> l = []) /\
  forall calls, exists r', do_calls cf r calls = Ok (Some r') /\ r_rc r' = TTrue /\ same_but_variables (r_msg r') (r_msg r)
    /\ Permutation (m_queries (r_msg r')) (base ++ times (length calls + 1) l).
Proof.
  intros F T A. destruct (feed_end cf pieces _ _ _ F T) as (P & m1 & E). destruct (forms_again _ _ _ E) as (l & EM & NF & HL).
  exists (m_queries m1), l. rewrite EM in *.
  assert (Permutation (d_insert_all (cf_pos cf) (m_queries (compute_status (set_m_valid true m1) true)) l) (m_queries m1 ++ l)) as PQ.
  { etransitivity; [apply Permutation_sym, d_insert_all_perm|]. apply Permutation_app_comm. }
  split; [exact PQ|]. split; [exact NF|]. intros calls.
  destruct (calls_at_end cf m1 l HL A (m_queries m1) calls _ r 1 (conj P (conj T EM))) as (r' & q' & D & (P' & T' & M') & C).
  { cbn [times]. rewrite app_nil_r. exact PQ. }
  exists r'. split; [exact D|]. split; [exact T'|]. rewrite M'. split; [reflexivity|exact C].
Qed.
Print Assumptions C171_calls_partial.
(** A message in which no form is looked for stays as it is, variables and all up to their order in the table. *)
Theorem C171_same_partial cf m pieces r calls : feed cf (p_init cf) m pieces = Ok (Some r) -> r_rc r = TTrue -> (m_missing (r_msg r) = true -> m_after (r_msg r) = true) -> no_form cf (r_msg r) ->
  exists r', do_calls cf r calls = Ok (Some r') /\ r_rc r' = TTrue /\ same_but_variables (r_msg r') (r_msg r) /\ Permutation (m_queries (r_msg r')) (m_queries (r_msg r)).
Proof.
  intros F T A N. destruct (C171_calls_partial cf m pieces r F T A) as (base & l & P & L & H). specialize (L N). subst l. destruct (H calls) as (r' & D & T' & S & C).
  exists r'. do 3 (split; [assumption|]). etransitivity; [exact C|]. etransitivity; [|apply Permutation_sym, P].
  assert (forall n, times n (@nil (list Z * list Z)) = []) as -> by (induction n; auto). reflexivity.
Qed.
Print Assumptions C171_same_partial.
(** [parse] after the end reads none of the bytes, and says again that the message is finished, also after missing data. *)
Theorem C171_reads_nothing cf m pieces r s r' : feed cf (p_init cf) m pieces = Ok (Some r) -> r_rc r = TTrue -> parse cf (r_st r) (r_msg r) s = Ok (Some r') ->
  r_rc r' = TTrue /\ r_err r' = None /\ r_rest r' = s /\ p_last (r_st r') = 0.
Proof.
  intros F T. destruct (feed_end cf pieces _ _ _ F T) as (P & _). unfold parse. cbn [p_loop]. unfold p_round. rewrite P. cbn [obind s_rc s_st s_rest fst snd s_err].
  destruct (finish _ _ _) as [x|]; cbn [obind]; [|discriminate]. intros X; injection X as <-. split; [reflexivity|]. split; [reflexivity|]. split; [reflexivity|].
  unfold round_bytes. cbn [r_st]. rewrite P. destruct (r_st r); reflexivity.
Qed.
Print Assumptions C171_reads_nothing.

(** The claim for all messages: the message stays as it is. A form is added a second time. *)
Definition stays_as_is : Prop := forall cf m pieces r calls r', feed cf (p_init cf) m pieces = Ok (Some r) -> r_rc r = TTrue -> m_missing (r_msg r) = false ->
  do_calls cf r calls = Ok (Some r') -> forall n, Permutation (values_of n (m_queries (r_msg r'))) (values_of n (m_queries (r_msg r))).
Definition form_post : list Z := bs "POST /f?x=0 HTTP/1.1" ++ CRLF ++ bs "Content-Type: application/x-www-form-urlencoded" ++ CRLF ++ bs "Content-Length: 3" ++ CRLF ++ CRLF ++ bs "a=1".
Lemma some_result (o : outcome (option presult)) (P : presult -> Prop) : match o with Ok (Some r) => P r | _ => False end -> exists r, o = Ok (Some r) /\ P r.
Proof. destruct o as [[r|]|]; try contradiction. exists r. auto. Qed.
Theorem C171_form_refuted : ~ stays_as_is.
Proof.
  intros H. destruct (some_result (feed (ex_cf true false) (p_init (ex_cf true false)) msg_init [form_post]) (fun r => r_rc r = TTrue /\ m_missing (r_msg r) = false /\ values_of (bs "a") (m_queries (r_msg r)) = [bs "1"] /\
    match do_calls (ex_cf true false) r [CParse (bs "GET")] with Ok (Some r') => values_of (bs "a") (m_queries (r_msg r')) = [bs "1"; bs "1"] | _ => False end) ltac:(vm_compute; auto)) as (r & F & T & MI & V & W).
  destruct (some_result _ _ W) as (r' & D & V').
  pose proof (H (ex_cf true false) msg_init [form_post] r [CParse (bs "GET")] r' F T MI D (bs "a")) as X. rewrite V, V' in X. apply Permutation_length in X. discriminate X.
Qed.
Print Assumptions C171_form_refuted.
(** a form and a request without one, with calls after the end *)
Definition plain_get : list Z := bs "GET /f?x=0 HTTP/1.1" ++ CRLF ++ bs "Host: h" ++ CRLF ++ CRLF.
Example C171_case : exists r, feed (ex_cf true false) (p_init (ex_cf true false)) msg_init [plain_get ++ bs "GET"] = Ok (Some r) /\ r_rc r = TTrue /\ m_missing (r_msg r) = false /\ no_form (ex_cf true false) (r_msg r)
  /\ r_rest r = bs "GET" /\ exists r', do_calls (ex_cf true false) r [CParse (bs " /"); CFinish; CParse (bs "x")] = Ok (Some r') /\ m_queries (r_msg r') = [(bs "x", bs "0")] /\ r_rest r' = bs "x".
Proof.
  destruct (some_result (feed (ex_cf true false) (p_init (ex_cf true false)) msg_init [plain_get ++ bs "GET"]) (fun r => r_rc r = TTrue /\ m_missing (r_msg r) = false /\ values_of (bs "Content-Type") (m_headers (r_msg r)) = [] /\ r_rest r = bs "GET" /\
    match do_calls (ex_cf true false) r [CParse (bs " /"); CFinish; CParse (bs "x")] with Ok (Some r') => m_queries (r_msg r') = [(bs "x", bs "0")] /\ r_rest r' = bs "x" | _ => False end) ltac:(vm_compute; repeat split)) as (r & F & T & MI & V & R & W).
  destruct (some_result _ _ W) as (r' & D & X & Y). exists r. split; [exact F|]. split; [exact T|]. split; [exact MI|]. split; [|split; [exact R|exists r'; auto]].
  right. right. right. rewrite V. intros v [].
Qed.
