(** Status of a parsed message, blocks handed to the payload handler, and a Content-Length of 2^64-1. *)
From Coq Require Import String ZArith List Lia Bool Permutation.
From Coq Require Import ZifyBool ZifyNat.
From Verif Require Import Base Digits AlgModel FormModel DictModel MultipartModel HttpModel HttpBase HttpSplit HttpSpec HttpProofs HttpHead HttpBody HttpBounds.
Import ListNotations.

Local Arguments zlen : simpl never.
Local Arguments Z.add : simpl never.
Local Arguments Z.sub : simpl never.
Local Arguments used : simpl never.

Lemma finish_forms_keeps cf m m' : finish_forms cf m = Ok m' -> m_valid m' = m_valid m /\ m_status m' = m_status m.
Proof.
  unfold finish_forms. destruct (cf_request cf && negb (cf_handler cf) && negb (cf_headers_only cf)); [|intros E; injection E as <-; auto].
  destruct (is_prefix CONTENT_TYPE_URLENCODED _).
  - destruct (content_of m); cbn [obind]; [|discriminate]. intros E; injection E as <-. auto.
  - destruct (is_prefix CONTENT_TYPE_MULTIPART _); [|intros E; injection E as <-; auto].
    destruct (content_of m); cbn [obind]; [|discriminate]. destruct (parse_multipart _ _); try discriminate. intros E; injection E as <-. auto.
Qed.

(** the message the loop of [parse] leaves has the same missing-bytes flags *)
Definition flags (m : msg) : bool * bool := (m_missing m, m_after m).
Lemma h_loop_flags cf s : forall h m, flags (snd (s_st (h_loop cf h m s))) = flags m.
Proof.
  induction s as [|c s IH]; intros h m; cbn [h_loop]; auto.
  assert (match h_char cf (save_raw cf h c) m c with HCont _ m2 => flags m2 = flags m | HFail _ => True | HDone _ _ m2 => flags m2 = flags m end) as K.
  { unfold h_char, add_header, version00. destruct (h_state (save_raw cf h c));
      repeat match goal with |- context [if ?b then _ else _] => destruct b end; auto. }
  destruct (h_char cf (save_raw cf h c) m c) as [h2 m2|e|b h2 m2]; [rewrite IH; auto|auto|destruct b; auto].
Qed.
Lemma create_flags m m' : create_content_buffer m = Ok m' -> flags m' = flags m.
Proof. unfold create_content_buffer. destruct (_ <=? _); [discriminate|]. intros E; injection E as <-. reflexivity. Qed.
Lemma write_flags m o l m' : buf_write m o l = Ok m' -> flags m' = flags m.
Proof. unfold buf_write. match goal with |- context [if ?b then _ else _] => destruct b end; [|discriminate]. intros E; injection E as <-. reflexivity. Qed.
Lemma concat_flags m m' : concatenate_chunks m = Ok m' -> flags m' = flags m.
Proof.
  unfold concatenate_chunks. destruct (create_content_buffer _) eqn:E; cbn [obind]; [|discriminate].
  intros W. apply write_flags in W. apply create_flags in E. rewrite W, E. reflexivity.
Qed.
Lemma update_message_flags cf h m : flags (update_message cf h m) = flags m.
Proof. unfold update_message. destruct (cf_request cf); [destruct (h_query h)|]; reflexivity. Qed.
Lemma finish_headers_flags cf st m rc e st' m' : finish_headers cf st m = Ok (rc, e, (st', m')) -> flags m' = flags m.
Proof.
  unfold finish_headers. set (m0 := update_message _ _ _). assert (flags m0 = flags m) as F0 by (unfold m0; rewrite update_message_flags; reflexivity). clearbody m0.
  destruct (m_chunked m0); [intros E; inversion E; subst; auto|].
  destruct (is_content_length_implied _ _); [intros E; inversion E; subst; auto|].
  destruct (d_has _ _).
  - destruct (update_content_length m0) as [m1|] eqn:U; [|intros E; inversion E; subst; auto].
    assert (flags m1 = flags m) as F1.
    { unfold update_content_length in U. destruct (d_find _ _); [destruct (lexical_cast_size _); [|discriminate]|]; injection U as <-; auto. }
    destruct (m_clen m1 =? 0); [intros E; inversion E; subst; auto|].
    assert (flags (if cf_max cf <? m_clen m1 then set_m_clen (cf_max cf) m1 else m1) = flags m) as F2 by (destruct (_ <? _); auto).
    destruct (cf_headers_only cf); [intros E; inversion E; subst; auto|].
    destruct (create_content_buffer _) eqn:C; cbn [obind]; [|discriminate]. apply create_flags in C. intros E; inversion E; subst; congruence.
  - destruct (cf_request cf); intros E; inversion E; subst; auto.
Qed.
Lemma p_round_flags cf st m s r : p_round cf st m s = Ok r -> flags (snd (s_st r)) = flags m.
Proof.
  unfold p_round. assert (forall st, flags (snd (s_st (parse_headers cf st m s))) = flags m) as PH.
  { intros st0. unfold parse_headers. cbn [s_st snd]. apply h_loop_flags. }
  assert ((let r := parse_headers cf (set_p_phase PHeaders st) m s in
     match s_rc r with TTrue => obind (finish_headers cf (fst (s_st r)) (snd (s_st r))) (fun x => match x with (rc, e, stm) => Ok (mksub rc e stm (s_rest r)) end) | _ => Ok r end) = Ok r
     -> flags (snd (s_st r)) = flags m) as PH2.
  { specialize (PH (set_p_phase PHeaders st)). cbv zeta. set (r0 := parse_headers _ _ _ _) in *. clearbody r0.
    destruct (s_rc r0); [|intros E; injection E as <-; auto|intros E; injection E as <-; auto].
    destruct (finish_headers _ _ _) as [[[rc e] [st' m']]|] eqn:F; cbn [obind]; [|discriminate].
    apply finish_headers_flags in F. intros E; injection E as <-. cbn. congruence. }
  destruct (p_phase st); auto.
  - intros E; injection E as <-. auto.
  - unfold consume_content. destruct (p_remaining st =? 0); [intros E; injection E as <-; auto|]. destruct (_ <? _); [discriminate|].
    destruct (cf_handler cf); cbn [obind]; [intros E; injection E as <-; auto|]. destruct (_ <? _); cbn [obind]; [|intros E; injection E as <-; auto].
    destruct (_ <? _); destruct (buf_write _ _ _) eqn:W; cbn [obind]; try discriminate; apply write_flags in W; intros E; injection E as <-; auto.
  - intros E; injection E as <-. unfold consume_no_length. destruct (cf_handler cf); reflexivity.
  - cbv zeta. assert (flags (snd (s_st (parse_chunks cf st m s))) = flags m) as PC by reflexivity. set (r0 := parse_chunks _ _ _ _) in *. clearbody r0.
    destruct (s_rc r0); [|intros E; injection E as <-; auto|intros E; injection E as <-; auto].
    destruct (cf_handler cf); [intros E; injection E as <-; auto|].
    destruct (concatenate_chunks _) eqn:F; cbn [obind]; [|discriminate]. apply concat_flags in F. intros E; injection E as <-. cbn. congruence.
  - intros E; injection E as <-. auto.
Qed.
Lemma p_loop_flags cf f : forall st m s t r t', p_loop f cf st m s t = Ok (Some (r, t')) -> flags (snd (s_st r)) = flags m.
Proof.
  induction f as [|f IH]; intros st m s t r t'; [discriminate|]. rewrite p_loop_S.
  destruct (p_round cf st m s) as [r0|] eqn:R; cbn [obind]; [|discriminate]. apply p_round_flags in R.
  destruct (s_rc r0); [intros E; injection E as <- _; auto|intros E; injection E as <- _; auto|].
  destruct (s_rest r0); [intros E; injection E as <- _; auto|]. intros E. apply IH in E. congruence.
Qed.

Lemma parse_status cf st m s r : parse cf st m s = Ok (Some r) ->
  (r_rc r = TTrue -> m_valid (r_msg r) = true /\ m_status (r_msg r) = if m_missing m then STATUS_PARTIAL else STATUS_OK)
  /\ (r_rc r = TFalse -> m_status (r_msg r) = if m_missing m then STATUS_PARTIAL else STATUS_TRUNCATED).
Proof.
  unfold parse. set (m0 := if m_missing m then _ else _).
  assert (flags m0 = (m_missing m, if m_missing m then true else m_after m)) as F0 by (unfold m0; destruct (m_missing m) eqn:E; unfold flags; cbn; congruence).
  clearbody m0. destruct (p_loop 4 cf st m0 s 0) as [[[r0 t]|]|] eqn:L; cbn [obind]; try discriminate.
  apply p_loop_flags in L. rewrite F0 in L. unfold flags in L. injection L as L1 L2.
  destruct (s_rc r0).
  - destruct (finish _ _ _) as [m1|] eqn:F; cbn [obind]; [|discriminate]. intros E; injection E as <-. cbn [r_rc r_msg]. split; [|discriminate]. intros _.
    unfold finish in F. cbn [p_phase set_p_phase] in F. apply finish_forms_keeps in F as [A B]. rewrite A, B. split; [reflexivity|].
    unfold compute_status. cbn. rewrite L1, L2. destruct (m_missing m); auto.
  - intros E; injection E as <-. cbn [r_rc r_msg]. split; [discriminate|]. intros _. unfold compute_status. cbn. rewrite L1, L2. destruct (m_missing m); auto.
  - intros E; injection E as <-. cbn [r_rc]. split; discriminate.
Qed.

(** every block the chunk reader takes from the buffer is within it and not empty *)
Lemma k_char_within cf k ca pa c s n k' ca' pa' : k_char cf k ca pa c s = KCont n k' ca' pa' -> (1 <= n <= S (length s))%nat.
Proof.
  unfold k_char. destruct (k_state k);
    repeat match goal with |- context [if ?b then _ else _] => destruct b eqn:? end; intros E; inversion E; subst; try lia; unfold zlen in *; lia.
Qed.

(** a Content-Length whose buffer size wraps to zero *)
Lemma wrapping_length cf m hd v more : cf_max cf = two64 - 1 -> cf_headers_only cf = false -> head_ok cf hd -> m_headers m = [] -> m_missing m = false ->
  ~ bodiless m hd -> no_chunks hd ->
  values_of (bs "Content-Length") (hdrs_of hd) = [v] -> (v = bs "-1" \/ v = bs "18446744073709551615") ->
  parse cf (p_init cf) m (wire_head hd ++ more) = Bad BadMemory.
Proof.
  intros HX HO HD HM HMS HB HT HC V.
  pose proof (head_round cf m hd more HD) as HR. rewrite finish_headers_eq in HR. cbv zeta in HR.
  rewrite (not_chunked cf m hd HD HM HT), (implied_bodiless cf m hd HD HM HB) in HR.
  destruct (head_m0_facts cf m hd HD HM) as (P & _).
  pose proof (d_find_one HEADER_CONTENT_LENGTH _ _ v P HC) as DF.
  unfold d_has, update_content_length in HR. rewrite DF in HR.
  replace (lexical_cast_size (trim v)) with (Some (two64 - 1)) in HR by (destruct V; subst v; reflexivity).
  set (m0 := head_m0 cf m hd) in *. clearbody m0.
  assert (m_clen (set_m_clen (two64 - 1) m0) = two64 - 1) as EC by reflexivity. rewrite EC, HX in HR.
  change (two64 - 1 =? 0) with false in HR. change (two64 - 1 <? two64 - 1) with false in HR. rewrite HO in HR.
  unfold create_content_buffer in HR. rewrite EC in HR. change (wrap64 (two64 - 1 + 1) <=? two64 - 1) with true in HR. cbn [obind] in HR.
  unfold parse. rewrite HMS, p_loop_S, HR. reflexivity.
Qed.

(** only the form parser ends in an exception *)
Definition not_exc {A} (o : outcome A) : Prop := match o with Bad BadException => False | _ => True end.
Lemma create_exc m : not_exc (create_content_buffer m).
Proof. unfold create_content_buffer. destruct (_ <=? _); exact I. Qed.
Lemma write_exc m o l : not_exc (buf_write m o l).
Proof. unfold buf_write. match goal with |- context [if ?b then _ else _] => destruct b end; exact I. Qed.
Lemma bind_exc {A B} (o : outcome A) (f : A -> outcome B) : not_exc o -> (forall a, not_exc (f a)) -> not_exc (obind o f).
Proof. intros H K. destruct o as [a|e]; cbn; auto. Qed.
Lemma concat_exc m : not_exc (concatenate_chunks m).
Proof. unfold concatenate_chunks. apply bind_exc; [apply create_exc|]. intros; apply write_exc. Qed.
Lemma p_round_exc cf st m s : not_exc (p_round cf st m s).
Proof.
  unfold p_round. assert (forall st m, not_exc (finish_headers cf st m)) as FH.
  { intros st0 m0. unfold finish_headers. repeat match goal with |- context [if ?b then _ else _] => destruct b | |- context [match update_content_length ?x with _ => _ end] => destruct (update_content_length x) end; try exact I; apply bind_exc; try apply create_exc; intros; exact I. }
  assert (not_exc (let r := parse_headers cf (set_p_phase PHeaders st) m s in
     match s_rc r with TTrue => obind (finish_headers cf (fst (s_st r)) (snd (s_st r))) (fun x => match x with (rc, e, stm) => Ok (mksub rc e stm (s_rest r)) end) | _ => Ok r end)) as PH2.
  { cbv zeta. destruct (s_rc _); try exact I. apply bind_exc; [apply FH|]. intros [[rc e] x]; exact I. }
  destruct (p_phase st); try exact PH2; try exact I.
  - unfold consume_content. destruct (_ =? 0); [exact I|]. destruct (_ <? _); [exact I|]. apply bind_exc; [|intros; exact I].
    destruct (cf_handler cf); [exact I|]. destruct (_ <? _); [|exact I]. apply bind_exc; [destruct (_ <? _); apply write_exc|intros; exact I].
  - cbv zeta. destruct (s_rc _); try exact I. destruct (cf_handler cf); [exact I|]. apply bind_exc; [apply concat_exc|intros; exact I].
Qed.
Lemma p_loop_exc cf f : forall st m s t, not_exc (p_loop f cf st m s t).
Proof.
  induction f as [|f IH]; intros st m s t; [exact I|]. rewrite p_loop_S. apply bind_exc; [apply p_round_exc|].
  intros r. destruct (s_rc r); try exact I. destruct (s_rest r); [exact I|]. apply IH.
Qed.
Lemma parse_exception cf st m s : parse cf st m s = Bad BadException ->
  cf_request cf = true /\ cf_handler cf = false /\ cf_headers_only cf = false.
Proof.
  unfold parse. set (m0 := if m_missing m then _ else _). clearbody m0.
  pose proof (p_loop_exc cf 4 st m0 s 0) as P. destruct (p_loop 4 cf st m0 s 0) as [[[r t]|]|e]; cbn [obind].
  2: discriminate. 2: intros E; injection E as ->; contradiction.
  destruct (s_rc r); try discriminate. unfold finish. cbn [p_phase set_p_phase]. unfold finish_forms.
  destruct (cf_request cf), (cf_handler cf), (cf_headers_only cf); cbn [andb negb]; try discriminate. auto.
Qed.
Lemma parse_safe_total cf st m s : 0 <= cf_max cf < two64 - 1 -> reach new_msg false cf st m -> s <> [] ->
  (exists r, parse cf st m s = Ok (Some r))
  \/ parse cf st m s = Bad BadException /\ cf_request cf = true /\ cf_handler cf = false /\ cf_headers_only cf = false.
Proof.
  intros A B C. destruct (parse_safe cf st m s A B C) as [H|H]; [left; auto|right]. split; auto. eapply parse_exception; eauto.
Qed.

Lemma parse_no_memory_error cf st m s : 0 <= cf_max cf < two64 - 1 -> reach new_msg false cf st m -> s <> [] ->
  parse cf st m s <> Bad BadMemory.
Proof. intros A B C. destruct (parse_safe cf st m s A B C) as [[r H]|H]; rewrite H; discriminate. Qed.
