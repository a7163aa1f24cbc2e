(** What the parser accepts is read as a legal head. *)
From Coq Require Import String ZArith List Lia Bool Permutation.
From Coq Require Import ZifyBool ZifyNat.
From Verif Require Import Base Digits AlgModel FormModel DictModel MultipartModel HttpModel HttpBase HttpSplit HttpSpec HttpProofs HttpHead HttpBody HttpChunk HttpBounds HttpLimits HttpReset EolSpec HttpEol SoundSpec.
Import ListNotations.

Local Arguments zlen : simpl never.
Local Arguments Z.add : simpl never.
Local Arguments Z.sub : simpl never.
Local Arguments Z.modulo : simpl never.

(* ------------------------------------------------------------------ characters *)
Lemma token_of c : is_byte c -> bad_token c = false -> token_char c.
Proof.
  intros B H. unfold bad_token in H. apply orb_false_iff in H as [H S]. apply orb_false_iff in H as [A C]. unfold is_char, is_control, schar, is_byte in *.
  unfold is_special in S. change (bs "()<>@,;:\" ++ [34] ++ bs "/[]?={} " ++ [9]) with separators in S.
  assert (N : ~ In c separators).
  { intros I. assert (existsb (Z.eqb c) separators = true) by (apply existsb_exists; exists c; split; [exact I|apply Z.eqb_refl]). congruence. }
  assert (c <> 32) by (intros ->; apply N; vm_compute; tauto). split; [|exact N]. destruct (c <? 128) eqn:E; lia.
Qed.
Lemma text_of c : is_byte c -> is_control c = false -> text_char c.
Proof. unfold is_byte, is_control, schar, text_char. intros B H. destruct (c <? 128) eqn:E; lia. Qed.
Lemma token_text c : token_char c -> text_char c.
Proof. unfold token_char, text_char. lia. Qed.

(* ------------------------------------------------------------------ the head so far *)
Definition ver (a b : Z) (m : msg) : msg := set_m_vmin b (set_m_vmaj a m).
Definition u16ok (z : Z) : Prop := 0 <= z < 65536.
(** in which states a name is being read; in the others the last header is in the table *)
Definition naming (s : hstate) : bool := match s with HHeaderName | HSpaceBeforeValue | HHeaderValue => true | _ => false end.
Definition st_ok (cf : pcfg) (h : hdrs) (a b : Z) : Prop :=
  match h_state h with
  | HMethodStart => cf_request cf = true
  | HMethod | HUriStem | HUriQuery => cf_request cf = true /\ h_method h <> []
  | HVersionH | HVersionT1 | HVersionT2 | HVersionP | HVersionSlash | HVersionMajorStart => cf_request cf = true -> h_method h <> []
  | HVersionMajor | HVersionMinorStart => (cf_request cf = true -> h_method h <> []) /\ u16ok a
  | HStatusCodeStart | HStatusCode | HStatusMessage => cf_request cf = false /\ u16ok a /\ u16ok b
  | _ => (cf_request cf = true -> h_method h <> []) /\ u16ok a /\ u16ok b
  end.
Record chars (cf : pcfg) (h : hdrs) : Prop := {
  c_method : Forall token_char (h_method h); c_resource : Forall uri_char (h_resource h); c_query : Forall query_char (h_query h); c_reason : Forall text_char (h_reason h);
  c_name : Forall token_char (h_name h); c_value : Forall value_char (h_value h); c_code : u16ok (h_code h);
  c_req : cf_request cf = true -> h_code h = 0 /\ h_reason h = []; c_resp : cf_request cf = false -> h_method h = [] /\ h_resource h = [] /\ h_query h = [] }.
Definition sofar (cf : pcfg) (m0 : msg) (h : hdrs) (m : msg) : Prop := exists a b hl,
  m = ver a b (ins_all cf m0 hl) /\ Forall hdr_ok hl /\ st_ok cf h a b /\ chars cf h /\ hlim h
  /\ (if naming (h_state h) then h_name h <> [] else (h_name h, h_value h) = last_hdr [] [] hl).
Lemma ins_snoc cf m0 hl p a b : set_m_headers (d_insert (cf_pos cf) (m_headers (ver a b (ins_all cf m0 hl))) p) (ver a b (ins_all cf m0 hl)) = ver a b (ins_all cf m0 (hl ++ [p])).
Proof. unfold ins_all, d_insert_all. rewrite fold_left_app. destruct m0; reflexivity. Qed.
Lemma last_snoc hl (p : hdr) : last_hdr [] [] (hl ++ [p]) = p.
Proof. unfold last_hdr. apply last_last. Qed.
Lemma add_sofar cf m0 hl a b h : Forall hdr_ok hl -> chars cf h -> hlim h -> h_name h <> [] ->
  exists hl', add_header cf h (ver a b (ins_all cf m0 hl)) = ver a b (ins_all cf m0 hl') /\ Forall hdr_ok hl' /\ (h_name h, h_value h) = last_hdr [] [] hl'.
Proof.
  intros F C (_ & _ & _ & _ & L1 & L2 & _) N. exists (hl ++ [(h_name h, h_value h)]). unfold add_header. rewrite ins_snoc, last_snoc. split; [reflexivity|]. split; [|reflexivity].
  apply Forall_app. split; [exact F|]. constructor; [|constructor]. unfold hdr_ok. cbn [fst snd]. split; [exact N|]. split; [apply C|]. split; [exact L1|]. split; [apply C|exact L2].
Qed.
Lemma ver_maj a b m : m_vmaj (ver a b m) = a. Proof. destruct m; reflexivity. Qed.
Lemma ver_min a b m : m_vmin (ver a b m) = b. Proof. destruct m; reflexivity. Qed.
Lemma ver_set_maj a b x m : set_m_vmaj x (ver a b m) = ver x b m. Proof. destruct m; reflexivity. Qed.
Lemma ver_set_min a b x m : set_m_vmin x (ver a b m) = ver a x m. Proof. destruct m; reflexivity. Qed.
Lemma ver_00 a b m : version00 (ver a b m) = ver 0 0 m. Proof. destruct m; reflexivity. Qed.
Lemma u16_ok z : u16ok (u16 z). Proof. unfold u16ok, u16. apply Z.mod_pos_bound. lia. Qed.
Lemma digit_ok c : is_digit c = true -> u16ok (c - 48).
Proof. unfold is_digit, u16ok. lia. Qed.
Lemma snoc_ok (P : Z -> Prop) l c : Forall P l -> P c -> Forall P (l ++ [c]).
Proof. intros A B. apply Forall_app. split; auto. Qed.
Lemma uri_of c : is_byte c -> is_control c = false -> (c =? 32) = false -> (c =? ch "?") = false -> uri_char c.
Proof. intros B C S Q. apply (text_of c B) in C. change (ch "?") with 63 in Q. unfold text_char, uri_char in *. lia. Qed.
Lemma query_of c : is_byte c -> is_control c = false -> (c =? 32) = false -> query_char c.
Proof. intros B C S. apply (text_of c B) in C. unfold text_char, query_char in *. lia. Qed.
Lemma value_of c : is_byte c -> negb (c =? 9) && is_control c = false -> value_char c.
Proof. intros B C. unfold value_char. destruct (c =? 9) eqn:E; [right; lia|]. left. apply text_of; auto. Qed.

Definition ended (s : hstate) : bool := match s with HExpectingNewline | HExpectingCR | HFinalNewline | HFinalCR => true | _ => false end.
Lemma h_char_sofar cf m0 h m c : is_byte c -> sofar cf m0 h m ->
  match h_char cf h m c with HCont h' m' => sofar cf m0 h' m' | HDone _ h' m' => h' = h /\ m' = m /\ ended (h_state h) = true | HFail _ => True end.
Proof.
  intros B (a & b & hl & -> & HL & ST & CH & LI & NV). pose proof (h_char_lim cf h (ver a b (ins_all cf m0 hl)) c LI) as LM.
  destruct (h_char cf h (ver a b (ins_all cf m0 hl)) c) as [h' m'|e|k h' m'] eqn:E; [|exact I|].
  - assert (LI' : hlim h').
    { clear - E LI. unfold h_char in E. destruct LI as (A & B & C & D & F & G & H).
      destruct (h_state h) eqn:EH; unfold begin_name, goto, version00, METHOD_MAX, RESOURCE_MAX, QUERY_STRING_MAX, STATUS_MESSAGE_MAX, HEADER_NAME_MAX, HEADER_VALUE_MAX in E;
      repeat match type of E with context [if ?b then _ else _] => destruct b eqn:? end; try discriminate E; injection E as <- _;
      unfold hlim; cbn; rewrite ?zlen_snoc, ?zlen_nil, ?zlen_one; repeat split; try lia; try (intros; congruence); auto; try (rewrite (H eq_refl), zlen_nil; lia). }
    clear LM. unfold h_char in E. unfold st_ok in ST.
    destruct (h_state h) eqn:EH; cbn [naming] in NV; unfold begin_name, goto in E; rewrite ?ver_maj, ?ver_min, ?ver_set_maj, ?ver_set_min, ?ver_00 in E;
    repeat match type of E with context [if ?b then _ else _] => destruct b eqn:? end; try discriminate E; injection E as <- <-; unfold sofar.
    all: try (destruct (add_sofar cf m0 hl a b h HL CH LI NV) as (hl' & -> & HL' & NV'); exists a, b, hl'; split; [reflexivity|]; split; [exact HL'|]; split; [unfold st_ok; cbn; tauto|];
              split; [destruct CH; constructor; cbn; auto|]; split; [exact LI'|]; cbn; exact NV').
    all: eexists _, _, hl; (split; [reflexivity|]); (split; [exact HL|]).
    all: unfold st_ok; cbn [set_h_state set_h_method set_h_resource set_h_query set_h_code set_h_reason set_h_name set_h_value h_state h_method h_resource h_query h_code h_reason h_name h_value naming]; rewrite ?EH.
    all: split; [|split; [|split; [exact LI'|]]].
    all: try exact NV.
    all: try (cbn [naming]; first [exact NV | discriminate | (intros X; apply app_eq_nil in X; destruct X; discriminate)]).
    all: try tauto.
    all: try (repeat split; first [tauto | discriminate | apply u16_ok | (apply digit_ok; assumption) | (intros X; apply app_eq_nil in X; destruct X; discriminate) | (intros; discriminate)]; fail).
    all: try (split; [tauto|]; first [apply u16_ok | (apply digit_ok; assumption) | split; first [tauto | apply u16_ok | (apply digit_ok; assumption) | (unfold u16ok; lia)]]; fail).
    all: try (destruct CH; constructor; cbn; auto;
      first [ (constructor; [apply token_of; assumption|constructor]) | (apply snoc_ok; [assumption|]; first [apply token_of; assumption | apply uri_of; assumption | apply query_of; assumption | apply text_of; assumption | apply value_of; assumption | (left; apply token_text; apply token_of; assumption)])
            | apply u16_ok | (apply digit_ok; assumption) | (intros; exfalso; destruct ST; congruence) | (intros; exfalso; congruence) ]; fail).
    all: destruct ST as [ST ?]; split; [intros; congruence|assumption].
  - clear LM. unfold h_char in E. destruct (h_state h) eqn:EH;
    repeat match type of E with context [if ?b then _ else _] => destruct b eqn:? end; try discriminate E; injection E as _ <- <-; auto.
Qed.
Lemma save_sofar cf m0 h m c : sofar cf m0 h m -> sofar cf m0 (save_raw cf h c) m.
Proof. intros H. unfold save_raw. destruct (cf_save_raw cf); [|exact H]. destruct H as (a & b & hl & A & B & C & D & E & F). exists a, b, hl. split; [exact A|]. split; [exact B|]. split; [exact C|]. split; [destruct D; constructor; assumption|]. split; [exact E|exact F]. Qed.
Lemma loop_sofar cf m0 s : forall h m, Forall is_byte s -> sofar cf m0 h m ->
  let r := h_loop cf h m s in sofar cf m0 (fst (s_st r)) (snd (s_st r)) /\ (s_rc r = TTrue -> ended (h_state (fst (s_st r))) = true).
Proof.
  induction s as [|c s IH]; intros h m BS SF; cbn [h_loop]; [split; [exact SF|discriminate]|]. inversion BS as [|? ? B1 B2]; subst.
  pose proof (save_sofar cf m0 h m c SF) as SF'. pose proof (h_char_sofar cf m0 _ m c B1 SF') as HC.
  destruct (h_char cf (save_raw cf h c) m c) as [h2 m2|e|[|] h2 m2].
  - apply IH; auto.
  - split; [exact SF'|discriminate].
  - destruct HC as (-> & -> & HC). split; [exact SF'|intros _; exact HC].
  - destruct HC as (-> & -> & HC). split; [exact SF'|intros _; exact HC].
Qed.
Lemma init_sofar cf m : sofar cf m (h_init cf) m.
Proof.
  exists (m_vmaj m), (m_vmin m), []. split; [destruct m; reflexivity|]. split; [constructor|]. unfold h_init. split; [unfold st_ok; cbn; destruct (cf_request cf); [reflexivity|discriminate]|].
  split; [constructor; cbn; auto; unfold u16ok; lia|]. split; [unfold hlim; cbn; rewrite !zlen_nil; repeat split; lia|]. cbn. destruct (cf_request cf); reflexivity.
Qed.
Lemma dec_value_undigits s : dec_value s = undigits 10 0 (map (fun c => c - 48) s).
Proof. unfold dec_value, undigits. generalize 0. induction s as [|c s IH]; intros z; [reflexivity|]. cbn [fold_left map]. rewrite IH. reflexivity. Qed.
Lemma numeral_of n : u16ok n -> print_dec n <> [] /\ Forall is_dec (print_dec n) /\ dec_value (print_dec n) = n.
Proof. intros H. unfold u16ok in H. split; [apply print_dec_nonempty|]. split; [apply print_dec_digits; lia|]. rewrite dec_value_undigits. apply print_dec_value. lia. Qed.
(** a head that was read to its end is read as a legal one *)
Lemma loop_sound cf m0 s h m rest : Forall is_byte s -> h_loop cf (h_init cf) m0 s = mksub TTrue None (h, m) rest -> (cf_request cf = true -> m_vmaj m <> 0) ->
  exists hd, head_ok cf hd /\ m = head_m1 cf m0 hd /\ nostate h = nostate (head_h cf hd).
Proof.
  intros BS E V. pose proof (loop_sofar cf m0 s _ _ BS (init_sofar cf m0)) as SF. rewrite E in SF. cbn [s_st s_rc fst snd] in SF.
  destruct SF as [(a & b & hl & -> & HL & ST & CH & LI & NV) EN]. specialize (EN eq_refl).
  assert (K : (cf_request cf = true -> h_method h <> []) /\ u16ok a /\ u16ok b) by (unfold st_ok in ST; destruct (h_state h); try discriminate EN; exact ST).
  assert (NV' : (h_name h, h_value h) = last_hdr [] [] hl) by (destruct (h_state h); try discriminate EN; exact NV). clear ST NV EN.
  destruct K as (KM & KA & KB). destruct (numeral_of a KA) as (A1 & A2 & A3). destruct (numeral_of b KB) as (B1 & B2 & B3). rewrite ver_maj in V.
  set (v := {| v_maj := print_dec a; v_min := print_dec b |}). assert (VO : version_ok v) by (unfold version_ok, v; cbn [v_maj v_min]; rewrite A3, B3; unfold u16ok in *; repeat split; auto; lia).
  destruct LI as (L1 & L2 & L3 & L4 & L5 & L6 & _). destruct CH.
  assert (VM : forall m, ver a b (ins_all cf m hl) = ins_all cf (set_ver v m) hl) by (intros m; unfold set_ver, v; cbn [v_maj v_min]; rewrite A3, B3; destruct m; reflexivity).
  destruct (cf_request cf) eqn:RQ.
  - exists (HReq {| rl_method := h_method h; rl_resource := h_resource h; rl_query := Some (h_query h); rl_version := v |} hl). split; [|split].
    + cbn [head_ok]. split; [exact RQ|]. split; [|exact HL]. unfold reqline_ok. cbn [rl_method rl_resource rl_query rl_version]. repeat (split; [auto|]). unfold v; cbn [v_maj v_min]. rewrite A3. specialize (V eq_refl). unfold u16ok in KA. lia.
    + rewrite VM. reflexivity.
    + unfold head_h, nostate, goto. cbn [hdrs_of]. rewrite <- NV'. destruct (c_req0 eq_refl) as [X Y]. destruct h; cbn in *. subst. reflexivity.
  - destruct (numeral_of _ c_code0) as (D1 & D2 & D3). exists (HResp {| sl_version := v; sl_code := print_dec (h_code h); sl_reason := h_reason h |} hl). split; [|split].
    + cbn [head_ok]. split; [exact RQ|]. split; [|exact HL]. unfold statline_ok. cbn [sl_version sl_code sl_reason]. rewrite D3. unfold u16ok in c_code0. split; [exact VO|]. split; [exact D1|]. split; [exact D2|]. split; [lia|]. split; [assumption|exact L4].
    + rewrite VM. reflexivity.
    + unfold head_h, nostate, goto. cbn [hdrs_of]. rewrite <- NV'. destruct (c_resp0 eq_refl) as (X & Y & Z). cbn [sl_code sl_reason]. rewrite D3. destruct h; cbn in *. subst. reflexivity.
Qed.

(* ------------------------------------------------------------------ all rounds *)
(** [K]: the fields of the message are well formed, and so is what is being read *)
Definition K (cf : pcfg) (st : pst) (m : msg) : Prop := well_formed m /\ exists m0, Forall hdr_ok (m_headers m0) /\ sofar cf m0 (p_h st) m.
Definition same_fields (m m' : msg) : Prop := same_head m m' /\ m_vmaj m' = m_vmaj m /\ m_vmin m' = m_vmin m.
Lemma sofar_other cf m0 h m m' : same_fields m m' -> Forall hdr_ok (m_headers m0) -> sofar cf m0 h m -> exists m0', Forall hdr_ok (m_headers m0') /\ sofar cf m0' h m'.
Proof.
  intros (((_ & _ & _ & _) & E) & V1 & V2) F (a & b & hl & -> & R). exists (set_m_headers (m_headers m0) m'). split; [destruct m'; exact F|]. exists a, b, hl. split; [|exact R].
  rewrite ver_maj in V1. rewrite ver_min in V2. destruct m', m0. cbn in *. subst. reflexivity.
Qed.
Lemma K_other cf st st' m m' : same_fields m m' -> p_h st' = p_h st -> K cf st m -> K cf st' m'.
Proof.
  intros S H [W (m0 & F & SF)]. split; [|rewrite H; eapply sofar_other; eauto]. destruct S as (((A & B & C & D) & E) & _). unfold well_formed in *. rewrite A, B, C, D, E. exact W.
Qed.
Lemma same_refl m m' : m_method m' = m_method m -> m_resource m' = m_resource m -> m_query_string m' = m_query_string m -> m_reason m' = m_reason m -> m_headers m' = m_headers m ->
  m_vmaj m' = m_vmaj m -> m_vmin m' = m_vmin m -> same_fields m m'.
Proof. repeat split; auto. Qed.
Lemma same_fields_trans a b c : same_fields a b -> same_fields b c -> same_fields a c.
Proof. intros (A & B & C) (D & E & F). split; [eapply same_head_trans; eauto|]. split; congruence. Qed.
Lemma sofar_headers cf m0 h m : Forall hdr_ok (m_headers m0) -> sofar cf m0 h m -> Forall hdr_ok (m_headers m).
Proof.
  intros F (a & b & hl & -> & HL & _). change (m_headers (ver a b (ins_all cf m0 hl))) with (d_insert_all (cf_pos cf) (m_headers m0) hl).
  apply (Permutation_Forall (d_insert_all_perm (cf_pos cf) hl (m_headers m0))). apply Forall_app. auto.
Qed.
Lemma h_loop_line cf s : forall h m, same_line m (snd (s_st (h_loop cf h m s))).
Proof.
  induction s as [|c s IH]; intros h m; cbn [h_loop]; [repeat split|].
  assert (L : match h_char cf (save_raw cf h c) m c with HCont _ m' | HDone _ _ m' => same_line m m' | HFail _ => True end).
  { unfold h_char. destruct (h_state (save_raw cf h c)); repeat match goal with |- context [if ?b then _ else _] => destruct b end; try exact I; repeat split. }
  destruct (h_char cf (save_raw cf h c) m c) as [h2 m2|e|[|] h2 m2]; cbn; [|repeat split|exact L|exact L].
  destruct (IH h2 m2) as (A & B & C & D), L as (A' & B' & C' & D'). repeat split; congruence.
Qed.
Lemma headers_K cf st m s : Forall is_byte s -> K cf st m -> K cf (fst (s_st (parse_headers cf st m s))) (snd (s_st (parse_headers cf st m s))).
Proof.
  intros BS [W (m0 & F & SF)]. unfold parse_headers. cbn [s_st fst snd]. destruct (loop_sofar cf m0 s _ _ BS SF) as [SF' _]. split.
  - destruct (h_loop_line cf s (p_h st) m) as (A & B & C & D). destruct W as (W1 & W2 & W3 & W4 & _). unfold well_formed. rewrite A, B, C, D. repeat (split; [assumption|]). eapply sofar_headers; eauto.
  - exists m0. split; [exact F|exact SF'].
Qed.
Lemma update_K cf st m : K cf st m -> K cf st (update_message cf (p_h st) (update_transfer_encoding (set_m_clen 0 m))).
Proof.
  intros [W (m0 & F & SF)]. set (m1 := update_transfer_encoding (set_m_clen 0 m)). assert (S : same_fields m m1) by (apply same_refl; reflexivity).
  assert (S2 : m_headers (update_message cf (p_h st) m1) = m_headers m1 /\ m_vmaj (update_message cf (p_h st) m1) = m_vmaj m1 /\ m_vmin (update_message cf (p_h st) m1) = m_vmin m1).
  { unfold update_message. destruct (cf_request cf); [destruct (h_query (p_h st))|]; repeat split; reflexivity. }
  pose proof SF as (a & b & hl & EM & HL & _ & CH & _). destruct W as (W1 & W2 & W3 & W4 & W5). split.
  - unfold well_formed. rewrite (proj1 S2). destruct S as ((_ & S5) & _). rewrite S5. destruct CH. unfold update_message. destruct (cf_request cf); [destruct (h_query (p_h st))|]; cbn; repeat split; auto.
  - destruct S2 as (E1 & E2 & E3). destruct S as ((_ & S5) & S6 & S7). exists (set_m_headers (m_headers m0) (update_message cf (p_h st) m1)). split; [exact F|].
    destruct SF as (a' & b' & hl' & EM' & R). exists a', b', hl'. split; [|exact R].
    assert (H1 : m_headers (update_message cf (p_h st) m1) = d_insert_all (cf_pos cf) (m_headers m0) hl') by (rewrite E1, S5, EM'; reflexivity).
    assert (H2 : m_vmaj (update_message cf (p_h st) m1) = a') by (rewrite E2, S6, EM'; apply ver_maj). assert (H3 : m_vmin (update_message cf (p_h st) m1) = b') by (rewrite E3, S7, EM'; apply ver_min).
    clear - H1 H2 H3. destruct (update_message cf (p_h st) m1) as []. cbn in H1, H2, H3. subst. reflexivity.
Qed.

(* ------------------------------------------------------------------ what the other steps keep *)
Lemma buf_write_fields m o b m' : buf_write m o b = Ok m' -> same_fields m m'.
Proof. unfold buf_write. destruct (_ <=? _); intros H; inversion H; subst. repeat split. Qed.
Lemma create_fields m m' : create_content_buffer m = Ok m' -> same_fields m m'.
Proof. unfold create_content_buffer. destruct (_ <=? _); intros H; inversion H; subst. repeat split. Qed.
Lemma concatenate_fields m m' : concatenate_chunks m = Ok m' -> same_fields m m'.
Proof.
  unfold concatenate_chunks. destruct (create_content_buffer _) as [m1|] eqn:E; [|discriminate]. cbn [obind]. intros H.
  apply create_fields in E. apply buf_write_fields in H. eapply same_fields_trans; [|eauto]. eapply same_fields_trans; [|eauto]. repeat split.
Qed.
Lemma finish_forms_fields cf m m' : finish_forms cf m = Ok m' -> same_fields m m'.
Proof.
  unfold finish_forms. destruct (cf_request cf && negb (cf_handler cf) && negb (cf_headers_only cf)); [|intros H; inversion H; subst; repeat split].
  repeat match goal with |- context [if ?b then _ else _] => destruct b end.
  - destruct (content_of m); [|discriminate]. intros H; inversion H; subst; repeat split.
  - destruct (content_of m); [|discriminate]. cbn [obind]. destruct (parse_multipart _ _); try discriminate. intros H; inversion H; subst; repeat split.
  - intros H; inversion H; subst; repeat split.
Qed.
Lemma finish_end_fields cf st m m' : p_phase st = PEnd -> finish cf st m = Ok m' -> same_fields m m'.
Proof. intros HP. unfold finish. rewrite HP. intros H. apply finish_forms_fields in H. eapply same_fields_trans; [|exact H]. repeat split. Qed.
Lemma finish_headers_fields cf st m rc e st' m' : finish_headers cf st m = Ok (rc, e, (st', m')) ->
  same_fields (update_message cf (p_h st) (update_transfer_encoding (set_m_clen 0 m))) m' /\ p_h st' = p_h st /\ (rc = TIndet -> p_phase st' <> PStart /\ p_phase st' <> PHeaders /\ p_phase st' <> PFooters).
Proof.
  intros E. destruct (finish_headers_k _ _ _ _ _ _ _ E) as (_ & _ & _ & _ & HP & _). rewrite HP. revert E. unfold finish_headers.
  set (m0 := update_message cf (p_h st) (update_transfer_encoding (set_m_clen 0 m))) in *. clearbody m0. cbv zeta.
  assert (R : same_fields m0 m0) by (repeat split).
  destruct (m_chunked m0); [intros H; inversion H; subst; split; [exact R|split; [reflexivity|destruct (cf_headers_only cf); cbn; repeat split; discriminate]]|].
  destruct (is_content_length_implied (cf_request cf) m0); [intros H; inversion H; subst; split; [exact R|split; [reflexivity|discriminate]]|].
  destruct (d_has (m_headers m0) HEADER_CONTENT_LENGTH).
  - destruct (update_content_length m0) as [m2|] eqn:EU; [|intros H; inversion H; subst; split; [exact R|split; [reflexivity|discriminate]]].
    apply update_content_length_spec in EU as (n & Hn & ->).
    destruct (m_clen (set_m_clen n m0) =? 0); [intros H; inversion H; subst; split; [exact R|split; [reflexivity|discriminate]]|].
    set (m3 := if cf_max cf <? m_clen (set_m_clen n m0) then set_m_clen (cf_max cf) (set_m_clen n m0) else set_m_clen n m0).
    assert (same_fields m0 m3) as W3 by (unfold m3; destruct (cf_max cf <? m_clen (set_m_clen n m0)); exact R). clearbody m3.
    destruct (cf_headers_only cf); [intros H; inversion H; subst; split; [exact W3|split; [reflexivity|discriminate]]|].
    destruct (create_content_buffer m3) as [m4|] eqn:EC; [|discriminate]. cbn [obind]. intros H; inversion H; subst.
    split; [eapply same_fields_trans; [exact W3|apply create_fields; eauto]|]. split; [reflexivity|]. cbn. repeat split; discriminate.
  - destruct (cf_request cf); intros H; inversion H; subst; (split; [exact R|split; [reflexivity|]]); cbn; try discriminate; repeat split; discriminate.
Qed.

(** the states in which headers are read *)
Definition hdr_state (s : hstate) : bool :=
  match s with HExpectingNewline | HExpectingCR | HHeaderWhitespace | HHeaderStart | HHeaderName | HSpaceBeforeValue | HHeaderValue | HFinalNewline | HFinalCR => true | _ => false end.
Lemma ended_hdr s : ended s = true -> hdr_state s = true.
Proof. destruct s; cbn; auto; discriminate. Qed.
Lemma h_char_hdr cf h m c : hdr_state (h_state h) = true ->
  match h_char cf h m c with HCont h' m' | HDone _ h' m' => hdr_state (h_state h') = true /\ m_vmaj m' = m_vmaj m | HFail _ => True end.
Proof.
  intros S. unfold h_char. destruct (h_state h) eqn:E; try discriminate S; repeat match goal with |- context [if ?b then _ else _] => destruct b end; try exact I; cbn; rewrite ?E; auto.
Qed.
Lemma h_loop_hdr cf s : forall h m, hdr_state (h_state h) = true ->
  hdr_state (h_state (fst (s_st (h_loop cf h m s)))) = true /\ m_vmaj (snd (s_st (h_loop cf h m s))) = m_vmaj m.
Proof.
  induction s as [|c s IH]; intros h m S; cbn [h_loop]; [auto|].
  assert (S' : hdr_state (h_state (save_raw cf h c)) = true) by (unfold save_raw; destruct (cf_save_raw cf); exact S).
  pose proof (h_char_hdr cf _ m c S') as HC. destruct (h_char cf (save_raw cf h c) m c) as [h2 m2|e|[|] h2 m2]; cbn; auto.
  destruct HC as [A B]. destruct (IH h2 m2 A) as [C D]. split; congruence.
Qed.

(* ------------------------------------------------------------------ all rounds *)
Definition early (st : pst) : Prop := p_phase st = PStart \/ p_phase st = PHeaders.
Definition J (cf : pcfg) (v : Z) (st : pst) (m : msg) : Prop :=
  K cf st m /\ (early st \/ (m_vmaj m = v /\ hdr_state (h_state (p_h st)) = true /\ (p_phase st <> PFooters -> ended (h_state (p_h st)) = true))).
Lemma headers_round cf st m s rc e st' m' : Forall is_byte s -> K cf st m ->
  let r := parse_headers cf (set_p_phase PHeaders st) m s in
  s_rc r = TTrue -> finish_headers cf (fst (s_st r)) (snd (s_st r)) = Ok (rc, e, (st', m')) ->
  K cf st' m' /\ m_vmaj m' = m_vmaj (snd (s_st r)) /\ (rc = TIndet -> ~ early st' /\ p_phase st' <> PFooters /\ ended (h_state (p_h st')) = true).
Proof.
  intros BS [W (m0 & F & SF)] r RC E. destruct (finish_headers_fields _ _ _ _ _ _ _ E) as (A & B & C).
  pose proof (headers_K cf (set_p_phase PHeaders st) m s BS (conj W (ex_intro _ m0 (conj F SF)))) as K1. fold r in K1.
  pose proof (update_K cf _ _ K1) as K2. split; [eapply K_other; [exact A|exact B|exact K2]|]. split.
  - destruct A as (_ & V & _). rewrite V. unfold update_message. destruct (cf_request cf); [destruct (h_query _)|]; reflexivity.
  - intros R. destruct (C R) as (C1 & C2 & C3). split; [unfold early; tauto|]. split; [exact C3|]. rewrite B.
    subst r. unfold parse_headers in *. cbn [s_st s_rc fst snd] in *. destruct (loop_sofar cf m0 s (p_h (set_p_phase PHeaders st)) m BS SF) as [_ EN]. exact (EN RC).
Qed.
Lemma chunks_J cf v st m s : p_phase st = PChunks -> J cf v st m -> J cf v (fst (s_st (parse_chunks cf st m s))) (snd (s_st (parse_chunks cf st m s))).
Proof.
  intros HP [[W (m0 & F & SF)] L]. destruct L as [[L|L]|(L1 & L2 & L3)]; [congruence|congruence|]. specialize (L3 ltac:(congruence)).
  unfold parse_chunks. cbn [s_st fst snd]. set (o := s_st _). clearbody o.
  assert (S : same_fields m (set_m_cache (ko_cache o) m)) by (repeat split).
  destruct (ko_footers o).
  - cbn -[goto]. destruct (sofar_other cf m0 (p_h st) m (set_m_cache (ko_cache o) m) S F SF) as (m1 & F1 & (a & b & hl & EM & R1 & R2 & R3 & R4 & R5)). split.
    + split; [exact W|]. exists m1. split; [exact F1|]. exists a, b, hl. split; [exact EM|]. split; [exact R1|]. split.
      * unfold st_ok in *. unfold goto. cbn. destruct (h_state (p_h st)); try discriminate L3; exact R2.
      * split; [destruct R3; constructor; auto|]. split; [destruct R4 as (Q1 & Q2 & Q3 & Q4 & Q5 & Q6 & Q7); unfold hlim, goto; cbn; repeat split; auto; discriminate|].
        unfold goto. cbn. destruct (h_state (p_h st)); try discriminate L3; exact R5.
    + right. split; [exact L1|]. split; [reflexivity|]. intros X. elim X. reflexivity.
  - split; [eapply K_other; [exact S| |split; [exact W|exists m0; split; [exact F|exact SF]]]; reflexivity|]. right. split; [exact L1|]. split; [exact L2|]. intros _. exact L3.
Qed.
Lemma J_other cf v st st' m m' : same_fields m m' -> p_h st' = p_h st -> p_phase st' = p_phase st -> J cf v st m -> J cf v st' m'.
Proof.
  intros S H P [HK L]. split; [eapply K_other; eauto|]. unfold early in *. rewrite P, H. destruct S as (_ & V & _). rewrite V. exact L.
Qed.
Lemma round_J cf v st m s r : pinv cf st m -> Forall is_byte s -> J cf v st m -> p_round cf st m s = Ok r ->
  K cf (fst (s_st r)) (snd (s_st r)) /\ (s_rc r = TIndet -> exists v', J cf v' (fst (s_st r)) (snd (s_st r)))
  /\ (~ early st -> J cf v (fst (s_st r)) (snd (s_st r)) /\ ~ early (fst (s_st r))).
Proof.
  intros HPI BS HJ. pose proof HJ as [HK L]. unfold p_round.
  assert (EC : early st -> (let r := parse_headers cf (set_p_phase PHeaders st) m s in
    match s_rc r with
    | TTrue =>
      obind (finish_headers cf (fst (s_st r)) (snd (s_st r))) (fun x =>
        match x with (rc, e, stm) => Ok (mksub rc e stm (s_rest r)) end)
    | _ => Ok r
    end) = Ok r -> K cf (fst (s_st r)) (snd (s_st r)) /\ (s_rc r = TIndet -> exists v', J cf v' (fst (s_st r)) (snd (s_st r)))
  /\ (~ early st -> J cf v (fst (s_st r)) (snd (s_st r)) /\ ~ early (fst (s_st r)))).
  { intros EA. cbv zeta. destruct (s_rc (parse_headers cf (set_p_phase PHeaders st) m s)) eqn:RC.
    - destruct (finish_headers cf _ _) as [[[rc e] [st' m']]|x] eqn:EF; [|discriminate]. cbn [obind]. intros H; inversion H; subst; clear H. cbn [s_st s_rc fst snd].
      destruct (headers_round cf st m s rc e st' m' BS HK RC EF) as (A & B & C). split; [exact A|]. split; [|intros X; contradiction].
      intros R. destruct (C R) as (C1 & C2 & C3). exists (m_vmaj m'). split; [exact A|]. right. split; [reflexivity|]. split; [apply ended_hdr; exact C3|]. intros _. exact C3.
    - intros H; inversion H; subst. split; [exact (headers_K cf (set_p_phase PHeaders st) m s BS HK)|]. split; [rewrite RC; discriminate|intros X; contradiction].
    - intros H; inversion H; subst. split; [exact (headers_K cf (set_p_phase PHeaders st) m s BS HK)|]. split; [|intros X; contradiction].
      intros _. exists 0. split; [exact (headers_K cf (set_p_phase PHeaders st) m s BS HK)|]. left. right. reflexivity. }
  destruct (p_phase st) eqn:EP; [intros H; apply EC; [left; exact EP|exact H]|intros H; apply EC; [right; exact EP|exact H]| | | | |]; clear EC.
  - (* PFooters *) intros H; inversion H; subst. assert (Q : J cf v (fst (s_st (parse_headers cf st m s))) (snd (s_st (parse_headers cf st m s)))).
    { split; [exact (headers_K cf st m s BS HK)|]. right. destruct L as [[L|L]|(L1 & L2 & L3)]; [congruence|congruence|]. unfold parse_headers. cbn [s_st fst snd].
      destruct (h_loop_hdr cf s (p_h st) m L2) as [A B]. split; [congruence|]. split; [exact A|]. cbn. intros X. congruence. }
    split; [apply Q|]. split; [eauto|]. intros _. split; [exact Q|]. unfold early, parse_headers. cbn. rewrite EP. intros [X|X]; discriminate.
  - rewrite consume_content_eq by auto. intros H; inversion H; subst. cbn [s_st fst snd].
    set (sx := firstn _ s). assert (Q : J cf v (content_st cf st sx) (content_msg cf st m sx)).
    { eapply J_other; [| | |exact HJ]; unfold content_st, content_msg; destruct (cf_handler cf); try reflexivity; repeat split. }
    split; [apply Q|]. split; [eauto|]. intros _. split; [exact Q|]. unfold early, content_st. destruct (cf_handler cf); cbn; rewrite EP; intros [X|X]; discriminate.
  - intros H; inversion H; subst. cbn [s_st fst snd].
    assert (Q : J cf v (fst (consume_no_length cf st m s)) (snd (consume_no_length cf st m s))).
    { eapply J_other; [| | |exact HJ]; unfold consume_no_length; destruct (cf_handler cf); try reflexivity; repeat split. }
    split; [apply Q|]. split; [eauto|]. intros _. split; [exact Q|]. unfold early, consume_no_length. destruct (cf_handler cf); cbn; rewrite EP; intros [X|X]; discriminate.
  - cbv zeta. pose proof (chunks_J cf v st m s EP HJ) as Q.
    assert (NE : ~ early (fst (s_st (parse_chunks cf st m s)))).
    { unfold early, parse_chunks. cbn [s_st fst snd]. destruct (ko_footers _); cbn; rewrite ?EP; intros [X|X]; discriminate. }
    set (ra := parse_chunks cf st m s) in *. clearbody ra.
    assert (G : forall x, Ok ra = Ok x -> K cf (fst (s_st x)) (snd (s_st x)) /\ (s_rc x = TIndet -> exists v', J cf v' (fst (s_st x)) (snd (s_st x)))
      /\ (~ early st -> J cf v (fst (s_st x)) (snd (s_st x)) /\ ~ early (fst (s_st x)))).
    { intros x H; inversion H; subst. split; [apply Q|]. split; [eauto|]. intros _. split; auto. }
    destruct (s_rc ra); [|apply G|apply G]. destruct (cf_handler cf); [apply G|].
    destruct (concatenate_chunks (snd (s_st ra))) as [mc|] eqn:EC; [|discriminate]. cbn [obind]. intros H; inversion H; subst. cbn [s_st fst snd].
    assert (Q2 : J cf v (fst (s_st ra)) mc) by (eapply J_other; [apply concatenate_fields; eauto| | |exact Q]; reflexivity).
    split; [apply Q2|]. split; [eauto|]. intros _. split; auto.
  - intros H; inversion H; subst. cbn [s_st fst snd]. split; [exact HK|]. split; [eauto|]. intros X. split; auto.
Qed.
Lemma Forall_suffix {A} (P : A -> Prop) p s : Forall P (p ++ s) -> Forall P s.
Proof. intros H. apply Forall_app in H. tauto. Qed.
Lemma p_loop_J cf : forall n v st m s t r t', pinv cf st m -> Forall is_byte s -> J cf v st m -> p_loop n cf st m s t = Ok (Some (r, t')) ->
  K cf (fst (s_st r)) (snd (s_st r)) /\ (s_rc r = TIndet -> exists v', J cf v' (fst (s_st r)) (snd (s_st r))) /\ (~ early st -> J cf v (fst (s_st r)) (snd (s_st r)) /\ ~ early (fst (s_st r))).
Proof.
  induction n as [|n IH]; intros v st m s t r t' HP BS HJ; [discriminate|]. rewrite p_loop_S.
  destruct (p_round cf st m s) as [r1|x] eqn:E; [|discriminate]. cbn [obind].
  destruct (round_ok _ _ _ _ _ HP E) as (_ & O2 & _ & _). destruct (round_J cf v _ _ _ _ HP BS HJ E) as (A & B & C).
  destruct (round_suffix _ _ _ _ _ HP E) as (p & SP & _).
  destruct (s_rc r1) eqn:EC.
  - intros H; inversion H; subst. split; [exact A|]. split; [rewrite EC; discriminate|]. intros X. apply C, X.
  - intros H; inversion H; subst. split; [exact A|]. split; [rewrite EC; discriminate|]. intros X. apply C, X.
  - destruct (B eq_refl) as [v' Jv]. destruct (s_rest r1) as [|c0 l0] eqn:ER.
    + intros H; inversion H; subst. split; [exact A|]. split; [eauto|]. intros X. apply C, X.
    + intros H. assert (BS' : Forall is_byte (c0 :: l0)) by (rewrite SP in BS; apply Forall_suffix in BS; exact BS).
      specialize (O2 eq_refl). destruct (IH v' _ _ _ _ _ _ O2 BS' Jv H) as (A' & B' & _). split; [exact A'|]. split; [exact B'|].
      intros X. destruct (C X) as [C1 C2]. exact (proj2 (proj2 (IH v _ _ _ _ _ _ O2 BS' C1 H)) C2).
Qed.
Lemma parse_K cf v st m s r : pinv cf st m -> Forall is_byte s -> J cf v st m -> parse cf st m s = Ok (Some r) ->
  well_formed (r_msg r) /\ (r_rc r = TIndet -> exists v', J cf v' (r_st r) (r_msg r)).
Proof.
  intros HP BS HJ. unfold parse. set (m0 := if m_missing m then set_m_after true m else m).
  assert (pinv cf st m0) as HP0 by (subst m0; destruct (m_missing m); auto).
  assert (J cf v st m0) as HJ0 by (subst m0; destruct (m_missing m); auto; eapply J_other; [| | |exact HJ]; try reflexivity; repeat split). clearbody m0.
  destruct (p_loop 4 cf st m0 s 0) as [[[r1 t]|]|] eqn:EL; cbn [obind]; try discriminate.
  destruct (p_loop_J _ _ _ _ _ _ _ _ _ HP0 BS HJ0 EL) as (L1 & L2 & _).
  destruct (s_rc r1).
  - destruct (finish cf (set_p_phase PEnd (fst (s_st r1))) (snd (s_st r1))) eqn:EF; cbn [obind]; try discriminate.
    intros H; inversion H; subst. cbn [r_msg r_rc]. split; [|discriminate]. eapply K_other in L1; [apply L1|eapply finish_end_fields; eauto; reflexivity|reflexivity].
  - intros H; inversion H; subst. cbn [r_msg r_rc]. split; [apply L1|discriminate].
  - intros H; inversion H; subst. cbn [r_msg r_rc r_st]. split; [apply L1|]. intros _. destruct (L2 eq_refl) as [v' Q]. exists v'. eapply J_other; [| | |exact Q]; try reflexivity; repeat split.
Qed.
Lemma init_J cf m : well_formed m -> J cf 0 (p_init cf) m.
Proof. intros W. split; [|left; left; reflexivity]. split; [exact W|]. exists m. split; [apply W|apply init_sofar]. Qed.
Lemma feed_fine cf pieces : forall v st m r, pinv cf st m -> J cf v st m -> Forall (Forall is_byte) pieces -> feed cf st m pieces = Ok (Some r) -> well_formed (r_msg r).
Proof.
  induction pieces as [|s ps IH]; intros v st m r HP HJ BS; cbn [feed].
  - intros H; inversion H; subst. apply HJ.
  - inversion BS; subst. destruct (parse cf st m s) as [[x|]|] eqn:E; try discriminate. pose proof (parse_pinv _ _ _ _ _ HP E) as HP'.
    destruct (parse_K cf v st m s x HP ltac:(assumption) HJ E) as [A B].
    destruct (r_rc x); [intros H; inversion H; subst; exact A|intros H; inversion H; subst; exact A|]. destruct (B eq_refl) as [v' B']. apply (IH v'); auto.
Qed.

(* ------------------------------------------------------------------ accepted messages *)
Lemma parse_sound cf m s r : 0 <= cf_max cf -> Forall is_byte s -> well_formed m -> parse cf (p_init cf) m s = Ok (Some r) -> r_rc r = TTrue ->
  (cf_request cf = true -> m_vmaj (r_msg r) <> 0) ->
  exists hd w rest, head_ok cf hd /\ s = w ++ rest /\ same_reading (parse cf (p_init cf) m s) (parse cf (p_init cf) m (wire_head hd ++ rest)).
Proof.
  intros HM BS WF E RC V. pose proof (p_init_pinv cf m HM) as HP.
  assert (HL : let m0 := if m_missing m then set_m_after true m else m in exists h hd, h_loop cf (h_init cf) m0 s = mksub TTrue None (h, head_m1 cf m0 hd) (s_rest (h_loop cf (h_init cf) m0 s)) /\ nostate h = nostate (head_h cf hd) /\ head_ok cf hd).
  { revert E. unfold parse. cbv zeta. set (m0 := if m_missing m then set_m_after true m else m).
    assert (pinv cf (p_init cf) m0) as HP0 by (subst m0; destruct (m_missing m); auto).
    assert (W0 : well_formed m0) by (subst m0; destruct (m_missing m); exact WF). clearbody m0.
    destruct (p_loop 4 cf (p_init cf) m0 s 0) as [[[r1 t]|]|] eqn:EL; cbn [obind]; try discriminate. rewrite p_loop_S in EL.
    destruct (p_round cf (p_init cf) m0 s) as [r0|] eqn:ER; [|discriminate]. cbn [obind] in EL.
    destruct (s_rc r1) eqn:R1; [|intros H; inversion H; subst; discriminate|intros H; inversion H; subst; discriminate].
    destruct (finish cf (set_p_phase PEnd (fst (s_st r1))) (snd (s_st r1))) as [mf|] eqn:EF; cbn [obind]; try discriminate. intros H; inversion H; subst; clear H. cbn [r_msg] in V.
    apply finish_end_fields in EF; [|reflexivity]. destruct EF as (_ & VF & _).
    destruct (round_ok _ _ _ _ _ HP0 ER) as (_ & O2 & _ & _). destruct (round_suffix _ _ _ _ _ HP0 ER) as (px & SP & _).
    pose proof (round_J cf 0 _ _ _ _ HP0 BS (init_J cf m0 W0) ER) as (_ & RJ & _).
    unfold p_round in ER. cbn [p_phase p_init] in ER. cbv zeta in ER.
    set (ph := parse_headers cf (set_p_phase PHeaders (p_init cf)) m0 s) in ER.
    assert (PR : s_rc ph = s_rc (h_loop cf (h_init cf) m0 s) /\ snd (s_st ph) = snd (s_st (h_loop cf (h_init cf) m0 s)) /\ s_rest ph = s_rest (h_loop cf (h_init cf) m0 s)) by (repeat split).
    destruct PR as (P1 & P2 & P3).
    destruct (s_rc ph) eqn:PH.
    - destruct (finish_headers cf (fst (s_st ph)) (snd (s_st ph))) as [[[rc er] [st' m']]|] eqn:EH; [|discriminate]. cbn [obind] in ER. injection ER as <-. cbn [s_rc s_st s_rest fst snd] in *.
      destruct (headers_round cf (p_init cf) m0 s rc er st' m' BS (proj1 (init_J cf m0 W0)) PH EH) as (A & B & C). fold ph in B.
      assert (VV : cf_request cf = true -> m_vmaj (snd (s_st (h_loop cf (h_init cf) m0 s))) <> 0).
      { intros Q. rewrite <- P2, <- B. intros X. apply (V Q). rewrite VF.
        destruct rc.
        - injection EL as <- <-. cbn [s_st snd]. exact X.
        - injection EL as <- <-. discriminate R1.
        - destruct (C eq_refl) as (C1 & C2 & C3).
          assert (JJ : J cf 0 st' m') by (split; [exact A|right; split; [exact X|split; [apply ended_hdr; exact C3|intros _; exact C3]]]).
          destruct (s_rest (h_loop cf (h_init cf) m0 s)) as [|c0 l0] eqn:SR; [injection EL as <- <-; discriminate R1|].
          assert (BS' : Forall is_byte (c0 :: l0)) by (rewrite SP in BS; apply Forall_suffix in BS; exact BS).
          destruct (p_loop_J cf 3 0 _ _ _ _ _ _ (O2 eq_refl) BS' JJ EL) as (_ & _ & Q3). specialize (Q3 C1).
          destruct Q3 as [[_ [Q3|(Q3 & _)]] NL]; [contradiction|exact Q3]. }
      destruct (h_loop cf (h_init cf) m0 s) as [rcx ex [h mh] rx] eqn:EHL. cbn [s_rc s_st s_rest fst snd] in *. subst rcx.
      assert (ex = None) as -> by (pose proof (h_loop_err cf s (h_init cf) m0) as HE; rewrite EHL in HE; apply HE; reflexivity).
      destruct (loop_sound cf m0 s h mh rx BS EHL VV) as (hd & H1 & H2 & H3). exists h, hd. rewrite H2. auto.
    - injection ER as <-. rewrite PH in EL. injection EL as <- <-. congruence.
    - injection ER as <-. rewrite PH, P3 in EL. rewrite h_loop_indet_rest in EL by (symmetry; exact P1). injection EL as <- <-. congruence. }
  cbv zeta in HL. destruct HL as (h & hd & HL & NS & HO).
  set (m0 := if m_missing m then set_m_after true m else m) in *. set (rest := s_rest (h_loop cf (h_init cf) m0 s)) in *.
  destruct (h_loop_suffix cf s (h_init cf) m0) as [w SW]. fold rest in SW. exists hd, w, rest. split; [exact HO|]. split; [exact SW|].
  assert (R : reading0 (parse cf (p_init cf) m (w ++ rest)) (parse cf (p_init cf) m (wire_head hd ++ rest))).
  { apply like_head_parse0; [exact HO|]. cbv zeta. fold m0. exists h. split; [rewrite <- SW; exact HL|exact NS]. }
  rewrite <- SW in R. pose proof (parse_some cf (p_init cf) m (wire_head hd ++ rest) HP) as N. rewrite E in R |- *.
  destruct (parse cf (p_init cf) m (wire_head hd ++ rest)) as [[y|]|]; cbn in R |- *; auto.
Qed.
