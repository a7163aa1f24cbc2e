(** A reset parser behaves like a new one: members that [reset] keeps are never read before they are written. *)
From Coq Require Import String ZArith List Lia Bool.
From Verif Require Import Base Digits AlgModel FormModel DictModel MultipartModel HttpModel HttpBase HttpSplit HttpSpec HttpProofs.
Import ListNotations.

Local Arguments zlen : simpl never.
Local Arguments Z.add : simpl never.
Local Arguments Z.sub : simpl never.
Local Arguments used : simpl never.
Local Arguments finish : simpl never.
Local Arguments Z.leb : simpl never.
Local Arguments Z.eqb : simpl never.

Definition hnorm (h : hdrs) : hdrs :=
  match h_state h with
  | HHeaderName => set_h_value [] h
  | HSpaceBeforeValue | HHeaderValue => h
  | _ => set_h_value [] (set_h_name [] h)
  end.
Definition knorm (k : chk) : chk :=
  match k_state k with
  | KSizeStart | KCRAfterChunk | KLFAfterChunk | KFinalCROrFooters | KFinalLF => set_k_read 0 (set_k_size 0 (set_k_size_str [] k))
  | KSize | KIgnored | KCRAfterSize | KLFAfterSize => set_k_read 0 (set_k_size 0 k)
  | KChunk => set_k_size_str [] k
  end.
Definition pnorm (st : pst) : pst :=
  set_p_last 0 (set_p_h (hnorm (p_h st)) (set_p_k (knorm (p_k st))
    (match p_phase st with PStart | PHeaders | PEnd => set_p_remaining 0 st | _ => st end))).

Definition hres_rel (a b : hres) : Prop :=
  match a, b with
  | HCont h m, HCont h' m' => hnorm h = hnorm h' /\ m = m'
  | HFail e, HFail e' => e = e'
  | HDone x h m, HDone y h' m' => x = y /\ hnorm h = hnorm h' /\ m = m'
  | _, _ => False
  end.

Lemma hnorm_state h h' : hnorm h = hnorm h' -> h_state h = h_state h'.
Proof.
  intros E. assert (h_state (hnorm h) = h_state (hnorm h')) as A by (rewrite E; auto).
  unfold hnorm in A. destruct h as [s a1 a2 a3 a4 a5 a6 a7 a8], h' as [s' b1 b2 b3 b4 b5 b6 b7 b8]. destruct s, s'; exact A.
Qed.
Lemma save_raw_norm cf h h' c : hnorm h = hnorm h' -> hnorm (save_raw cf h c) = hnorm (save_raw cf h' c).
Proof.
  intros E. pose proof (hnorm_state _ _ E) as S. unfold save_raw. destruct (cf_save_raw cf); auto.
  destruct h as [s a1 a2 a3 a4 a5 a6 a7 a8], h' as [s' b1 b2 b3 b4 b5 b6 b7 b8]. cbn in S. subst s'. destruct s; cbn in E |- *; inversion E; subst; reflexivity.
Qed.
Lemma h_char_norm cf h h' m c : hnorm h = hnorm h' -> hres_rel (h_char cf h m c) (h_char cf h' m c).
Proof.
  intros E. pose proof (hnorm_state _ _ E) as S.
  destruct h as [s a1 a2 a3 a4 a5 a6 a7 a8], h' as [s' b1 b2 b3 b4 b5 b6 b7 b8]. cbn in S. subst s'.
  destruct s; cbn in E; inversion E; subst; unfold h_char; cbn [h_state h_method h_resource h_query h_code h_reason h_name h_value h_raw];
    repeat match goal with |- context [if ?b then _ else _] => destruct b end; cbn; auto.
Qed.

Definition sub_rel {S} (R : S -> S -> Prop) (a b : sub S) : Prop :=
  s_rc a = s_rc b /\ s_err a = s_err b /\ s_rest a = s_rest b /\ R (s_st a) (s_st b).

Lemma h_loop_norm cf s : forall h h' m, hnorm h = hnorm h' ->
  sub_rel (fun x y => hnorm (fst x) = hnorm (fst y) /\ snd x = snd y) (h_loop cf h m s) (h_loop cf h' m s).
Proof.
  induction s as [|c s IH]; intros h h' m E; cbn [h_loop].
  - repeat split; auto.
  - apply (save_raw_norm cf _ _ c) in E. pose proof (h_char_norm cf _ _ m c E) as R.
    destruct (h_char cf (save_raw cf h c) m c), (h_char cf (save_raw cf h' c) m c); cbn in R; try contradiction.
    + destruct R as [R ->]. apply IH; auto.
    + subst. repeat split; auto.
    + destruct R as (-> & R & ->). destruct consumed0; repeat split; auto.
Qed.

Definition stm_rel (a b : pst * msg) : Prop := pnorm (fst a) = pnorm (fst b) /\ snd a = snd b.

Lemma pnorm_inv a b : pnorm a = pnorm b <->
  p_phase a = p_phase b /\ hnorm (p_h a) = hnorm (p_h b) /\ knorm (p_k a) = knorm (p_k b)
  /\ (p_phase a <> PStart -> p_phase a <> PHeaders -> p_phase a <> PEnd -> p_remaining a = p_remaining b) /\ p_content_read a = p_content_read b
  /\ p_total a = p_total b /\ p_payload a = p_payload b.
Proof.
  destruct a as [pa ha ka ra ca la ta ya], b as [pb hb kb rb cb lb tb yb]. unfold pnorm. cbn.
  split.
  - intros E. destruct pa, pb; cbn in E; inversion E; subst; repeat split; auto; congruence.
  - intros (-> & A & B & C & -> & -> & ->). destruct pb; cbn; rewrite A, B; try rewrite C by discriminate; reflexivity.
Qed.

Lemma parse_headers_norm cf a b m s : pnorm a = pnorm b -> sub_rel stm_rel (parse_headers cf a m s) (parse_headers cf b m s).
Proof.
  intros E. apply pnorm_inv in E as (A & B & C & D & F & G & H).
  destruct (h_loop_norm cf s _ _ m B) as (R1 & R2 & R3 & R4 & R5). unfold parse_headers.
  rewrite <- R1, <- R2, <- R3. repeat split; auto; cbn [s_st fst snd].
  apply pnorm_inv. destruct a, b; cbn in *. subst. repeat split; auto.
Qed.

Lemma hnorm_fields a b : hnorm a = hnorm b ->
  h_method a = h_method b /\ h_resource a = h_resource b /\ h_query a = h_query b /\ h_code a = h_code b /\ h_reason a = h_reason b /\ h_raw a = h_raw b.
Proof.
  intros E. pose proof (hnorm_state _ _ E) as S.
  destruct a as [s a1 a2 a3 a4 a5 a6 a7 a8], b as [s' b1 b2 b3 b4 b5 b6 b7 b8]. cbn in S. subst s'. destruct s; cbn in E |- *; inversion E; subst; repeat split; reflexivity.
Qed.
Lemma update_message_norm cf a b m : hnorm a = hnorm b -> update_message cf a m = update_message cf b m.
Proof. intros E. apply hnorm_fields in E as (A & B & C & D & F & G). unfold update_message. rewrite A, B, C, D, F. reflexivity. Qed.

Definition out_rel {A} (R : A -> A -> Prop) (a b : outcome A) : Prop :=
  match a, b with Ok x, Ok y => R x y | Bad x, Bad y => x = y | _, _ => False end.

Lemma finish_headers_norm cf a b m : pnorm a = pnorm b ->
  out_rel (fun x y => fst x = fst y /\ stm_rel (snd x) (snd y)) (finish_headers cf a m) (finish_headers cf b m).
Proof.
  intros E. apply pnorm_inv in E as (A & B & C & D & F & G & H). unfold finish_headers.
  rewrite (update_message_norm cf _ _ _ B). set (m0 := update_message cf (p_h b) _). clearbody m0.
  assert (forall ph rem m' m'', m' = m'' -> stm_rel (set_p_remaining rem (set_p_phase ph (set_p_remaining 0 (set_p_content_read 0 a))), m')
     (set_p_remaining rem (set_p_phase ph (set_p_remaining 0 (set_p_content_read 0 b))), m'')) as S0.
  { intros. split; auto. apply pnorm_inv. destruct a, b; cbn in *. subst. repeat split; auto. }
  assert (forall ph m' m'', m' = m'' -> stm_rel (set_p_phase ph (set_p_remaining 0 (set_p_content_read 0 a)), m')
     (set_p_phase ph (set_p_remaining 0 (set_p_content_read 0 b)), m'')) as S1.
  { intros. split; auto. apply pnorm_inv. destruct a, b; cbn in *. subst. repeat split; auto. }
  assert (forall m', stm_rel (set_p_remaining 0 (set_p_content_read 0 a), m') (set_p_remaining 0 (set_p_content_read 0 b), m')) as S2.
  { intros. split; auto. apply pnorm_inv. destruct a, b; cbn in *. subst. repeat split; auto. }
  destruct (m_chunked m0); [cbn; auto|]. destruct (is_content_length_implied _ _); [cbn; auto|].
  destruct (d_has _ _).
  - destruct (update_content_length m0) as [m1|]; [|cbn; auto]. destruct (m_clen m1 =? 0); [cbn; auto|].
    destruct (cf_headers_only cf); [cbn; auto|]. destruct (create_content_buffer _); cbn; auto.
  - destruct (cf_request cf); cbn; auto.
Qed.

Definition kres_rel (a b : kres) : Prop :=
  match a, b with
  | KCont n k x y, KCont n' k' x' y' => n = n' /\ knorm k = knorm k' /\ x = x' /\ y = y'
  | KFail, KFail | KDone, KDone | KFooters, KFooters => True
  | _, _ => False
  end.
Lemma knorm_state h h' : knorm h = knorm h' -> k_state h = k_state h'.
Proof.
  intros E. assert (k_state (knorm h) = k_state (knorm h')) as A by (rewrite E; auto).
  unfold knorm in A. destruct h as [s a1 a2 a3], h' as [s' b1 b2 b3]. destruct s, s'; exact A.
Qed.
Lemma k_char_norm cf k k' ca pa c s : knorm k = knorm k' -> kres_rel (k_char cf k ca pa c s) (k_char cf k' ca pa c s).
Proof.
  intros E. pose proof (knorm_state _ _ E) as S.
  destruct k as [st a1 a2 a3], k' as [st' b1 b2 b3]. cbn in S. subst st'.
  destruct st; cbn in E; inversion E; subst; unfold k_char; cbn [k_state k_size_str k_size k_read set_k_size_str set_k_size set_k_read set_k_state];
    repeat match goal with |- context [if ?b then _ else _] => destruct b; cbn [k_state k_size_str k_size k_read set_k_size_str set_k_size set_k_read set_k_state] end; cbn; auto.
Qed.
Lemma k_loop_norm cf f : forall s k k' ca pa, knorm k = knorm k' ->
  sub_rel (fun x y => knorm (ko_k x) = knorm (ko_k y) /\ ko_cache x = ko_cache y /\ ko_payload x = ko_payload y /\ ko_footers x = ko_footers y)
    (k_loop f cf k ca pa s) (k_loop f cf k' ca pa s).
Proof.
  induction f as [|f IH]; intros s k k' ca pa E; destruct s as [|c s]; cbn [k_loop]; try (repeat split; auto; fail).
  pose proof (k_char_norm cf _ _ ca pa c s E) as R.
  destruct (k_char cf k ca pa c s), (k_char cf k' ca pa c s); cbn in R; try contradiction; try (repeat split; auto; fail).
  destruct R as (-> & R & -> & ->). apply IH; auto.
Qed.
Lemma hnorm_goto a b : hnorm a = hnorm b -> hnorm (goto a HHeaderStart) = hnorm (goto b HHeaderStart).
Proof. intros E. apply hnorm_fields in E as (A & B & C & D & F & G). destruct a, b; cbn in *. subst. reflexivity. Qed.

Lemma parse_chunks_norm cf a b m s : p_phase a = PChunks -> pnorm a = pnorm b -> sub_rel stm_rel (parse_chunks cf a m s) (parse_chunks cf b m s).
Proof.
  intros PA E. apply pnorm_inv in E as (A & B & C & D & F & G & H). unfold parse_chunks. rewrite H.
  destruct (k_loop_norm cf (length s) s _ _ (m_cache m) (p_payload b) C) as (R1 & R2 & R3 & R4 & R5 & R6 & R7).
  rewrite <- R1, <- R2, <- R3, <- R5, <- R6, <- R7. repeat split; auto; cbn [s_st fst snd].
  apply pnorm_inv. pose proof (hnorm_goto _ _ B) as HG. rewrite PA in D. specialize (D ltac:(discriminate) ltac:(discriminate) ltac:(discriminate)).
  destruct (ko_footers _); destruct a, b; cbn in *; subst; repeat split; auto.
Qed.

Lemma consume_content_norm cf a b m s : p_phase a = PContent -> pnorm a = pnorm b ->
  out_rel (sub_rel stm_rel) (consume_content cf a m s) (consume_content cf b m s).
Proof.
  intros PA E. apply pnorm_inv in E as (A & B & C & D & F & G & H). rewrite PA in D. specialize (D ltac:(discriminate) ltac:(discriminate) ltac:(discriminate)).
  unfold consume_content. rewrite D, F, G, H. destruct (p_remaining b =? 0).
  - cbn. repeat split; auto. cbn. apply pnorm_inv. repeat split; auto; congruence.
  - set (n := if p_remaining b <=? zlen s then _ else _). clearbody n. destruct (zlen s <? n); [reflexivity|].
    destruct (cf_handler cf).
    + cbn. repeat split; auto. cbn. apply pnorm_inv. destruct a, b; cbn in *; subst; repeat split; auto.
    + assert (forall m', sub_rel stm_rel
        (mksub (if p_remaining b <=? zlen s then TTrue else TIndet) None
            (set_p_remaining (p_remaining b - n) (set_p_content_read (wrap64 (p_content_read b + n))
                  (set_p_total (wrap64 (p_total b + n)) (set_p_last n a))), m') (skipn (Z.to_nat n) s))
        (mksub (if p_remaining b <=? zlen s then TTrue else TIndet) None
            (set_p_remaining (p_remaining b - n) (set_p_content_read (wrap64 (p_content_read b + n))
                  (set_p_total (wrap64 (p_total b + n)) (set_p_last n b))), m') (skipn (Z.to_nat n) s))) as K.
      { intros m'. repeat split; auto. cbn. apply pnorm_inv. destruct a, b; cbn in *; subst; repeat split; auto. }
      destruct (p_content_read b <? cf_max cf); [|apply K].
      destruct (cf_max cf <? _); destruct (buf_write _ _ _); cbn [obind fst snd out_rel]; auto; apply K.
Qed.

Lemma p_round_norm cf a b m s : pnorm a = pnorm b -> out_rel (sub_rel stm_rel) (p_round cf a m s) (p_round cf b m s).
Proof.
  intros E0. pose proof (proj1 (pnorm_inv a b) E0) as (A & B & C & D & F & G & H). unfold p_round. rewrite <- A.
  assert (out_rel (sub_rel stm_rel)
    (let r := parse_headers cf (set_p_phase PHeaders a) m s in
     match s_rc r with TTrue => obind (finish_headers cf (fst (s_st r)) (snd (s_st r))) (fun x => match x with (rc, e, stm) => Ok (mksub rc e stm (s_rest r)) end) | _ => Ok r end)
    (let r := parse_headers cf (set_p_phase PHeaders b) m s in
     match s_rc r with TTrue => obind (finish_headers cf (fst (s_st r)) (snd (s_st r))) (fun x => match x with (rc, e, stm) => Ok (mksub rc e stm (s_rest r)) end) | _ => Ok r end)) as PH.
  { assert (pnorm (set_p_phase PHeaders a) = pnorm (set_p_phase PHeaders b)) as E1.
    { apply pnorm_inv. destruct a, b; cbn in *. subst. repeat split; auto; congruence. }
    pose proof (parse_headers_norm cf _ _ m s E1) as RR. cbv zeta.
    pose proof RR as (R1 & R2 & R3 & R4 & R5). rewrite <- R1. destruct (s_rc (parse_headers cf (set_p_phase PHeaders a) m s)); try exact RR.
    rewrite <- R3, <- R5. pose proof (finish_headers_norm cf _ _ (snd (s_st (parse_headers cf (set_p_phase PHeaders a) m s))) R4) as FH.
    destruct (finish_headers cf (fst (s_st (parse_headers cf (set_p_phase PHeaders a) m s))) _) as [[[rc e] x]|],
      (finish_headers cf (fst (s_st (parse_headers cf (set_p_phase PHeaders b) m s))) _) as [[[rc' e'] x']|]; cbn in FH |- *; try contradiction; auto.
    destruct FH as [FE FS]. injection FE as -> ->. repeat split; auto; apply FS. }
  destruct (p_phase a) eqn:PA; try exact PH.
  - cbn. apply parse_headers_norm; auto.
  - apply consume_content_norm; auto.
  - cbn [out_rel]. split; [auto|split; [auto|split; [auto|]]]. cbn [s_st]. unfold consume_no_length. rewrite F, G, H.
    specialize (D ltac:(discriminate) ltac:(discriminate) ltac:(discriminate)).
    destruct (cf_handler cf); split; auto; cbn; apply pnorm_inv; destruct a, b; cbn in *; subst; repeat split; auto.
  - pose proof (parse_chunks_norm cf _ _ m s PA E0) as RR. pose proof RR as (R1 & R2 & R3 & R4 & R5). cbv zeta. rewrite <- R1.
    destruct (s_rc (parse_chunks cf a m s)); try exact RR. destruct (cf_handler cf); [exact RR|].
    rewrite <- R5, <- R2, <- R3. destruct (concatenate_chunks _); cbn [obind out_rel]; auto.
    pose proof (proj1 (pnorm_inv _ _) R4) as (P & _). rewrite <- P. repeat split; auto.
  - cbn. repeat split; auto.
Qed.

Lemma finish_end cf a b m : finish cf (set_p_phase PEnd a) m = finish cf (set_p_phase PEnd b) m.
Proof. reflexivity. Qed.

Lemma p_loop_norm cf f : forall a b m s t t', pnorm a = pnorm b ->
  out_rel (fun x y => match x, y with
    | Some (r, _), Some (r', _) => sub_rel stm_rel r r'
    | None, None => True | _, _ => False end) (p_loop f cf a m s t) (p_loop f cf b m s t').
Proof.
  induction f as [|f IH]; intros a b m s t t' E; [exact I|]. rewrite !p_loop_S.
  pose proof (p_round_norm cf a b m s E) as R.
  destruct (p_round cf a m s) as [r|], (p_round cf b m s) as [r'|]; cbn [obind out_rel] in *; try contradiction; auto.
  pose proof R as (R1 & R2 & R3 & R4 & R5). rewrite <- R1, <- R3, <- R5.
  destruct (s_rc r); [exact R|exact R|]. destruct (s_rest r); [exact R|]. apply IH; auto.
Qed.

Definition res_rel (x y : presult) : Prop :=
  r_rc x = r_rc y /\ r_err x = r_err y /\ r_msg x = r_msg y /\ r_rest x = r_rest y /\ pnorm (r_st x) = pnorm (r_st y).
Definition opt_rel (a b : outcome (option presult)) : Prop :=
  match a, b with Ok (Some x), Ok (Some y) => res_rel x y | Ok None, Ok None => True | Bad x, Bad y => x = y | _, _ => False end.

Lemma parse_norm cf a b m s : pnorm a = pnorm b -> opt_rel (parse cf a m s) (parse cf b m s).
Proof.
  intros E. unfold parse. set (m0 := if m_missing m then _ else _). clearbody m0.
  pose proof (p_loop_norm cf 4 a b m0 s 0 0 E) as R.
  destruct (p_loop 4 cf a m0 s 0) as [[[r t]|]|], (p_loop 4 cf b m0 s 0) as [[[r' t']|]|]; cbn [obind out_rel] in *; try contradiction; auto; try exact I.
  pose proof R as (R1 & R2 & R3 & R4 & R5). rewrite <- R1, <- R2, <- R3, <- R5.
  assert (forall x y, pnorm (set_p_last x (set_p_phase PEnd (fst (s_st r)))) = pnorm (set_p_last y (set_p_phase PEnd (fst (s_st r'))))) as PN.
  { intros x y. apply pnorm_inv. apply pnorm_inv in R4 as (A & B & C & D & F & G & H).
    destruct (fst (s_st r)), (fst (s_st r')); cbn in *. subst. repeat split; auto; congruence. }
  assert (forall x y, pnorm (set_p_last x (fst (s_st r))) = pnorm (set_p_last y (fst (s_st r')))) as PL.
  { intros x y. apply pnorm_inv. apply pnorm_inv in R4 as (A & B & C & D & F & G & H).
    destruct (fst (s_st r)), (fst (s_st r')); cbn in *. subst. repeat split; auto. }
  destruct (s_rc r).
  - rewrite (finish_end cf _ (fst (s_st r'))). destruct (finish _ _ _) as [m1|]; cbn; auto. repeat split; auto. apply PN.
  - cbn. repeat split; auto. apply PL.
  - cbn. repeat split; auto. apply PL.
Qed.

Lemma feed_norm cf pieces : forall a b m, pnorm a = pnorm b -> opt_rel (feed cf a m pieces) (feed cf b m pieces).
Proof.
  induction pieces as [|s ps IH]; intros a b m E; cbn [feed].
  - cbn. repeat split; auto.
  - pose proof (parse_norm cf a b m s E) as R.
    destruct (parse cf a m s) as [[x|]|], (parse cf b m s) as [[y|]|]; cbn in R; try contradiction; try exact R.
    destruct R as (R1 & R2 & R3 & R4 & R5). rewrite <- R1.
    destruct (r_rc x) eqn:RX; [| |rewrite <- R3; apply IH; auto]; cbn; repeat split; cbn; auto; congruence.
Qed.

Lemma reset_norm cf st : pnorm (p_reset cf st) = pnorm (p_init cf).
Proof. unfold pnorm, p_reset, p_init, h_init, hnorm, knorm, k_init. cbn. destruct (cf_request cf); reflexivity. Qed.

(** the results of a reset and of a new parser: the same to the caller *)
Lemma reset_fresh cf st m pieces :
  match feed cf (p_reset cf st) m pieces, feed cf (p_init cf) m pieces with
  | Ok (Some x), Ok (Some y) =>
    r_rc x = r_rc y /\ r_err x = r_err y /\ r_msg x = r_msg y /\ r_rest x = r_rest y
    /\ p_payload (r_st x) = p_payload (r_st y) /\ p_total (r_st x) = p_total (r_st y)
    /\ p_content_read (r_st x) = p_content_read (r_st y) /\ h_raw (p_h (r_st x)) = h_raw (p_h (r_st y))
  | Ok None, Ok None => True
  | Bad x, Bad y => x = y
  | _, _ => False
  end.
Proof.
  pose proof (feed_norm cf pieces _ _ m (reset_norm cf st)) as R. unfold opt_rel in R.
  destruct (feed cf (p_reset cf st) m pieces) as [[x|]|], (feed cf (p_init cf) m pieces) as [[y|]|]; auto.
  destruct R as (R1 & R2 & R3 & R4 & R5). apply pnorm_inv in R5 as (A & B & C & D & F & G & H).
  apply hnorm_fields in B as (_ & _ & _ & _ & _ & B). repeat split; auto.
Qed.
