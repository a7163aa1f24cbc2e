(** Proofs about the sending of files. *)
From Coq Require Import String ZArith List Bool Lia Permutation.
From Verif Require Import Base Digits AlgModel DictModel DictProofs HttpModel HttpSpec HttpHead HttpProofs MessageModel MessageSpec MessageProofs WriterModel WriterSpec WriterProofs FileModel SenderModel.
Import ListNotations.

(** the calls for a file sent in pieces, all but the last with more to come *)
Definition piece_ops (ds : list (list Z)) : list wop := concat (map (fun d => [WNoCopy d; WSendChunk; WClear]) ds).
Definition is_nil {A} (l : list A) : bool := match l with [] => true | _ => false end.
Definition small (max : Z) (d : list Z) : Prop := 0 < zlen d /\ (0 < max -> zlen d <= max).

Section Sender.
Variables (f : diskfile) (max : Z).
Notation size := (f_size f).
Definition first_n : Z := if (0 <? max) && (max <? size) then max else size.
(** what is known of a sender whatever happens to the file *)
Definition sd_inv (sd : sender) : Prop :=
  sd_file sd = f /\ sd_max sd = max /\ 0 <= sd_sent sd <= size /\ (forall r, sd_room sd = Some r -> r = first_n) /\
  (f_content f = None -> sd_room sd <> None \/ sd_sent sd = 0).
Definition in_bounds : Prop := match f_content f with Some buf => exists c, buf = map Some c /\ zlen c = size | None => 0 <= size end.
Hypothesis IB : in_bounds.
Hypothesis MX : 0 <= max.

Lemma size_nonneg : 0 <= size.
Proof. unfold in_bounds in IB. destruct (f_content f); auto. destruct IB as (c & _ & <-). apply zlen_nonneg. Qed.
Lemma known_map l : known (map Some l) = Some l.
Proof. induction l as [|a l IH]; cbn; auto. rewrite IH. auto. Qed.
Lemma sd_inv_new : sd_inv (sender_new f max).
Proof. pose proof size_nonneg. unfold sd_inv. cbn. split; auto. split; auto. split; [lia|]. split; [discriminate|auto]. Qed.
Definition step_n (sent : Z) : Z := let rest := size - sent in if (0 <? max) && (max <? rest) then max else rest.
Lemma step_n_bounds sent : 0 <= sent < size -> 0 < step_n sent <= size - sent /\ step_n sent <= first_n /\ (0 < max -> step_n sent <= max) /\ (sent = 0 -> step_n sent = first_n).
Proof.
  intros H. unfold step_n, first_n. cbv zeta. destruct (0 <? max) eqn:E1; cbn [andb].
  - apply Z.ltb_lt in E1. destruct (max <? size - sent) eqn:E2; [apply Z.ltb_lt in E2 | apply Z.ltb_ge in E2]; destruct (max <? size) eqn:E3; [apply Z.ltb_lt in E3 | apply Z.ltb_ge in E3 | apply Z.ltb_lt in E3 | apply Z.ltb_ge in E3]; repeat split; try lia.
  - apply Z.ltb_ge in E1. repeat split; lia.
Qed.

(** one call of [send], whatever the file is now *)
Lemma send_safe sd now r ops sd' : sd_inv sd -> sender_send sd now = (r, ops, sd') ->
  match r with
  | SLast => size <= sd_sent sd /\ ops = [WSend]
  | SNothing => ops = []
  | SWait => sd_inv sd' /\ sd_sent sd < size /\ sd_sent sd' = sd_sent sd /\ sd_to_send sd' = step_n (sd_sent sd) /\ (f_content f = None -> sd_room sd' <> None)
     /\ exists s, zlen s = step_n (sd_sent sd) /\ ops = [WNoCopy s; if size <=? sd_sent sd + step_n (sd_sent sd) then (if 0 <? sd_sent sd then WSendFinal else WSend) else WSendChunk]
  | _ => False
  end.
Proof.
  intros (F & M & S & RM & RS). unfold sender_send. rewrite F, M. destruct (size <=? sd_sent sd) eqn:E; [apply Z.leb_le in E; intros H; inversion H; subst; auto|]. apply Z.leb_gt in E.
  change (if (0 <? max) && (max <? size - sd_sent sd) then max else size - sd_sent sd) with (step_n (sd_sent sd)).
  destruct (step_n_bounds (sd_sent sd)) as (B1 & B2 & B3 & B4); [lia|]. set (n := step_n (sd_sent sd)) in *.
  unfold sender_bytes. rewrite F. unfold in_bounds in IB. destruct (f_content f) as [buf|] eqn:FC.
  - destruct IB as (c & -> & LC). cbn [sd_sent]. assert (zlen (map Some c) = size) as LM by (unfold zlen in *; rewrite map_length; auto). rewrite LM.
    replace (size <? sd_sent sd + n) with false by (symmetry; apply Z.ltb_ge; lia). rewrite skipn_map, firstn_map, known_map.
    intros H. inversion H; subst r ops sd'. cbn. split.
    + unfold sd_inv. cbn. split; auto. split; auto. split; [lia|]. split; auto. intros FN; congruence.
    + split; [lia|]. split; auto. split; auto. split; [discriminate|]. eexists. split; [|reflexivity]. unfold zlen in *. rewrite firstn_length, skipn_length. lia.
  - assert (match sd_room sd with Some r => r | None => n end = first_n) as ER.
    { destruct (sd_room sd) as [r0|] eqn:RR; [apply RM; auto|]. destruct (RS eq_refl) as [X|X]; [tauto|]. apply B4. auto. }
    rewrite ER. destruct (match sd_pos sd with Some p => Some p | None => match now with Some _ => Some 0 | None => None end end) as [p|]; [|intros H; inversion H; auto].
    replace (first_n <? n) with false by (symmetry; apply Z.ltb_ge; lia).
    destruct now as [c|]; [|intros H; inversion H; auto]. destruct (zlen _ <? n) eqn:SH; [intros H; inversion H; auto|]. apply Z.ltb_ge in SH.
    intros H. inversion H; subst r ops sd'. cbn. split.
    + unfold sd_inv. cbn. split; auto. split; auto. split; [lia|]. split; [intros r X; inversion X; auto|]. intros _. left. discriminate.
    + split; [lia|]. split; auto. split; auto. split; [discriminate|]. eexists. split; [|reflexivity]. unfold zlen in *. rewrite firstn_length in *. lia.
Qed.
Lemma wrote_inv sd ok fin ops sd' : sd_inv sd -> sd_sent sd < size -> sd_to_send sd = step_n (sd_sent sd) -> (f_content f = None -> sd_room sd <> None) -> sender_wrote sd ok = (fin, ops, sd') ->
  fin = false -> sd_inv sd' /\ ok = true /\ ops = [WClear] /\ sd_sent sd' = sd_sent sd + step_n (sd_sent sd) /\ sd_pos sd' = sd_pos sd /\ sd_room sd' = sd_room sd /\ sd_sent sd' < size.
Proof.
  intros (F & M & S & RM & RS) L T RR. destruct (step_n_bounds (sd_sent sd)) as (B1 & B2 & B3 & B4); [lia|]. unfold sender_wrote. destruct ok; cbn [negb]; [|intros H; inversion H; discriminate]. rewrite F. cbn [sd_sent sd_file].
  destruct (size <=? _) eqn:E; intros H; inversion H; subst; [discriminate|]. intros _. apply Z.leb_gt in E. rewrite T in *. cbn.
  split; [|auto 10]. unfold sd_inv. cbn. split; auto. split; auto. split; [lia|]. split; auto.
Qed.
(** C62: whatever happens to the file, no memory is misused *)
Theorem never_bad l : forall sd, sd_inv sd -> fst (sender_run sd l) <> EBadRead /\ fst (sender_run sd l) <> EBadWrite.
Proof.
  induction l as [|[now ok] l IH]; intros sd I; cbn [sender_run]; [cbn; split; discriminate|].
  destruct (sender_send sd now) as [[r ops] sd1] eqn:S. apply send_safe in S; auto. destruct r; cbn; try (split; discriminate); try tauto.
  destruct S as (I1 & L & S1 & T1 & R1 & _). destruct (sender_wrote sd1 ok) as [[fin ops'] sd2] eqn:W. destruct fin; [cbn; split; discriminate|].
  rewrite <- S1 in *. apply wrote_inv in W as (I2 & _); auto. specialize (IH sd2 I2). destruct (sender_run sd2 l) as [e more]. cbn in *. auto.
Qed.

(** ------ the file does not change while it is sent *)
Variable c : list Z.
Hypothesis CS : match f_content f with Some buf => buf = map Some c | None => zlen c = size end.
Definition steady (x : option (list Z) * bool) : Prop := snd x = true /\ (f_content f = None -> fst x = Some c).
Definition at_pos (sd : sender) : Prop := sd_inv sd /\ (f_content f = None -> sd_pos sd = Some (sd_sent sd) \/ (sd_pos sd = None /\ sd_sent sd = 0)).
Lemma c_size : zlen c = size.
Proof.
  unfold in_bounds in IB. destruct (f_content f); auto. destruct IB as (c' & E & L). rewrite E in CS. assert (c' = c) as ->; auto.
  clear - CS. revert c CS. induction c' as [|a c' IH]; intros [|b c] H; inversion H; auto. f_equal. auto.
Qed.
Lemma send_steady sd x : at_pos sd -> steady x -> sd_sent sd < size ->
  exists sd', sender_send sd (fst x) = (SWait, [WNoCopy (firstn (Z.to_nat (step_n (sd_sent sd))) (skipn (Z.to_nat (sd_sent sd)) c));
    if size <=? sd_sent sd + step_n (sd_sent sd) then (if 0 <? sd_sent sd then WSendFinal else WSend) else WSendChunk], sd')
    /\ (f_content f = None -> sd_pos sd' = Some (sd_sent sd + step_n (sd_sent sd))).
Proof.
  intros [I P] [_ X] L. pose proof c_size as CL. destruct I as (F & M & S & RM & RS). unfold sender_send. rewrite F, M. replace (size <=? sd_sent sd) with false by (symmetry; apply Z.leb_gt; lia).
  change (if (0 <? max) && (max <? size - sd_sent sd) then max else size - sd_sent sd) with (step_n (sd_sent sd)).
  destruct (step_n_bounds (sd_sent sd)) as (B1 & B2 & B3 & B4); [lia|]. set (n := step_n (sd_sent sd)) in *.
  unfold sender_bytes. rewrite F. destruct (f_content f) as [buf|] eqn:FC.
  - subst buf. cbn [sd_sent]. assert (zlen (map Some c) = size) as -> by (unfold zlen in *; rewrite map_length; auto).
    replace (size <? sd_sent sd + n) with false by (symmetry; apply Z.ltb_ge; lia). rewrite skipn_map, firstn_map, known_map.
    eexists. split; [reflexivity|]. discriminate.
  - rewrite (X eq_refl). assert (match sd_room sd with Some r => r | None => n end = first_n) as ER.
    { destruct (sd_room sd) as [r0|] eqn:RR; [apply RM; auto|]. destruct (RS eq_refl) as [Y|Y]; [tauto|]. apply B4. auto. }
    rewrite ER. assert (match sd_pos sd with Some p => Some p | None => Some 0 end = Some (sd_sent sd)) as ->. { destruct (P eq_refl) as [->|[-> ->]]; auto. }
    replace (first_n <? n) with false by (symmetry; apply Z.ltb_ge; lia).
    assert (zlen (firstn (Z.to_nat n) (skipn (Z.to_nat (sd_sent sd)) c)) = n) as -> by (unfold zlen in *; rewrite firstn_length, skipn_length; lia). rewrite Z.ltb_irrefl.
    eexists. split; [reflexivity|]. cbn. auto.
Qed.
Lemma skipn_plus {A} (a b : nat) (l : list A) : skipn a (skipn b l) = skipn (b + a) l.
Proof. revert l. induction b as [|b IH]; intros l; cbn; auto. destruct l; [rewrite skipn_nil; auto|]. apply IH. Qed.
Lemma run_steady k : forall sd l, at_pos sd -> (forall x, In x l -> steady x) -> 0 <= sd_sent sd < size -> (Z.to_nat (size - sd_sent sd) <= k)%nat -> (k <= List.length l)%nat ->
  exists ds d, sender_run sd l = (EFinished, piece_ops ds ++ [WNoCopy d; if is_nil ds && (sd_sent sd =? 0) then WSend else WSendFinal])
    /\ concat ds ++ d = skipn (Z.to_nat (sd_sent sd)) c /\ Forall (small max) (ds ++ [d]).
Proof.
  induction k as [|k IH]; intros sd l A ST S K LL; [lia|]. destruct l as [|x l]; [cbn in LL; lia|]. cbn [sender_run].
  pose proof (ST x (or_introl eq_refl)) as SX. destruct (send_steady sd x A SX) as (sd1 & SS & P1); [lia|]. destruct x as [now ok]. cbn [fst snd] in *.
  rewrite SS. pose proof (send_safe _ _ _ _ _ (proj1 A) SS) as (I1 & L & S1 & T1 & R1 & _).
  destruct (step_n_bounds (sd_sent sd)) as (B1 & B2 & B3 & B4); [lia|]. set (n := step_n (sd_sent sd)) in *.
  pose proof c_size as CL. assert (zlen (firstn (Z.to_nat n) (skipn (Z.to_nat (sd_sent sd)) c)) = n) as LP by (unfold zlen in *; rewrite firstn_length, skipn_length; lia).
  set (p := firstn (Z.to_nat n) (skipn (Z.to_nat (sd_sent sd)) c)) in *.
  assert (small max p) as SP by (unfold small; rewrite LP; split; lia).
  unfold sender_wrote. destruct SX as [SX _]. cbn in SX. subst ok. cbn [negb]. destruct I1 as (F1 & M1 & I1). rewrite F1. cbn [sd_file sd_sent]. rewrite S1, T1.
  destruct (size <=? sd_sent sd + n) eqn:E.
  - apply Z.leb_le in E. exists [], p. cbn [piece_ops concat map app is_nil andb]. split; [|split].
    + rewrite ?app_nil_r. destruct (sd_sent sd =? 0) eqn:Z0; [apply Z.eqb_eq in Z0; rewrite Z0; auto|]. apply Z.eqb_neq in Z0. replace (0 <? sd_sent sd) with true by (symmetry; apply Z.ltb_lt; lia). auto.
    + unfold p. apply firstn_all2. unfold zlen in *. rewrite skipn_length. lia.
    + constructor; auto.
  - apply Z.leb_gt in E. set (sd2 := mksd f (sd_max sd1) n (sd_sent sd + n) (sd_pos sd1) (sd_room sd1)).
    destruct (IH sd2 l) as (ds & d & R & C & SM).
    + split.
      * unfold sd_inv. subst sd2. cbn. split; auto. split; auto. split; [lia|]. split; [apply I1|]. auto.
      * subst sd2. cbn. intros FC. left. auto.
    + intros y Y. apply ST. right. auto.
    + subst sd2. cbn. lia.
    + subst sd2. cbn. lia.
    + cbn in LL. lia.
    + fold sd2. rewrite R. subst sd2. cbn [sd_sent] in *. exists (p :: ds), d. replace (sd_sent sd + n =? 0) with false by (symmetry; apply Z.eqb_neq; lia). rewrite andb_false_r. cbn [is_nil andb piece_ops map concat app]. split; auto. split.
      * rewrite <- app_assoc, C. replace (Z.to_nat (sd_sent sd + n)) with (Z.to_nat (sd_sent sd) + Z.to_nat n)%nat by lia. rewrite <- skipn_plus. unfold p. apply firstn_skipn.
      * constructor; auto.
Qed.
Theorem sends_all l : Forall steady l -> zlen c < zlen l ->
  exists ds, concat ds = c /\ Forall (small max) ds /\
  sender_run (sender_new f max) l = (EFinished, match rev ds with [] => [WSend] | [d] => [WNoCopy d; WSend] | d :: r => piece_ops (rev r) ++ [WNoCopy d; WSendFinal] end).
Proof.
  intros ST LL. pose proof c_size as CL. destruct c as [|a t] eqn:CE.
  - exists []. split; auto. split; auto. destruct l as [|x l]; [cbn in LL; lia|]. cbn [rev sender_run]. destruct x as [now ok]. unfold sender_send, sender_new. cbn [sd_file sd_sent]. rewrite <- CL. reflexivity.
  - rewrite <- CE in *. assert (0 < size) as SP. { rewrite <- CL, CE, zlen_cons. pose proof (zlen_nonneg t). lia. }
    destruct (run_steady (Z.to_nat size) (sender_new f max) l) as (ds & d & R & C & SM).
    + split; [apply sd_inv_new|]. cbn. auto.
    + apply Forall_forall. auto.
    + cbn. lia.
    + cbn. lia.
    + unfold zlen in *. lia.
    + exists (ds ++ [d]). split; [rewrite concat_app; cbn; rewrite app_nil_r; auto|]. split; auto. rewrite R. f_equal. rewrite rev_app_distr. cbn [rev app].
      destruct ds as [|d0 ds]; [reflexivity|]. cbn [is_nil andb]. destruct (rev (d0 :: ds)) as [|e r] eqn:RV; [apply (f_equal (@List.length _)) in RV; rewrite rev_length in RV; discriminate|]. rewrite <- RV, rev_involutive. auto.
Qed.
End Sender.

(** ------ what the client receives *)
Definition got (f : diskfile) (c : list Z) (m : msg) : Prop := m_valid m = true /\ m_code m = 200 /\ m_reason m = bs "OK" /\ content_of m = Ok c /\
  values_of (bs "Content-Type") (m_headers m) = [f_mime f] /\ values_of (bs "Last-Modified") (m_headers m) = [f_date f].
(** The client [cf] that expects the answer [m0] reads the content: it sees where it ends and more may follow, or it is ended by the
    end of the connection, which the server closes. *)
Definition receives (cf : pcfg) (m0 : msg) (w : wst) (f : diskfile) (c : list Z) : Prop :=
  (forall pieces more, cut pieces (w_out w ++ more) ->
     exists r, feed cf (p_init cf) m0 pieces = Ok (Some r) /\ r_rc r = TTrue /\ r_err r = None /\ r_rest r = more /\ got f c (r_msg r))
  \/ (w_life w = LClose /\ forall pieces, cut pieces (w_out w) ->
     exists r st m', feed cf (p_init cf) m0 pieces = Ok (Some r) /\ r_rc r = TIndet /\ r_err r = None /\ r_rest r = []
       /\ check_premature_eof cf (r_st r) (r_msg r) = Ok (false, st, m') /\ got f c m').

Lemma mime_ok name : Forall value_char (find_mime name) /\ zlen (find_mime name) <= 1048576 /\ ~ exists t, find_mime name = bs "multipart/form-data" ++ t.
Proof.
  assert (let ok v := forallb value_charb v && (zlen v <=? 1048576) && negb (is_prefix (bs "multipart/form-data") v) in
          forallb (fun e => ok (snd e)) mime_types && ok (bs "application/octet-stream") = true) as A by (vm_compute; reflexivity).
  cbv zeta in A. apply andb_true_iff in A. destruct A as [A1 A2]. rewrite forallb_forall in A1.
  assert (forall v, forallb value_charb v && (zlen v <=? 1048576) && negb (is_prefix (bs "multipart/form-data") v) = true ->
     Forall value_char v /\ zlen v <= 1048576 /\ ~ exists t, v = bs "multipart/form-data" ++ t) as B.
  { intros v H. apply andb_true_iff in H. destruct H as [H H3]. apply andb_true_iff in H. destruct H as [H1 H2]. split; [|split].
    - apply value_chars. auto. - apply Z.leb_le. auto. - intros [t E]. apply negb_true_iff in H3. assert (is_prefix (bs "multipart/form-data") v = true) by (apply is_prefix_spec; eauto). congruence. }
  unfold find_mime. destruct (find _ mime_types) as [e|] eqn:E; [|apply B; auto]. apply find_some in E. apply B, A1, E.
Qed.

Section Client.
Variables (pos : dpos) (method : list Z) (vmaj vmin : Z) (life : lifecycle) (f : diskfile) (cf : pcfg) (m : msg).
Hypothesis V1 : 0 <= vmaj < 65536.
Hypothesis V2 : 0 <= vmin < 65536.
Hypothesis MIME : exists name, f_mime f = find_mime name.
Hypothesis DATE : Forall value_char (f_date f) /\ zlen (f_date f) <= 1048576.
Let w1 := w_ops pos (w_respond method vmaj vmin life) (sender_head f).

Lemma head_state : winv w1 /\ pend w1 = [] /\ w_open w1 = true /\ w_out w1 = [] /\ w_sent_headers w1 = false /\ line_inv (w_msg w1) /\ w_life w1 = life
  /\ w_chunks w1 = o_chunks (w_msg w1).
Proof.
  destruct (setup_ok pos (sender_head f) (w_respond method vmaj vmin life)) as (A & B & C & D).
  - apply (w_new_fresh (response_to method vmaj vmin)). - left. unfold w_respond, response_to. destruct (_ && _); [reflexivity|]. destruct (_ =? _); reflexivity. - unfold sender_head. repeat constructor.
  - fold w1 in A, B, C, D. unfold setup_state in C. destruct C as (C1 & C2 & C3 & C4 & C5 & C6 & C7). split; auto. split; [rewrite B; reflexivity|]. rewrite C1, C2, C3, C4, C6. repeat (split; [auto; reflexivity|]).
    unfold w1, w_ops, sender_head. cbn [fold_left w_op w_msg w_respond w_chunks w_new]. destruct (response_to method vmaj vmin). reflexivity.
Qed.
Lemma head_msg : let o := w_msg w1 in o_request o = false /\ o_nolen o = false /\ m_code (o_msg o) = 200 /\ m_reason (o_msg o) = bs "OK" /\ m_clen (o_msg o) = 0 /\ legal o
  /\ (forall n, Permutation (values_of n (m_headers (o_msg o))) ((if same_name (bs "Content-Type") n then [f_mime f] else []) ++ (if same_name (bs "Last-Modified") n then [f_date f] else []))).
Proof.
  cbv zeta. destruct MIME as [name EM]. destruct (mime_ok name) as (M1 & M2 & _). rewrite <- EM in M1, M2. destruct DATE as [D1 D2].
  assert (exists m0, o_msg (w_msg w1) = m0 /\ m_headers m0 = d_insert pos (d_insert pos [] (bs "Content-Type", f_mime f)) (bs "Last-Modified", f_date f) /\ m_code m0 = 200 /\ m_reason m0 = bs "OK"
     /\ m_cookies m0 = [] /\ m_clen m0 = 0 /\ 0 <= m_vmaj m0 < 65536 /\ 0 <= m_vmin m0 < 65536 /\ o_request (w_msg w1) = false /\ o_nolen (w_msg w1) = false) as (m0 & E0 & EH & EC & ER & EK & ELN & EV1 & EV2 & EQ & EN).
  { unfold w1, w_ops, sender_head. cbn [fold_left w_op w_msg]. change (w_msg (w_respond method vmaj vmin life)) with (response_to method vmaj vmin).
    assert (exists m1, o_msg (response_to method vmaj vmin) = m1 /\ m_headers m1 = [] /\ m_cookies m1 = [] /\ m_clen m1 = 0 /\ 0 <= m_vmaj m1 < 65536 /\ 0 <= m_vmin m1 < 65536
      /\ o_request (response_to method vmaj vmin) = false /\ o_nolen (response_to method vmaj vmin) = false) as (m1 & A1 & A2 & A3 & A4 & A5 & A6 & A7 & A8).
    { unfold response_to. destruct ((vmaj =? 1) && (1 <=? vmin)); [|destruct (vmaj =? 0)]; eexists; (split; [reflexivity|]);
        (split; [reflexivity|]); (split; [reflexivity|]); (split; [reflexivity|]); cbn -[Z.le Z.lt]; lia. }
    destruct (response_to method vmaj vmin) as [rq m1' ln chk nl]. cbn [o_msg o_request o_nolen] in *. subst m1' rq nl. destruct m1. cbn -[Z.le Z.lt d_insert] in *. subst.
    eexists. split; [reflexivity|]. cbn -[Z.le Z.lt d_insert]. auto 20. }
  rewrite E0. split; auto. split; auto. split; auto. split; auto. split; auto. split.
  - unfold legal. rewrite EQ, E0, EC, ER, EK, EH. cbv zeta. split; [split; [lia|]; split; [apply (forallb_Forall (fun c => (32 <=? c) && (c <? 256) && negb (c =? 127))); [intros; unfold text_char; lia|vm_compute; reflexivity]|vm_compute; discriminate]|].
    split; auto. split; auto. split; [|constructor]. apply Forall_insert; [apply Forall_insert; [constructor|]|]; (split; [discriminate|]); cbn [fst snd];
      (split; [apply token_chars; vm_compute; reflexivity|]); (split; [vm_compute; discriminate|auto]).
  - intros n. rewrite EH. etransitivity; [apply values_insert|]. assert (values_of n (d_insert pos [] (bs "Content-Type", f_mime f)) = if same_name (bs "Content-Type") n then [f_mime f] else []) as ->.
    { destruct (same_name (bs "Content-Type") n) eqn:E; [apply Permutation_length_1_inv, Permutation_sym|apply Permutation_nil, Permutation_sym]; etransitivity; try apply values_insert; cbn [fst snd]; rewrite E; reflexivity. }
    cbn [fst snd]. destruct (same_name (bs "Last-Modified") n), (same_name (bs "Content-Type") n); reflexivity.
Qed.

Hypothesis ST : storing cf.
Hypothesis RQ : cf_request cf = false.
Hypothesis MH : m_headers m = [].
Hypothesis MM : m_missing m = false.
Hypothesis MC : m_cache m = [].
Hypothesis NH : m_req_method m <> bs "HEAD".

Theorem received max c l : in_bounds f -> (match f_content f with Some buf => buf = map Some c | None => zlen c = f_size f end) -> Forall (steady f c) l -> zlen c < zlen l ->
  zlen c < 9223372036854775808 -> zlen c <= cf_max cf ->
  fst (send_file f max l) = EFinished /\ receives cf m (w_ops pos (w_respond method vmaj vmin life) (snd (send_file f max l))) f c.
Proof.
  intros IB CS SL LL CB CM. destruct (sends_all f max IB c CS l SL LL) as (ds & CC & SM & R). unfold send_file. rewrite R. cbn [fst snd]. split; auto.
  destruct head_state as (H1 & H2 & H3 & H4 & H5 & H6 & H7 & H8). destruct head_msg as (G1 & G2 & G3 & G4 & G5 & G6 & G7).
  assert (not_multipart (o_msg (w_msg w1))) as NM.
  { intros v I. apply (Permutation_in v (G7 _)) in I. destruct I as [<-|[]]. destruct MIME as [name ->]. apply mime_ok. }
  assert (forall n, same_name (bs "Content-Type") n = false -> same_name (bs "Last-Modified") n = false -> values_of n (m_headers (o_msg (w_msg w1))) = []) as NN.
  { intros n N1 N2. apply Permutation_nil, Permutation_sym. rewrite G7, N1, N2. reflexivity. }
  assert (forall hs, (forall name, (name = bs "Content-Type" \/ name = bs "Last-Modified") -> Permutation (values_of name hs) (values_of name (m_headers (o_msg (w_msg w1))) ++ [])) ->
     values_of (bs "Content-Type") hs = [f_mime f] /\ values_of (bs "Last-Modified") hs = [f_date f]) as TD.
  { intros hs H. split; apply Permutation_length_1_inv, Permutation_sym; (etransitivity; [apply H; auto|]); rewrite app_nil_r; (etransitivity; [apply G7|]); reflexivity. }
  assert (~ no_body_expected m (w_msg w1)) as NB. { intros [_ H]. cbv zeta in H. rewrite G3 in H. destruct H as [H|H]; [contradiction|lia]. }
  assert (forall body, (body = WSend :: [] /\ c = [] \/ body = [WNoCopy c; WSend]) -> receives cf m (w_ops pos (w_respond method vmaj vmin life) (sender_head f ++ body)) f c) as ONE.
  { intros body HB. left. intros pieces more CU.
    assert (w_msg (w_ops pos (w_respond method vmaj vmin life) (sender_head f ++ removelast body)) = w_msg w1 /\ collected [] (sender_head f ++ removelast body) = c
      /\ w_out (w_ops pos (w_respond method vmaj vmin life) (sender_head f ++ body)) = w_out (w_send pos (w_ops pos (w_respond method vmaj vmin life) (sender_head f ++ removelast body)))) as (EM & EC & EO).
    { unfold w1, w_ops. destruct HB as [[-> ->]| ->]; cbn [removelast]; rewrite ?app_nil_r, ?fold_left_app; split; auto. cbn [fold_left w_op].
      generalize (fold_left (w_op pos) (sender_head f) (w_respond method vmaj vmin life)). intros v. destruct c; [reflexivity|]. cbn [w_no_copy w_msg]; unfold w_flush; destruct (w_stream_empty v); [|destruct (w_stream v)]; reflexivity. }
    destruct (writer_round_trip pos (w_respond method vmaj vmin life) [] (sender_head f ++ removelast body) cf m (created_response pos method vmaj vmin life)) with (pieces := pieces) (more := more)
      as (r & F & RC & RE & RS & VA & CO & FL & HR).
    - apply Forall_app. split; [unfold sender_head; repeat constructor|]. destruct HB as [[-> _]| ->]; repeat constructor.
    - rewrite EM. auto.
    - rewrite EM. auto.
    - right. rewrite EM. auto.
    - rewrite EC. unfold two64. lia.
    - rewrite EM. apply NN; reflexivity.
    - rewrite EM. auto.
    - auto.
    - rewrite EM, G1. auto.
    - rewrite EC. auto.
    - auto.
    - auto.
    - rewrite EM. auto.
    - rewrite <- EO. exact CU.
    - exists r. rewrite EM, EC in *. destruct HR as (_ & _ & HR). rewrite G1 in FL, HR. destruct FL as (_ & _ & FC & FR). destruct (TD (m_headers (r_msg r))) as [T1 T2]; [intros name [-> | ->]; apply HR; reflexivity|].
      unfold got. rewrite FC, FR, G3, G4. auto 12. }
  destruct (rev ds) as [|d rds] eqn:RV.
  { apply ONE. left. split; auto. rewrite <- CC. assert (ds = []) as -> by (rewrite <- (rev_involutive ds), RV; auto). auto. }
  assert (ds = rev rds ++ [d]) as ED by (rewrite <- (rev_involutive ds), RV; auto).
  destruct rds as [|d2 rds].
  { apply ONE. right. cbn in ED. rewrite <- CC, ED. cbn. rewrite app_nil_r. auto. }
  set (rs := rev (d2 :: rds)) in *. assert (rs <> []) as RN. { intros X. apply (f_equal (@List.length _)) in X. unfold rs in X. rewrite rev_length in X. discriminate. }
  set (steps := concat (map (fun d => [SWrite (WNoCopy d); SChunk]) rs) ++ [SWrite (WNoCopy d)]).
  assert (piece_ops rs ++ [WNoCopy d; WSendFinal] = chunked_ops steps) as EO.
  { unfold chunked_ops, steps, piece_ops. clear. induction rs as [|r rs IH]; [reflexivity|]. cbn [map concat app] in *. rewrite IH. reflexivity. }
  assert (steps_payload steps = c) as EP.
  { rewrite <- CC, ED. unfold steps_payload, steps. clear. induction rs as [|r rs IH]; [reflexivity|]. cbn [map concat app payload] in *. rewrite IH, <- ?app_assoc. reflexivity. }
  assert (Forall step_ok steps) as SO.
  { unfold steps. clear. induction rs as [|r rs IH]; [repeat constructor|]. cbn [map concat app] in *. constructor; [exact Logic.I|]. constructor; [exact Logic.I|auto]. }
  assert (In SChunk steps) as IS. { unfold steps. destruct rs as [|r rs']; [congruence|]. cbn. auto. }
  assert (w_ops pos (w_respond method vmaj vmin life) (sender_head f ++ piece_ops rs ++ [WNoCopy d; WSendFinal]) = w_ops pos w1 (chunked_ops steps)) as ->.
  { rewrite EO. unfold w1, w_ops. rewrite fold_left_app. reflexivity. }
  destruct (w_chunks w1) eqn:WC.
  - left. intros pieces more CU. destruct (chunked_from pos w1 steps cf m) as (_ & RR); auto.
    + rewrite G5. unfold two64. lia. + rewrite H2, EP. auto. + rewrite G1. auto. + rewrite H2, EP. auto.
    + destruct (RR pieces more CU) as (r & F & RC & RE & RS & VA & CO & FL & _ & _ & HR). exists r. rewrite H2, EP in CO. rewrite G1 in FL, HR. destruct FL as (_ & _ & FC & FR).
      destruct (TD (m_headers (r_msg r))) as [T1 T2]; [intros name [-> | ->]; apply HR; reflexivity|]. unfold got. rewrite FC, FR, G3, G4. auto 12.
  - right. destruct (unchunked_from pos w1 steps cf m) as (LC & RR); auto.
    + rewrite G5. unfold two64. lia. + rewrite H2, EP. unfold two64. cbn [app]. lia. + rewrite H2, EP. auto.
    + split; auto. intros pieces CU. destruct (RR pieces CU) as (r & st & m' & F & RC & RE & RS & PE & VA & CO & FL & _ & HR). exists r, st, m'. rewrite H2, EP in CO. destruct FL as (_ & _ & FC & FR).
      destruct (TD (m_headers m')) as [T1 T2]; [intros name [-> | ->]; apply HR; reflexivity|]. unfold got. rewrite FC, FR, G3, G4. auto 12.
Qed.
End Client.

(** ------ the file cannot be read any more, or a write fails: what was sent is a beginning of the content *)
Definition payload_of (ops : list wop) : list Z := concat (map payload ops).
Lemma payload_app a b : payload_of (a ++ b) = payload_of a ++ payload_of b.
Proof. unfold payload_of. rewrite map_app, concat_app. auto. Qed.
Section Broken.
Variables (f : diskfile) (max : Z) (c : list Z).
Hypothesis IB : in_bounds f.
Hypothesis CS : match f_content f with Some buf => buf = map Some c | None => zlen c = f_size f end.
Lemma send_readable sd now r ops sd' : at_pos f max sd -> (f_content f = None -> now = Some c \/ now = None) -> sender_send sd now = (r, ops, sd') ->
  payload_of ops = match r with SWait => firstn (Z.to_nat (step_n f max (sd_sent sd))) (skipn (Z.to_nat (sd_sent sd)) c) | _ => [] end
  /\ (r = SWait -> f_content f = None -> sd_pos sd' = Some (sd_sent sd + step_n f max (sd_sent sd))).
Proof.
  intros A N S. pose proof (send_safe f max IB _ _ _ _ _ (proj1 A) S) as B. destruct (f_size f <=? sd_sent sd) eqn:E.
  { unfold sender_send in S. replace (sd_file sd) with f in S by (symmetry; apply A). rewrite E in S. inversion S. split; [reflexivity|discriminate]. }
  apply Z.leb_gt in E.
  destruct (f_content f) as [buf|] eqn:FC.
  - destruct (send_steady f max IB c) with (sd := sd) (x := (now, true)) as (sd1 & X & Y); auto; [rewrite FC; auto|split; [reflexivity|rewrite FC; discriminate]|].
    cbn [fst] in X. rewrite X in S. inversion S; subst. split; [|discriminate]. unfold payload_of. destruct (f_size f <=? _); [destruct (0 <? _)|]; cbn; rewrite ?app_nil_r; auto.
  - destruct (N eq_refl) as [->| ->].
    + destruct (send_steady f max IB c) with (sd := sd) (x := (Some c, true)) as (sd1 & X & Y); auto; [rewrite FC; auto|split; [reflexivity|auto]|].
      cbn [fst] in X. rewrite X in S. inversion S; subst. split; [|intros _ _; apply Y; auto]. unfold payload_of. destruct (f_size f <=? _); [destruct (0 <? _)|]; cbn; rewrite ?app_nil_r; auto.
    + assert (r = SNothing) as ->. { unfold sender_send in S. destruct A as [(F & M & _) _]. rewrite F, M in S. replace (f_size f <=? sd_sent sd) with false in S by (symmetry; apply Z.leb_gt; auto). unfold sender_bytes in S. rewrite F, FC in S.
        destruct (sd_pos sd); [destruct (_ <? _) eqn:W in S|]; inversion S; auto. subst. contradiction. }
      cbn in B. subst ops. split; [reflexivity|discriminate].
Qed.
Theorem prefix_sent l : (forall x, In x l -> f_content f = None -> fst x = Some c \/ fst x = None) -> forall sd, at_pos f max sd ->
  exists t, skipn (Z.to_nat (sd_sent sd)) c = payload_of (snd (sender_run sd l)) ++ t.
Proof.
  induction l as [|[now ok] l IH]; intros N sd A; [cbn; eauto|]. cbn [sender_run]. destruct (sender_send sd now) as [[r ops] sd1] eqn:S.
  destruct (send_readable _ _ _ _ _ A (N _ (or_introl eq_refl)) S) as (P & Q). pose proof (send_safe f max IB _ _ _ _ _ (proj1 A) S) as B.
  destruct r; try (cbn [snd]; rewrite P; cbn; eauto).
  destruct B as (I1 & L & S1 & T1 & R1 & _). destruct (sender_wrote sd1 ok) as [[fin ops'] sd2] eqn:W.
  destruct (step_n_bounds f max (sd_sent sd)) as (B1 & _); [destruct A as [(_ & _ & X & _) _]; lia|].
  assert (payload_of ops' = []) as PO'. { unfold sender_wrote in W. destruct ok; cbn in W; [destruct (_ <=? _) in W|]; inversion W; auto. }
  destruct fin.
  - cbn [snd]. rewrite payload_app, PO', app_nil_r, P. exists (skipn (Z.to_nat (step_n f max (sd_sent sd))) (skipn (Z.to_nat (sd_sent sd)) c)). rewrite firstn_skipn. auto.
  - rewrite <- S1 in *. destruct (wrote_inv _ _ _ _ _ _ _ I1 L T1 R1 W eq_refl) as (I2 & _ & _ & S2 & P2 & _). destruct (IH (fun x H => N x (or_intror H)) sd2) as [t T].
    + split; auto. intros FC. left. rewrite P2, S2. apply Q; auto.
    + destruct (sender_run sd2 l) as [e more]. cbn [snd] in *. rewrite !payload_app, PO', P. cbn [app]. exists t. rewrite <- app_assoc, <- T, S2.
      replace (Z.to_nat (sd_sent sd1 + step_n f max (sd_sent sd1))) with (Z.to_nat (sd_sent sd1) + Z.to_nat (step_n f max (sd_sent sd1)))%nat.
      * rewrite <- skipn_plus, firstn_skipn. auto.
      * destruct I1 as (_ & _ & X & _). lia.
Qed.
End Broken.

(** ------ the sending ends if the file stays readable and does not shrink *)
Section Ends.
Variables (f : diskfile) (max : Z).
Hypothesis IB : in_bounds f.
Definition long_enough (x : option (list Z) * bool) : Prop := f_content f = None -> exists c, fst x = Some c /\ f_size f <= zlen c.
Lemma send_long sd x r ops sd' : at_pos f max sd -> long_enough x -> sender_send sd (fst x) = (r, ops, sd') ->
  r = SLast \/ r = SWait /\ (f_content f = None -> sd_pos sd' = Some (sd_sent sd + step_n f max (sd_sent sd))).
Proof.
  intros A LE S. pose proof (send_safe f max IB _ _ _ _ _ (proj1 A) S) as B. destruct A as [(F & M & SB & _) PA]. unfold sender_send in S. rewrite F, M in S.
  destruct (f_size f <=? sd_sent sd) eqn:E; [inversion S; auto|]. apply Z.leb_gt in E. right.
  change (if (0 <? max) && (max <? f_size f - sd_sent sd) then max else f_size f - sd_sent sd) with (step_n f max (sd_sent sd)) in S. destruct (step_n_bounds f max (sd_sent sd)) as (B1 & _); [lia|]. set (n := step_n f max (sd_sent sd)) in *.
  unfold sender_bytes in S. rewrite F in S. destruct (f_content f) as [buf|] eqn:FC.
  - destruct (_ <? _) in S; [inversion S; subst; contradiction|]. destruct (known _) in S; inversion S; subst; [split; [auto|congruence]|contradiction].
  - destruct (LE FC) as (c & EX & LC). rewrite EX in S. assert (match sd_pos sd with Some p => Some p | None => Some 0 end = Some (sd_sent sd)) as PE by (destruct (PA eq_refl) as [->|[-> ->]]; auto).
    rewrite PE in S. destruct (_ <? n) eqn:RM in S; [inversion S; subst; contradiction|].
    assert (zlen (firstn (Z.to_nat n) (skipn (Z.to_nat (sd_sent sd)) c)) = n) as ZN by (unfold zlen in *; rewrite firstn_length, skipn_length; lia). rewrite ZN, Z.ltb_irrefl in S. inversion S; subst. cbn. auto.
Qed.
Theorem ends k : forall sd l, at_pos f max sd -> (forall x, In x l -> long_enough x) -> (Z.to_nat (f_size f - sd_sent sd) < k)%nat -> (k <= List.length l)%nat -> fst (sender_run sd l) = EFinished.
Proof.
  induction k as [|k IH]; intros sd l A LE K KL; [lia|]. destruct l as [|[now ok] l]; [cbn in KL; lia|]. cbn [sender_run]. destruct (sender_send sd now) as [[r ops] sd1] eqn:S.
  destruct (send_long sd (now, ok) r ops sd1 A (LE _ (or_introl eq_refl)) S) as [-> | [-> Q]]; [reflexivity|].
  destruct (send_safe f max IB _ _ _ _ _ (proj1 A) S) as (I1 & L & S1 & T1 & R1 & _). destruct (sender_wrote sd1 ok) as [[fin ops'] sd2] eqn:W. destruct fin; [reflexivity|].
  destruct (step_n_bounds f max (sd_sent sd)) as (B1 & _); [destruct A as [(_ & _ & X & _) _]; lia|].
  rewrite <- S1 in *. destruct (wrote_inv _ _ _ _ _ _ _ I1 L T1 R1 W eq_refl) as (I2 & _ & _ & S2 & P2 & _ & L2).
  assert (fst (sender_run sd2 l) = EFinished) as X.
  { apply IH; [split; [auto|intros FC; left; rewrite P2, S2; auto]|intros y Y; apply LE; right; auto| |cbn in KL; lia].
    destruct I1 as (_ & _ & Y & _). lia. }
  destruct (sender_run sd2 l). cbn in *. auto.
Qed.
End Ends.
