(** Proofs about the services. *)
From Coq Require Import String ZArith List Bool Lia Permutation.
From Verif Require Import Base Digits AlgModel DictModel DictProofs HttpModel HttpSpec HttpHead HttpProofs MessageModel MessageSpec MessageProofs WriterModel WriterSpec WriterProofs
  ServicesModel ServicesSpec.
Import ListNotations.

(* ------------------------------------------------------------------ pages *)

Definition is_page (x : wop) : Prop := match x with WText _ | WBinary _ | WNoCopy _ => True | WMsg x => keeps_line x | _ => False end.
Definition msgs (l : list wop) : list mop := flat_map (fun x => match x with WMsg y => [y] | _ => [] end) l.
Lemma page_setup l : Forall is_page l -> Forall is_setup l.
Proof. apply Forall_impl. intros []; cbn; auto; contradiction. Qed.
Lemma page_collected l : Forall is_page l -> forall acc, collected acc l = acc ++ concat (map payload l).
Proof.
  induction 1 as [|x l P F IH]; intros acc; cbn [map concat]; [rewrite app_nil_r; reflexivity|].
  destruct x; try contradiction; cbn [collected payload]; rewrite IH, <- ?app_assoc; reflexivity.
Qed.
Lemma msg_flush w : w_msg (w_flush w) = w_msg w.
Proof. unfold w_flush. destruct (w_stream_empty w); [reflexivity|]. destruct (w_stream w); reflexivity. Qed.
Lemma page_msg pos l : Forall is_page l -> forall w, w_msg (w_ops pos w l) = msg_ops pos (w_msg w) (msgs l).
Proof.
  unfold w_ops, msg_ops. induction 1 as [|x l P F IH]; intros w; [reflexivity|]. cbn [fold_left msgs flat_map]. rewrite IH. fold (msgs l).
  destruct x; try contradiction; cbn [w_op app]; try reflexivity.
  - destruct s; [reflexivity|]. cbn [w_binary w_msg]. rewrite msg_flush. reflexivity.
  - destruct s; [reflexivity|]. cbn [w_no_copy w_msg]. rewrite msg_flush. reflexivity.
Qed.

Lemma add_headers pos : forall hs o, let o' := msg_ops pos o (map (fun h => MsgAddHeader (fst h) (snd h)) hs) in
  (forall n, Permutation (values_of n (m_headers (o_msg o'))) (values_of n (m_headers (o_msg o)) ++ values_of n hs))
  /\ (forall P : hdr -> Prop, Forall P (m_headers (o_msg o)) -> Forall P hs -> Forall P (m_headers (o_msg o')))
  /\ m_code (o_msg o') = m_code (o_msg o) /\ m_reason (o_msg o') = m_reason (o_msg o) /\ m_cookies (o_msg o') = m_cookies (o_msg o) /\ m_clen (o_msg o') = m_clen (o_msg o)
  /\ m_vmaj (o_msg o') = m_vmaj (o_msg o) /\ m_vmin (o_msg o') = m_vmin (o_msg o) /\ o_request o' = o_request o /\ o_nolen o' = o_nolen o.
Proof.
  induction hs as [|[k v] hs IH]; intros o; cbn [map fst snd].
  - split; [intros; cbn; rewrite app_nil_r; reflexivity|]. cbn. auto 20.
  - change (msg_ops pos o (MsgAddHeader k v :: map (fun h => MsgAddHeader (fst h) (snd h)) hs)) with (msg_ops pos (msg_op pos o (MsgAddHeader k v)) (map (fun h => MsgAddHeader (fst h) (snd h)) hs)).
    destruct (IH (msg_op pos o (MsgAddHeader k v))) as (A1 & A2 & A3 & A4 & A5 & A6 & A7 & A8 & A9 & A10). cbv zeta.
    assert (m_headers (o_msg (msg_op pos o (MsgAddHeader k v))) = d_insert pos (m_headers (o_msg o)) (k, v)) as EH by (destruct o as [? mm]; destruct mm; reflexivity).
    rewrite EH in A1, A2. split; [|split].
    + intros n. rewrite A1. etransitivity; [apply Permutation_app_tail, values_insert|]. rewrite values_cons. cbn [fst snd]. destruct (same_name k n); [rewrite <- app_assoc|]; reflexivity.
    + intros P F1 F2. inversion F2; subst. apply A2; auto. apply Forall_insert; auto.
    + rewrite A3, A4, A5, A6, A7, A8, A9, A10. destruct o as [? mm]; destruct mm. cbn. auto 20.
Qed.

(** the status of a page: 200 unless set *)
Definition status_ops (s : option (Z * list Z)) : list mop := match s with None => [] | Some (c, r) => [MsgCode c; MsgReason r] end.
Definition status_code (s : option (Z * list Z)) : Z := match s with None => 200 | Some (c, _) => c end.
Definition status_reason (s : option (Z * list Z)) : list Z := match s with None => bs "OK" | Some (_, r) => r end.
Definition type_ops (t : option (list Z)) : list mop := match t with None => [] | Some t => [MsgContentType t] end.
Definition type_headers (t : option (list Z)) : list (list Z * list Z) := match t with None => [] | Some t => [(bs "Content-Type", t)] end.
Definition header_fine (h : list Z * list Z) : Prop :=
  fst h <> [] /\ Forall token_char (fst h) /\ zlen (fst h) <= 1024 /\ Forall value_char (snd h) /\ zlen (snd h) <= 1048576.

Lemma page_message pos method vmaj vmin life st t hs l :
  Forall is_page l -> msgs l = status_ops st ++ type_ops t ++ map (fun h => MsgAddHeader (fst h) (snd h)) hs ->
  0 < vmaj < 65536 -> 0 <= vmin < 65536 -> 200 <= status_code st <= 999 ->
  let w := w_ops pos (w_respond method vmaj vmin life) l in
  exists o, w_msg w = o /\ (forall n, Permutation (values_of n (m_headers (o_msg o))) (values_of n (type_headers t ++ hs))) /\ (forall P : hdr -> Prop, Forall P (type_headers t ++ hs) -> Forall P (m_headers (o_msg o)))
     /\ m_code (o_msg o) = status_code st /\ m_reason (o_msg o) = status_reason st
     /\ m_cookies (o_msg o) = [] /\ m_clen (o_msg o) = 0 /\ 0 <= m_vmaj (o_msg o) < 65536 /\ 0 <= m_vmin (o_msg o) < 65536 /\ o_request o = false /\ o_nolen o = false.
Proof.
  intros FP ML V1 V2 CD w.
  unfold w. rewrite page_msg by auto. rewrite ML. change (w_msg (w_respond method vmaj vmin life)) with (response_to method vmaj vmin).
  unfold msg_ops. rewrite !fold_left_app. remember (fold_left (msg_op pos) (type_ops t) (fold_left (msg_op pos) (status_ops st) (response_to method vmaj vmin))) as o1 eqn:EO1.
  assert (exists m1, o_msg (response_to method vmaj vmin) = m1 /\ m_headers m1 = [] /\ m_cookies m1 = [] /\ m_clen m1 = 0 /\ 0 <= m_vmaj m1 < 65536 /\ 0 <= m_vmin m1 < 65536
    /\ m_code m1 = 200 /\ m_reason m1 = bs "OK"
    /\ o_request (response_to method vmaj vmin) = false /\ o_nolen (response_to method vmaj vmin) = false) as (m1 & B1 & B2 & B3 & B4 & B5 & B6 & B7 & B8 & B9 & B10).
  { unfold response_to. destruct ((vmaj =? 1) && (1 <=? vmin)); [|destruct (vmaj =? 0) eqn:EZ; [lia|]]; eexists; (split; [reflexivity|]);
      (split; [reflexivity|]); (split; [reflexivity|]); (split; [reflexivity|]); cbn -[Z.le Z.lt]; repeat split; try lia. }
  assert (m_headers (o_msg o1) = type_headers t /\ m_code (o_msg o1) = status_code st /\ m_reason (o_msg o1) = status_reason st /\ m_cookies (o_msg o1) = [] /\ m_clen (o_msg o1) = 0
    /\ 0 <= m_vmaj (o_msg o1) < 65536 /\ 0 <= m_vmin (o_msg o1) < 65536 /\ o_request o1 = false /\ o_nolen o1 = false) as (D1 & D2 & D3 & D4 & D5 & D6 & D7 & D8 & D9).
  { subst o1. destruct (response_to method vmaj vmin) as [rq m1' ln chk nl]. cbn [o_msg o_request o_nolen] in *. subst m1' rq nl. destruct m1. cbn -[Z.le Z.lt] in *. subst.
    assert (d_insert pos [] (bs "Content-Type", []) = [(bs "Content-Type", [])]) as _ by (unfold d_insert; cbn; destruct (pos _ _); reflexivity).
    assert (forall k v, d_insert pos [] (k, v) = [(k, v)]) as DI by (intros; unfold d_insert; cbn; destruct (pos _ _); reflexivity).
    destruct st as [[c r]|], t as [t|]; cbn -[Z.le Z.lt d_insert] in *; rewrite ?DI; repeat split; auto; try lia; apply Z.mod_small; unfold two32; lia. }
  destruct (add_headers pos hs o1) as (A1 & A2 & A3 & A4 & A5 & A6 & A7 & A8 & A9 & A10). unfold msg_ops in *.
  eexists. split; [reflexivity|]. split; [intros n; rewrite A1, D1; unfold values_of; rewrite filter_app, map_app; reflexivity|].
  split; [intros P F; apply Forall_app in F; apply A2; rewrite ?D1; tauto|]. rewrite A3, A4, A5, A6, A7, A8, A9, A10. auto 20.
Qed.
Lemma page_round_trip pos method vmaj vmin life st t hs l cf m :
  Forall is_page l -> msgs l = status_ops st ++ type_ops t ++ map (fun h => MsgAddHeader (fst h) (snd h)) hs ->
  0 < vmaj < 65536 -> 0 <= vmin < 65536 -> 200 <= status_code st <= 999 -> status_code st <> 204 -> status_code st <> 205 -> status_code st <> 304 ->
  Forall text_char (status_reason st) -> zlen (status_reason st) <= 1024 ->
  Forall header_fine (type_headers t ++ hs) -> values_of (bs "Transfer-Encoding") hs = [] -> values_of (bs "Content-Type") hs = [] ->
  (forall s, t = Some s -> ~ exists u, s = bs "multipart/form-data" ++ u) ->
  let body := concat (map payload l) in
  zlen body < two64 - 1 -> storing cf -> cf_request cf = false -> zlen body <= cf_max cf -> m_headers m = [] -> m_missing m = false -> m_req_method m <> bs "HEAD" ->
  forall pieces more, cut pieces (page_bytes pos method vmaj vmin life l ++ more) ->
  exists r, feed cf (p_init cf) m pieces = Ok (Some r) /\ r_rc r = TTrue /\ r_rest r = more /\ page_read (r_msg r) (status_code st) body (type_headers t ++ hs).
Proof.
  intros FP ML V1 V2 CD C1 C2 C3 RT RL HH NT NC MP body BL ST RQ MX MH MM NHD pieces more CU.
  assert (page_bytes pos method vmaj vmin life l = w_out (w_send pos (w_ops pos (w_respond method vmaj vmin life) l))) as EO by (unfold page_bytes, w_ops; rewrite fold_left_app; reflexivity).
  rewrite EO in CU. clear EO. set (w := w_ops pos (w_respond method vmaj vmin life) l) in *.
  destruct (page_message pos method vmaj vmin life st t hs l FP ML V1 V2 CD) as (o & E0 & EH & EF & EC & ER & EK & ELN & EV1 & EV2 & EQ & EN). fold w in E0.
  assert (collected [] l = body) as EB by (rewrite page_collected by auto; reflexivity).
  assert (forall n k v, values_of n [(k, v)] = if same_name k n then [v] else []) as V1N by (intros; unfold values_of; cbn; destruct (same_name k n); reflexivity).
  destruct (writer_round_trip pos (w_respond method vmaj vmin life) [] l cf m (created_response pos method vmaj vmin life)) with (pieces := pieces) (more := more)
    as (r & F & RC & _ & RS & VA & CO & FL & HR); fold w; rewrite ?E0; auto.
  - apply page_setup; auto.
  - unfold legal. rewrite EQ, EC, ER, EK. cbv zeta. split; [split; [lia|]; split; [exact RT|exact RL]|].
    split; [exact EV1|]. split; [exact EV2|]. split; [|constructor]. apply EF. exact HH.
  - rewrite EB. auto.
  - apply Permutation_nil, Permutation_sym. rewrite EH. unfold values_of in *. rewrite filter_app, map_app, NT. destruct t; cbn; auto.
  - intros v I. apply (Permutation_in v (EH (bs "Content-Type"))) in I. unfold values_of in I, NC. rewrite filter_app, map_app, NC, app_nil_r in I. destruct t as [t|]; [|destruct I].
    cbn in I. destruct I as [<-|[]]. apply MP. reflexivity.
  - rewrite EQ. auto.
  - rewrite EB. auto.
  - intros [_ H]. cbv zeta in H. rewrite EC in H. destruct H as [H|H]; [contradiction|lia].
  - exists r. split; auto. split; auto. split; auto. fold w in FL, HR. rewrite E0 in FL, HR. unfold headers_received in HR. rewrite EQ in FL, HR. destruct FL as (_ & _ & FC & _). destruct HR as (HC & (v & HL & HN) & HO).
    rewrite EB in CO, HN. split; [auto|]. split; [rewrite FC, EC; auto|]. split; auto. split; [exists v; auto|]. split.
    { eexists. split; [exact HC|]. destruct (keeps _); [left|right; left]; reflexivity. }
    intros n N1 N2. specialize (HO n N1 N2). rewrite EK in HO. cbn [map] in HO. destruct (same_name n (cookie_name false)); rewrite app_nil_r in HO; rewrite HO; apply EH.
Qed.

(** to a client that expects no body the page is left in the way *)
Lemma page_left pos method vmaj vmin life st t hs l cf m :
  Forall is_page l -> msgs l = status_ops st ++ type_ops t ++ map (fun h => MsgAddHeader (fst h) (snd h)) hs ->
  0 < vmaj < 65536 -> 0 <= vmin < 65536 -> 200 <= status_code st <= 999 ->
  Forall text_char (status_reason st) -> zlen (status_reason st) <= 1024 ->
  Forall header_fine (type_headers t ++ hs) -> values_of (bs "Transfer-Encoding") hs = [] ->
  let body := concat (map payload l) in
  zlen body < two64 - 1 -> 0 <= cf_max cf -> cf_request cf = false -> m_headers m = [] -> m_missing m = false -> m_req_method m = bs "HEAD" ->
  forall pieces more, cut pieces (page_bytes pos method vmaj vmin life l ++ more) ->
  exists r, feed cf (p_init cf) m pieces = Ok (Some r) /\ r_rc r = TTrue /\ r_rest r = body ++ more /\ m_code (r_msg r) = status_code st /\ content_of (r_msg r) = Ok [].
Proof.
  intros FP ML V1 V2 CD RT RL HH NT body BL MX RQ MH MM HD pieces more CU.
  assert (page_bytes pos method vmaj vmin life l = w_out (w_send pos (w_ops pos (w_respond method vmaj vmin life) l))) as EO by (unfold page_bytes, w_ops; rewrite fold_left_app; reflexivity).
  rewrite EO in CU. clear EO. set (w := w_ops pos (w_respond method vmaj vmin life) l) in *.
  destruct (page_message pos method vmaj vmin life st t hs l FP ML V1 V2 CD) as (o & E0 & EH & EF & EC & ER & EK & ELN & EV1 & EV2 & EQ & EN). fold w in E0.
  assert (collected [] l = body) as EB by (rewrite page_collected by auto; reflexivity).
  destruct (writer_left pos (w_respond method vmaj vmin life) [] l cf m (created_response pos method vmaj vmin life)) with (pieces := pieces) (more := more)
    as (r & F & RC & _ & RS & VA & CO & FL); fold w; rewrite ?E0; auto.
  - apply page_setup; auto.
  - unfold legal. rewrite EQ, EC, ER, EK. cbv zeta. split; [split; [lia|]; split; [exact RT|exact RL]|].
    split; [exact EV1|]. split; [exact EV2|]. split; [|constructor]. apply EF. exact HH.
  - rewrite ELN. reflexivity.
  - rewrite EB. auto.
  - apply Permutation_nil, Permutation_sym. rewrite EH. unfold values_of in *. rewrite filter_app, map_app, NT. destruct t; cbn; auto.
  - rewrite EQ. auto.
  - split; [exact EQ|]. left. exact HD.
  - exists r. rewrite EB in RS. split; auto. split; auto. split; auto. split; auto. fold w in FL. rewrite E0, EQ in FL. destruct FL as (_ & _ & FC & _). congruence.
Qed.

(* ------------------------------------------------------------------ the log *)

Lemma newest_all {A} n (l : list A) : zlen l <= n -> newest n l = l.
Proof. unfold newest, zlen. intros H. replace (length l - Z.to_nat n)%nat with 0%nat by lia. reflexivity. Qed.
Lemma newest_cons {A} n (x : A) l : n <= zlen l -> newest n (x :: l) = newest n l.
Proof. unfold newest, zlen. intros H. cbn [length]. replace (S (length l) - Z.to_nat n)%nat with (S (length l - Z.to_nat n)) by lia. reflexivity. Qed.
Lemma newest_len {A} n (l : list A) : 0 <= n -> zlen (newest n l) = Z.min n (zlen l).
Proof. unfold newest, zlen. intros H. rewrite skipn_length. lia. Qed.
Lemma newest_app {A} n (a b : list A) : 0 <= n -> newest n (newest n a ++ b) = newest n (a ++ b).
Proof.
  intros H. unfold newest. rewrite !app_length, skipn_length, !skipn_app, skipn_length.
  assert (forall k j (l : list A), skipn k (skipn j l) = skipn (j + k) l) as SS.
  { intros k j. induction j as [|j IH]; intros l; [reflexivity|]. destruct l; cbn [skipn plus]; [apply skipn_nil|apply IH]. }
  rewrite SS. f_equal; f_equal; lia.
Qed.

(** the count is the number of events *)
Definition log_ok (g : log) : Prop := g_num g = zlen (g_events g) /\ zlen (g_events g) < two32 /\ 0 <= g_max g < two32.
Lemma trim_newest max : 0 <= max -> forall l, zlen l <= two32 - 1 -> g_trim max (zlen l) l = Ok (newest max l, zlen (newest max l)).
Proof.
  intros M. induction l as [|x l IH]; intros HL; cbn [g_trim].
  - destruct (zlen (@nil (list Z)) >? max) eqn:E; [unfold zlen in E; cbn in E; lia|]. rewrite newest_all by (unfold zlen; cbn; lia). reflexivity.
  - rewrite zlen_cons in *. destruct (1 + zlen l >? max) eqn:E.
    + unfold wrap32. replace (1 + zlen l - 1) with (zlen l) by lia. rewrite Z.mod_small by (unfold zlen in *; lia). rewrite IH by lia. rewrite newest_cons by lia. reflexivity.
    + rewrite newest_all by (rewrite zlen_cons; lia). rewrite zlen_cons. reflexivity.
Qed.
Lemma add_newest g s : log_ok g -> g_max g < two32 - 1 -> zlen (g_events g) < two32 - 1 ->
  exists g', g_op g (GAdd s) = Ok g' /\ g_events g' = newest (g_max g) (g_events g ++ [s]) /\ g_max g' = g_max g /\ log_ok g' /\ zlen (g_events g') < two32 - 1.
Proof.
  intros (N & L & M) H1 H2. cbn [g_op]. rewrite N. unfold wrap32. rewrite Z.mod_small by (unfold zlen in *; lia).
  replace (zlen (g_events g) + 1) with (zlen (g_events g ++ [s])) by (rewrite zlen_app; reflexivity). assert (zlen (g_events g ++ [s]) <= two32 - 1) as LE by (rewrite zlen_app; change (zlen [s]) with 1; lia). rewrite trim_newest by lia.
  cbn [obind fst snd]. eexists. split; [reflexivity|]. cbn [g_events g_num g_max]. split; [reflexivity|]. split; [reflexivity|].
  unfold log_ok. cbn [g_events g_num g_max]. rewrite newest_len by lia. repeat split; lia.
Qed.
Lemma adds_newest : forall xs g, log_ok g -> g_max g < two32 - 1 -> zlen (g_events g) < two32 - 1 ->
  exists g', g_run g (map GAdd xs) = Ok g' /\ (xs <> [] -> g_events g' = newest (g_max g) (g_events g ++ xs)) /\ (xs = [] -> g_events g' = g_events g) /\ g_max g' = g_max g /\ log_ok g' /\ zlen (g_events g') < two32 - 1.
Proof.
  induction xs as [|x xs IH]; intros g K H1 H2; cbn [map g_run].
  - exists g. repeat split; auto; try congruence; apply K.
  - destruct (add_newest g x K H1 H2) as (g1 & -> & E1 & M1 & K1 & L1). cbn [obind]. rewrite <- M1 in H1. destruct (IH g1 K1 H1 L1) as (g2 & -> & E2 & E3 & M2 & K2 & L2).
    exists g2. split; [reflexivity|]. split; [|split; [discriminate|]; split; [congruence|auto]]. intros _. destruct xs as [|y xs].
    + rewrite E3, E1 by reflexivity. reflexivity.
    + rewrite E2 by discriminate. rewrite M1, E1. rewrite newest_app by (destruct K; lia). rewrite <- app_assoc. reflexivity.
Qed.
Lemma run_app_log : forall a b g, g_run g (a ++ b) = obind (g_run g a) (fun g => g_run g b).
Proof. induction a as [|x a IH]; intros b g; [reflexivity|]. cbn [app g_run]. destruct (g_op g x); cbn [obind]; auto. Qed.
(** whatever the history, with limits below the largest *)
Definition limit_ok (x : gop) : Prop := match x with GAdd _ => True | GMax n => 0 <= n < two32 - 1 end.
Lemma run_log_ok : forall l g, log_ok g -> g_max g < two32 - 1 -> zlen (g_events g) < two32 - 1 -> Forall limit_ok l ->
  exists g', g_run g l = Ok g' /\ log_ok g' /\ g_max g' < two32 - 1 /\ zlen (g_events g') < two32 - 1.
Proof.
  induction l as [|x l IH]; intros g K H1 H2 F; cbn [g_run]; [exists g; auto|]. inversion F; subst. destruct x as [s|n].
  - destruct (add_newest g s K H1 H2) as (g1 & -> & E1 & M1 & K1 & L1). cbn [obind]. apply IH; auto. lia.
  - cbn [g_op obind limit_ok] in *. unfold wrap32. rewrite Z.mod_small by lia. apply IH; cbn [g_max g_events]; auto; try lia. destruct K as (A & B & C). split; [|split]; cbn [g_max g_events g_num]; auto; lia.
Qed.
(** with the largest limit nothing is ever dropped *)
Lemma adds_all : forall xs g, g_max g = two32 - 1 -> exists g', g_run g (map GAdd xs) = Ok g' /\ g_events g' = g_events g ++ xs /\ g_max g' = two32 - 1.
Proof.
  induction xs as [|x xs IH]; intros g M; cbn [map g_run]; [exists g; rewrite app_nil_r; auto|].
  assert (g_op g (GAdd x) = Ok (mklog (g_events g ++ [x]) (wrap32 (g_num g + 1)) (g_max g))) as ->.
  { cbn [g_op]. unfold wrap32. rewrite M. pose proof (Z.mod_pos_bound (g_num g + 1) two32 ltac:(unfold two32; lia)).
    assert ((g_num g + 1) mod two32 >? two32 - 1 = false) as E by lia. destruct (g_events g ++ [x]); cbn [g_trim]; rewrite E; reflexivity. }
  cbn [obind]. destruct (IH (mklog (g_events g ++ [x]) (wrap32 (g_num g + 1)) (g_max g)) M) as (g' & -> & E & M'). exists g'. split; [reflexivity|]. split; auto. rewrite E. cbn [g_events]. rewrite <- app_assoc. reflexivity.
Qed.

(* ------------------------------------------------------------------ the echo page *)

Lemma payload_concat l : concat (map payload (concat l)) = concat (map (fun x => concat (map payload x)) l).
Proof. induction l as [|x l IH]; [reflexivity|]. cbn [concat map]. rewrite map_app, concat_app, IH. reflexivity. Qed.
Lemma terms_payload d : concat (map payload (concat (map term_ops d))) = pairs d.
Proof. rewrite payload_concat, map_map. unfold pairs. f_equal. apply map_ext. intros [k v]. unfold term_ops, line. cbn [map payload concat fst snd]. rewrite !app_nil_r, <- !app_assoc. reflexivity. Qed.
Lemma terms_page d : Forall is_page (concat (map term_ops d)).
Proof. induction d as [|p d IH]; [constructor|]. cbn [map concat]. apply Forall_app. split; auto. repeat constructor. Qed.
Lemma terms_msgs d : msgs (concat (map term_ops d)) = [].
Proof. induction d as [|p d IH]; [reflexivity|]. cbn [map concat]. exact IH. Qed.
Lemma msgs_app a b : msgs (a ++ b) = msgs a ++ msgs b.
Proof. unfold msgs. rewrite flat_map_concat_map, map_app, concat_app, <- !flat_map_concat_map. reflexivity. Qed.
