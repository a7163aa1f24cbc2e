(** C88: the answers of cookie authentication. *)
From Coq Require Import String ZArith List Bool Lia Permutation.
From Verif Require Import Base Digits AlgModel DictModel DictProofs HttpModel HttpSpec HttpHead HttpProofs HttpExamples MessageModel MessageSpec MessageProofs WriterModel WriterSpec WriterProofs
  ServerModel UserModel AuthModel ReplyModel.
Import ListNotations.
Local Arguments html : simpl never.

(** What a client is told: where to go, and the cookie, and nothing else. *)
Definition cookie_values (c : option (list Z)) (l : list (list Z)) : Prop :=
  match c with
  | None => l = [bs "pion_session_id=" ++ [34; 34] ++ bs "; Version=1; Max-Age=0"]
  | Some v => l = [bs "pion_session_id=" ++ [34] ++ v ++ [34] ++ bs "; Version=1"]
  end.
Definition told (url : list Z) (c : option (list Z)) (m : msg) : Prop :=
  m_code m = 302 /\ values_of (bs "Location") (m_headers m) = [url] /\ cookie_values c (values_of (bs "Set-Cookie") (m_headers m))
  /\ forall n, values_of n (m_headers m) <> [] -> exists k, In k [bs "Location"; bs "Set-Cookie"; bs "Connection"; bs "Content-Length"] /\ same_name n k = true.

(** an answer with this code, these headers and this body *)
Definition answer_ops (code : Z) (reason : list Z) (hs : list (list Z * list Z)) (body : list Z) : list wop :=
  [WMsg (MsgCode code); WMsg (MsgReason reason)] ++ map (fun h => WMsg (MsgAddHeader (fst h) (snd h))) hs ++ [WNoCopy body].
Lemma fold_headers pos : forall hs w, exists m, o_msg (w_msg (fold_left (w_op pos) (map (fun h => WMsg (MsgAddHeader (fst h) (snd h))) hs) w)) = m
  /\ (forall n, Permutation (values_of n (m_headers m)) (values_of n (m_headers (o_msg (w_msg w))) ++ values_of n hs))
  /\ (forall P : hdr -> Prop, Forall P (m_headers (o_msg (w_msg w))) -> Forall P hs -> Forall P (m_headers m))
  /\ m_code m = m_code (o_msg (w_msg w)) /\ m_reason m = m_reason (o_msg (w_msg w)) /\ m_cookies m = m_cookies (o_msg (w_msg w)) /\ m_clen m = m_clen (o_msg (w_msg w))
  /\ m_vmaj m = m_vmaj (o_msg (w_msg w)) /\ m_vmin m = m_vmin (o_msg (w_msg w))
  /\ o_request (w_msg (fold_left (w_op pos) (map (fun h => WMsg (MsgAddHeader (fst h) (snd h))) hs) w)) = o_request (w_msg w)
  /\ o_nolen (w_msg (fold_left (w_op pos) (map (fun h => WMsg (MsgAddHeader (fst h) (snd h))) hs) w)) = o_nolen (w_msg w).
Proof.
  induction hs as [|[k v] hs IH]; intros w; cbn [map fold_left fst snd].
  - eexists. split; [reflexivity|]. split; [intros; cbn; rewrite app_nil_r; reflexivity|]. auto 20.
  - destruct (IH (w_op pos w (WMsg (MsgAddHeader k v)))) as (m & A0 & A1 & A2 & A3 & A4 & A5 & A6 & A7 & A8 & A9 & A10). exists m. split; [exact A0|].
    assert (m_headers (o_msg (w_msg (w_op pos w (WMsg (MsgAddHeader k v))))) = d_insert pos (m_headers (o_msg (w_msg w))) (k, v)) as EH by (destruct w as [om]; destruct om as [? mm]; destruct mm; reflexivity).
    rewrite EH in A1, A2. split; [|split].
    + intros n. rewrite A1. etransitivity; [apply Permutation_app_tail, values_insert|]. rewrite values_cons. cbn [fst snd]. destruct (same_name k n); [rewrite <- app_assoc|]; reflexivity.
    + intros P F1 F2. inversion F2; subst. apply A2; auto. apply Forall_insert; auto.
    + rewrite A3, A4, A5, A6, A7, A8, A9, A10. destruct w as [om]; destruct om as [? mm]; destruct mm. cbn. auto 20.
Qed.

(** The pages shown, as written in the documents. *)
Definition found_page : list Z := bs
  " <!DOCTYPE HTML PUBLIC ""-//W3C//DTD HTML 4.01 Transitional//EN""""http://www.w3.org/TR/1999/REC-html401-19991224/loose.dtd""><HTML><HEAD><TITLE>Redirect</TITLE><META HTTP-EQUIV=""Content-Type"" CONTENT=""text/html; charset=ISO-8859-1""></HEAD><BODY><H1>302 Found.</H1></BODY></HTML> ".
Definition refused_page : list Z := bs
  " <!DOCTYPE HTML PUBLIC ""-//W3C//DTD HTML 4.01 Transitional//EN""""http://www.w3.org/TR/1999/REC-html401-19991224/loose.dtd""><HTML><HEAD><TITLE>Error</TITLE><META HTTP-EQUIV=""Content-Type"" CONTENT=""text/html; charset=ISO-8859-1""></HEAD><BODY><H1>401 Unauthorized.</H1></BODY></HTML> ".
Definition answer (pos : dpos) (method : list Z) (vmaj vmin : Z) (life : lifecycle) code reason hs body : list Z :=
  w_out (w_ops pos (w_respond method vmaj vmin life) (answer_ops code reason hs body ++ [WSend])).
Definition ours (n : list Z) : bool := same_name n (bs "Connection") || same_name n (bs "Content-Length").
Lemma answer_read pos method vmaj vmin life code reason hs body cf m :
  0 <= vmaj < 65536 -> 0 <= vmin < 65536 -> 200 <= code <= 999 -> code <> 204 -> code <> 205 -> code <> 304 -> Forall text_char reason -> zlen reason <= 1024 ->
  Forall (fun h => fst h <> [] /\ Forall token_char (fst h) /\ zlen (fst h) <= 1024 /\ Forall value_char (snd h) /\ zlen (snd h) <= 1048576) hs ->
  (forall n, ours n = true \/ same_name n (bs "Transfer-Encoding") = true \/ same_name n (bs "Content-Type") = true -> values_of n hs = []) -> 0 < zlen body <= 2000 ->
  storing cf -> cf_request cf = false -> 2000 <= cf_max cf -> m_headers m = [] -> m_missing m = false -> m_req_method m <> bs "HEAD" ->
  forall pieces more, cut pieces (answer pos method vmaj vmin life code reason hs body ++ more) ->
  exists r, feed cf (p_init cf) m pieces = Ok (Some r) /\ r_rc r = TTrue /\ r_rest r = more /\ m_valid (r_msg r) = true /\ content_of (r_msg r) = Ok body /\ m_code (r_msg r) = code /\
    forall n, ours n = false -> Permutation (values_of n (m_headers (r_msg r))) (values_of n hs).
Proof.
  intros V1 V2 CD C1 C2 C3 RT RL HH NH BL ST RQ MX MH MM NHD pieces more CU.
  set (l := answer_ops code reason hs body).
  assert (answer pos method vmaj vmin life code reason hs body = w_out (w_send pos (w_ops pos (w_respond method vmaj vmin life) l))) as EO by (unfold answer, w_ops; rewrite fold_left_app; reflexivity).
  rewrite EO in CU. clear EO. set (w := w_ops pos (w_respond method vmaj vmin life) l) in *.
  assert (exists m0, o_msg (w_msg w) = m0 /\ (forall n, Permutation (values_of n (m_headers m0)) (values_of n hs)) /\ (forall P : hdr -> Prop, Forall P hs -> Forall P (m_headers m0)) /\ m_code m0 = code /\ m_reason m0 = reason
     /\ m_cookies m0 = [] /\ m_clen m0 = 0 /\ 0 <= m_vmaj m0 < 65536 /\ 0 <= m_vmin m0 < 65536 /\ o_request (w_msg w) = false /\ o_nolen (w_msg w) = false) as (m0 & E0 & EH & EF & EC & ER & EK & ELN & EV1 & EV2 & EQ & EN).
  { assert (forall v s, w_msg (w_no_copy v s) = w_msg v) as NC by (intros v [|? ?]; [reflexivity|]; cbn [w_no_copy w_msg]; unfold w_flush; destruct (w_stream_empty v); [|destruct (w_stream v)]; reflexivity).
    unfold w, l, w_ops, answer_ops. rewrite app_assoc, !fold_left_app. cbn [fold_left]. cbn [w_op]. rewrite !NC.
    match goal with |- context [fold_left (w_op pos) (map _ hs) ?w1] => remember w1 as w2 eqn:EW2 end.
    destruct (fold_headers pos hs w2) as (mm & A0 & A1 & A2 & A3 & A4 & A5 & A6 & A7 & A8 & A9 & A10).
    assert (exists m1, o_msg (response_to method vmaj vmin) = m1 /\ m_headers m1 = [] /\ m_cookies m1 = [] /\ m_clen m1 = 0 /\ 0 <= m_vmaj m1 < 65536 /\ 0 <= m_vmin m1 < 65536
      /\ o_request (response_to method vmaj vmin) = false /\ o_nolen (response_to method vmaj vmin) = false) as (m1 & B1 & B2 & B3 & B4 & B5 & B6 & B7 & B8).
    { unfold response_to. destruct ((vmaj =? 1) && (1 <=? vmin)); [|destruct (vmaj =? 0)]; eexists; (split; [reflexivity|]);
        (split; [reflexivity|]); (split; [reflexivity|]); (split; [reflexivity|]); cbn -[Z.le Z.lt]; lia. }
    assert (m_headers (o_msg (w_msg w2)) = [] /\ m_code (o_msg (w_msg w2)) = code /\ m_reason (o_msg (w_msg w2)) = reason /\ m_cookies (o_msg (w_msg w2)) = [] /\ m_clen (o_msg (w_msg w2)) = 0
      /\ 0 <= m_vmaj (o_msg (w_msg w2)) < 65536 /\ 0 <= m_vmin (o_msg (w_msg w2)) < 65536 /\ o_request (w_msg w2) = false /\ o_nolen (w_msg w2) = false) as (D1 & D2 & D3 & D4 & D5 & D6 & D7 & D8 & D9).
    { clear A0 A1 A2 A3 A4 A5 A6 A7 A8 A9 A10. subst w2. cbn [w_op w_msg]. change (w_msg (w_respond method vmaj vmin life)) with (response_to method vmaj vmin). destruct (response_to method vmaj vmin) as [rq m1' ln chk nl]. cbn [o_msg o_request o_nolen] in *. subst m1' rq nl. destruct m1. cbn -[Z.le Z.lt] in *. subst. repeat split; auto; try lia. apply Z.mod_small. unfold two32. lia. }
    exists mm. split; [exact A0|]. split; [intros n; rewrite A1, D1; reflexivity|]. split; [intros P F; apply A2; auto; rewrite D1; constructor|]. rewrite A3, A4, A5, A6, A7, A8, A9, A10. auto 20. }
  assert (legal (w_msg w)) as LG.
  { unfold legal. rewrite EQ, E0, EC, ER, EK. cbv zeta. split; [split; [lia|]; split; [exact RT|exact RL]|].
    split; [exact EV1|]. split; [exact EV2|]. split; [|constructor]. apply EF. exact HH. }
  assert (collected [] l = body) as EB.
  { unfold l, answer_ops. clear. assert (forall hs b, collected b (map (fun h : list Z * list Z => WMsg (MsgAddHeader (fst h) (snd h))) hs ++ [WNoCopy body]) = b ++ body) as X.
    { induction hs0 as [|h hs0 IH]; intros b; [reflexivity|]. unfold collected in *. cbn [map app fold_left]. rewrite <- IH. f_equal; try apply app_nil_r. }
    unfold collected in *. cbn [app fold_left]. apply X. }
  destruct (writer_round_trip pos (w_respond method vmaj vmin life) [] l cf m (created_response pos method vmaj vmin life)) with (pieces := pieces) (more := more)
    as (r & F & RC & _ & RS & VA & CO & FL & HR); fold w; auto.
  - unfold l, answer_ops. repeat constructor. apply Forall_app. split; [|repeat constructor]. apply Forall_forall. intros o I. apply in_map_iff in I. destruct I as (h & <- & _). constructor.
  - right. rewrite E0. auto.
  - rewrite EB. unfold two64. lia.
  - rewrite E0. apply Permutation_nil, Permutation_sym. rewrite EH. rewrite NH; auto.
  - rewrite E0. intros v I. apply (Permutation_in v (EH (bs "Content-Type"))) in I. rewrite NH in I by auto. destruct I.
  - rewrite EQ. auto.
  - rewrite EB. lia.
  - intros [_ H]. cbv zeta in H. rewrite E0, EC in H. destruct H as [H|H]; [contradiction|lia].
  - exists r. split; auto. split; auto. split; auto. split; auto. split; [rewrite CO, EB; reflexivity|]. fold w in FL, HR. unfold headers_received in HR. rewrite EQ in FL, HR. destruct FL as (_ & _ & FC & _). destruct HR as (HC & (v & HL & _) & HO).
    split; [rewrite FC, E0; auto|]. intros n NO. unfold ours in NO. apply orb_false_iff in NO. destruct NO as [N1 N2]. specialize (HO n N1 N2). rewrite E0, EK in HO. cbn [map] in HO. destruct (same_name n (cookie_name false)); rewrite app_nil_r in HO; rewrite HO; apply EH.
Qed.

(** C88. The answer to a login or logout with a [url] of text (at most a megabyte) tells the client exactly the [url] and the cookie. (The claim is for every [url].) *)
Theorem C88_redirect_partial pos method vmaj vmin life url c cf m :
  0 <= vmaj < 65536 -> 0 <= vmin < 65536 ->
  url <> [] -> Forall value_char url -> zlen url <= 1048576 ->
  (forall v, c = Some v -> v <> [] /\ Forall value_char v /\ zlen v <= 1000000) ->
  storing cf -> cf_request cf = false -> 2000 <= cf_max cf -> m_headers m = [] -> m_missing m = false -> m_req_method m <> bs "HEAD" ->
  forall pieces more, cut pieces (w_out (reply pos method vmaj vmin life (CDone url c)) ++ more) ->
  exists r, feed cf (p_init cf) m pieces = Ok (Some r) /\ r_rc r = TTrue /\ r_rest r = more /\ m_valid (r_msg r) = true /\ told url c (r_msg r) /\ content_of (r_msg r) = Ok found_page.
Proof.
  intros V1 V2 NU UC UL CC ST RQ MX MH MM NH pieces more CU.
  set (cv := match c with None => delete_cookie_header AUTH_COOKIE | Some v => set_cookie_header AUTH_COOKIE v [] end).
  set (l := [WMsg (MsgCode 302); WMsg (MsgReason (bs "Found")); WMsg (MsgAddHeader (bs "Location") url); WMsg (MsgAddHeader HEADER_SET_COOKIE cv); WNoCopy (html (bs "Redirect") (bs "302 Found."))]).
  assert (reply_ops (CDone url c) = l) as EL.
  { unfold l, cv. destruct url as [|u0 url]; [congruence|]. destruct c as [[|v0 v]|]; [destruct (CC [] eq_refl); congruence|reflexivity|reflexivity]. }
  assert (w_out (reply pos method vmaj vmin life (CDone url c)) = w_out (w_send pos (w_ops pos (w_respond method vmaj vmin life) l))) as EO.
  { unfold reply, w_ops. rewrite EL, fold_left_app. reflexivity. }
  rewrite EO in CU. clear EO EL.
  set (w := w_ops pos (w_respond method vmaj vmin life) l) in *.
  assert (exists m0, o_msg (w_msg w) = m0 /\ m_headers m0 = d_insert pos (d_insert pos [] (bs "Location", url)) (HEADER_SET_COOKIE, cv) /\ m_code m0 = 302 /\ m_reason m0 = bs "Found"
     /\ m_cookies m0 = [] /\ m_clen m0 = 0 /\ 0 <= m_vmaj m0 < 65536 /\ 0 <= m_vmin m0 < 65536 /\ o_request (w_msg w) = false /\ o_nolen (w_msg w) = false) as (m0 & E0 & EH & EC & ER & EK & ELN & EV1 & EV2 & EQ & EN).
  { assert (forall v s, w_msg (w_no_copy v s) = w_msg v) as NC by (intros v [|? ?]; [reflexivity|]; cbn [w_no_copy w_msg]; unfold w_flush; destruct (w_stream_empty v); [|destruct (w_stream v)]; reflexivity).
    unfold w, l, w_ops. cbn [fold_left w_op w_msg]. rewrite !NC. cbn [w_msg]. change (w_msg (w_respond method vmaj vmin life)) with (response_to method vmaj vmin).
    assert (exists m1, o_msg (response_to method vmaj vmin) = m1 /\ m_headers m1 = [] /\ m_cookies m1 = [] /\ m_clen m1 = 0 /\ 0 <= m_vmaj m1 < 65536 /\ 0 <= m_vmin m1 < 65536
      /\ o_request (response_to method vmaj vmin) = false /\ o_nolen (response_to method vmaj vmin) = false) as (m1 & A1 & A2 & A3 & A4 & A5 & A6 & A7 & A8).
    { unfold response_to. destruct ((vmaj =? 1) && (1 <=? vmin)); [|destruct (vmaj =? 0)]; eexists; (split; [reflexivity|]);
        (split; [reflexivity|]); (split; [reflexivity|]); (split; [reflexivity|]); cbn -[Z.le Z.lt]; lia. }
    destruct (response_to method vmaj vmin) as [rq m1' ln chk nl]. cbn [o_msg o_request o_nolen] in *. subst m1' rq nl. destruct m1. cbn -[Z.le Z.lt d_insert] in *. subst.
    eexists. split; [reflexivity|]. cbn -[Z.le Z.lt d_insert]. auto 20. }
  assert (Forall value_char cv /\ zlen cv <= 1048576) as [CV1 CV2].
  { unfold cv. destruct c as [v|].
    - destruct (CC v eq_refl) as (_ & A & B). unfold set_cookie_header. split.
      + repeat (apply Forall_app; split); auto; apply value_chars; vm_compute; reflexivity.
      + rewrite !zlen_app. assert (zlen AUTH_COOKIE = 15 /\ zlen (bs "=") = 1 /\ zlen [34] = 1 /\ zlen (bs "; Version=1") = 11 /\ zlen (@nil Z) = 0) as (-> & -> & -> & -> & ->) by (vm_compute; auto). lia.
    - split; [apply value_chars; vm_compute; reflexivity|vm_compute; discriminate]. }
  assert (legal (w_msg w)) as LG.
  { unfold legal. rewrite EQ, E0, EC, ER, EK, EH. cbv zeta. split; [split; [lia|]; split; [apply (forallb_Forall (fun c => (32 <=? c) && (c <? 256) && negb (c =? 127))); [intros; unfold text_char; lia|vm_compute; reflexivity]|vm_compute; discriminate]|].
    split; auto. split; auto. split; [|constructor]. apply Forall_insert; [apply Forall_insert; [constructor|]|]; (split; [discriminate|]); cbn [fst snd];
      (split; [apply token_chars; vm_compute; reflexivity|]); (split; [vm_compute; discriminate|auto]). }
  assert (forall n, Permutation (values_of n (m_headers m0)) ((if same_name (bs "Location") n then [url] else []) ++ (if same_name HEADER_SET_COOKIE n then [cv] else []))) as VL.
  { intros n. rewrite EH. etransitivity; [apply values_insert|]. assert (values_of n (d_insert pos [] (bs "Location", url)) = if same_name (bs "Location") n then [url] else []) as ->.
    { destruct (same_name (bs "Location") n) eqn:E; [apply Permutation_length_1_inv, Permutation_sym|apply Permutation_nil, Permutation_sym]; etransitivity; try apply values_insert; rewrite E; reflexivity. }
    destruct (same_name HEADER_SET_COOKIE n), (same_name (bs "Location") n); reflexivity. }
  assert (collected [] l = html (bs "Redirect") (bs "302 Found.")) as EB by reflexivity.
  destruct (writer_round_trip pos (w_respond method vmaj vmin life) [] l cf m (created_response pos method vmaj vmin life)) with (pieces := pieces) (more := more)
    as (r & F & RC & _ & RS & VA & CO & FL & HR); fold w; auto.
  - repeat constructor.
  - right. rewrite E0. auto.
  - rewrite EB. vm_compute. reflexivity.
  - rewrite E0. apply Permutation_nil, Permutation_sym, VL.
  - rewrite E0. intros v I. apply (Permutation_in v (VL (bs "Content-Type"))) in I. destruct I.
  - rewrite EQ. auto.
  - rewrite EB. assert (zlen (html (bs "Redirect") (bs "302 Found.")) <= 2000) by (vm_compute; discriminate). lia.
  - intros [_ H]. cbv zeta in H. rewrite E0, EC in H. destruct H as [H|H]; [contradiction|lia].
  - exists r. split; auto. split; auto. split; auto. split; auto. fold w in FL, HR. unfold headers_received in HR. rewrite EQ in FL, HR. destruct FL as (_ & _ & FC & _). destruct HR as (HC & (v & HL & _) & HO).
    assert (forall n, same_name n (bs "Connection") = false -> same_name n (bs "Content-Length") = false ->
      Permutation (values_of n (m_headers (r_msg r))) ((if same_name (bs "Location") n then [url] else []) ++ (if same_name HEADER_SET_COOKIE n then [cv] else []))) as VR.
    { intros n N1 N2. specialize (HO n N1 N2). rewrite E0, EK in HO. cbn [map] in HO. destruct (same_name n (cookie_name false)); rewrite app_nil_r in HO; rewrite HO; apply VL. }
    split; [|rewrite CO, EB; vm_compute; reflexivity]. split; [rewrite FC, E0; auto|]. split; [|split].
    + apply Permutation_length_1_inv, Permutation_sym. apply (VR (bs "Location")); reflexivity.
    + assert (values_of (bs "Set-Cookie") (m_headers (r_msg r)) = [cv]) as -> by (apply Permutation_length_1_inv, Permutation_sym; apply (VR (bs "Set-Cookie")); reflexivity).
      unfold cv. destruct c; reflexivity.
    + intros n NE. destruct (same_name n (bs "Connection")) eqn:N1; [exists (bs "Connection"); split; [right; right; left|]; auto|].
      destruct (same_name n (bs "Content-Length")) eqn:N2; [exists (bs "Content-Length"); split; [right; right; right; left|]; auto|].
      specialize (VR n N1 N2). destruct (same_name (bs "Location") n) eqn:N3; [exists (bs "Location"); split; [left; auto|rewrite same_name_sym; auto]|].
      destruct (same_name HEADER_SET_COOKIE n) eqn:N4; [exists (bs "Set-Cookie"); split; [right; left; auto|rewrite same_name_sym; auto]|].
      exfalso. apply NE, Permutation_nil, Permutation_sym. exact VR.
Qed.
Print Assumptions C88_redirect_partial.

(** The answer to a request without session: to the login page, or 401; no cookie is set. *)
Theorem C88_login_page_partial pos method vmaj vmin life url cf m :
  0 <= vmaj < 65536 -> 0 <= vmin < 65536 -> Forall value_char url -> zlen url <= 1048576 ->
  storing cf -> cf_request cf = false -> 2000 <= cf_max cf -> m_headers m = [] -> m_missing m = false -> m_req_method m <> bs "HEAD" ->
  forall pieces more, cut pieces (w_out (reply pos method vmaj vmin life (CRedirect url)) ++ more) ->
  exists r, feed cf (p_init cf) m pieces = Ok (Some r) /\ r_rc r = TTrue /\ r_rest r = more /\ m_valid (r_msg r) = true /\ content_of (r_msg r) = Ok found_page /\ m_code (r_msg r) = 302 /\
    values_of (bs "Location") (m_headers (r_msg r)) = [url] /\ forall n, same_name n (bs "Location") = false -> ours n = false -> values_of n (m_headers (r_msg r)) = [].
Proof.
  intros V1 V2 UC UL ST RQ MX MH MM NH pieces more CU.
  destruct (answer_read pos method vmaj vmin life 302 (bs "Found") [(bs "Location", url)] (html (bs "Redirect") (bs "302 Found.")) cf m) with (pieces := pieces) (more := more) as (r & A & B & C & D & CO & E & F); auto; try lia.
  - apply (forallb_Forall (fun c => (32 <=? c) && (c <? 256) && negb (c =? 127))); [intros; unfold text_char; lia|vm_compute; reflexivity].
  - vm_compute. discriminate.
  - constructor; [|constructor]. cbn [fst snd]. split; [discriminate|]. split; [apply token_chars; vm_compute; reflexivity|]. split; [vm_compute; discriminate|]. split; [exact UC | exact UL].
  - intros n H. rewrite values_cons. cbn [fst]. destruct (same_name (bs "Location") n) eqn:L; [|reflexivity]. exfalso. unfold ours in H. rewrite !(same_name_sym n) in H. rewrite orb_true_iff in H.
    assert (forall k, same_name k n = true -> same_name k (bs "Location") = true) as T by (intros k K; rewrite <- (same_name_trans _ _ (bs "Location") K), same_name_sym; exact L).
    destruct H as [[H|H]|[H|H]]; apply T in H; vm_compute in H; discriminate.
  - vm_compute. split; [reflexivity|discriminate].
  - exists r. split; auto. split; auto. split; auto. split; auto. split; [rewrite CO; vm_compute; reflexivity|]. split; auto. split.
    + apply Permutation_length_1_inv, Permutation_sym. apply (F (bs "Location")). reflexivity.
    + intros n N O. specialize (F n O). rewrite values_cons in F. cbn [fst] in F. rewrite (same_name_sym (bs "Location")), N in F. apply Permutation_nil, Permutation_sym. exact F.
Qed.
Print Assumptions C88_login_page_partial.
Theorem C88_refused pos method vmaj vmin life cf m :
  0 <= vmaj < 65536 -> 0 <= vmin < 65536 ->
  storing cf -> cf_request cf = false -> 2000 <= cf_max cf -> m_headers m = [] -> m_missing m = false -> m_req_method m <> bs "HEAD" ->
  forall pieces more, cut pieces (w_out (reply pos method vmaj vmin life CUnauthorized) ++ more) ->
  exists r, feed cf (p_init cf) m pieces = Ok (Some r) /\ r_rc r = TTrue /\ r_rest r = more /\ m_valid (r_msg r) = true /\ content_of (r_msg r) = Ok refused_page /\ m_code (r_msg r) = 401 /\
    forall n, ours n = false -> values_of n (m_headers (r_msg r)) = [].
Proof.
  intros V1 V2 ST RQ MX MH MM NH pieces more CU.
  destruct (answer_read pos method vmaj vmin life 401 (bs "Unauthorized") [] (html (bs "Error") (bs "401 Unauthorized.")) cf m) with (pieces := pieces) (more := more) as (r & A & B & C & D & CO & E & F); auto; try lia.
  - apply (forallb_Forall (fun c => (32 <=? c) && (c <? 256) && negb (c =? 127))); [intros; unfold text_char; lia|vm_compute; reflexivity].
  - vm_compute. discriminate.
  - vm_compute. split; [reflexivity|discriminate].
  - exists r. split; auto. split; auto. split; auto. split; auto. split; [rewrite CO; vm_compute; reflexivity|]. split; auto. intros n O. apply Permutation_nil, Permutation_sym. exact (F n O).
Qed.
Print Assumptions C88_refused.
Example C88_page_case : Forall value_char (bs "/login.html") /\ exists r,
  feed (ex_cf false false) (p_init (ex_cf false false)) msg_init [w_out (reply (fun _ _ => 0%nat) (bs "GET") 1 1 LKeep (CRedirect (bs "/login.html"))) ++ bs "x"] = Ok (Some r) /\ r_rest r = bs "x".
Proof.
  split; [apply value_chars; vm_compute; reflexivity|]. set (o := feed _ _ _ _). assert (match o with Ok (Some r) => r_rest r = bs "x" | _ => False end) as H by (vm_compute; reflexivity).
  destruct o as [[r|]|]; try contradiction. exists r. auto.
Qed.

(** A [url] is decoded before it is put in the header, so that the one who makes the link makes headers of the answer. *)
Definition pos1 : dpos := fun _ _ => 0%nat.
Definition link : list Z := bs "GET /logout?url=/%0D%0ASet-Cookie:%20id=evil HTTP/1.1" ++ CRLF ++ CRLF.
Definition link_msg : msg := match parse (ex_cf true false) (p_init (ex_cf true false)) msg_init link with Ok (Some r) => r_msg r | _ => msg_init end.
Definition link_answer : option cresp :=
  match cookie_handle (mkbuild false (fun _ => []) (fun _ => [])) 0 [] (a_init 0 (bs "/login") (bs "/logout") []) link_msg with Ok (_, _, _, x) => x | _ => None end.
Definition every_url : Prop := forall cf s r b t rnd w w' url c,
  parse cf (p_init cf) msg_init s = Ok (Some r) -> r_rc r = TTrue -> cookie_handle b t rnd w (r_msg r) = Ok (false, None, w', Some (CDone url c)) -> url <> [] ->
  forall pos life cfr r', storing cfr -> cf_request cfr = false -> 2000 <= cf_max cfr ->
  feed cfr (p_init cfr) msg_init [w_out (reply pos (m_method (r_msg r)) (m_vmaj (r_msg r)) (m_vmin (r_msg r)) life (CDone url c))] = Ok (Some r') -> told url c (r_msg r').
Definition evil : list Z := bs "/" ++ CRLF ++ bs "Set-Cookie: id=evil".
Lemma ok_some {A} (o : outcome (option A)) (P : A -> Prop) : match o with Ok (Some r) => P r | _ => False end -> exists r, o = Ok (Some r) /\ P r.
Proof. destruct o as [[r|]|]; try contradiction. exists r. auto. Qed.
Theorem C88_every_url_refuted : ~ every_url.
Proof.
  intros H.
  destruct (ok_some (parse (ex_cf true false) (p_init (ex_cf true false)) msg_init link) (fun r => r_rc r = TTrue /\ r_msg r = link_msg) ltac:(vm_compute; auto)) as (r & P & RC & RM).
  specialize (H (ex_cf true false) link r (mkbuild false (fun _ => []) (fun _ => [])) 0 [] (a_init 0 (bs "/login") (bs "/logout") []) (a_init 0 (bs "/login") (bs "/logout") []) evil None P RC).
  rewrite RM in H.
  destruct (ok_some (feed (ex_cf false false) (p_init (ex_cf false false)) msg_init [w_out (reply pos1 (m_method link_msg) (m_vmaj link_msg) (m_vmin link_msg) LKeep (CDone evil None))])
    (fun r' => List.length (values_of (bs "Set-Cookie") (m_headers (r_msg r'))) = 2%nat) ltac:(vm_compute; reflexivity)) as (r' & F & L).
  refine (_ (H _ _ pos1 LKeep (ex_cf false false) r' _ _ _ F)).
  - intros (_ & _ & X & _). cbn [cookie_values] in X. rewrite X in L. discriminate.
  - vm_compute. reflexivity.
  - discriminate.
  - repeat split; vm_compute; congruence.
  - reflexivity.
  - vm_compute. discriminate.
Qed.
Print Assumptions C88_every_url_refuted.
Example C88_case : Forall value_char (bs "/start?a=b") /\ exists r,
  feed (ex_cf false false) (p_init (ex_cf false false)) msg_init [w_out (reply pos1 (bs "GET") 1 1 LKeep (CDone (bs "/start?a=b") (Some (bs "AQI=")))) ++ bs "x"] = Ok (Some r)
  /\ values_of (bs "Location") (m_headers (r_msg r)) = [bs "/start?a=b"] /\ r_rest r = bs "x".
Proof.
  split; [apply value_chars; vm_compute; reflexivity|].
  destruct (ok_some (feed (ex_cf false false) (p_init (ex_cf false false)) msg_init [w_out (reply pos1 (bs "GET") 1 1 LKeep (CDone (bs "/start?a=b") (Some (bs "AQI=")))) ++ bs "x"])
    (fun r => values_of (bs "Location") (m_headers (r_msg r)) = [bs "/start?a=b"] /\ r_rest r = bs "x") ltac:(vm_compute; auto)) as (r & E & Q). exists r. auto.
Qed.
