(** C36-C39, C87: connections, requests in a row, dispatch. *)
From Coq Require Import String ZArith List Bool Lia.
From Verif Require Import Base DictModel DictProofs HttpModel HttpSpec HttpExamples MessageModel WriterModel ReaderModel ReaderSpec ReaderProofs SMap ServerModel ServerSpec ServerProofs.
Import ListNotations.

(** C36. A reader that gets the bytes [s] (the bytes left from the message before, then any pieces) finishes with success if
    they hold a message, and the connection is kept open if the message is HTTP/1.1 or later and no Connection header has
    the value close, and closed if every one has, or the message is older. (Other spellings of close,
    and Connection headers that differ: see below.) *)
Theorem C36_finished_partial cf m0 pieces life saved tail s r :
  0 <= cf_max cf -> cut (pend life saved ++ pieces) s -> s <> [] -> parse cf (p_init cf) m0 s = Ok (Some r) -> r_rc r = TTrue ->
  exists x, r_receive cf (p_init cf) m0 life saved (map RData pieces ++ tail) = Ok (Some x)
    /\ rr_fin x = Some None /\ rr_msg x = r_msg r /\ m_valid (rr_msg x) = true
    /\ (stays (r_msg r) -> keeps (rr_life x) = true) /\ (leaves (r_msg r) -> keeps (rr_life x) = false)
    /\ (keeps (rr_life x) = true -> at_least_1_1 (r_msg r)
         /\ (values_of (bs "Connection") (m_headers (r_msg r)) = [] \/ ~ Forall (eq (bs "close")) (values_of (bs "Connection") (m_headers (r_msg r)))))
    /\ (rr_life x = LPipelined -> rr_saved x <> []).
Proof. intros. eapply reader_done; eauto. Qed.
Print Assumptions C36_finished_partial.
(** Bytes that are no message: the error of the parser is reported, the message is invalid, the connection is closed. *)
Theorem C36_refused cf m0 pieces life saved tail s r :
  0 <= cf_max cf -> cut (pend life saved ++ pieces) s -> s <> [] -> parse cf (p_init cf) m0 s = Ok (Some r) -> r_rc r = TFalse ->
  exists x e, r_receive cf (p_init cf) m0 life saved (map RData pieces ++ tail) = Ok (Some x)
    /\ rr_fin x = Some (Some (EParse e)) /\ m_valid (rr_msg x) = false /\ keeps (rr_life x) = false.
Proof. intros. eapply reader_refused; eauto. Qed.
Print Assumptions C36_refused.
(** A message not finished: the connection is not kept; a server never takes the rest of a request for granted. *)
Theorem C36_unfinished cf m0 pieces life saved tail s r x :
  0 <= cf_max cf -> cut (pend life saved ++ pieces) s -> s <> [] -> parse cf (p_init cf) m0 s = Ok (Some r) -> r_rc r = TIndet ->
  tail = [] \/ (exists t, tail = RFail :: t) \/ (exists t, tail = RData [] :: t) ->
  r_receive cf (p_init cf) m0 life saved (map RData pieces ++ tail) = Ok (Some x) ->
  keeps (rr_life x) = false /\ (tail = [] -> rr_fin x = None) /\ (tail <> [] -> rr_fin x = Some None -> cf_request cf = false).
Proof. intros. eapply reader_unfinished; eauto. Qed.
Print Assumptions C36_unfinished.

Lemma ok_some {A} (o : outcome (option A)) (P : A -> Prop) : match o with Ok (Some r) => P r | _ => False end -> exists r, o = Ok (Some r) /\ P r.
Proof. destruct o as [[r|]|]; try contradiction. exists r. auto. Qed.
Definition get_keep : list Z := bs "GET /a HTTP/1.1" ++ CRLF ++ bs "Host: h" ++ CRLF ++ CRLF.
Definition get_close : list Z := bs "GET /b HTTP/1.1" ++ CRLF ++ bs "Connection: close" ++ CRLF ++ CRLF.
Definition get_Close : list Z := bs "GET /b HTTP/1.1" ++ CRLF ++ bs "Connection: Close" ++ CRLF ++ CRLF.
Definition get_10 : list Z := bs "GET /c HTTP/1.0" ++ CRLF ++ CRLF.
Definition post_keep : list Z := bs "POST /d HTTP/1.1" ++ CRLF ++ bs "Content-Length: 3" ++ CRLF ++ CRLF ++ bs "xyz".
Definition not_http : list Z := bs "GET /e FTP/1.1" ++ CRLF.
Definition rcf : pcfg := ex_cf true false.
Definition msg_of (s : list Z) : msg := match parse rcf (p_init rcf) msg_init s with Ok (Some r) => r_msg r | _ => msg_init end.
Definition rc_of (s : list Z) : tri := match parse rcf (p_init rcf) msg_init s with Ok (Some r) => r_rc r | _ => TIndet end.

Example C36_case : rc_of get_keep = TTrue /\ stays (msg_of get_keep) /\ rc_of get_close = TTrue /\ leaves (msg_of get_close)
  /\ rc_of get_10 = TTrue /\ leaves (msg_of get_10) /\ rc_of not_http = TFalse /\ rc_of (bs "GET /") = TIndet
  /\ cut (pend LPipelined (bs "GE") ++ [bs "T /"]) (bs "GET /").
Proof.
  split; [vm_compute; reflexivity|]. split; [split; [vm_compute; tauto|right; vm_compute; split; [reflexivity|discriminate]]|].
  split; [vm_compute; reflexivity|]. split; [right; split; [vm_compute; discriminate|vm_compute; repeat constructor]|].
  split; [vm_compute; reflexivity|]. split; [left; vm_compute; intros [H|[_ H]]; [discriminate|apply H; reflexivity]|].
  split; [vm_compute; reflexivity|]. split; [vm_compute; reflexivity|]. split; [repeat constructor; discriminate|reflexivity].
Qed.

(** The option is compared with its case (HTTP has it without): a request that says Close is kept open. *)
Theorem C36_any_case_refuted : ~ (forall cf m0 pieces s r x, 0 <= cf_max cf -> cut pieces s -> parse cf (p_init cf) m0 s = Ok (Some r) -> r_rc r = TTrue ->
  says_close (r_msg r) -> r_receive cf (p_init cf) m0 LClose [] (map RData pieces) = Ok (Some x) -> keeps (rr_life x) = false).
Proof.
  intros H.
  destruct (ok_some (parse rcf (p_init rcf) msg_init get_Close) (fun r => r_rc r = TTrue /\ values_of (bs "Connection") (m_headers (r_msg r)) = [bs "Close"])
    ltac:(vm_compute; auto)) as (r & E1 & W1 & W2).
  destruct (ok_some (r_receive rcf (p_init rcf) msg_init LClose [] (map RData [get_Close])) (fun x => keeps (rr_life x) = true) ltac:(vm_compute; auto)) as (x & E2 & W3).
  assert (keeps (rr_life x) = false) as N; [|rewrite N in W3; discriminate].
  refine (H rcf msg_init [get_Close] get_Close r x _ _ E1 W1 _ E2).
  - vm_compute. discriminate.
  - split; [repeat constructor; discriminate|]. cbn [concat]. rewrite app_nil_r. reflexivity.
  - exists (bs "Close"). rewrite W2. split; [left; reflexivity|reflexivity].
Qed.
Print Assumptions C36_any_case_refuted.
(** All cases: the connection is kept open exactly when the message is HTTP/1.1 or later and the first of its Connection headers, in the
    order of the table, is not close; without one it is kept open. *)
Theorem C36_first_decides_partial cf m0 pieces life saved tail s r :
  0 <= cf_max cf -> cut (pend life saved ++ pieces) s -> s <> [] -> parse cf (p_init cf) m0 s = Ok (Some r) -> r_rc r = TTrue ->
  exists x, r_receive cf (p_init cf) m0 life saved (map RData pieces ++ tail) = Ok (Some x)
    /\ (keeps (rr_life x) = true <-> at_least_1_1 (r_msg r) /\ forall v l, values_of (bs "Connection") (m_headers (r_msg r)) = v :: l -> v <> bs "close").
Proof.
  intros HM HC HS HP T. destruct (one_feed cf m0 pieces life saved s r HM HC HS HP) as (r' & F1 & F2 & F3 & F4 & F5 & F6 & F7).
  pose proof (r_receive_feed cf tail (p_init cf) m0 life saved pieces (proj1 HC)) as RF. rewrite F1, F2, T in RF.
  destruct RF as (l & sv & ps & RF & NE & K1 & K2). rewrite F4 in *. eexists. split; [exact RF|]. cbn [rr_life]. split.
  - intros K. destruct (check_keep_alive (r_msg r)) eqn:E; [|rewrite K2 in K; [discriminate|auto]].
    apply keep_alive_true in E as [V C]. split; auto. intros v q Q. rewrite Q in C. destruct C as [C|(v' & q' & C & N)]; [discriminate|]. injection C as -> _. exact N.
  - intros [V C]. assert (check_keep_alive (r_msg r) = true) as E; [|destruct (K1 E) as [N _]; destruct l; auto; congruence].
    unfold check_keep_alive, d_get. change HEADER_CONNECTION with (bs "Connection"). rewrite find_values. apply andb_true_intro. split.
    + destruct (values_of _ _) as [|v q]; [reflexivity|]. destruct (str_eqb v (bs "close")) eqn:Q; auto. apply str_eqb_eq in Q. subst. exfalso. exact (C _ _ eq_refl eq_refl).
    + unfold at_least_1_1 in V. lia.
Qed.
Print Assumptions C36_first_decides_partial.
(** So one header that says close is not enough, where another comes before it in the table. *)
Definition get_both : list Z := bs "GET /b HTTP/1.1" ++ CRLF ++ bs "Connection: close" ++ CRLF ++ bs "Connection: Upgrade" ++ CRLF ++ CRLF.
Theorem C36_any_header_refuted : ~ (forall cf m0 pieces s r x, 0 <= cf_max cf -> cut pieces s -> parse cf (p_init cf) m0 s = Ok (Some r) -> r_rc r = TTrue ->
  In (bs "close") (values_of (bs "Connection") (m_headers (r_msg r))) -> r_receive cf (p_init cf) m0 LClose [] (map RData pieces) = Ok (Some x) -> keeps (rr_life x) = false).
Proof.
  intros H.
  destruct (ok_some (parse rcf (p_init rcf) msg_init get_both) (fun r => r_rc r = TTrue /\ values_of (bs "Connection") (m_headers (r_msg r)) = [bs "Upgrade"; bs "close"])
    ltac:(vm_compute; auto)) as (r & E1 & W1 & W2).
  destruct (ok_some (r_receive rcf (p_init rcf) msg_init LClose [] (map RData [get_both])) (fun x => keeps (rr_life x) = true) ltac:(vm_compute; auto)) as (x & E2 & W3).
  assert (keeps (rr_life x) = false) as N; [|rewrite N in W3; discriminate].
  refine (H rcf msg_init [get_both] get_both r x _ _ E1 W1 _ E2).
  - vm_compute. discriminate.
  - split; [repeat constructor; discriminate|]. cbn [concat]. rewrite app_nil_r. reflexivity.
  - rewrite W2. right. left. reflexivity.
Qed.
Print Assumptions C36_any_header_refuted.
(** The blocking [message::receive] does not close on an error: lifecycle and unread bytes are as before the call. *)
Theorem C36_receive_error_refuted : ~ (forall cf life saved evs r,
  m_receive cf life saved evs = Ok (Some (Some r)) -> mr_ok r = false -> keeps (mr_life r) = false).
Proof.
  intros H.
  destruct (ok_some (m_receive rcf LPipelined not_http []) (fun o => match o with Some r => mr_ok r = false /\ keeps (mr_life r) = true | None => False end) ltac:(vm_compute; auto)) as (o & E & W).
  destruct o as [r|]; [|contradiction]. destruct W as [W1 W2]. rewrite (H _ _ _ _ _ E W1) in W2. discriminate.
Qed.
Print Assumptions C36_receive_error_refuted.
Theorem C36_receive_error_partial cf life saved evs r :
  m_receive cf life saved evs = Ok (Some (Some r)) -> mr_ok r = false -> mr_life r = life /\ mr_saved r = saved.
Proof. exact (receive_fail cf life saved evs r). Qed.
Print Assumptions C36_receive_error_partial.

(** C37. A connection that receives the bytes [s], cut into reads in any way, and then nothing or an error: what [story] tells
    happens. The handler is called for each request in turn with the request as received alone, until one closes the
    connection; bytes that are no request go to the handler for bad requests. *)
Theorem C37_requests_in_order cf go s tail l open pieces :
  0 <= cf_max cf -> cf_request cf = true -> story cf go [] s tail l open -> cut pieces s ->
  serve_all cf go (map RData pieces ++ tail) = Ok (Some (l, open)).
Proof. exact (serve_all_story cf go s tail l open pieces). Qed.
Print Assumptions C37_requests_in_order.
(** For all bytes, with or without a story: where the reads cut them makes no difference. *)
Theorem C37_any_cut cf go tail s pieces1 pieces2 :
  0 <= cf_max cf -> cf_request cf = true -> tail = [] \/ (exists t, tail = RFail :: t) -> cut pieces1 s -> cut pieces2 s ->
  serve_all cf go (map RData pieces1 ++ tail) = serve_all cf go (map RData pieces2 ++ tail).
Proof. exact (serve_segmentation cf go tail s pieces1 pieces2). Qed.
Print Assumptions C37_any_cut.
Lemma rcf_whole s : match parse rcf (p_init rcf) msg_init s with Ok (Some r) => r_rc r = TTrue /\ r_rest r = [] | _ => False end -> whole rcf s (msg_of s).
Proof. intros W. destruct (ok_some _ _ W) as (r & E & A & B). exists r. unfold msg_of. rewrite E. auto. Qed.
Example C37_case : story rcf (fun _ => true) [] (get_keep ++ post_keep ++ get_close ++ get_keep) []
  [SHandled (msg_of get_keep); SHandled (msg_of post_keep); SHandled (msg_of get_close)] false
  /\ m_resource (msg_of post_keep) = bs "/d" /\ content_of (msg_of post_keep) = Ok (bs "xyz").
Proof.
  split; [|vm_compute; auto].
  assert (forall s, m_vmaj (msg_of s) = 1 -> m_vmin (msg_of s) = 1 -> values_of (bs "Connection") (m_headers (msg_of s)) = [] -> stays (msg_of s)) as ST.
  { intros s A B C. split; [rewrite C; auto|right]. lia. }
  apply story_request with (m := msg_of get_keep); [discriminate|apply rcf_whole; vm_compute; auto|apply ST; vm_compute; reflexivity|reflexivity|].
  apply story_request with (m := msg_of post_keep); [discriminate|apply rcf_whole; vm_compute; auto|apply ST; vm_compute; reflexivity|reflexivity|].
  apply (story_last _ _ [SHandled (msg_of get_keep); SHandled (msg_of post_keep)] get_close (msg_of get_close) get_keep);
    [discriminate|apply rcf_whole; vm_compute; auto|].
  left. apply C36_case.
Qed.

(** C87. Successive blocking [receive] calls on a connection return the messages sent, in order, however the bytes are cut. *)
Theorem C87_receive_in_order cf tail ws ms more pieces :
  0 <= cf_max cf -> Forall2 (whole_cleared cf) ws ms -> Forall (fun w => w <> []) ws -> Forall stays ms -> cut pieces (concat ws ++ more) ->
  exists l, m_receive_all (List.length ws) cf LClose [] (map RData pieces ++ tail) = Ok (Some l)
    /\ map mr_msg l = ms /\ Forall (fun r => mr_ok r = true /\ mr_err r = None) l.
Proof. exact (receive_in_order_cut cf tail ws ms more pieces). Qed.
Print Assumptions C87_receive_in_order.
Example C87_case : exists ms, Forall2 (whole_cleared rcf) [get_keep; post_keep; get_keep] ms /\ Forall stays ms /\ map m_resource ms = [bs "/a"; bs "/d"; bs "/a"].
Proof.
  set (mo := fun s => match parse rcf (p_init rcf) (set_m_method [] msg_init) s with Ok (Some r) => r_msg r | _ => msg_init end).
  assert (forall s, match parse rcf (p_init rcf) (set_m_method [] msg_init) s with Ok (Some r) => r_rc r = TTrue /\ r_rest r = [] | _ => False end -> whole_cleared rcf s (mo s)) as W.
  { intros s W. destruct (ok_some _ _ W) as (r & E & A & B). exists r. unfold mo. rewrite E. auto. }
  assert (forall s, m_vmaj (mo s) = 1 -> m_vmin (mo s) = 1 -> values_of (bs "Connection") (m_headers (mo s)) = [] -> stays (mo s)) as ST.
  { intros s A B C. split; [rewrite C; auto|right]. lia. }
  exists (map mo [get_keep; post_keep; get_keep]). split; [|split].
  - cbn [map]. constructor; [apply W; vm_compute; auto|]. constructor; [apply W; vm_compute; auto|]. constructor; [apply W; vm_compute; auto|constructor].
  - cbn [map]. constructor; [apply ST; vm_compute; reflexivity|]. constructor; [apply ST; vm_compute; reflexivity|]. constructor; [apply ST; vm_compute; reflexivity|constructor].
  - vm_compute. reflexivity.
Qed.

(** C38. A request for a resource that ends, after at most ten redirects, at [q] (one trailing slash does not count): the
    handler of the longest registered name that is [q] or a directory above it is called; if there is none, the handler
    for resources not found. If the handler throws, the handler for server errors follows. *)
Theorem C38_longest_name ops throws m c n q :
  m_valid m = true -> cleaned (m_resource m) c -> leads ops n c q -> (n <= 10)%nat -> (forall b, ~ redirected ops q b) ->
  exists o m', best ops q o /\ handle_request (t_run ops) None throws None tt m =
    Ok (match o with Some h => if throws h then [AHandler h; AServerError] else [AHandler h] | None => [ANotFound] end, m', tt).
Proof. exact (dispatch_longest ops throws tt m c n q). Qed.
Print Assumptions C38_longest_name.
Definition ops1 : list top := [TAdd (bs "/a") 1%nat; TAdd (bs "/a-b") 2%nat; TAdd (bs "/a/b/") 3%nat; TAdd (bs "/a/b") 4%nat; TAdd (bs "/") 5%nat; TRemove (bs "/a-b/")].
Definition ask (r : list Z) : msg := set_m_resource r (set_m_valid true msg_init).
Definition acts {W} (o : outcome (list hact * msg * W)) : list hact := match o with Ok (l, _, _) => l | _ => [] end.
Example C38_case : leads ops1 0 (bs "/a/b/c") (bs "/a/b/c") /\ (forall b, ~ redirected ops1 (bs "/a/b/c") b)
  /\ registered ops1 (bs "/a/b") 3 /\ covers (bs "/a/b") (bs "/a/b/c") /\ ~ covers (bs "/a") (bs "/a-b/c")
  /\ acts (handle_request (t_run ops1) None (fun _ => false) None tt (ask (bs "/a/b/c/"))) = [AHandler 3]
  /\ acts (handle_request (t_run ops1) None (fun _ => false) None tt (ask (bs "/a-b/c"))) = [AHandler 5]
  /\ acts (handle_request (t_run ops1) None (fun _ => false) None tt (ask (bs "*"))) = [ANotFound].
Proof.
  split; [constructor|]. split; [intros b H; apply redirected_table in H; vm_compute in H; discriminate|].
  split; [apply registered_table; vm_compute; reflexivity|]. split; [right; exists (bs "c"); reflexivity|].
  split; [intros [H|[t H]]; vm_compute in H; discriminate|]. vm_compute. auto.
Qed.

(** C39. Every request, every table of redirects, also with cycles: either more than ten redirects follow one another and only
    the handler for server errors is called, or after at most ten the resource [q] is not redirected, the request is
    changed to [q], and dispatch goes on with [q]. *)
Theorem C39_redirects_end {W} ops auth throws (w : W) m c : m_valid m = true -> cleaned (m_resource m) c ->
  (exists q q', leads ops 11 c q /\ leads ops 10 c q' /\ handle_request (t_run ops) auth throws None w m = Ok ([ATooMany], set_m_resource q' m, w))
  \/ exists n q m', (n <= 10)%nat /\ leads ops n c q /\ (forall b, ~ redirected ops q b) /\ (m' = if n then m else set_m_resource q m)
     /\ exists o, best ops q o
     /\ handle_request (t_run ops) auth throws None w m = obind (match auth with Some a => a w m' | None => Ok (true, w) end) (fun x =>
          Ok (if fst x then match o with Some h => if throws h then [AHandler h; AServerError] else [AHandler h] | None => [ANotFound] end else [AAuth], m', snd x)).
Proof. exact (dispatch_request ops auth throws w m c). Qed.
Print Assumptions C39_redirects_end.
Definition ops2 : list top := [TRedirect (bs "/x") (bs "/y/"); TRedirect (bs "/y") (bs "/x"); TRedirect (bs "/old/") (bs "/new"); TRedirect (bs "/new") (bs "/newer"); TAdd (bs "/newer") 7%nat].
Example C39_case : leads ops2 11 (bs "/x") (bs "/y") /\ leads ops2 2 (bs "/old") (bs "/newer")
  /\ acts (handle_request (t_run ops2) None (fun _ => false) None tt (ask (bs "/x/"))) = [ATooMany]
  /\ acts (handle_request (t_run ops2) None (fun _ => true) None tt (ask (bs "/old"))) = [AHandler 7; AServerError].
Proof.
  assert (redirected ops2 (bs "/x") (bs "/y")) as A by (apply redirected_table; vm_compute; reflexivity).
  assert (redirected ops2 (bs "/y") (bs "/x")) as B by (apply redirected_table; vm_compute; reflexivity).
  split; [do 11 (eapply leads_S; [first [exact A|exact B]|]); constructor|].
  split; [do 2 (eapply leads_S; [apply redirected_table; vm_compute; reflexivity|]); constructor|].
  vm_compute. auto.
Qed.
