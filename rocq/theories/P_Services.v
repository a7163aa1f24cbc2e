(** C76, C101, C102: the log service, the echo service and the cookie service. *)
From Coq Require Import String ZArith List Bool Lia Permutation.
From Verif Require Import Base Digits AlgModel DictModel DictProofs HttpModel HttpSpec HttpHead HttpProofs HttpExamples MessageModel MessageSpec MessageProofs WriterModel WriterSpec WriterProofs
  HttpBody ServicesModel ServicesSpec ServicesProofs.
Import ListNotations.

(* ------------------------------------------------------------------ C76 *)

(** Whatever happened before: when the limit is [n] and events [xs] follow, the newest [n] are held. (The claim is for every limit.) *)
Theorem C76_held_partial l n xs : Forall limit_ok l -> 0 <= n < two32 - 1 -> xs <> [] ->
  exists g g', g_run g_init l = Ok g /\ g_run g_init (l ++ [GMax n] ++ map GAdd xs) = Ok g' /\ g_events g' = newest n (g_events g ++ xs).
Proof.
  intros F N X. destruct (run_log_ok l g_init) as (g & R & K & M & L); [split; [|split]; cbn [g_num g_events g_max g_init]; unfold zlen, two32; cbn; lia|cbn [g_max g_init]; unfold two32; lia|unfold zlen, two32; cbn; lia|exact F|].
  destruct (adds_newest xs (mklog (g_events g) (g_num g) n)) as (g' & R' & E & _); cbn [g_max g_events]; auto; try lia.
  { destruct K as (A & B & C). split; [|split]; cbn [g_max g_events g_num]; auto; lia. }
  exists g, g'. split; auto. split; [|apply E; auto]. rewrite run_app_log, R. cbn [obind app g_run g_op]. unfold wrap32. rewrite Z.mod_small by lia. exact R'.
Qed.
Print Assumptions C76_held_partial.

(** The page read by a client: the newest [n] events in order, as text. [None]: the limit is not set and is 25. *)
Theorem C76_page_partial (limit : option Z) xs pos method vmaj vmin life cf m g :
  let n := match limit with Some n => n | None => 25 end in
  0 <= n < two32 - 1 -> g_run g_init (match limit with Some n => [GMax n] | None => [] end ++ map GAdd xs) = Ok g ->
  0 < vmaj < 65536 -> 0 <= vmin < 65536 -> storing cf -> cf_request cf = false -> zlen (concat (newest n xs)) < two64 - 1 -> zlen (concat (newest n xs)) <= cf_max cf ->
  m_headers m = [] -> m_missing m = false -> m_req_method m <> bs "HEAD" ->
  forall pieces more, cut pieces (page_bytes pos method vmaj vmin life (log_ops g) ++ more) ->
  exists r, feed cf (p_init cf) m pieces = Ok (Some r) /\ r_rc r = TTrue /\ r_rest r = more /\ page_read (r_msg r) 200 (concat (newest n xs)) [(bs "Content-Type", bs "text/plain")].
Proof.
  intros n N R V1 V2 ST RQ B1 B2 MH MM NH pieces more CU.
  assert (g_events g = newest n xs) as EG.
  { destruct (adds_newest xs (mklog [] 0 n)) as (g' & R' & E & E' & _); cbn [g_max g_events]; try lia; [split; [|split]; cbn [g_max g_events g_num]; unfold zlen, two32; cbn; auto; unfold two32 in *; lia|reflexivity|].
    assert (Ok g = Ok g') as X. { rewrite <- R, <- R'. unfold n in *. destruct limit as [k|]; [|reflexivity]. cbn [app g_run g_op obind]. unfold wrap32. rewrite Z.mod_small by lia. reflexivity. }
    injection X as <-. destruct xs as [|x xs]; [rewrite E' by reflexivity; unfold newest; destruct (Z.to_nat n); reflexivity|]. rewrite E by discriminate. reflexivity. }
  assert (concat (map payload (log_ops g)) = concat (newest n xs)) as EP. { unfold log_ops. cbn [map payload concat app]. rewrite EG, map_map. f_equal. apply map_id. }
  destruct (page_round_trip pos method vmaj vmin life None (Some (bs "text/plain")) [] (log_ops g) cf m) with (pieces := pieces) (more := more) as (r & F & RC & RS & PR); rewrite ?EP; auto; try (cbn; lia).
  - unfold log_ops. constructor; [exact I|]. apply Forall_forall. intros x X. apply in_map_iff in X. destruct X as (s & <- & _). exact I.
  - unfold log_ops. cbn [msgs flat_map app map type_ops status_ops]. f_equal. clear. induction (g_events g); auto.
  - cbn [status_reason]. apply (forallb_Forall (fun c => (32 <=? c) && (c <? 256) && negb (c =? 127))); [intros; unfold text_char; lia|vm_compute; reflexivity].
  - constructor; [|constructor]. split; [discriminate|]. split; [apply token_chars; vm_compute; reflexivity|]. split; [vm_compute; discriminate|]. split; [apply value_chars; vm_compute; reflexivity|vm_compute; discriminate].
  - intros s E (u & U). injection E as <-. vm_compute in U. discriminate.
  - exists r. rewrite EP in PR. auto.
Qed.
Print Assumptions C76_page_partial.
Example C76_case : exists g r, g_run g_init ([GMax 2] ++ map GAdd [bs "a"; bs "b"; bs "c"]) = Ok g
  /\ feed (ex_cf false false) (p_init (ex_cf false false)) ex_msg [page_bytes (fun _ _ => 0%nat) (bs "GET") 1 1 LKeep (log_ops g)] = Ok (Some r) /\ content_of (r_msg r) = Ok (bs "bc").
Proof. do 2 eexists. split; [vm_compute; reflexivity|]. split; vm_compute; reflexivity. Qed.

(** Without a logging library the service tells so. *)
Theorem C76_none_partial (off : bool) pos method vmaj vmin life cf m :
  let page := (if off then bs "Logging is disabled." else bs "Using ostream logging.") ++ [13; 10] in
  0 < vmaj < 65536 -> 0 <= vmin < 65536 -> storing cf -> cf_request cf = false -> zlen page <= cf_max cf -> m_headers m = [] -> m_missing m = false -> m_req_method m <> bs "HEAD" ->
  forall pieces more, cut pieces (page_bytes pos method vmaj vmin life (no_log_ops off) ++ more) ->
  exists r, feed cf (p_init cf) m pieces = Ok (Some r) /\ r_rc r = TTrue /\ r_rest r = more /\ page_read (r_msg r) 200 page [(bs "Content-Type", bs "text/plain")].
Proof.
  intros page V1 V2 ST RQ B2 MH MM NH pieces more CU.
  assert (concat (map payload (no_log_ops off)) = page) as EP by (unfold no_log_ops, page; destruct off; reflexivity).
  destruct (page_round_trip pos method vmaj vmin life None (Some (bs "text/plain")) [] (no_log_ops off) cf m) with (pieces := pieces) (more := more) as (r & F & RC & RS & PR); rewrite ?EP; auto; try (cbn; lia).
  - repeat constructor.
  - cbn [status_reason]. apply (forallb_Forall (fun c => (32 <=? c) && (c <? 256) && negb (c =? 127))); [intros; unfold text_char; lia|vm_compute; reflexivity].
  - constructor; [|constructor]. split; [discriminate|]. split; [apply token_chars; vm_compute; reflexivity|]. split; [vm_compute; discriminate|]. split; [apply value_chars; vm_compute; reflexivity|vm_compute; discriminate].
  - intros s E (u & U). injection E as <-. vm_compute in U. discriminate.
  - unfold page. destruct off; vm_compute; reflexivity.
  - exists r. rewrite EP in PR. auto.
Qed.
Print Assumptions C76_none_partial.

(** With the largest limit the count wraps: 2^32 events and more are all held. *)
Theorem C76_largest_refuted : ~ forall n xs g, 0 <= n < two32 -> g_run g_init ([GMax n] ++ map GAdd xs) = Ok g -> zlen (g_events g) <= n.
Proof.
  intros H. assert (forall k : nat, exists xs : list (list Z), zlen xs = Z.of_nat k) as LL by (intros k; exists (repeat (@nil Z) k); unfold zlen; rewrite repeat_length; reflexivity).
  destruct (LL (Z.to_nat two32)) as (xs & LX). clear LL. rewrite Z2Nat.id in LX by (unfold two32; lia).
  destruct (adds_all xs (mklog [] 0 (two32 - 1)) eq_refl) as (g & R & E & _). cbn [g_events] in E. rewrite app_nil_l in E.
  assert (two32 <= two32 - 1) as X; [|unfold two32 in X; lia]. rewrite <- LX at 1. rewrite <- E. apply (H (two32 - 1) xs g); [unfold two32; lia|].
  rewrite run_app_log. assert (g_run g_init [GMax (two32 - 1)] = Ok (mklog [] 0 (two32 - 1))) as -> by (vm_compute; reflexivity). exact R.
Qed.
Print Assumptions C76_largest_refuted.

(** A lower limit is not obeyed before the next event. *)
Theorem C76_lowered_refuted : ~ forall l n g, Forall limit_ok l -> 0 <= n < two32 - 1 -> g_run g_init (l ++ [GMax n]) = Ok g -> zlen (g_events g) <= n.
Proof.
  intros H. assert (exists g, g_run g_init (map GAdd [bs "a"; bs "b"; bs "c"] ++ [GMax 1]) = Ok g /\ zlen (g_events g) = 3) as (g & R & L) by (eexists; split; vm_compute; reflexivity).
  specialize (H (map GAdd [bs "a"; bs "b"; bs "c"]) 1 g). rewrite L in H. assert (3 <= 1); [|lia]. apply H; auto; [repeat constructor|unfold two32; lia].
Qed.
Print Assumptions C76_lowered_refuted.

(* ------------------------------------------------------------------ C101 *)

Lemma content_length m c : 0 <= m_clen m -> content_of m = Ok c -> zlen c = m_clen m.
Proof.
  unfold content_of. intros LN CO. destruct (m_clen m <=? zlen (m_buf m)) eqn:E; [|discriminate]. destruct (all_some _) eqn:A; [|discriminate]. injection CO as <-.
  assert (forall (x : list (option Z)) y, all_some x = Some y -> length y = length x) as AL.
  { induction x as [|[z|] x IH]; intros y; cbn [all_some]; intros H; [injection H as <-; reflexivity| |discriminate]. destruct (all_some x) eqn:X; [|discriminate]. injection H as <-. cbn [length]. rewrite (IH l0); auto. }
  apply AL in A. unfold zlen in *. rewrite A, firstn_length. lia.
Qed.
Lemma echo_payload m orig user c : 0 <= m_vmaj m -> 0 <= m_vmin m -> 0 <= m_clen m -> content_of m = Ok c ->
  exists l, echo_ops m orig user = Ok l /\ mirror m orig c user (concat (map payload l)) /\ Forall is_page l /\ msgs l = [MsgContentType (bs "text/plain")].
Proof.
  intros V1 V2 LN CO. pose proof (content_length m c LN CO) as LC. unfold echo_ops. rewrite CO. cbn [obind].
  assert ((if m_clen m =? 0 then Ok [] else Ok [WBinary c; WNoCopy CRLF; WNoCopy CRLF]) = Ok (match c with [] => [] | _ => [WBinary c; WNoCopy CRLF; WNoCopy CRLF] end)) as ->.
  { rewrite <- LC. destruct c; [reflexivity|]. rewrite zlen_cons. destruct (1 + zlen c =? 0) eqn:E; [unfold zlen in E; lia|reflexivity]. }
  cbn [obind]. eexists. split; [reflexivity|]. split; [|split].
  - exists (print_dec (m_vmaj m)), (print_dec (m_vmin m)), (print_dec (m_clen m)). split; [apply print_dec_numeral; auto|]. split; [apply print_dec_numeral; auto|]. split; [rewrite LC; apply print_dec_numeral; auto|].
    rewrite !map_app, !concat_app, !terms_payload. unfold title_ops, section, line, CRLF.
    destruct c as [|c0 c]; [|remember (c0 :: c) as cc]; destruct user as [u|]; rewrite ?map_app, ?concat_app; cbn [map payload concat]; rewrite ?app_nil_r, ?app_nil_l, <- ?app_assoc; reflexivity.
  - unfold title_ops. repeat (apply Forall_app; split); try apply terms_page; try (repeat constructor; fail).
    + destruct c; repeat constructor.
    + destruct user; repeat constructor.
  - rewrite !msgs_app, !terms_msgs. cbn [app]. destruct c; destruct user; reflexivity.
Qed.

(** C101. The page the echo service sends for a request [m] (of an HTTP version other than 0.x) is read by the client as the mirror of the request. *)
Theorem C101_echo pos m orig user life c cf rm :
  0 < m_vmaj m < 65536 -> 0 <= m_vmin m < 65536 -> 0 <= m_clen m -> content_of m = Ok c ->
  exists l page, echo_ops m orig user = Ok l /\ mirror m orig c user page /\
  (zlen page < two64 - 1 -> storing cf -> cf_request cf = false -> zlen page <= cf_max cf -> m_headers rm = [] -> m_missing rm = false -> m_req_method rm <> bs "HEAD" ->
   forall pieces more, cut pieces (page_bytes pos (m_method m) (m_vmaj m) (m_vmin m) life l ++ more) ->
   exists r, feed cf (p_init cf) rm pieces = Ok (Some r) /\ r_rc r = TTrue /\ r_rest r = more /\ page_read (r_msg r) 200 page [(bs "Content-Type", bs "text/plain")]).
Proof.
  intros V1 V2 LN CO. destruct (echo_payload m orig user c) as (l & EL & MI & FP & ML); auto; try lia. exists l, (concat (map payload l)). split; auto. split; auto.
  intros BL ST RQ MX MH MM NH pieces more CU.
  destruct (page_round_trip pos (m_method m) (m_vmaj m) (m_vmin m) life None (Some (bs "text/plain")) [] l cf rm) with (pieces := pieces) (more := more) as (r & F & RC & RS & PR); auto; try (cbn; lia).
  - cbn [status_reason]. apply (forallb_Forall (fun c => (32 <=? c) && (c <? 256) && negb (c =? 127))); [intros; unfold text_char; lia|vm_compute; reflexivity].
  - constructor; [|constructor]. split; [discriminate|]. split; [apply token_chars; vm_compute; reflexivity|]. split; [vm_compute; discriminate|]. split; [apply value_chars; vm_compute; reflexivity|vm_compute; discriminate].
  - intros s E (u & U). injection E as <-. vm_compute in U. discriminate.
  - exists r. auto.
Qed.
Print Assumptions C101_echo.
(** a request through the server's parser, then the page through the client's *)
Example C101_case : exists r l r', feed (ex_cf true false) (p_init (ex_cf true false)) ex_msg [bs "POST /e?a=b HTTP/1.1" ++ [13; 10] ++ bs "Content-Length: 3" ++ [13; 10; 13; 10] ++ bs "xyz"] = Ok (Some r) /\ r_rc r = TTrue
  /\ echo_ops (r_msg r) (bs "/e") None = Ok l
  /\ feed (ex_cf false false) (p_init (ex_cf false false)) ex_msg [page_bytes (fun _ _ => 0%nat) (bs "POST") 1 1 LKeep l] = Ok (Some r')
  /\ exists page, content_of (r_msg r') = Ok page /\ mirror (r_msg r) (bs "/e") (bs "xyz") None page.
Proof.
  do 3 eexists. split; [vm_compute; reflexivity|]. split; [vm_compute; reflexivity|]. split; [vm_compute; reflexivity|]. split; [vm_compute; reflexivity|].
  eexists. split; [vm_compute; reflexivity|]. exists (bs "1"), (bs "1"), (bs "3"). repeat split; try (vm_compute; congruence); vm_compute; repeat constructor; congruence.
Qed.

(* ------------------------------------------------------------------ C102 *)

(** the first value of a parameter, or nothing *)
Definition first_value (n : list Z) (l : list (list Z * list Z)) : list Z := hd [] (values_of n l).
(** the cookie the request asks to be set or deleted *)
Definition wanted (m : msg) (v : list (list Z)) : Prop :=
  let action := first_value (bs "action") (m_queries m) in
  let name := first_value (bs "cookie_name") (m_queries m) in
  let value := first_value (bs "cookie_value") (m_queries m) in
  (action = bs "Add Cookie" /\ name <> [] /\ value <> [] /\ v = [name ++ bs "=""" ++ value ++ bs """; Version=1; Path=/"])
  \/ (action = bs "delete" /\ name <> [] /\ v = [name ++ bs "=""""; Version=1; Path=/; Max-Age=0"])
  \/ (v = [] /\ ~ (action = bs "Add Cookie" /\ name <> [] /\ value <> []) /\ ~ (action = bs "delete" /\ name <> [])).

Lemma d_get_first d n : d_get d n = first_value n d.
Proof. unfold d_get, first_value. rewrite find_values. destruct (values_of n d); reflexivity. Qed.

(** The page, line by line: what was done, every Cookie header, every cookie with a link that deletes it, and the form. *)
Definition lines (l : list (list Z)) : list Z := concat (map (fun x => x ++ [10]) l).
Definition said (m : msg) : list (list Z) :=
  let action := first_value (bs "action") (m_queries m) in
  let name := first_value (bs "cookie_name") (m_queries m) in
  let value := first_value (bs "cookie_value") (m_queries m) in
  let note x := [[]; bs "<p>[" ++ x ++ bs "]</p>"; []] in
  if list_eq_dec (list_eq_dec Z.eq_dec) (values_of (bs "action") (m_queries m)) [] then []
  else if list_eq_dec Z.eq_dec action (bs "Add Cookie") then
    if orb (zlen name =? 0) (zlen value =? 0) then note (bs "Error: You must specify a name and value to add a cookie") else note (bs "Added cookie " ++ name ++ bs "=" ++ value)
  else if list_eq_dec Z.eq_dec action (bs "delete") then
    if zlen name =? 0 then note (bs "Error: You must specify a name to delete a cookie") else note (bs "Deleted cookie " ++ name)
  else note (bs "Error: Unrecognized action").
Definition section (none some : string) (l : list (list Z)) : list (list Z) :=
  [] :: match l with [] => [bs "<h2>" ++ bs none ++ bs "</h2>"] | _ => [bs "<h2>" ++ bs some ++ bs "</h2>"; bs "<ul>"] ++ map (fun x => bs "<li>" ++ x) l ++ [bs "</ul>"] end ++ [[]].
Definition cookie_page (m : msg) : list Z :=
  lines ([bs "<html>"; bs "<head>"; bs "<title>Cookie Service</title>"; bs "</head>"; bs "<body>"; []; bs "<h1>Cookie Service</h1>"]
    ++ said m
    ++ section "No Cookie Headers" "Cookie Headers" (map (fun v => bs "Cookie: " ++ v) (values_of (bs "Cookie") (m_headers m)))
    ++ section "No Cookie Variables" "Cookie Variables"
         (map (fun c => fst c ++ bs ": " ++ snd c ++ bs " <a href=""" ++ m_resource m ++ bs "?action=delete&cookie_name=" ++ fst c ++ bs """>[Delete]</a>") (m_cookies m))
    ++ [[]; bs "<h2>Add Cookie</h2>"; bs "<p><form action=""" ++ m_resource m ++ bs """ method=""POST"">"; bs "Name: <input type=""text"" name=""cookie_name""><br />";
        bs "Value: <input type=""text"" name=""cookie_value""><br />"; bs "<input type=""submit"" name=""action"" value=""Add Cookie""></p>"; bs "</form>"; []]
    ++ [[]; bs "</body>"; bs "</html>"]).
Lemma lines_app a b : lines (a ++ b) = lines a ++ lines b.
Proof. unfold lines. rewrite map_app, concat_app. reflexivity. Qed.
Definition texts (l : list wop) : list Z := concat (map payload l).
Lemma texts_app a b : texts (a ++ b) = texts a ++ texts b.
Proof. unfold texts. rewrite map_app, concat_app. reflexivity. Qed.
Lemma texts_each {A} (f : A -> list wop) (g : A -> list Z) d : (forall x, texts (f x) = g x ++ [10]) -> texts (concat (map f d)) = lines (map g d).
Proof. intros H. induction d as [|x d IH]; [reflexivity|]. cbn [map concat]. rewrite texts_app, H, IH. reflexivity. Qed.
Lemma zlen_0 (l : list Z) : (zlen l =? 0) = match l with [] => true | _ => false end.
Proof. destruct l; [reflexivity|]. apply Z.eqb_neq. unfold zlen. cbn [length]. lia. Qed.
Lemma said_text m : texts (action_ops m) = lines (said m).
Proof.
  unfold action_ops, said. rewrite has_values, !d_get_first. rewrite !zlen_0.
  destruct (list_eq_dec (list_eq_dec Z.eq_dec) (values_of (bs "action") (m_queries m)) []) as [E|E]; [rewrite E; reflexivity|].
  destruct (values_of (bs "action") (m_queries m)) as [|a vs]; [congruence|]. cbn [negb]. clear E.
  set (ac := first_value (bs "action") (m_queries m)). set (nm := first_value (bs "cookie_name") (m_queries m)). set (vl := first_value (bs "cookie_value") (m_queries m)).
  destruct (list_eq_dec Z.eq_dec ac (bs "Add Cookie")) as [E1|E1]; [rewrite E1; change (str_eqb (bs "Add Cookie") (bs "Add Cookie")) with true | apply str_eqb_neq in E1; rewrite E1]; cbv iota.
  - destruct nm as [|n0 nm]; [reflexivity|]; destruct vl as [|v0 vl]; [reflexivity|]. cbn [orb]. generalize (n0 :: nm) (v0 :: vl). intros x y.
    unfold texts, lines. cbn [map payload concat]. rewrite ?app_nil_r. rewrite <- ?app_assoc. reflexivity.
  - destruct (list_eq_dec Z.eq_dec ac (bs "delete")) as [E2|E2]; [rewrite E2; change (str_eqb (bs "delete") (bs "delete")) with true | apply str_eqb_neq in E2; rewrite E2; reflexivity]; cbv iota.
    destruct nm as [|n0 nm]; [reflexivity|]. generalize (n0 :: nm). intros x.
    unfold texts, lines. cbn [map payload concat]. rewrite ?app_nil_r. rewrite <- ?app_assoc. reflexivity.
Qed.
Lemma range_values_of d n : map snd (d_range d n) = values_of n d.
Proof. unfold d_range, values_of. f_equal. apply filter_ext. intros. apply same_name_match. Qed.
Lemma section_text {A} none some (f : A -> list wop) (g : A -> list Z) l : (forall x, texts (f x) = bs "<li>" ++ g x ++ [10]) ->
  texts (match l with [] => [WText ([10] ++ (bs "<h2>" ++ bs none ++ bs "</h2>") ++ [10; 10])]
         | _ => [WText ([10] ++ (bs "<h2>" ++ bs some ++ bs "</h2>") ++ [10] ++ bs "<ul>" ++ [10])] ++ concat (map f l) ++ [WText (bs "</ul>" ++ [10; 10])] end)
  = lines (section none some (map g l)).
Proof.
  intros H. destruct l as [|x l].
  - unfold section, texts, lines. cbn [map payload concat app]. rewrite ?app_nil_r, <- ?app_assoc. reflexivity.
  - assert (exists y ys, map g (x :: l) = y :: ys) as (y & ys & E) by (eexists; eexists; reflexivity).
    assert (section none some (map g (x :: l)) = [[]; bs "<h2>" ++ bs some ++ bs "</h2>"; bs "<ul>"] ++ map (fun z => bs "<li>" ++ z) (map g (x :: l)) ++ [bs "</ul>"; []]) as ->
      by (unfold section; rewrite E; rewrite <- !app_assoc; reflexivity).
    clear E. revert H. generalize (x :: l). intros d H. rewrite !texts_app, !lines_app. f_equal; [unfold texts, lines; cbn [map payload concat]; rewrite ?app_nil_r, <- ?app_assoc; reflexivity|].
    f_equal. rewrite map_map. apply texts_each. intros z. rewrite H, <- app_assoc. reflexivity.
Qed.
Lemma list_text m : texts (cookie_list_ops m) = lines
  (section "No Cookie Headers" "Cookie Headers" (map (fun v => bs "Cookie: " ++ v) (values_of (bs "Cookie") (m_headers m)))
    ++ section "No Cookie Variables" "Cookie Variables"
         (map (fun c => fst c ++ bs ": " ++ snd c ++ bs " <a href=""" ++ m_resource m ++ bs "?action=delete&cookie_name=" ++ fst c ++ bs """>[Delete]</a>") (m_cookies m))
    ++ [[]; bs "<h2>Add Cookie</h2>"; bs "<p><form action=""" ++ m_resource m ++ bs """ method=""POST"">"; bs "Name: <input type=""text"" name=""cookie_name""><br />";
        bs "Value: <input type=""text"" name=""cookie_value""><br />"; bs "<input type=""submit"" name=""action"" value=""Add Cookie""></p>"; bs "</form>"; []]).
Proof.
  unfold cookie_list_ops. rewrite !texts_app, !lines_app. f_equal; [|f_equal].
  - change HEADER_COOKIE with (bs "Cookie"). rewrite has_values. rewrite <- range_values_of. rewrite map_map.
    pose proof (section_text "No Cookie Headers" "Cookie Headers" (fun p : list Z * list Z => [WText (bs "<li>Cookie: "); WText (snd p); WText [10]]) (fun p => bs "Cookie: " ++ snd p) (d_range (m_headers m) (bs "Cookie"))) as S.
    rewrite <- S by (intros z; unfold texts; cbn [map payload concat]; rewrite app_nil_r, <- ?app_assoc; reflexivity).
    destruct (d_range (m_headers m) (bs "Cookie")) as [|q d]; reflexivity.
  - match goal with |- _ = lines (section _ _ (map ?g _)) => pose proof (section_text "No Cookie Variables" "Cookie Variables" (fun p : list Z * list Z =>
                  [WText (bs "<li>"); WText (fst p); WText (bs ": "); WText (snd p); WText (bs " <a href=""");
                   WText (m_resource m); WText (bs "?action=delete&cookie_name="); WText (fst p); WText (bs """>[Delete]</a>" ++ [10])]) g (m_cookies m)) as S end.
    rewrite <- S by (intros z; unfold texts; cbn [map payload concat]; rewrite app_nil_r, <- ?app_assoc; reflexivity).
    destruct (m_cookies m) as [|q d]; reflexivity.
  - unfold texts, lines. cbn [map payload concat]. rewrite ?app_nil_r, <- ?app_assoc. reflexivity.
Qed.
Lemma cookie_page_text m : texts (cookie_page_ops m) = cookie_page m.
Proof.
  unfold cookie_page_ops, cookie_page. rewrite !texts_app, said_text, list_text. rewrite !lines_app, <- !app_assoc. f_equal.
Qed.
Lemma cookie_page_msgs m : exists v, wanted m v /\ Forall is_page (cookie_page_ops m) /\ msgs (cookie_page_ops m) = MsgContentType (bs "text/html") :: map (fun x => MsgAddHeader (bs "Set-Cookie") x) v.
Proof.
  assert (Forall is_page (cookie_list_ops m) /\ msgs (cookie_list_ops m) = []) as [L1 L2].
  { unfold cookie_list_ops. split.
    - assert (forall {A} (f : A -> list wop) d, (forall x, Forall is_page (f x)) -> Forall is_page (concat (map f d))) as CF.
      { intros A f d H. induction d as [|x d IH]; [constructor|]. cbn [map concat]. apply Forall_app. auto. }
      apply Forall_app. split; [destruct (d_has _ _)|apply Forall_app; split; [destruct (m_cookies m) as [|c d]|]]; try (repeat constructor; fail).
      + apply Forall_app. split; [repeat constructor|]. apply Forall_app. split; [|repeat constructor]. apply CF. intros; repeat constructor.
      + generalize (c :: d). intros e. apply Forall_app. split; [repeat constructor|]. apply Forall_app. split; [|repeat constructor]. apply CF. intros; repeat constructor.
    - rewrite !msgs_app. assert (forall {A} (f : A -> list wop) d, (forall x, msgs (f x) = []) -> msgs (concat (map f d)) = []) as CM.
      { intros A f d H. induction d as [|x d IH]; [reflexivity|]. cbn [map concat]. rewrite msgs_app, H, IH. reflexivity. }
      assert (forall a b : list mop, a = [] -> b = [] -> a ++ b = []) as NN by (intros; subst; reflexivity).
      apply NN; [|apply NN]; [destruct (d_has _ _)|destruct (m_cookies m) as [|c d]|]; rewrite ?msgs_app, ?CM; try reflexivity; intros; reflexivity. }
  assert (exists v, wanted m v /\ Forall is_page (action_ops m) /\ msgs (action_ops m) = map (fun x => MsgAddHeader (bs "Set-Cookie") x) v) as (v & W & A1 & A2).
  { unfold action_ops, wanted. rewrite has_values, !d_get_first.
    destruct (values_of (bs "action") (m_queries m)) as [|a vs] eqn:EA; cbn [negb].
    { exists []. assert (first_value (bs "action") (m_queries m) = []) as -> by (unfold first_value; rewrite EA; reflexivity). split; [|split; [constructor|reflexivity]]. right. right. split; auto. split; intros [X _]; vm_compute in X; discriminate. }
    clear EA. set (ac := first_value (bs "action") (m_queries m)). set (nm := first_value (bs "cookie_name") (m_queries m)). set (vl := first_value (bs "cookie_value") (m_queries m)).
    destruct (str_eqb ac (bs "Add Cookie")) eqn:E1; [apply str_eqb_eq in E1|].
    - destruct nm as [|n0 nm]; [|destruct vl as [|v0 vl]].
      1,2: exists []; split; [|split; [repeat constructor|reflexivity]]; right; right; split; auto; split; intros X; [tauto|]; rewrite E1 in X; destruct X as [X _]; vm_compute in X; discriminate.
      eexists [_]. split; [left|split; [repeat constructor|reflexivity]]. split; auto. split; [discriminate|]. split; [discriminate|]. reflexivity.
    - assert (ac <> bs "Add Cookie") as N1 by (intros X; rewrite X in E1; vm_compute in E1; discriminate). destruct (str_eqb ac (bs "delete")) eqn:E2; [apply str_eqb_eq in E2|].
      + destruct nm as [|n0 nm].
        * exists []. split; [|split; [repeat constructor|reflexivity]]. right; right. split; auto. split; intros X; tauto.
        * eexists [_]. split; [right; left|split; [repeat constructor|reflexivity]]. split; auto. split; [discriminate|]. unfold drop_cookie_header, set_cookie_header. rewrite <- !app_assoc. reflexivity.
      + assert (ac <> bs "delete") as N2 by (intros X; rewrite X in E2; vm_compute in E2; discriminate).
        exists []. split; [|split; [repeat constructor|reflexivity]]. right; right. split; auto. split; intros X; tauto. }
  exists v. split; auto. unfold cookie_page_ops. split.
  - apply Forall_app. split; [repeat constructor|]. apply Forall_app. split; auto. apply Forall_app. split; [auto|repeat constructor].
  - rewrite !msgs_app, A2, L2. cbn [msgs flat_map app]. rewrite app_nil_r. reflexivity.
Qed.

(** C102. For a request whose cookie name and value are text, a client is told to set or delete exactly the cookie asked for, gets no other header, and the page given above. (The claim is for every request.) *)
Theorem C102_cookie_partial pos m life cf rm :
  0 < m_vmaj m < 65536 -> 0 <= m_vmin m < 65536 ->
  let name := first_value (bs "cookie_name") (m_queries m) in let value := first_value (bs "cookie_value") (m_queries m) in
  Forall value_char name -> Forall value_char value -> zlen name + zlen value <= 1000000 ->
  let page := cookie_page m in exists v, wanted m v /\
  (zlen page < two64 - 1 -> storing cf -> cf_request cf = false -> zlen page <= cf_max cf -> m_headers rm = [] -> m_missing rm = false -> m_req_method rm <> bs "HEAD" ->
   forall pieces more, cut pieces (page_bytes pos (m_method m) (m_vmaj m) (m_vmin m) life (cookie_page_ops m) ++ more) ->
   exists r, feed cf (p_init cf) rm pieces = Ok (Some r) /\ r_rc r = TTrue /\ r_rest r = more /\
     page_read (r_msg r) 200 page ((bs "Content-Type", bs "text/html") :: map (fun x => (bs "Set-Cookie", x)) v)).
Proof.
  intros V1 V2 name value NC VC LC page. destruct (cookie_page_msgs m) as (v & W & FP & ML). exists v. split; auto. unfold page. rewrite <- cookie_page_text. unfold texts. clear page.
  intros BL ST RQ MX MH MM NH pieces more CU.
  destruct (page_round_trip pos (m_method m) (m_vmaj m) (m_vmin m) life None (Some (bs "text/html")) (map (fun x => (bs "Set-Cookie", x)) v) (cookie_page_ops m) cf rm) with (pieces := pieces) (more := more) as (r & F & RC & RS & PR); auto; try (cbn; lia).
  - rewrite ML. cbn [status_ops type_ops app]. rewrite map_map. reflexivity.
  - cbn [status_reason]. apply (forallb_Forall (fun c => (32 <=? c) && (c <? 256) && negb (c =? 127))); [intros; unfold text_char; lia|vm_compute; reflexivity].
  - constructor.
    + split; [discriminate|]. split; [apply token_chars; vm_compute; reflexivity|]. split; [vm_compute; discriminate|]. split; [apply value_chars; vm_compute; reflexivity|vm_compute; discriminate].
    + assert (forall x, In x v -> Forall value_char x /\ zlen x <= 1048576) as HX.
      { intros x X. unfold wanted in W. fold name value in W. cbv zeta in W. destruct W as [(_ & _ & _ & ->)|[(_ & _ & ->)|(-> & _)]]; [| |destruct X]; destruct X as [<-|[]]; (split;
          [repeat (apply Forall_app; split); auto; apply value_chars; vm_compute; reflexivity|]); rewrite !zlen_app;
          repeat match goal with |- context [zlen (bs ?s)] => let k := eval vm_compute in (zlen (bs s)) in change (zlen (bs s)) with k end; clear - LC; unfold zlen in *; lia. }
      apply Forall_forall. intros h X. apply in_map_iff in X. destruct X as (x & <- & X). apply HX in X. destruct X as [X1 X2].
      split; [discriminate|]. split; [apply token_chars; vm_compute; reflexivity|]. split; [vm_compute; discriminate|]. split; auto.
  - clear. induction v; [reflexivity|]. cbn [map]. rewrite values_cons. cbn [fst]. exact IHv.
  - clear. induction v; [reflexivity|]. cbn [map]. rewrite values_cons. cbn [fst]. exact IHv.
  - intros s E (u & U). injection E as <-. vm_compute in U. discriminate.
  - exists r. auto.
Qed.
Print Assumptions C102_cookie_partial.

(** the header fields and the content that a client reads in answer to a request given by its bytes *)
Definition cookie_exchange (request : list Z) (answer : msg) : Prop :=
  exists r r', feed (ex_cf true false) (p_init (ex_cf true false)) ex_msg [request] = Ok (Some r) /\ r_rc r = TTrue
  /\ feed (ex_cf false false) (p_init (ex_cf false false)) ex_msg [page_bytes (fun _ _ => 0%nat) (m_method (r_msg r)) (m_vmaj (r_msg r)) (m_vmin (r_msg r)) LKeep (cookie_page_ops (r_msg r))] = Ok (Some r')
  /\ r_rc r' = TTrue /\ answer = r_msg r'.
Definition cookie_request (query : list Z) : list Z := bs "GET /c?" ++ query ++ bs " HTTP/1.1" ++ [13; 10; 13; 10].
Example C102_case : exists a, cookie_exchange (cookie_request (bs "action=Add%20Cookie&cookie_name=id&cookie_value=7")) a
  /\ m_code a = 200 /\ values_of (bs "set-cookie") (m_headers a) = [bs "id=""7""; Version=1; Path=/"].
Proof. eexists. split; [do 2 eexists; split; [vm_compute; reflexivity|]; split; [vm_compute; reflexivity|]; split; [vm_compute; reflexivity|]; split; reflexivity|]. vm_compute. auto. Qed.

(** A request can have a header of its choice put into the answer. *)
Theorem C102_header_refuted : ~ forall query a, cookie_exchange (cookie_request query) a ->
  forall n, values_of n (m_headers a) <> [] -> exists k, In k [bs "Content-Type"; bs "Set-Cookie"; bs "Connection"; bs "Content-Length"] /\ same_name n k = true.
Proof.
  intros H. assert (exists a, cookie_exchange (cookie_request (bs "action=Add%20Cookie&cookie_name=id&cookie_value=7%0D%0ALocation:%20/evil")) a /\ values_of (bs "Location") (m_headers a) = [bs "/evil""; Version=1; Path=/"]) as (a & X & E).
  { eexists. split; [do 2 eexists; split; [vm_compute; reflexivity|]; split; [vm_compute; reflexivity|]; split; [vm_compute; reflexivity|]; split; reflexivity|]. vm_compute. reflexivity. }
  destruct (H _ a X (bs "Location")) as (k & I & K); [rewrite E; discriminate|]. repeat (destruct I as [<-|I]; [vm_compute in K; discriminate|]). destruct I.
Qed.
Print Assumptions C102_header_refuted.

(** A request can have markup of its choice put into the page. *)
Theorem C102_markup_refuted : ~ forall query a c, cookie_exchange (cookie_request query) a -> content_of a = Ok c -> ~ exists x y, c = x ++ bs "<script>" ++ y.
Proof.
  intros H. assert (exists a c, cookie_exchange (cookie_request (bs "action=delete&cookie_name=%3Cscript%3E")) a /\ content_of a = Ok c /\ firstn (length (bs "<script>")) (skipn 104 c) = bs "<script>") as (a & c & X & E & P).
  { do 2 eexists. split; [do 2 eexists; split; [vm_compute; reflexivity|]; split; [vm_compute; reflexivity|]; split; [vm_compute; reflexivity|]; split; reflexivity|]. split; vm_compute; reflexivity. }
  apply (H _ a c X E). exists (firstn 104 c), (skipn (length (bs "<script>")) (skipn 104 c)). rewrite <- P at 1. rewrite !firstn_skipn. reflexivity.
Qed.
Print Assumptions C102_markup_refuted.

(* ------------------------------------------------------------------ C146 *)

(** C146. The hello service and the service that allows nothing: what a client reads, whatever it asked. *)
Definition hello_page : list Z := bs "<html><body>Hello World!</body></html>" ++ [13; 10; 13; 10].
Definition deny_page : list Z := bs "<html><body>No, you can't.</body></html>" ++ [13; 10; 13; 10].
Definition answered pos method vmaj vmin life cf m l code page hs : Prop :=
  forall pieces more, cut pieces (page_bytes pos method vmaj vmin life l ++ more) ->
  exists r, feed cf (p_init cf) m pieces = Ok (Some r) /\ r_rc r = TTrue /\ r_rest r = more /\ page_read (r_msg r) code page hs.

Theorem C146_hello_partial pos method vmaj vmin life cf m :
  0 < vmaj < 65536 -> 0 <= vmin < 65536 -> storing cf -> cf_request cf = false -> zlen hello_page <= cf_max cf -> m_headers m = [] -> m_missing m = false -> m_req_method m <> bs "HEAD" ->
  answered pos method vmaj vmin life cf m hello_ops 200 hello_page [].
Proof.
  intros V1 V2 ST RQ B2 MH MM NH pieces more CU.
  destruct (page_round_trip pos method vmaj vmin life None None [] hello_ops cf m) with (pieces := pieces) (more := more) as (r & F & RC & RS & PR); auto; try (cbn; lia); try (repeat constructor; fail).
  - cbn [status_reason]. apply (forallb_Forall (fun c => (32 <=? c) && (c <? 256) && negb (c =? 127))); [intros; unfold text_char; lia|vm_compute; reflexivity].
  - discriminate.
  - exists r. auto.
Qed.
Print Assumptions C146_hello_partial.

Theorem C146_deny_partial pos method vmaj vmin life cf m :
  0 < vmaj < 65536 -> 0 <= vmin < 65536 -> storing cf -> cf_request cf = false -> zlen deny_page <= cf_max cf -> m_headers m = [] -> m_missing m = false -> m_req_method m <> bs "HEAD" ->
  answered pos method vmaj vmin life cf m deny_ops 405 deny_page [(bs "Allow", bs "GET")].
Proof.
  intros V1 V2 ST RQ B2 MH MM NH pieces more CU.
  destruct (page_round_trip pos method vmaj vmin life (Some (405, bs "Method Not Allowed")) None [(bs "Allow", bs "GET")] deny_ops cf m) with (pieces := pieces) (more := more) as (r & F & RC & RS & PR); auto; try (cbn; lia); try (repeat constructor; fail).
  - cbn [status_reason]. apply (forallb_Forall (fun c => (32 <=? c) && (c <? 256) && negb (c =? 127))); [intros; unfold text_char; lia|vm_compute; reflexivity].
  - constructor; [|constructor]. split; [discriminate|]. split; [apply token_chars; vm_compute; reflexivity|]. split; [vm_compute; discriminate|]. split; [apply value_chars; vm_compute; reflexivity|vm_compute; discriminate].
  - discriminate.
  - exists r. auto.
Qed.
Print Assumptions C146_deny_partial.

(** The full claims: a method that an answer with code 405 names as allowed is not answered with 405 itself. *)
Definition allowed_is_allowed : Prop := forall method cf m r, m_req_method m <> bs "HEAD" ->
  feed cf (p_init cf) m [page_bytes (fun _ _ => 0%nat) method 1 1 LKeep deny_ops] = Ok (Some r) -> m_code (r_msg r) = 405 -> values_of (bs "Allow") (m_headers (r_msg r)) <> [method].
Theorem C146_allow_refuted : ~ allowed_is_allowed.
Proof.
  intros H. assert (exists r, feed (ex_cf false false) (p_init (ex_cf false false)) ex_msg [page_bytes (fun _ _ => 0%nat) (bs "GET") 1 1 LKeep deny_ops] = Ok (Some r)
    /\ m_code (r_msg r) = 405 /\ values_of (bs "Allow") (m_headers (r_msg r)) = [bs "GET"]) as (r & A & B & C) by (eexists; split; [vm_compute; reflexivity|]; split; vm_compute; reflexivity).
  apply (H (bs "GET") (ex_cf false false) ex_msg r); auto. discriminate.
Qed.
Print Assumptions C146_allow_refuted.
(** A HEAD request is answered without content. *)
Definition head_without_content : Prop := forall l cf m r, l = hello_ops \/ l = deny_ops -> m_req_method m = bs "HEAD" ->
  feed cf (p_init cf) m [page_bytes (fun _ _ => 0%nat) (bs "HEAD") 1 1 LKeep l] = Ok (Some r) -> r_rc r = TTrue -> r_rest r = [].
Theorem C146_head_refuted : ~ head_without_content.
Proof.
  intros H. assert (exists r, feed (ex_cf false false) (p_init (ex_cf false false)) (set_m_req_method (bs "HEAD") ex_msg) [page_bytes (fun _ _ => 0%nat) (bs "HEAD") 1 1 LKeep hello_ops] = Ok (Some r)
    /\ r_rc r = TTrue /\ r_rest r = hello_page) as (r & A & B & C) by (eexists; split; [vm_compute; reflexivity|]; split; vm_compute; reflexivity).
  apply (H hello_ops _ _ r) in A; auto. rewrite C in A. discriminate.
Qed.
Print Assumptions C146_head_refuted.
(** To a client that asked with HEAD, the whole page is left in front of the next response. *)
Theorem C146_head_partial pos method vmaj vmin life cf m :
  0 < vmaj < 65536 -> 0 <= vmin < 65536 -> 0 <= cf_max cf -> cf_request cf = false -> m_headers m = [] -> m_missing m = false -> m_req_method m = bs "HEAD" ->
  forall pieces more, cut pieces (page_bytes pos method vmaj vmin life hello_ops ++ more) ->
  exists r, feed cf (p_init cf) m pieces = Ok (Some r) /\ r_rc r = TTrue /\ r_rest r = hello_page ++ more /\ m_code (r_msg r) = 200 /\ content_of (r_msg r) = Ok [].
Proof.
  intros V1 V2 MX RQ MH MM HD pieces more CU.
  destruct (page_left pos method vmaj vmin life None None [] hello_ops cf m) with (pieces := pieces) (more := more) as (r & F & RC & RS & CD & CO); auto; try (cbn; lia); try (repeat constructor; fail).
  - cbn [status_reason]. apply (forallb_Forall (fun c => (32 <=? c) && (c <? 256) && negb (c =? 127))); [intros; unfold text_char; lia|vm_compute; reflexivity].
  - exists r. auto.
Qed.
Print Assumptions C146_head_partial.
Example C146_case : exists r, feed (ex_cf false false) (p_init (ex_cf false false)) ex_msg [page_bytes (fun _ _ => 0%nat) (bs "POST") 1 1 LKeep deny_ops; bs "HTTP"] = Ok (Some r)
  /\ m_code (r_msg r) = 405 /\ content_of (r_msg r) = Ok deny_page /\ r_rest r = bs "HTTP".
Proof. eexists. split; [vm_compute; reflexivity|]. split; [vm_compute; reflexivity|]. split; vm_compute; reflexivity. Qed.
