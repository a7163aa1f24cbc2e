(** C113, C114: the pages the server answers errors with. *)
From Coq Require Import String ZArith List Bool Lia Permutation.
From Verif Require Import Base Digits AlgModel AlgSpec AlgProofs DictModel DictProofs HttpModel HttpSpec HttpHead HttpProofs HttpExamples SMap MessageModel MessageSpec MessageProofs WriterModel WriterSpec WriterProofs
  ServicesModel ServicesSpec ServicesProofs ReplyModel PathModel FileModel PagesModel PagesSpec.
Import ListNotations.

(* ------------------------------------------------------------------ tags and text *)

Fixpoint ends (inside : bool) (s : list Z) : bool :=
  match s with [] => inside | c :: s => ends (if inside then negb (c =? ch ">") else c =? ch "<") s end.
Lemma tags_app a : forall b s, tags b (a ++ s) = tags b a ++ tags (ends b a) s.
Proof. induction a as [|c a IH]; intros [] s; cbn [app tags ends]; auto; [rewrite IH; auto|]. destruct (c =? ch "<"); rewrite IH; auto. Qed.
Lemma text_app a : forall b s, text b (a ++ s) = text b a ++ text (ends b a) s.
Proof. induction a as [|c a IH]; intros [] s; cbn [app text ends]; auto. destruct (c =? ch "<"); rewrite IH; auto. Qed.
Lemma ends_app a : forall b s, ends b (a ++ s) = ends (ends b a) s.
Proof. induction a as [|c a IH]; intros b s; cbn [app ends]; auto. Qed.
Lemma tagless_quiet t : tagless t -> tags false t = [] /\ text false t = t /\ ends false t = false.
Proof.
  intros (A & B). induction t as [|c t IH]; [auto|]. cbn [tags text ends]. destruct (c =? ch "<") eqn:E.
  - destruct A. left. apply Z.eqb_eq in E. auto.
  - destruct IH as (X & Y & Z); [intros H; apply A; right; auto|intros H; apply B; right; auto|]. rewrite Y. auto.
Qed.
Lemma tagless_b t : forallb (fun c => negb (c =? 60) && negb (c =? 62)) t = true -> tagless t.
Proof. rewrite forallb_forall. intros F. split; intros I; apply F in I; vm_compute in I; discriminate. Qed.
Lemma encoded_tagless s x : xml_encode s = Some x -> tagless x.
Proof.
  intros E. apply xml_encode_safe in E. clear s. induction x as [|c x IH]; [split; intros []|]. cbn [xml_safe existsb] in E.
  apply andb_prop in E. destruct E as (E1 & E2). apply andb_prop in E1. destruct E1 as (E1 & _). destruct (IH E2) as (A & B).
  assert (c <> 60 /\ c <> 62) as (N1 & N2) by (split; intros ->; discriminate).
  split; intros [H|H]; [apply N1; exact H|apply A; exact H|apply N2; exact H|apply B; exact H].
Qed.
Lemma encoded s : exists x, xml_encode s = Some x /\ tagless x /\ xml_clean s (xml_unescape x).
Proof. destruct (xml_encode_full s) as (x & E & C & _). exists x. split; auto. split; auto. apply (encoded_tagless s); auto. Qed.

(* ------------------------------------------------------------------ C113 *)

(** what the page is to say, for the request [m] *)
Definition heading (title h1 : list Z) : list Z := [10] ++ title ++ [10; 10] ++ h1 ++ [10].
Definition says (m : msg) (e : errpage) (page : list Z) : Prop :=
  match e with
  | PBad => markup page = plain_page /\ shown page = heading (bs "400 Bad Request") (bs "Bad Request") ++ bs "Your browser sent a request that this server could not understand." ++ [10; 10]
  | PNotFound => markup page = plain_page /\ shows page (heading (bs "404 Not Found") (bs "Not Found") ++ bs "The requested URL ") (m_resource m) (bs " was not found on this server." ++ [10; 10])
  | PError why => markup page = strong_page /\ shows page (heading (bs "500 Server Error") (bs "Internal Server Error") ++ bs "The server encountered an internal error: ") why [10; 10]
  | PForbidden why => markup page = second_page /\ shows page (heading (bs "403 Forbidden") (bs "Forbidden") ++ bs "User not authorized to access the requested URL ") (m_resource m) ([10] ++ why ++ [10; 10])
  | PNotAllowed _ => markup page = plain_page /\ shows page (heading (bs "405 Method Not Allowed") (bs "Not Allowed") ++ bs "The requested method ") (m_method m) (bs " is not allowed on this server." ++ [10; 10])
  | PUnauthorized _ => shown page = bs " Error401 Unauthorized. "
  end.
Definition code_of (e : errpage) : Z := match e with PBad => 400 | PNotFound => 404 | PError _ => 500 | PForbidden _ => 403 | PNotAllowed _ => 405 | PUnauthorized _ => 401 end.
Definition headers_of (e : errpage) : list (list Z * list Z) :=
  match e with
  | PNotAllowed (c :: a) => [(bs "Allow", c :: a)]
  | PUnauthorized realm => [(bs "WWW-Authenticate", bs "Basic realm=" ++ [34] ++ realm ++ [34])]
  | _ => []
  end.
(** texts that come from the program, not from the request *)
Definition from_program (e : errpage) : Prop :=
  match e with
  | PForbidden why => tagless why
  | PNotAllowed a | PUnauthorized a => Forall value_char a /\ zlen a <= 1000000
  | _ => True
  end.

Lemma about_page A x D T B F c about : ends false A = false -> tagless x -> xml_clean about (xml_unescape x) -> tags false A ++ tags false D = T -> text false A = B -> text false D = F ->
  c = A ++ x ++ D -> markup c = T /\ shows c B about F.
Proof.
  intros EA TX XC <- <- <- ->. destruct (tagless_quiet x TX) as (Q1 & Q2 & Q3). unfold markup, shows, shown. split; [|exists x; split; auto].
  - rewrite (tags_app A), EA, (tags_app x), Q1, Q3. reflexivity.
  - rewrite (text_app A), EA, (text_app x), Q2, Q3. reflexivity.
Qed.
Lemma second_about A x E why D T B F M c about : ends false A = false -> ends false E = false -> tagless x -> tagless why -> xml_clean about (xml_unescape x) ->
  tags false A ++ tags false E ++ tags false D = T -> text false A = B -> text false E = M -> text false D = F ->
  c = A ++ x ++ E ++ why ++ D -> markup c = T /\ shows c B about (M ++ why ++ F).
Proof.
  intros EA EE TX TW XC <- <- <- <- ->. destruct (tagless_quiet x TX) as (Q1 & Q2 & Q3), (tagless_quiet why TW) as (R1 & R2 & R3). unfold markup, shows, shown. split; [|exists x; split; auto].
  - rewrite (tags_app A), EA, (tags_app x), Q1, Q3, (tags_app E), EE, (tags_app why), R1, R3. reflexivity.
  - rewrite (text_app A), EA, (text_app x), Q2, Q3, (text_app E), EE, (text_app why), R2, R3. reflexivity.
Qed.
Definition fit (r : list Z) : bool := forallb (fun c => (32 <=? c) && (c <? 256) && negb (c =? 127)) r && (zlen r <=? 1024).
Lemma page_says m e : from_program e -> exists l st, err_ops m e = Ok l /\ says m e (concat (map payload l)) /\ Forall is_page l
  /\ msgs l = status_ops (Some st) ++ map (fun h => MsgAddHeader (fst h) (snd h)) (headers_of e) /\ fst st = code_of e /\ fit (snd st) = true.
Proof.
  intros FP. unfold err_ops. destruct e as [| |why|why|al|realm].
  - eexists. exists (400, bs "Bad Request"). split; [reflexivity|]. split; [split; vm_compute; reflexivity|]. split; [repeat constructor|]. split; [reflexivity|]. split; [reflexivity|vm_compute; reflexivity].
  - destruct (encoded (m_resource m)) as (x & EX & T & C). rewrite EX. eexists. exists (404, bs "Not Found"). split; [reflexivity|].
    split; [|split; [repeat constructor|split; [reflexivity|split; [reflexivity|vm_compute; reflexivity]]]]. cbn [map payload concat says app]. rewrite app_nil_r.
    eapply about_page; [|exact T|exact C| | | |reflexivity]; vm_compute; reflexivity.
  - destruct (encoded why) as (x & EX & T & C). rewrite EX. eexists. exists (500, bs "Server Error"). split; [reflexivity|].
    split; [|split; [repeat constructor|split; [reflexivity|split; [reflexivity|vm_compute; reflexivity]]]]. cbn [map payload concat says app]. rewrite app_nil_r.
    eapply about_page; [|exact T|exact C| | | |reflexivity]; vm_compute; reflexivity.
  - destruct (encoded (m_resource m)) as (x & EX & T & C). rewrite EX. eexists. exists (403, bs "Forbidden"). split; [reflexivity|].
    split; [|split; [repeat constructor|split; [reflexivity|split; [reflexivity|vm_compute; reflexivity]]]]. cbn [map payload concat says app]. rewrite app_nil_r.
    eapply (second_about _ x _ why _ _ _ [10; 10] [10]); [| |exact T|exact FP|exact C| | | | |reflexivity]; vm_compute; reflexivity.
  - destruct (encoded (m_method m)) as (x & EX & T & C). rewrite EX. eexists. exists (405, bs "Method Not Allowed"). split; [reflexivity|].
    split; [|split; [destruct al; repeat constructor|split; [destruct al; reflexivity|split; [reflexivity|vm_compute; reflexivity]]]].
    rewrite !map_app, !concat_app. assert (concat (map payload match al with [] => [] | _ => [WMsg (MsgAddHeader (bs "Allow") al)] end) = []) as -> by (destruct al; reflexivity).
    cbn [map payload concat says app]. rewrite app_nil_r.
    eapply about_page; [|exact T|exact C| | | |reflexivity]; vm_compute; reflexivity.
  - eexists. exists (401, bs "Unauthorized"). split; [reflexivity|]. split; [vm_compute; reflexivity|]. split; [repeat constructor|]. split; [reflexivity|]. split; [reflexivity|vm_compute; reflexivity].
Qed.

Lemma headers_fit e : from_program e -> Forall header_fine (headers_of e) /\ values_of (bs "Transfer-Encoding") (headers_of e) = [] /\ values_of (bs "Content-Type") (headers_of e) = [].
Proof.
  intros FE. split; [|destruct e as [| |?|?|[|c al]|realm]; cbn [headers_of]; split; reflexivity].
  destruct e as [| |?|?|[|c al]|realm]; cbn [headers_of]; try (constructor; fail); (constructor; [|constructor]); destruct FE as (FV & LV); cbn [fst snd].
    + split; [discriminate|]. split; [apply token_chars; vm_compute; reflexivity|]. split; [vm_compute; discriminate|]. split; auto. cbn [snd]. lia.
    + split; [discriminate|]. split; [apply token_chars; vm_compute; reflexivity|]. split; [vm_compute; discriminate|]. cbn [snd].
      split; [|unfold zlen in *; rewrite !app_length; cbn [length]; vm_compute (length (bs "Basic realm=")); lia].
      apply Forall_app. split; [apply value_chars; vm_compute; reflexivity|]. apply Forall_app. split; [apply value_chars; vm_compute; reflexivity|]. apply Forall_app. split; auto. apply value_chars; vm_compute; reflexivity.
Qed.

(** C113. Each of the pages is read by the client with its code; it has the tags of the page and no others, and shows the resource, method or error as text. The text
    that comes from the program must be fit for its place. (Missing: 403 pages for messages with tags, and methods and realms with control characters.) *)
Theorem C113_pages_partial pos m e life cf rm :
  0 < m_vmaj m < 65536 -> 0 <= m_vmin m < 65536 -> from_program e ->
  exists l page, err_ops m e = Ok l /\ says m e page /\
  (zlen page < two64 - 1 -> storing cf -> cf_request cf = false -> zlen page <= cf_max cf -> m_headers rm = [] -> m_missing rm = false -> m_req_method rm <> bs "HEAD" ->
   forall pieces more, cut pieces (page_bytes pos (m_method m) (m_vmaj m) (m_vmin m) life l ++ more) ->
   exists r, feed cf (p_init cf) rm pieces = Ok (Some r) /\ r_rc r = TTrue /\ r_rest r = more /\ page_read (r_msg r) (code_of e) page (headers_of e)).
Proof.
  intros V1 V2 FE. destruct (page_says m e FE) as (l & st & EL & SA & FP & ML & EC & ER). exists l, (concat (map payload l)). split; auto. split; auto.
  intros BL ST RQ MX MH MM NH pieces more CU. apply andb_prop in ER. destruct ER as (ER1 & ER2). pose proof (headers_fit e FE) as (HF & HT & HC).
  destruct (page_round_trip pos (m_method m) (m_vmaj m) (m_vmin m) life (Some st) None (headers_of e) l cf rm) with (pieces := pieces) (more := more) as (r & F & RC & RS & PR); auto.
  1-4: destruct st as [cd rs]; cbn [fst snd status_code] in *; subst cd; destruct e; cbn; lia.
  - destruct st as [cd rs]; cbn [fst snd status_reason] in *. apply (forallb_Forall (fun c => (32 <=? c) && (c <? 256) && negb (c =? 127))); [intros; unfold text_char; lia|auto].
  - destruct st as [cd rs]; cbn [fst snd status_reason] in *. lia.
  - intros s E. discriminate.
  - exists r. split; auto. split; auto. split; auto. cbn [type_headers app] in PR. rewrite <- EC. destruct st. exact PR.
Qed.
Print Assumptions C113_pages_partial.
Definition bad_request (res : string) : msg := set_m_method (bs "GET") (set_m_resource (bs res) msg_init).
Example C113_case : let m := bad_request "/<b>&" in exists l page r, err_ops m (PForbidden (bs "no")) = Ok l /\ from_program (PForbidden (bs "no")) /\ says m (PForbidden (bs "no")) page
  /\ feed (ex_cf false false) (p_init (ex_cf false false)) ex_msg [page_bytes (fun _ _ => 0%nat) (bs "GET") 1 1 LKeep l] = Ok (Some r) /\ content_of (r_msg r) = Ok page /\ m_code (r_msg r) = 403.
Proof.
  cbv zeta. assert (from_program (PForbidden (bs "no"))) as FP by (apply tagless_b; vm_compute; reflexivity).
  destruct (page_says (bad_request "/<b>&") (PForbidden (bs "no")) FP) as (l & st & E & S & _). exists l, (concat (map payload l)).
  vm_compute in E. injection E as <-. eexists. split; [reflexivity|]. split; [exact FP|]. split; [exact S|]. split; [vm_compute; reflexivity|]. split; vm_compute; reflexivity.
Qed.
(** The message of a 403 page is not escaped. *)
Theorem C113_forbidden_refuted : ~ forall m why, exists l page, err_ops m (PForbidden why) = Ok l /\ page = concat (map payload l) /\ markup page = second_page.
Proof.
  intros H. destruct (H (bad_request "/") (bs "no <script>")) as (l & page & E & -> & M). vm_compute in E. injection E as <-. vm_compute in M. discriminate.
Qed.
Print Assumptions C113_forbidden_refuted.

(** The answers of the file service: a page, nothing, or two pages after each other. [why]: the text of the exception that kept a file from being deleted. *)
Lemma page_markup code reason title h1 before about after x1 x2 b l : tagless title -> tagless h1 -> tagless before -> ends false after = false ->
  page code reason title h1 before about after x1 x2 b = FAnswer l -> concat (map payload x1) = [] -> concat (map payload x2) = [] ->
  concat (map payload l) = [] \/ (ends false (concat (map payload l)) = false /\
  markup (concat (map payload l)) = bs "<html><head><title></title></head><body><h1></h1><p>" ++ tags false after ++ bs "</p></body></html>").
Proof.
  intros T1 T2 T3 EA E E1 E2. unfold page in E. destruct (encoded about) as (x & EX & TX & _). rewrite EX in E. match type of E with FAnswer ?a = _ => assert (l = a) as -> by congruence end.
  rewrite !map_app, !concat_app, E1, E2. destruct b; [right|left; reflexivity]. cbn [map payload concat app]. rewrite !app_nil_r.
  destruct (tagless_quiet x TX) as (Q1 & Q2 & Q3), (tagless_quiet _ T1) as (R1 & _ & R3), (tagless_quiet _ T2) as (S1 & _ & S3), (tagless_quiet _ T3) as (U1 & _ & U3).
  unfold markup, page_start, page_end.
  assert (ends false (bs "<html><head>" ++ NL ++ bs "<title>" ++ title ++ bs "</title>" ++ NL ++ bs "</head><body>" ++ NL ++ bs "<h1>" ++ h1 ++ bs "</h1>" ++ NL ++ bs "<p>" ++ before) = false) as EB.
  { rewrite !ends_app. change (ends false (bs "<html><head>")) with false. change (ends false NL) with false. change (ends false (bs "<title>")) with false. rewrite R3.
    change (ends false (bs "</title>")) with false. change (ends false NL) with false. change (ends false (bs "</head><body>")) with false. change (ends false NL) with false.
    change (ends false (bs "<h1>")) with false. rewrite S3. change (ends false (bs "</h1>")) with false. change (ends false NL) with false. change (ends false (bs "<p>")) with false. exact U3. }
  assert (tags false (bs "<html><head>" ++ NL ++ bs "<title>" ++ title ++ bs "</title>" ++ NL ++ bs "</head><body>" ++ NL ++ bs "<h1>" ++ h1 ++ bs "</h1>" ++ NL ++ bs "<p>" ++ before)
    = bs "<html><head><title></title></head><body><h1></h1><p>") as EC.
  { rewrite !tags_app. change (ends false (bs "<html><head>")) with false. change (ends false NL) with false. change (ends false (bs "<title>")) with false. rewrite R3, R1.
    change (ends false (bs "</title>")) with false. change (ends false NL) with false. change (ends false (bs "</head><body>")) with false. change (ends false NL) with false.
    change (ends false (bs "<h1>")) with false. rewrite S3, S1. change (ends false (bs "</h1>")) with false. change (ends false NL) with false. change (ends false (bs "<p>")) with false. rewrite U1. reflexivity. }
  set (P := bs "<html><head>" ++ _) in *. clearbody P. split.
  - rewrite !ends_app, EB, Q3, EA. reflexivity.
  - rewrite (tags_app P), EB, EC, tags_app, Q1, Q3, (tags_app after), EA. reflexivity.
Qed.

Definition possible (why : list Z) (page : list Z) : Prop := In (markup page) [[]; plain_page; plain_page ++ plain_page; delete_page].
Ltac quiet := first [reflexivity | apply tagless_b; vm_compute; reflexivity].
Theorem C113_files_partial two date d d' s m data why l s' tr :
  fs_handle two date d d' s m data why = (FAnswer l, s', tr) -> tagless why -> possible why (concat (map payload l)).
Proof.
  intros E T.
  assert (forall m l, not_found m = FAnswer l -> concat (map payload l) = [] \/ ends false (concat (map payload l)) = false /\ markup (concat (map payload l)) = plain_page) as NF.
  { intros m0 l0 H. unfold not_found in H. apply page_markup in H; auto; try quiet. }
  assert (forall m w l, tagless w -> forbidden m w = FAnswer l -> concat (map payload l) = [] \/ ends false (concat (map payload l)) = false /\ markup (concat (map payload l)) = plain_page) as FB.
  { intros m0 w l0 TW H. unfold forbidden in H. destruct (tagless_quiet w TW) as (A & _ & B). apply page_markup in H; auto; try quiet. rewrite A in H. exact H. }
  assert (concat (map payload l) = [] \/ ends false (concat (map payload l)) = false /\ markup (concat (map payload l)) = plain_page -> possible why (concat (map payload l))) as OK.
  { unfold possible. intros [H|(_ & H)]; rewrite H; cbn; auto. }
  assert (forall f c r, headers_only f c r = FAnswer l -> possible why (concat (map payload l))) as HO.
  { intros f c r H. injection H as <-. unfold possible. cbn. auto. }
  assert (forall f, choose m f = FAnswer l -> possible why (concat (map payload l))) as CH.
  { intros f H. unfold choose in H. destruct (str_eqb _ _); [eapply HO; eauto|]. destruct (is_head m); [eapply HO; eauto|discriminate]. }
  assert (forall d s p rel s' tr, fs_from_disk date d s m p rel = (FAnswer l, s', tr) -> possible why (concat (map payload l))) as FD.
  { intros d0 s0 p rel s1 tr1 H. unfold fs_from_disk in H. destruct (negb (exists_ d0 p)); [apply OK, (NF m); congruence|]. destruct (df_update _ _ _) as [[ok f] tr0]. destruct (negb ok); [congruence|].
    destruct (sends (choose m f) && negb (s_caching s0 =? 0)); [destruct (df_read _ _) as [[ok' f'] tr']; destruct ok'; congruence|]. apply (CH f). congruence. }
  unfold fs_handle in E. destruct (file_path two s m) as [p|]; [|apply OK, (NF m); congruence].
  destruct (negb (is_prefix (s_dir s) p)); [apply OK, (FB m (bs " is not in the configured directory.")); [quiet|congruence]|].
  destruct (is_dir d p); [apply OK, (FB m (bs " is a directory.")); [quiet|congruence]|].
  destruct (str_eqb (m_method m) (bs "GET") || is_head m).
  { unfold fs_get in E. destruct ((0 <? s_caching s) || (0 <? s_scan s)).
    - destruct (sm_find (s_cache s) _) as [e|].
      + destruct (s_caching s =? 0).
        * destruct (df_update _ _ _) as [[ok f] tr0]. destruct ok; [apply (CH f)|]; congruence.
        * destruct (if f_time e =? 0 then _ else _) as [[ok e'] tr0]. destruct ok; [apply (CH e')|]; congruence.
      + destruct ((s_scan s =? 1) || (s_scan s =? 3)); [apply OK, (NF m); congruence|]. destruct (fs_from_disk _ _ _ _ _ _) as [[r s1] tr1] eqn:F. assert (r = FAnswer l) as -> by congruence. eapply FD; eauto.
    - destruct (fs_from_disk _ _ _ _ _ _) as [[r s1] tr1] eqn:F. assert (r = FAnswer l) as -> by congruence. eapply FD; eauto. }
  destruct (str_eqb (m_method m) (bs "POST") || str_eqb (m_method m) (bs "PUT") || str_eqb (m_method m) (bs "DELETE")).
  2: { apply OK. match type of E with (?a, _, _) = _ => assert (a = FAnswer l) as P by congruence end. apply page_markup in P; auto; quiet. }
  destruct (fs_change d d' s m p data why) as [r tr1] eqn:F. assert (r = FAnswer l) as -> by congruence. clear E. unfold fs_change in F.
  destruct (negb (s_writable s)); [apply OK; match type of F with (?a, _) = _ => assert (a = FAnswer l) as P by congruence end; apply page_markup in P; auto; quiet|].
  assert (forall l0, write_answer d' m p (FAnswer l0) = FAnswer l -> ends false (concat (map payload l0)) = false -> In (markup (concat (map payload l0))) [[]; plain_page] -> possible why (concat (map payload l))) as WA.
  { intros l0 H EN IN. unfold write_answer in H. destruct (exists_ d' p); [assert (l0 = l) as <- by congruence; unfold possible; destruct IN as [<-|[<-|[]]]; cbn; auto|].
    destruct (encoded (m_resource m)) as (x & EX & TX & _). rewrite EX in H. destruct (tagless_quiet x TX) as (Q1 & Q2 & Q3).
    match type of H with FAnswer ?a = _ => assert (l = a) as -> by congruence end. rewrite map_app, concat_app. unfold possible, markup in *. rewrite tags_app, EN. clear H.
    cbn [map payload concat app]. rewrite tags_app. set (A := page_start _ _ _). assert (ends false A = false) as -> by (vm_compute; reflexivity). rewrite tags_app, Q1, Q3, app_nil_l.
    assert (tags false A ++ tags false (page_end (bs ".") ++ []) = plain_page) as -> by (vm_compute; reflexivity). destruct IN as [<-|[<-|[]]]; cbn [In]; auto. }
  destruct (str_eqb (m_method m) (bs "DELETE")).
  { destruct (negb (exists_ d p)); [apply OK, (NF m); congruence|]. destruct (exists_ d' p).
    - match type of F with (?a, _) = _ => assert (a = FAnswer l) as P by congruence end. destruct (tagless_quiet why T) as (Q1 & _ & Q3).
      apply page_markup in P; auto; try (apply tagless_b; vm_compute; reflexivity); [|rewrite !ends_app; change (ends false (bs ".</p><p>")) with false; rewrite Q3; reflexivity].
      unfold possible. destruct P as [->|(_ & ->)]; [cbn; auto|]. rewrite (tags_app (bs ".</p><p>")), (tags_app why). change (ends false (bs ".</p><p>")) with false. rewrite Q1, Q3. do 3 right. left. vm_compute. reflexivity.
    - assert (l = [WMsg (MsgCode 204); WMsg (MsgReason (bs "No Content"))]) as -> by congruence. cbn. auto. }
  destruct (exists_ d p); [apply (WA [WMsg (MsgCode 204); WMsg (MsgReason (bs "No Content"))]); [congruence|reflexivity|left; reflexivity]|].
  destruct (negb (exists_ d (branch p))); [apply OK; match type of F with (?a, _) = _ => assert (a = FAnswer l) as P by congruence end; apply page_markup in P; auto; quiet|].
  destruct (page 201 _ _ _ _ _ _ _ _ _) as [l0| | |] eqn:P; try (unfold write_answer in F; destruct (exists_ d' p); congruence).
  apply page_markup in P; auto; try quiet. destruct P as [P|(EN & P)]; apply (WA l0); rewrite ?P; auto; try congruence; cbn; auto.
Qed.
Print Assumptions C113_files_partial.
(** the exception tells the path, and the path comes from the request *)
Theorem C113_delete_refuted two date : ~ forall d d' s m data why l s' tr, fs_handle two date d d' s m data why = (FAnswer l, s', tr) -> possible why (concat (map payload l)).
Proof.
  intros H. set (s := mkfs (bs "/f") (bs "/d") [] [] 0 0 0 true). set (d := fun p : list Z => if str_eqb p (bs "/d/<b>") then Some (NFile [1] 5 true) else None).
  set (m := set_m_method (bs "DELETE") (set_m_resource (bs "/f/<b>") msg_init)).
  assert (exists l tr, fs_handle two date d d s m [] (bs "cannot remove /d/<b>") = (FAnswer l, s, tr) /\ ~ possible (bs "cannot remove /d/<b>") (concat (map payload l))) as (l & tr & E & N); [|apply N, (H _ _ _ _ _ _ _ _ _ E)].
  destruct two; (eexists; eexists; split; [vm_compute; reflexivity|]; unfold possible; intros P; vm_compute in P; repeat (destruct P as [P|P]; [discriminate|]); destruct P).
Qed.
Print Assumptions C113_delete_refuted.

(* ------------------------------------------------------------------ C114 *)

(** C114. The file service answers HEAD without content. *)
Theorem C114_files two date d d' s m data why l s' tr : m_method m = bs "HEAD" ->
  fs_handle two date d d' s m data why = (FAnswer l, s', tr) -> concat (map payload l) = [].
Proof.
  intros HM E. assert (is_head m = true) as IH by (unfold is_head; rewrite HM; reflexivity).
  assert (forall code reason title h1 before about after, page code reason title h1 before about after [] [] false = FAnswer l -> concat (map payload l) = []) as PG.
  { intros until after. unfold page. destruct (xml_encode about); intros H; injection H as <-; reflexivity. }
  assert (not_found m = FAnswer l -> concat (map payload l) = []) as NF by (unfold not_found; rewrite IH; apply PG).
  assert (forall w, forbidden m w = FAnswer l -> concat (map payload l) = []) as FB by (intros w; unfold forbidden; rewrite IH; apply PG).
  assert (forall f, choose m f = FAnswer l -> concat (map payload l) = []) as CH.
  { intros f H. unfold choose, headers_only in H. rewrite IH in H. destruct (str_eqb _ _); injection H as <-; reflexivity. }
  assert (forall d s p rel s' tr, fs_from_disk date d s m p rel = (FAnswer l, s', tr) -> concat (map payload l) = []) as FD.
  { intros d0 s0 p rel s1 tr1 H. unfold fs_from_disk in H. destruct (negb (exists_ d0 p)); [apply NF; congruence|]. destruct (df_update _ _ _) as [[ok f] tr0]. destruct (negb ok); [congruence|].
    destruct (sends (choose m f) && negb (s_caching s0 =? 0)); [destruct (df_read _ _) as [[ok' f'] tr']; destruct ok'; congruence|]. apply (CH f). congruence. }
  unfold fs_handle in E. destruct (file_path two s m) as [p|]; [|apply NF; congruence].
  destruct (negb (is_prefix (s_dir s) p)); [apply (FB (bs " is not in the configured directory.")); congruence|].
  destruct (is_dir d p); [apply (FB (bs " is a directory.")); congruence|]. rewrite IH, orb_true_r in E.
  unfold fs_get in E. destruct ((0 <? s_caching s) || (0 <? s_scan s)).
  - destruct (sm_find (s_cache s) _) as [e|].
    + destruct (s_caching s =? 0).
      * destruct (df_update _ _ _) as [[ok f] tr0]. destruct ok; [apply (CH f)|]; congruence.
      * destruct (if f_time e =? 0 then _ else _) as [[ok e'] tr0]. destruct ok; [apply (CH e')|]; congruence.
    + destruct ((s_scan s =? 1) || (s_scan s =? 3)); [apply NF; congruence|]. destruct (fs_from_disk _ _ _ _ _ _) as [[r s1] tr1] eqn:F. assert (r = FAnswer l) as -> by congruence. eapply FD; eauto.
  - destruct (fs_from_disk _ _ _ _ _ _) as [[r s1] tr1] eqn:F. assert (r = FAnswer l) as -> by congruence. eapply FD; eauto.
Qed.
Print Assumptions C114_files.
Definition head_request : msg := set_m_method (bs "HEAD") (set_m_resource (bs "/f/x") msg_init).
Example C114_case : exists l s', fs_handle true (fun _ => bs "now") (fun _ => None) (fun _ => None) (mkfs (bs "/f") (bs "/d") [] [] 0 0 0 true) head_request [] [] = (FAnswer l, s', [AIsDir (bs "/d/x"); AExists (bs "/d/x")])
  /\ In (WMsg (MsgCode 404)) l.
Proof. do 2 eexists. split; [vm_compute; reflexivity|left; reflexivity]. Qed.

(** The server's own pages come with content to HEAD as well: the client takes the page for the beginning of the next response. *)
Theorem C114_pages_refuted pos m e life cf rm :
  m_method m = bs "HEAD" -> 0 < m_vmaj m < 65536 -> 0 <= m_vmin m < 65536 -> from_program e ->
  exists l page, err_ops m e = Ok l /\ says m e page /\
  (zlen page < two64 - 1 -> 0 <= cf_max cf -> cf_request cf = false -> m_headers rm = [] -> m_missing rm = false -> m_req_method rm = bs "HEAD" ->
   forall pieces more, cut pieces (page_bytes pos (m_method m) (m_vmaj m) (m_vmin m) life l ++ more) ->
   exists r, feed cf (p_init cf) rm pieces = Ok (Some r) /\ r_rc r = TTrue /\ m_code (r_msg r) = code_of e /\ r_rest r = page ++ more /\ page <> []).
Proof.
  intros HM V1 V2 FE. destruct (page_says m e FE) as (l & st & EL & SA & FP & ML & EC & ER). exists l, (concat (map payload l)). split; auto. split; auto.
  intros BL MX RQ MH MM HD pieces more CU. apply andb_prop in ER. destruct ER as (ER1 & ER2). pose proof (headers_fit e FE) as (HF & HT & HC).
  destruct (page_left pos (m_method m) (m_vmaj m) (m_vmin m) life (Some st) None (headers_of e) l cf rm) with (pieces := pieces) (more := more) as (r & F & RC & RS & CD & _); auto.
  - destruct st as [cd rs]; cbn [fst snd status_code] in *; subst cd; destruct e; cbn; lia.
  - destruct st as [cd rs]; cbn [fst snd status_reason] in *. apply (forallb_Forall (fun c => (32 <=? c) && (c <? 256) && negb (c =? 127))); [intros; unfold text_char; lia|auto].
  - destruct st as [cd rs]; cbn [fst snd status_reason] in *. lia.
  - exists r. split; auto. split; auto. split; [destruct st; cbn [status_code fst] in *; congruence|]. split; auto. intros N. rewrite N in SA. clear - SA. destruct e; first [vm_compute in SA; discriminate | destruct SA as [SA _]; vm_compute in SA; discriminate].
Qed.
Print Assumptions C114_pages_refuted.
Example C114_case_page : m_method head_request = bs "HEAD" /\ m_vmaj head_request = 1 /\ from_program PNotFound
  /\ exists l r, err_ops head_request PNotFound = Ok l /\ feed (ex_cf false false) (p_init (ex_cf false false)) (set_m_req_method (bs "HEAD") ex_msg) [page_bytes (fun _ _ => 0%nat) (bs "HEAD") 1 1 LKeep l] = Ok (Some r)
  /\ zlen (r_rest r) = 150.
Proof. split; [reflexivity|]. split; [reflexivity|]. split; [exact I|]. do 2 eexists. split; [vm_compute; reflexivity|]. split; vm_compute; reflexivity. Qed.
