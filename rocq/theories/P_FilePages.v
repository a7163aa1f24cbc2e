(** C113: what the pages of the file service say. *)
From Coq Require Import String ZArith List Bool Lia.
From Verif Require Import Base SMap AlgModel AlgSpec AlgProofs DictModel HttpModel MessageModel WriterModel WriterSpec PathModel FileModel FileSpec PathProofs FileProofs FileRuns FileCache PagesSpec P_File
  UploadSpec UploadProofs.
Import ListNotations.

(** a page: status, heading, the sentence before and after what it is about, and the header field that comes with it *)
Record said := mksaid { sd_code : Z; sd_title : list Z; sd_h1 : list Z; sd_before : list Z; sd_about : list Z; sd_after : list Z; sd_headers : list (list Z * list Z) }.
Definition pages_of (m : msg) (why : list Z) : list said :=
  [mksaid 403 (bs "403 Forbidden") (bs "Forbidden") (bs "The requested URL ") (m_resource m) (bs " is not in the configured directory.") [];
   mksaid 403 (bs "403 Forbidden") (bs "Forbidden") (bs "The requested URL ") (m_resource m) (bs " is a directory.") [];
   mksaid 404 (bs "404 Not Found") (bs "Not Found") (bs "The requested URL ") (m_resource m) (bs " was not found on this server.") [];
   mksaid 404 (bs "404 Not Found") (bs "Not Found") (bs "The directory of the requested URL ") (m_resource m) (bs " was not found on this server.") [];
   mksaid 405 (bs "405 Method Not Allowed") (bs "Not Allowed") (bs "The requested method ") (m_method m) (bs " is not allowed on this server.") [(bs "Allow", bs "GET, HEAD")];
   mksaid 501 (bs "501 Not Implemented") (bs "Not Implemented") (bs "The requested method ") (m_method m) (bs " is not implemented on this server.") [];
   mksaid 201 (bs "201 Created") (bs "Created") [] (m_resource m) [] [(bs "Location", m_resource m)];
   mksaid 500 (bs "500 Server Error") (bs "Server Error") (bs "Error writing to ") (m_resource m) (bs ".") [];
   mksaid 500 (bs "500 Server Error") (bs "Server Error") (bs "Could not delete ") (m_resource m) (bs ".</p><p>" ++ why ++ bs ".") []].
Definition line (x : list Z) : list Z := x ++ [10].
(** the page is the text of [e], with what it is about escaped *)
Definition says_page (e : said) (page : list Z) : Prop := exists x, xml_clean (sd_about e) (xml_unescape x) /\ tagless x /\
  page = line (bs "<html><head>") ++ line (bs "<title>" ++ sd_title e ++ bs "</title>") ++ line (bs "</head><body>") ++ line (bs "<h1>" ++ sd_h1 e ++ bs "</h1>")
         ++ line (bs "<p>" ++ sd_before e ++ x ++ sd_after e ++ bs "</p>") ++ line (bs "</body></html>").
Definition texts (l : list wop) : list Z := concat (map payload l).
Definition fields (l : list wop) : list (list Z * list Z) := flat_map (fun x => match x with WMsg (MsgAddHeader n v) => [(n, v)] | _ => [] end) l.
(** an answer with the header of a file alone; that a change is done; to HEAD the header of a page; one page; or, if a new file could not be made, the page that tells that it was made and then the page that tells that it was not *)
Inductive answered (pos : dpos) (m : msg) (why : list Z) (l : list wop) : Prop :=
| answered_header v : texts l = [] -> fields l = [(bs "Last-Modified", v)] ->
    status pos l = 304 /\ v = d_get (m_headers m) (bs "If-Modified-Since") \/ status pos l = 200 /\ m_method m = bs "HEAD" -> answered pos m why l
| answered_done : texts l = [] -> fields l = [] -> status pos l = 204 -> In (m_method m) [bs "POST"; bs "PUT"; bs "DELETE"] -> answered pos m why l
| answered_head e : In e (pages_of m why) -> status pos l = sd_code e -> fields l = sd_headers e -> texts l = [] -> m_method m = bs "HEAD" -> answered pos m why l
| answered_page e : In e (pages_of m why) -> status pos l = sd_code e -> fields l = sd_headers e -> says_page e (texts l) -> answered pos m why l
| answered_failed e : In e (pages_of m why) -> sd_before e = bs "Error writing to " -> status pos l = 500 -> fields l = [] -> says_page e (texts l) -> answered pos m why l
| answered_both e1 e2 a b : In e1 (pages_of m why) -> sd_code e1 = 201 -> In e2 (pages_of m why) -> sd_before e2 = bs "Error writing to " -> status pos l = 500 -> fields l = sd_headers e1 ->
    texts l = a ++ b -> says_page e1 a -> says_page e2 b -> answered pos m why l.

Lemma texts_app a b : texts (a ++ b) = texts a ++ texts b.
Proof. unfold texts. rewrite map_app, concat_app. reflexivity. Qed.
Lemma fields_app a b : fields (a ++ b) = fields a ++ fields b.
Proof. apply flat_map_app. Qed.
Lemma encoded_tagless s x : xml_encode s = Some x -> tagless x.
Proof.
  intros E. apply xml_encode_safe in E. clear s. induction x as [|c x IH]; [split; intros []|]. cbn [xml_safe existsb] in E.
  apply andb_prop in E. destruct E as (E1 & E2). apply andb_prop in E1. destruct E1 as (E1 & _). destruct (IH E2) as (A & B).
  assert (c <> 60 /\ c <> 62) as (N1 & N2) by (split; intros ->; discriminate).
  split; intros [H|H]; [apply N1; exact H|apply A; exact H|apply N2; exact H|apply B; exact H].
Qed.
Lemma encoded s : exists x, xml_encode s = Some x /\ tagless x /\ xml_clean s (xml_unescape x).
Proof. destruct (xml_encode_full s) as (x & E & C & _). exists x. split; auto. split; auto. apply (encoded_tagless s); auto. Qed.
Lemma written e x : xml_clean (sd_about e) (xml_unescape x) -> tagless x ->
  says_page e (texts [WNoCopy (page_start (sd_title e) (sd_h1 e) (sd_before e)); WText x; WNoCopy (page_end (sd_after e))]).
Proof.
  intros C T. exists x. split; [exact C|]. split; [exact T|]. unfold texts, page_start, page_end, line, NL. cbn [map payload concat]. rewrite <- ?app_assoc, ?app_nil_r. reflexivity.
Qed.
Lemma page_says code reason title h1 before about after x1 x2 b l hs :
  let e := mksaid code title h1 before about after hs in
  0 <= code < 65536 -> Forall coded x1 -> Forall coded x2 -> Forall steady x1 -> Forall steady x2 -> texts x1 = [] -> texts x2 = [] -> fields x1 ++ fields x2 = hs ->
  page code reason title h1 before about after x1 x2 b = FAnswer l -> Forall coded l /\ (forall c, last_code l c = code) /\ fields l = hs /\ (b = false /\ texts l = [] \/ b = true /\ says_page e (texts l)).
Proof.
  intros e C C1 C2 S1 S2 T1 T2 FH E. destruct (page_codes code reason title h1 before about after x1 x2 b C C1 C2 S1 S2) as (l' & E' & CF & CL). rewrite E in E'. injection E' as <-.
  split; [exact CF|]. split; [exact CL|]. destruct (encoded about) as (x & EX & TX & CX). unfold page in E. rewrite EX in E.
  match type of E with FAnswer ?a = _ => assert (l = a) as -> by congruence end. clear E CF CL. split.
  - rewrite !fields_app. cbn [fields flat_map app]. destruct b; cbn [fields flat_map app]; exact FH.
  - rewrite !texts_app, T1, T2. destruct b; [right|left; auto]. split; [reflexivity|]. rewrite app_nil_r. apply (written e x CX TX).
Qed.
Lemma one_page pos m why e l b : In e (pages_of m why) -> (b = false -> m_method m = bs "HEAD") ->
  Forall coded l /\ (forall c, last_code l c = sd_code e) /\ fields l = sd_headers e /\ (b = false /\ texts l = [] \/ b = true /\ says_page e (texts l)) -> answered pos m why l.
Proof.
  intros I HB (CF & CL & FL & [(B & T)|(_ & T)]); [apply (answered_head pos m why l e I); auto; apply status_coded; auto|].
  apply (answered_page pos m why l e I); auto. apply status_coded; auto.
Qed.
Ltac listed := cbn [pages_of In]; first [left; reflexivity | right; listed].
Ltac by_page P :=
  match type of P with page ?code ?reason ?title ?h1 ?before ?about ?after ?x1 ?x2 ?b = FAnswer ?l =>
    match goal with |- answered ?pos ?m ?why _ => apply (one_page pos m why (mksaid code title h1 before about after (fields x1 ++ fields x2)) l b); [listed|intros NB; first [discriminate NB | apply str_eqb_eq; unfold is_head, HEAD in NB; apply negb_false_iff in NB; exact NB]|];
      refine (page_says code reason title h1 before about after x1 x2 b l _ _ _ _ _ _ _ _ _ P); try reflexivity; [lia|repeat constructor|repeat constructor|repeat constructor|repeat constructor] end end.
(** C113. Every answer of the file service with a page says what the table tells for its status, with the resource or the method as text. *)
Theorem C113_texts_partial two date pos d d' s m data why l s' tr :
  fs_handle two date d d' s m data why = (FAnswer l, s', tr) -> answered pos m why l.
Proof.
  intros E.
  assert (NF : not_found m = FAnswer l -> answered pos m why l) by (unfold not_found; intros P; by_page P).
  assert (CH : forall f, choose m f = FAnswer l -> answered pos m why l).
  { intros f H. unfold choose, headers_only in H. destruct (str_eqb _ _) eqn:Q; [|destruct (is_head m) eqn:Q2; [|discriminate]].
    - apply str_eqb_eq in Q. match type of H with FAnswer ?a = _ => assert (l = a) as -> by congruence end. apply (answered_header pos m why _ (f_date f)); try reflexivity. left. split; [apply status_coded; [repeat constructor; lia|reflexivity]|exact Q].
    - match type of H with FAnswer ?a = _ => assert (l = a) as -> by congruence end. apply (answered_header pos m why _ (f_date f)); try reflexivity. right. split; [apply status_coded; [repeat constructor; lia|reflexivity]|apply str_eqb_eq; exact Q2]. }
  assert (FD : forall d s p rel s' tr, fs_from_disk date d s m p rel = (FAnswer l, s', tr) -> answered pos m why l).
  { intros d0 s0 p rel s1 tr1 H. unfold fs_from_disk in H. destruct (negb (exists_ d0 p)); [apply NF; congruence|]. destruct (df_update _ _ _) as [[ok f] tr0]. destruct (negb ok); [congruence|].
    destruct (sends (choose m f) && negb (s_caching s0 =? 0)); [destruct (df_read _ _) as [[ok' f'] tr']; destruct ok'; congruence|]. apply (CH f). congruence. }
  unfold fs_handle in E. destruct (file_path two s m) as [p|]; [|apply NF; congruence].
  destruct (negb (is_prefix (s_dir s) p)); [assert (P : forbidden m (bs " is not in the configured directory.") = FAnswer l) by congruence; unfold forbidden in P; by_page P|].
  destruct (is_dir d p); [assert (P : forbidden m (bs " is a directory.") = FAnswer l) by congruence; unfold forbidden in P; by_page P|].
  destruct (str_eqb (m_method m) (bs "GET") || is_head m).
  { unfold fs_get in E. destruct ((0 <? s_caching s) || (0 <? s_scan s)).
    - destruct (sm_find (s_cache s) _) as [e|].
      + destruct (s_caching s =? 0).
        * destruct (df_update _ _ _) as [[ok f] tr0]. destruct ok; [apply (CH f)|]; congruence.
        * destruct (if f_time e =? 0 then _ else _) as [[ok e'] tr0]. destruct ok; [apply (CH e')|]; congruence.
      + destruct ((s_scan s =? 1) || (s_scan s =? 3)); [apply NF; congruence|]. destruct (fs_from_disk _ _ _ _ _ _) as [[r s1] tr1] eqn:F. assert (r = FAnswer l) as -> by congruence. eapply FD; eauto.
    - destruct (fs_from_disk _ _ _ _ _ _) as [[r s1] tr1] eqn:F. assert (r = FAnswer l) as -> by congruence. eapply FD; eauto. }
  destruct (str_eqb (m_method m) (bs "POST") || str_eqb (m_method m) (bs "PUT") || str_eqb (m_method m) (bs "DELETE")) eqn:CM.
  2: { match type of E with (?a, _, _) = _ => assert (P : a = FAnswer l) by congruence end. by_page P. }
  assert (MM : In (m_method m) [bs "POST"; bs "PUT"; bs "DELETE"]).
  { apply orb_prop in CM. destruct CM as [CM|CM]; [apply orb_prop in CM; destruct CM as [CM|CM]|]; apply str_eqb_eq in CM; rewrite CM; [left|right; left|right; right; left]; reflexivity. }
  destruct (fs_change d d' s m p data why) as [r tr1] eqn:F. assert (r = FAnswer l) as -> by congruence. clear E. unfold fs_change in F.
  destruct (negb (s_writable s)); [match type of F with (?a, _) = _ => assert (P : a = FAnswer l) by congruence end; by_page P|].
  destruct (str_eqb (m_method m) (bs "DELETE")).
  { destruct (negb (exists_ d p)); [apply NF; congruence|]. destruct (exists_ d' p).
    - match type of F with (?a, _) = _ => assert (P : a = FAnswer l) by congruence end. by_page P.
    - assert (l = [WMsg (MsgCode 204); WMsg (MsgReason (bs "No Content"))]) as -> by congruence. apply answered_done; [reflexivity|reflexivity|apply status_coded; [repeat constructor; lia|reflexivity]|exact MM]. }
  set (e2 := mksaid 500 (bs "500 Server Error") (bs "Server Error") (bs "Error writing to ") (m_resource m) (bs ".") []).
  assert (I2 : In e2 (pages_of m why)) by (unfold e2; listed).
  assert (WA : forall l0, write_answer d' m p (FAnswer l0) = FAnswer l -> Forall coded l0 -> l = l0 \/ status pos l = 500 /\ fields l = fields l0 /\ exists b, texts l = texts l0 ++ b /\ says_page e2 b).
  { intros l0 H C0. unfold write_answer in H. destruct (exists_ d' p); [left; congruence|right]. destruct (encoded (m_resource m)) as (x & EX & TX & CX). rewrite EX in H.
    match type of H with FAnswer ?a = _ => assert (l = a) as -> by congruence end. clear H. split; [|split].
    - apply status_coded; [apply Forall_app; split; [exact C0|repeat constructor; lia]|]. rewrite last_code_app. reflexivity.
    - rewrite fields_app. cbn [fields flat_map app]. rewrite app_nil_r. reflexivity.
    - eexists. split; [apply texts_app|]. exact (written e2 x CX TX). }
  destruct (exists_ d p).
  { destruct (WA [WMsg (MsgCode 204); WMsg (MsgReason (bs "No Content"))]) as [->|(S & FL & b & T & B)]; [congruence|repeat constructor; lia|apply answered_done; [reflexivity|reflexivity|apply status_coded; [repeat constructor; lia|reflexivity]|exact MM]|].
    apply (answered_failed pos m why l e2); auto. rewrite T. exact B. }
  destruct (negb (exists_ d (branch p))); [match type of F with (?a, _) = _ => assert (P : a = FAnswer l) by congruence end; by_page P|].
  destruct (page 201 _ _ _ _ _ _ _ _ _) as [l0| | |] eqn:P; try (unfold write_answer in F; destruct (exists_ d' p); congruence).
  set (e1 := mksaid 201 (bs "201 Created") (bs "Created") [] (m_resource m) [] [(bs "Location", m_resource m)]).
  assert (I1 : In e1 (pages_of m why)) by (unfold e1; listed).
  assert (K : Forall coded l0 /\ (forall c, last_code l0 c = 201) /\ fields l0 = sd_headers e1 /\ (true = false /\ texts l0 = [] \/ true = true /\ says_page e1 (texts l0))).
  { refine (page_says 201 _ _ _ _ _ _ _ _ _ l0 _ _ _ _ _ _ _ _ _ P); try reflexivity; [lia|repeat constructor|repeat constructor|repeat constructor|repeat constructor]. }
  destruct (WA l0) as [->|(S & FL & b & T & B)]; [congruence|apply K|apply (one_page pos m why e1 l0 true I1 ltac:(discriminate) K)|].
  destruct K as (_ & _ & FH & [(X & _)|(_ & SP)]); [discriminate|]. apply (answered_both pos m why l e1 e2 (texts l0) b); auto. congruence.
Qed.
Print Assumptions C113_texts_partial.
Example C113_texts_case two : exists l s' tr, fs_handle two (fun _ => bs "now") (fun _ => None) (fun _ => None) (mkfs (bs "/f") (bs "/d") [] [] 0 0 0 true) (set_m_method (bs "GET") (set_m_resource (bs "/f/<x>") msg_init)) [] []
  = (FAnswer l, s', tr) /\ texts l = bs "<html><head>" ++ [10] ++ bs "<title>404 Not Found</title>" ++ [10] ++ bs "</head><body>" ++ [10] ++ bs "<h1>Not Found</h1>" ++ [10]
    ++ bs "<p>The requested URL /f/&lt;x&gt; was not found on this server.</p>" ++ [10] ++ bs "</body></html>" ++ [10].
Proof. eexists. eexists. eexists. destruct two; (split; [vm_compute; reflexivity|]); vm_compute; reflexivity. Qed.

(** C64: the time told with the header of a file is the one that the file has now. *)
Theorem C64_told_time_partial two date cwd resource opts ops d d' m data why l s' tr v :
  (forall v, directory_of opts = Some v -> ends_with_name (normalize two v)) -> Forall serves ops -> (forall n d, In (FStart n d) ops -> real_disk d) ->
  (forall d, seen ops d -> all_readable d) -> all_readable d -> caching_of opts <= 1 ->
  fs_handle two date d d' (fst (fs_run two date (configure two date resource opts) ops)) m data why = (FAnswer l, s', tr) -> In (bs "Last-Modified", v) (fields l) ->
  exists p c t r, stands_for cwd (directory_of opts) (file_of opts) (asked resource m) p /\ d p = Some (NFile c t r) /\ v = date t.
Proof.
  intros EN SV RD AR AD C H I.
  assert (J : In (WMsg (MsgAddHeader (bs "Last-Modified") v)) l).
  { apply in_flat_map in I. destruct I as (x & IX & IF). destruct x as [a|a|a| |o|a| | |]; try (exfalso; exact IF). destruct o; try (exfalso; exact IF). destruct IF as [IF|[]].
    match type of IF with (?a, ?b) = _ => assert (a = bs "Last-Modified") as E1 by congruence; assert (b = v) as E2 by congruence end. rewrite <- E1, <- E2. exact IX. }
  destruct (told_time two date cwd resource opts ops EN SV RD AR d d' m data why l s' tr AD H) as (p & c & t & r & A & B & _ & D); auto; [|exists p, c, t, r; auto].
  intros F. rewrite Forall_forall in F. apply (F _ J). reflexivity.
Qed.
Print Assumptions C64_told_time_partial.
Example C64_told_time_case two : exists l s' tr, fs_handle two (fun t => [t]) (x_file "new" 6 true) nobody_else (configure two (fun t => [t]) (bs "/files") [(nobody_else, ODirectory (bs "/w"))]) (request "HEAD" "/files/x") [] []
  = (FAnswer l, s', tr) /\ fields l = [(bs "Last-Modified", [6])].
Proof. eexists. eexists. eexists. destruct two; (split; [vm_compute; reflexivity|]); vm_compute; reflexivity. Qed.
