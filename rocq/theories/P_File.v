(** C42, C61, C62, C63, C64, C99: the file service. *)
From Coq Require Import String ZArith List Bool Lia.
From Verif Require Import Base AlgModel AlgProofs DictModel HttpModel HttpSpec HttpHead HttpProofs HttpExamples MessageModel MessageSpec MessageProofs WriterModel WriterSpec WriterProofs
  ServerModel ServerSpec ServerProofs UserModel UserSpec AuthModel AuthSpec AuthProofs P_Auth PathModel FileModel FileSpec PathProofs FileProofs FileRuns FileCache SenderModel SenderProofs.
Import ListNotations.

(* ------------------------------------------------------------------ C61 *)

(** The claim: whatever is opened, listed, written or removed is in the configured directory, or is the configured file. *)
Definition confined (two : bool) (date : Z -> list Z) (cwd : list (list Z)) : Prop := forall resource opts ops a,
  (forall n d, In (FStart n d) ops -> real_disk d) -> Forall serves ops ->
  In a (snd (fs_run two date (configure two date resource opts) ops)) -> touches a ->
  (exists v, directory_of opts = Some v /\ inside cwd v (a_path a)) \/ (exists f, file_of opts = Some f /\ resolve cwd (a_path a) = resolve cwd f).

Definition request (method res : string) : msg := set_m_method (bs method) (set_m_resource (bs res) msg_init).
Definition one_file (p : string) (c : list Z) (t : Z) (r : bool) : disk := fun q => if str_eqb q (bs p) then Some (NFile c t r) else None.
Definition nobody_else : disk := fun _ => None.
Definition served (dir : string) (ops : list fop) (two : bool) : list access :=
  snd (fs_run two (fun _ => bs "now") (configure two (fun _ => bs "now") (bs "/files") [(nobody_else, ODirectory (bs dir))]) ops).
Lemma escapes two date cwd dir res p : In (ARead (bs p)) (snd (fs_run two date (configure two date (bs "/files") [(nobody_else, ODirectory (bs dir))]) [FRequest (one_file p [1] 5 true) nobody_else (request "GET" res) [] []])) ->
  (forall rest, resolve cwd (bs p) <> resolve cwd (bs dir) ++ rest) -> ~ confined two date cwd.
Proof.
  intros I N C. destruct (C (bs "/files") [(nobody_else, ODirectory (bs dir))] [FRequest (one_file p [1] 5 true) nobody_else (request "GET" res) [] []] (ARead (bs p))) as [(v & E & rest & R)|(f & E & _)].
  - intros n d [X|[]]. discriminate. - repeat constructor. - exact I. - exact Logic.I.
  - injection E as <-. apply (N rest). exact R.
  - discriminate.
Qed.
(** C61 is false: the check compares the text of the paths, so a directory beside the configured one with a name that goes on after
    its name is open to everyone. *)
Theorem C61_confined_refuted two cwd : ~ confined two (fun _ => bs "now") cwd.
Proof.
  apply (escapes two _ cwd "/var/www" "/files/../www-secret/x" "/var/www-secret/x").
  - destruct two; vm_compute; auto 10.
  - intros rest H. apply (f_equal (fun l => nth 1 l [])) in H. cbn in H. discriminate.
Qed.
Print Assumptions C61_confined_refuted.
(** ... and so is everything if the directory is given as [.]: [./..] begins with it. *)
Theorem C61_dot_refuted two : exists ops a, In a (served "." ops two) /\ touches a /\ resolve [bs "srv"] (a_path a) = [bs "etc"; bs "passwd"].
Proof.
  exists [FRequest (one_file "./../etc/passwd" [1] 5 true) nobody_else (request "GET" "/files/../etc/passwd") [] []], (ARead (bs "./../etc/passwd")).
  split; [destruct two; vm_compute; auto 10|]. split; [exact Logic.I|]. vm_compute. reflexivity.
Qed.
Print Assumptions C61_dot_refuted.
(** ... and with an old version of Boost everything below a directory with a name such as [.a]. *)
Theorem C61_old_boost_refuted : exists ops a, In a (served "/var/www/.a" ops true) /\ touches a /\ resolve [] (a_path a) = [bs "etc"; bs "passwd"].
Proof.
  exists [FRequest (one_file "/var/www/.a/../../../etc/passwd" [1] 5 true) nobody_else (request "GET" "/files/../../../etc/passwd") [] []], (ARead (bs "/var/www/.a/../../../etc/passwd")).
  split; [vm_compute; auto 10|]. split; [exact Logic.I|]. vm_compute. reflexivity.
Qed.
Print Assumptions C61_old_boost_refuted.

(** C61, what holds of it: if the directory's path ends with a name (and with old versions of Boost no names such as [.a] occur),
    every access is to a path in the directory or in one beside it with a name that begins with its name, or to the file. *)
Theorem C61_beside_partial two date cwd resource opts ops a :
  (forall v, directory_of opts = Some v -> ends_with_name (normalize two v)) ->
  (two = true -> (forall v, directory_of opts = Some v -> tame v) /\ forall d d' m data why, In (FRequest d d' m data why) ops -> tame (asked resource m)) ->
  (forall n d, In (FStart n d) ops -> real_disk d) -> Forall serves ops ->
  In a (snd (fs_run two date (configure two date resource opts) ops)) -> touches a ->
  (exists v, directory_of opts = Some v /\ beside cwd v (a_path a)) \/ (exists f, file_of opts = Some f /\ resolve cwd (a_path a) = resolve cwd f).
Proof. exact (only_beside two date cwd resource opts ops a). Qed.
Print Assumptions C61_beside_partial.
(** C61, for requests whose decoded path has no name [..]: for every directory, and both versions of Boost, nothing outside is used. *)
Theorem C61_inside_partial two date cwd resource opts ops a :
  (forall d d' m data why, In (FRequest d d' m data why) ops -> ~ In (bs "..") (names (asked resource m))) ->
  (forall n d, In (FStart n d) ops -> real_disk d) -> Forall serves ops ->
  In a (snd (fs_run two date (configure two date resource opts) ops)) -> touches a ->
  (exists v, directory_of opts = Some v /\ inside cwd v (a_path a)) \/ (exists f, file_of opts = Some f /\ resolve cwd (a_path a) = resolve cwd f).
Proof. exact (stays_inside two date cwd resource opts ops a). Qed.
Print Assumptions C61_inside_partial.
(** a directory with two files, below another one, found by a scan and by requests *)
Definition tree : disk := fun p =>
  if str_eqb p (bs "/var/www") then Some (NDir [bs "a.txt"; bs "sub"] 1)
  else if str_eqb p (bs "/var/www/sub") then Some (NDir [bs "b"] 1)
  else if str_eqb p (bs "/var/www/a.txt") then Some (NFile (bs "hello") 5 true)
  else if str_eqb p (bs "/var/www/sub/b") then Some (NFile (bs "there") 6 true)
  else None.
Definition visit : list fop := [FStart 9 tree; FRequest tree tree (request "GET" "/files/a.txt") [] []; FRequest tree tree (request "GET" "/files/sub/../%61.txt") [] []; FRequest tree tree (request "PUT" "/files/new") (bs "x") []; FStop].
Example C61_case : let opts := [(tree, ODirectory (bs "/var/x/../www")); (tree, OScan 2); (tree, OWritable true)] in
  (forall v, directory_of opts = Some v -> ends_with_name (normalize true v) /\ tame v) /\ Forall serves visit
  /\ (forall d d' m data why, In (FRequest d d' m data why) visit -> tame (asked (bs "/files") m))
  /\ In (ARead (bs "/var/www/sub/b")) (snd (fs_run true (fun _ => []) (configure true (fun _ => []) (bs "/files") opts) visit))
  /\ In (AWrite (bs "/var/www/new") false (bs "x")) (snd (fs_run true (fun _ => []) (configure true (fun _ => []) (bs "/files") opts) visit)).
Proof.
  cbv zeta. assert (forall p, forallb (fun f => match f with [a; b] => (a =? 46) && (b =? 46) || negb ((a =? 46) || (b =? 46)) | _ => true end) (names p) = true -> tame p) as T.
  { intros p F a b I H. rewrite forallb_forall in F. specialize (F _ I). cbn in F. lia. }
  split; [intros v E; injection E as <-; split; [exists [bs "var"], (bs "www"); vm_compute; repeat split; discriminate|apply T; vm_compute; reflexivity]|].
  split; [repeat constructor|]. split.
  - intros d d' m data why I. apply T. cbn [visit In] in I. destruct I as [I|[I|[I|[I|[I|[]]]]]]; try discriminate; injection I as <- <- <- <- <-; vm_compute; reflexivity.
  - split; vm_compute; auto 30.
Qed.

(* ------------------------------------------------------------------ C63 *)

(** C63. A service that was never made writable changes nothing, whatever is configured and requested. *)
Theorem C63_read_only two date resource ops : (forall d b, In (FOption d (OWritable b)) ops -> b = false) ->
  forall a, In a (snd (fs_run two date (fs_init resource) ops)) -> ~ changes a.
Proof. exact (read_only two date resource ops). Qed.
Print Assumptions C63_read_only.

(** the status code of an answer *)
Definition status (pos : dpos) (l : list wop) : Z := m_code (o_msg (w_msg (w_ops pos (w_respond (bs "GET") 1 1 LKeep) l))).
Definition plain_op (x : wop) : Prop := match x with WText _ | WNoCopy _ | WMsg (MsgAddHeader _ _) => True | _ => False end.
Lemma status_page pos code reason l : 0 <= code < 65536 -> Forall plain_op l -> status pos ([WMsg (MsgCode code); WMsg (MsgReason reason)] ++ l) = code.
Proof.
  intros C F. unfold status, w_ops. rewrite fold_left_app.
  assert (forall l w, Forall plain_op l -> m_code (o_msg (w_msg (fold_left (w_op pos) l w))) = m_code (o_msg (w_msg w))) as K.
  { clear. induction l as [|x l IH]; intros w F; [reflexivity|]. inversion F; subst. cbn [fold_left]. rewrite IH by auto. destruct x as [s|s|s| |[] | | | |]; try destruct H1.
    - cbn [w_op]. unfold w_text. destruct s; reflexivity.
    - cbn [w_op]. destruct s; [reflexivity|]. cbn [w_no_copy w_msg]; unfold w_flush; destruct (w_stream_empty w); [|destruct (w_stream w)]; reflexivity.
    - destruct w as [om]. destruct om as [? mm]. destruct mm. reflexivity. }
  rewrite K by auto. cbn. apply Z.mod_small. unfold two32. lia.
Qed.
Lemma page_status pos code reason title h1 before about after e1 e2 body l : 0 <= code < 65536 -> Forall plain_op e1 -> Forall plain_op e2 ->
  page code reason title h1 before about after e1 e2 body = FAnswer l -> status pos l = code.
Proof.
  intros C F1 F2. unfold page. destruct (xml_encode about) as [x|].
  - intros H. injection H as <-. apply status_page; auto. apply Forall_app. split; auto. apply Forall_app. split; auto. destruct body; repeat constructor.
  - destruct body; [discriminate|]. intros H. injection H as <-. apply status_page; auto. apply Forall_app; auto.
Qed.
Lemma page_total code reason title h1 before about after e1 e2 body : exists l, page code reason title h1 before about after e1 e2 body = FAnswer l.
Proof. unfold page. destruct (xml_encode_full about) as (x & -> & _). eauto. Qed.
(** C63. A request with a method other than GET and HEAD is then answered with a page: 403 or 404 if there is nothing to be had under its
    name, else 405 for POST, PUT and DELETE and 501 for the others. *)
Theorem C63_refused two date pos resource ops d d' m data why : (forall d b, In (FOption d (OWritable b)) ops -> b = false) ->
  m_method m <> bs "GET" -> m_method m <> bs "HEAD" ->
  exists l s' tr, fs_handle two date d d' (fst (fs_run two date (fs_init resource) ops)) m data why = (FAnswer l, s', tr) /\
  (status pos l = 403 \/ status pos l = 404 \/
   status pos l = if existsb (str_eqb (m_method m)) [bs "POST"; bs "PUT"; bs "DELETE"] then 405 else 501).
Proof.
  intros NW NG NH. set (s := fst _).
  assert (s_writable s = false) as W.
  { unfold s. clear s. assert (s_writable (fs_init resource) = false) as W0 by reflexivity. revert W0 NW. generalize (fs_init resource) as s. induction ops as [|o l IH]; intros s W0 NW; [exact W0|]. cbn [fs_run].
    destruct (fs_step two date s o) as [s1 t1] eqn:S. specialize (IH s1). destruct (fs_run two date s1 l) as [s2 t2]. cbn [fst] in *. apply IH; [|intros; eapply NW; right; eauto].
    destruct o as [d0 o|n d0| |d0 d1 m0 x y]; cbn [fs_step] in S.
    - pose proof (fun b E => NW d0 b (or_introl (f_equal (FOption d0) E))) as NB. destruct o as [v|v|n|n|n|b]; cbn [fs_option] in S; try (destruct (_ && _) in S); inversion S; subst; cbn; auto. 
    - destruct (fs_start date n d0 s) as [[ok s3] t3] eqn:X. inversion S; subst. apply start_same in X. destruct X as (_ & _ & _ & -> & _). auto.
    - inversion S; subst. auto.
    - destruct (fs_handle two date d0 d1 s m0 x y) as [[r s3] t3] eqn:X. inversion S; subst. apply handle_same in X as [X _]. destruct X as (_ & _ & _ & -> & _). auto. }
  assert (forall m, exists l, not_found m = FAnswer l /\ status pos l = 404) as NF.
  { intros m0. destruct (page_total 404 (bs "Not Found") (bs "404 Not Found") (bs "Not Found") (bs "The requested URL ") (m_resource m0) (bs " was not found on this server.") [] [] (negb (is_head m0))) as [l E].
    exists l. split; auto. eapply page_status; [| | |exact E]; [lia|constructor|constructor]. }
  assert (forall m why, exists l, forbidden m why = FAnswer l /\ status pos l = 403) as FB.
  { intros m0 why0. destruct (page_total 403 (bs "Forbidden") (bs "403 Forbidden") (bs "Forbidden") (bs "The requested URL ") (m_resource m0) why0 [] [] (negb (is_head m0))) as [l E].
    exists l. split; auto. eapply page_status; [| | |exact E]; [lia|constructor|constructor]. }
  unfold fs_handle. destruct (file_path two s m) as [p|]; [|destruct (NF m) as (l & -> & E); eauto 10].
  destruct (is_prefix (s_dir s) p); cbn [negb]; [|destruct (FB m (bs " is not in the configured directory.")) as (l & -> & E); eauto 10].
  destruct (is_dir d p); [destruct (FB m (bs " is a directory.")) as (l & -> & E); eauto 10|].
  assert (str_eqb (m_method m) (bs "GET") = false) as -> by (apply str_eqb_neq; auto). assert (is_head m = false) as -> by (apply str_eqb_neq; auto). cbn [orb existsb].
  destruct (str_eqb (m_method m) (bs "POST") || str_eqb (m_method m) (bs "PUT") || str_eqb (m_method m) (bs "DELETE")) eqn:K.
  - unfold fs_change. rewrite W. cbn [negb].
    match goal with |- context [page ?a ?b ?c ?d ?e ?f ?g ?h ?i ?j] => destruct (page_total a b c d e f g h i j) as [l E] end. rewrite E. eexists _, _, _. split; [reflexivity|]. right. right.
    rewrite orb_false_r, orb_assoc, K. eapply page_status; [| | |exact E]; [lia|constructor|repeat constructor].
  - match goal with |- context [page ?a ?b ?c ?d ?e ?f ?g ?h ?i ?j] => destruct (page_total a b c d e f g h i j) as [l E] end. rewrite E. eexists _, _, _. split; [reflexivity|]. right. right.
    rewrite orb_false_r, orb_assoc, K. eapply page_status; [| | |exact E]; [lia|constructor|repeat constructor].
Qed.
Print Assumptions C63_refused.
(** a read-only service: a file is served, and a PUT on it and one on a directory are refused; a PATCH too *)
Definition code_of (pos : dpos) (r : fres) : option Z := match r with FAnswer l => Some (status pos l) | _ => None end.
Example C63_case : let before := [FOption tree (ODirectory (bs "/var/www")); FOption tree (OWritable false); FStart 9 tree] in
  let s := fst (fs_run true (fun _ => bs "now") (fs_init (bs "/files")) before) in
  let handle m := fst (fst (fs_handle true (fun _ => bs "now") tree tree s m (bs "x") [])) in
  (forall d b, In (FOption d (OWritable b)) before -> b = false)
  /\ (forall f, f = handle (request "GET" "/files/sub/b") -> exists g, f = FSend g /\ f_path g = bs "/var/www/sub/b")
  /\ map (code_of (fun _ _ => 0%nat)) (map handle [request "PUT" "/files/sub/b"; request "PUT" "/files/sub"; request "DELETE" "/files"; request "PATCH" "/files/sub/b"]) = [Some 405; Some 403; Some 404; Some 501].
Proof.
  cbv zeta. split; [|split].
  - intros d b [E|[E|[E|[]]]]; inversion E; auto.
  - intros f ->. vm_compute. eexists. split; reflexivity.
  - vm_compute. reflexivity.
Qed.
(** the same requests do change a writable service *)
Example C63_contrast : let before := [FOption tree (ODirectory (bs "/var/www")); FOption tree (OWritable true)] in
  exists s tr, fs_run true (fun _ => []) (fs_init (bs "/files")) (before ++ [FRequest tree tree (request "PUT" "/files/sub/b") (bs "x") []]) = (s, tr) /\ In (AWrite (bs "/var/www/sub/b") false (bs "x")) tr.
Proof. cbv zeta. eexists. eexists. split; [vm_compute; reflexivity|]. vm_compute. auto 10. Qed.

(* ------------------------------------------------------------------ C64 *)

(** The claim: without a cache the file that is sent is the one on the disk, to be read now; with a cache that checks for updates it is
    that or one read before, and the file on the disk still has the time and the size it had. *)
Definition fresh_file (date : Z -> list Z) (ops : list fop) (d : disk) (f : diskfile) : Prop :=
  to_read date d f \/ exists t d0, (seen ops d0 \/ d0 = d) /\ in_memory date d0 t f /\ looks_like d t f.
Definition coherent (two : bool) (date : Z -> list Z) : Prop := forall resource opts ops d d' m data why f s' tr,
  (forall v, directory_of opts = Some v -> ends_with_name (normalize two v)) -> Forall serves ops -> (forall n d, In (FStart n d) ops -> real_disk d) ->
  caching_of opts <= 1 -> fs_handle two date d d' (fst (fs_run two date (configure two date resource opts) ops)) m data why = (FSend f, s', tr) -> fresh_file date ops d f.
(** C64 is false: if a changed file could not be read, the entry in the cache keeps the new time and size with a buffer that was never
    filled; as soon as the file may be read again, this buffer is sent. *)
Definition x_file (c : string) (t : Z) (r : bool) : disk := one_file "/w/x" (bs c) t r.
Definition x_ops : list fop := [FRequest (x_file "old" 5 true) nobody_else (request "GET" "/files/x") [] []; FRequest (x_file "new!" 6 false) nobody_else (request "GET" "/files/x") [] []].
Lemma x_sent two : exists f s' tr, fs_handle two (fun _ => bs "now") (x_file "new!" 6 true) nobody_else
    (fst (fs_run two (fun _ => bs "now") (configure two (fun _ => bs "now") (bs "/files") [(nobody_else, ODirectory (bs "/w"))]) x_ops)) (request "GET" "/files/x") [] [] = (FSend f, s', tr)
  /\ f_content f = Some [None; None; None; None] /\ fst (send_file f 0 [(Some (bs "new!"), true)]) = EBadRead.
Proof. destruct two; eexists; eexists; eexists; (split; [vm_compute; reflexivity|]); vm_compute; auto. Qed.
Theorem C64_coherent_refuted two : ~ coherent two (fun _ => bs "now").
Proof.
  intros C. destruct (x_sent two) as (f & s' & tr & H & FC & _). apply C in H.
  - destruct H as [(c & t & r & _ & N & _)|(t & d0 & _ & (c & _ & N & _) & _)]; rewrite FC in N; [discriminate|]. injection N as N. destruct c; discriminate.
  - intros v E. injection E as <-. exists [], (bs "w"). destruct two; vm_compute; repeat split; discriminate.
  - repeat constructor.
  - intros n d [E|[E|[]]]; discriminate.
  - vm_compute. discriminate.
Qed.
Print Assumptions C64_coherent_refuted.
(** ... and these bytes, which nobody wrote, are read to be sent to the client. *)
Theorem C64_uninitialised_refuted two : exists f s' tr, fs_handle two (fun _ => bs "now") (x_file "new!" 6 true) nobody_else
    (fst (fs_run two (fun _ => bs "now") (configure two (fun _ => bs "now") (bs "/files") [(nobody_else, ODirectory (bs "/w"))]) x_ops)) (request "GET" "/files/x") [] [] = (FSend f, s', tr)
  /\ fst (send_file f 0 [(Some (bs "new!"), true)]) = EBadRead.
Proof. destruct (x_sent two) as (f & s' & tr & H & _ & B). exists f, s', tr. auto. Qed.
Print Assumptions C64_uninitialised_refuted.

(** C64, if every file found can be read: the file sent is the one that the path asked for stands for, with the claim above for its
    content; without a check for updates it is a version that was on the disk. (Missing: files that cannot be read.) *)
Theorem C64_coherent_partial two date cwd resource opts ops d d' m data why f s' tr :
  (forall v, directory_of opts = Some v -> ends_with_name (normalize two v)) -> Forall serves ops -> (forall n d, In (FStart n d) ops -> real_disk d) ->
  (forall d, seen ops d -> all_readable d) -> all_readable d ->
  fs_handle two date d d' (fst (fs_run two date (configure two date resource opts) ops)) m data why = (FSend f, s', tr) ->
  stands_for cwd (directory_of opts) (file_of opts) (asked resource m) (f_path f) /\
  (caching_of opts = 0 -> scan_of opts <= 1 -> to_read date d f) /\ (caching_of opts <= 1 -> fresh_file date ops d f) /\
  (caching_of opts = 2 -> exists t d0, (seen ops d0 \/ d0 = d) /\ in_memory date d0 t f).
Proof.
  intros EN SV RD AR AD H. destruct (sent two date cwd resource opts ops EN SV RD AR d d' m data why f s' tr AD H) as (A & B & C & _ & D). unfold fresh_file. auto.
Qed.
Print Assumptions C64_coherent_partial.
(** C64: a client is told that a file did not change since the time it gave only if the file has this time now. *)
Theorem C64_not_modified_partial two date cwd resource opts ops d d' m data why l s' tr :
  (forall v, directory_of opts = Some v -> ends_with_name (normalize two v)) -> Forall serves ops -> (forall n d, In (FStart n d) ops -> real_disk d) ->
  (forall d, seen ops d -> all_readable d) -> all_readable d -> caching_of opts <= 1 ->
  fs_handle two date d d' (fst (fs_run two date (configure two date resource opts) ops)) m data why = (FAnswer l, s', tr) -> In (WMsg (MsgCode 304)) l ->
  exists p c t r, stands_for cwd (directory_of opts) (file_of opts) (asked resource m) p /\ d p = Some (NFile c t r) /\ d_get (m_headers m) (bs "If-Modified-Since") = date t.
Proof.
  intros EN SV RD AR AD C H I. exact (not_modified two date cwd resource opts ops EN SV RD AR d d' m data why l s' tr AD H I C).
Qed.
Print Assumptions C64_not_modified_partial.
(** C64, without any assumption on the files or on what happened before: a request that finds a file that cannot be read does not
    send content for it, unless the content was in memory before the request; otherwise the file is opened when it is sent, which fails. *)
Theorem C64_unreadable_partial two date s d d' m data why f s' tr : fs_handle two date d d' s m data why = (FSend f, s', tr) ->
  (forall c t, d (f_path f) <> Some (NFile c t true)) -> f_content f = None \/ exists k, In (k, f) (s_cache s) /\ f_time f <> 0.
Proof. intros H N. exact (unreadable two date s d d' m data why f s' tr H N). Qed.
Print Assumptions C64_unreadable_partial.
(** a file that is cached and may not be read any more is still sent if nothing else changed, and not if it changed; one that is not cached is not sent *)
Example C64_unreadable_case : let date t := [t] in let get := request "GET" "/files/x" in let s0 := configure false date (bs "/files") [(nobody_else, ODirectory (bs "/w"))] in
  let s := fst (fs_run false date s0 [FRequest (x_file "old" 5 true) nobody_else get [] []]) in
  (forall c t, x_file "old" 5 false (bs "/w/x") <> Some (NFile c t true))
  /\ match fs_handle false date (x_file "old" 5 false) nobody_else s get [] [] with (FSend f, _, _) => f_path f = bs "/w/x" /\ f_content f = Some (map Some (bs "old")) | _ => False end
  /\ fst (fst (fs_handle false date (x_file "new!" 6 false) nobody_else s get [] [])) = FThrow
  /\ fst (fst (fs_handle false date (x_file "old" 5 false) nobody_else s0 get [] [])) = FThrow.
Proof. cbv zeta. split; [intros c t; vm_compute; intros X; discriminate X|]. vm_compute. auto. Qed.
(** a file that changes between two requests; the second is answered with the new content, a third with 304 *)
Definition sent_content (r : fres) : option (list (option Z)) := match r with FSend f => f_content f | _ => None end.
Example C64_case : let date t := [t] in let opts := [(nobody_else, ODirectory (bs "/w")); (nobody_else, OCache 1)] in
  let get := request "GET" "/files/x" in let again := set_m_headers [(bs "If-Modified-Since", [6])] get in
  let ops := [FRequest (x_file "old" 5 true) nobody_else get [] []] in
  let s := fst (fs_run false date (configure false date (bs "/files") opts) ops) in
  (forall v, directory_of opts = Some v -> ends_with_name (normalize false v)) /\ Forall serves ops /\ (forall d, seen ops d -> all_readable d) /\ all_readable (x_file "new!" 6 true) /\ caching_of opts = 1
  /\ sent_content (fst (fst (fs_handle false date (x_file "new!" 6 true) nobody_else s get [] []))) = Some (map Some (bs "new!"))
  /\ sent_content (fst (fst (fs_handle false date (x_file "gone" 5 true) nobody_else s get [] []))) = Some (map Some (bs "gone"))
  /\ code_of (fun _ _ => 0%nat) (fst (fst (fs_handle false date (x_file "new!" 6 true) nobody_else s again [] []))) = Some 304.
Proof.
  cbv zeta. assert (forall c t, all_readable (x_file c t true)) as AR. { intros c t p c' t' r. unfold x_file, one_file. destruct (str_eqb p _); intros H; inversion H; auto. }
  split; [intros v E; injection E as <-; exists [], (bs "w"); vm_compute; repeat split; discriminate|]. split; [repeat constructor|].
  split; [intros d S; inversion S as [? ? E|? ? E]; subst; [apply AR|inversion E]|]. split; [apply AR|]. split; [reflexivity|]. split; [vm_compute; reflexivity|]. split; vm_compute; reflexivity.
Qed.

(* ------------------------------------------------------------------ C62 *)

(** a file to be sent: in memory as a whole, or to be read from the disk *)
Definition sendable (f : diskfile) (c : list Z) : Prop :=
  match f_content f with Some buf => buf = map Some c /\ f_size f = zlen c | None => f_size f = zlen c end.
Lemma sendable_bounds f c : sendable f c -> in_bounds f /\ match f_content f with Some buf => buf = map Some c | None => zlen c = f_size f end.
Proof. unfold sendable, in_bounds. destruct (f_content f); [intros [A B]; split; eauto|]. intros H. split; auto. rewrite H. apply zlen_nonneg. Qed.
(** the files that the service sends are such *)
Theorem C62_sendable_partial two date resource opts ops d d' m data why f s' tr :
  (forall v, directory_of opts = Some v -> ends_with_name (normalize two v)) -> Forall serves ops -> (forall n d, In (FStart n d) ops -> real_disk d) ->
  (forall d, seen ops d -> all_readable d) -> all_readable d -> 
  fs_handle two date d d' (fst (fs_run two date (configure two date resource opts) ops)) m data why = (FSend f, s', tr) ->
  exists c, sendable f c /\ (f_content f = None -> exists t r, d (f_path f) = Some (NFile c t r)).
Proof.
  intros EN SV RD AR AD H. destruct (C64_coherent_partial two date [] resource opts ops d d' m data why f s' tr EN SV RD AR AD H) as (_ & _ & B & D).
  assert (forall t d0, in_memory date d0 t f -> exists c, sendable f c /\ (f_content f = None -> exists t r, d (f_path f) = Some (NFile c t r))) as K.
  { intros t d0 (c & _ & A & A' & _). exists c. unfold sendable. rewrite A. split; auto. discriminate. }
  assert (caching_of opts <= 1 \/ caching_of opts = 2) as [C|C].
  { destruct (caching_configured two date resource opts) as [E _]. unfold caching_of. clear. assert (forall dflt, (forall n, dflt = Some n -> n <= 2) -> match last_set (fun o => match o with OCache n => if (0 <=? n) && (n <=? 2) then Some n else None | _ => None end) opts dflt with Some n => n | None => 1 end <= 2) as G.
    { induction opts as [|o l IH]; intros dflt X; cbn [last_set]; [destruct dflt; [apply X; auto|lia]|]. apply IH. intros n E. destruct (snd o) as [| |k| | |]; auto. destruct ((0 <=? k) && (k <=? 2)) eqn:Y; auto. injection E as <-. lia. }
    specialize (G None ltac:(discriminate)). lia. }
  - destruct (B C) as [(c & t & r & A1 & A2 & A3 & _)|(t & d0 & _ & M & _)]; [|eauto]. exists c. unfold sendable. rewrite A2. split; auto. intros _. eauto.
  - destruct (D C) as (t & d0 & _ & M). eauto.
Qed.
Print Assumptions C62_sendable_partial.
(** C62. Whatever becomes of the file and of the connection while it is sent, no byte outside the file's content is read, and none outside the
    transfer buffer is written. *)
Theorem C62_in_bounds f c max l : sendable f c -> fst (send_file f max l) <> EBadRead /\ fst (send_file f max l) <> EBadWrite.
Proof.
  intros S. apply sendable_bounds in S as [IB _]. unfold send_file. destruct (sender_run (sender_new f max) l) as [e ops] eqn:E. cbn [fst].
  pose proof (never_bad f max IB l _ (sd_inv_new f max IB)) as N. rewrite E in N. exact N.
Qed.
Print Assumptions C62_in_bounds.
(** C62. If the file does not change while it is sent and no write fails, the answer is made of pieces of the content, in order, none of them
    empty or larger than the maximum; and the sending ends. (At most one call of [send] is needed for each byte, and one more.) *)
Theorem C62_pieces f c max l : sendable f c -> Forall (fun x => snd x = true /\ (f_content f = None -> fst x = Some c)) l -> zlen c < zlen l ->
  exists ds ops, send_file f max l = (EFinished, ops) /\ flat_map (fun x => match x with WNoCopy d => [d] | _ => [] end) ops = ds
    /\ concat ds = c /\ Forall (fun d => d <> [] /\ (0 < max -> zlen d <= max)) ds.
Proof.
  intros S F L. apply sendable_bounds in S as [IB CS]. destruct (sends_all f max IB c CS l F L) as (ds & C & SM & R). exists ds. unfold send_file. rewrite R. eexists. split; [reflexivity|].
  split; [|split; auto].
  - rewrite flat_map_app. cbn [sender_head flat_map app]. destruct (rev ds) as [|d [|d2 rds]] eqn:RV.
    + assert (ds = []) as -> by (rewrite <- (rev_involutive ds), RV; auto). reflexivity.
    + assert (ds = [d]) as -> by (rewrite <- (rev_involutive ds), RV; auto). reflexivity.
    + assert (ds = rev (d2 :: rds) ++ [d]) as -> by (rewrite <- (rev_involutive ds), RV; auto). rewrite flat_map_app. cbn [flat_map app]. f_equal. generalize (rev (d2 :: rds)). intros rs.
      unfold piece_ops. induction rs as [|r rs IH]; [reflexivity|]. cbn [map concat app flat_map]. f_equal. exact IH.
  - eapply Forall_impl; [|exact SM]. intros d [A B]. split; auto. intros ->. cbn in A. lia.
Qed.
Print Assumptions C62_pieces.
(** C62, at the client: it reads status 200, the content, the type and the date, whatever version of HTTP it speaks and however the bytes are cut. *)
Theorem C62_received pos method vmaj vmin life f c max l cf m :
  0 <= vmaj < 65536 -> 0 <= vmin < 65536 -> (exists name, f_mime f = find_mime name) -> Forall value_char (f_date f) /\ zlen (f_date f) <= 1048576 ->
  storing cf -> cf_request cf = false -> m_headers m = [] -> m_missing m = false -> m_cache m = [] -> m_req_method m <> bs "HEAD" ->
  sendable f c -> Forall (fun x => snd x = true /\ (f_content f = None -> fst x = Some c)) l -> zlen c < zlen l -> zlen c < 9223372036854775808 -> zlen c <= cf_max cf ->
  fst (send_file f max l) = EFinished /\ receives cf m (w_ops pos (w_respond method vmaj vmin life) (snd (send_file f max l))) f c.
Proof.
  intros V1 V2 MI DA ST RQ MH MM MC NH S F L CB CM. apply sendable_bounds in S as [IB CS].
  apply received; auto.
Qed.
Print Assumptions C62_received.
(** C62. If the file cannot be read any more or a write fails, what was sent is the begin of the content. *)
Theorem C62_prefix f c max l : sendable f c -> (forall x, In x l -> f_content f = None -> fst x = Some c \/ fst x = None) ->
  exists t, c = concat (map payload (snd (send_file f max l))) ++ t.
Proof.
  intros S N. apply sendable_bounds in S as [IB CS]. unfold send_file. destruct (prefix_sent f max c IB CS l N (sender_new f max)) as [t T].
  - split; [apply sd_inv_new; auto|]. cbn. auto.
  - exists t. destruct (sender_run (sender_new f max) l) as [e ops]. cbn [snd sender_new sd_sent] in *. change (skipn (Z.to_nat 0) c) with c in T. exact T.
Qed.
Print Assumptions C62_prefix.
Definition hello : diskfile := mkdf (bs "/w/hello.txt") None 11 5 (bs "now") (bs "text/plain").
Example C62_case : sendable hello (bs "hello world") /\ f_mime hello = find_mime (bs "hello.TXT")
  /\ send_file hello 4 (repeat (Some (bs "hello world"), true) 12) =
     (EFinished, sender_head hello ++ [WNoCopy (bs "hell"); WSendChunk; WClear; WNoCopy (bs "o wo"); WSendChunk; WClear; WNoCopy (bs "rld"); WSendFinal])
  /\ send_file hello 0 (repeat (Some (bs "hello world"), true) 12) = (EFinished, sender_head hello ++ [WNoCopy (bs "hello world"); WSend])
  /\ send_file hello 4 [(Some (bs "hello world"), true); (Some (bs "hello world"), false)] = (EFinished, sender_head hello ++ [WNoCopy (bs "hell"); WSendChunk; WClear; WNoCopy (bs "o wo"); WSendChunk]).
Proof. split; [reflexivity|]. split; [reflexivity|]. split; [vm_compute; reflexivity|]. split; vm_compute; reflexivity. Qed.

(* ------------------------------------------------------------------ C99 *)

(** C99 is false: if the file cannot be opened, or has become shorter, the sender gives up and tells nobody: the connection is neither
    answered nor closed, and stays with the server. *)
Definition always_ends (two : bool) (date : Z -> list Z) : Prop := forall resource opts ops d d' m data why f s' tr max l,
  Forall serves ops -> fs_handle two date d d' (fst (fs_run two date (configure two date resource opts) ops)) m data why = (FSend f, s', tr) ->
  (forall x, In x l -> match d (f_path f) with Some (NFile c _ true) => fst x = Some c | _ => fst x = None end) -> f_size f < zlen l -> fst (send_file f max l) = EFinished.
Theorem C99_ends_refuted two : ~ always_ends two (fun _ => bs "now").
Proof.
  intros A. assert (exists f s' tr, fs_handle two (fun _ => bs "now") (x_file "secret" 5 false) nobody_else (configure two (fun _ => bs "now") (bs "/files") [(nobody_else, ODirectory (bs "/w")); (nobody_else, OCache 0)]) (request "GET" "/files/x") [] [] = (FSend f, s', tr)
    /\ f_path f = bs "/w/x" /\ f_size f = 6 /\ fst (send_file f 0 (repeat (None, true) 9)) = ELost) as (f & s' & tr & H & P & Z & E).
  { destruct two; eexists; eexists; eexists; (split; [vm_compute; reflexivity|]); vm_compute; auto. }
  specialize (A (bs "/files") [(nobody_else, ODirectory (bs "/w")); (nobody_else, OCache 0)] [] _ _ _ _ _ f s' tr 0 (repeat (None, true) 9) ltac:(constructor) H).
  rewrite E in A. assert (ELost = EFinished) as X; [|discriminate]. apply A; [|rewrite Z; reflexivity]. rewrite P. intros x I. apply repeat_spec in I. subst. reflexivity.
Qed.
Print Assumptions C99_ends_refuted.
(** C99, if the file is in memory or can be read and does not become shorter: the sending ends, if the writes end. *)
Theorem C99_ends_partial f c max l : sendable f c -> (forall x, In x l -> f_content f = None -> exists c', fst x = Some c' /\ zlen c <= zlen c') -> zlen c < zlen l ->
  fst (send_file f max l) = EFinished.
Proof.
  intros S N L. assert (f_size f = zlen c) as Z by (unfold sendable in S; destruct (f_content f); tauto). apply sendable_bounds in S as [IB _]. unfold send_file.
  pose proof (ends f max IB (List.length l) (sender_new f max) l) as E. destruct (sender_run (sender_new f max) l) as [e ops]. cbn [fst] in *. apply E; auto.
  - split; [apply sd_inv_new; auto|]. cbn. auto.
  - intros x I FC. rewrite Z. auto.
  - cbn. pose proof (zlen_nonneg c). unfold zlen in *. lia.
Qed.
Print Assumptions C99_ends_partial.
Example C99_case : sendable hello (bs "hello world") /\ fst (send_file hello 4 (repeat (Some (bs "hello, wide world"), true) 12)) = EFinished
  /\ fst (send_file hello 4 [(Some (bs "hello world"), true); (Some (bs "hello"), true)]) = ELost.
Proof. split; [reflexivity|]. split; vm_compute; reflexivity. Qed.

(* ------------------------------------------------------------------ C42 *)

(** The claim: two requests that are answered with the same file both need authentication, or none of them. *)
Definition no_way_round (b : build) (two : bool) (date : Z -> list Z) : Prop := forall aops resource opts d d' m1 m2 f1 f2 s1 s2 tr1 tr2,
  fs_handle two date d d' (configure two date resource opts) m1 [] [] = (FSend f1, s1, tr1) ->
  fs_handle two date d d' (configure two date resource opts) m2 [] [] = (FSend f2, s2, tr2) -> f_path f1 = f_path f2 -> (needs b aops m1 <-> needs b aops m2).
(** C42 is false: the restriction compares the path as it was sent, and the file service decodes it. *)
Theorem C42_same_file_refuted two : ~ no_way_round plain two (fun _ => bs "now").
Proof.
  intros N. set (aops := [OUser (UAdd (bs "bob") (bs "pw")); ORestrict (bs "/files/x")]).
  set (opts := [(nobody_else, ODirectory (bs "/w"))]). set (d := x_file "secret" 5 true).
  assert (exists f1 s1 tr1 f2 s2 tr2, fs_handle two (fun _ => bs "now") d d (configure two (fun _ => bs "now") (bs "/files") opts) (request "GET" "/files/x") [] [] = (FSend f1, s1, tr1)
    /\ fs_handle two (fun _ => bs "now") d d (configure two (fun _ => bs "now") (bs "/files") opts) (request "GET" "/files/%78") [] [] = (FSend f2, s2, tr2) /\ f_path f1 = f_path f2) as (f1 & s1 & tr1 & f2 & s2 & tr2 & H1 & H2 & P).
  { destruct two; do 6 eexists; (split; [vm_compute; reflexivity|]); (split; [vm_compute; reflexivity|]); reflexivity. }
  specialize (N aops _ _ _ _ _ _ _ _ _ _ _ _ H1 H2 P). assert (needs plain aops (request "GET" "/files/x")) as A by needs_tac. apply N in A. revert A. no_need_tac.
Qed.
Print Assumptions C42_same_file_refuted.
(** C42, for a restriction of the name under which the service is registered, or of one above it, and no permission: every request that
    reaches the service needs authentication, however its path is spelled. *)
Theorem C42_mount_partial b aops r c resource m path : somebody b (user_ops aops) -> In (ORestrict r) aops -> cleaned r c -> covers c resource -> (forall p, ~ In (OPermit p) aops) ->
  cleaned (m_resource m) path -> covers resource path -> needs b aops m.
Proof.
  intros S I C V NP CP CV. split; auto. exists path. split; auto. split.
  - exists r, c. split; auto. split; auto. unfold covers in *. destruct V as [->|[t ->]], CV as [->|[t' ->]]; auto; [right; eauto|right; eauto|]. right. exists (t ++ ch "/" :: t'). rewrite <- app_assoc. reflexivity.
  - intros (p & c' & IP & _). eapply NP; eauto.
Qed.
Print Assumptions C42_mount_partial.

(** the plain spelling of a path in the service: names between single slashes, nothing escaped *)
Definition plain_path (resource rel : list Z) (m : msg) : Prop :=
  m_resource m = resource ++ ch "/" :: rel /\ Forall entry_name (fields rel) /\ ~ In (ch "+") rel /\ ~ In (ch "%") rel.
Lemma plain_asked resource rel m : plain_path resource rel m -> asked resource m = rel /\ rel <> [].
Proof.
  intros (E & F & A & B). split.
  - unfold asked, relative. cbn [fs_init s_resource]. rewrite E. replace (zlen _ <=? zlen resource) with false by (symmetry; apply Z.leb_gt; rewrite zlen_app, zlen_cons; pose proof (zlen_nonneg rel); lia).
    replace (skipn _ _) with rel; [apply url_decode_id; auto|]. rewrite skipn_app. rewrite skipn_all2 by lia. replace (List.length resource + 1 - List.length resource)%nat with 1%nat by lia. reflexivity.
  - intros ->. inversion F as [|? ? [N _] _]. congruence.
Qed.
Fixpoint join (l : list (list Z)) : list Z := match l with [] => [] | [x] => x | x :: l' => x ++ SLASH :: join l' end.
Lemma join_fields s : join (fields s) = s.
Proof.
  induction s as [|c s IH]; [reflexivity|]. cbn [fields]. destruct (c =? SLASH) eqn:E.
  - apply Z.eqb_eq in E. subst. cbn [join]. destruct (fields s) eqn:F; [destruct (fields_nonnil _ F)|]. rewrite IH. reflexivity.
  - destruct (fields s) as [|f l] eqn:F; [destruct (fields_nonnil _ F)|]. cbn [join] in *. destruct l; rewrite <- IH; reflexivity.
Qed.
Lemma walk_entries l : forall at_, Forall entry_name l -> walk l at_ = at_ ++ l.
Proof.
  induction l as [|e l IH]; intros at_ F; [rewrite app_nil_r; auto|]. inversion F; subst. change (walk (e :: l) at_) with (walk l (walk1 at_ e)). rewrite IH by auto.
  rewrite walk1_name by (apply entry_el; auto). rewrite <- app_assoc. reflexivity.
Qed.
(** C42, for plain spellings: two such requests that are answered with the same file are requests for the same resource, so both need
    authentication or none. *)
Theorem C42_plain_partial b aops two date cwd resource opts ops d d' m1 m2 rel1 rel2 data1 why1 data2 why2 f1 f2 s1 s2 tr1 tr2 :
  (forall v, directory_of opts = Some v -> ends_with_name (normalize two v)) -> Forall serves ops -> (forall n d, In (FStart n d) ops -> real_disk d) ->
  (forall d, seen ops d -> all_readable d) -> all_readable d -> plain_path resource rel1 m1 -> plain_path resource rel2 m2 ->
  fs_handle two date d d' (fst (fs_run two date (configure two date resource opts) ops)) m1 data1 why1 = (FSend f1, s1, tr1) ->
  fs_handle two date d d' (fst (fs_run two date (configure two date resource opts) ops)) m2 data2 why2 = (FSend f2, s2, tr2) ->
  resolve cwd (f_path f1) = resolve cwd (f_path f2) -> m_resource m1 = m_resource m2 /\ (needs b aops m1 <-> needs b aops m2).
Proof.
  intros EN SV RD AR AD P1 P2 H1 H2 R.
  destruct (sent two date cwd resource opts ops EN SV RD AR d d' m1 data1 why1 f1 s1 tr1 AD H1) as (A1 & _).
  destruct (sent two date cwd resource opts ops EN SV RD AR d d' m2 data2 why2 f2 s2 tr2 AD H2) as (A2 & _).
  destruct (plain_asked _ _ _ P1) as [E1 N1]. destruct (plain_asked _ _ _ P2) as [E2 N2]. rewrite E1 in A1. rewrite E2 in A2. unfold stands_for in *.
  destruct rel1 as [|x1 r1]; [congruence|]. destruct rel2 as [|x2 r2]; [congruence|]. destruct A1 as (v & D1 & A1), A2 as (v' & D2 & A2). rewrite D1 in D2. injection D2 as <-.
  assert (v <> []) as NV. { intros ->. destruct (EN _ D1) as (l & n & E & _). destruct l; discriminate. }
  assert (forall rel, Forall entry_name (fields rel) -> resolve cwd (v ++ 47 :: rel) = resolve cwd v ++ fields rel) as K.
  { intros rel F. rewrite !resolve_eq. change 47 with SLASH. rewrite fields_app_slash, walk_app, walk_entries by auto. f_equal. rewrite start_prefix; auto. }
  destruct P1 as (Q1 & F1 & _), P2 as (Q2 & F2 & _). rewrite A1, A2, !K in R by auto. apply app_inv_head in R.
  assert (m_resource m1 = m_resource m2) as E. { rewrite Q1, Q2, <- (join_fields (x1 :: r1)), <- (join_fields (x2 :: r2)), R. reflexivity. }
  split; auto. unfold needs. rewrite E. reflexivity.
Qed.
Print Assumptions C42_plain_partial.
Example C42_case : let aops := [OUser (UAdd (bs "bob") (bs "pw")); ORestrict (bs "/files/")] in
  somebody plain (user_ops aops) /\ cleaned (bs "/files/") (bs "/files") /\ needs plain aops (request "GET" "/files/%78") /\ needs plain aops (request "GET" "/files/./x")
  /\ plain_path (bs "/files") (bs "sub/b") (request "GET" "/files/sub/b").
Proof.
  cbv zeta. assert (needs plain [OUser (UAdd (bs "bob") (bs "pw")); ORestrict (bs "/files/")] (request "GET" "/files/%78")) as N by needs_tac.
  split; [exact (proj1 N)|]. split; [left; reflexivity|]. split; [exact N|]. split; [needs_tac|].
  split; [reflexivity|]. split; [|split; intros I; vm_compute in I; repeat (destruct I as [I|I]; [discriminate|]); destruct I].
  assert (fields (bs "sub/b") = [bs "sub"; bs "b"]) as -> by reflexivity. repeat constructor; try discriminate; intros I; vm_compute in I; repeat (destruct I as [I|I]; [discriminate|]); destruct I.
Qed.
