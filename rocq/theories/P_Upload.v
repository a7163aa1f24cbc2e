(** C136, C137: uploads to the file service. *)
From Coq Require Import String ZArith List Bool Lia.
From Verif Require Import Base SMap AlgModel AlgProofs DictModel HttpModel MessageModel WriterModel WriterSpec PathModel FileModel FileSpec PathProofs FileProofs FileRuns FileCache P_File UploadSpec UploadProofs.
Import ListNotations.

(* ------------------------------------------------------------------ C136 *)

(** The claim: an answer that tells success means that the file has the data. *)
Definition uploads_honest (two : bool) (date : Z -> list Z) (pos : dpos) : Prop := forall resource opts ops d d' m data why l s' tr p append,
  fs_handle two date d d' (fst (fs_run two date (configure two date resource opts) ops)) m data why = (FAnswer l, s', tr) -> In (AWrite p append data) tr ->
  may_become d d' p append data -> success (status pos l) -> whole d d' p append data.
(** C136. What the answer to a request that is no GET and no HEAD tells: either nothing was changed and the status is 403, 404, 405 or 501; or the data was written to
    one file, and the status is 204 or 201 if the file is there now and was there before or not, and 500 if it is not there; or one file that was there was removed, and
    the status is 204 if it is gone and 500 if not. *)
Theorem C136_answers_partial two date pos d d' s m data why : m_method m <> bs "GET" -> m_method m <> bs "HEAD" ->
  exists l tr, fs_handle two date d d' s m data why = (FAnswer l, s, tr) /\
  ((filter changing tr = [] /\ In (status pos l) [403; 404; 405; 501]) \/
   (exists p, s_writable s = true /\ (m_method m = bs "POST" \/ m_method m = bs "PUT") /\ filter changing tr = [AWrite p (str_eqb (m_method m) (bs "POST")) data]
              /\ status pos l = (if exists_ d' p then (if exists_ d p then 204 else 201) else 500)) \/
   (exists p, s_writable s = true /\ m_method m = bs "DELETE" /\ filter changing tr = [ARemove p] /\ exists_ d p = true /\ status pos l = (if exists_ d' p then 500 else 204))).
Proof. intros A B. destruct (handle_told two date pos d d' s m data why A B) as (l & tr & E & T). exists l, tr. split; [exact E|]. destruct T as [F C|p W F M C|p W F M X C]; [left; auto|right; left|right; right]; exists p; auto 10. Qed.
Print Assumptions C136_answers_partial.
Lemma in_changing tr a x : changing a = true -> filter changing tr = x -> In a tr -> In a x.
Proof. intros C <- I. apply filter_In. auto. Qed.
(** If nothing goes wrong with the writing, the answer tells success. *)
Theorem C136_success two date pos d d' s m data why l s' tr p append : fs_handle two date d d' s m data why = (FAnswer l, s', tr) -> m_method m <> bs "GET" -> m_method m <> bs "HEAD" ->
  In (AWrite p append data) tr -> whole d d' p append data -> success (status pos l).
Proof.
  intros E A B I (t & r & W). destruct (handle_told two date pos d d' s m data why A B) as (l' & tr' & E' & T). rewrite E' in E. injection E as -> _ ->.
  assert (CH : changing (AWrite p append data) = true) by reflexivity.
  destruct T as [F C|q _ F M C|q _ F M X C]; apply (in_changing _ _ _ CH F) in I; [destruct I| |destruct I as [I|[]]; discriminate].
  destruct I as [I|[]]. injection I as -> _. rewrite C. unfold exists_ at 1. rewrite W. unfold success. destruct (exists_ d p); auto.
Qed.
Print Assumptions C136_success.
(** A file that may not be written, and a full disk: the answer tells success all the same. *)
Definition ex_pos : dpos := fun _ _ => O.
Definition can_write : list (disk * fopt) := [(nobody_else, ODirectory (bs "/w")); (nobody_else, OWritable true)].
Definition with_dir (f : disk) : disk := fun q => if str_eqb q (bs "/w") then Some (NDir [] 1) else f q.
Theorem C136_honest_refuted two : ~ uploads_honest two (fun _ => bs "now") ex_pos.
Proof.
  intros H. set (d := with_dir (one_file "/w/x" (bs "old") 5 true)).
  destruct (fs_handle two (fun _ => bs "now") d d (fst (fs_run two (fun _ => bs "now") (configure two (fun _ => bs "now") (bs "/files") can_write) [])) (request "PUT" "/files/x") (bs "new!") []) as [[r s'] tr] eqn:E.
  assert (K : exists l, r = FAnswer l /\ In (AWrite (bs "/w/x") false (bs "new!")) tr /\ success (status ex_pos l)).
  { destruct two; vm_compute in E; injection E as <- <- <-; eexists; (split; [reflexivity|]); (split; [cbn; auto 10|]); right; right; vm_compute; reflexivity. }
  destruct K as (l & -> & I & S). destruct (H _ _ _ _ _ _ _ _ _ _ _ _ _ E I (or_introl eq_refl) S) as (t & r & W). vm_compute in W. discriminate.
Qed.
Print Assumptions C136_honest_refuted.
Theorem C136_full_disk_refuted two : exists d d' l s' tr, fs_handle two (fun _ => bs "now") d d' (configure two (fun _ => bs "now") (bs "/files") can_write) (request "PUT" "/files/x") (bs "new!") [] = (FAnswer l, s', tr)
  /\ In (AWrite (bs "/w/x") false (bs "new!")) tr /\ d' (bs "/w/x") = Some (NFile (bs "ne") 6 true) /\ status ex_pos l = 201.
Proof.
  exists (with_dir nobody_else), (with_dir (one_file "/w/x" (bs "ne") 6 true)). eexists. eexists. eexists.
  destruct two; (split; [vm_compute; reflexivity|]); (split; [cbn; auto 10|]); split; vm_compute; reflexivity.
Qed.
Print Assumptions C136_full_disk_refuted.
(** If the file could not be made, the answer has the status 500, but its text begins with the page for 201. *)
Example C136_two_pages two : exists l s' tr rest, fs_handle two (fun _ => bs "now") (with_dir nobody_else) (with_dir nobody_else) (configure two (fun _ => bs "now") (bs "/files") can_write) (request "PUT" "/files/x") (bs "new!") []
    = (FAnswer l, s', tr) /\ status ex_pos l = 500 /\ l = WMsg (MsgCode 201) :: WMsg (MsgReason (bs "Created")) :: WMsg (MsgAddHeader (bs "Location") (bs "/files/x"))
    :: WNoCopy (page_start (bs "201 Created") (bs "Created") []) :: rest.
Proof. eexists. eexists. eexists. eexists. destruct two; (split; [vm_compute; reflexivity|]); split; vm_compute; reflexivity. Qed.
(** a file is removed *)
Example C136_case two : exists l s' tr, fs_handle two (fun _ => bs "now") (with_dir (one_file "/w/x" (bs "old") 5 true)) (with_dir nobody_else) (configure two (fun _ => bs "now") (bs "/files") can_write) (request "DELETE" "/files/x") [] []
    = (FAnswer l, s', tr) /\ status ex_pos l = 204 /\ filter changing tr = [ARemove (bs "/w/x")].
Proof. eexists. eexists. eexists. destruct two; (split; [vm_compute; reflexivity|]); split; vm_compute; reflexivity. Qed.

(* ------------------------------------------------------------------ C137 *)

(** The claim: after a file was written, a GET for the same resource gets what is on the disk. *)
Definition reads_back (two : bool) (date : Z -> list Z) : Prop := forall resource opts ops d d' d2 m m' data why data' why' l s' tr p append c t r s2 tr2,
  Forall serves ops -> (forall d, seen ops d -> all_readable d) ->
  fs_handle two date d d' (fst (fs_run two date (configure two date resource opts) ops)) m data why = (FAnswer l, s', tr) -> In (AWrite p append data) tr -> d' p = Some (NFile c t true) ->
  plain_get m m' -> d_get (m_headers m') (bs "If-Modified-Since") <> date t ->
  fs_handle two date d' d2 s' m' data' why' = (r, s2, tr2) -> sends_file date d' p r.
(** C137. So it is for a service that does not scan its directory and checks for updates or has no cache, if no earlier request found other content of the same length and the
    same time of change in the file. *)
Theorem C137_read_back_partial two date : forall resource opts ops d d' d2 m m' data why data' why' l s' tr p append c t r s2 tr2,
  Forall serves ops -> (forall d, seen ops d -> all_readable d) ->
  caching_of opts <= 1 -> scan_of opts = 0 -> (forall d0 c0, seen ops d0 -> d0 p = Some (NFile c0 t true) -> zlen c0 = zlen c -> c0 = c) ->
  fs_handle two date d d' (fst (fs_run two date (configure two date resource opts) ops)) m data why = (FAnswer l, s', tr) -> In (AWrite p append data) tr -> d' p = Some (NFile c t true) ->
  plain_get m m' -> d_get (m_headers m') (bs "If-Modified-Since") <> date t ->
  fs_handle two date d' d2 s' m' data' why' = (r, s2, tr2) -> sends_file date d' p r.
Proof.
  intros resource opts ops d d' d2 m m' data why data' why' l s' tr p append c t r s2 tr2 SV AR CA SC N E I D [G1 G2] IM E2. set (s := fst _) in *.
  assert (O : own two date (fun d => False \/ seen ops d) s).
  { apply run_own; auto. destruct (configured two date resource opts) as (_ & _ & _ & CC & _). destruct (caching_configured two date resource opts) as [_ CS]. split; [congruence|]. rewrite CC. intros k e []. }
  assert (CS : s_caching s <= 1).
  { destruct (caching_configured two date resource opts) as [K1 K2]. destruct (run_caching two date ops (configure two date resource opts) SV) as (R1 & R2 & _). fold s in R1, R2. rewrite K1 in *.
    destruct (Z.eq_dec (caching_of opts) 0) as [Z0|Z0]; [rewrite R2; lia|rewrite R1; lia]. }
  clearbody s. assert (NG : m_method m <> bs "GET" /\ m_method m <> bs "HEAD").
  { unfold fs_handle in E. destruct (file_path two s m) as [q|]; [|injection E as _ _ <-; destruct I].
    destruct (is_prefix _ _); cbn [negb] in E; [|injection E as _ _ <-; destruct I]. destruct (is_dir d q). { injection E as _ _ <-. destruct I as [I|[]]. discriminate. }
    destruct (str_eqb (m_method m) (bs "GET") || is_head m) eqn:Q.
    - destruct (fs_get date d s m q) as [[r1 s1] t1] eqn:X. injection E as _ _ <-. destruct I as [I|I]; [discriminate|]. destruct (get_still date d s m q _ _ _ X _ I Logic.I).
    - apply orb_false_iff in Q as [Q1 Q2]. apply str_eqb_neq in Q1. unfold is_head in Q2. apply str_eqb_neq in Q2. auto. }
  destruct NG as [NG NH].
  assert (P : s' = s /\ file_path two s m = Some p /\ is_prefix (s_dir s) p = true).
  { unfold fs_handle in E. destruct (file_path two s m) as [q|]; [|injection E as _ _ <-; destruct I].
    destruct (is_prefix (s_dir s) q) eqn:IP; cbn [negb] in E; [|injection E as _ _ <-; destruct I]. destruct (is_dir d q). { injection E as _ _ <-. destruct I as [I|[]]. discriminate. }
    assert (str_eqb (m_method m) (bs "GET") = false) as X1 by (apply str_eqb_neq; auto). assert (is_head m = false) as X2 by (apply str_eqb_neq; auto). rewrite X1, X2 in E. cbn [orb] in E.
    destruct (str_eqb (m_method m) (bs "POST") || str_eqb (m_method m) (bs "PUT") || str_eqb (m_method m) (bs "DELETE")); [|injection E as _ _ <-; destruct I as [I|[]]; discriminate].
    destruct (fs_change d d' s m q data why) as [r1 t1] eqn:X. injection E as _ <- <-. split; [reflexivity|].
    assert (p = q); [|subst; auto]. destruct I as [I|I]; [discriminate|]. unfold fs_change in X.
    destruct (s_writable s); cbn [negb] in X; [|injection X as _ <-; destruct I].
    destruct (str_eqb (m_method m) (bs "DELETE")). { destruct (exists_ d q); cbn [negb] in X; [destruct (exists_ d' q)|]; injection X as _ <-; cbn in I; intuition discriminate. }
    destruct (exists_ d q); cbn [negb] in X. { injection X as _ <-. cbn in I. destruct I as [I|[I|[I|[]]]]; try discriminate. congruence. }
    destruct (exists_ d (branch q)); cbn [negb] in X; injection X as _ <-; cbn in I. { destruct I as [I|[I|[I|[I|[]]]]]; try discriminate. congruence. } intuition discriminate. }
  destruct P as (-> & P & IP). assert (P' : file_path two s m' = Some p) by (rewrite <- P; unfold file_path, relative; rewrite G2; reflexivity).
  unfold fs_handle in E2. rewrite P', IP in E2. cbn [negb] in E2. unfold is_dir in E2. rewrite D in E2. rewrite G1 in E2. change (str_eqb (bs "GET") (bs "GET")) with true in E2. cbn [orb] in E2.
  destruct (fs_get date d' s m' p) as [[r1 s1] t1] eqn:X. injection E2 as <- _ _. eapply (get_back two date _ d' s m' p c t); eauto. intros d0 c0 [[]|Y]. apply N. exact Y.
Qed.
Print Assumptions C137_read_back_partial.
(** A GET finds the file with content [a], a PUT replaces it with [b], and another GET asks for it: the code of the answer or the bytes that are sent. *)
Definition got (two : bool) (opts : list (disk * fopt)) (first : bool) (ta tb : Z) (a b : string) : option Z * option (list (option Z)) :=
  let date := fun _ : Z => bs "now" in
  let da := with_dir (one_file "/w/x" (bs a) ta true) in let db := with_dir (one_file "/w/x" (bs b) tb true) in
  let s := fst (fs_run two date (configure two date (bs "/files") (can_write ++ opts)) (if first then [FStart 9 (with_dir nobody_else); FRequest da da (request "GET" "/files/x") [] []] else [FStart 9 (with_dir nobody_else)])) in
  let '(_, s, _) := fs_handle two date da db s (request "PUT" "/files/x") (bs b) [] in
  match fs_handle two date db db s (request "GET" "/files/x") [] [] with
  | (FSend f, _, _) => (Some 200, f_content f)
  | (FAnswer l, _, _) => (Some (status ex_pos l), None)
  | _ => (None, None)
  end.
(** With update checking, a PUT in the second of the last change with content of the same length: the next GET gets the old content. *)
Theorem C137_read_back_refuted two : ~ reads_back two (fun _ => bs "now").
Proof.
  intros H. set (date := fun _ : Z => bs "now") in *. set (da := with_dir (one_file "/w/x" (bs "old") 5 true)). set (db := with_dir (one_file "/w/x" (bs "new") 5 true)).
  set (ops := [FRequest da da (request "GET" "/files/x") [] []]).
  destruct (fs_handle two date da db (fst (fs_run two date (configure two date (bs "/files") can_write) ops)) (request "PUT" "/files/x") (bs "new") []) as [[r1 s1] tr1] eqn:E1.
  destruct (fs_handle two date db db s1 (request "GET" "/files/x") [] []) as [[r2 s2] tr2] eqn:E2.
  assert (K : exists l, r1 = FAnswer l /\ In (AWrite (bs "/w/x") false (bs "new")) tr1 /\ forall f, r2 = FSend f -> f_content f = Some (map Some (bs "old"))).
  { destruct two; vm_compute in E1; injection E1 as <- <- <-; vm_compute in E2; injection E2 as <- <- <-; eexists; (split; [reflexivity|]); (split; [cbn; auto 10|]); intros f F; injection F as <-; reflexivity. }
  destruct K as (l & -> & I & K). assert (S : sends_file date db (bs "/w/x") r2).
  { eapply (H (bs "/files") can_write ops da db db (request "PUT" "/files/x") (request "GET" "/files/x")); [| |exact E1|exact I|reflexivity|split; reflexivity|discriminate|exact E2].
    - repeat constructor.
    - intros d Q. inversion Q as [o ll X|o ll X]; subst; [|inversion X]. intros p c t r. unfold da, with_dir, one_file. destruct (str_eqb p (bs "/w")); [discriminate|]. destruct (str_eqb p (bs "/w/x")); [|discriminate]. congruence. }
  destruct S as (f & -> & P & [(c & t & r & _ & N & _)|(t & c & D & C & _)]); rewrite (K f eq_refl) in *; [discriminate|]. rewrite P in D. vm_compute in D. injection D as <- <-. vm_compute in C. discriminate.
Qed.
Print Assumptions C137_read_back_refuted.
(** The other ways: with caching 2 the old content is sent for ever; with scan 1 and 3 a new file is not found. *)
Theorem C137_ways_refuted two : got two [] true 5 5 "old" "new" = (Some 200, Some (map Some (bs "old")))
  /\ got two [(nobody_else, OCache 2)] true 5 9 "old" "new file" = (Some 200, Some (map Some (bs "old")))
  /\ got two [(nobody_else, OScan 1)] false 5 9 "old" "new file" = (Some 404, None) /\ got two [(nobody_else, OScan 3)] false 5 9 "old" "new file" = (Some 404, None).
Proof. destruct two; vm_compute; auto. Qed.
Print Assumptions C137_ways_refuted.
Example C137_case two : got two [] true 5 6 "old" "new" = (Some 200, Some (map Some (bs "new"))) /\ got two [] true 5 5 "old" "newer" = (Some 200, Some (map Some (bs "newer")))
  /\ got two [(nobody_else, OCache 0)] true 5 5 "old" "new" = (Some 200, None).
Proof. destruct two; vm_compute; auto. Qed.
