(** How messages are told apart when their heads are unusual (C125-C127). Definitions used in the statements: HttpModel.v ([parse]), HttpSpec.v,
    LaxSpec.v, MessageSpec.v ([numeral]). *)
From Coq Require Import String ZArith List Bool Lia Permutation.
From Verif Require Import Base DictModel HttpModel HttpSpec HttpProofs HttpHead HttpBody HttpFeeds HttpExamples MessageSpec EolSpec HttpEol LaxSpec HttpLax.
Import ListNotations.

(* ------------------------------------------------------------------ C125 *)

(** C125. A message with several lengths is to be refused. It is accepted whatever they are: one of the headers is taken, which one depends on how the table of headers
    keeps equal names, and the content ends where that one says. *)
Theorem C125_conflict_partial : forall cf m hd, m_headers m = [] -> m_missing m = false -> head_ok cf hd -> storing cf ->
  ~ bodiless m hd -> no_chunks hd -> no_multipart hd ->
  values_of (bs "Content-Length") (hdrs_of hd) <> [] ->
  (forall v, In v (values_of (bs "Content-Length") (hdrs_of hd)) -> exists n, numeral n v /\ n <= cf_max cf /\ n < two64 - 1) ->
  exists v n, In v (values_of (bs "Content-Length") (hdrs_of hd)) /\ numeral n v
    /\ forall pieces body more, zlen body = n -> cut pieces (wire_head hd ++ body ++ more) ->
       finished hd (feed cf (p_init cf) m pieces) body (hdrs_of hd) more.
Proof.
  intros cf m hd MH MM HO ST NB NC NM NE AL. destruct (head_m0_facts cf m hd HO MH) as (P & _).
  pose proof (d_find_perm HEADER_CONTENT_LENGTH _ _ P) as F. destruct (d_find (m_headers (head_m0 cf m hd)) HEADER_CONTENT_LENGTH) as [v|] eqn:D; [|contradiction].
  destruct (AL v F) as (n & NU & N1 & N2). exists v, n. split; [exact F|]. split; [exact NU|]. intros pieces body more L [C1 C2]. destruct NU as (U1 & U2 & U3).
  eapply finished_feed; eauto; [apply ST|eapply wire_head_nonempty; eauto|].
  eapply content_length_found; eauto; try lia. apply not_chunked; auto.
Qed.
Print Assumptions C125_conflict_partial.

Definition ex_two : head := HReq {| rl_method := bs "POST"; rl_resource := bs "/p"; rl_query := None; rl_version := v11 |} [(bs "Content-Length", bs "3"); (bs "Content-Length", bs "1")].
Definition ex_pos (n : nat) : pcfg := {| cf_request := true; cf_max := 1048576; cf_headers_only := false; cf_save_raw := true; cf_handler := false; cf_pos := fun _ _ => n |}.
Lemma ex_two_ok n : head_ok (ex_pos n) ex_two.
Proof. unfold head_ok, ex_two. http_ok. Qed.
Lemma ex_two_lengths : values_of (bs "Content-Length") (hdrs_of ex_two) = [bs "3"; bs "1"].
Proof. reflexivity. Qed.
Lemma ex_two_hyps n : storing (ex_pos n) /\ ~ bodiless ex_msg ex_two /\ no_chunks ex_two /\ no_multipart ex_two
  /\ forall v, In v (values_of (bs "Content-Length") (hdrs_of ex_two)) -> exists k, numeral k v /\ k <= cf_max (ex_pos n) /\ k < two64 - 1.
Proof.
  split; [unfold storing; http_ok|]. split; [exact (fun x => x)|]. split; [apply no_te; reflexivity|]. split; [intros v []|].
  intros v. rewrite ex_two_lengths. intros [<-|[<-|[]]]; [exists 3|exists 1]; (split; [split; [discriminate|split; [cbn [bs]; http_ok|reflexivity]]|split; vm_compute; congruence]).
Qed.
Theorem C125_conflict_refuted : ~ forall cf m hd pieces r, m_headers m = [] -> m_missing m = false -> head_ok cf hd -> storing cf -> ~ bodiless m hd -> no_chunks hd ->
  (exists v w, In v (values_of (bs "Content-Length") (hdrs_of hd)) /\ In w (values_of (bs "Content-Length") (hdrs_of hd)) /\ dec_value v <> dec_value w) ->
  feed cf (p_init cf) m (wire_head hd :: pieces) = Ok (Some r) -> r_rc r <> TTrue.
Proof.
  intros H. destruct (ex_two_hyps 0) as (H1 & H2 & H3 & H4 & H5).
  destruct (C125_conflict_partial (ex_pos 0) ex_msg ex_two eq_refl eq_refl (ex_two_ok 0) H1 H2 H3 H4 ltac:(rewrite ex_two_lengths; discriminate) H5) as (v & n & I & NU & F).
  assert (exists body : list Z, zlen body = n /\ body <> []) as (body & L & NB).
  { rewrite ex_two_lengths in I. destruct NU as (_ & _ & U). destruct I as [<-|[<-|[]]]; [exists (bs "abc")|exists (bs "a")]; (split; [rewrite <- U; reflexivity|discriminate]). }
  destruct (F [wire_head ex_two; body] body [] L) as (r & E & T & _).
  { split; [repeat constructor; auto; vm_compute; discriminate|cbn [concat]; reflexivity]. }
  refine (H (ex_pos 0) ex_msg ex_two [body] r eq_refl eq_refl (ex_two_ok 0) H1 H2 H3 _ E T).
  exists (bs "3"), (bs "1"). rewrite ex_two_lengths. cbn. repeat split; auto. discriminate.
Qed.
Print Assumptions C125_conflict_refuted.
(** Two parsers of the same bytes that differ only in where their tables put equal names do not agree on where the message ends. *)
Theorem C125_tables_refuted : ~ forall cf cf' m s, storing cf -> cf_request cf' = cf_request cf -> cf_max cf' = cf_max cf -> cf_headers_only cf' = cf_headers_only cf ->
  cf_save_raw cf' = cf_save_raw cf -> cf_handler cf' = cf_handler cf -> m_headers m = [] ->
  forall r r', parse cf (p_init cf) m s = Ok (Some r) -> parse cf' (p_init cf') m s = Ok (Some r') -> r_rc r = TTrue -> r_rc r' = TTrue -> r_rest r = r_rest r'.
Proof.
  intros H. specialize (H (ex_pos 0) (ex_pos 1) ex_msg (wire_head ex_two ++ bs "abc")).
  assert (exists r, parse (ex_pos 0) (p_init (ex_pos 0)) ex_msg (wire_head ex_two ++ bs "abc") = Ok (Some r) /\ r_rc r = TTrue /\ r_rest r = bs "bc") as (r & A1 & A2 & A3) by (eexists; vm_compute; auto).
  assert (exists r, parse (ex_pos 1) (p_init (ex_pos 1)) ex_msg (wire_head ex_two ++ bs "abc") = Ok (Some r) /\ r_rc r = TTrue /\ r_rest r = []) as (r' & B1 & B2 & B3) by (eexists; vm_compute; auto).
  specialize (H (proj1 (ex_two_hyps 0)) eq_refl eq_refl eq_refl eq_refl eq_refl eq_refl r r' A1 B1 A2 B2). rewrite A3, B3 in H. discriminate H.
Qed.
Print Assumptions C125_tables_refuted.
Example C125_case : head_ok (ex_pos 0) ex_two /\ values_of (bs "Content-Length") (hdrs_of ex_two) = [bs "3"; bs "1"]
  /\ cut [wire_head ex_two; bs "abc"] (wire_head ex_two ++ bs "a" ++ bs "bc").
Proof. split; [apply ex_two_ok|]. split; [reflexivity|]. split; [repeat constructor; vm_compute; discriminate|vm_compute; reflexivity]. Qed.

(* ------------------------------------------------------------------ C126 *)

(** C126. Codings that the library cannot undo are to be refused. Any that does not have "chunked" in it is ignored, and the body delivered as if there were none; any that does is
    read as chunks, and nothing else is undone. *)
Theorem C126_ignored_partial : forall cf m hd pieces, m_headers m = [] -> m_missing m = false -> head_ok cf hd ->
  forall w n v body more, storing cf -> ~ bodiless m hd -> values_of (bs "Transfer-Encoding") (hdrs_of hd) = [w] -> ~ says_chunked w ->
  values_of (bs "Content-Length") (hdrs_of hd) = [v] -> numeral n v -> n = zlen body -> n <= cf_max cf -> n < two64 - 1 -> no_multipart hd ->
  cut pieces (wire_head hd ++ body ++ more) -> finished hd (feed cf (p_init cf) m pieces) body (hdrs_of hd) more.
Proof.
  intros cf m hd pieces MH MM HO w n v body more ST NB TE NS CL (U1 & U2 & U3) -> L1 L2 NM CU. eapply feed_length; eauto.
  intros u. rewrite TE. intros [<-|[]]. exact NS.
Qed.
Print Assumptions C126_ignored_partial.
Theorem C126_chunked_partial : forall cf m hd pieces, m_headers m = [] -> m_missing m = false -> head_ok cf hd ->
  forall a c b l size ext more, storing cf -> m_cache m = [] ->
  values_of (bs "Transfer-Encoding") (hdrs_of hd) = [a ++ c ++ b] -> same_name c (bs "chunked") = true ->
  Forall chunk_ok l -> last_ok size ext -> zlen (chunk_data l) <= cf_max cf -> zlen (chunk_data l) < two64 - 1 -> no_multipart hd ->
  cut pieces (wire_head hd ++ wire_chunks l size ext [] ++ more) -> finished hd (feed cf (p_init cf) m pieces) (chunk_data l) (hdrs_of hd) more.
Proof.
  intros cf m hd pieces MH MM HO a c b l size ext more ST MC TE SN. intros.
  assert (says_chunked (a ++ c ++ b)) as SC.
  { unfold same_name in SN. destruct (list_eq_dec Z.eq_dec (map ascii_low c) (map ascii_low (bs "chunked"))) as [E|]; [|discriminate].
    exists (map ascii_low a), (map ascii_low b). rewrite !map_app, E. reflexivity. }
  eapply (feed_chunked cf m hd pieces MH MM HO _ l size ext []); eauto.
Qed.
Print Assumptions C126_chunked_partial.
Definition ex_coded (v : list Z) : head := HReq {| rl_method := bs "POST"; rl_resource := bs "/p"; rl_query := None; rl_version := v11 |} [(bs "Transfer-Encoding", v); (bs "Content-Length", bs "3")].
Lemma ex_gzip_ok : head_ok (ex_cf true false) (ex_coded (bs "gzip")).
Proof. unfold head_ok, ex_coded. http_ok. Qed.
Lemma ex_gzip_no : ~ says_chunked (bs "gzip").
Proof. intros (a & b & E). apply (f_equal (@List.length Z)) in E. rewrite !app_length in E. cbn in E. lia. Qed.
Theorem C126_refused_refuted : ~ forall cf m hd pieces r, m_headers m = [] -> m_missing m = false -> head_ok cf hd -> storing cf ->
  (exists w, In w (values_of (bs "Transfer-Encoding") (hdrs_of hd)) /\ same_name w (bs "chunked") = false /\ same_name w (bs "identity") = false) ->
  feed cf (p_init cf) m (wire_head hd :: pieces) = Ok (Some r) -> r_rc r <> TTrue.
Proof.
  intros H. assert (exists r, feed (ex_cf true false) (p_init (ex_cf true false)) ex_msg [wire_head (ex_coded (bs "gzip")); bs "abc"] = Ok (Some r) /\ r_rc r = TTrue) as (r & E & T) by (eexists; vm_compute; auto).
  refine (H (ex_cf true false) ex_msg (ex_coded (bs "gzip")) [bs "abc"] r eq_refl eq_refl ex_gzip_ok (ex_storing true) _ E T).
  exists (bs "gzip"). split; [left; reflexivity|]. split; reflexivity.
Qed.
Print Assumptions C126_refused_refuted.
Example C126_case : head_ok (ex_cf true false) (ex_coded (bs "gzip")) /\ values_of (bs "Transfer-Encoding") (hdrs_of (ex_coded (bs "gzip"))) = [bs "gzip"] /\ ~ says_chunked (bs "gzip")
  /\ exists r, parse (ex_cf true false) (p_init (ex_cf true false)) ex_msg (wire_head (ex_coded (bs "XCHUNKED")) ++ bs "1" ++ CRLF ++ bs "a" ++ CRLF ++ bs "0" ++ CRLF ++ CRLF) = Ok (Some r)
     /\ content_of (r_msg r) = Ok (bs "a").
Proof. split; [apply ex_gzip_ok|]. split; [reflexivity|]. split; [apply ex_gzip_no|]. eexists. split; vm_compute; reflexivity. Qed.

(* ------------------------------------------------------------------ C127 *)

(** C127. First lines without a legal version or with numbers that do not fit are to be refused. These are read as others are: *)
Theorem C127_read_as_partial : forall cf m hd w more, 0 <= cf_max cf -> head_ok cf hd -> lax_head hd w ->
  same_reading (parse cf (p_init cf) m (w ++ more)) (parse cf (p_init cf) m (wire_head hd ++ more)).
Proof. intros cf m hd w more HM HO LX. apply like_head_parse; auto. intros m1. apply lax_loop; auto. Qed.
Print Assumptions C127_read_as_partial.
(** what a first line with the resource, a blank and CR - no version - gives: an error at the next byte, unless it is the second letter of "HTTP" *)
Lemma parse_error cf m s h m' e rest : h_loop cf (h_init cf) m s = mksub TFalse (Some e) (h, m') rest -> m_missing m = false ->
  exists r, parse cf (p_init cf) m s = Ok (Some r) /\ r_rc r = TFalse /\ r_err r = Some e.
Proof.
  intros E MM. unfold parse. rewrite MM. assert (exists st2, p_round cf (p_init cf) m s = Ok (mksub TFalse (Some e) (st2, m') rest)) as (st2 & R).
  { unfold p_round. cbn [p_phase p_init]. unfold parse_headers. change (p_h (set_p_phase PHeaders (p_init cf))) with (h_init cf). rewrite E. cbn [s_rc s_st s_rest s_err fst snd].
    eexists. reflexivity. }
  cbn [p_loop]. rewrite R. cbn [obind s_rc s_rest s_st fst snd s_err]. eexists. split; [reflexivity|]. cbn. auto.
Qed.
Theorem C127_no_version_partial : forall cf m r c d more, cf_request cf = true -> m_missing m = false -> reqline_ok r -> c = 13 \/ c = 10 -> d <> ch "T" ->
  exists x, parse cf (p_init cf) m (request_target r ++ c :: d :: more) = Ok (Some x) /\ r_rc x = TFalse /\ r_err x = Some E_VERSION_CHAR.
Proof.
  intros cf m r c d more RQ MM RO C D.
  assert (exists h m' rest, h_loop cf (h_init cf) m (request_target r ++ c :: d :: more) = mksub TFalse (Some E_VERSION_CHAR) (h, m') rest) as (h & m' & rest & E).
  { unfold h_init. rewrite RQ. rewrite (run_target cf m [] [] [] r RO). cbn [h_loop]. rewrite save_raw_H. unfold h_char at 1. cbn [h_state].
    replace ((c =? 13) || (c =? 10)) with true by lia. rewrite RQ. hcbn. rewrite save_raw_H. unfold h_char at 1. cbn [h_state]. apply Z.eqb_neq in D. rewrite D. eauto. }
  eapply parse_error; eauto.
Qed.
Print Assumptions C127_no_version_partial.
Definition legal_version_line (s : list Z) : Prop := exists v a b, version_ok v /\ s = a ++ wire_version v ++ CRLF ++ b.
Definition ex_bad_version : list Z := bs "GET / " ++ [10] ++ bs "TTP/65537.1" ++ CRLF ++ CRLF.
Lemma ex_bad_version_not : ~ exists a b, ex_bad_version = a ++ bs "HTTP/" ++ b.
Proof.
  intros (a & b & E). assert (In 72 ex_bad_version) as I by (rewrite E; apply in_app_iff; right; left; reflexivity).
  vm_compute in I. clear - I. intuition discriminate.
Qed.
Theorem C127_refused_refuted : ~ forall cf m s r, cf_request cf = true -> m_headers m = [] -> parse cf (p_init cf) m s = Ok (Some r) -> r_rc r = TTrue -> m_vmaj (r_msg r) <> 0 -> legal_version_line s.
Proof.
  intros H. assert (exists r, parse (ex_cf true false) (p_init (ex_cf true false)) ex_msg ex_bad_version = Ok (Some r) /\ r_rc r = TTrue /\ m_vmaj (r_msg r) = 1) as (r & E & T & V) by (eexists; vm_compute; auto).
  destruct (H (ex_cf true false) ex_msg ex_bad_version r eq_refl eq_refl E T) as (v & a & b & _ & EQ); [rewrite V; discriminate|].
  apply ex_bad_version_not. unfold wire_version in EQ. rewrite <- !app_assoc in EQ. eauto.
Qed.
Print Assumptions C127_refused_refuted.
Example C127_case : head_ok (ex_cf true false) (HReq {| rl_method := bs "GET"; rl_resource := bs "/"; rl_query := None; rl_version := v11 |} [])
  /\ lax_head (HReq {| rl_method := bs "GET"; rl_resource := bs "/"; rl_query := None; rl_version := v11 |} []) ex_bad_version
  /\ lax_head (HReq {| rl_method := bs "GET"; rl_resource := bs "/"; rl_query := None; rl_version := v11 |} []) (bs "GET / HTTP/1.6553 7 " ++ CRLF ++ CRLF).
Proof.
  split; [unfold head_ok; http_ok|]. split.
  - exists ([10] ++ bs "TTP/65537.1"). split; [|reflexivity]. exists 10, (bs "65537"), 49, []. split; [reflexivity|]. split; [auto|].
    split; [discriminate|]. split; [cbn [bs]; http_ok|]. split; [reflexivity|]. split; [split; vm_compute; discriminate|]. split; [constructor|reflexivity].
  - exists (bs "HTTP/1.6553 7 "). split; [|reflexivity]. exists 72, (bs "1"), 54, (bs "553 7 "). split; [reflexivity|]. split; [auto|].
    split; [discriminate|]. split; [cbn [bs]; http_ok|]. split; [reflexivity|]. split; [split; vm_compute; discriminate|]. split; [|reflexivity].
    cbn [bs]. repeat (constructor; [first [left; split; vm_compute; discriminate|right; split; reflexivity]|]). constructor.
Qed.
