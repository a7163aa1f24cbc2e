(** Blanks in header lines and requests without a version (C139-C141). Definitions used in the statements: HttpModel.v ([parse]), HttpSpec.v, EolSpec.v ([same_reading]), FoldSpec.v. *)
From Coq Require Import String ZArith List Bool Lia Permutation.
From Verif Require Import Base DictModel HttpModel HttpSpec HttpProofs HttpHead HttpBody HttpFeeds HttpExamples EolSpec HttpEol FoldSpec HttpFold.
Import ListNotations.

(* ------------------------------------------------------------------ C139 *)

(** C139. A line that begins with a blank is to continue the header before it, or the message is to be refused. Such lines are headers of their own: *)
Theorem C139_read_as_partial : forall cf m hd w more, 0 <= cf_max cf -> head_ok cf hd -> lax_headers hd w ->
  same_reading (parse cf (p_init cf) m (w ++ more)) (parse cf (p_init cf) m (wire_head hd ++ more)).
Proof. intros cf m hd w more HM HO LX. apply like_head_parse; auto. intros m1. apply fold_loop; auto. Qed.
Print Assumptions C139_read_as_partial.

Lemma finished_reading hd a b body hs rest : same_reading a b -> finished hd b body hs rest -> finished hd a body hs rest.
Proof.
  intros S (r & -> & H). destruct a as [[x|]|]; cbn in S; try contradiction. destruct S as (A & B & C & D & _). exists x. split; [reflexivity|]. rewrite A, B, C, D. exact H.
Qed.
Lemma finished_parse cf m hd s body hs rest : s <> [] -> finished hd (feed cf (p_init cf) m [s]) body hs rest -> finished hd (parse cf (p_init cf) m s) body hs rest.
Proof.
  intros _ (r & E & H). cbn [feed] in E. destruct (parse cf (p_init cf) m s) as [[x|]|]; try discriminate. exists x. split; [reflexivity|].
  destruct (r_rc x) eqn:RC; inversion E; subst; clear E; cbn in H; rewrite ?app_nil_r in H; destruct H as (H & R); try discriminate H; (split; [first [exact RC|congruence]|exact R]).
Qed.
(** the headers of a request, those on lines that begin with blanks among them *)
Theorem C139_headers_partial : forall cf m hd w more, 0 <= cf_max cf -> cf_headers_only cf = false -> cf_request cf = true -> m_headers m = [] -> m_missing m = false ->
  head_ok cf hd -> no_chunks hd -> values_of (bs "Content-Length") (hdrs_of hd) = [] -> no_multipart hd -> lax_headers hd w ->
  finished hd (parse cf (p_init cf) m (w ++ more)) [] (hdrs_of hd) more.
Proof.
  intros cf m hd w more HM HH HR MH MM HO NC NL NM LX. eapply finished_reading; [apply C139_read_as_partial; eauto|].
  assert (NE : wire_head hd ++ more <> []) by (eapply wire_head_nonempty; eauto).
  apply finished_parse; [exact NE|]. apply feed_request; auto. split; [constructor; [exact NE|constructor]|cbn; apply app_nil_r].
Qed.
Print Assumptions C139_headers_partial.
(** a line that does not look like a header is refused *)
Theorem C139_refused_partial : forall cf m hd l ws b t c more, m_missing m = false -> head_ok cf hd -> Forall hdr_ok l -> Forall2 lax_hdr l ws ->
  blanks b -> t <> [] -> Forall token_char t -> zlen t <= 1024 -> is_byte c -> ~ token_char c -> c <> ch ":" ->
  exists r, parse cf (p_init cf) m (first_line_of hd ++ concat ws ++ b ++ t ++ c :: more) = Ok (Some r) /\ r_rc r = TFalse /\ r_err r = Some E_HEADER_CHAR.
Proof. exact not_a_header. Qed.
Print Assumptions C139_refused_partial.

Definition continued : Prop := forall cf m hd l p b t r, 0 <= cf_max cf -> m_headers m = [] -> m_missing m = false -> head_ok cf hd -> hdrs_of hd = l ++ [p] ->
  blanks b -> b <> [] -> Forall value_char t ->
  parse cf (p_init cf) m (first_line_of hd ++ wire_hdrs (hdrs_of hd) ++ b ++ t ++ CRLF ++ CRLF) = Ok (Some r) -> r_rc r = TTrue ->
  Permutation (m_headers (r_msg r)) (l ++ [(fst p, snd p ++ bs " " ++ t)]).
Definition ex_fold : head := HReq {| rl_method := bs "GET"; rl_resource := bs "/"; rl_query := None; rl_version := v11 |} [(bs "X", bs "a")].
Definition ex_folded : head := HReq {| rl_method := bs "GET"; rl_resource := bs "/"; rl_query := None; rl_version := v11 |} [(bs "X", bs "a"); (bs "Host", bs "evil"); (bs "Y", bs "b")].
Theorem C139_continues_refuted : ~ continued.
Proof.
  intros H. assert (exists r, parse (ex_cf true false) (p_init (ex_cf true false)) ex_msg (first_line_of ex_fold ++ wire_hdrs (hdrs_of ex_fold) ++ bs "  " ++ bs "Host: evil" ++ CRLF ++ CRLF) = Ok (Some r)
    /\ r_rc r = TTrue /\ List.length (m_headers (r_msg r)) = 2%nat) as (r & E & T & L) by (eexists; vm_compute; auto).
  assert (HO : head_ok (ex_cf true false) ex_fold) by (unfold head_ok, ex_fold; http_ok).
  assert (C0 : 0 <= cf_max (ex_cf true false)) by (vm_compute; discriminate).
  assert (C1 : blanks (bs "  ")) by (cbn [bs]; repeat constructor).
  assert (C2 : Forall value_char (bs "Host: evil")) by (cbn [bs]; http_ok).
  specialize (H (ex_cf true false) ex_msg ex_fold [] (bs "X", bs "a") (bs "  ") (bs "Host: evil") r C0 eq_refl eq_refl HO eq_refl C1 ltac:(discriminate) C2 E T).
  apply Permutation_length in H. rewrite L in H. discriminate.
Qed.
Print Assumptions C139_continues_refuted.
Example C139_case : head_ok (ex_cf true false) ex_folded /\ lax_headers ex_folded (wire_reqline {| rl_method := bs "GET"; rl_resource := bs "/"; rl_query := None; rl_version := v11 |}
  ++ (bs "X: a" ++ CRLF) ++ (bs "  Host:evil" ++ CRLF) ++ (bs " " ++ CRLF ++ [9] ++ bs "Y: b" ++ CRLF) ++ CRLF).
Proof.
  split; [unfold head_ok, ex_folded; http_ok|]. exists [bs "X: a" ++ CRLF; bs "  Host:evil" ++ CRLF; bs " " ++ CRLF ++ [9] ++ bs "Y: b" ++ CRLF], [].
  assert (EL : empty_lines []) by (exists []; split; [constructor|reflexivity]).
  split; [|split; [exact EL|reflexivity]]. constructor; [|constructor; [|constructor; [|constructor]]].
  - exists [], [], (bs " a"). split; [exact EL|]. split; [constructor|]. split; [reflexivity|]. left; reflexivity.
  - exists [], (bs "  "), (bs "evil"). split; [exact EL|]. split; [cbn [bs]; repeat constructor|]. split; [reflexivity|]. right. split; [reflexivity|]. cbn [snd bs]. http_ok.
  - exists (bs " " ++ CRLF), [9], (bs " b"). split; [exists [bs " "]; split; [repeat constructor; discriminate|reflexivity]|]. split; [constructor; [right; reflexivity|constructor]|].
    split; [reflexivity|]. left; reflexivity.
Qed.

(* ------------------------------------------------------------------ C140 *)

(** C140. Blanks around a value are not part of it, and there need not be any. All but the first blank are kept: *)
Theorem C140_kept_partial : forall cf m r l n a v b more, 0 <= cf_max cf -> cf_headers_only cf = false -> cf_request cf = true -> m_headers m = [] -> m_missing m = false ->
  blanks a -> blanks b -> head_ok cf (HReq r (l ++ [(n, a ++ v ++ b)])) ->
  no_chunks (HReq r (l ++ [(n, a ++ v ++ b)])) -> values_of (bs "Content-Length") (l ++ [(n, a ++ v ++ b)]) = [] -> no_multipart (HReq r (l ++ [(n, a ++ v ++ b)])) ->
  exists x, parse cf (p_init cf) m (wire_reqline r ++ wire_hdrs l ++ n ++ bs ": " ++ a ++ v ++ b ++ CRLF ++ CRLF ++ more) = Ok (Some x)
    /\ r_rc x = TTrue /\ r_rest x = more /\ In (n, a ++ v ++ b) (m_headers (r_msg x)).
Proof.
  intros cf m r l n a v b more HM HH HR MH MM BA BB HO NC NL NM. set (hd := HReq r (l ++ [(n, a ++ v ++ b)])) in *.
  assert (NE : wire_head hd ++ more <> []) by (eapply wire_head_nonempty; eauto).
  assert (F : finished hd (parse cf (p_init cf) m (wire_head hd ++ more)) [] (hdrs_of hd) more).
  { apply finished_parse; [exact NE|]. apply feed_request; auto. split; [constructor; [exact NE|constructor]|cbn; apply app_nil_r]. }
  destruct F as (x & E & T & _ & _ & _ & _ & _ & P & R).
  assert (EQ : wire_head hd ++ more = wire_reqline r ++ wire_hdrs l ++ n ++ bs ": " ++ a ++ v ++ b ++ CRLF ++ CRLF ++ more).
  { unfold wire_head, hd. cbn [hdrs_of]. unfold wire_hdrs. rewrite map_app, concat_app. cbn [map concat]. unfold wire_hdr at 2. cbn [fst snd]. rewrite app_nil_r, <- !app_assoc. reflexivity. }
  rewrite EQ in E. exists x. split; [exact E|]. split; [exact T|]. split; [exact R|]. eapply Permutation_in; [exact P|]. unfold hd. cbn [hdrs_of]. apply in_app_iff. right. left. reflexivity.
Qed.
Print Assumptions C140_kept_partial.
(** without a blank, a value that begins with a separator (a tab, a slash, a quote...) is refused; other values are read (C139_read_as_partial) *)
Theorem C140_refused_partial : forall cf m hd l ws b n c more, m_missing m = false -> head_ok cf hd -> Forall hdr_ok l -> Forall2 lax_hdr l ws ->
  blanks b -> n <> [] -> Forall token_char n -> zlen n <= 1024 -> is_byte c -> ~ token_char c -> c <> 32 -> c <> 13 -> c <> 10 ->
  exists r, parse cf (p_init cf) m (first_line_of hd ++ concat ws ++ b ++ n ++ bs ":" ++ c :: more) = Ok (Some r) /\ r_rc r = TFalse /\ r_err r = Some E_HEADER_CHAR.
Proof. exact no_value. Qed.
Print Assumptions C140_refused_partial.

Definition blanks_dropped : Prop := forall cf m r n a v b, 0 <= cf_max cf -> cf_headers_only cf = false -> cf_request cf = true -> m_headers m = [] -> m_missing m = false ->
  reqline_ok r -> hdr_ok (n, v) -> (forall c s, v = c :: s -> ~ blank c) -> (forall c s, v = s ++ [c] -> ~ blank c) -> blanks a -> blanks b ->
  exists x, parse cf (p_init cf) m (wire_reqline r ++ n ++ bs ":" ++ a ++ v ++ b ++ CRLF ++ CRLF) = Ok (Some x) /\ r_rc x = TTrue /\ m_headers (r_msg x) = [(n, v)].
Definition ex_line : reqline := {| rl_method := bs "GET"; rl_resource := bs "/"; rl_query := None; rl_version := v11 |}.
Lemma ex_line_ok : reqline_ok ex_line.
Proof. unfold ex_line. http_ok. Qed.
(** two blanks; and none before a slash *)
Theorem C140_dropped_refuted : ~ blanks_dropped.
Proof.
  intros H. assert (C0 : 0 <= cf_max (ex_cf true false)) by (vm_compute; discriminate).
  assert (HO : hdr_ok (bs "X", bs "a")) by (cbn [bs]; http_ok).
  destruct (H (ex_cf true false) ex_msg ex_line (bs "X") (bs "  ") (bs "a") [] C0 eq_refl eq_refl eq_refl eq_refl ex_line_ok HO) as (x & E & _ & Q).
  - intros c s K. injection K as <- <-. intros [X|X]; discriminate.
  - intros c s K. destruct s as [|y [|]]; try discriminate. injection K as <-. intros [X|X]; discriminate.
  - cbn [bs]. repeat constructor.
  - constructor.
  - vm_compute in E. injection E as <-. vm_compute in Q. discriminate.
Qed.
Print Assumptions C140_dropped_refuted.
Theorem C140_slash_refuted : ~ forall cf m r n v, 0 <= cf_max cf -> cf_headers_only cf = false -> cf_request cf = true -> m_headers m = [] -> m_missing m = false ->
  reqline_ok r -> hdr_ok (n, v) ->
  exists x, parse cf (p_init cf) m (wire_reqline r ++ n ++ bs ":" ++ v ++ CRLF ++ CRLF) = Ok (Some x) /\ r_rc x = TTrue.
Proof.
  intros H. assert (C0 : 0 <= cf_max (ex_cf true false)) by (vm_compute; discriminate).
  assert (HO : hdr_ok (bs "Referer", bs "/a")) by (cbn [bs]; http_ok).
  destruct (H (ex_cf true false) ex_msg ex_line (bs "Referer") (bs "/a") C0 eq_refl eq_refl eq_refl eq_refl ex_line_ok HO) as (x & E & Q).
  vm_compute in E. injection E as <-. vm_compute in Q. discriminate.
Qed.
Print Assumptions C140_slash_refuted.
Example C140_case : head_ok (ex_cf true false) (HReq ex_line ([(bs "A", bs "b")] ++ [(bs "X", bs " " ++ bs "a" ++ bs "  ")])) /\ blanks (bs "  ")
  /\ exists r, parse (ex_cf true false) (p_init (ex_cf true false)) ex_msg (wire_reqline ex_line ++ bs "X:  a  " ++ CRLF ++ CRLF) = Ok (Some r) /\ m_headers (r_msg r) = [(bs "X", bs " a  ")].
Proof. split; [unfold head_ok, ex_line; cbn [bs app]; http_ok|]. split; [cbn [bs]; repeat constructor|]. eexists. split; [vm_compute; reflexivity|]. reflexivity. Qed.

(* ------------------------------------------------------------------ C141 *)

(** C141. A request line without version is a whole request (HTTP 0.9). It is, if it ends in CR LF: *)
Theorem C141_whole_partial : forall cf m r more, cf_request cf = true -> m_missing m = false -> m_headers m = [] -> reqline_ok r ->
  exists x, parse cf (p_init cf) m (simple_line r ++ CRLF ++ more) = Ok (Some x) /\ r_rc x = TTrue /\ r_err x = None /\ r_rest x = more
    /\ m_valid (r_msg x) = true /\ m_vmaj (r_msg x) = 0 /\ m_vmin (r_msg x) = 0 /\ m_method (r_msg x) = rl_method r /\ m_resource (r_msg x) = rl_resource r
    /\ m_headers (r_msg x) = [] /\ m_clen (r_msg x) = 0.
Proof. exact simple_parse. Qed.
Print Assumptions C141_whole_partial.
(** with LF the next line is taken for a header of it *)
Theorem C141_line_feed_refuted : ~ forall cf m r more, 0 <= cf_max cf -> cf_request cf = true -> m_missing m = false -> m_headers m = [] -> reqline_ok r ->
  exists x, parse cf (p_init cf) m (simple_line r ++ [10] ++ more) = Ok (Some x) /\ r_rc x = TTrue /\ r_rest x = more.
Proof.
  intros H. assert (C0 : 0 <= cf_max (ex_cf true false)) by (vm_compute; discriminate).
  destruct (H (ex_cf true false) ex_msg ex_line (simple_line ex_line ++ [10]) C0 eq_refl eq_refl eq_refl ex_line_ok) as (x & E & Q & _).
  vm_compute in E. injection E as <-. vm_compute in Q. discriminate.
Qed.
Print Assumptions C141_line_feed_refuted.
Example C141_case : reqline_ok ex_line /\ exists r, parse (ex_cf true false) (p_init (ex_cf true false)) ex_msg (simple_line ex_line ++ CRLF ++ bs "GET") = Ok (Some r) /\ r_rc r = TTrue /\ r_rest r = bs "GET".
Proof. split; [exact ex_line_ok|]. eexists. split; [vm_compute; reflexivity|]. split; reflexivity. Qed.
