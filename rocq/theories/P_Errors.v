(** C157: the text of an error tells what is wrong with a message. *)
From Coq Require Import String ZArith List Bool Lia.
From Verif Require Import Base HttpModel HttpSpec HttpTooLong SpdyModel ErrorModel.
Import ListNotations.

(** the line in the log for a request refused, as text *)
Definition line_with (t : string) : list Z := bs "Invalid HTTP request (" ++ bs t ++ bs ")".

(** the parts of a message that may be too long, and how each is called *)
Inductive part := PartMethod | PartUri | PartQuery | PartReason | PartName | PartValue.
Definition called (p : part) : string :=
  match p with PartMethod => "method" | PartUri => "URI" | PartQuery => "query string" | PartReason => "status message" | PartName => "header name" | PartValue => "header value" end%string.
(** the beginning of a message in which a part is longer than allowed *)
Inductive over_limit (cf : pcfg) : part -> list Z -> Prop :=
  | OL_method s : cf_request cf = true -> Forall token_char s -> 1024 < zlen s -> over_limit cf PartMethod s
  | OL_uri me s : cf_request cf = true -> me <> [] -> Forall token_char me -> zlen me <= 1024 -> Forall uri_char s -> 262144 < zlen s ->
      over_limit cf PartUri (me ++ bs " " ++ s)
  | OL_query me re s : cf_request cf = true -> me <> [] -> Forall token_char me -> zlen me <= 1024 -> Forall uri_char re -> zlen re <= 262144 ->
      Forall query_char s -> 1048576 < zlen s -> over_limit cf PartQuery (me ++ bs " " ++ re ++ bs "?" ++ s)
  | OL_reason v co s : cf_request cf = false -> version_ok v -> co <> [] -> Forall is_dec co -> dec_value co < 65536 -> Forall text_char s -> 1024 < zlen s ->
      over_limit cf PartReason (wire_version v ++ bs " " ++ co ++ bs " " ++ s)
  | OL_name hd s : head_ok cf hd -> Forall token_char s -> 1024 < zlen s ->
      over_limit cf PartName (match hd with HReq r _ => wire_reqline r | HResp r _ => wire_statline r end ++ wire_hdrs (hdrs_of hd) ++ s)
  | OL_value hd na s : head_ok cf hd -> na <> [] -> Forall token_char na -> zlen na <= 1024 -> Forall value_char s -> 1048576 < zlen s ->
      over_limit cf PartValue (match hd with HReq r _ => wire_reqline r | HResp r _ => wire_statline r end ++ wire_hdrs (hdrs_of hd) ++ na ++ bs ": " ++ s).
(** The text an over-long part is reported with: as read with the parser in any pieces, the message is refused and the error has this text. *)
Definition refused_with (cf : pcfg) (p : list Z) (t : list Z) : Prop :=
  forall m more pieces, Forall (fun s => s <> []) pieces -> concat pieces = p ++ more ->
  exists r e, feed cf (p_init cf) m pieces = Ok (Some r) /\ r_rc r = TFalse /\ r_err r = Some e /\ err_message (err_value e) = t.

Lemma too_long_refused cf p e : 0 <= cf_max cf -> too_long cf p e -> refused_with cf p (err_message (err_value e)).
Proof. intros M T m more pieces F C. destruct (too_long_feed cf m p e more pieces M T F C) as (r & A & B & D). exists r, e. auto. Qed.

(** C157. Of a method, query string, header name or header value that is too long, the text of the error names the part.
    Missing: the URI and the status message ([C157_uri_refuted], [C157_reason_refuted]). *)
Theorem C157_named_partial cf x p : 0 <= cf_max cf -> over_limit cf x p -> x <> PartUri -> x <> PartReason ->
  refused_with cf p (bs (called x) ++ bs " exceeds maximum size").
Proof.
  intros M O N1 N2. destruct O; try contradiction.
  - exact (too_long_refused cf _ _ M (TL_method cf s H H0 H1)).
  - exact (too_long_refused cf _ _ M (TL_query cf me re s H H0 H1 H2 H3 H4 H5 H6)).
  - exact (too_long_refused cf _ _ M (TL_name cf hd s H H0 H1)).
  - exact (too_long_refused cf _ _ M (TL_value cf hd na s H H0 H1 H2 H3 H4)).
Qed.
Print Assumptions C157_named_partial.
(** C157. What the other two are reported with. *)
Theorem C157_misnamed_partial cf x p : 0 <= cf_max cf -> over_limit cf x p ->
  (x = PartUri -> refused_with cf p (bs "method exceeds maximum size")) /\ (x = PartReason -> refused_with cf p (bs "invalid status character")).
Proof.
  intros M O. split; intros ->; inversion O; subst.
  - exact (too_long_refused cf _ _ M (TL_resource cf me s H H0 H1 H2 H3 H4)).
  - exact (too_long_refused cf _ _ M (TL_reason cf v co s H H0 H1 H2 H3 H4 H5)).
Qed.
Print Assumptions C157_misnamed_partial.

Definition ex_cf (request : bool) : pcfg := {| cf_request := request; cf_max := 5; cf_headers_only := false; cf_save_raw := false; cf_handler := false; cf_pos := fun _ _ => 0%nat |}.
Lemma cf5 {request} : 0 <= cf_max (ex_cf request).
Proof. cbn. lia. Qed.
(** HTTP/1.1 *)
Definition v11 : version := {| v_maj := bs "1"; v_min := bs "1" |}.
Lemma refused_one cf p t t' : refused_with cf p t -> refused_with cf p t' -> p <> [] -> t = t'.
Proof.
  intros A B NE. destruct (A msg_init [] [p]) as (r & e & F & _ & E & T); [repeat constructor; exact NE|reflexivity|].
  destruct (B msg_init [] [p]) as (r' & e' & F' & _ & E' & T'); [repeat constructor; exact NE|reflexivity|]. rewrite F in F'. injection F' as <-. congruence.
Qed.
Lemma forall_rep {A} (P : A -> Prop) x n : P x -> Forall P (repeat x n).
Proof. intros. apply Forall_forall. intros y I. apply repeat_spec in I. congruence. Qed.
(** C157. False: that the text names the URI if the URI is too long; it names the method. *)
Theorem C157_uri_refuted : ~ (forall cf p, 0 <= cf_max cf -> over_limit cf PartUri p -> refused_with cf p (bs "URI exceeds maximum size")).
Proof.
  intros H. assert (O : over_limit (ex_cf true) PartUri (bs "GET" ++ bs " " ++ repeat 65 (Z.to_nat 262145))).
  { apply OL_uri; [reflexivity|discriminate| |vm_compute; discriminate| |].
    - repeat constructor; try (vm_compute; discriminate); vm_compute; intuition discriminate.
    - apply forall_rep. vm_compute. intuition discriminate.
    - unfold zlen. rewrite repeat_length, Z2Nat.id; lia. }
  pose proof (H _ _ cf5 O) as A. destruct (C157_misnamed_partial _ _ _ cf5 O) as (B & _). specialize (B eq_refl).
  assert (E := refused_one _ _ _ _ A B). specialize (E ltac:(discriminate)). vm_compute in E. discriminate.
Qed.
Print Assumptions C157_uri_refuted.
(** C157. False: that the text names the status message if that is too long; it says that a character is not valid. *)
Theorem C157_reason_refuted : ~ (forall cf p, 0 <= cf_max cf -> over_limit cf PartReason p -> refused_with cf p (bs "status message exceeds maximum size")).
Proof.
  intros H. assert (O : over_limit (ex_cf false) PartReason (wire_version v11 ++ bs " " ++ bs "200" ++ bs " " ++ repeat 65 (Z.to_nat 1025))).
  { apply OL_reason; [reflexivity| |discriminate| | | |].
    - vm_compute. repeat split; intros; repeat constructor; try discriminate; try (intros; discriminate).
    - repeat constructor; vm_compute; discriminate.
    - vm_compute. reflexivity.
    - apply forall_rep. vm_compute. intuition discriminate.
    - unfold zlen. rewrite repeat_length, Z2Nat.id; lia. }
  pose proof (H _ _ cf5 O) as A. destruct (C157_misnamed_partial _ _ _ cf5 O) as (_ & B). specialize (B eq_refl).
  assert (E := refused_one _ _ _ _ A B). specialize (E ltac:(discriminate)). vm_compute in E. discriminate.
Qed.
Print Assumptions C157_reason_refuted.

(** C157. Two errors of the parser have the same text, and the same line in the log, only if they are the same error or are those of an over-long method
    and an over-long URI; and none has the text of an error that is not known. *)
Theorem C157_told_apart_partial e f : (log_invalid e = log_invalid f -> e = f \/ (In e [E_METHOD_SIZE; E_URI_SIZE] /\ In f [E_METHOD_SIZE; E_URI_SIZE]))
  /\ err_message (err_value e) <> bs "parser error".
Proof. split; [|destruct e; discriminate]. unfold log_invalid. intros H. apply app_inv_head, app_inv_tail in H. destruct e; destruct f; try (left; reflexivity); try discriminate H; right; cbn; auto. Qed.
Print Assumptions C157_told_apart_partial.
(** C157. False: that errors that differ have texts that differ; for SPDY two have the text of an error that is not known. *)
Theorem C157_apart_refuted : ~ (forall e f, log_invalid e = log_invalid f -> e = f) /\ ~ (forall e f, serr_message (serr_value e) = serr_message (serr_value f) -> e = f).
Proof. split; intros H; [specialize (H E_METHOD_SIZE E_URI_SIZE eq_refl)|specialize (H EProtocol EInternal eq_refl)]; discriminate. Qed.
Print Assumptions C157_apart_refuted.
(** C157. The other errors of SPDY. *)
Theorem C157_spdy_partial e f : serr_message (serr_value e) = serr_message (serr_value f) -> e = f \/ (In e [EProtocol; EInternal] /\ In f [EProtocol; EInternal]).
Proof. destruct e; destruct f; intros H; try (left; reflexivity); try discriminate H; right; cbn; auto. Qed.
Print Assumptions C157_spdy_partial.

Example C157_case : over_limit (ex_cf true) PartMethod (repeat 65 1025) /\ log_invalid E_QUERY_CHAR = line_with "invalid query string character".
Proof.
  split; [|reflexivity]. apply OL_method; [reflexivity| |vm_compute; reflexivity]. apply forall_rep. split; [split; vm_compute; discriminate|vm_compute; intuition discriminate].
Qed.
