(** Property theorems about the SPDY parser: C65, C66 and C105 to C108. *)
From Coq Require Import String ZArith List Bool Lia.
From Verif Require Import Base SMap AlgModel AlgSpec AlgProofs HttpModel SpdyModel SpdySpec SpdyProofs.
Import ListNotations.

(** a zlib that copies, for the concrete cases *)
Definition plain (s : unit) (z : list Z) : unit * list Z * bool := (tt, if (zlen z <=? 16384) && forallb is_byteb z then z else [], true).
Lemma plain_ok : zlib_ok plain.
Proof.
  intros s z s' out ok E. injection E as <- <- _. destruct ((zlen z <=? 16384) && forallb is_byteb z) eqn:X; [|split; [constructor|rewrite zlen_nil; lia]].
  apply andb_prop in X as [X1 X2]. split; [|lia]. apply Forall_forall. intros b I. rewrite forallb_forall in X2. apply is_byteb_spec. auto.
Qed.
Definition fresh_dec : dec unit := dec_init tt.
Lemma init_buf {I} (s : I) : buf_ok (d_buf (dec_init s)).
Proof.
  unfold buf_ok, dec_init. cbn [d_buf]. split; [unfold zlen; rewrite repeat_length, Z2Nat.id; [reflexivity|unfold BUF_SIZE; lia]|].
  apply Forall_forall. intros c H. apply repeat_spec in H. subst. exact Logic.I.
Qed.
Lemma bytes_by l : forallb is_byteb l = true -> Forall is_byte l.
Proof. intros H. apply Forall_forall. intros b I. rewrite forallb_forall in H. apply is_byteb_spec. auto. Qed.
Ltac bytes := apply bytes_by; vm_compute; reflexivity.

(* ------------------------------------------------------------------ C65 *)

(** For every packet with four more bytes: a control frame is recognised if and only if the control bit is set, the version is 1, 2 or 3 and the type at most 10. *)
Theorem C65_control_partial mem p : Forall is_byte mem -> has mem p 4 ->
  (is_spdy_control_frame mem p = SOk true <-> h_control mem p /\ 1 <= h_version mem p <= 3 /\ h_type mem p <= 10)
  /\ (is_spdy_control_frame mem p = SOk false <-> ~ (h_control mem p /\ 1 <= h_version mem p <= 3 /\ h_type mem p <= 10)).
Proof.
  intros H P. unfold is_spdy_control_frame. rewrite !rd16_eq by auto. unfold has in P.
  assert (hasb mem p 2 = true) as -> by (apply hasb_spec; unfold has; lia). assert (hasb mem (p + 2) 2 = true) as -> by (apply hasb_spec; unfold has; lia). cbn [sbind].
  pose proof (field_bound mem p 2 H ltac:(unfold has; lia) ltac:(lia)) as B. change (256 ^ 2) with 65536 in B. rewrite shiftr15, land15 by auto.
  unfold h_control, SPDY_INVALID. fold (h_version mem p). fold (h_type mem p).
  destruct (field mem p 2 <? 32768) eqn:E1; [split; (split; intros; [|auto; lia]); try discriminate; lia|].
  destruct ((h_version mem p <? 1) || (3 <? h_version mem p)) eqn:E2; [split; (split; intros; [|auto; lia]); try discriminate; lia|].
  destruct (11 <=? h_type mem p) eqn:E3; split; (split; intros; [|auto; lia]); try discriminate; lia.
Qed.
Print Assumptions C65_control_partial.
(** A recognised control frame has a defined type: not so, types 0 and 5 pass. *)
Theorem C65_type_refuted : ~ forall mem p, Forall is_byte mem -> is_spdy_control_frame mem p = SOk true -> control_type (h_type mem p).
Proof.
  intros H. assert (Forall is_byte [128; 2; 0; 0; 0; 0; 0; 0]) as F by bytes. specialize (H _ 0 F eq_refl). vm_compute in H. destruct H as [[H _]|[H _]]; apply H; reflexivity.
Qed.
Print Assumptions C65_type_refuted.
(** What is parsed as a control frame would be recognised as one: not so, [parse] also takes version 0. *)
Theorem C65_version_refuted : ~ forall (I : Type) inflate (mem : list Z) len i (d : dec I) r, Forall is_byte mem -> parse inflate false mem 0 len i d = SOk r -> r_error r = None -> h_control mem 0 -> is_spdy_control_frame mem 0 = SOk true.
Proof.
  intros H. assert (Forall is_byte [128; 0; 0; 6; 0; 0; 0; 4; 0; 0; 0; 1]) as F by bytes.
  assert (exists r, parse plain false [128; 0; 0; 6; 0; 0; 0; 4; 0; 0; 0; 1] 0 12 info_init (mkd tt tt []) = SOk r /\ r_error r = None) as (r & E & N) by (eexists; split; [vm_compute; reflexivity|reflexivity]).
  specialize (H _ _ _ _ _ _ r F E N). vm_compute in H. assert (Some true = Some false) as X; [|discriminate]. rewrite <- (f_equal (fun x => match x with SOk b => Some b | _ => None end) (H ltac:(discriminate))). reflexivity.
Qed.
Print Assumptions C65_version_refuted.
(** For every call that reports a frame: a frame without control bit is reported as data and nothing else; a control frame has version at most 3 and type at most 10,
    and its type decides what is reported: request, response or control; types 5 and 8 leave the field as it was, type 0 is reported as data. *)
Definition kind_of (t : Z) (before : htype) : htype :=
  if t =? 0 then HTTP_DATA else if t =? 1 then HTTP_REQUEST else if t =? 2 then HTTP_RESPONSE else if (t =? 5) || (t =? 8) then before else SPDY_CONTROL.
Theorem C65_report_partial (I : Type) inflate asserts mem p len i (d : dec I) r : Forall is_byte mem -> parse inflate asserts mem p len i d = SOk r -> r_error r = None ->
  (~ h_control mem p -> i_type (r_info r) = HTTP_DATA)
  /\ (h_control mem p -> h_version mem p <= 3 /\ 0 <= h_type mem p <= 10 /\ i_type (r_info r) = kind_of (h_type mem p) (i_type i)).
Proof.
  intros H E N. destruct (parse_result inflate asserts mem p len i d r H E) as [[_ X]|(_ & P & _ & R)]; [contradiction|].
  assert (has mem p 2) as P2 by (unfold has in *; lia). destruct (first_of_two mem p H P2) as (F & F1 & F2). unfold h_control. rewrite F.
  destruct R as [(FZ & T & _)|(FZ & P12 & T & V & q & B)].
  - split; auto. intros. lia.
  - split; [intros; lia|]. intros _. split; auto. destruct (body_result inflate mem p _ d _ _ q H P12 B) as (K & _).
    pose proof (field_bound mem (p + 2) 2 H ltac:(unfold has in *; lia) ltac:(lia)) as TB. fold (h_type mem p) in TB. split; [lia|]. rewrite K. unfold kind_of.
    assert (h_type mem p = 0 \/ h_type mem p = 1 \/ h_type mem p = 2 \/ h_type mem p = 3 \/ h_type mem p = 4 \/ h_type mem p = 5 \/ h_type mem p = 6 \/ h_type mem p = 7 \/ h_type mem p = 8 \/ h_type mem p = 9 \/ h_type mem p = 10) as TT by lia.
    repeat (destruct TT as [-> |TT]; [reflexivity|]). rewrite TT. reflexivity.
Qed.
Print Assumptions C65_report_partial.
(** Only frames without control bit are reported as data: not so for control frames of type 0. *)
Theorem C65_data_refuted : ~ forall (I : Type) inflate (mem : list Z) len i (d : dec I) r, Forall is_byte mem -> parse inflate false mem 0 len i d = SOk r -> r_error r = None -> i_type i = NON_SPDY ->
  i_type (r_info r) = HTTP_DATA -> ~ h_control mem 0.
Proof.
  intros H. assert (Forall is_byte [128; 2; 0; 0; 0; 0; 0; 4; 0; 0; 0; 1]) as F by bytes.
  assert (exists r, parse plain false [128; 2; 0; 0; 0; 0; 0; 4; 0; 0; 0; 1] 0 12 info_init (mkd tt tt []) = SOk r /\ r_error r = None /\ i_type (r_info r) = HTTP_DATA) as (r & E & N & T) by (eexists; split; [vm_compute; reflexivity|split; reflexivity]).
  apply (H _ _ _ _ _ _ r F E N eq_refl T). vm_compute. discriminate.
Qed.
Print Assumptions C65_data_refuted.
(** Every frame that is parsed is reported with a kind: not so for HEADERS frames. *)
Theorem C65_kind_refuted : ~ forall (I : Type) inflate (mem : list Z) len i (d : dec I) r, Forall is_byte mem -> control_type (h_type mem 0) -> parse inflate false mem 0 len i d = SOk r -> r_error r = None -> i_type (r_info r) <> NON_SPDY.
Proof.
  intros H. set (mem := [128; 2; 0; 8; 0; 0; 0; 8; 0; 0; 0; 1; 0; 0; 0; 0]). assert (Forall is_byte mem) as F by bytes.
  assert (exists r, parse plain false mem 0 16 info_init (mkd tt tt []) = SOk r /\ r_error r = None /\ i_type (r_info r) = NON_SPDY) as (r & E & N & T) by (eexists; split; [vm_compute; reflexivity|split; reflexivity]).
  apply (H _ _ _ _ _ _ r F ltac:(right; vm_compute; split; discriminate) E N T).
Qed.
Print Assumptions C65_kind_refuted.
(** The two static helpers. The kind by the first byte: control exactly for frames with control bit and version below 256, data exactly for streams below 2^24; and the
    frames that [parse] reports are of the kind told. *)
Theorem C65_first_partial mem p : Forall is_byte mem -> has mem p 2 -> exists k, get_spdy_frame_type mem p = SOk k
  /\ (k = FControl <-> h_control mem p /\ h_version mem p < 256) /\ (k = FData <-> ~ h_control mem p /\ h_version mem p < 256) /\ (k = FInvalid <-> 256 <= h_version mem p).
Proof.
  intros H P. unfold get_spdy_frame_type. rewrite rd8_eq. assert (hasb mem p 1 = true) as -> by (apply hasb_spec; unfold has in *; lia). cbn [sbind].
  destruct (first_of_two mem p H P) as (F & F1 & F2). unfold h_control, h_version. rewrite F. eexists. split; [reflexivity|].
  assert (field mem p 1 < 128 \/ 128 <= field mem p 1) as [L|L] by lia.
  - rewrite Z.mod_small by lia. destruct (Z.eqb_spec (field mem p 1) 128); [lia|]. destruct (Z.eqb_spec (field mem p 1) 0); repeat split; intros; try discriminate; try lia; auto.
  - assert ((field mem p 1 * 256 + field mem (p + 1) 1) mod 32768 = (field mem p 1 - 128) * 256 + field mem (p + 1) 1) as ->
      by (symmetry; apply (Z.mod_unique _ _ 1); lia).
    destruct (Z.eqb_spec (field mem p 1) 128); [|destruct (Z.eqb_spec (field mem p 1) 0)]; repeat split; intros; try discriminate; try lia; auto.
Qed.
Print Assumptions C65_first_partial.
Theorem C65_agrees_partial (I : Type) inflate asserts mem p len i (d : dec I) r : Forall is_byte mem -> parse inflate asserts mem p len i d = SOk r -> r_error r = None ->
  (h_control mem p -> get_spdy_frame_type mem p = SOk FControl /\ get_control_frame_stream_id mem p = SOk (h_stream mem p)
     /\ (h_type mem p = 1 \/ h_type mem p = 2 \/ h_type mem p = 8 -> get_control_frame_stream_id mem p = SOk (i_stream (r_info r))))
  /\ (~ h_control mem p -> get_spdy_frame_type mem p = SOk FData).
Proof.
  intros H E N. destruct (parse_result inflate asserts mem p len i d r H E) as [[_ X]|(_ & P & _ & R)]; [contradiction|].
  assert (P2 : has mem p 2) by (unfold has in *; lia). destruct (first_of_two mem p H P2) as (F & F1 & F2). unfold h_control. rewrite F.
  unfold get_spdy_frame_type. rewrite rd8_eq. assert (hasb mem p 1 = true) as -> by (apply hasb_spec; unfold has in *; lia). cbn [sbind].
  destruct R as [(FZ & T & _)|(FZ & P12 & T & V & q & B)].
  - rewrite FZ. split; [intros; lia|]. intros _. reflexivity.
  - rewrite FZ. split; [|intros; lia]. intros _. split; [reflexivity|].
    assert (get_control_frame_stream_id mem p = SOk (h_stream mem p)) as K.
    { unfold get_control_frame_stream_id. rewrite rd32_eq by auto. assert (hasb mem (p + 8) 4 = true) as -> by (apply hasb_spec; unfold has in *; lia). cbn [sbind]. rewrite land31. reflexivity. }
    split; [exact K|]. intros TT. destruct (body_result inflate mem p _ d _ _ q H P12 B) as (_ & K2 & _). destruct (K2 TT) as (s & out & h & _ & _ & _ & _ & IS). rewrite IS. exact K.
Qed.
Print Assumptions C65_agrees_partial.
(** Every data frame is told to be one: not so for streams from 2^24 on. *)
Theorem C65_first_refuted : ~ forall mem, Forall is_byte mem -> has mem 0 8 -> ~ h_control mem 0 -> get_spdy_frame_type mem 0 = SOk FData.
Proof.
  intros H. assert (Forall is_byte [1; 0; 0; 0; 0; 0; 0; 0]) as F by bytes. assert (SOk FInvalid = SOk FData) as X; [|discriminate].
  apply (H _ F); [unfold has; vm_compute; split; discriminate|]. intros X. vm_compute in X. apply X. reflexivity.
Qed.
Print Assumptions C65_first_refuted.
Example C65_case : exists r, parse plain true [128; 3; 0; 3; 0; 0; 0; 8; 0; 0; 0; 5; 0; 0; 0; 1] 0 16 info_init (mkd tt tt []) = SOk r /\ r_error r = None /\ i_type (r_info r) = SPDY_CONTROL
  /\ is_spdy_control_frame [128; 3; 0; 3; 0; 0; 0; 8; 0; 0; 0; 5; 0; 0; 0; 1] 0 = SOk true.
Proof. eexists. split; [vm_compute; reflexivity|]. repeat split. Qed.

(* ------------------------------------------------------------------ C66 *)

(** For every packet, offset, declared length, structure and decompressor: the call reads only the packet and written bytes of the buffer exactly under [inside],
    which asks for the bytes present and compares no declared length with them. *)
Theorem C66_reads_partial (I : Type) inflate mem p len i (d : dec I) : Forall is_byte mem -> buf_ok (d_buf d) -> zlib_ok inflate ->
  (parse inflate false mem p len i d <> SRead <-> inside inflate mem p d).
Proof. intros H [_ B] ZK. apply parse_reads; auto. Qed.
Print Assumptions C66_reads_partial.
(** The condition on the buffer holds from the start and after every call that returns. *)
Theorem C66_buffer_partial (I : Type) inflate : zlib_ok inflate -> (forall s : I, buf_ok (d_buf (dec_init s)))
  /\ forall asserts mem p len i (d : dec I) r, buf_ok (d_buf d) -> parse inflate asserts mem p len i d = SOk r -> buf_ok (d_buf (r_dec r)).
Proof. intros ZK. split; [intros; apply init_buf|]. intros asserts mem p len i d r B E. eapply wrote_ok; eauto. eapply parse_wrote; eauto. Qed.
Print Assumptions C66_buffer_partial.
(** For every packet that holds the whole frame, long enough for the fields of its type, with a header block that decompresses to a whole list or not at all:
    nothing outside is read, unless it is a GOAWAY frame of length 4. *)
Theorem C66_whole_partial (I : Type) inflate mem p len i (d : dec I) : Forall is_byte mem -> buf_ok (d_buf d) -> zlib_ok inflate ->
  has mem p 8 -> has mem p (8 + h_length mem p) ->
  (h_control mem p -> 4 <= h_length mem p /\ (h_type mem p = 1 -> 10 <= h_length mem p) /\ (h_type mem p = 2 \/ h_type mem p = 8 -> 6 <= h_length mem p)) ->
  (h_type mem p = 7 -> h_length mem p <> 4) ->
  (forall c z s out, inflate c z = (s, out, true) -> exists ps, block_ok ps /\ out = block_of ps) ->
  parse inflate false mem p len i d <> SRead.
Proof.
  intros H B ZK P8 P L G ZB. apply C66_reads_partial; auto. unfold has in *. assert (has mem p 2) as P2 by (unfold has; lia). destruct (first_of_two mem p H P2) as (F & F1 & F2).
  split; [unfold has; lia|]. split; [intros; unfold has; lia|]. intros FZ. destruct L as (L4 & L10 & L6); [unfold h_control; lia|]. split; [unfold has; lia|].
  assert (forall k, k <= h_length mem p -> 0 <= k -> block_inside inflate mem p k d) as X.
  { intros k K K0. unfold block_inside. assert (0 <= h_length mem p < 16777216) as B3 by (apply (field_bound mem (p + 5) 3); auto; unfold has; lia). rewrite (Z.mod_small (h_length mem p - k)) by lia.
    split; [unfold has; lia|]. intros s out E. destruct (ZB _ _ _ _ E) as (ps & PS & ->). exists ps, (skipn (List.length (block_of ps)) (d_buf d)). split; auto. }
  intros _. split; [unfold has; lia|]. intros _. split; [intros T; apply X; auto; lia|]. split; [intros T; apply X; auto; lia|]. split; intros; [unfold has; lia|]. exfalso. apply G; auto.
Qed.
Print Assumptions C66_whole_partial.
(** Nothing outside the packet is read: not so for a packet cut short. *)
Theorem C66_short_refuted : ~ forall (I : Type) inflate mem i (d : dec I), Forall is_byte mem -> mem <> [] -> buf_ok (d_buf d) -> zlib_ok inflate -> parse inflate false mem 0 (zlen mem) i d <> SRead.
Proof. intros H. apply (H unit plain [0; 0; 0; 1; 0; 0; 0] info_init fresh_dec); [bytes|discriminate|apply init_buf|apply plain_ok|vm_compute; reflexivity]. Qed.
Print Assumptions C66_short_refuted.
(** Nothing outside the packet is read if it holds the whole frame: not so for a GOAWAY frame as version 2 has it. *)
Theorem C66_goaway_refuted : ~ forall (I : Type) inflate mem i (d : dec I), Forall is_byte mem -> buf_ok (d_buf d) -> zlib_ok inflate -> h_control mem 0 -> h_version mem 0 = 2 -> control_type (h_type mem 0) -> zlen mem = 8 + h_length mem 0 -> 4 <= h_length mem 0 ->
  parse inflate false mem 0 (zlen mem) i d <> SRead.
Proof.
  intros H. apply (H unit plain [128; 2; 0; 7; 0; 0; 0; 4; 0; 0; 0; 5] info_init fresh_dec); [bytes|apply init_buf|apply plain_ok| | | | | |]; try (vm_compute; first [reflexivity|discriminate]). right. vm_compute. split; discriminate.
Qed.
Print Assumptions C66_goaway_refuted.
(** Nothing outside the decompressor's buffer is read if the frame is whole: not so if a header list announces more than the buffer holds. *)
Definition big_block : list Z := [0; 1; 255; 255].
Theorem C66_block_refuted : ~ forall (I : Type) inflate mem i (d : dec I), Forall is_byte mem -> buf_ok (d_buf d) -> zlib_ok inflate -> zlen mem = 8 + h_length mem 0 -> h_type mem 0 = 2 -> 6 <= h_length mem 0 ->
  parse inflate false mem 0 (zlen mem) i d <> SRead.
Proof.
  intros H. set (mem := [128; 2; 0; 2; 0; 0; 0; 10; 0; 0; 0; 1; 0; 0] ++ big_block).
  assert (Forall is_byte mem) as F by bytes. apply (H unit plain mem info_init fresh_dec F (init_buf tt) plain_ok); try (vm_compute; first [reflexivity|discriminate]).
Qed.
Print Assumptions C66_block_refuted.
Definition ex_pairs : list (list Z * list Z) := [(bs "status", bs "200"); (bs "version", bs "HTTP/1.1")].
Definition ex_reply : list Z := enc (Head 2 2 0 1 [0; 0] ex_pairs (block_of ex_pairs)).
Example C66_case : inside plain ex_reply 0 fresh_dec /\ (exists r, parse plain true ex_reply 0 (zlen ex_reply) info_init fresh_dec = SOk r /\ r_value r = TTrue /\ i_headers (r_info r) = ex_pairs).
Proof.
  split; [apply (C66_reads_partial unit plain ex_reply 0 (zlen ex_reply) info_init fresh_dec); [bytes|apply init_buf|apply plain_ok|vm_compute; discriminate]|]. eexists. split; [vm_compute; reflexivity|]. repeat split.
Qed.

(* ------------------------------------------------------------------ C105 *)

(** For every packet of well-formed frames, however many: the calls report each frame, in order, data frames with their payload in the packet and header frames with the
    names and values sent, decompressed in the context of their sender; each call but the last asks for more. *)
Theorem C105_frames_partial (I : Type) inflate asserts (d : dec I) fs n : fs <> [] -> Forall (wf asserts) fs -> zlen (concat (map enc fs)) < 4294967296 ->
  sent inflate (d_request d) (d_response d) fs -> (List.length fs <= n)%nat ->
  exists rs, parse_all inflate n asserts (concat (map enc fs)) 0 (zlen (concat (map enc fs))) d = SOk rs /\ Forall2 (told (concat (map enc fs))) fs rs /\ in_progress rs.
Proof.
  intros NE W L S LE. apply (all_frames inflate asserts (concat (map enc fs)) fs [] d n); auto. clear - W. induction fs as [|f fs IH]; cbn [map concat]; [constructor|].
  inversion W as [|? ? Wf W']; subst. apply Forall_app. split; [|auto]. unfold enc. destruct Wf as (B & _). apply Forall_app. split; [destruct f; repeat (apply Forall_app; split); apply be_bytes|]. apply Forall_app. split; [apply be_bytes|exact B].
Qed.
Print Assumptions C105_frames_partial.
(** Every data frame that is whole is reported: not so if its stream is 2^24 or more. *)
Theorem C105_stream_refuted : ~ forall (I : Type) inflate s fl x (d : dec I), 0 < s < 2147483648 -> is_byte fl -> Forall is_byte x -> zlen x < 16777216 ->
  exists r, parse inflate false (enc (Data s fl x)) 0 (zlen (enc (Data s fl x))) info_init d = SOk r /\ r_error r = None.
Proof.
  intros H. destruct (H unit plain 16777217 0 [7] fresh_dec) as (r & E & N); [lia|unfold is_byte; lia|bytes|vm_compute; reflexivity|].
  assert (parse plain false (enc (Data 16777217 0 [7])) 0 (zlen (enc (Data 16777217 0 [7]))) info_init fresh_dec = SOk (mkr TFalse (Some EFrame) info_init 9 fresh_dec 0 None)) as X by reflexivity.
  rewrite X in E. injection E as <-. discriminate.
Qed.
Print Assumptions C105_stream_refuted.
(** A packet of whole frames is parsed without error: not so if a GOAWAY frame of version 2 comes before a frame of stream 1, whose first bytes are taken for the status. *)
Definition goaway_data : list Z := enc (Other 7 2 0 [0; 0; 0; 5]) ++ enc (Data 1 1 (bs "x")).
Theorem C105_goaway_refuted : ~ forall (I : Type) inflate asserts fs n (d : dec I), (forall f, In f fs -> wf asserts f \/ exists fl x, f = Other 7 2 fl x /\ zlen x = 4 /\ Forall is_byte x /\ is_byte fl) -> sent inflate (d_request d) (d_response d) fs -> (List.length fs <= n)%nat -> 2 <= zlen fs ->
  exists rs, parse_all inflate n asserts (concat (map enc fs)) 0 (zlen (concat (map enc fs))) d = SOk rs /\ Forall (fun r => r_error r = None) rs.
Proof.
  intros H. set (fs := [Other 7 2 0 [0; 0; 0; 5]; Data 1 1 (bs "x")]). destruct (H unit plain false fs 2%nat (mkd tt tt [])) as (rs & E & N); [| |auto|vm_compute; discriminate|].
  - intros f [<-|[<-|[]]]; [right; exists 0, [0; 0; 0; 5]; repeat split; try lia; bytes|left]. repeat split; try lia; try (unfold is_byte; lia); try discriminate. bytes.
  - constructor. constructor. constructor.
  - assert (exists r, parse_all plain 2 false (concat (map enc fs)) 0 (zlen (concat (map enc fs))) (mkd tt tt []) = SOk [r] /\ r_error r = Some EProtocol) as (r & X & Y) by (eexists; split; [vm_compute; reflexivity|reflexivity]).
    rewrite X in E. injection E as <-. inversion N; congruence.
Qed.
Print Assumptions C105_goaway_refuted.
Definition ex_frames : list sframe :=
  [Head 1 2 1 3 [0; 0; 0; 0; 0; 0] [(bs "url", bs "/a"); (bs "url", bs "/b")] (block_of [(bs "url", bs "/a"); (bs "url", bs "/b")]);
   Head 2 2 0 3 [0; 0] ex_pairs (block_of ex_pairs); Other 6 3 0 [0; 0; 0; 9]; Data 3 1 (bs "hello"); Other 7 3 0 [0; 0; 0; 3; 0; 0; 0; 1]].
Example C105_case : Forall (wf true) ex_frames /\ sent plain tt tt ex_frames /\ zlen (concat (map enc ex_frames)) < 4294967296.
Proof.
  split; [|split].
  - assert (forall ps, forallb (fun e => forallb is_byteb (fst e) && forallb is_byteb (snd e) && (zlen (fst e) <? 65536) && (zlen (snd e) <? 65536)) ps = true -> zlen ps < 65536 -> block_ok ps) as BK.
    { intros ps X Y. split; auto. apply Forall_forall. intros e I. rewrite forallb_forall in X. specialize (X e I). apply andb_prop in X as [X X4]. apply andb_prop in X as [X X3]. apply andb_prop in X as [X1 X2].
      split; [apply bytes_by; auto|]. split; [apply bytes_by; auto|]. lia. }
    apply Forall_cons; [|apply Forall_cons; [|apply Forall_cons; [|apply Forall_cons; [|apply Forall_cons; [|constructor]]]]]; (split; [bytes|]; split; [vm_compute; reflexivity|]).
    + split; [left; split; reflexivity|]. split; [lia|]. split; [unfold is_byte; lia|]. split; [lia|]. split; [apply BK; vm_compute; reflexivity|]. split; [vm_compute; discriminate|lia].
    + split; [right; split; [left; reflexivity|reflexivity]|]. split; [lia|]. split; [unfold is_byte; lia|]. split; [lia|]. split; [apply BK; vm_compute; reflexivity|]. split; [vm_compute; discriminate|lia].
    + split; [lia|]. split; [lia|]. split; [unfold is_byte; lia|]. split; [lia|]. split; [vm_compute; discriminate|]. intros _. vm_compute. discriminate.
    + split; [lia|]. split; [unfold is_byte; lia|lia].
    + split; [lia|]. split; [lia|]. split; [unfold is_byte; lia|]. split; [reflexivity|]. split; [vm_compute; discriminate|]. intros _. vm_compute. discriminate.
  - apply (S_client _ _ _ tt); [reflexivity|vm_compute; reflexivity|]. apply (S_server _ _ _ tt); [lia|vm_compute; reflexivity|]. repeat constructor.
  - vm_compute. reflexivity.
Qed.

(* ------------------------------------------------------------------ C106 *)

(** [s] is somewhere in [t] *)
Definition occurs (s t : list Z) : Prop := exists a b, t = a ++ s ++ b.
(** The names and values reported for a header frame come from its header block: not so if the block announces more than it has; then bytes left by an earlier
    header block, which may belong to another stream, are reported. *)
Theorem C106_stale_refuted : ~ forall (I : Type) inflate mem len (d : dec I) r k v s out, Forall is_byte mem -> buf_ok (d_buf d) -> zlib_ok inflate ->
  parse inflate true mem 0 len info_init d = SOk r -> r_error r = None -> h_type mem 0 = 1 ->
  inflate (context d 1 (h_stream mem 0)) (bytes_at mem 18 (h_length mem 0 - 10)) = (s, out, true) -> sm_find (i_headers (r_info r)) k = Some v -> occurs v out.
Proof.
  intros H.
  set (first := enc (Head 1 2 0 1 [0; 0; 0; 0; 0; 0] [(bs "cookie", bs "secret")] (block_of [(bs "cookie", bs "secret")]))).
  set (short := [0; 1; 0; 6]). set (second := enc (Head 1 2 0 3 [0; 0; 0; 0; 0; 0] [] short)).
  assert (exists r1, parse plain true first 0 (zlen first) info_init fresh_dec = SOk r1) as (r1 & E1) by (eexists; vm_compute; reflexivity).
  assert (buf_ok (d_buf (r_dec r1))) as B1 by (eapply wrote_ok; [apply plain_ok|apply init_buf|eapply parse_wrote; exact E1]).
  assert (exists r2, parse plain true second 0 (zlen second) info_init (r_dec r1) = SOk r2 /\ r_error r2 = None /\ sm_find (i_headers (r_info r2)) (bs "cookie") = Some (bs "secret")) as (r2 & E2 & N2 & F2).
  { vm_compute in E1. injection E1 as <-. eexists. split; [vm_compute; reflexivity|]. split; vm_compute; reflexivity. }
  destruct (H unit plain second (zlen second) (r_dec r1) r2 (bs "cookie") (bs "secret") tt short) as (a & b & X); auto; [bytes|apply plain_ok|].
  apply (f_equal zlen) in X. rewrite !zlen_app in X. change (zlen short) with 4 in X. change (zlen (bs "secret")) with 6 in X. pose proof (zlen_nonneg a). pose proof (zlen_nonneg b). lia.
Qed.
Print Assumptions C106_stale_refuted.
(** For every header frame that is reported: what is reported is a list of names and values that the buffer begins with after decompression, the first value for each name, names
    already in the structure keeping theirs; if the block decompresses to a whole list, that is the list. *)
Theorem C106_block_partial (I : Type) inflate asserts mem p len i (d : dec I) r : Forall is_byte mem -> buf_ok (d_buf d) -> zlib_ok inflate -> sorted (i_headers i) ->
  parse inflate asserts mem p len i d = SOk r -> r_error r = None -> h_control mem p -> h_type mem p = 1 \/ h_type mem p = 2 \/ h_type mem p = 8 ->
  exists s out ps rest, let k := if h_type mem p =? 1 then 10 else 6 in
    inflate (context d (h_type mem p) (h_stream mem p)) (bytes_at mem (p + 8 + k) ((h_length mem p - k) mod 4294967296)) = (s, out, true)
    /\ block_ok ps /\ written (d_buf d) out = map Some (block_of ps) ++ rest
    /\ (forall n, sm_find (i_headers (r_info r)) n = match sm_find (i_headers i) n with Some v => Some v | None => first_value ps n end)
    /\ (forall qs tail, block_ok qs -> out = block_of qs ++ tail -> ps = qs).
Proof.
  intros H [BL BB] ZK SO E N C T. destruct (parse_result inflate asserts mem p len i d r H E) as [[_ X]|(_ & P & _ & R)]; [contradiction|].
  assert (has mem p 2) as P2 by (unfold has in *; lia). destruct (first_of_two mem p H P2) as (F & F1 & F2). unfold h_control in C.
  destruct R as [(FZ & _)|(FZ & P12 & _ & _ & q & B)]; [lia|]. destruct (body_result inflate mem p _ d _ _ q H P12 B) as (_ & K & _).
  destruct (K T) as (s & out & h & IN & _ & RB & HE & _). cbn zeta in IN. destruct (ZK _ _ _ _ _ IN) as [OB OL]. pose proof (written_bytes _ _ BB OB) as WB.
  destruct (read_block_inv _ _ _ WB RB) as (ps & rest & PO & EQ & HI). exists s, out, ps, rest. cbn zeta. split; auto. split; auto. split; auto. split.
  - intros n. rewrite HE, HI. apply inserts_find. exact SO.
  - intros qs tail QO ->. unfold written in EQ. rewrite map_app, <- app_assoc in EQ.
    clear - EQ PO QO. apply (block_prefix ps qs rest (map Some tail ++ skipn (List.length (block_of qs ++ tail)) (d_buf d))); auto.
Qed.
Print Assumptions C106_block_partial.
Example C106_case : exists r, parse plain true ex_reply 0 (zlen ex_reply) info_init fresh_dec = SOk r /\ r_error r = None /\ h_control ex_reply 0 /\ h_type ex_reply 0 = 2 /\ sm_find (i_headers (r_info r)) (bs "status") = Some (bs "200").
Proof. eexists. split; [vm_compute; reflexivity|]. repeat split; vm_compute; discriminate. Qed.

(* ------------------------------------------------------------------ C107 *)

(** A frame reported as finished is whole: not so, the packet may end anywhere after the header. *)
Theorem C107_whole_refuted : ~ forall (I : Type) inflate mem (d : dec I) r c, Forall is_byte mem -> parse inflate true mem 0 (zlen mem) info_init d = SOk r -> r_value r = TTrue -> i_type (r_info r) = HTTP_DATA ->
  r_content r = Some c -> has mem c (i_size (r_info r)).
Proof.
  intros H. set (mem := [0; 0; 0; 1; 0; 0; 0; 100; 65]). assert (Forall is_byte mem) as F by bytes.
  assert (exists r, parse plain true mem 0 (zlen mem) info_init (mkd tt tt []) = SOk r /\ r_value r = TTrue /\ i_type (r_info r) = HTTP_DATA /\ r_content r = Some 8 /\ i_size (r_info r) = 100) as (r & E & V & T & C & S) by (eexists; split; [vm_compute; reflexivity|repeat split]).
  destruct (H _ _ _ _ _ 8 F E V T C) as [_ X]. rewrite S in X. vm_compute in X. apply X. reflexivity.
Qed.
Print Assumptions C107_whole_refuted.
(** For every packet of at least eight bytes, its length given: an indeterminate result means that the frame is whole and is followed by more, and the read pointer and the length
    are those of the rest; a true result means that the frame ends where the packet ends, or later. *)
Theorem C107_more_partial (I : Type) inflate asserts mem p i (d : dec I) r : Forall is_byte mem -> has mem p 8 -> zlen mem - p < 4294967296 -> parse inflate asserts mem p (zlen mem - p) i d = SOk r ->
  (r_value r = TIndet -> p + 8 + h_length mem p < zlen mem /\ r_read r = p + 8 + h_length mem p /\ r_len r = zlen mem - r_read r)
  /\ (r_value r = TTrue -> zlen mem <= p + 8 + h_length mem p)
  /\ (r_value r = TFalse <-> r_error r <> None).
Proof.
  intros H P L E. unfold has in P. destruct (parse_result inflate asserts mem p (zlen mem - p) i d r H E) as [[V X]|(V & _ & R & _)].
  - rewrite V. repeat split; try discriminate; auto.
  - cbn zeta in R. rewrite wrap_len in R by lia. rewrite V.
    assert (0 <= h_length mem p < 16777216) as B3 by (apply (field_bound mem (p + 5) 3); auto; unfold has; lia).
    destruct R as [(R1 & R2 & R3 & R4)|(R1 & R2 & R3 & R4)]; rewrite R1; (split; [|split; [|split; [discriminate|congruence]]]); intros; try discriminate; try lia.
    split; [lia|]. split; auto. rewrite R4, R3. unfold wrap32, two32. rewrite Z.mod_small by lia. lia.
Qed.
Print Assumptions C107_more_partial.
Example C107_case : exists r, parse plain true (enc (Data 5 0 (bs "abc")) ++ enc (Data 5 1 [])) 0 19 info_init (mkd tt tt []) = SOk r /\ r_value r = TIndet /\ r_read r = 11 /\ r_len r = 8.
Proof. eexists. split; [vm_compute; reflexivity|]. repeat split. Qed.

(* ------------------------------------------------------------------ C108 *)

(** No packet makes the library end the process: not so in builds with assertions, for instance for a ping with number 0. *)
Theorem C108_abort_refuted : ~ forall (I : Type) inflate mem len i (d : dec I), Forall is_byte mem -> parse inflate true mem 0 len i d <> SAssert.
Proof. intros H. apply (H unit plain (enc (Other 6 2 0 [0; 0; 0; 0])) 12 info_init (mkd tt tt [])); [bytes|vm_compute; reflexivity]. Qed.
Print Assumptions C108_abort_refuted.
(** Exactly data frames of stream 0 and control frames whose first word is 0 but for its highest bit do that; builds without assertions never; where no assertion fails, both builds do the same. *)
Theorem C108_exact_partial (I : Type) inflate mem p len i (d : dec I) : Forall is_byte mem ->
  parse inflate false mem p len i d <> SAssert
  /\ (parse inflate true mem p len i d = SAssert <-> field mem p 1 = 0 /\ has mem p 8 /\ field mem p 4 = 0 \/ field mem p 1 = 128 /\ has mem p 12 /\ h_type mem p <= 10 /\ h_stream mem p = 0)
  /\ (parse inflate true mem p len i d <> SAssert -> parse inflate true mem p len i d = parse inflate false mem p len i d).
Proof.
  intros H. split; [apply parse_no_assert; auto|]. split; [apply parse_assert; auto|]. intros N. destruct (parse_builds inflate mem p len i d); [contradiction|auto].
Qed.
Print Assumptions C108_exact_partial.
Example C108_case : parse plain true (enc (Data 0 0 [])) 0 8 info_init (mkd tt tt []) = SAssert /\ exists r, parse plain false (enc (Data 0 0 [])) 0 8 info_init (mkd tt tt []) = SOk r.
Proof. split; [vm_compute; reflexivity|]. eexists. vm_compute. reflexivity. Qed.
