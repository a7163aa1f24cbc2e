(** What the parser accepts (C138, C139). Definitions used in the statements: HttpModel.v ([parse]), HttpSpec.v, EolSpec.v ([same_reading]), SoundSpec.v. *)
From Coq Require Import String ZArith List Bool Lia.
From Verif Require Import Base DictModel HttpModel HttpSpec HttpProofs HttpHead HttpBody HttpExamples EolSpec HttpEol SoundSpec HttpSound.
Import ListNotations.

(* ------------------------------------------------------------------ C138 *)

(** C138. What is accepted, in whatever pieces it comes, is read as a legal message: there is a legal head with the same result, message, content and unread bytes.
    (Requests of HTTP 0, which need no version and no headers, are not such.) *)
Theorem C138_accepted_is_legal : forall cf m pieces r, 0 <= cf_max cf -> well_formed m ->
  Forall (Forall is_byte) pieces -> pieces <> [] -> Forall (fun s => s <> []) pieces ->
  feed cf (p_init cf) m pieces = Ok (Some r) -> r_rc r = TTrue -> (cf_request cf = true -> m_vmaj (r_msg r) <> 0) ->
  exists hd w rest, head_ok cf hd /\ concat pieces = w ++ rest
    /\ same_reading (feed cf (p_init cf) m pieces) (parse cf (p_init cf) m (wire_head hd ++ rest)).
Proof.
  intros cf m pieces r HM WF BS NE NEs E RC V.
  pose proof (segmentation any_msg true cf (p_init cf) m pieces HM (reach_new any_msg true cf m I) NE NEs) as SG. rewrite E in SG |- *.
  assert (BC : Forall is_byte (concat pieces)) by (clear - BS; induction BS; cbn; [constructor|apply Forall_app; auto]).
  destruct (parse cf (p_init cf) m (concat pieces)) as [[y|]|] eqn:EP; cbn [same_outcome] in SG; try contradiction. destruct SG as (G1 & G2 & G3 & G4 & G5).
  destruct (parse_sound cf m (concat pieces) y HM BC WF EP) as (hd & w & rest & HO & SW & SR); [congruence|rewrite <- G3; exact V|].
  exists hd, w, rest. split; [exact HO|]. split; [exact SW|]. rewrite EP in SR.
  destruct (parse cf (p_init cf) m (wire_head hd ++ rest)) as [[z|]|]; cbn [same_reading] in SR |- *; auto.
  destruct SR as (S1 & S2 & S3 & S4 & S5). repeat split; try congruence. intros N. destruct G5 as (_ & _ & _ & _ & G5 & _). rewrite G5. apply S5. congruence.
Qed.
Print Assumptions C138_accepted_is_legal.

(** and whatever the result, nothing that does not belong there gets into the message, the headers behind a chunked content included *)
Theorem C138_fields : forall cf m pieces r, 0 <= cf_max cf -> well_formed m -> Forall (Forall is_byte) pieces ->
  feed cf (p_init cf) m pieces = Ok (Some r) -> well_formed (r_msg r).
Proof. intros cf m pieces r HM WF BS. exact (feed_fine cf pieces 0 (p_init cf) m r (p_init_pinv cf m HM) (init_J cf m WF) BS). Qed.
Print Assumptions C138_fields.

Definition ex_odd : list (list Z) := [bs "POST /a?b HTTP/1.65537" ++ [10] ++ bs "X-Y:" ++ [13]; bs "Transfer-Encoding:chunked" ++ [13; 10; 10; 13]; bs "3;q" ++ CRLF ++ bs "abc" ++ CRLF ++ bs "0" ++ CRLF ++ bs "T: v" ++ CRLF ++ CRLF ++ bs "GET"].
Example C138_case : exists r, feed (ex_cf true false) (p_init (ex_cf true false)) ex_msg ex_odd = Ok (Some r)
  /\ r_rc r = TTrue /\ m_vmaj (r_msg r) = 1 /\ m_vmin (r_msg r) = 1 /\ r_rest r = bs "GET" /\ content_of (r_msg r) = Ok (bs "abc") /\ d_has (m_headers (r_msg r)) (bs "T") = true.
Proof. eexists. split; [vm_compute; reflexivity|]. vm_compute. auto 10. Qed.
Example C138_case_fields : well_formed ex_msg /\ Forall (Forall is_byte) ex_odd /\ exists r, feed (ex_cf true false) (p_init (ex_cf true false)) ex_msg [bs "GET / HTTP/1.1" ++ CRLF ++ bs "A" ++ [7] ++ bs ": x"] = Ok (Some r)
  /\ r_rc r = TFalse.
Proof.
  split; [unfold well_formed, ex_msg; cbn [m_method m_resource m_query_string m_reason m_headers]; http_ok|]. split; [unfold ex_odd; repeat (constructor; [|]); cbn; repeat constructor; unfold is_byte; lia|].
  eexists. split; [vm_compute; reflexivity|]. reflexivity.
Qed.
