(** C154: the first line of an answer. *)
From Coq Require Import String ZArith List Bool Lia.
From Verif Require Import Base Digits DictModel HttpModel MessageModel MessageSpec MessageProofs WriterModel WriterSpec WriterProofs.
Import ListNotations.

(** what the first line of an answer tells: the version, the status and its text *)
Record first := mkfirst { f_major : Z; f_minor : Z; f_code : Z; f_text : list Z }.
Definition plain_first : first := mkfirst 1 1 200 (bs "OK").
(** for a request of HTTP 1 or later; for a request without version (HTTP 0.9) *)
Definition first_for (vmaj : Z) : first := if Z.eq_dec vmaj 0 then mkfirst 0 0 0 [] else plain_first.
(** what the calls of a handler change in it *)
Definition tells (f : first) (x : wop) : first :=
  match x with
  | WMsg (MsgCode n) => mkfirst (f_major f) (f_minor f) (n mod 4294967296) (f_text f)
  | WMsg (MsgReason s) => mkfirst (f_major f) (f_minor f) (f_code f) s
  | WMsg (MsgMajor n) => mkfirst (n mod 65536) (f_minor f) (f_code f) (f_text f)
  | WMsg (MsgMinor n) => mkfirst (f_major f) (n mod 65536) (f_code f) (f_text f)
  | WMsg MsgClear => plain_first
  | _ => f
  end.
Definition first_line (f : first) : list Z :=
  bs "HTTP/" ++ print_dec (f_major f) ++ bs "." ++ print_dec (f_minor f) ++ bs " " ++ print_dec (f_code f) ++ bs " " ++ f_text f.

Definition first_of (m : msg) : first := mkfirst (m_vmaj m) (m_vmin m) (m_code m) (m_reason m).
Lemma append_first pos l : forall o, first_of (o_msg (fold_left (fun o c =>
    if o_request o then add_hdr pos o HEADER_COOKIE (fst c ++ bs "=" ++ snd c)
    else add_hdr pos o HEADER_SET_COOKIE (set_cookie_header (fst c) (snd c) (bs "/"))) l o)) = first_of (o_msg o).
Proof. induction l as [|c l IH]; intros o; [reflexivity|]. cbn [fold_left]. rewrite IH. destruct (o_request o); reflexivity. Qed.
Lemma prepare_first pos o ka ch : first_of (o_msg (snd (prepare_buffers pos o ka ch))) = first_of (o_msg o).
Proof.
  rewrite prepare_buffers_eq. cbn [snd]. unfold append_cookies. rewrite append_first. destruct (get_line_msg (prepare_headers pos o ka ch)) as (-> & _).
  unfold prepare_headers. cbv zeta. destruct ch; [destruct (o_chunks _)|destruct (negb _)]; reflexivity.
Qed.
Lemma op_first pos w x : is_setup x -> o_request (w_msg w) = false -> first_of (o_msg (w_msg (w_op pos w x))) = tells (first_of (o_msg (w_msg w))) x.
Proof.
  intros S R. assert (FL : w_msg (w_flush w) = w_msg w) by (unfold w_flush; destruct (w_stream_empty w); [reflexivity|]; destruct (w_stream w); reflexivity).
  destruct x as [t|t|t| |o|b| | |]; try destruct S; cbn [w_op w_msg tells]; try reflexivity.
  - destruct t; [reflexivity|]. cbn [w_binary w_msg]. rewrite FL. reflexivity.
  - destruct t; [reflexivity|]. cbn [w_no_copy w_msg]. rewrite FL. reflexivity.
  - destruct o; cbn [msg_op]; try reflexivity.
    + unfold o_clear. rewrite R. reflexivity.
    + apply prepare_first.
Qed.
Lemma ops_first pos l : forall w, Forall is_setup l -> o_request (w_msg w) = false -> first_of (o_msg (w_msg (w_ops pos w l))) = fold_left tells l (first_of (o_msg (w_msg w))).
Proof.
  induction l as [|x l IH]; intros w F R; [reflexivity|]. inversion F as [|? ? S F']; subst. change (w_ops pos w (x :: l)) with (w_ops pos (w_op pos w x) l). cbn [fold_left].
  rewrite <- (op_first pos w x S R). apply IH; auto.
  assert (FL : w_msg (w_flush w) = w_msg w) by (unfold w_flush; destruct (w_stream_empty w); [reflexivity|]; destruct (w_stream w); reflexivity).
  destruct x as [t|t|t| |o|b| | |]; try destruct S; cbn [w_op w_msg]; auto.
  - destruct t; [exact R|]. cbn [w_binary w_msg]. rewrite FL. exact R.
  - destruct t; [exact R|]. cbn [w_no_copy w_msg]. rewrite FL. exact R.
  - rewrite op_request. exact R.
Qed.
Lemma respond_first method vmaj vmin life : first_of (o_msg (w_msg (w_respond method vmaj vmin life))) = first_for vmaj /\ o_request (w_msg (w_respond method vmaj vmin life)) = false.
Proof.
  unfold w_respond, response_to, first_for. cbv zeta. destruct (Z.eqb_spec vmaj 1) as [->|N1]; cbn [andb].
  - destruct (1 <=? vmin); split; reflexivity.
  - destruct (Z.eqb_spec vmaj 0) as [->|N0]; destruct (Z.eq_dec _ 0) as [E|E]; try congruence; split; reflexivity.
Qed.
(** C154. Whatever a handler does before it sends, what is sent begins with a first line that tells what it set; if it sets nothing, HTTP/1.1 200 OK. *)
Theorem C154_first_line_partial pos method vmaj vmin life l x after : Forall is_setup l -> In x [WSend; WSendChunk; WSendFinal] ->
  exists rest, w_out (w_ops pos (w_respond method vmaj vmin life) (l ++ x :: after)) = first_line (fold_left tells l (first_for vmaj)) ++ [13; 10] ++ rest.
Proof.
  intros F X. unfold w_ops. rewrite fold_left_app. cbn [fold_left]. set (w := fold_left (w_op pos) l (w_respond method vmaj vmin life)).
  destruct (respond_first method vmaj vmin life) as (FR & RR). pose proof (ops_first pos l _ F RR) as FO. rewrite FR in FO. unfold w_ops in FO. fold w in FO.
  destruct (w_new_fresh (response_to method vmaj vmin) life (o_chunks (response_to method vmaj vmin))) as (I & OP & OU & OC & OS). fold (w_respond method vmaj vmin life) in *.
  assert (L0 : line_inv (w_msg (w_respond method vmaj vmin life))). { left. unfold w_respond, response_to. cbv zeta. destruct (_ && _); [reflexivity|]. destruct (vmaj =? 0); reflexivity. }
  destruct (setup_ok pos l _ I L0 F) as (J & P & (S1 & S2 & S3 & S4 & S5 & S6 & S7) & L). unfold w_ops in *. fold w in J, P, S1, S2, S3, S4, S5, S6, S7, L.
  assert (G : forall w1 final, w_msg w1 = w_msg w -> w_open w1 = true -> w_out w1 = [] -> w_sent_headers w1 = false ->
    exists rest, w_out (w_send_more pos w1 final) = first_line (fold_left tells l (first_for vmaj)) ++ [13; 10] ++ rest).
  { intros w1 final M O U H. unfold w_send_more. rewrite O. cbn [negb].
    assert (FL : w_msg (w_flush w1) = w_msg w1 /\ w_out (w_flush w1) = w_out w1 /\ w_sent_headers (w_flush w1) = w_sent_headers w1) by (unfold w_flush; destruct (w_stream_empty w1); [auto|]; destruct (w_stream w1); auto).
    destruct FL as (FM & FU & FS). set (w2 := w_flush w1) in *. clearbody w2. rewrite FS, H. unfold w_head. rewrite FM, M.
    set (o := if 0 <? w_len w2 then _ else _). assert (SL : same_line (w_msg w) o) by (apply (with_len_line (w_msg w) (w_len w2))).
    assert (LO : line_inv o) by (eapply same_line_inv; eauto). rewrite prepare_buffers_eq. cbn [w_out]. rewrite FU, U. cbn [app].
    rewrite get_line by (eapply same_line_inv; [apply same_line_prepare|exact LO]).
    assert (UL : update_first_line (prepare_headers pos o (keeps (w_life w2)) (w_chunking w2)) = first_line (fold_left tells l (first_for vmaj))).
    { destruct (same_line_prepare pos o (keeps (w_life w2)) (w_chunking w2)) as (_ & _ & A). destruct SL as (_ & _ & B). rewrite A, B. rewrite <- FO. unfold update_first_line, version_string, first_line, first_of.
      rewrite S7, RR. cbn [f_major f_minor f_code f_text]. rewrite <- !app_assoc. reflexivity. }
    rewrite UL. eexists. rewrite <- !app_assoc. reflexivity. }
  assert (K : exists rest, w_out (w_op pos w x) = first_line (fold_left tells l (first_for vmaj)) ++ [13; 10] ++ rest).
  { destruct X as [<-|[<-|[<-|[]]]]; cbn [w_op]; apply G; cbn; try reflexivity; congruence. }
  destruct K as (r & K). destruct (ops_out pos after (w_op pos w x)) as (t & ET). unfold w_ops in ET. rewrite ET, K. exists (r ++ t). rewrite <- !app_assoc. reflexivity.
Qed.
Print Assumptions C154_first_line_partial.
(** a page with a status, to a client of HTTP 1.0 *)
Example C154_case : let l := [WMsg (MsgCode 404); WText (bs "no"); WMsg (MsgReason (bs "Not Found"))] in
  Forall is_setup l /\ first_line (fold_left tells l (first_for 1)) = bs "HTTP/1.1 404 Not Found"
  /\ w_out (w_ops (fun _ _ => 0%nat) (w_respond (bs "GET") 1 0 LClose) (l ++ [WSend]))
     = bs "HTTP/1.1 404 Not Found" ++ [13; 10] ++ bs "Content-Length: 2" ++ [13; 10] ++ bs "Connection: close" ++ [13; 10; 13; 10] ++ bs "no".
Proof. cbv zeta. split; [repeat constructor|]. split; vm_compute; reflexivity. Qed.
(** C154: the calls of a handler that writes and sets a status, but not the version, are told with the version of the answer: 1.1 to every client with a version. *)
Theorem C154_status_partial pos method vmaj vmin life l x after code reason : Forall is_setup l -> In x [WSend; WSendChunk; WSendFinal] -> vmaj <> 0 ->
  (forall y, In y l -> match y with WMsg (MsgCode c) => c = code | WMsg (MsgReason r) => r = reason | WMsg (MsgMajor _) | WMsg (MsgMinor _) | WMsg MsgClear => False | _ => True end) ->
  0 <= code < 4294967296 -> (In (WMsg (MsgCode code)) l \/ code = 200) -> (In (WMsg (MsgReason reason)) l \/ reason = bs "OK") ->
  exists rest, w_out (w_ops pos (w_respond method vmaj vmin life) (l ++ x :: after)) = bs "HTTP/1.1 " ++ print_dec code ++ bs " " ++ reason ++ [13; 10] ++ rest.
Proof.
  intros F X V A C HC HR. destruct (C154_first_line_partial pos method vmaj vmin life l x after F X) as (rest & E). exists rest. rewrite E. clear E.
  assert (G : forall l f, (forall y, In y l -> match y with WMsg (MsgCode c) => c = code | WMsg (MsgReason r) => r = reason | WMsg (MsgMajor _) | WMsg (MsgMinor _) | WMsg MsgClear => False | _ => True end) ->
    f_major (fold_left tells l f) = f_major f /\ f_minor (fold_left tells l f) = f_minor f
    /\ (f_code f = code \/ In (WMsg (MsgCode code)) l -> f_code (fold_left tells l f) = code) /\ (f_text f = reason \/ In (WMsg (MsgReason reason)) l -> f_text (fold_left tells l f) = reason)).
  { clear - C. induction l as [|y l IH]; intros f A; cbn [fold_left].
    - split; [reflexivity|]. split; [reflexivity|]. split; intros [H|[]]; exact H.
    - destruct (IH (tells f y)) as (I1 & I2 & I3 & I4); [intros z Z; apply A; right; exact Z|]. pose proof (A y (or_introl eq_refl)) as AY. rewrite I1, I2.
      destruct y as [t|t|t| |o|b| | |]; try (repeat split; [|]; [intros [H|[H|H]]; [apply I3; left; exact H|discriminate|apply I3; right; exact H]|intros [H|[H|H]]; [apply I4; left; exact H|discriminate|apply I4; right; exact H]]).
      destruct o; try (destruct AY; fail);
        try (repeat split; [|]; [intros [H|[H|H]]; [apply I3; left; exact H|discriminate|apply I3; right; exact H]|intros [H|[H|H]]; [apply I4; left; exact H|discriminate|apply I4; right; exact H]]).
      + subst n. split; [reflexivity|]. split; [reflexivity|]. split; [intros _; apply I3; left; apply Z.mod_small; exact C|]. intros [H|[H|H]]; [apply I4; left; exact H|discriminate|apply I4; right; exact H].
      + subst s. split; [reflexivity|]. split; [reflexivity|]. split; [|intros _; apply I4; left; reflexivity]. intros [H|[H|H]]; [apply I3; left; exact H|discriminate|apply I3; right; exact H]. }
  destruct (G l (first_for vmaj) A) as (G1 & G2 & G3 & G4). unfold first_line. rewrite G1, G2.
  assert (FF : first_for vmaj = plain_first) by (unfold first_for; destruct (Z.eq_dec vmaj 0); [contradiction|reflexivity]). rewrite FF in *.
  rewrite G3 by (destruct HC as [HC | ->]; auto). rewrite G4 by (destruct HR as [HR | ->]; auto).
  change (print_dec (f_major plain_first)) with (bs "1"). change (print_dec (f_minor plain_first)) with (bs "1"). cbn [bs app]. rewrite <- ?app_assoc. reflexivity.
Qed.
Print Assumptions C154_status_partial.
(** C154 violated: the answer to a request without version is not the content alone: there is a first line with version 0.0 and, unless the handler sets a status, status 0. *)
Theorem C154_simple_refuted : (~ forall pos method vmin life l, Forall is_write l -> w_out (w_ops pos (w_respond method 0 vmin life) (l ++ [WSend])) = concat (map payload l))
  /\ forall pos method vmin life l after, Forall is_write l ->
     exists rest, w_out (w_ops pos (w_respond method 0 vmin life) (l ++ WSend :: after)) = bs "HTTP/0.0 0 " ++ [13; 10] ++ rest.
Proof.
  split.
  - intros H. specialize (H (fun _ _ => 0%nat) [] 0 LClose [] (Forall_nil _)). vm_compute in H. discriminate.
  - intros pos method vmin life l after F. destruct (C154_first_line_partial pos method 0 vmin life l WSend after) as (rest & E).
    + eapply Forall_impl; [|exact F]. intros x. destruct x; cbn; tauto.
    + left. reflexivity.
    + exists rest. rewrite E. assert (K : forall l f, Forall is_write l -> fold_left tells l f = f). { clear. induction l as [|x l IH]; intros f F; [reflexivity|]. inversion F as [|? ? W F']; subst. cbn [fold_left]. destruct x; try destruct W; apply IH; exact F'. }
      rewrite K by exact F. reflexivity.
Qed.
Print Assumptions C154_simple_refuted.
