(** Property theorems about the errors the SPDY parser reports: C158. *)
From Coq Require Import String ZArith List Bool Lia.
From Verif Require Import Base SMap AlgModel AlgSpec AlgProofs HttpModel SpdyModel SpdySpec SpdyProofs P_Spdy.
Import ListNotations.

Section Reasons.
Context {I : Type}.
Variable inflate : I -> list Z -> I * list Z * bool.

(** The block of a header frame and whether it decompresses *)
Definition block_good (mem : list Z) (p : Z) (d : dec I) (good : bool) : Prop :=
  let k := if h_type mem p =? 1 then 10 else 6 in
  exists s out, inflate (context d (h_type mem p) (h_stream mem p)) (bytes_at mem (p + 8 + k) ((h_length mem p - k) mod 4294967296)) = (s, out, good).
Definition block_type (t : Z) : Prop := t = 1 \/ t = 2 \/ t = 8.
(** a GOAWAY frame as the parser takes it, with this status *)
Definition goaway_status (mem : list Z) (p v : Z) : Prop := h_type mem p = 7 /\ h_length mem p = 4 /\ field mem (p + 12) 4 = v.
(** What each answer says of the bytes at [p]. No two answers can hold of the same bytes. *)
Definition reason (mem : list Z) (p : Z) (d : dec I) (e : option serr) : Prop :=
  match e with
  | Some EFrame => field mem p 1 <> 128 /\ field mem p 1 <> 0 \/ field mem p 1 = 128 /\ 11 <= h_type mem p
  | Some EVersion => field mem p 1 = 128 /\ h_type mem p <= 10 /\ 3 < h_version mem p
  | Some EDecompress => field mem p 1 = 128 /\ h_version mem p <= 3 /\ block_type (h_type mem p) /\ block_good mem p d false
  | Some EProtocol => field mem p 1 = 128 /\ h_version mem p <= 3 /\ goaway_status mem p 1
  | Some EInternal => field mem p 1 = 128 /\ h_version mem p <= 3 /\ goaway_status mem p 11
  | None => field mem p 1 = 0 \/ field mem p 1 = 128 /\ h_version mem p <= 3 /\ h_type mem p <= 10
      /\ ~ goaway_status mem p 1 /\ ~ goaway_status mem p 11 /\ (block_type (h_type mem p) -> block_good mem p d true)
  end.

Lemma block_same mem p d a b : block_good mem p d a -> block_good mem p d b -> a = b.
Proof. intros (s & o & A) (s' & o' & B). rewrite A in B. congruence. Qed.
Lemma reason_one mem p d e f : reason mem p d e -> reason mem p d f -> e = f.
Proof.
  unfold reason, goaway_status, block_type. intros A B.
  destruct e as [[]|]; destruct f as [[]|]; auto; exfalso; try lia.
  all: try (destruct A as (A1 & A2 & A3 & A4); destruct B as [B|(B1 & B2 & B3 & B4 & B5 & B6)]; [lia|]; specialize (B6 A3); pose proof (block_same _ _ _ _ _ A4 B6); discriminate).
  all: try (destruct B as (A1 & A2 & A3 & A4); destruct A as [B|(B1 & B2 & B3 & B4 & B5 & B6)]; [lia|]; specialize (B6 A3); pose proof (block_same _ _ _ _ _ A4 B6); discriminate).
Qed.

Lemma body_reason mem p i d e i' d' q : Forall is_byte mem -> has mem p 12 -> field mem p 1 = 128 -> h_type mem p <= 10 -> h_version mem p <= 3 ->
  parse_body inflate mem (p + 8) (mkf true (h_version mem p) (h_type mem p) (h_flags mem p) (h_length mem p)) i d = SOk (e, i', d', q) -> reason mem p d e.
Proof.
  intros H P F T V E. unfold parse_body in E. unfold SPDY_SYN_STREAM, SPDY_SYN_REPLY, SPDY_DATA, SPDY_HEADERS, SPDY_RST_STREAM, SPDY_SETTINGS, SPDY_PING, SPDY_GOAWAY, SPDY_WINDOW_UPDATE, SPDY_CREDENTIAL in E. cbn [f_type] in E.
  destruct ((h_type mem p =? 1) || (h_type mem p =? 2) || (h_type mem p =? 8)) eqn:TB.
  - rewrite payload_eq in E by (auto; lia). cbn zeta in E. destruct (hasb mem _ _); [|discriminate].
    destruct (inflate _ _) as [[s out] ok] eqn:IF. fold (hlen_of mem p (if h_type mem p =? 1 then 10 else 6)) in IF.
    assert (block_good mem p d ok) as BG by (exists s, out; exact IF).
    destruct ok.
    + apply sbind_ok in E as (h & _ & E). injection E as <- _ _ _. unfold reason. right. split; [lia|]. split; [lia|]. split; [lia|]. unfold goaway_status. split; [lia|]. split; [lia|]. intros _. exact BG.
    + injection E as <- _ _ _. unfold reason. repeat split; auto. unfold block_type. lia.
  - assert (forall (X : sres Z) j (d0 : dec I), sbind X (fun q => SOk (@None serr, j, d0, q)) = SOk (e, i', d', q) -> e = None) as K.
    { intros X j d0 Y. apply sbind_ok in Y as (q0 & _ & Y). congruence. }
    destruct (h_type mem p =? 7) eqn:T7.
    + assert (h_type mem p = 7) as T7' by lia. rewrite T7' in E. cbn [Z.eqb Pos.eqb] in E. unfold parse_goaway in E. cbn [f_length] in E.
      destruct (h_length mem p =? 4) eqn:L4; cbn [negb sbind] in E.
      * rewrite rd32_eq in E by auto. destruct (hasb mem (p + 8 + 4) 4); cbn [sbind] in E; [|discriminate]. replace (p + 8 + 4) with (p + 12) in E by lia.
        destruct (field mem (p + 12) 4 =? 1) eqn:S1; [injection E as <- _ _ _; unfold reason, goaway_status; repeat split; auto; lia|].
        destruct (field mem (p + 12) 4 =? 11) eqn:S2; [injection E as <- _ _ _; unfold reason, goaway_status; repeat split; auto; lia|].
        injection E as <- _ _ _. unfold reason. right. unfold goaway_status, block_type. repeat split; try lia.
      * injection E as <- _ _ _. unfold reason. right. unfold goaway_status, block_type. repeat split; try lia.
    + assert (e = None) as ->.
      { repeat match type of E with (if ?c then _ else _) = _ => destruct c eqn:? end; try solve [eapply K; eassumption]; try solve [injection E; auto]. }
      unfold reason. right. unfold goaway_status, block_type. repeat split; try lia.
Qed.

Lemma parse_reason asserts mem p len i d r : Forall is_byte mem -> parse inflate asserts mem p len i d = SOk r ->
  reason mem p d (r_error r) /\ (r_value r = TFalse <-> r_error r <> None).
Proof.
  intros H E. unfold parse in E. rewrite rd8_eq, populate_eq in E by auto. destruct (hasb mem p 1) eqn:E1; cbn [sbind] in E; [|discriminate].
  destruct (field mem p 1 =? 128) eqn:F1; cbn [negb andb] in E.
  - destruct (hasb mem p 2) eqn:E2; cbn [negb sbind] in E; [|discriminate]. pose proof E2 as P2. apply hasb_spec in P2. destruct (ctl_first inflate mem p H P2) as [C _]. rewrite C in E by lia. clear C.
    destruct (hasb mem p 4); cbn [negb sbind] in E; [|discriminate]. destruct (11 <=? h_type mem p) eqn:T; cbn [sbind] in E; [injection E as <-; cbn [r_error r_value]; unfold reason; split; [lia|split; [discriminate|auto]]|].
    destruct (hasb mem p 12) eqn:E12; cbn [negb sbind] in E; [|discriminate]. apply hasb_spec in E12. destruct (asserts && (h_stream mem p =? 0)); [discriminate|].
    cbn [f_version f_length f_control f_flags andb negb] in E. unfold MIN_SPDY_VERSION in E. destruct (3 <? h_version mem p) eqn:V; [injection E as <-; cbn [r_error r_value]; unfold reason; split; [lia|split; [discriminate|auto]]|].
    destruct (parse_body inflate mem (p + 8) _ (after_header mem p i) d) as [[[[e i3] d1] q]| |] eqn:PB; cbn [sbind] in E; try discriminate.
    pose proof (body_reason mem p _ d e i3 d1 q H E12 ltac:(lia) ltac:(lia) ltac:(lia) PB) as R.
    destruct e as [e|]; injection E as <-; cbn [r_error r_value]; (split; [exact R|]); [split; [discriminate|auto]|]. match goal with |- (if ?c then _ else _) = _ <-> _ => destruct c end; (split; intros X; [discriminate X|exfalso; apply X; reflexivity]).
  - destruct (field mem p 1 =? 0) eqn:F0; cbn [negb andb] in E; [|injection E as <-; cbn [r_error r_value]; unfold reason; split; [lia|split; [discriminate|auto]]].
    destruct (hasb mem p 2) eqn:E2; cbn [negb sbind] in E; [|discriminate]. pose proof E2 as P2. apply hasb_spec in P2. destruct (ctl_first inflate mem p H P2) as [_ C]. rewrite C in E by lia. clear C.
    destruct (hasb mem p 8) eqn:E8; cbn [negb sbind] in E; [|discriminate]. destruct (asserts && (field mem p 4 =? 0)); [discriminate|].
    cbn [f_version f_length f_control f_flags andb negb] in E. change (MIN_SPDY_VERSION <? 0) with false in E. cbn iota in E. unfold parse_body in E. cbn [f_type] in E.
    unfold SPDY_SYN_STREAM, SPDY_SYN_REPLY, SPDY_DATA, SPDY_HEADERS, SPDY_RST_STREAM, SPDY_SETTINGS, SPDY_PING, SPDY_GOAWAY, SPDY_WINDOW_UPDATE, SPDY_CREDENTIAL in E. cbn [Z.eqb orb sbind] in E. injection E as <-.
    cbn [r_error r_value]. split; [unfold reason; left; lia|]. destruct (_ <? _); (split; intros X; [discriminate X|exfalso; apply X; reflexivity]).
Qed.
End Reasons.

(** For every packet, offset, declared length, structure, decompressor and zlib, with or without assertions: a call that returns reports exactly the error of which the bytes have
    the reason - no frame begins with this byte or the type is unknown, the version is above 3, the header block does not decompress, a GOAWAY frame of length 4 whose four bytes
    after the frame are 1 or 11 - and none if there is no such reason; its value is false exactly with an error. *)
Theorem C158_reason_partial (I : Type) inflate asserts mem p len i (d : dec I) r : Forall is_byte mem -> parse inflate asserts mem p len i d = SOk r ->
  (forall e, r_error r = e <-> reason inflate mem p d e) /\ (r_value r = TFalse <-> r_error r <> None).
Proof.
  intros H E. destruct (parse_reason inflate asserts mem p len i d r H E) as [R V]. split; auto. intros e. split; [intros <-; exact R|]. intros R'. eapply reason_one; eauto.
Qed.
Print Assumptions C158_reason_partial.

Lemma bytes_sub mem mem' p n q k : bytes_at mem p n = bytes_at mem' p n -> 0 <= p -> p <= q -> 0 <= k -> q + k <= p + n -> bytes_at mem q k = bytes_at mem' q k.
Proof.
  unfold bytes_at. intros E P Q K L.
  assert (forall m : list Z, firstn (Z.to_nat k) (skipn (Z.to_nat q) m) = firstn (Z.to_nat k) (skipn (Z.to_nat (q - p)) (firstn (Z.to_nat n) (skipn (Z.to_nat p) m)))) as X.
  { intros m. rewrite skipn_firstn_comm, skipn_plus, firstn_firstn. f_equal; [lia|]. f_equal. lia. }
  rewrite (X mem), (X mem'), E. reflexivity.
Qed.
Lemma field_sub mem mem' p n q k : bytes_at mem p n = bytes_at mem' p n -> 0 <= p -> p <= q -> 0 <= k -> q + k <= p + n -> field mem q k = field mem' q k.
Proof. intros. unfold field. f_equal. eapply bytes_sub; eauto. Qed.

(** For every two packets that hold the same whole frame, long enough for the fields of its type, whatever comes before or after it: the same error or none is reported, unless it is a
    GOAWAY frame of length 4. *)
Theorem C158_frame_partial (I : Type) inflate asserts mem mem' p len len' i i' (d : dec I) r r' : Forall is_byte mem -> Forall is_byte mem' ->
  has mem p (8 + h_length mem p) -> has mem' p (8 + h_length mem p) -> 12 <= 8 + h_length mem p -> bytes_at mem p (8 + h_length mem p) = bytes_at mem' p (8 + h_length mem p) ->
  (h_type mem p = 1 -> 10 <= h_length mem p) -> (h_type mem p = 2 \/ h_type mem p = 8 -> 6 <= h_length mem p) -> (h_type mem p = 7 -> h_length mem p <> 4) ->
  parse inflate asserts mem p len i d = SOk r -> parse inflate asserts mem' p len' i' d = SOk r' -> r_error r = r_error r'.
Proof.
  intros H H' P P' L EQ L1 L2 G E E'. destruct (parse_reason _ _ _ _ _ _ _ _ H E) as [R _].
  symmetry. apply (proj1 (C158_reason_partial I inflate asserts mem' p len' i' d r' H' E')). unfold has in *.
  assert (forall q k, p <= q -> 0 <= k -> q + k <= p + (8 + h_length mem p) -> field mem q k = field mem' q k) as F by (intros; eapply field_sub; eauto; lia).
  assert (field mem p 1 = field mem' p 1) as F1 by (apply F; lia). assert (h_type mem p = h_type mem' p) as FT by (apply F; lia).
  assert (h_version mem p = h_version mem' p) as FV by (unfold h_version; rewrite F by lia; reflexivity).
  assert (h_length mem p = h_length mem' p) as FL by (apply F; lia). assert (h_stream mem p = h_stream mem' p) as FS by (unfold h_stream; rewrite F by lia; reflexivity).
  assert (forall b, block_type (h_type mem p) -> block_good inflate mem p d b -> block_good inflate mem' p d b) as BG.
  { unfold block_good, block_type. intros b BT (s & o & B). exists s, o. rewrite <- FT, <- FS, <- FL. rewrite <- B. f_equal. symmetry.
    assert (0 <= h_length mem p < 16777216) as B3 by (apply (field_bound mem (p + 5) 3); auto; unfold has; lia).
    assert (exists k, (if h_type mem p =? 1 then 10 else 6) = k /\ 0 <= k <= h_length mem p) as (k & -> & K) by (destruct (h_type mem p =? 1) eqn:X; eexists; (split; [reflexivity|lia])).
    rewrite Z.mod_small by lia. eapply bytes_sub; eauto; lia. }
  assert (forall v, goaway_status mem p v -> False) as NG by (unfold goaway_status; intros v (A & B & _); exact (G A B)).
  assert (forall v, goaway_status mem' p v -> False) as NG' by (unfold goaway_status; intros v (A & B & _); rewrite <- FT in A; rewrite <- FL in B; exact (G A B)).
  unfold reason in R |- *. rewrite <- F1, <- FT, <- FV. destruct (r_error r) as [[]|]; try tauto.
  - destruct R as (A & B & C & D). repeat split; auto.
  - destruct R as (A & B & C). destruct (NG _ C).
  - destruct R as (A & B & C). destruct (NG _ C).
  - destruct R as [R|(A & B & C & D & D' & R)]; [auto|]. right. repeat split; auto; intros X; apply (NG' _ X).
Qed.
Print Assumptions C158_frame_partial.

(** A GOAWAY frame of version 3, with its status in the frame, that tells of a protocol error or an internal error is reported as one: not so. *)
Theorem C158_status_refuted : ~ forall (I : Type) inflate stream status (d : dec I) r, 0 < stream < 2147483648 -> status = 1 \/ status = 11 ->
  parse inflate false (enc (Other 7 3 0 (be 4 stream ++ be 4 status))) 0 16 info_init d = SOk r -> r_error r <> None.
Proof. intros H. eapply (H unit plain 5 1 fresh_dec); [lia|auto|vm_compute; reflexivity|reflexivity]. Qed.
Print Assumptions C158_status_refuted.
(** The error reported of a whole frame depends on the frame alone: not so, a GOAWAY frame of length 4 is an error or not by what comes after it. *)
Theorem C158_frame_refuted : ~ forall (I : Type) inflate x more more' (d : dec I) r r', zlen x = 4 -> Forall is_byte (x ++ more ++ more') ->
  parse inflate false (enc (Other 7 2 0 x) ++ more) 0 (zlen (enc (Other 7 2 0 x) ++ more)) info_init d = SOk r -> parse inflate false (enc (Other 7 2 0 x) ++ more') 0 (zlen (enc (Other 7 2 0 x) ++ more')) info_init d = SOk r' ->
  r_error r = r_error r'.
Proof.
  intros H. set (a := enc (Other 7 2 0 [0; 0; 0; 5]) ++ enc (Data 11 0 (bs "x"))). set (b := enc (Other 7 2 0 [0; 0; 0; 5]) ++ enc (Data 3 0 (bs "x"))).
  assert (exists r, parse plain false a 0 (zlen a) info_init fresh_dec = SOk r /\ r_error r = Some EInternal) as (r & A & A') by (eexists; split; [vm_compute; reflexivity|reflexivity]).
  assert (exists r, parse plain false b 0 (zlen b) info_init fresh_dec = SOk r /\ r_error r = None) as (r' & B & B') by (eexists; split; [vm_compute; reflexivity|reflexivity]).
  assert (r_error r = r_error r') as X; [|rewrite A', B' in X; discriminate X].
  refine (H unit plain [0; 0; 0; 5] (enc (Data 11 0 (bs "x"))) (enc (Data 3 0 (bs "x"))) fresh_dec r r' eq_refl _ A B). bytes.
Qed.
Print Assumptions C158_frame_refuted.
Example C158_case : (exists r, parse plain true (enc (Other 6 4 0 [0; 0; 0; 7])) 0 12 info_init fresh_dec = SOk r /\ r_error r = Some EVersion /\ r_value r = TFalse)
  /\ (exists r, parse (fun (s : unit) z => (s, z, false)) true ex_reply 0 (zlen ex_reply) info_init fresh_dec = SOk r /\ r_error r = Some EDecompress)
  /\ (exists r, parse plain true (ex_reply ++ [1; 2; 3]) 0 (zlen ex_reply + 3) info_init fresh_dec = SOk r /\ r_error r = None /\ r_value r = TIndet)
  /\ (exists r, parse plain true [128; 3; 0; 11; 0; 0; 0; 4] 0 8 info_init fresh_dec = SOk r /\ r_error r = Some EFrame).
Proof. repeat split; eexists; (split; [vm_compute; reflexivity|]); try split; reflexivity. Qed.
