(** Proofs about the SPDY parser. *)
From Coq Require Import String ZArith List Bool Lia.
From Verif Require Import Base SMap AlgModel AlgSpec AlgProofs HttpModel SpdyModel SpdySpec.
Import ListNotations.

Lemma sbind_ok {A B} (x : sres A) (f : A -> sres B) b : sbind x f = SOk b -> exists a, x = SOk a /\ f a = SOk b.
Proof. destruct x; cbn; try discriminate. eauto. Qed.

(* ------------------------------------------------------------------ big endian *)

Lemma be_length k v : List.length (be k v) = k. Proof. induction k; cbn; auto. Qed.
Lemma be_zlen k v : zlen (be k v) = Z.of_nat k. Proof. unfold zlen. rewrite be_length. reflexivity. Qed.
Lemma be_bytes k v : Forall is_byte (be k v).
Proof. induction k; cbn [be]; constructor; auto. unfold is_byte. apply Z.mod_pos_bound. lia. Qed.
Lemma be_acc b : forall acc, be_value_acc acc b = acc * 256 ^ zlen b + be_value b.
Proof.
  unfold be_value. induction b as [|x b IH]; intros acc; cbn [be_value_acc].
  - rewrite zlen_nil. cbn. lia.
  - rewrite IH. rewrite (IH (0 * 256 + x)). rewrite zlen_cons. rewrite Z.pow_add_r by (pose proof (zlen_nonneg b); lia). lia.
Qed.
Lemma be_value_cons x b : be_value (x :: b) = x * 256 ^ zlen b + be_value b.
Proof. unfold be_value at 1. cbn [be_value_acc]. rewrite be_acc. lia. Qed.
Lemma be_value_app a b : be_value (a ++ b) = be_value a * 256 ^ zlen b + be_value b.
Proof.
  induction a as [|x a IH]; cbn [app].
  - change (be_value []) with 0. lia.
  - rewrite !be_value_cons, IH, zlen_app, Z.pow_add_r by (pose proof (zlen_nonneg a); pose proof (zlen_nonneg b); lia). lia.
Qed.
Lemma be_round k v : be_value (be k v) = v mod 256 ^ Z.of_nat k.
Proof.
  induction k as [|k IH]; cbn [be].
  - change (be_value []) with 0. change (256 ^ Z.of_nat 0) with 1. rewrite Z.mod_1_r. reflexivity.
  - rewrite be_value_cons, be_zlen, IH. replace (Z.of_nat (S k)) with (Z.of_nat k + 1) by lia. rewrite Z.pow_add_r by lia.
    change (256 ^ 1) with 256. rewrite Z.rem_mul_r by lia. lia.
Qed.
Lemma be_small k v : 0 <= v < 256 ^ Z.of_nat k -> be_value (be k v) = v.
Proof. intros H. rewrite be_round. apply Z.mod_small. auto. Qed.
Lemma value_bound b : Forall is_byte b -> 0 <= be_value b < 256 ^ zlen b.
Proof. intros H. pose proof (be_value_bound b H) as X. rewrite Z.pow_mul_r in X by (pose proof (zlen_nonneg b); lia). change (2 ^ 8) with 256 in X. auto. Qed.

(* ------------------------------------------------------------------ reads *)

Lemma Forall_firstn {A} (P : A -> Prop) n l : Forall P l -> Forall P (firstn n l).
Proof. intros H. rewrite <- (firstn_skipn n l) in H. apply Forall_app in H. tauto. Qed.
Lemma Forall_skipn {A} (P : A -> Prop) n l : Forall P l -> Forall P (skipn n l).
Proof. intros H. rewrite <- (firstn_skipn n l) in H. apply Forall_app in H. tauto. Qed.
Lemma bytes_at_bytes mem p n : Forall is_byte mem -> Forall is_byte (bytes_at mem p n).
Proof. intros. apply Forall_firstn, Forall_skipn. auto. Qed.
Lemma bytes_at_length mem p n : has mem p n -> 0 <= n -> zlen (bytes_at mem p n) = n.
Proof. intros [H1 H2] H3. unfold bytes_at, zlen in *. rewrite firstn_length, skipn_length. lia. Qed.
Definition hasb (mem : list Z) (p n : Z) : bool := (0 <=? p) && (p + n <=? zlen mem).
Lemma hasb_spec mem p n : hasb mem p n = true <-> has mem p n.
Proof. unfold hasb, has. rewrite andb_true_iff, !Z.leb_le. tauto. Qed.
Lemma rd_eq mem p n : rd mem p n = if hasb mem p n then SOk (bytes_at mem p n) else SRead.
Proof. reflexivity. Qed.
Lemma field_bound mem p n : Forall is_byte mem -> has mem p n -> 0 <= n -> 0 <= field mem p n < 256 ^ n.
Proof. intros H1 H2 H3. unfold field. rewrite <- (bytes_at_length mem p n H2 H3) at 3. apply value_bound, bytes_at_bytes. auto. Qed.
Lemma rd16_eq mem p : Forall is_byte mem -> rd16 mem p = if hasb mem p 2 then SOk (field mem p 2) else SRead.
Proof.
  intros H. unfold rd16. rewrite rd_eq. destruct (hasb mem p 2) eqn:E; cbn [sbind]; auto. f_equal. apply hasb_spec in E.
  apply read_u16; [apply bytes_at_bytes; auto|]. pose proof (bytes_at_length mem p 2 E ltac:(lia)) as L. unfold zlen in L. lia.
Qed.
Lemma rd32_eq mem p : Forall is_byte mem -> rd32 mem p = if hasb mem p 4 then SOk (field mem p 4) else SRead.
Proof.
  intros H. unfold rd32. rewrite rd_eq. destruct (hasb mem p 4) eqn:E; cbn [sbind]; auto. f_equal. apply hasb_spec in E.
  apply read_u32; [apply bytes_at_bytes; auto|]. pose proof (bytes_at_length mem p 4 E ltac:(lia)) as L. unfold zlen in L. lia.
Qed.
Lemma rd8_eq mem p : rd8 mem p = if hasb mem p 1 then SOk (field mem p 1) else SRead.
Proof.
  unfold rd8. rewrite rd_eq. destruct (hasb mem p 1) eqn:E; cbn [sbind]; auto. f_equal. apply hasb_spec in E.
  pose proof (bytes_at_length mem p 1 E ltac:(lia)) as L. unfold field. destruct (bytes_at mem p 1) as [|x [|y l]]; [discriminate| |unfold zlen in L; cbn in L; lia].
  unfold be_value. cbn [nth be_value_acc]. lia.
Qed.
Lemma skipn_plus {A} a b (l : list A) : skipn a (skipn b l) = skipn (b + a) l.
Proof. revert l. induction b as [|b IH]; intros l; cbn [Nat.add]; [reflexivity|]. destruct l; [rewrite !skipn_nil; reflexivity|]. cbn [skipn]. apply IH. Qed.
Lemma bytes_split mem p n m : 0 <= p -> 0 <= n -> 0 <= m -> bytes_at mem p (n + m) = bytes_at mem p n ++ bytes_at mem (p + n) m.
Proof.
  intros H1 H2 H3. unfold bytes_at. rewrite !Z2Nat.inj_add by lia. generalize (Z.to_nat n), (Z.to_nat m), (Z.to_nat p). intros a b c. clear.
  rewrite <- (firstn_skipn a (firstn (a + b) (skipn c mem))). rewrite firstn_firstn, Nat.min_l by lia. f_equal.
  rewrite skipn_firstn_comm. f_equal; [lia|]. apply skipn_plus.
Qed.
Lemma field_split mem p n m : has mem p (n + m) -> 0 <= n -> 0 <= m -> field mem p (n + m) = field mem p n * 256 ^ m + field mem (p + n) m.
Proof.
  intros [H1 H2] H3 H4. unfold field. rewrite bytes_split by lia. rewrite be_value_app. rewrite (bytes_at_length mem (p + n) m); auto. split; lia.
Qed.
Lemma hasb_le mem p n p' n' : hasb mem p n = true -> p <= p' -> 0 <= p' -> p' + n' <= p + n -> hasb mem p' n' = true.
Proof. rewrite !hasb_spec. unfold has. lia. Qed.

(* ------------------------------------------------------------------ header fields *)

Lemma shiftr15 v : 0 <= v < 65536 -> (Z.shiftr v 15 =? 0) = (v <? 32768).
Proof. intros H. rewrite Z.shiftr_div_pow2 by lia. change (2 ^ 15) with 32768. apply eq_true_iff_eq. rewrite Z.eqb_eq, Z.ltb_lt. split; intros; [|apply Z.div_small; lia]. pose proof (Z.div_mod v 32768 ltac:(lia)). pose proof (Z.mod_pos_bound v 32768 ltac:(lia)). lia. Qed.
Lemma land15 v : Z.land v 32767 = v mod 32768. Proof. change 32767 with (Z.ones 15). rewrite Z.land_ones by lia. reflexivity. Qed.
Lemma land24 v : Z.land v 16777215 = v mod 16777216. Proof. change 16777215 with (Z.ones 24). rewrite Z.land_ones by lia. reflexivity. Qed.
Lemma land31 v : Z.land v 2147483647 = v mod 2147483648. Proof. change 2147483647 with (Z.ones 31). rewrite Z.land_ones by lia. reflexivity. Qed.
Lemma length_field mem p : Forall is_byte mem -> has mem p 8 -> Z.land (field mem (p + 4) 4) 16777215 = h_length mem p.
Proof.
  intros H1 H2. unfold has in H2. rewrite land24. change 4 with (1 + 3) at 2. rewrite field_split by (unfold has; lia). unfold h_length. change (256 ^ 3) with 16777216.
  rewrite Z.add_comm, Z.mod_add by lia. replace (p + 4 + 1) with (p + 5) by lia. apply Z.mod_small. apply field_bound; auto; unfold has; lia.
Qed.
Lemma first_of_two mem p : Forall is_byte mem -> has mem p 2 -> field mem p 2 = field mem p 1 * 256 + field mem (p + 1) 1 /\ 0 <= field mem (p + 1) 1 < 256 /\ 0 <= field mem p 1 < 256.
Proof.
  intros H1 H2. unfold has in H2. split; [|split; apply field_bound; auto; unfold has; lia]. change 2 with (1 + 1) at 1. rewrite field_split by (unfold has; lia). reflexivity.
Qed.
Definition ctl (mem : list Z) (p : Z) : bool := negb (field mem p 2 <? 32768).

(** [populate_frame] in terms of the fields *)
Definition skipped (n : Z) (i : info) := mki (i_headers i) (i_type i) (i_stream i) (wrap32 (i_offset i + n)) (i_size i) (i_last i).
Definition after_header (mem : list Z) (p : Z) (i : info) : info :=
  let j := skipped 4 (skipped 2 (skipped 2 i)) in mki (i_headers j) (i_type j) (i_stream j) (i_offset j) (h_length mem p) (i_last j).
Lemma populate_eq mem p len i : Forall is_byte mem -> populate_frame mem p len i =
  if negb (hasb mem p 2) then SRead
  else if ctl mem p then
    if negb (hasb mem p 4) then SRead
    else if 11 <=? h_type mem p then SOk None
    else if negb (hasb mem p 12) then SRead
    else SOk (Some (mkp (mkf true (h_version mem p) (h_type mem p) (h_flags mem p) (h_length mem p)) (h_stream mem p) (after_header mem p i) (wrap32 (wrap32 (wrap32 (len - 2) - 2) - 4)) (p + 8)))
  else
    if negb (hasb mem p 8) then SRead
    else SOk (Some (mkp (mkf false 0 0 (h_flags mem p) (h_length mem p)) (field mem p 4) (after_header mem p (set_i_stream (field mem p 4) i)) (wrap32 (wrap32 (wrap32 (len - 2) - 2) - 4)) (p + 8))).
Proof.
  intros H. unfold populate_frame. rewrite !(rd16_eq mem), !(rd32_eq mem), !rd8_eq by auto.
  destruct (hasb mem p 2) eqn:E2; cbn [sbind negb]; auto. pose proof E2 as E2'. apply hasb_spec in E2'.
  pose proof (field_bound mem p 2 H E2' ltac:(lia)) as B2. change (256 ^ 2) with 65536 in B2. rewrite shiftr15 by auto. fold (ctl mem p).
  unfold has in E2'.
  assert (hasb mem (p + 2) 2 = hasb mem p 4) as -> by (apply eq_true_iff_eq; rewrite !hasb_spec; unfold has; lia).
  assert (hasb mem (p + 4) 4 = hasb mem p 8) as -> by (apply eq_true_iff_eq; rewrite !hasb_spec; unfold has; lia).
  assert (hasb mem (p + 8) 4 = hasb mem p 12) as -> by (apply eq_true_iff_eq; rewrite !hasb_spec; unfold has; lia).
  destruct (ctl mem p) eqn:EC.
  - destruct (hasb mem p 4) eqn:E4; cbn [sbind negb]; auto. fold (h_type mem p). unfold SPDY_INVALID. destruct (11 <=? h_type mem p) eqn:ET; auto.
    destruct (hasb mem p 12) eqn:E12; cbn [sbind negb].
    + rewrite (hasb_le _ _ _ (p + 4) 1 E12) by lia. cbn [sbind]. rewrite (hasb_le _ _ _ p 8 E12) by lia. cbn [sbind]. apply hasb_spec in E12. unfold has in E12.
      rewrite length_field by (auto; unfold has; lia). rewrite land15, land31. reflexivity.
    + destruct (hasb mem (p + 4) 1); cbn [sbind]; auto. destruct (hasb mem p 8); reflexivity.
  - destruct (hasb mem p 8) eqn:E8; cbn [sbind negb].
    + rewrite (hasb_le _ _ _ p 4 E8), (hasb_le _ _ _ (p + 4) 1 E8) by lia. cbn [sbind]. apply hasb_spec in E8. unfold has in E8.
      rewrite length_field by (auto; unfold has; lia). rewrite land31. rewrite (Z.mod_small (field mem p 4)); [reflexivity|].
      change 4 with (2 + 2). rewrite field_split by (unfold has; lia). unfold ctl in EC. pose proof (field_bound mem (p + 2) 2 H ltac:(unfold has; lia) ltac:(lia)) as B3. change (256 ^ 2) with 65536 in *. lia.
    + destruct (hasb mem p 4); cbn [sbind]; auto. destruct (hasb mem (p + 4) 1); cbn [sbind]; auto.
Qed.

(* ------------------------------------------------------------------ the block of names and values *)

Lemma cells_some b : cells (map Some b) = SOk b.
Proof. induction b as [|x b IH]; cbn; auto. rewrite IH. reflexivity. Qed.
Lemma cells_inv l : forall b, cells l = SOk b -> l = map Some b.
Proof.
  induction l as [|[x|] l IH]; cbn; intros b H; try discriminate.
  - injection H as <-. reflexivity.
  - apply sbind_ok in H as (r & R & E). injection E as <-. rewrite (IH _ R). reflexivity.
Qed.
Lemma cells_no_assert l : cells l <> SAssert.
Proof. induction l as [|[x|] l IH]; cbn; try discriminate. destruct (cells l); cbn; congruence. Qed.
Lemma rdb_at pre l n : 0 <= n -> rdb (pre ++ l) (zlen pre) n = if n <=? zlen l then cells (firstn (Z.to_nat n) l) else SRead.
Proof.
  intros H. unfold rdb. pose proof (zlen_nonneg pre). rewrite zlen_app. replace (0 <=? zlen pre) with true by lia. cbn [andb].
  replace (zlen pre + n <=? zlen pre + zlen l) with (n <=? zlen l) by lia. destruct (n <=? zlen l); auto.
  replace (Z.to_nat (zlen pre)) with (List.length pre) by (unfold zlen; lia). rewrite skipn_app, skipn_all, Nat.sub_diag. reflexivity.
Qed.
Lemma rdb_some pre b l n p : p = zlen pre -> n = zlen b -> rdb (pre ++ map Some b ++ l) p n = SOk b.
Proof.
  intros -> ->. rewrite rdb_at by apply zlen_nonneg. rewrite zlen_app. replace (zlen (map Some b)) with (zlen b) by (unfold zlen; rewrite map_length; reflexivity).
  pose proof (zlen_nonneg l). replace (zlen b <=? zlen b + zlen l) with true by lia. replace (Z.to_nat (zlen b)) with (List.length (map Some b) + 0)%nat by (rewrite map_length; unfold zlen; lia).
  rewrite firstn_app_2. cbn [firstn]. rewrite app_nil_r. apply cells_some.
Qed.
Lemma rdb_inv pre l n b p : p = zlen pre -> 0 <= n -> rdb (pre ++ l) p n = SOk b -> exists l', l = map Some b ++ l' /\ zlen b = n.
Proof.
  intros -> H E. rewrite rdb_at in E by auto. destruct (n <=? zlen l) eqn:L; [|discriminate]. apply cells_inv in E. exists (skipn (Z.to_nat n) l).
  rewrite <- E. split; [symmetry; apply firstn_skipn|]. assert (List.length (firstn (Z.to_nat n) l) = List.length b) as X by (rewrite E, map_length; reflexivity).
  rewrite firstn_length in X. unfold zlen in *. lia.
Qed.
Lemma rdb_no_assert buf p n : rdb buf p n <> SAssert.
Proof. unfold rdb. destruct ((0 <=? p) && (p + n <=? zlen buf)); [apply cells_no_assert|discriminate]. Qed.

Definition cell_byte (c : option Z) : Prop := match c with Some b => is_byte b | None => True end.
Lemma cells_bytes b : Forall cell_byte (map Some b) -> Forall is_byte b.
Proof. induction b as [|x b IH]; intros H; constructor; inversion H; subst; auto. Qed.
Lemma two_bytes b : Forall is_byte b -> zlen b = 2 -> to_uint16 b = be_value b /\ 0 <= be_value b < 65536.
Proof. intros H L. split; [apply read_u16; auto; unfold zlen in L; lia|]. pose proof (value_bound b H) as X. rewrite L in X. exact X. Qed.
Lemma two_be b : Forall is_byte b -> zlen b = 2 -> b = be 2 (be_value b).
Proof.
  intros H L. destruct b as [|x [|y [|? b]]]; try (unfold zlen in L; cbn in L; lia). inversion H as [|? ? Hx H']; subst. inversion H' as [|? ? Hy ?]; subst. unfold is_byte in *.
  unfold be_value. cbn [be_value_acc be]. change (256 ^ Z.of_nat 1) with 256. change (256 ^ Z.of_nat 0) with 1. rewrite Z.div_1_r.
  replace ((0 * 256 + x) * 256 + y) with (x * 256 + y) by lia. f_equal; [|f_equal].
  - rewrite Z.add_comm, Z.div_add by lia. rewrite (Z.div_small y) by lia. cbn. rewrite Z.mod_small; lia.
  - rewrite Z.add_comm, Z.mod_add by lia. rewrite Z.mod_small; lia.
Qed.
Lemma be2_value n : 0 <= n < 65536 -> to_uint16 (be 2 n) = n.
Proof. intros H. destruct (two_bytes (be 2 n) (be_bytes 2 n) (be_zlen 2 n)) as [-> _]. apply be_small. exact H. Qed.

Definition inserts (ps : list (list Z * list Z)) (h : smap (list Z)) : smap (list Z) := fold_left (fun h e => sm_insert h (fst e) (snd e)) ps h.
Lemma map_some_app (a b : list Z) : map Some (a ++ b) = map Some a ++ map Some b. Proof. apply map_app. Qed.
Lemma zmap {A B} (f : A -> B) l : zlen (map f l) = zlen l. Proof. unfold zlen. rewrite map_length. reflexivity. Qed.

Lemma read_pairs_some ps : forall pre rest h p, p = zlen pre -> Forall pair_ok ps ->
  read_pairs (pre ++ map Some (concat (map pair_bytes ps)) ++ rest) p (List.length ps) h = SOk (inserts ps h).
Proof.
  induction ps as [|[n v] ps IH]; intros pre rest h p -> F; [reflexivity|]. inversion F as [|? ? (H1 & H2 & H3 & H4) F']; subst. cbn [fst snd] in *.
  pose proof (zlen_nonneg n). pose proof (zlen_nonneg v). set (T := map Some (concat (map pair_bytes ps)) ++ rest).
  set (B := pre ++ map Some (concat (map pair_bytes ((n, v) :: ps))) ++ rest).
  assert (B = pre ++ map Some (be 2 (zlen n)) ++ map Some n ++ map Some (be 2 (zlen v)) ++ map Some v ++ T) as EB.
  { unfold B, T. cbn [map concat]. unfold pair_bytes at 1. cbn [fst snd]. rewrite !map_some_app, <- !app_assoc. reflexivity. }
  clearbody B. cbn [List.length read_pairs].
  assert (rdb B (zlen pre) 2 = SOk (be 2 (zlen n))) as -> by (rewrite EB; apply rdb_some; rewrite ?be_zlen; auto). cbn [sbind]. rewrite be2_value by lia.
  assert (rdb B (zlen pre + 2) (zlen n) = SOk n) as -> by (rewrite EB, app_assoc; apply rdb_some; rewrite ?zlen_app, ?zmap, ?be_zlen; lia). cbn [sbind].
  assert (rdb B (zlen pre + 2 + zlen n) 2 = SOk (be 2 (zlen v))) as -> by (rewrite EB, app_assoc, app_assoc; apply rdb_some; rewrite ?zlen_app, ?zmap, ?be_zlen; lia). cbn [sbind]. rewrite be2_value by lia.
  assert (rdb B (zlen pre + 4 + zlen n) (zlen v) = SOk v) as -> by (rewrite EB, app_assoc, app_assoc, app_assoc; apply rdb_some; rewrite ?zlen_app, ?zmap, ?be_zlen; lia). cbn [sbind].
  rewrite EB, !app_assoc. unfold T. rewrite (app_assoc _ (map Some (concat _))), <- (app_assoc _ (map Some (concat _)) rest). rewrite IH; auto. rewrite !zlen_app, !zmap, !be_zlen. lia.
Qed.

Lemma read_pairs_inv n : forall pre l h h' p, p = zlen pre -> Forall cell_byte l -> read_pairs (pre ++ l) p n h = SOk h' ->
  exists ps rest, List.length ps = n /\ Forall pair_ok ps /\ l = map Some (concat (map pair_bytes ps)) ++ rest /\ h' = inserts ps h.
Proof.
  induction n as [|n IH]; intros pre l h h' p -> B E; cbn [read_pairs] in E.
  - injection E as <-. exists [], l. repeat split; auto.
  - apply sbind_ok in E as (ln & E1 & E). apply rdb_inv in E1 as (l1 & -> & L1); auto; [|lia]. apply Forall_app in B as [B1 B]. apply cells_bytes in B1.
    destruct (two_bytes ln B1 L1) as [V1 V1']. rewrite V1 in *.
    apply sbind_ok in E as (nm & E2 & E). rewrite app_assoc in E2. apply rdb_inv in E2 as (l2 & -> & L2); [|rewrite zlen_app, zmap; lia|lia].
    apply Forall_app in B as [B2 B]. apply cells_bytes in B2.
    apply sbind_ok in E as (lv & E3 & E). rewrite !app_assoc in E3. apply rdb_inv in E3 as (l3 & -> & L3); [|rewrite !zlen_app, !zmap; lia|lia].
    apply Forall_app in B as [B3 B]. apply cells_bytes in B3. destruct (two_bytes lv B3 L3) as [V3 V3']. rewrite V3 in *.
    apply sbind_ok in E as (vl & E4 & E). rewrite !app_assoc in E4. apply rdb_inv in E4 as (l4 & -> & L4); [|rewrite !zlen_app, !zmap; lia|lia].
    apply Forall_app in B as [B4 B]. apply cells_bytes in B4.
    rewrite !app_assoc in E. apply IH in E; auto; [|rewrite !zlen_app, !zmap; lia]. destruct E as (ps & rest & P1 & P2 & -> & ->).
    exists ((nm, vl) :: ps), rest. split; [cbn; lia|]. split; [constructor; auto; unfold pair_ok; cbn [fst snd]; repeat split; auto; lia|]. split; [|reflexivity].
    cbn [map concat]. change (pair_bytes (nm, vl)) with (be 2 (zlen nm) ++ nm ++ be 2 (zlen vl) ++ vl). rewrite L2, L4, <- (two_be ln), <- (two_be lv) by auto. rewrite !map_some_app, <- !app_assoc. reflexivity.
Qed.
Lemma read_pairs_no_assert buf n : forall p h, read_pairs buf p n h <> SAssert.
Proof.
  induction n as [|n IH]; intros p h; cbn [read_pairs]; [discriminate|].
  repeat match goal with |- sbind (rdb ?b ?q ?m) _ <> _ => pose proof (rdb_no_assert b q m); destruct (rdb b q m); cbn [sbind]; [|discriminate|congruence] end. apply IH.
Qed.

(** the parse of the buffer in [parse_header_payload] *)
Definition read_block (buf : list (option Z)) (h : smap (list Z)) : sres (smap (list Z)) :=
  do n <- rdb buf 0 2; read_pairs buf 2 (Z.to_nat (to_uint16 n)) h.
Lemma read_block_some ps rest h : block_ok ps -> read_block (map Some (block_of ps) ++ rest) h = SOk (inserts ps h).
Proof.
  intros [F L]. unfold read_block, block_of. rewrite map_some_app, <- app_assoc. pose proof (rdb_some [] (be 2 (zlen ps)) (map Some (concat (map pair_bytes ps)) ++ rest) 2 0 eq_refl eq_refl) as R. cbn [app] in R. rewrite R. cbn [sbind].
  pose proof (zlen_nonneg ps). rewrite be2_value by lia. replace (Z.to_nat (zlen ps)) with (List.length ps) by (unfold zlen; lia). apply read_pairs_some; auto.
Qed.
Lemma read_block_inv buf h h' : Forall cell_byte buf -> read_block buf h = SOk h' -> exists ps rest, block_ok ps /\ buf = map Some (block_of ps) ++ rest /\ h' = inserts ps h.
Proof.
  intros B E. unfold read_block in E. apply sbind_ok in E as (n & E1 & E). apply (rdb_inv []) in E1 as (l1 & -> & L1); [|reflexivity|lia].
  apply Forall_app in B as [B1 B]. apply cells_bytes in B1. destruct (two_bytes n B1 L1) as [V1 V1']. rewrite V1 in E.
  apply read_pairs_inv in E; auto; [|rewrite zmap; lia]. destruct E as (ps & rest & P1 & P2 & -> & ->). exists ps, rest.
  assert (zlen ps = be_value n) as Z by (unfold zlen; lia). split; [split; auto; lia|]. split; [|reflexivity].
  unfold block_of. rewrite Z, <- two_be by auto. rewrite map_some_app, <- app_assoc. reflexivity.
Qed.
Lemma read_block_iff buf h : Forall cell_byte buf -> (read_block buf h <> SRead <-> holds_block buf).
Proof.
  intros B. split.
  - destruct (read_block buf h) as [h'| |] eqn:E; [|congruence|].
    + intros _. destruct (read_block_inv _ _ _ B E) as (ps & rest & P & Q & _). exists ps, rest. auto.
    + unfold read_block in E. pose proof (rdb_no_assert buf 0 2). destruct (rdb buf 0 2); cbn [sbind] in E; try congruence. exfalso. eapply read_pairs_no_assert. exact E.
  - intros (ps & rest & P & ->). rewrite read_block_some by auto. discriminate.
Qed.
Lemma read_block_no_assert buf h : read_block buf h <> SAssert.
Proof. unfold read_block. pose proof (rdb_no_assert buf 0 2). destruct (rdb buf 0 2); cbn [sbind]; try congruence. apply read_pairs_no_assert. Qed.

(* ------------------------------------------------------------------ frames *)

Section Zlib.
Context {I : Type}.
Variable inflate : I -> list Z -> I * list Z * bool.

Lemma mod2 s : s mod 2 = 0 \/ s mod 2 = 1.
Proof. pose proof (Z.mod_pos_bound s 2 ltac:(lia)). lia. Qed.
(** the decompressor afterwards *)
Definition after_block (d : dec I) (type stream : Z) (s : I) (out : list Z) : dec I :=
  if (type =? 1) && (stream mod 2 =? 1) then mkd s (d_response d) (written (d_buf d) out) else mkd (d_request d) s (written (d_buf d) out).
Lemma decompress_eq mem p stream type n d : type = 1 \/ type = 2 \/ type = 8 ->
  decompress inflate mem p stream type n d =
  if hasb mem p n then let '(s, out, ok) := inflate (context d type stream) (bytes_at mem p n) in SOk (after_block d type stream s out, ok) else SRead.
Proof.
  intros T. unfold decompress. rewrite rd_eq. destruct (hasb mem p n); cbn [sbind]; auto. unfold context, after_block, SPDY_HEADERS, SPDY_SYN_REPLY, SPDY_SYN_STREAM.
  destruct (mod2 stream) as [-> | ->]; destruct T as [-> | [-> | ->]]; reflexivity.
Qed.

Definition hlen_of (mem : list Z) (p k : Z) : Z := (h_length mem p - k) mod 4294967296.
Lemma payload_eq mem p i d f : Forall is_byte mem -> f = mkf true (h_version mem p) (h_type mem p) (h_flags mem p) (h_length mem p) ->
  h_type mem p = 1 \/ h_type mem p = 2 \/ h_type mem p = 8 -> has mem p 12 ->
  parse_header_payload inflate mem (p + 8) f i d =
  let k := if h_type mem p =? 1 then 10 else 6 in
  if hasb mem (p + 8 + k) (hlen_of mem p k) then
    let '(s, out, ok) := inflate (context d (h_type mem p) (h_stream mem p)) (bytes_at mem (p + 8 + k) (hlen_of mem p k)) in
    let d1 := after_block d (h_type mem p) (h_stream mem p) s out in
    let i1 := set_i_stream (h_stream mem p) i in
    if ok then do h <- read_block (written (d_buf d) out) (i_headers i); SOk (None, set_i_headers h i1, d1, p + 8 + k)
    else SOk (Some EDecompress, i1, d1, p + 8 + k)
  else SRead.
Proof.
  intros H -> T P. unfold parse_header_payload. rewrite rd32_eq by auto. unfold has in P.
  assert (hasb mem (p + 8) 4 = true) as -> by (apply hasb_spec; unfold has; lia). cbn [sbind f_type f_length].
  rewrite land31. fold (h_stream mem p). unfold SPDY_HEADERS, SPDY_SYN_REPLY, SPDY_SYN_STREAM, wrap32, two32.
  assert (negb ((h_type mem p =? 1) || (h_type mem p =? 2) || (h_type mem p =? 8)) = false) as -> by lia. cbn zeta.
  assert ((if h_type mem p =? 1 then p + 8 + 10 else if (h_type mem p =? 2) || (h_type mem p =? 8) then p + 8 + 6 else p + 8 + 4) = p + 8 + (if h_type mem p =? 1 then 10 else 6)) as ->.
  { destruct T as [-> | [-> | ->]]; reflexivity. }
  assert ((if h_type mem p =? 1 then h_length mem p - 10 else h_length mem p - 6) mod 4294967296 = hlen_of mem p (if h_type mem p =? 1 then 10 else 6)) as ->.
  { unfold hlen_of. destruct (h_type mem p =? 1); reflexivity. }
  rewrite decompress_eq by auto. destruct (hasb mem _ _); cbn [sbind]; auto.
  destruct (inflate _ _) as [[s out] ok]. cbn [sbind]. destruct ok; cbn [negb]; auto. unfold read_block.
  assert (d_buf (after_block d (h_type mem p) (h_stream mem p) s out) = written (d_buf d) out) as -> by (unfold after_block; destruct (_ && _); reflexivity).
  destruct (rdb _ 0 2); reflexivity.
Qed.

(** no assertion fails in the body *)
Lemma body_no_assert mem p i d f : Forall is_byte mem -> f = mkf true (h_version mem p) (h_type mem p) (h_flags mem p) (h_length mem p) \/ f_type f = 0 -> has mem p 12 \/ f_type f = 0 ->
  parse_body inflate mem (p + 8) f i d <> SAssert.
Proof.
  intros H F P. unfold parse_body. unfold SPDY_SYN_STREAM, SPDY_SYN_REPLY, SPDY_HEADERS.
  destruct ((f_type f =? 1) || (f_type f =? 2) || (f_type f =? 8)) eqn:T.
  - destruct F as [-> | F]; [|rewrite F in T; discriminate]. cbn [f_type] in *. destruct P as [P|P]; [|rewrite P in T; discriminate]. rewrite payload_eq by (auto; lia).
    cbn zeta. destruct (hasb mem _ _); [|discriminate]. destruct (inflate _ _) as [[s out] ok]. destruct ok; [|discriminate]. pose proof (read_block_no_assert (written (d_buf d) out)) as N.
    match goal with |- sbind (read_block ?b ?h) _ <> _ => specialize (N h); destruct (read_block b h); cbn [sbind]; congruence end.
  - repeat match goal with |- (if ?c then _ else _) <> _ => destruct c end; try discriminate.
    + unfold parse_rst_stream. destruct (negb (f_flags f =? 0) || negb (f_length f =? 8)); cbn [sbind]; try discriminate. rewrite rd32_eq by auto. destruct (hasb _ _ _); cbn; discriminate.
    + unfold parse_ping. destruct (negb (f_length f =? 4)); cbn [sbind]; try discriminate. rewrite rd32_eq by auto. destruct (hasb _ _ _); cbn; discriminate.
    + unfold parse_goaway. destruct (negb (f_length f =? 4)); cbn [sbind]; try discriminate. rewrite rd32_eq by auto. destruct (hasb _ _ _); cbn; discriminate.
Qed.

Lemma written_bytes buf out : Forall cell_byte buf -> Forall is_byte out -> Forall cell_byte (written buf out).
Proof. intros A B. unfold written. apply Forall_app. split; [apply Forall_map; exact B|apply Forall_skipn; auto]. Qed.

(** reads of the body *)
Lemma body_reads mem p i d : Forall is_byte mem -> Forall cell_byte (d_buf d) -> zlib_ok inflate -> has mem p 12 ->
  (parse_body inflate mem (p + 8) (mkf true (h_version mem p) (h_type mem p) (h_flags mem p) (h_length mem p)) i d <> SRead <-> body_inside inflate mem p d).
Proof.
  intros H B ZK P. unfold parse_body, body_inside. unfold SPDY_SYN_STREAM, SPDY_SYN_REPLY, SPDY_HEADERS, SPDY_RST_STREAM, SPDY_GOAWAY, SPDY_PING, SPDY_SETTINGS, SPDY_WINDOW_UPDATE, SPDY_CREDENTIAL. cbn [f_type].
  destruct ((h_type mem p =? 1) || (h_type mem p =? 2) || (h_type mem p =? 8)) eqn:T.
  - rewrite payload_eq by (auto; lia). cbn zeta.
    assert (forall j, j = (if h_type mem p =? 1 then 10 else 6) ->
      ((if hasb mem (p + 8 + j) (hlen_of mem p j) then
       let '(s, out, ok) := inflate (context d (h_type mem p) (h_stream mem p)) (bytes_at mem (p + 8 + j) (hlen_of mem p j)) in
       if ok then do h <- read_block (written (d_buf d) out) (i_headers (if h_type mem p =? 1 then set_i_type HTTP_REQUEST i else if h_type mem p =? 2 then set_i_type HTTP_RESPONSE i else if h_type mem p =? SPDY_DATA then set_i_type HTTP_DATA i else i));
         SOk (None, set_i_headers h (set_i_stream (h_stream mem p) (if h_type mem p =? 1 then set_i_type HTTP_REQUEST i else if h_type mem p =? 2 then set_i_type HTTP_RESPONSE i else if h_type mem p =? SPDY_DATA then set_i_type HTTP_DATA i else i)), after_block d (h_type mem p) (h_stream mem p) s out, p + 8 + j)
       else SOk (Some EDecompress, set_i_stream (h_stream mem p) (if h_type mem p =? 1 then set_i_type HTTP_REQUEST i else if h_type mem p =? 2 then set_i_type HTTP_RESPONSE i else if h_type mem p =? SPDY_DATA then set_i_type HTTP_DATA i else i), after_block d (h_type mem p) (h_stream mem p) s out, p + 8 + j)
       else SRead) <> SRead <-> block_inside inflate mem p j d)) as X.
    { intros j _. unfold block_inside. fold (hlen_of mem p j). rewrite <- hasb_spec. destruct (hasb mem (p + 8 + j) (hlen_of mem p j)) eqn:E; [|split; [congruence|intros [X _]; discriminate]].
      destruct (inflate _ _) as [[s out] ok] eqn:F. destruct (ZK _ _ _ _ _ F) as [ZB _]. pose proof (written_bytes _ _ B ZB) as WB.
      destruct ok.
      - match goal with |- context [read_block ?b ?h] => pose proof (read_block_iff b h WB) as R; pose proof (read_block_no_assert b h) as N; destruct (read_block b h) eqn:RB end; cbn [sbind].
        + split; [|intros _; discriminate]. intros _. split; auto. intros s' out' E'. injection E' as <- <-. apply R. discriminate.
        + split; [congruence|]. intros [_ Y]. specialize (Y _ _ eq_refl). apply R in Y. congruence.
        + congruence.
      - split; [|intros _; discriminate]. intros _. split; auto. intros s' out' E'. discriminate. }
    rewrite (X _ eq_refl). clear X.
    destruct (h_type mem p =? 1) eqn:T1.
    + split; [intros Y; split; [intros _; exact Y|]; split; [intros; lia|]; split; intros; lia|]. intros (Y & _). apply Y. lia.
    + split; [intros Y; split; [intros; lia|]; split; [intros _; exact Y|]; split; intros; lia|]. intros (_ & Y & _). apply Y. lia.
  - unfold has in P.
    destruct (h_type mem p =? 3) eqn:T3.
    { unfold parse_rst_stream. cbn [f_flags f_length]. destruct (negb (h_flags mem p =? 0) || negb (h_length mem p =? 8)) eqn:E; cbn [sbind].
      - split; [|intros _; discriminate]. intros _. repeat split; intros; lia.
      - rewrite rd32_eq by auto. assert (hasb mem (p + 8 + 4) 4 = hasb mem p 16) as -> by (apply eq_true_iff_eq; rewrite !hasb_spec; unfold has; lia).
        destruct (hasb mem p 16) eqn:X; cbn [sbind].
        + split; [|intros _; discriminate]. intros _. apply hasb_spec in X. repeat split; intros; try lia; apply X.
        + split; [congruence|]. intros (_ & _ & Y & _). exfalso. rewrite <- hasb_spec, X in Y. assert (false = true) by (apply Y; lia). discriminate. }
    destruct (h_type mem p =? 4) eqn:T4; [split; [|intros _; discriminate]; intros _; repeat split; intros; lia|].
    destruct (h_type mem p =? 6) eqn:T6.
    { unfold parse_ping. cbn [f_flags f_length]. destruct (negb (h_length mem p =? 4)) eqn:E; cbn [sbind]; [split; [|intros _; discriminate]; intros _; repeat split; intros; lia|].
      rewrite rd32_eq by auto. assert (hasb mem (p + 8) 4 = true) as -> by (rewrite !hasb_spec; unfold has; lia). cbn [sbind]. split; [|intros _; discriminate]. intros _. repeat split; intros; lia. }
    destruct (h_type mem p =? 7) eqn:T7.
    { unfold parse_goaway. cbn [f_flags f_length]. destruct (negb (h_length mem p =? 4)) eqn:E; cbn [sbind]; [split; [|intros _; discriminate]; intros _; repeat split; intros; lia|].
      rewrite rd32_eq by auto. assert (hasb mem (p + 8 + 4) 4 = hasb mem p 16) as -> by (apply eq_true_iff_eq; rewrite !hasb_spec; unfold has; lia).
      destruct (hasb mem p 16) eqn:X; cbn [sbind].
      + split; [|intros _; discriminate]. intros _. apply hasb_spec in X. repeat split; intros; try lia; apply X.
      + split; [congruence|]. intros (_ & _ & _ & Y). exfalso. rewrite <- hasb_spec, X in Y. assert (false = true) by (apply Y; lia). discriminate. }
    destruct (h_type mem p =? 9); [split; [|intros _; discriminate]; intros _; repeat split; intros; lia|].
    destruct (h_type mem p =? 10); (split; [|intros _; discriminate]); intros _; repeat split; intros; lia.
Qed.

Lemma ctl_first mem p : Forall is_byte mem -> has mem p 2 -> (field mem p 1 = 128 -> ctl mem p = true) /\ (field mem p 1 = 0 -> ctl mem p = false).
Proof. intros H P. destruct (first_of_two mem p H P) as (E & B1 & B2). unfold ctl. rewrite E. split; lia. Qed.

(** a call without assertions reads inside the packet and the buffer exactly under [inside] *)
Lemma parse_reads mem p len i d : Forall is_byte mem -> Forall cell_byte (d_buf d) -> zlib_ok inflate ->
  (parse inflate false mem p len i d <> SRead <-> inside inflate mem p d).
Proof.
  intros H B ZK. unfold parse, inside. rewrite rd8_eq, populate_eq by auto. rewrite <- (hasb_spec mem p 1). destruct (hasb mem p 1) eqn:E1; cbn [sbind]; [|split; [congruence|intros [X _]; discriminate]].
  destruct (field mem p 1 =? 128) eqn:F1; cbn [negb andb].
  - destruct (hasb mem p 2) eqn:E2; cbn [negb sbind]; [|split; [congruence|]; intros (_ & _ & X); destruct (X ltac:(lia)) as [X4 _]; apply hasb_spec in X4; pose proof (hasb_le _ _ _ p 2 X4 ltac:(lia)) as Y; apply hasb_spec in X4; unfold has in X4; rewrite E2 in Y; discriminate (Y ltac:(lia) ltac:(lia))].
    pose proof E2 as P2. apply hasb_spec in P2. destruct (ctl_first mem p H P2) as [C _]. rewrite C by lia. clear C. unfold has in P2.
    destruct (hasb mem p 4) eqn:E4; cbn [negb sbind]; [|split; [congruence|]; intros (_ & _ & X); destruct (X ltac:(lia)) as [X4 _]; apply hasb_spec in X4; congruence].
    pose proof E4 as P4. apply hasb_spec in P4.
    destruct (11 <=? h_type mem p) eqn:T; cbn [sbind]; [split; [|intros _; discriminate]; intros _; repeat split; intros; try lia; apply P4|].
    destruct (hasb mem p 12) eqn:E12; cbn [negb sbind]; [|split; [congruence|]; intros (_ & _ & X); destruct (X ltac:(lia)) as [_ X12]; destruct (X12 ltac:(lia)) as [Y _]; apply hasb_spec in Y; congruence].
    pose proof E12 as P12. apply hasb_spec in P12. cbn [f_version f_length f_control f_flags andb negb]. unfold MIN_SPDY_VERSION.
    destruct (3 <? h_version mem p) eqn:V.
    + split; [|intros _; discriminate]. intros _. split; auto. split; [intros; lia|]. intros _. split; auto. intros _. split; auto. intros. lia.
    + match goal with |- sbind (parse_body _ _ _ _ ?j _) _ <> _ <-> _ => pose proof (body_reads mem p j d H B ZK P12) as R; destruct (parse_body inflate mem (p + 8) _ j d) as [[[[e i3] d1] q]| |] end; cbn [sbind].
      * split; [|intros _; destruct e; discriminate]. intros _. split; auto. split; [intros; lia|]. intros _. split; auto. intros _. split; auto. intros _. apply R. discriminate.
      * split; [congruence|]. intros (_ & _ & X). destruct (X ltac:(lia)) as [_ X12]. destruct (X12 ltac:(lia)) as [_ Y]. exfalso. apply R; auto. apply Y. lia.
      * split; [|intros _; discriminate]. intros _. split; auto. split; [intros; lia|]. intros _. split; auto. intros _. split; auto. intros _. apply R. discriminate.
  - destruct (field mem p 1 =? 0) eqn:F0; cbn [negb andb]; [|split; [|intros _; discriminate]; intros _; repeat split; intros; lia].
    destruct (hasb mem p 2) eqn:E2; cbn [negb sbind].
    2: { split; [congruence|]. intros (_ & X & _). specialize (X ltac:(lia)). unfold has in X. assert (hasb mem p 2 = true) by (apply hasb_spec; unfold has; lia). congruence. }
    pose proof E2 as P2. apply hasb_spec in P2. destruct (ctl_first mem p H P2) as [_ C]. rewrite C by lia. clear C.
    destruct (hasb mem p 8) eqn:E8; cbn [negb sbind].
    2: { split; [congruence|]. intros (_ & X & _). specialize (X ltac:(lia)). apply hasb_spec in X. congruence. }
    cbn [f_version f_length f_control f_flags andb negb]. unfold parse_body. cbn [f_type Z.eqb]. apply hasb_spec in E8.
    change (MIN_SPDY_VERSION <? 0) with false. cbn iota. split; [|intros _; cbn; discriminate]. intros _. split; auto. split; [intros _; exact E8|intros; lia].
Qed.

Lemma parse_no_assert mem p len i d : Forall is_byte mem -> parse inflate false mem p len i d <> SAssert.
Proof.
  intros H. unfold parse. rewrite rd8_eq, populate_eq by auto. destruct (hasb mem p 1) eqn:E1; cbn [sbind]; [|discriminate].
  destruct (negb (field mem p 1 =? 128) && negb (field mem p 1 =? 0)); [discriminate|].
  destruct (hasb mem p 2); cbn [negb sbind]; [|discriminate]. destruct (ctl mem p).
  - destruct (hasb mem p 4); cbn [negb sbind]; [|discriminate]. destruct (11 <=? h_type mem p); cbn [sbind]; [discriminate|].
    destruct (hasb mem p 12) eqn:E12; cbn [negb sbind]; [|discriminate]. apply hasb_spec in E12. cbn [andb f_version f_length f_control f_flags].
    destruct (MIN_SPDY_VERSION <? h_version mem p); [discriminate|].
    match goal with |- sbind (parse_body _ _ _ _ ?j _) _ <> _ => pose proof (body_no_assert mem p j d _ H (or_introl eq_refl) (or_introl E12)) as R; destruct (parse_body inflate mem (p + 8) _ j d) as [[[[e i3] d1] q]| |] end; cbn [sbind]; try congruence.
    destruct e; discriminate.
  - destruct (hasb mem p 8); cbn [negb sbind]; [|discriminate]. cbn [f_version f_length f_control f_flags andb negb]. change (MIN_SPDY_VERSION <? 0) with false. cbn. discriminate.
Qed.
(** with assertions, only the one about the stream can fail *)
Lemma parse_assert mem p len i d : Forall is_byte mem ->
  (parse inflate true mem p len i d = SAssert <-> field mem p 1 = 0 /\ has mem p 8 /\ field mem p 4 = 0 \/ field mem p 1 = 128 /\ has mem p 12 /\ h_type mem p <= 10 /\ h_stream mem p = 0).
Proof.
  intros H. pose proof (parse_no_assert mem p len i d H) as N. unfold parse in *. rewrite rd8_eq, populate_eq in * by auto.
  destruct (hasb mem p 1) eqn:E1; cbn [sbind] in *. 2: { split; [discriminate|]. assert (~ has mem p 1) as X by (rewrite <- hasb_spec; congruence). unfold has in *. lia. }
  destruct (field mem p 1 =? 128) eqn:F1; cbn [negb andb] in *.
  - destruct (hasb mem p 2) eqn:E2; cbn [negb sbind] in *. 2: { split; [discriminate|]. assert (~ has mem p 2) as X by (rewrite <- hasb_spec; congruence). unfold has in *. lia. }
    pose proof E2 as P2. apply hasb_spec in P2. destruct (ctl_first mem p H P2) as [C _]. rewrite C in * by lia. clear C.
    destruct (hasb mem p 4) eqn:E4; cbn [negb sbind] in *. 2: { split; [discriminate|]. assert (~ has mem p 4) as X by (rewrite <- hasb_spec; congruence). unfold has in *. lia. }
    destruct (11 <=? h_type mem p) eqn:T; cbn [sbind] in *; [split; [discriminate|]; lia|].
    destruct (hasb mem p 12) eqn:E12; cbn [negb sbind] in *. 2: { split; [discriminate|]. assert (~ has mem p 12) as X by (rewrite <- hasb_spec; congruence). unfold has in *. lia. }
    destruct (h_stream mem p =? 0) eqn:S; cbn [andb] in *.
    + split; auto. intros _. right. apply hasb_spec in E12. repeat split; try lia; apply E12.
    + split; [contradiction|]. lia.
  - destruct (field mem p 1 =? 0) eqn:F0; cbn [negb andb] in *; [|split; [discriminate|]; lia].
    destruct (hasb mem p 2) eqn:E2; cbn [negb sbind] in *. 2: { split; [discriminate|]. assert (~ has mem p 2) as X by (rewrite <- hasb_spec; congruence). unfold has in *. lia. }
    pose proof E2 as P2. apply hasb_spec in P2. destruct (ctl_first mem p H P2) as [_ C]. rewrite C in * by lia. clear C.
    destruct (hasb mem p 8) eqn:E8; cbn [negb sbind] in *. 2: { split; [discriminate|]. assert (~ has mem p 8) as X by (rewrite <- hasb_spec; congruence). unfold has in *. lia. }
    destruct (field mem p 4 =? 0) eqn:S; cbn [andb] in *.
    + split; auto. intros _. left. apply hasb_spec in E8. repeat split; try lia; apply E8.
    + split; [contradiction|]. lia.
Qed.
Lemma parse_builds mem p len i d : parse inflate true mem p len i d = SAssert \/ parse inflate true mem p len i d = parse inflate false mem p len i d.
Proof.
  unfold parse. destruct (rd8 mem p); cbn [sbind]; auto. destruct (negb _ && negb _); auto. destruct (populate_frame mem p len i) as [[[f s i1 l1 p1]|]| |]; cbn [sbind andb]; auto. destruct (s =? 0); auto.
Qed.

(* ------------------------------------------------------------------ whole frames *)

Lemma bytes_mid mem a b c p n : mem = a ++ b ++ c -> p = zlen a -> n = zlen b -> has mem p n /\ bytes_at mem p n = b.
Proof.
  intros -> -> ->. split.
  - unfold has. rewrite !zlen_app. pose proof (zlen_nonneg a). pose proof (zlen_nonneg c). lia.
  - unfold bytes_at. replace (Z.to_nat (zlen a)) with (List.length a) by (unfold zlen; lia). rewrite skipn_app, skipn_all, Nat.sub_diag. cbn [app skipn].
    replace (Z.to_nat (zlen b)) with (List.length b + 0)%nat by (unfold zlen; lia). rewrite firstn_app_2. cbn [firstn]. apply app_nil_r.
Qed.
Lemma field_mid mem a b c p n : mem = a ++ b ++ c -> p = zlen a -> n = zlen b -> field mem p n = be_value b.
Proof. intros A B C. unfold field. destruct (bytes_mid mem a b c p n A B C) as [_ ->]. reflexivity. Qed.

(** the fields of a control frame at [zlen pre] *)
Lemma control_fields pre v t fl x post mem p : mem = pre ++ (be 2 (32768 + v) ++ be 2 t ++ be 1 fl ++ be 3 (zlen x) ++ x) ++ post -> p = zlen pre ->
  Forall is_byte mem -> 0 <= v <= 3 -> 0 <= t < 65536 -> is_byte fl -> 4 <= zlen x < 16777216 ->
  has mem p 12 /\ has mem p (8 + zlen x) /\ field mem p 1 = 128 /\ ctl mem p = true /\ h_version mem p = v /\ h_type mem p = t /\ h_flags mem p = fl /\ h_length mem p = zlen x
  /\ bytes_at mem (p + 8) (zlen x) = x /\ h_stream mem p = be_value (firstn 4 x) mod 2147483648.
Proof.
  intros E -> H V T FL L. unfold is_byte in FL. rewrite <- !app_assoc in E.
  pose proof (field_mid mem pre (be 2 (32768 + v)) _ (zlen pre) 2 E eq_refl (eq_sym (be_zlen 2 _))) as F0. rewrite be_small in F0 by (change (256 ^ Z.of_nat 2) with 65536; lia).
  destruct (bytes_mid mem pre (be 2 (32768 + v)) _ (zlen pre) 2 E eq_refl (eq_sym (be_zlen 2 _))) as [P2 _].
  pose proof E as E1. rewrite app_assoc in E1.
  assert (forall a, zlen (pre ++ be 2 (32768 + v) ++ a) = zlen pre + 2 + zlen a) as _ by (intros; rewrite !zlen_app, be_zlen; lia).
  pose proof (fun Q => field_mid mem (pre ++ be 2 (32768 + v)) (be 2 t) _ (zlen pre + 2) 2 E1 Q (eq_sym (be_zlen 2 _))) as F2. rewrite be_small in F2 by (change (256 ^ Z.of_nat 2) with 65536; lia).
  specialize (F2 ltac:(rewrite zlen_app, be_zlen; lia)).
  pose proof E1 as E2. rewrite app_assoc in E2.
  pose proof (fun Q => field_mid mem ((pre ++ be 2 (32768 + v)) ++ be 2 t) (be 1 fl) _ (zlen pre + 4) 1 E2 Q (eq_sym (be_zlen 1 _))) as F4. rewrite be_small in F4 by (change (256 ^ Z.of_nat 1) with 256; lia).
  specialize (F4 ltac:(rewrite !zlen_app, !be_zlen; lia)).
  pose proof E2 as E3. rewrite app_assoc in E3.
  pose proof (fun Q => field_mid mem (((pre ++ be 2 (32768 + v)) ++ be 2 t) ++ be 1 fl) (be 3 (zlen x)) _ (zlen pre + 5) 3 E3 Q (eq_sym (be_zlen 3 _))) as F5. rewrite be_small in F5 by (change (256 ^ Z.of_nat 3) with 16777216; lia).
  specialize (F5 ltac:(rewrite !zlen_app, !be_zlen; lia)).
  pose proof E3 as E4. rewrite app_assoc in E4.
  destruct (bytes_mid mem ((((pre ++ be 2 (32768 + v)) ++ be 2 t) ++ be 1 fl) ++ be 3 (zlen x)) x _ (zlen pre + 8) (zlen x) E4 ltac:(rewrite !zlen_app, !be_zlen; lia) eq_refl) as [P8 BX].
  unfold has in P8. pose proof (zlen_nonneg pre).
  assert (has mem (zlen pre) 12) as P12 by (unfold has; lia). split; [auto|]. split; [unfold has; lia|].
  destruct (first_of_two mem (zlen pre) H P2) as (Q & Q1 & Q2). rewrite F0 in Q. assert (field mem (zlen pre) 1 = 128) as FF by lia. split; [auto|].
  split; [unfold ctl; rewrite F0; lia|]. split; [unfold h_version; rewrite F0; replace (32768 + v) with (v + 1 * 32768) by lia; rewrite Z.mod_add by lia; apply Z.mod_small; lia|].
  split; [exact F2|]. split; [exact F4|]. split; [exact F5|]. split; [exact BX|].
  unfold h_stream. f_equal. unfold field. f_equal. rewrite <- BX at 1. unfold bytes_at. rewrite firstn_firstn. f_equal. change (Z.to_nat 4) with 4%nat. lia.
Qed.

Lemma wrap_len n : 8 <= n < 4294967296 -> wrap32 (wrap32 (wrap32 (n - 2) - 2) - 4) = n - 8.
Proof. intros H. unfold wrap32, two32. rewrite (Z.mod_small (n - 2)) by lia. rewrite (Z.mod_small (n - 2 - 2)) by lia. rewrite Z.mod_small by lia. lia. Qed.

(** what a call on a well-formed control or data frame does *)
Lemma parse_control asserts mem p len i d : Forall is_byte mem -> has mem p 12 -> field mem p 1 = 128 -> h_type mem p <= 10 -> h_version mem p <= 3 -> (asserts = true -> h_stream mem p <> 0) ->
  8 <= len < 4294967296 -> 
  let more := h_length mem p <? len - 8 in
  let chunk := if more then p + 8 + h_length mem p else p in
  let len2 := if more then wrap32 (len - 8 - h_length mem p) else len - 8 in
  parse inflate asserts mem p len i d =
  do (e, i3, d1, q) <- parse_body inflate mem (p + 8) (mkf true (h_version mem p) (h_type mem p) (h_flags mem p) (h_length mem p)) (after_header mem p i) d;
  match e with Some e => SOk (mkr TFalse (Some e) i3 len2 d1 q None) | None => SOk (mkr (if more then TIndet else TTrue) None i3 len2 d1 chunk (Some q)) end.
Proof.
  intros H P F T V A L. cbn zeta. unfold parse. rewrite rd8_eq, populate_eq by auto. unfold has in P.
  assert (hasb mem p 1 = true) as -> by (apply hasb_spec; unfold has; lia). assert (hasb mem p 2 = true) as -> by (apply hasb_spec; unfold has; lia).
  assert (hasb mem p 4 = true) as -> by (apply hasb_spec; unfold has; lia). assert (hasb mem p 12 = true) as -> by (apply hasb_spec; unfold has; lia).
  cbn [sbind negb]. rewrite F. cbn [Z.eqb Pos.eqb negb andb]. destruct (ctl_first mem p H ltac:(unfold has; lia)) as [C _]. rewrite C by auto. replace (11 <=? h_type mem p) with false by lia. cbn [sbind].
  rewrite wrap_len by auto. assert ((asserts && (h_stream mem p =? 0)) = false) as -> by (destruct asserts; cbn [andb]; auto; apply Z.eqb_neq; auto).
  cbn [f_version f_length f_control f_flags andb negb]. unfold MIN_SPDY_VERSION. replace (3 <? h_version mem p) with false by lia. reflexivity.
Qed.

Lemma inserts_find ps : forall h k, sorted h -> sm_find (inserts ps h) k = match sm_find h k with Some v => Some v | None => first_value ps k end.
Proof.
  induction ps as [|[n v] ps IH]; intros h k S; cbn [inserts fold_left first_value fst snd].
  - destruct (sm_find h k); auto.
  - fold (inserts ps (sm_insert h n v)). rewrite IH by (apply sm_insert_sorted; auto). rewrite sm_find_insert by auto. destruct (list_eq_dec Z.eq_dec n k) as [->|N].
    + rewrite str_eqb_refl. destruct (sm_find h k); auto.
    + assert (str_eqb n k = false) as -> by (apply str_eqb_neq; auto). auto.
Qed.
Lemma enc_length f : zlen (enc f) = 8 + zlen (payload_of f).
Proof. unfold enc. destruct f; rewrite !zlen_app, !be_zlen; lia. Qed.

Lemma odd_flag fl : negb (Z.land fl 1 =? 0) = Z.odd fl.
Proof. change 1 with (Z.ones 1). rewrite Z.land_ones by lia. change (2 ^ 1) with 2. rewrite Zmod_odd. destruct (Z.odd fl); reflexivity. Qed.

Lemma frame_step asserts mem pre f post d fs : mem = pre ++ enc f ++ post -> Forall is_byte mem -> wf asserts f -> zlen (enc f ++ post) < 4294967296 ->
  sent inflate (d_request d) (d_response d) (f :: fs) ->
  exists r, parse inflate asserts mem (zlen pre) (zlen (enc f ++ post)) info_init d = SOk r /\ told mem f r
  /\ (post = [] -> r_value r = TTrue) /\ (post <> [] -> r_value r = TIndet /\ r_read r = zlen pre + zlen (enc f) /\ r_len r = zlen post)
  /\ sent inflate (d_request (r_dec r)) (d_response (r_dec r)) fs.
Proof.
  intros E H W L SN. pose proof (zlen_nonneg pre) as NP. pose proof (zlen_nonneg post) as NQ. rewrite zlen_app, enc_length in *. destruct W as (B & N & W). pose proof (zlen_nonneg (payload_of f)) as NF.
  assert (forall k : Z, (zlen (payload_of f) <? 8 + zlen (payload_of f) + zlen post - 8) = (0 <? zlen post)) as MORE by (intros; lia).
  assert (post = [] \/ post <> [] /\ 0 < zlen post) as PC by (destruct post; [left; auto|right; split; [discriminate|rewrite zlen_cons; pose proof (zlen_nonneg post); lia]]).
  destruct f as [s fl x|t v fl s x ps z|t v fl x]; cbn [payload_of] in *.
  - (* data *)
    destruct W as (S & FL & A). unfold is_byte in FL. unfold enc in E. cbn [payload_of] in E. rewrite <- !app_assoc in E.
    pose proof (field_mid mem pre (be 4 s) _ (zlen pre) 4 E eq_refl (eq_sym (be_zlen 4 _))) as F0. rewrite be_small in F0 by (change (256 ^ Z.of_nat 4) with 4294967296; lia).
    pose proof E as E2. rewrite app_assoc in E2.
    pose proof (fun Q => field_mid mem (pre ++ be 4 s) (be 1 fl) _ (zlen pre + 4) 1 E2 Q (eq_sym (be_zlen 1 _))) as F4. rewrite be_small in F4 by (change (256 ^ Z.of_nat 1) with 256; lia).
    specialize (F4 ltac:(rewrite !zlen_app, !be_zlen; lia)).
    pose proof E2 as E3. rewrite app_assoc in E3.
    pose proof (fun Q => field_mid mem ((pre ++ be 4 s) ++ be 1 fl) (be 3 (zlen x)) _ (zlen pre + 5) 3 E3 Q (eq_sym (be_zlen 3 _))) as F5. rewrite be_small in F5 by (change (256 ^ Z.of_nat 3) with 16777216; lia).
    specialize (F5 ltac:(rewrite !zlen_app, !be_zlen; lia)).
    pose proof E3 as E4. rewrite app_assoc in E4.
    destruct (bytes_mid mem (((pre ++ be 4 s) ++ be 1 fl) ++ be 3 (zlen x)) x _ (zlen pre + 8) (zlen x) E4 ltac:(rewrite !zlen_app, !be_zlen; lia) eq_refl) as [P8 BX].
    pose proof P8 as P8'. unfold has in P8'.
    assert (has mem (zlen pre) 8) as P by (unfold has; lia).
    assert (field mem (zlen pre) 1 = 0) as FF.
    { change 4 with (1 + 3) in F0. rewrite field_split in F0 by (unfold has; lia). change (256 ^ 3) with 16777216 in F0.
      pose proof (field_bound mem (zlen pre) 1 H ltac:(unfold has; lia) ltac:(lia)). pose proof (field_bound mem (zlen pre + 1) 3 H ltac:(unfold has; lia) ltac:(lia)). lia. }
    fold (h_length mem (zlen pre)) in F5. fold (h_flags mem (zlen pre)) in F4.
    unfold parse. rewrite rd8_eq, populate_eq by auto.
    assert (hasb mem (zlen pre) 1 = true) as -> by (apply hasb_spec; unfold has; lia). assert (hasb mem (zlen pre) 2 = true) as -> by (apply hasb_spec; unfold has; lia).
    assert (hasb mem (zlen pre) 8 = true) as -> by (apply hasb_spec; unfold has; lia). cbn [sbind negb]. rewrite FF. cbn [Z.eqb negb andb].
    destruct (ctl_first mem (zlen pre) H ltac:(unfold has; lia)) as [_ C]. rewrite C by auto. cbn [sbind]. rewrite wrap_len by lia. rewrite F0, F4, F5.
    assert ((asserts && (s =? 0)) = false) as -> by (destruct asserts; cbn [andb]; auto; apply Z.eqb_neq; auto).
    cbn [f_version f_length f_control f_flags andb negb]. change (MIN_SPDY_VERSION <? 0) with false. cbn iota. rewrite odd_flag, (MORE 0).
    unfold parse_body. cbn [f_type Z.eqb]. change (SPDY_DATA =? SPDY_SYN_STREAM) with false. cbn [sbind]. unfold SPDY_SYN_STREAM, SPDY_SYN_REPLY, SPDY_DATA, SPDY_HEADERS, SPDY_RST_STREAM, SPDY_SETTINGS, SPDY_PING, SPDY_GOAWAY, SPDY_WINDOW_UPDATE, SPDY_CREDENTIAL. cbn [Z.eqb orb sbind].
    eexists. split; [reflexivity|]. unfold told. cbn [r_error r_info r_value r_read r_len r_dec r_content payload_of].
    split; [|split; [|split]].
    + split; auto. split; [destruct (Z.odd fl); exact F5|]. destruct (Z.odd fl); repeat split; auto; exists (zlen pre + 8); repeat split; auto; apply P8.
    + intros ->. reflexivity.
    + intros NE. destruct PC as [PC|[_ PC]]; [contradiction|]. replace (0 <? zlen post) with true by lia. split; auto. split; [lia|]. unfold wrap32, two32. rewrite Z.mod_small by lia. lia.
    + inversion SN; subst; auto.
  - (* header block *)
    destruct W as (T & V & FL & S & BK & BL & A).
    assert (0 <= t < 65536) as TB by lia. assert (4 <= zlen (be 4 s ++ x ++ z)) as PL by (rewrite zlen_app, be_zlen; pose proof (zlen_nonneg (x ++ z)); lia).
    assert (E' : mem = pre ++ (be 2 (32768 + v) ++ be 2 t ++ be 1 fl ++ be 3 (zlen (be 4 s ++ x ++ z)) ++ be 4 s ++ x ++ z) ++ post).
    { rewrite E. unfold enc. cbn [payload_of]. rewrite <- !app_assoc. reflexivity. }
    destruct (control_fields pre v t fl (be 4 s ++ x ++ z) post mem (zlen pre) E' eq_refl H V TB FL ltac:(lia)) as (P12 & PX & FF & C & HV & HT & HF & HL & HX & HS).
    assert (h_stream mem (zlen pre) = s) as HS'.
    { rewrite HS. change (firstn 4 (be 4 s ++ x ++ z)) with (be 4 s). rewrite be_small by (change (256 ^ Z.of_nat 4) with 4294967296; lia). apply Z.mod_small. lia. }
    rewrite parse_control; auto; try lia; try (intros X; rewrite HS'; solve [auto]).
    rewrite HL, (MORE 0). unfold parse_body. rewrite HT, HF, HV. unfold SPDY_SYN_STREAM, SPDY_SYN_REPLY, SPDY_HEADERS. cbn [f_type].
    assert ((t =? 1) || (t =? 2) || (t =? 8) = true) as -> by lia.
    rewrite payload_eq; auto; [|rewrite HT, HF, HV, HL; reflexivity|rewrite HT; lia]. rewrite HT, HS'. cbn zeta.
    set (k := if t =? 1 then 10 else 6). assert (k = 4 + zlen x) as K by (unfold k; destruct T as [[-> ->]|[[-> | ->] ->]]; reflexivity).
    assert (hlen_of mem (zlen pre) k = zlen z) as HH. { unfold hlen_of. rewrite HL, K, !zlen_app, be_zlen. replace (Z.of_nat 4 + (zlen x + zlen z) - (4 + zlen x)) with (zlen z) by lia. apply Z.mod_small. rewrite !zlen_app, be_zlen in N. pose proof (zlen_nonneg z). pose proof (zlen_nonneg x). lia. }
    assert (EZ : mem = (pre ++ be 2 (32768 + v) ++ be 2 t ++ be 1 fl ++ be 3 (zlen (be 4 s ++ x ++ z)) ++ be 4 s ++ x) ++ z ++ post) by (rewrite E'; rewrite <- !app_assoc; reflexivity).
    destruct (bytes_mid mem _ z post (zlen pre + 8 + k) (zlen z) EZ ltac:(rewrite !zlen_app, !be_zlen, K; lia) eq_refl) as [PZ BZ].
    rewrite HH. apply hasb_spec in PZ. rewrite PZ, BZ.
    assert (exists s', inflate (context d t s) z = (s', block_of ps, true) /\ sent inflate (d_request (after_block d t s s' (block_of ps))) (d_response (after_block d t s s' (block_of ps))) fs) as (s' & EI & SN').
    { inversion SN as [| | |a b a' ? ? ? ? ? ? ? OD IN SN1|a b b' ? ? ? ? ? ? ? ? OD IN SN1]; subst; unfold context, after_block.
      - rewrite OD. cbn [Z.eqb Pos.eqb andb]. eauto.
      - assert ((t =? 1) && (s mod 2 =? 1) = false) as -> by (destruct (t =? 1) eqn:T1; cbn [andb]; auto; destruct (s mod 2 =? 1) eqn:T2; auto; exfalso; apply OD; split; lia). eauto. }
    rewrite EI. unfold written. rewrite read_block_some by auto. cbn [sbind].
    eexists. split; [reflexivity|]. unfold told. cbn [r_error r_info r_value r_read r_len r_dec r_content payload_of].
    split; [|split; [|split]]; auto.
    + split; auto. split; [destruct (t =? 1), (t =? 2), (t =? SPDY_DATA); exact HL|].
      assert ((t =? SPDY_DATA) = false) as TD by (unfold SPDY_DATA; lia). rewrite TD. split; [destruct (t =? 1), (t =? 2); reflexivity|].
      split; [reflexivity|]. split; [destruct (t =? 1), (t =? 2); reflexivity|]. intros q.
      assert (forall (A B C : info), i_headers A = [] -> i_headers B = [] -> i_headers C = [] -> i_headers (if t =? 1 then A else if t =? 2 then B else C) = []) as IH by (intros; destruct (t =? 1), (t =? 2); auto).
      cbn [i_headers set_i_headers]. rewrite (IH (set_i_type HTTP_REQUEST (after_header mem (zlen pre) info_init)) (set_i_type HTTP_RESPONSE (after_header mem (zlen pre) info_init)) (after_header mem (zlen pre) info_init)) by reflexivity.
      rewrite inserts_find by exact Logic.I. reflexivity.
    + intros ->. reflexivity.
    + intros NE. destruct PC as [PC|[_ PC]]; [contradiction|]. replace (0 <? zlen post) with true by lia. split; auto. split; [lia|]. unfold wrap32, two32. rewrite Z.mod_small by lia. lia.
  - (* other *)
    destruct W as (T & V & FL & G & PL & A).
    assert (0 <= t < 65536) as TB by lia.
    assert (E' : mem = pre ++ (be 2 (32768 + v) ++ be 2 t ++ be 1 fl ++ be 3 (zlen x) ++ x) ++ post).
    { rewrite E. unfold enc. cbn [payload_of]. rewrite <- !app_assoc. reflexivity. }
    destruct (control_fields pre v t fl x post mem (zlen pre) E' eq_refl H V TB FL ltac:(lia)) as (P12 & PX & FF & C & HV & HT & HF & HL & HX & HS).
    rewrite parse_control; auto; try lia; try (intros X; rewrite HS; solve [auto]).
    rewrite HL, (MORE 0). unfold has in PX.
    assert (exists q, parse_body inflate mem (zlen pre + 8) (mkf true (h_version mem (zlen pre)) (h_type mem (zlen pre)) (h_flags mem (zlen pre)) (zlen x)) (after_header mem (zlen pre) info_init) d
      = SOk (None, set_i_type SPDY_CONTROL (after_header mem (zlen pre) info_init), d, q)) as (q & ->).
    { rewrite HT, HF, HV. unfold parse_body. cbn [f_type].
      destruct T as [-> |[-> |[-> |[-> |[-> | ->]]]]]; cbn [Z.eqb Pos.eqb orb SPDY_DATA SPDY_SYN_STREAM SPDY_SYN_REPLY SPDY_HEADERS SPDY_RST_STREAM SPDY_SETTINGS SPDY_PING SPDY_GOAWAY SPDY_WINDOW_UPDATE SPDY_CREDENTIAL].
      - unfold parse_rst_stream. cbn [f_flags f_length]. destruct (negb (fl =? 0) || negb (zlen x =? 8)) eqn:X; cbn [sbind]; [eauto|].
        rewrite rd32_eq by auto. assert (hasb mem (zlen pre + 8 + 4) 4 = true) as -> by (apply hasb_spec; unfold has; lia). cbn [sbind]. eauto.
      - eauto.
      - unfold parse_ping. cbn [f_flags f_length]. destruct (negb (zlen x =? 4)) eqn:X; cbn [sbind]; [eauto|].
        rewrite rd32_eq by auto. assert (hasb mem (zlen pre + 8) 4 = true) as -> by (apply hasb_spec; unfold has; lia). cbn [sbind]. eauto.
      - unfold parse_goaway. cbn [f_flags f_length]. rewrite G by auto. cbn [Z.eqb Pos.eqb negb sbind]. eauto.
      - eauto.
      - eauto. }
    cbn [sbind]. eexists. split; [reflexivity|]. unfold told. cbn [r_error r_info r_value r_read r_len r_dec r_content payload_of].
    split; [split; auto|split; [|split]].
    + intros ->. reflexivity.
    + intros NE. destruct PC as [PC|[_ PC]]; [contradiction|]. replace (0 <? zlen post) with true by lia. split; auto. split; [lia|]. unfold wrap32, two32. rewrite Z.mod_small by lia. lia.
    + inversion SN; subst; auto.
Qed.

Lemma enc_nonempty f : enc f <> [].
Proof. intros X. pose proof (enc_length f). rewrite X, zlen_nil in H. pose proof (zlen_nonneg (payload_of f)). lia. Qed.

Lemma all_frames asserts mem fs : forall pre d n, fs <> [] -> mem = pre ++ concat (map enc fs) -> Forall is_byte mem -> Forall (wf asserts) fs -> zlen mem < 4294967296 ->
  sent inflate (d_request d) (d_response d) fs -> (List.length fs <= n)%nat ->
  exists rs, parse_all inflate n asserts mem (zlen pre) (zlen (concat (map enc fs))) d = SOk rs /\ Forall2 (told mem) fs rs /\ in_progress rs.
Proof.
  induction fs as [|f fs IH]; intros pre d n NE E H W L SN LE; [congruence|]. inversion W as [|? ? Wf W']; subst x l. cbn [map concat] in *. destruct n as [|n]; [cbn in LE; lia|]. cbn [parse_all].
  destruct (frame_step asserts mem pre f (concat (map enc fs)) d fs E H Wf) as (r & P & T & V0 & V1 & SN'); auto.
  { rewrite E in L. rewrite zlen_app in L. pose proof (zlen_nonneg pre). lia. }
  rewrite P. cbn [sbind]. destruct fs as [|f2 fs].
  - rewrite (V0 eq_refl). exists [r]. split; auto. split; [constructor; auto|]. cbn. auto.
  - destruct V1 as (V1 & V2 & V3). { cbn [map concat]. pose proof (enc_nonempty f2). destruct (enc f2); [congruence|discriminate]. }
    rewrite V1, V2, V3. destruct (IH (pre ++ enc f) (r_dec r) n) as (rs & P2 & T2 & V4); auto; [discriminate|rewrite <- app_assoc; auto|cbn [List.length] in *; lia|].
    rewrite zlen_app in P2. rewrite P2. cbn [sbind]. exists (r :: rs). split; auto. split; [constructor; auto|]. inversion T2; subst. cbn. auto.
Qed.

(** what a call that returns leaves, in terms of the fields *)
Lemma parse_result asserts mem p len i d r : Forall is_byte mem -> parse inflate asserts mem p len i d = SOk r ->
  r_value r = TFalse /\ r_error r <> None \/
  r_error r = None /\ has mem p 8 /\
  let len1 := wrap32 (wrap32 (wrap32 (len - 2) - 2) - 4) in
  (r_value r = TIndet /\ h_length mem p < len1 /\ r_read r = p + 8 + h_length mem p /\ r_len r = wrap32 (len1 - h_length mem p)
   \/ r_value r = TTrue /\ len1 <= h_length mem p /\ r_read r = p /\ r_len r = len1)
  /\ (field mem p 1 = 0 /\ i_type (r_info r) = HTTP_DATA /\ r_content r = Some (p + 8) /\ i_size (r_info r) = h_length mem p
      \/ field mem p 1 = 128 /\ has mem p 12 /\ h_type mem p <= 10 /\ h_version mem p <= 3
         /\ exists q, parse_body inflate mem (p + 8) (mkf true (h_version mem p) (h_type mem p) (h_flags mem p) (h_length mem p)) (after_header mem p i) d = SOk (None, r_info r, r_dec r, q)).
Proof.
  intros H E. unfold parse in E. rewrite rd8_eq, populate_eq in E by auto. destruct (hasb mem p 1) eqn:E1; cbn [sbind] in E; [|discriminate].
  destruct (field mem p 1 =? 128) eqn:F1; cbn [negb andb] in E.
  - destruct (hasb mem p 2) eqn:E2; cbn [negb sbind] in E; [|discriminate]. pose proof E2 as P2. apply hasb_spec in P2. destruct (ctl_first mem p H P2) as [C _]. rewrite C in E by lia. clear C.
    destruct (hasb mem p 4); cbn [negb sbind] in E; [|discriminate]. destruct (11 <=? h_type mem p) eqn:T; cbn [sbind] in E; [injection E as <-; left; cbn; split; [auto|discriminate]|].
    destruct (hasb mem p 12) eqn:E12; cbn [negb sbind] in E; [|discriminate]. apply hasb_spec in E12. unfold has in E12. destruct (asserts && (h_stream mem p =? 0)); [discriminate|].
    cbn [f_version f_length f_control f_flags andb negb] in E. unfold MIN_SPDY_VERSION in E. destruct (3 <? h_version mem p) eqn:V; [injection E as <-; left; cbn; split; [auto|discriminate]|].
    destruct (parse_body inflate mem (p + 8) _ (after_header mem p i) d) as [[[[e i3] d1] q]| |] eqn:PB; cbn [sbind] in E; try discriminate. destruct e as [e|]; injection E as <-; [left; cbn; split; [auto|discriminate]|].
    right. cbn [r_error r_value r_read r_len r_info r_dec]. split; auto. split; [unfold has; lia|]. split.
    + destruct (h_length mem p <? _) eqn:M; [left|right]; repeat split; auto; lia.
    + right. repeat split; try lia. exists q. reflexivity.
  - destruct (field mem p 1 =? 0) eqn:F0; cbn [negb andb] in E; [|injection E as <-; left; cbn; split; [auto|discriminate]].
    destruct (hasb mem p 2) eqn:E2; cbn [negb sbind] in E; [|discriminate]. pose proof E2 as P2. apply hasb_spec in P2. destruct (ctl_first mem p H P2) as [_ C]. rewrite C in E by lia. clear C.
    destruct (hasb mem p 8) eqn:E8; cbn [negb sbind] in E; [|discriminate]. apply hasb_spec in E8. destruct (asserts && (field mem p 4 =? 0)); [discriminate|].
    cbn [f_version f_length f_control f_flags andb negb] in E. change (MIN_SPDY_VERSION <? 0) with false in E. cbn iota in E. unfold parse_body in E. cbn [f_type] in E.
    unfold SPDY_SYN_STREAM, SPDY_SYN_REPLY, SPDY_DATA, SPDY_HEADERS, SPDY_RST_STREAM, SPDY_SETTINGS, SPDY_PING, SPDY_GOAWAY, SPDY_WINDOW_UPDATE, SPDY_CREDENTIAL in E. cbn [Z.eqb orb sbind] in E. injection E as <-.
    right. cbn [r_error r_value r_read r_len r_info r_dec r_content]. split; auto. split; auto. split.
    + destruct (h_length mem p <? _) eqn:M; [left|right]; repeat split; auto; lia.
    + left. repeat split; try lia. destruct (negb (Z.land (h_flags mem p) 1 =? 0)); reflexivity.
Qed.

(** the body, by type *)
Lemma body_result mem p i d i' d' q : Forall is_byte mem -> has mem p 12 ->
  parse_body inflate mem (p + 8) (mkf true (h_version mem p) (h_type mem p) (h_flags mem p) (h_length mem p)) i d = SOk (None, i', d', q) ->
  let t := h_type mem p in
  i_type i' = (if t =? 1 then HTTP_REQUEST else if t =? 2 then HTTP_RESPONSE else if t =? 0 then HTTP_DATA
               else if (t =? 3) || (t =? 4) || (t =? 6) || (t =? 7) || (t =? 9) || (t =? 10) then SPDY_CONTROL else i_type i)
  /\ (t = 1 \/ t = 2 \/ t = 8 -> exists s out h,
        let k := if t =? 1 then 10 else 6 in
        inflate (context d t (h_stream mem p)) (bytes_at mem (p + 8 + k) ((h_length mem p - k) mod 4294967296)) = (s, out, true)
        /\ d_buf d' = written (d_buf d) out /\ read_block (written (d_buf d) out) (i_headers i) = SOk h /\ i_headers i' = h /\ i_stream i' = h_stream mem p)
  /\ (t <> 1 -> t <> 2 -> t <> 8 -> d' = d /\ i_headers i' = i_headers i).
Proof.
  intros H P E. unfold parse_body in E. unfold SPDY_SYN_STREAM, SPDY_SYN_REPLY, SPDY_DATA, SPDY_HEADERS, SPDY_RST_STREAM, SPDY_SETTINGS, SPDY_PING, SPDY_GOAWAY, SPDY_WINDOW_UPDATE, SPDY_CREDENTIAL in E. cbn [f_type] in E. cbn zeta.
  destruct ((h_type mem p =? 1) || (h_type mem p =? 2) || (h_type mem p =? 8)) eqn:T.
  - rewrite payload_eq in E by (auto; lia). cbn zeta in E. fold (hlen_of mem p (if h_type mem p =? 1 then 10 else 6)). destruct (hasb mem _ _); [|discriminate].
    destruct (inflate _ _) as [[s out] ok] eqn:F. destruct ok; [|discriminate]. apply sbind_ok in E as (h & R & E). injection E as <- <- _.
    assert (i_headers (if h_type mem p =? 1 then set_i_type HTTP_REQUEST i else if h_type mem p =? 2 then set_i_type HTTP_RESPONSE i else if h_type mem p =? 0 then set_i_type HTTP_DATA i else i) = i_headers i) as HI.
    { destruct (h_type mem p =? 1), (h_type mem p =? 2), (h_type mem p =? 0); reflexivity. }
    rewrite HI in R. split; [|split; [|lia]].
    + destruct (h_type mem p =? 1) eqn:T1; [reflexivity|]. destruct (h_type mem p =? 2) eqn:T2; [reflexivity|]. assert (h_type mem p = 8) as -> by lia. reflexivity.
    + intros _. exists s, out, h. split; auto. split; [unfold after_block; destruct (_ && _); reflexivity|]. repeat split; auto.
  - assert (forall (X : sres Z) j, sbind X (fun q => SOk (@None serr, j, d, q)) = SOk (None, i', d', q) -> i' = j /\ d' = d) as K.
    { intros X j Y. apply sbind_ok in Y as (q0 & _ & Y). injection Y as <- <- _. auto. }
    destruct (h_type mem p =? 1) eqn:T1; [lia|]. destruct (h_type mem p =? 2) eqn:T2; [lia|]. cbn [orb].
    destruct (h_type mem p =? 3) eqn:T3; [destruct (h_type mem p =? 0) eqn:T0; [lia|]; cbn [orb]; destruct (K _ _ E) as (-> & ->); split; auto; split; [lia|]; auto|].
    destruct (h_type mem p =? 4) eqn:T4; [destruct (h_type mem p =? 0) eqn:T0; [lia|]; cbn [orb]; injection E as <- <- _; split; auto; split; [lia|]; auto|].
    destruct (h_type mem p =? 6) eqn:T6; [destruct (h_type mem p =? 0) eqn:T0; [lia|]; cbn [orb]; destruct (K _ _ E) as (-> & ->); split; auto; split; [lia|]; auto|].
    destruct (h_type mem p =? 7) eqn:T7.
    { destruct (h_type mem p =? 0) eqn:T0; [lia|]. cbn [orb]. apply sbind_ok in E as ([e q0] & _ & Y). injection Y as -> <- <- _. split; auto. split; [lia|]. auto. }
    destruct (h_type mem p =? 9) eqn:T9; [destruct (h_type mem p =? 0) eqn:T0; [lia|]; cbn [orb]; injection E as <- <- _; split; auto; split; [lia|]; auto|].
    destruct (h_type mem p =? 10) eqn:T10; [destruct (h_type mem p =? 0) eqn:T0; [lia|]; cbn [orb]; injection E as <- <- _; split; auto; split; [lia|]; auto|].
    injection E as <- <- _. destruct (h_type mem p =? 0); (split; [reflexivity|split; [lia|auto]]).
Qed.

(** the buffer after a call *)
Definition wrote (d d' : dec I) : Prop := d' = d \/ exists c z s out ok, inflate c z = (s, out, ok) /\ d_buf d' = written (d_buf d) out.
Lemma decompress_wrote mem p stream type n d d' ok : decompress inflate mem p stream type n d = SOk (d', ok) -> wrote d d'.
Proof.
  unfold decompress. intros E. apply sbind_ok in E as (z & _ & E). destruct (_ && _).
  - destruct (inflate (d_request d) z) as [[s out] k] eqn:F. injection E as <- _. right. exists (d_request d), z, s, out, k. auto.
  - destruct (_ || _); [|discriminate]. destruct (inflate (d_response d) z) as [[s out] k] eqn:F. injection E as <- _. right. exists (d_response d), z, s, out, k. auto.
Qed.
Lemma payload_wrote mem p f i d e i' d' q : parse_header_payload inflate mem p f i d = SOk (e, i', d', q) -> wrote d d'.
Proof.
  unfold parse_header_payload. intros E. apply sbind_ok in E as (s4 & _ & E). destruct (negb _); [injection E as _ _ <- _; left; auto|].
  apply sbind_ok in E as ([d1 ok] & D & E). apply decompress_wrote in D. destruct ok; cbn [negb] in E; [|injection E as _ _ <- _; auto].
  apply sbind_ok in E as (n & _ & E). apply sbind_ok in E as (h & _ & E). injection E as _ _ <- _. auto.
Qed.
Lemma body_wrote mem p f i d e i' d' q : parse_body inflate mem p f i d = SOk (e, i', d', q) -> wrote d d'.
Proof.
  unfold parse_body. intros E. destruct (_ || _); [eapply payload_wrote; exact E|].
  destruct (f_type f =? SPDY_RST_STREAM); [apply sbind_ok in E as (? & _ & E); injection E as _ _ <- _; left; auto|].
  destruct (f_type f =? SPDY_SETTINGS); [injection E as _ _ <- _; left; auto|].
  destruct (f_type f =? SPDY_PING); [apply sbind_ok in E as (? & _ & E); injection E as _ _ <- _; left; auto|].
  destruct (f_type f =? SPDY_GOAWAY); [apply sbind_ok in E as ([? ?] & _ & E); injection E as _ _ <- _; left; auto|].
  destruct (f_type f =? SPDY_WINDOW_UPDATE); [injection E as _ _ <- _; left; auto|].
  destruct (f_type f =? SPDY_CREDENTIAL); injection E as _ _ <- _; left; auto.
Qed.
Lemma parse_wrote asserts mem p len i d r : parse inflate asserts mem p len i d = SOk r -> wrote d (r_dec r).
Proof.
  unfold parse. intros E. apply sbind_ok in E as (b & _ & E). destruct (negb _ && negb _); [injection E as <-; left; auto|].
  apply sbind_ok in E as ([[f st i1 l1 p1]|] & _ & E); [|injection E as <-; left; auto]. destruct (asserts && _); [discriminate|].
  destruct (MIN_SPDY_VERSION <? f_version f); [injection E as <-; left; auto|]. apply sbind_ok in E as ([[[e i3] d1] q] & B & E). apply body_wrote in B. destruct e; injection E as <-; auto.
Qed.
Lemma wrote_ok d d' : zlib_ok inflate -> buf_ok (d_buf d) -> wrote d d' -> buf_ok (d_buf d').
Proof.
  intros ZK [BL BB] [-> |(c & z & s & out & ok & F & ->)]; [split; auto|]. destruct (ZK _ _ _ _ _ F) as [OB OL]. split; [|apply written_bytes; auto].
  unfold written. unfold zlen in *. rewrite app_length, map_length, skipn_length. lia.
Qed.
End Zlib.

(** a block is determined by any buffer that begins with it *)
Lemma app_split {A} (a b a' b' : list A) : a ++ b = a' ++ b' -> List.length a = List.length a' -> a = a' /\ b = b'.
Proof. revert a'. induction a as [|x a IH]; intros [|y a'] E L; cbn in *; try discriminate; auto. injection E as -> E. destruct (IH a' E ltac:(lia)) as [-> ->]. auto. Qed.
Lemma some_split (a a' : list Z) b b' : map Some a ++ b = map Some a' ++ b' -> zlen a = zlen a' -> a = a' /\ b = b'.
Proof.
  intros E L. destruct (app_split _ _ _ _ E ltac:(rewrite !map_length; unfold zlen in L; lia)) as [X Y]. split; auto. clear - X. revert a' X. induction a as [|x a IH]; intros [|y a'] X; try discriminate; auto. injection X as -> X. f_equal. auto.
Qed.
Lemma be2_inj a b : 0 <= a < 65536 -> 0 <= b < 65536 -> be 2 a = be 2 b -> a = b.
Proof. intros A B E. rewrite <- (be2_value a), <- (be2_value b) by auto. rewrite E. reflexivity. Qed.
Lemma pairs_prefix ps : forall qs rest tail, List.length ps = List.length qs -> Forall pair_ok ps -> Forall pair_ok qs ->
  map Some (concat (map pair_bytes ps)) ++ rest = map Some (concat (map pair_bytes qs)) ++ tail -> ps = qs.
Proof.
  induction ps as [|[n v] ps IH]; intros [|[n' v'] qs] rest tail L F G E; try discriminate; auto. inversion F as [|? ? (_ & _ & H1 & H2) F']; subst. inversion G as [|? ? (_ & _ & H3 & H4) G']; subst. cbn [fst snd] in *.
  cbn [map concat] in E. unfold pair_bytes in E. cbn [fst snd] in E. rewrite !map_app, <- !app_assoc in E.
  pose proof (zlen_nonneg n). pose proof (zlen_nonneg v). pose proof (zlen_nonneg n'). pose proof (zlen_nonneg v').
  apply some_split in E as [E1 E]; [|rewrite !be_zlen; auto]. apply be2_inj in E1; try lia.
  apply some_split in E as [E2 E]; auto. apply some_split in E as [E3 E]; [|rewrite !be_zlen; auto]. apply be2_inj in E3; try lia. apply some_split in E as [E4 E]; auto. subst. f_equal. eapply IH; eauto.
Qed.
Lemma block_prefix ps qs rest tail : block_ok ps -> block_ok qs -> map Some (block_of qs) ++ tail = map Some (block_of ps) ++ rest -> ps = qs.
Proof.
  intros [F L] [G K] E. unfold block_of in E. rewrite !map_app, <- !app_assoc in E. apply some_split in E as [E1 E]; [|rewrite !be_zlen; auto]. pose proof (zlen_nonneg ps). pose proof (zlen_nonneg qs).
  apply be2_inj in E1; try lia. eapply pairs_prefix; eauto. unfold zlen in E1. lia.
Qed.
