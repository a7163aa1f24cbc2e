(** Basic lemmas about the HTTP parser model: one round of the parse loop and how it splits over buffers. *)
From Coq Require Import String ZArith List Lia Bool.
From Coq Require Import ZifyBool ZifyNat.
From Verif Require Import Base Digits AlgModel FormModel DictModel MultipartModel HttpModel.
Import ListNotations.

Lemma wrap64_add a b : wrap64 (wrap64 a + b) = wrap64 (a + b).
Proof. unfold wrap64. apply Zplus_mod_idemp_l. Qed.
Lemma wrap64_id a : 0 <= a < two64 -> wrap64 a = a.
Proof. apply Z.mod_small. Qed.
Lemma wrap64_range a : 0 <= wrap64 a < two64.
Proof. unfold wrap64, two64. apply Z.mod_pos_bound. lia. Qed.

Lemma skipn_skipn {A} (n m : nat) (l : list A) : skipn n (skipn m l) = skipn (m + n) l.
Proof. revert l; induction m as [|m IH]; intros l; cbn [skipn Nat.add]; auto. destruct l; auto. now rewrite skipn_nil. Qed.

(** Projection that forgets the counters which legitimately depend on the segmentation. *)
Definition zap (rc : tri) (st : pst) : pst :=
  match rc with
  | TFalse => set_p_last 0 (set_p_total 0 (set_p_content_read 0 st))
  | _ => set_p_last 0 st
  end.
Definition obs_sub (r : sub (pst * msg)) := (s_rc r, s_err r, zap (s_rc r) (fst (s_st r)), snd (s_st r), s_rest r).
Definition obs_o {A B} (f : A -> B) (o : outcome A) : outcome B := match o with Ok a => Ok (f a) | Bad b => Bad b end.

(* ------------------------------------------------------------------ header loop *)

Lemma h_loop_indet_rest cf s : forall h m, s_rc (h_loop cf h m s) = TIndet -> s_rest (h_loop cf h m s) = [].
Proof.
  induction s as [|c s IH]; intros h m; cbn [h_loop]; auto.
  destruct (h_char cf (save_raw cf h c) m c) as [h2 m2|e|[|] h2 m2]; cbn; auto; discriminate.
Qed.

Lemma h_loop_app cf a b : forall h m, h_loop cf h m (a ++ b) =
  let r := h_loop cf h m a in
  match s_rc r with
  | TIndet => h_loop cf (fst (s_st r)) (snd (s_st r)) b
  | _ => mksub (s_rc r) (s_err r) (s_st r) (s_rest r ++ b)
  end.
Proof.
  induction a as [|c a IH]; intros h m; cbn [h_loop app]; auto.
  destruct (h_char cf (save_raw cf h c) m c) as [h2 m2|e|[|] h2 m2]; cbn; auto.
Qed.

Lemma h_loop_err cf s : forall h m, match s_rc (h_loop cf h m s) with TFalse => exists e, s_err (h_loop cf h m s) = Some e | _ => s_err (h_loop cf h m s) = None end.
Proof.
  induction s as [|c s IH]; intros h m; cbn [h_loop]; [reflexivity|].
  destruct (h_char cf (save_raw cf h c) m c) as [h2 m2|e|[|] h2 m2]; cbn; eauto; try apply IH.
Qed.

(** The unread bytes are a suffix of the buffer. *)
Lemma h_loop_suffix cf s : forall h m, exists p, s = p ++ s_rest (h_loop cf h m s).
Proof.
  induction s as [|c s IH]; intros h m; cbn [h_loop]; [exists []; auto|].
  destruct (h_char cf (save_raw cf h c) m c) as [h2 m2|e|[|] h2 m2]; cbn.
  - destruct (IH h2 m2) as [p E]. exists (c :: p). cbn. congruence.
  - exists []; auto.
  - exists [c]; auto.
  - exists []; auto.
Qed.

(* ------------------------------------------------------------------ chunk loop, byte by byte *)

(** Same as [k_char], taking one byte at a time also for the payload handler. *)
Definition k1_char (cf : pcfg) (k : chk) (cache payload : list Z) (c : Z) : kres := k_char cf k cache payload c [].

Fixpoint k1_loop (cf : pcfg) (k : chk) (cache payload : list Z) (s : list Z) : sub kout :=
  match s with
  | [] => mksub TIndet None (mkkout k cache payload false) []
  | c :: s' =>
    match k1_char cf k cache payload c with
    | KCont _ k1 cache1 payload1 => k1_loop cf k1 cache1 payload1 s'
    | KFail => mksub TFalse (Some E_CHUNK_CHAR) (mkkout k cache payload false) s
    | KDone => mksub TTrue None (mkkout k cache payload false) s'
    | KFooters => mksub TTrue None (mkkout k cache payload true) s
    end
  end.

Definition k_ok (k : chk) : Prop := k_state k = KChunk -> 0 <= k_read k < k_size k.

Lemma k_char_other cf k cache payload c s : (k_state k <> KChunk \/ cf_handler cf = false) ->
  k_char cf k cache payload c s = k1_char cf k cache payload c.
Proof.
  unfold k1_char, k_char. intros H. destruct (k_state k); auto. destruct H as [H| ->]; [congruence|]. reflexivity.
Qed.

Lemma k_char_one cf k cache payload c s n k1 ca pa : (k_state k <> KChunk \/ cf_handler cf = false) ->
  k_char cf k cache payload c s = KCont n k1 ca pa -> n = 1%nat.
Proof.
  unfold k_char. intros H. destruct (k_state k); try destruct H as [H|H]; try congruence;
  rewrite ?H; repeat match goal with |- context [if ?b then _ else _] => destruct b end; intros E; inversion E; auto.
Qed.

Lemma set_k_read_same k : set_k_read (k_read k) k = k.
Proof. destruct k; reflexivity. Qed.

(** the payload handler gets a block at once; byte by byte the same happens *)
Lemma k1_block cf blk : forall k cache payload s,
  k_state k = KChunk -> cf_handler cf = true -> 0 <= k_read k -> k_read k + zlen blk <= k_size k -> blk <> [] ->
  let k1 := set_k_read (k_read k + zlen blk) k in
  k1_loop cf k cache payload (blk ++ s) =
  k1_loop cf (if k_read k1 =? k_size k1 then set_k_state KCRAfterChunk k1 else k1) cache (payload ++ blk) s.
Proof.
  induction blk as [|c blk IH]; intros k cache payload s Hs Hh Hr Hle Hne k1; [congruence|].
  rewrite zlen_cons in *. pose proof (zlen_nonneg blk).
  cbn [app k1_loop]. unfold k1_char, k_char. rewrite Hs, Hh, zlen_nil.
  replace (k_read k <? k_size k) with true by lia.
  set (len := if 1 + 0 <? k_size k - k_read k then 1 + 0 else k_size k - k_read k).
  assert (len = 1) as -> by (unfold len; destruct (1 + 0 <? k_size k - k_read k) eqn:E; lia).
  change (Z.to_nat 1) with 1%nat. cbn [firstn].
  set (k2 := set_k_read (k_read k + 1) k).
  destruct blk as [|d blk'].
  - rewrite zlen_nil in *. subst k1. replace (k_read k + (1 + 0)) with (k_read k + 1) by lia. fold k2. reflexivity.
  - assert (k_read k2 = k_read k + 1 /\ k_size k2 = k_size k /\ k_state k2 = k_state k) as (Q1 & Q2 & Q3) by (subst k2; destruct k; auto).
    assert (k_read k2 =? k_size k2 = false) as ->.
    { rewrite zlen_cons in *. pose proof (zlen_nonneg blk'). lia. }
    rewrite IH; try congruence; try lia.
    + subst k1 k2. destruct k as [x1 x2 x3 x4]. cbn [k_read set_k_read k_size].
      replace (x4 + 1 + zlen (d :: blk')) with (x4 + (1 + zlen (d :: blk'))) by lia.
      rewrite <- (zlen_cons c). rewrite <- app_assoc. reflexivity.
Qed.

Lemma k_char_ok cf k cache payload c s n k1 ca pa : k_ok k -> k_char cf k cache payload c s = KCont n k1 ca pa -> k_ok k1.
Proof.
  intros Hk. unfold k_char, k_ok in *.
  assert (0 <= strtol_hex (k_size_str k)) as SP.
  { unfold strtol_hex. assert (0 <= undigits 16 0 (map hex_value (k_size_str k))); [|lia].
    assert (forall l a, 0 <= a -> 0 <= undigits 16 a (map hex_value l)) as G.
    { induction l as [|x l IHl]; intros a Ha; cbn [map undigits]; auto. apply IHl.
      assert (0 <= hex_value x).
      { unfold hex_value, hex_val.
        repeat match goal with |- context [if ?b then _ else _] => let E := fresh "E" in destruct b eqn:E end; lia. }
      lia. }
    apply G; lia. }
  pose proof (zlen_nonneg s) as ZS. remember (1 + zlen s) as av eqn:EA.
  destruct k as [ks kstr ksz krd]. cbn [k_state k_size_str k_size k_read] in *.
  destruct ks; cbv zeta; cbn [k_state k_size_str k_size k_read set_k_read set_k_size set_k_state set_k_size_str];
  repeat match goal with |- context [if ?b then _ else _] => let E := fresh "E" in destruct b eqn:E;
     cbn [k_state k_size_str k_size k_read set_k_read set_k_size set_k_state set_k_size_str] in * end;
  intros EQ; inversion EQ; subst; clear EQ; cbn [k_state k_size_str k_size k_read set_k_read set_k_size set_k_state set_k_size_str] in *;
  intros HH; try discriminate; try (specialize (Hk eq_refl)); try lia.
Qed.

Lemma k_loop_k1 cf : forall fuel k cache payload s, k_ok k -> (List.length s <= fuel)%nat ->
  k_loop fuel cf k cache payload s = k1_loop cf k cache payload s.
Proof.
  induction fuel as [|f IH]; intros k cache payload s Hk Hf; destruct s as [|c s]; try (cbn in Hf; lia); auto.
  cbn [k_loop].
  destruct (k_char cf k cache payload c s) as [n k1 ca pa| | |] eqn:E.
  - pose proof (k_char_ok _ _ _ _ _ _ _ _ _ _ Hk E) as Hk1.
    assert (k_state k <> KChunk \/ cf_handler cf = false \/ (k_state k = KChunk /\ cf_handler cf = true)) as D.
    { destruct (k_state k); try (left; discriminate). destruct (cf_handler cf); auto. }
    assert ((k_state k <> KChunk \/ cf_handler cf = false) -> k_loop f cf k1 ca pa (skipn n (c :: s)) = k1_loop cf k cache payload (c :: s)) as G.
    { intros D'. pose proof (k_char_one _ _ _ _ _ _ _ _ _ _ D' E). subst n. cbn [skipn k1_loop].
      rewrite <- (k_char_other cf k cache payload c s) by auto. rewrite E. apply IH; auto. cbn in Hf; lia. }
    destruct D as [D|[D|[D1 D2]]]; [apply G; auto | apply G; auto |]. clear G.
    unfold k_char in E. rewrite D1, D2 in E. specialize (Hk D1).
    replace (k_read k <? k_size k) with true in E by lia.
    set (len := if 1 + zlen s <? k_size k - k_read k then 1 + zlen s else k_size k - k_read k) in *.
    pose proof (zlen_nonneg s).
    assert (1 <= len <= 1 + zlen s /\ len <= k_size k - k_read k) as HL.
    { unfold len. destruct (1 + zlen s <? k_size k - k_read k) eqn:EL; lia. }
    inversion E; subst n k1 ca pa; clear E.
    rewrite IH; auto.
    2:{ rewrite skipn_length. cbn [List.length] in Hf |- *. unfold zlen in *. lia. }
    rewrite <- (firstn_skipn (Z.to_nat len) (c :: s)) at 3.
    assert (zlen (firstn (Z.to_nat len) (c :: s)) = len) as ZL.
    { unfold zlen in *. rewrite firstn_length. cbn [List.length]. lia. }
    rewrite k1_block; auto.
    + rewrite ZL. reflexivity.
    + lia.
    + lia.
    + intros EN. rewrite EN, zlen_nil in ZL. lia.
  - assert (k_state k <> KChunk) as D.
    { intros D. unfold k_char in E. rewrite D in E.
      repeat match type of E with context [if ?b then _ else _] => destruct b end; discriminate. }
    cbn [k1_loop]. rewrite <- (k_char_other cf k cache payload c s) by auto. rewrite E. reflexivity.
  - assert (k_state k <> KChunk) as D.
    { intros D. unfold k_char in E. rewrite D in E.
      repeat match type of E with context [if ?b then _ else _] => destruct b end; discriminate. }
    cbn [k1_loop]. rewrite <- (k_char_other cf k cache payload c s) by auto. rewrite E. reflexivity.
  - assert (k_state k <> KChunk) as D.
    { intros D. unfold k_char in E. rewrite D in E.
      repeat match type of E with context [if ?b then _ else _] => destruct b end; discriminate. }
    cbn [k1_loop]. rewrite <- (k_char_other cf k cache payload c s) by auto. rewrite E. reflexivity.
Qed.

Lemma k1_loop_app cf a b : forall k cache payload, k1_loop cf k cache payload (a ++ b) =
  let r := k1_loop cf k cache payload a in
  match s_rc r with
  | TIndet => k1_loop cf (ko_k (s_st r)) (ko_cache (s_st r)) (ko_payload (s_st r)) b
  | _ => mksub (s_rc r) (s_err r) (s_st r) (s_rest r ++ b)
  end.
Proof.
  induction a as [|c a IH]; intros; cbn [app k1_loop]; auto.
  destruct (k1_char cf k cache payload c); cbn; auto.
Qed.

Lemma k1_loop_indet cf s : forall k cache payload, let r := k1_loop cf k cache payload s in
  s_rc r = TIndet -> s_rest r = [] /\ ko_footers (s_st r) = false.
Proof.
  induction s as [|c s IH]; intros; subst r; cbn [k1_loop] in *; auto.
  destruct (k1_char cf k cache payload c); cbn in *; auto; discriminate.
Qed.

Lemma k1_loop_ok cf s : forall k cache payload, k_ok k -> k_ok (ko_k (s_st (k1_loop cf k cache payload s))).
Proof.
  induction s as [|c s IH]; intros; cbn [k1_loop]; auto.
  destruct (k1_char cf k cache payload c) eqn:E; cbn; auto.
  apply IH. eapply k_char_ok; eauto.
Qed.

Lemma k1_loop_err cf s : forall k cache payload, let r := k1_loop cf k cache payload s in
  match s_rc r with TFalse => s_err r = Some E_CHUNK_CHAR | _ => s_err r = None end.
Proof.
  induction s as [|c s IH]; intros; subst r; cbn [k1_loop] in *; [reflexivity|].
  destruct (k1_char cf k cache payload c); cbn in *; auto; try apply IH.
Qed.

Lemma k1_loop_suffix cf s : forall k cache payload, exists p, s = p ++ s_rest (k1_loop cf k cache payload s).
Proof.
  induction s as [|c s IH]; intros; cbn [k1_loop]; [exists []; auto|].
  destruct (k1_char cf k cache payload c); cbn.
  - destruct (IH k0 cache0 payload0) as [p E]. exists (c :: p). cbn. congruence.
  - exists []; auto.
  - exists [c]; auto.
  - exists []; auto.
Qed.

Lemma k1_loop_footers cf s : forall k cache payload, let r := k1_loop cf k cache payload s in
  ko_footers (s_st r) = true -> s_rc r = TTrue /\ s_rest r <> [].
Proof.
  induction s as [|c s IH]; intros; subst r; cbn [k1_loop] in *; [discriminate|].
  destruct (k1_char cf k cache payload c); cbn in *; try discriminate; auto. split; auto; discriminate.
Qed.

(* ------------------------------------------------------------------ content buffer writes *)

Definition wr (buf : list (option Z)) (off : Z) (bytes : list Z) : list (option Z) :=
  firstn (Z.to_nat off) buf ++ map Some bytes ++ skipn (Z.to_nat (off + zlen bytes)) buf.

Lemma wr_nil buf off : wr buf off [] = buf.
Proof. unfold wr. rewrite zlen_nil, Z.add_0_r. cbn. apply firstn_skipn. Qed.

Lemma wr_len buf off bytes : 0 <= off -> off + zlen bytes <= zlen buf -> zlen (wr buf off bytes) = zlen buf.
Proof.
  unfold wr. intros Ho Hl. unfold zlen in *. rewrite !app_length, map_length, firstn_length, skipn_length. lia.
Qed.

Lemma wr_app buf off a b : 0 <= off -> off + zlen a + zlen b <= zlen buf ->
  wr (wr buf off a) (off + zlen a) b = wr buf off (a ++ b).
Proof.
  intros Ho Hl. unfold wr. rewrite map_app, zlen_app.
  assert (List.length (firstn (Z.to_nat off) buf) = Z.to_nat off) as L1.
  { rewrite firstn_length. unfold zlen in *. lia. }
  rewrite firstn_app, firstn_all2 by (rewrite L1; unfold zlen; lia).
  replace (Z.to_nat (off + zlen a) - List.length (firstn (Z.to_nat off) buf))%nat with (List.length a)
    by (rewrite L1; unfold zlen; lia).
  rewrite firstn_app, map_length, Nat.sub_diag, firstn_O, app_nil_r.
  rewrite (firstn_all2 (n := List.length a)) by (rewrite map_length; lia).
  rewrite <- !app_assoc. do 3 f_equal.
  rewrite skipn_app, skipn_all2 by (rewrite L1; unfold zlen; lia). cbn [app].
  rewrite skipn_app, skipn_all2 by (rewrite map_length, L1; unfold zlen; lia). cbn [app].
  rewrite skipn_skipn. f_equal. rewrite map_length, L1. unfold zlen in *. lia.
Qed.
