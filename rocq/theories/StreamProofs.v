(** Proofs about the TCP stream buffer (StreamModel.v). *)
From Coq Require Import String ZArith List Lia Bool.
From Verif Require Import Base StreamModel.
Import ListNotations.

(** * Memory *)

Lemma nth_error_ext {A} (l m : list A) : (forall i, nth_error l i = nth_error m i) -> l = m.
Proof.
  revert m; induction l as [|x l IH]; intros [|y m] H; auto.
  - specialize (H O); discriminate.
  - specialize (H O); discriminate.
  - f_equal. specialize (H O); cbn in H; congruence. apply IH. intros i. apply (H (S i)).
Qed.

Lemma nth_error_firstn {A} n (l : list A) i :
  nth_error (firstn n l) i = if (i <? n)%nat then nth_error l i else None.
Proof.
  revert l i; induction n as [|n IH]; intros [|x l] [|i]; cbn [firstn nth_error]; auto.
  - destruct (S i <? S n)%nat; auto.
  - rewrite IH. reflexivity.
Qed.

Lemma nth_error_skipn {A} n (l : list A) i : nth_error (skipn n l) i = nth_error l (n + i).
Proof.
  revert l; induction n as [|n IH]; intros l; auto.
  destruct l as [|x l]; cbn [skipn]. destruct i; reflexivity. rewrite IH. reflexivity.
Qed.

Lemma nth_error_app {A} (l m : list A) i :
  nth_error (l ++ m) i = if (i <? length l)%nat then nth_error l i else nth_error m (i - length l).
Proof.
  destruct (Nat.ltb_spec i (length l)). apply nth_error_app1; auto. apply nth_error_app2; auto.
Qed.

Lemma nth_error_slice m a n i :
  nth_error (slice m a n) i = if (i <? Z.to_nat n)%nat then nth_error m (Z.to_nat a + i) else None.
Proof. unfold slice. rewrite nth_error_firstn, nth_error_skipn. reflexivity. Qed.

Lemma in_mem_spec m a n : in_mem m a n = true <-> 0 <= a /\ 0 <= n /\ a + n <= zlen m.
Proof. unfold in_mem. rewrite !andb_true_iff, !Z.leb_le. tauto. Qed.

Lemma zlen_slice m a n : 0 <= a -> 0 <= n -> a + n <= zlen m -> zlen (slice m a n) = n.
Proof. unfold slice, zlen. intros. rewrite firstn_length, skipn_length. lia. Qed.

Lemma zlen_blit m a d : 0 <= a -> a + zlen d <= zlen m -> zlen (blit m a d) = zlen m.
Proof. unfold blit, zlen. intros. rewrite !app_length, firstn_length, skipn_length. lia. Qed.

Lemma nth_error_blit m a d i : 0 <= a -> a + zlen d <= zlen m ->
  nth_error (blit m a d) i =
    if (i <? Z.to_nat a)%nat then nth_error m i
    else if (i <? Z.to_nat a + length d)%nat then nth_error d (i - Z.to_nat a) else nth_error m i.
Proof.
  unfold blit, zlen. intros Ha Hd.
  rewrite nth_error_app, firstn_length, nth_error_firstn.
  replace (Nat.min (Z.to_nat a) (length m)) with (Z.to_nat a) by lia.
  destruct (Nat.ltb_spec i (Z.to_nat a)); auto.
  rewrite nth_error_app, nth_error_skipn.
  destruct (Nat.ltb_spec (i - Z.to_nat a) (length d)), (Nat.ltb_spec i (Z.to_nat a + length d)); try lia; auto.
  f_equal. lia.
Qed.

Lemma slice_blit_same m a d : 0 <= a -> a + zlen d <= zlen m -> slice (blit m a d) a (zlen d) = d.
Proof.
  intros Ha Hd. apply nth_error_ext. intros i. rewrite nth_error_slice, nth_error_blit by auto.
  unfold zlen in *.
  destruct (Nat.ltb_spec i (Z.to_nat (Z.of_nat (length d)))).
  - destruct (Nat.ltb_spec (Z.to_nat a + i) (Z.to_nat a)); [lia|].
    destruct (Nat.ltb_spec (Z.to_nat a + i) (Z.to_nat a + length d)); [|lia]. f_equal. lia.
  - symmetry. apply nth_error_None. lia.
Qed.

Lemma slice_blit_other m a d x n : 0 <= a -> a + zlen d <= zlen m -> 0 <= x -> x + n <= a \/ a + zlen d <= x ->
  slice (blit m a d) x n = slice m x n.
Proof.
  intros Ha Hd Hx Ho. apply nth_error_ext. intros i. rewrite !nth_error_slice, nth_error_blit by auto.
  unfold zlen in *.
  destruct (Nat.ltb_spec i (Z.to_nat n)); auto.
  destruct (Nat.ltb_spec (Z.to_nat a + 0) (Z.to_nat a)); [lia|].
  destruct (Nat.ltb_spec (Z.to_nat x + i) (Z.to_nat a)); auto.
  destruct (Nat.ltb_spec (Z.to_nat x + i) (Z.to_nat a + length d)); auto. lia.
Qed.

Lemma slice_app m a n k : 0 <= a -> 0 <= n -> 0 <= k -> a + n <= zlen m -> slice m a (n + k) = slice m a n ++ slice m (a + n) k.
Proof.
  intros Ha Hn Hk Hl. apply nth_error_ext. intros i. rewrite nth_error_app, !nth_error_slice.
  assert (Z.of_nat (length (slice m a n)) = n) by (apply zlen_slice; auto).
  destruct (Nat.ltb_spec i (length (slice m a n))), (Nat.ltb_spec i (Z.to_nat n)); try lia.
  - destruct (Nat.ltb_spec i (Z.to_nat (n + k))); [auto|lia].
  - destruct (Nat.ltb_spec i (Z.to_nat (n + k))), (Nat.ltb_spec (i - length (slice m a n)) (Z.to_nat k)); try lia; auto.
    f_equal. lia.
Qed.

Lemma slice_nil m a : slice m a 0 = [].
Proof. reflexivity. Qed.

Lemma slice_all (d : list Z) : slice d 0 (zlen d) = d.
Proof. unfold slice, zlen. cbn [skipn Z.to_nat]. apply firstn_all2. lia. Qed.

Lemma firstn_slice m a n k : 0 <= k <= n -> firstn (Z.to_nat k) (slice m a n) = slice m a k.
Proof. intros H. unfold slice. rewrite firstn_firstn. f_equal. lia. Qed.

Lemma read_mem_fine m a n : 0 <= a -> 0 <= n -> a + n <= zlen m -> read_mem m a n = Fine (slice m a n).
Proof. intros. unfold read_mem. rewrite (proj2 (in_mem_spec _ _ _)); auto. Qed.

Lemma write_mem_fine m a d : 0 <= a -> a + zlen d <= zlen m -> write_mem m a d = Fine (blit m a d).
Proof. intros. unfold write_mem. rewrite (proj2 (in_mem_spec _ _ _)); auto. pose proof (zlen_nonneg d). auto. Qed.

(** * Output *)

Definition payload (o : oop) : list Z := match o with OPut c => [c] | OWrite d => d | OSync => [] end.
(** the call reports success *)
Definition o_good (o : oop) (r : ores) : Prop :=
  match o, r with
  | OPut _, RPut b => b = true
  | OWrite d, RWrite n => n = zlen d
  | OSync, RSync b => b = true
  | _, _ => False
  end.

(** bounds only *)
Definition o_bounds (top : Z) (s : ostate) : Prop := zlen (omem s) = WRITE_BUFFER_SIZE /\ 0 <= opp s <= top.
(** everything written is with the connection or in the buffer, in order *)
Definition o_holds (s : ostate) (P : list Z) : Prop :=
  o_bounds epp s /\ owire s ++ slice (omem s) 0 (opp s) = P.

Lemma w_taken_bounds r k : 0 <= k -> 0 <= w_taken r k <= k.
Proof. destruct r; cbn; lia. Qed.

Lemma flush_spec s : o_bounds WRITE_BUFFER_SIZE s ->
  exists e s', flush_output s = Fine (e, s') /\ omem s' = omem s /\
    (if e then 0 <= opp s' <= opp s /\ exists k, 0 <= k <= opp s /\ owire s' = owire s ++ slice (omem s) 0 k
     else opp s' = 0 /\ owire s' = owire s ++ slice (omem s) 0 (opp s)) /\
    (Forall (eq WOk) (orest s) -> e = false /\ Forall (eq WOk) (orest s')).
Proof.
  intros [Hm Hp]. unfold flush_output. destruct (Z.ltb_spec 0 (opp s)) as [H|H].
  - rewrite read_mem_fine by (unfold WRITE_BUFFER_SIZE in *; lia). cbn [abind].
    destruct (orest s) as [|[|n] rs] eqn:E; cbn [next_res w_taken w_err].
    + eexists; eexists; split; [reflexivity|]. cbn [omem opp owire orest].
      rewrite firstn_slice by lia. repeat split; auto; lia.
    + eexists; eexists; split; [reflexivity|]. cbn [omem opp owire orest].
      rewrite firstn_slice by lia. repeat split; auto; try lia. inversion H0; auto.
    + eexists; eexists; split; [reflexivity|]. cbn [omem opp owire orest].
      split; auto. split; [split; [lia|]|].
      * exists (Z.max 0 (Z.min n (opp s))). split; [lia|]. rewrite firstn_slice by lia. reflexivity.
      * intros F. inversion F; discriminate.
  - eexists; eexists; split; [reflexivity|]. assert (opp s = 0) as -> by lia. rewrite slice_nil, app_nil_r.
    repeat split; auto.
Qed.

Lemma put_char_spec s c : o_bounds epp s ->
  exists s', put_char s c = Fine s' /\ o_bounds WRITE_BUFFER_SIZE s' /\ opp s' = opp s + 1 /\ owire s' = owire s /\
    orest s' = orest s /\ slice (omem s') 0 (opp s') = slice (omem s) 0 (opp s) ++ [c].
Proof.
  intros [Hm Hp]. unfold put_char, epp in *.
  assert (opp s + zlen [c] <= zlen (omem s)) by (cbn; lia).
  rewrite write_mem_fine by (auto; lia). cbn [abind]. eexists; split; [reflexivity|]. cbn [omem opp owire orest].
  repeat split; cbn [omem opp]; try lia.
  - rewrite zlen_blit; auto; lia.
  - rewrite slice_app; rewrite ?zlen_blit by (auto; lia); try (cbn in *; lia).
    rewrite slice_blit_other by (auto; lia). rewrite Z.add_0_l.
    replace (slice (blit (omem s) (opp s) [c]) (opp s) 1) with [c]; auto.
    symmetry. apply (slice_blit_same _ _ [c]); auto; lia.
Qed.

Definition prefix_of (a b : list Z) : Prop := exists t, b = a ++ t.

Lemma slice_prefix m n k : 0 <= k <= n -> n <= zlen m -> prefix_of (slice m 0 k) (slice m 0 n).
Proof.
  intros. exists (slice m (0 + k) (n - k)). rewrite <- slice_app by lia. f_equal. lia.
Qed.

Lemma prefix_app a b t : prefix_of a b -> prefix_of (t ++ a) (t ++ b).
Proof. intros [u ->]. exists u. rewrite app_assoc. reflexivity. Qed.
Lemma prefix_more a b t : prefix_of a b -> prefix_of a (b ++ t).
Proof. intros [u ->]. exists (u ++ t). rewrite app_assoc. reflexivity. Qed.
Lemma prefix_refl a : prefix_of a a.
Proof. exists []. rewrite app_nil_r. reflexivity. Qed.

(** What one call does. *)
Definition o_after (s : ostate) (P : list Z) (o : oop) (r : ores) (s' : ostate) : Prop :=
  (o_good o r /\ o_holds s' (P ++ payload o) /\ (o = OSync -> opp s' = 0)) \/
  (~ o_good o r /\ prefix_of (owire s') (P ++ payload o) /\
   o_bounds (match o with OPut _ => WRITE_BUFFER_SIZE | _ => epp end) s').

Lemma o_step_put s c P : o_holds s P ->
  exists r s', o_step s (OPut c) = Fine (r, s') /\ o_after s P (OPut c) r s' /\
    (Forall (eq WOk) (orest s) -> o_good (OPut c) r /\ Forall (eq WOk) (orest s')).
Proof.
  intros [Hb Hw]. unfold o_after. cbn [o_step payload].
  destruct (put_char_spec s c Hb) as (s1 & E1 & Hb1 & Hp1 & Hw1 & Hr1 & Hs1).
  destruct (Z.ltb_spec (opp s) epp) as [H|H].
  - rewrite E1. cbn [abind]. eexists; eexists; split; [reflexivity|]. rewrite Hr1. split; [left|auto].
    + split; [reflexivity|]. split; [|discriminate]. split.
      * destruct Hb1, Hb. split; auto. lia.
      * rewrite Hw1, Hs1, app_assoc, Hw. reflexivity.
    + cbn. auto.
  - unfold overflow. rewrite E1. cbn [abind].
    destruct (flush_spec s1 Hb1) as (e & s2 & E2 & Hm2 & Hc & Hok). rewrite E2. cbn [abind].
    eexists; eexists; split; [reflexivity|]. split.
    + destruct e.
      * right. split; [cbn; discriminate|]. destruct Hc as (Hp2 & k & Hk & Hw2). split.
        -- rewrite Hw2, Hw1. rewrite <- Hw, <- app_assoc. apply prefix_app. rewrite <- Hs1.
           apply slice_prefix; auto. destruct Hb1. lia.
        -- destruct Hb1 as [A B]. split; [congruence|]. cbn. lia.
      * left. split; [reflexivity|]. split; [|discriminate]. destruct Hc as [Hp2 Hw2]. split.
        -- destruct Hb1, Hb. split; [congruence|]. lia.
        -- rewrite Hp2, slice_nil, app_nil_r, Hw2, Hw1, Hs1, app_assoc, Hw. reflexivity.
    + intros F. rewrite <- Hr1 in F. destruct (Hok F) as [-> ?]. cbn. auto.
Qed.

Lemma o_step_sync s P : o_holds s P ->
  exists r s', o_step s OSync = Fine (r, s') /\ o_after s P OSync r s' /\
    (Forall (eq WOk) (orest s) -> o_good OSync r /\ Forall (eq WOk) (orest s')).
Proof.
  intros [Hb Hw]. unfold o_after. cbn [o_step payload].
  assert (o_bounds WRITE_BUFFER_SIZE s) as Hb1 by (destruct Hb; split; auto; unfold epp in *; lia).
  destruct (flush_spec s Hb1) as (e & s2 & E2 & Hm2 & Hc & Hok). rewrite E2. cbn [abind].
  eexists; eexists; split; [reflexivity|]. rewrite app_nil_r. split.
  - destruct e.
    + right. split; [cbn; discriminate|]. destruct Hc as (Hp2 & k & Hk & Hw2). split.
      * rewrite Hw2. rewrite <- Hw. apply prefix_app. apply slice_prefix; auto. destruct Hb1. lia.
      * destruct Hb as [A B]. split; [congruence|]. lia.
    + left. split; [reflexivity|]. destruct Hc as [Hp2 Hw2]. split; auto. split.
      * destruct Hb. split; [congruence|]. lia.
      * rewrite Hp2, slice_nil, app_nil_r, Hw2. exact Hw.
  - intros F. destruct (Hok F) as [-> ?]. cbn. auto.
Qed.

Lemma o_step_write s d P : o_holds s P ->
  exists r s', o_step s (OWrite d) = Fine (r, s') /\ o_after s P (OWrite d) r s' /\
    (Forall (eq WOk) (orest s) -> o_good (OWrite d) r /\ Forall (eq WOk) (orest s')).
Proof.
  intros [Hb Hw]. unfold o_after. cbn [o_step payload]. unfold xsputn.
  pose proof (zlen_nonneg d) as Hd0. destruct Hb as [Hm Hp].
  destruct (Z.leb_spec (zlen d) (epp - opp s)) as [H|H].
  - rewrite write_mem_fine by (unfold epp in *; lia). cbn [abind].
    eexists; eexists; split; [reflexivity|]. split; [left|cbn; auto].
    split; [reflexivity|]. split; [|discriminate]. split; [split|]; cbn [omem opp owire].
    + rewrite zlen_blit; auto; unfold epp in *; lia.
    + lia.
    + rewrite slice_app; rewrite ?zlen_blit by (unfold epp in *; lia); try (unfold epp in *; lia).
      rewrite slice_blit_other by (unfold epp in *; lia).
      rewrite Z.add_0_l, slice_blit_same by (unfold epp in *; lia). rewrite app_assoc, Hw. reflexivity.
  - set (av := epp - opp s) in *.
    assert (0 <= av < zlen d) as Hav by (unfold av, epp in *; lia).
    assert (exists s1,
      (if 0 <? av
       then abind (read_mem d 0 av) (fun d1 => abind (write_mem (omem s) (opp s) d1) (fun m =>
              Fine {| omem := m; opp := opp s + av; owire := owire s; orest := orest s |}))
       else Fine s) = Fine s1 /\ zlen (omem s1) = WRITE_BUFFER_SIZE /\ opp s1 = epp /\ owire s1 = owire s /\ orest s1 = orest s /\
      slice (omem s1) 0 epp = slice (omem s) 0 (opp s) ++ slice d 0 av) as (s1 & E1 & Hm1 & Hp1 & Hw1 & Hr1 & Hs1).
    { destruct (Z.ltb_spec 0 av) as [Ha|Ha].
      - rewrite read_mem_fine by lia. cbn [abind].
        assert (zlen (slice d 0 av) = av) as Hl by (apply zlen_slice; lia).
        rewrite write_mem_fine by (rewrite ?Hl; unfold av, epp in *; lia). cbn [abind].
        eexists; split; [reflexivity|]. cbn [omem opp owire orest].
        split; [rewrite zlen_blit; rewrite ?Hl; auto; unfold av, epp in *; lia|].
        split; [unfold av; lia|]. split; [auto|]. split; [auto|].
        replace epp with (opp s + av) by (unfold av; lia).
        rewrite slice_app; rewrite ?zlen_blit; rewrite ?Hl; try (unfold av, epp in *; lia).
        rewrite slice_blit_other by (rewrite ?Hl; unfold av, epp in *; lia).
        rewrite Z.add_0_l.
        assert (slice (blit (omem s) (opp s) (slice d 0 av)) (opp s) av = slice d 0 av) as ->; auto.
        rewrite <- Hl at 2. apply slice_blit_same; rewrite ?Hl; unfold av, epp in *; lia.
      - exists s. assert (av = 0) as Z0 by lia. rewrite Z0, slice_nil, app_nil_r.
        assert (opp s = epp) as -> by (unfold av in *; lia). auto 10. }
    fold (epp - opp s) in *. fold av. rewrite E1. cbn [abind].
    assert (o_bounds WRITE_BUFFER_SIZE s1) as Hb1 by (split; auto; rewrite Hp1; unfold epp, WRITE_BUFFER_SIZE; lia).
    destruct (flush_spec s1 Hb1) as (e & s2 & E2 & Hm2 & Hc & Hok). rewrite E2. cbn [abind].
    assert (d = slice d 0 av ++ slice d av (zlen d - av)) as Hd.
    { rewrite <- (slice_all d) at 1. replace (zlen d) with (av + (zlen d - av)) at 1 by lia.
      rewrite slice_app by lia. reflexivity. }
    destruct e.
    + eexists; eexists; split; [reflexivity|]. split.
      * right. split; [cbn [o_good]; lia|]. destruct Hc as (Hp2 & k & Hk & Hw2). split.
        -- rewrite Hw2, Hw1. rewrite <- Hw, <- app_assoc. apply prefix_app.
           rewrite Hd at 1. rewrite app_assoc, <- Hs1. apply prefix_more. rewrite Hp1 in Hk. apply slice_prefix; auto.
           rewrite Hm1. unfold epp. lia.
        -- split; [congruence|]. rewrite Hp1 in Hp2. lia.
      * intros F. rewrite <- Hr1 in F. destruct (Hok F). discriminate.
    + destruct Hc as [Hp2 Hw2]. rewrite Hp1, Hw1, Hs1, app_assoc, Hw in Hw2.
      rewrite read_mem_fine by lia. cbn [abind].
      assert (zlen (slice d av (zlen d - av)) = zlen d - av) as Hl2 by (apply zlen_slice; lia).
      destruct (Z.leb_spec epp (zlen d - av)) as [Hbig|Hsmall].
      * destruct (next_res (orest s2)) as [r rs] eqn:En.
        pose proof (w_taken_bounds r (zlen d - av) ltac:(lia)) as Ht.
        eexists; eexists; split; [reflexivity|]. split.
        -- destruct (Z.eq_dec (w_taken r (zlen d - av)) (zlen d - av)) as [Hall|Hall].
           ++ left. split; [cbn [o_good]; lia|]. split; [|discriminate]. split; [split|]; cbn [omem opp owire].
              ** congruence.
              ** rewrite Hp2. unfold epp, WRITE_BUFFER_SIZE. lia.
              ** rewrite Hp2, slice_nil, app_nil_r, Hw2, Hall.
                 rewrite firstn_slice by lia. rewrite <- app_assoc, <- Hd. reflexivity.
           ++ right. split; [cbn [o_good]; lia|]. split; [|split]; cbn [omem opp owire].
              ** rewrite Hw2, <- app_assoc. apply prefix_app.
                 assert (forall x, prefix_of x (slice d av (zlen d - av)) -> prefix_of (slice d 0 av ++ x) d) as G.
                 { intros x Hx. rewrite Hd at 2. apply prefix_app, Hx. }
                 apply G.
                 exists (skipn (Z.to_nat (w_taken r (zlen d - av))) (slice d av (zlen d - av))).
                 rewrite firstn_skipn. reflexivity.
              ** congruence.
              ** rewrite Hp2. unfold epp, WRITE_BUFFER_SIZE. lia.
        -- intros F. rewrite <- Hr1 in F. destruct (Hok F) as [_ F2]. cbn [orest].
           destruct (orest s2) as [|r0 rs0]; cbn in En; injection En as <- <-; cbn.
           ++ split; [lia|constructor].
           ++ inversion F2; subst. cbn. split; [lia|auto].
      * rewrite write_mem_fine by (rewrite ?Hl2, ?Hm2; unfold epp in *; lia). cbn [abind].
        eexists; eexists; split; [reflexivity|]. split.
        -- left. split; [reflexivity|]. split; [|discriminate]. split; [split|]; cbn [omem opp owire].
           ++ rewrite zlen_blit; rewrite ?Hl2, ?Hm2; auto; unfold epp in *; lia.
           ++ lia.
           ++ rewrite Hp2, Z.add_0_l, Hw2, <- app_assoc.
              assert (slice (blit (omem s2) 0 (slice d av (zlen d - av))) 0 (zlen d - av)
                      = slice d av (zlen d - av)) as ->.
              { rewrite <- Hl2 at 2. apply slice_blit_same; rewrite ?Hl2, ?Hm2; unfold epp in *; lia. }
              rewrite <- Hd. reflexivity.
        -- intros F. rewrite <- Hr1 in F. destruct (Hok F) as [_ F2]. cbn. auto.
Qed.

Lemma o_step_spec s o P : o_holds s P ->
  exists r s', o_step s o = Fine (r, s') /\ o_after s P o r s' /\
    (Forall (eq WOk) (orest s) -> o_good o r /\ Forall (eq WOk) (orest s')).
Proof. destruct o; [apply o_step_put | apply o_step_write | apply o_step_sync]. Qed.

Definition o_fresh (junk : list Z) (rs : list wres) : Prop := zlen junk = WRITE_BUFFER_SIZE.

Lemma o_init_holds junk rs : zlen junk = WRITE_BUFFER_SIZE -> o_holds (o_init junk rs) [].
Proof.
  intros H. split; [split|]; cbn; auto. unfold epp, WRITE_BUFFER_SIZE. lia.
Qed.

(** As long as every call succeeds the invariant holds. *)
Lemma o_run_spec ops : forall s P, o_holds s P ->
  (exists rs s', o_run s ops = Fine (rs, s') /\ Forall2 o_good ops rs /\ o_holds s' (P ++ concat (map payload ops))) \/
  (exists ops1 o ops2 rs1 s1 r s2, ops = ops1 ++ o :: ops2 /\ o_run s ops1 = Fine (rs1, s1) /\
     Forall2 o_good ops1 rs1 /\ o_holds s1 (P ++ concat (map payload ops1)) /\
     o_step s1 o = Fine (r, s2) /\ ~ o_good o r /\
     o_after s1 (P ++ concat (map payload ops1)) o r s2).
Proof.
  induction ops as [|o ops IH]; intros s P H.
  - left. exists [], s. rewrite app_nil_r. repeat split; auto; apply H.
  - destruct (o_step_spec s o P H) as (r & s' & E & Ha & _).
    destruct Ha as [(Hg & Hh & Hs) | (Hg & Hpre & Hbd)].
    + destruct (IH s' _ Hh) as [(rs & s'' & E' & F & Hh') | (ops1 & o' & ops2 & rs1 & s1 & r' & s2 & -> & E1 & F & Hh1 & E2 & Hg2 & Ha2)].
      * left. exists (r :: rs), s''. cbn [o_run]. rewrite E. cbn [abind]. rewrite E'. cbn [abind].
        cbn [map concat]. rewrite app_assoc. auto.
      * right. exists (o :: ops1), o', ops2, (r :: rs1), s1, r', s2. cbn [o_run map concat]. rewrite E. cbn [abind]. rewrite E1.
        rewrite app_assoc. cbn [abind]. auto 10.
    + right. exists [], o, ops, [], s, r, s'. cbn [o_run map concat]. rewrite app_nil_r.
      split; [reflexivity|]. split; [reflexivity|]. split; [constructor|]. split; [auto|]. split; [auto|].
      split; [auto|]. right. auto.
Qed.

(** When no write fails every call succeeds. *)
Lemma o_run_ok ops : forall s P, o_holds s P -> Forall (eq WOk) (orest s) ->
  exists rs s', o_run s ops = Fine (rs, s') /\ Forall2 o_good ops rs /\ o_holds s' (P ++ concat (map payload ops)) /\
    (forall ops', ops = ops' ++ [OSync] -> opp s' = 0).
Proof.
  induction ops as [|o ops IH]; intros s P H F.
  - exists [], s. rewrite app_nil_r. repeat split; auto; try apply H.
    intros [|? ?]; discriminate.
  - destruct (o_step_spec s o P H) as (r & s' & E & Ha & Hok). destruct (Hok F) as [Hg F'].
    destruct Ha as [(_ & Hh & Hs) | (Hn & _)]; [|contradiction].
    destruct (IH s' _ Hh F') as (rs & s'' & E' & FF & Hh' & Hl).
    exists (r :: rs), s''. cbn [o_run map concat]. rewrite E. cbn [abind]. rewrite E', app_assoc. cbn [abind].
    split; [auto|]. split; [auto|]. split; [auto|].
    intros [|o' ops'] X; injection X as -> X; subst.
    + cbn [o_run] in E'. injection E' as <- <-. auto.
    + eapply Hl; reflexivity.
Qed.

(** ** Memory safety for arbitrary clients *)

Definition stuck_after (h : list oop) (rs : list ores) : Prop :=
  exists ops1 res1 c ops2 res2, h = ops1 ++ OPut c :: ops2 /\ rs = res1 ++ RPut false :: res2 /\
    length res1 = length ops1 /\ Forall (fun r => r = RSync false \/ r = RWrite 0) res2.

(** Bounds only, for any state: a call is safe unless the write pointer is beyond its limit. *)
Lemma o_bounds_holds s : o_bounds epp s -> o_holds s (owire s ++ slice (omem s) 0 (opp s)).
Proof. intros H; split; auto. Qed.

Lemma o_step_bounds s o : o_bounds epp s -> exists r s', o_step s o = Fine (r, s') /\
  (o_bounds epp s' \/ (o_bounds WRITE_BUFFER_SIZE s' /\ (exists c, o = OPut c) /\ r = RPut false)).
Proof.
  intros H. destruct (o_step_spec s o _ (o_bounds_holds s H)) as (r & s' & E & Ha & _).
  exists r, s'. split; auto. destruct Ha as [(_ & [Hb _] & _) | (Hg & _ & Hb)]; auto.
  destruct o; auto. right. split; auto. split; [eauto|].
  cbn [o_step] in E. destruct r as [[|]| |]; auto; exfalso.
  - apply Hg. reflexivity.
  - destruct (opp s <? epp); [destruct (put_char s c)|destruct (overflow s c) as [[? ?]|]]; cbn in E; discriminate.
  - destruct (opp s <? epp); [destruct (put_char s c)|destruct (overflow s c) as [[? ?]|]]; cbn in E; discriminate.
Qed.

Lemma o_sync_bounds s : o_bounds WRITE_BUFFER_SIZE s -> exists b s', o_step s OSync = Fine (RSync b, s') /\
  (o_bounds epp s' \/ (o_bounds WRITE_BUFFER_SIZE s' /\ b = false)).
Proof.
  intros H. cbn [o_step]. destruct (flush_spec s H) as (e & s' & E & Hm & Hc & _). rewrite E. cbn [abind].
  exists (negb e), s'. split; auto. destruct H as [A B]. destruct e.
  - right. destruct Hc as [Hp _]. split; [split|]; auto; try congruence. lia.
  - left. destruct Hc as [Hp _]. split; [congruence|]. rewrite Hp. unfold epp, WRITE_BUFFER_SIZE. lia.
Qed.

Lemma o_run_app a : forall s b, o_run s (a ++ b) =
  abind (o_run s a) (fun '(r1, s1) => abind (o_run s1 b) (fun '(r2, s2) => Fine (r1 ++ r2, s2))).
Proof.
  induction a as [|o a IH]; intros s b; cbn [app o_run].
  - cbn [abind]. destruct (o_run s b) as [[? ?]|]; reflexivity.
  - destruct (o_step s o) as [[r s']|]; cbn [abind]; auto. rewrite IH.
    destruct (o_run s' a) as [[r1 s1]|]; cbn [abind]; auto.
    destruct (o_run s1 b) as [[r2 s2]|]; reflexivity.
Qed.

Lemma o_run_len ops : forall s rs s', o_run s ops = Fine (rs, s') -> length rs = length ops.
Proof.
  induction ops as [|o ops IH]; intros s rs s'; cbn [o_run].
  - injection 1 as <- <-. reflexivity.
  - destruct (o_step s o) as [[r s1]|]; cbn [abind]; [|discriminate].
    destruct (o_run s1 ops) as [[r1 s2]|] eqn:E; cbn [abind]; [|discriminate].
    injection 1 as <- <-. cbn. f_equal. eapply IH; eauto.
Qed.

(** A sequence that goes outside does so after a failed sputc that was followed only by failed flushes. *)
Lemma o_outside ops : forall h rs s0 s, o_run s0 h = Fine (rs, s) ->
  (o_bounds epp s \/ (o_bounds WRITE_BUFFER_SIZE s /\ stuck_after h rs)) -> o_run s ops = Outside ->
  exists ops1 o ops2 rs1 s1, ops = ops1 ++ o :: ops2 /\ o <> OSync /\
    o_run s0 (h ++ ops1) = Fine (rs1, s1) /\ stuck_after (h ++ ops1) rs1 /\ o_step s1 o = Outside.
Proof.
  induction ops as [|o ops IH]; intros h rs s0 s E Hs Ho; [discriminate|].
  cbn [o_run] in Ho.
  assert (forall r s', o_step s o = Fine (r, s') ->
    (o_bounds epp s' \/ (o_bounds WRITE_BUFFER_SIZE s' /\ stuck_after (h ++ [o]) (rs ++ [r]))) ->
    exists ops1 o' ops2 rs1 s1, o :: ops = ops1 ++ o' :: ops2 /\ o' <> OSync /\
    o_run s0 (h ++ ops1) = Fine (rs1, s1) /\ stuck_after (h ++ ops1) rs1 /\ o_step s1 o' = Outside) as K.
  { intros r s' E1 Hs'. rewrite E1 in Ho. cbn [abind] in Ho.
    destruct (o_run s' ops) as [[? ?]|] eqn:E2; cbn [abind] in Ho; [discriminate|].
    assert (o_run s0 (h ++ [o]) = Fine (rs ++ [r], s')) as E3.
    { rewrite o_run_app, E. cbn [abind o_run]. rewrite E1. reflexivity. }
    destruct (IH _ _ _ _ E3 Hs' E2) as (ops1 & o' & ops2 & rs1 & s1 & -> & Hn & E4 & Hst & Hout).
    exists (o :: ops1), o', ops2, rs1, s1. rewrite <- app_assoc in E4, Hst. auto 10. }
  destruct Hs as [Hb | [Hb Hst]].
  - destruct (o_step_bounds s o Hb) as (r & s' & E1 & [Hb' | (Hb' & (c & ->) & ->)]).
    + eapply K; eauto.
    + eapply K; eauto. right. split; auto. exists h, rs, c, [], []. repeat split; auto. eapply o_run_len; eauto.
  - destruct o as [c|d|].
    + destruct (o_step s (OPut c)) as [[r s']|] eqn:E1.
      * (* safe after all *)
        destruct (Z.le_gt_cases (opp s) epp) as [Hle|Hgt].
        -- assert (o_bounds epp s) as Hb2 by (destruct Hb; split; auto; lia).
           destruct (o_step_bounds s (OPut c) Hb2) as (r2 & s2 & E2 & [Hb' | (Hb' & _ & Hr)]); rewrite E1 in E2; injection E2 as <- <-.
           ++ eapply K; eauto.
           ++ eapply K; eauto. right. split; auto. rewrite Hr. exists h, rs, c, [], []. repeat split; auto. eapply o_run_len; eauto.
        -- exfalso. cbn [o_step] in E1. destruct (Z.ltb_spec (opp s) epp) in E1; [lia|].
           unfold overflow, put_char, write_mem in E1.
           destruct (in_mem (omem s) (opp s) (zlen [c])) eqn:Em; [|discriminate].
           apply in_mem_spec in Em. destruct Hb as [A B]. unfold epp in *. cbn in Em. lia.
      * exists [], (OPut c), ops, rs, s. rewrite app_nil_r. split; auto. split; [discriminate|]. auto.
    + destruct (o_step s (OWrite d)) as [[r s']|] eqn:E1.
      * destruct (Z.le_gt_cases (opp s) epp) as [Hle|Hgt].
        -- assert (o_bounds epp s) as Hb2 by (destruct Hb; split; auto; lia).
           destruct (o_step_bounds s (OWrite d) Hb2) as (r2 & s2 & E2 & [Hb' | (Hb' & (c & X) & _)]); [|discriminate].
           rewrite E1 in E2; injection E2 as <- <-. eapply K; eauto.
        -- (* a block write from beyond the limit: only a failed flush lets it return *)
           cbn [o_step] in E1. unfold xsputn in E1. pose proof (zlen_nonneg d).
           destruct (Z.leb_spec (zlen d) (epp - opp s)) in E1; [lia|].
           destruct (Z.ltb_spec 0 (epp - opp s)) in E1; [lia|]. cbn [abind] in E1.
           destruct (flush_spec s Hb) as (e & s2 & E2 & Hm2 & Hc & _). rewrite E2 in E1. cbn [abind] in E1.
           destruct e.
           ++ (* the call failed: it acts like a failed flush, and is not one *)
              injection E1 as <- <-. destruct Hc as [Hp _]. eapply K; [reflexivity|]. right. split.
              { destruct Hb. split; [congruence|]. lia. }
              destruct Hst as (ops1 & res1 & c & ops2 & res2 & -> & -> & Hl & HF).
              exists ops1, res1, c, (ops2 ++ [OWrite d]), (res2 ++ [RWrite 0]).
              rewrite <- !app_assoc, <- !app_comm_cons. repeat split; auto. apply Forall_app. auto.
           ++ exfalso. unfold read_mem in E1.
              destruct (in_mem d (epp - opp s) (zlen d - (epp - opp s))) eqn:Em; cbn in E1; [|discriminate].
              apply in_mem_spec in Em. lia.
      * exists [], (OWrite d), ops, rs, s. rewrite app_nil_r. split; auto. split; [discriminate|]. auto.
    + destruct (o_sync_bounds s Hb) as (b & s' & E1 & [Hb' | [Hb' ->]]).
      * eapply K; eauto.
      * eapply K; eauto. right. split; auto.
        destruct Hst as (ops1 & res1 & c & ops2 & res2 & -> & -> & Hl & HF).
        exists ops1, res1, c, (ops2 ++ [OSync]), (res2 ++ [RSync false]).
        rewrite <- !app_assoc, <- !app_comm_cons. repeat split; auto. apply Forall_app. auto.
Qed.
