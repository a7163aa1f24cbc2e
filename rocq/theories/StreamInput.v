(** Proofs about the input side of the TCP stream buffer: it serves its reader as StreamSpec.v says. *)
From Coq Require Import String ZArith List Lia Bool.
From Verif Require Import Base StreamModel StreamSpec StreamProofs.
Import ListNotations.

Lemma skipn_slice m a n k : 0 <= k -> 0 <= a -> skipn (Z.to_nat k) (slice m a n) = slice m (a + k) (n - k).
Proof.
  intros. apply nth_error_ext. intros i. rewrite nth_error_skipn, !nth_error_slice.
  destruct (Nat.ltb_spec (Z.to_nat k + i) (Z.to_nat n)), (Nat.ltb_spec i (Z.to_nat (n - k))); try lia; auto.
  f_equal. lia.
Qed.

Definition i_bounds (s : istate) : Prop :=
  zlen (imem s) = READ_BUFFER_SIZE /\ 0 <= ieb s <= igp s /\ igp s <= ieg s <= READ_BUFFER_SIZE.

Definition i_inv (b : bool) (p : list Z) (f : list (option Z)) (h : Z) (s : istate) (es : list revent) : Prop :=
  i_bounds s /\ f = map Some (slice (imem s) (igp s) (ieg s - igp s)) ++ arriving es /\
  zlen p <= h <= zlen p + (ieg s - igp s) /\
  (b = false -> igp s - ieb s <= zlen p /\
     slice (imem s) (ieb s) (igp s - ieb s) = rev (firstn (Z.to_nat (igp s - ieb s)) p) /\
     Z.min 10 h - (h - zlen p) <= igp s - ieb s).

Lemma last_slice m a k pb p : 0 <= a -> 0 <= pb <= k -> k <= zlen p ->
  slice m a k = rev (firstn (Z.to_nat k) p) -> slice m (a + k - pb) pb = rev (firstn (Z.to_nat pb) p).
Proof.
  intros Ha Hpb Hk E. pose proof (f_equal (skipn (Z.to_nat (k - pb))) E) as E2.
  rewrite skipn_slice in E2 by lia. replace (a + (k - pb)) with (a + k - pb) in E2 by lia.
  replace (k - (k - pb)) with pb in E2 by lia. rewrite E2, skipn_rev, firstn_firstn, firstn_length.
  f_equal. f_equal. unfold zlen in Hk. lia.
Qed.

(** The bytes moved to the front by underflow. *)
Lemma moved b p f h s es pb : i_inv b p f h s es -> pb = Z.min (igp s - ieb s) PUT_BACK_MAX ->
  exists m1, (if 0 <? pb
       then ibind (iacc (read_mem (imem s) (igp s - pb) pb)) (fun d => iacc (write_mem (imem s) (PUT_BACK_MAX - pb) d))
       else Ret (imem s)) = Ret m1 /\ zlen m1 = READ_BUFFER_SIZE /\
    (b = false -> slice m1 (PUT_BACK_MAX - pb) pb = rev (firstn (Z.to_nat pb) p)).
Proof.
  intros (Hb & Hf & Hh & Hc) ->. destruct Hb as (Hm & Hp & He).
  set (pb := Z.min (igp s - ieb s) PUT_BACK_MAX). unfold READ_BUFFER_SIZE, PUT_BACK_MAX in *.
  destruct (Z.ltb_spec 0 pb) as [H|H].
  - rewrite read_mem_fine by (subst pb; lia). cbn [iacc ibind].
    assert (zlen (slice (imem s) (igp s - pb) pb) = pb) as Hl by (apply zlen_slice; subst pb; lia).
    rewrite write_mem_fine by (rewrite ?Hl; subst pb; lia). cbn [iacc].
    eexists; split; [reflexivity|]. split; [rewrite zlen_blit; rewrite ?Hl; auto; subst pb; lia|].
    intros Eb. destruct (Hc Eb) as (Hk & Hs & _).
    rewrite <- (last_slice (imem s) (ieb s) (igp s - ieb s) pb p) by (auto; subst pb; lia).
    replace (ieb s + (igp s - ieb s) - pb) with (igp s - pb) by lia.
    pose proof (slice_blit_same (imem s) (10 - pb) (slice (imem s) (igp s - pb) pb)) as SB.
    rewrite Hl in SB. apply SB; subst pb; lia.
  - assert (pb = 0) as -> by (subst pb; lia). eexists; split; [reflexivity|]. split; auto.
Qed.

Lemma arriving_cons e es : arriving (e :: es) = (match e with Got d => map Some d | RErr => [None] end) ++ arriving es.
Proof. reflexivity. Qed.

Lemma slice_one m a : 0 <= a < zlen m -> exists c, slice m a 1 = [c].
Proof.
  intros H. assert (zlen (slice m a 1) = 1) as L by (apply zlen_slice; lia).
  destruct (slice m a 1) as [|c [|? ?]]; [discriminate|eauto|rewrite !zlen_cons in L; pose proof (zlen_nonneg l); lia].
Qed.

Lemma underflow_spec b p f h s es : i_inv b p f h s es -> Forall rev_ok es ->
  match underflow s es with
  | Out => False
  | Wait => f = [] /\ es = []
  | Ret (c, s', es') => Forall rev_ok es' /\ (igp s = ieg s -> length es = S (length es')) /\
      (igp s < ieg s -> s' = s /\ es' = es) /\
      match c with
      | Some c => (exists f', f = Some c :: f') /\ i_inv b p f h s' es' /\ igp s' < ieg s' /\ slice (imem s') (igp s') 1 = [c]
      | None => exists f', f = None :: f' /\ i_inv true p f' h s' es'
      end
  end.
Proof.
  intros I F. pose proof I as (Hb & Hf & Hh & Hc). pose proof Hb as (Hm & Hp & He). unfold underflow.
  destruct (Z.ltb_spec (igp s) (ieg s)) as [H|H].
  - rewrite read_mem_fine by lia. cbn [iacc ibind].
    destruct (slice_one (imem s) (igp s) ltac:(lia)) as [c Ec]. rewrite Ec. cbn [hd_error].
    split; auto. split; [lia|]. split; [auto|]. split; [|auto].
    replace (ieg s - igp s) with (1 + (ieg s - igp s - 1)) in Hf by lia.
    rewrite slice_app, Ec in Hf by lia. cbn [map app] in Hf. eauto.
  - assert (igp s = ieg s) as Eg by lia.
    destruct (moved b p f h s es _ I eq_refl) as (m1 & -> & Hm1 & Hs1). cbn [ibind].
    set (pb := Z.min (igp s - ieb s) PUT_BACK_MAX) in *.
    replace (ieg s - igp s) with 0 in Hf, Hh by lia. rewrite slice_nil in Hf. cbn [map app] in Hf.
    destruct es as [|[d|] es]; [auto| |].
    + inversion F as [|? ? Hd F']; subst. cbn [rev_ok] in Hd.
      rewrite write_mem_fine by (unfold PUT_BACK_MAX, READ_BUFFER_SIZE in *; lia). cbn [iacc ibind].
      assert (zlen (blit m1 PUT_BACK_MAX d) = READ_BUFFER_SIZE) as Hm2.
      { rewrite zlen_blit; auto; unfold PUT_BACK_MAX, READ_BUFFER_SIZE in *; lia. }
      assert (slice (blit m1 PUT_BACK_MAX d) PUT_BACK_MAX (zlen d) = d) as Hd2.
      { apply slice_blit_same; unfold PUT_BACK_MAX, READ_BUFFER_SIZE in *; lia. }
      rewrite read_mem_fine by (rewrite ?Hm2; unfold PUT_BACK_MAX, READ_BUFFER_SIZE in *; lia). cbn [iacc ibind].
      destruct (slice_one (blit m1 PUT_BACK_MAX d) PUT_BACK_MAX) as [c Ec].
      { rewrite Hm2. unfold PUT_BACK_MAX, READ_BUFFER_SIZE. lia. }
      rewrite Ec. cbn [hd_error]. split; auto. split; [auto|]. split; [lia|].
      cbn [imem igp ieg]. split; [|split; [|split; [lia|auto]]].
      * rewrite arriving_cons.
        replace (zlen d) with (1 + (zlen d - 1)) in Hd2 by lia.
        rewrite slice_app, Ec in Hd2 by (rewrite ?Hm2; unfold PUT_BACK_MAX, READ_BUFFER_SIZE in *; lia).
        rewrite <- Hd2. cbn [app map]. eauto.
      * split; [|split; [|split]]; cbn [imem ieb igp ieg].
        -- split; auto. cbn [ieb igp ieg]. unfold pb, PUT_BACK_MAX, READ_BUFFER_SIZE in *. lia.
        -- rewrite arriving_cons. f_equal. f_equal.
           replace (PUT_BACK_MAX + zlen d - PUT_BACK_MAX) with (zlen d) by lia. symmetry. apply Hd2.
        -- lia.
        -- intros Eb. destruct (Hc Eb) as (Hk & Hs & Hroom).
           replace (PUT_BACK_MAX - (PUT_BACK_MAX - pb)) with pb by lia.
           split; [unfold pb; lia|]. split.
           ++ rewrite slice_blit_other by (unfold pb, PUT_BACK_MAX, READ_BUFFER_SIZE in *; lia). auto.
           ++ unfold pb, PUT_BACK_MAX. lia.
    + inversion F as [|? ? Hd F']; subst. split; auto. split; [auto|]. split; [lia|].
      exists (arriving es). split; [reflexivity|]. split; [|split; [|split]]; cbn [imem ieb igp ieg].
      * split; cbn [imem ieb igp ieg]; auto.
      * replace (ieg s - igp s) with 0 by lia. reflexivity.
      * lia.
      * discriminate.
Qed.

(** Taking [k] bytes from the buffer. *)
Lemma take_inv b p f h s es k : i_inv b p f h s es -> 0 <= k <= ieg s - igp s ->
  exists f', f = map Some (slice (imem s) (igp s) k) ++ f' /\
    i_inv b (rev (slice (imem s) (igp s) k) ++ p) f' (Z.max h (zlen (rev (slice (imem s) (igp s) k) ++ p)))
      {| imem := imem s; ieb := ieb s; igp := igp s + k; ieg := ieg s |} es.
Proof.
  intros (Hb & Hf & Hh & Hc) Hk. destruct Hb as (Hm & Hp & He).
  set (d := slice (imem s) (igp s) k).
  assert (zlen d = k) as Hd by (apply zlen_slice; lia).
  exists (map Some (slice (imem s) (igp s + k) (ieg s - (igp s + k))) ++ arriving es). split.
  - rewrite Hf, app_assoc, <- map_app. f_equal. f_equal.
    replace (ieg s - igp s) with (k + (ieg s - (igp s + k))) by lia. apply slice_app; lia.
  - assert (zlen (rev d ++ p) = k + zlen p) as Hl by (rewrite zlen_app; unfold zlen in *; rewrite rev_length; lia).
    split; [|split; [|split]]; cbn [imem ieb igp ieg].
    + split; cbn [imem ieb igp ieg]; auto. lia.
    + reflexivity.
    + lia.
    + intros Eb. destruct (Hc Eb) as (Hk1 & Hs & Hroom). split; [lia|]. split; [|lia].
      replace (igp s + k - ieb s) with ((igp s - ieb s) + k) by lia. rewrite slice_app, Hs by lia.
      replace (ieb s + (igp s - ieb s)) with (igp s) by lia. fold d.
      rewrite firstn_app. rewrite rev_app_distr. f_equal.
      * f_equal. f_equal. rewrite rev_length. unfold zlen in Hd. lia.
      * rewrite firstn_all2 by (rewrite rev_length; unfold zlen in Hd; lia). rewrite rev_involutive. reflexivity.
Qed.

(** Block reads. *)
Lemma xsgetn_spec fuel : forall b p f h s es n got, i_inv b p f h s es -> Forall rev_ok es ->
  (length es + 2 <= fuel)%nat ->
  match xsgetn fuel s es n got with
  | Out => False
  | Wait => exists d, f = map Some d /\ zlen d < n
  | Ret (g, s', es') => Forall rev_ok es' /\ exists d f', g = got ++ d /\
      ((f = map Some d ++ f' /\ zlen d = Z.max 0 n /\ i_inv b (rev d ++ p) f' (Z.max h (zlen (rev d ++ p))) s' es') \/
       (f = map Some d ++ None :: f' /\ zlen d < n /\ i_inv true (rev d ++ p) f' (Z.max h (zlen (rev d ++ p))) s' es'))
  end.
Proof.
  induction fuel as [|fuel IH]; intros b p f h s es n got I F Hfuel; [lia|].
  cbn [xsgetn]. destruct (Z.ltb_spec 0 n) as [Hn|Hn].
  2:{ split; auto. exists [], f. rewrite app_nil_r. split; auto. left. split; [reflexivity|].
      split; [rewrite zlen_nil; lia|]. cbn [rev app].
      pose proof I as (_ & _ & Hh & _). replace (Z.max h (zlen p)) with h by lia. auto. }
  pose proof I as (Hb & Hf & Hh & Hc). pose proof Hb as (Hm & Hp & He).
  set (k := Z.min n (ieg s - igp s)).
  destruct (take_inv b p f h s es k I ltac:(unfold k; lia)) as (f1 & Hf1 & I1).
  set (d := slice (imem s) (igp s) k) in *. set (s1 := {| imem := imem s; ieb := ieb s; igp := igp s + k; ieg := ieg s |}) in *.
  assert (zlen d = k) as Hd by (apply zlen_slice; unfold k; lia).
  assert ((if 0 <? k
     then ibind (iacc (read_mem (imem s) (igp s) k)) (fun d => Ret (got ++ d, s1, n - k))
     else Ret (got, s, n)) = Ret (got ++ d, s1, n - k)) as Et.
  { destruct (Z.ltb_spec 0 k).
    - rewrite read_mem_fine by (unfold k in *; lia). reflexivity.
    - assert (k = 0) as Z0 by (unfold k in *; lia).
      assert (d = []) as -> by (unfold d; rewrite Z0; reflexivity).
      rewrite app_nil_r. unfold s1. rewrite Z0, Z.add_0_r, Z.sub_0_r. destruct s; reflexivity. }
  cbn zeta. fold k. fold s1. rewrite Et. cbn [ibind].
  assert (zlen (rev d ++ p) = k + zlen p) as Hl by (rewrite zlen_app; unfold zlen in *; rewrite rev_length; lia).
  destruct (Z.ltb_spec 0 (n - k)) as [Hr|Hr].
  - assert (k = ieg s - igp s) as Ek by (unfold k in *; lia).
    assert (igp s1 = ieg s1) as Eg by (cbn; lia).
    pose proof (underflow_spec _ _ _ _ _ _ I1 F) as U.
    destruct (underflow s1 es) as [[[c s2] es2]| |]; cbn [ibind]; [| |contradiction].
    + destruct U as (F2 & Hlen & _ & U). specialize (Hlen Eg). destruct c as [c|].
      * destruct U as ((f' & Ef1) & I2 & Hlt & _).
        assert (length es2 + 2 <= fuel)%nat as Hf2 by lia.
        specialize (IH b _ _ _ s2 es2 (n - k) (got ++ d) I2 F2 Hf2).
        destruct (xsgetn fuel s2 es2 (n - k) (got ++ d)) as [[[g s3] es3]| |]; auto.
        -- destruct IH as (F3 & d2 & f2 & -> & Hcase). split; auto. exists (d ++ d2), f2.
           rewrite <- app_assoc. split; auto.
           assert (rev (d ++ d2) ++ p = rev d2 ++ rev d ++ p) as Er by (rewrite rev_app_distr, <- app_assoc; reflexivity).
           assert (zlen (rev d2 ++ rev d ++ p) >= zlen (rev d ++ p)) as Hge.
           { rewrite (zlen_app (rev d2)). pose proof (zlen_nonneg (rev d2)). lia. }
           assert (Z.max h (zlen (rev d2 ++ rev d ++ p)) = Z.max (Z.max h (zlen (rev d ++ p))) (zlen (rev d2 ++ rev d ++ p))) as Em by lia.
           rewrite Er, Em, map_app, <- app_assoc, zlen_app.
           destruct Hcase as [(Ef & Hz & I3) | (Ef & Hz & I3)]; [left|right].
           ++ split; [congruence|]. split; [lia|auto].
           ++ split; [rewrite <- app_assoc; congruence|]. split; [lia|auto].
        -- destruct IH as (d2 & Ef & Hz). exists (d ++ d2). rewrite map_app, zlen_app. split; [congruence|lia].
      * destruct U as (f' & Ef1 & I2). split; auto. exists d, f'. split; auto. right. split; [congruence|]. split; [lia|auto].
    + destruct U as [Ef1 _]. exists d. rewrite Hf1, Ef1, app_nil_r. split; auto. lia.
  - assert (k = n) as Ek by (unfold k in *; lia).
    destruct fuel as [|fuel].
    + exfalso. lia.
    + cbn [xsgetn]. destruct (Z.ltb_spec 0 (n - k)); [lia|].
      split; auto. exists d, f1. split; auto. left. split; auto. split; [lia|auto].
Qed.

Lemma back_spec p f h s es : i_inv false p f h s es ->
  (ieb s < igp s /\ exists c p', p = c :: p' /\ slice (imem s) (igp s - 1) 1 = [c] /\
     i_inv false p' (Some c :: f) h {| imem := imem s; ieb := ieb s; igp := igp s - 1; ieg := ieg s |} es) \/
  (~ ieb s < igp s /\ (p = [] \/ 10 <= h - zlen p)).
Proof.
  intros I. pose proof I as (Hb & Hf & Hh & Hc). pose proof Hb as (Hm & Hp & He).
  destruct (Hc eq_refl) as (Hk & Hs & Hroom).
  destruct (Z_lt_dec (ieb s) (igp s)) as [H|H].
  - left. split; auto. destruct p as [|c p']; [rewrite zlen_nil in Hk; lia|].
    exists c, p'. split; auto.
    assert (slice (imem s) (igp s - 1) 1 = [c]) as Ec.
    { pose proof (last_slice (imem s) (ieb s) (igp s - ieb s) 1 (c :: p') ltac:(lia) ltac:(lia) Hk Hs) as L.
      replace (ieb s + (igp s - ieb s) - 1) with (igp s - 1) in L by lia. exact L. }
    split; auto. rewrite zlen_cons in *.
    split; [|split; [|split]]; cbn [imem ieb igp ieg].
    + split; cbn [imem ieb igp ieg]; auto. lia.
    + replace (ieg s - (igp s - 1)) with (1 + (ieg s - igp s)) by lia. rewrite slice_app, Ec by lia.
      replace (igp s - 1 + 1) with (igp s) by lia. cbn [map app]. congruence.
    + lia.
    + intros _. split; [lia|]. split; [|lia].
      replace (igp s - ieb s) with ((igp s - 1 - ieb s) + 1) in Hs by lia. rewrite slice_app in Hs by lia.
      replace (ieb s + (igp s - 1 - ieb s)) with (igp s - 1) in Hs by lia. rewrite Ec in Hs.
      replace (Z.to_nat (igp s - 1 - ieb s + 1)) with (S (Z.to_nat (igp s - 1 - ieb s))) in Hs by lia.
      cbn [firstn rev] in Hs. apply app_inj_tail in Hs as [Hs _]. exact Hs.
  - right. split; auto. destruct p as [|c p']; auto. right. rewrite zlen_cons in *.
    pose proof (zlen_nonneg p'). lia.
Qed.


(** ** Memory safety, for any calls and any events *)

Lemma bounds_inv s es : i_bounds s ->
  i_inv true [] (map Some (slice (imem s) (igp s) (ieg s - igp s)) ++ arriving es) 0 s es.
Proof.
  intros Hb. split; [auto|]. split; [auto|]. split; [|discriminate]. destruct Hb as (_ & _ & ?).
  change (zlen []) with 0. lia.
Qed.

Lemma fuel_enough (es : list revent) : (length es + 2 <= length es + 3)%nat.
Proof. lia. Qed.

Lemma i_step_safe s es o : i_bounds s -> Forall rev_ok es ->
  match i_step s es o with
  | Out => False | Wait => True | Ret (v, s', es') => i_bounds s' /\ Forall rev_ok es'
  end.
Proof.
  intros Hb F. pose proof (bounds_inv s es Hb) as I.
  assert (forall want, match
    (if ieb s <? igp s then
      ibind (iacc (read_mem (imem s) (igp s - 1) 1)) (fun d =>
      let c := hd 0 d in
      if match want with Some w => w =? c | None => true end
      then Ret (VChar (Some c), {| imem := imem s; ieb := ieb s; igp := igp s - 1; ieg := ieg s |}, es)
      else Ret (VChar None, s, es))
    else Ret (VChar None, s, es)) with Out => False | Wait => True | Ret (v, s', es') => i_bounds s' /\ Forall rev_ok es' end) as K.
  { intros want. destruct (Z.ltb_spec (ieb s) (igp s)); auto.
    pose proof Hb as (Hm & Hp & He). rewrite read_mem_fine by lia. cbn [iacc ibind]. cbn zeta.
    destruct (match want with Some w => w =? hd 0 (slice (imem s) (igp s - 1) 1) | None => true end); auto.
    split; auto. split; cbn [imem ieb igp ieg]; auto. lia. }
  destruct o as [ | | n | |w]; cbn [i_step]; [| | |apply (K None)|apply (K (Some w))]; clear K.
  - pose proof (underflow_spec _ _ _ _ _ _ I F) as U.
    destruct (underflow s es) as [[[[c|] s2] es2]| |]; cbn [ibind]; auto.
    + destruct U as (F2 & _ & _ & _ & (Hb2 & _) & _). auto.
    + destruct U as (F2 & _ & _ & f' & _ & (Hb2 & _)). auto.
  - pose proof (underflow_spec _ _ _ _ _ _ I F) as U.
    destruct (underflow s es) as [[[[c|] s2] es2]| |]; cbn [ibind]; auto.
    + destruct U as (F2 & _ & _ & _ & ((Hm & Hp & He) & _) & Hlt & _). split; auto. split; cbn [imem ieb igp ieg]; auto. lia.
    + destruct U as (F2 & _ & _ & f' & _ & (Hb2 & _)). auto.
  - pose proof (xsgetn_spec (length es + 3) _ _ _ _ _ _ n [] I F (fuel_enough es)) as U.
    destruct (xsgetn (length es + 3) s es n []) as [[[g s2] es2]| |]; cbn [ibind]; auto.
    destruct U as (F2 & d & f' & _ & [(_ & _ & (Hb2 & _)) | (_ & _ & (Hb2 & _))]); auto.
Qed.

Theorem i_run_safe ops : forall s es, i_bounds s -> Forall rev_ok es -> i_run s es ops <> None.
Proof.
  induction ops as [|o ops IH]; intros s es Hb F; cbn [i_run]; [discriminate|].
  pose proof (i_step_safe s es o Hb F) as U.
  destruct (i_step s es o) as [[[v s2] es2]| |]; [|discriminate|contradiction].
  destruct U as [Hb2 F2]. specialize (IH _ _ Hb2 F2).
  destruct (i_run s2 es2 ops) as [[[vs s3] es3]|]; congruence.
Qed.

(** ** The reader is served *)

Theorem i_run_served ops : forall b p f h s es vs s' es', i_inv b p f h s es -> Forall rev_ok es ->
  i_run s es ops = Some (vs, s', es') -> served b p f h ops vs.
Proof.
  induction ops as [|o ops IH]; intros b p f h s es vs s' es' I F; cbn [i_run].
  { injection 1 as <- <- <-. constructor. }
  destruct o as [ | | n | |w].
  - cbn [i_step]. pose proof (underflow_spec _ _ _ _ _ _ I F) as U.
    destruct (underflow s es) as [[[c s2] es2]| |]; cbn [ibind]; [| |contradiction].
    + destruct U as (F2 & _ & _ & U). destruct (i_run s2 es2 ops) as [[[vs0 s3] es3]|] eqn:E; [|discriminate].
      injection 1 as <- <- <-. destruct c as [c|].
      * destruct U as ((f' & Ef) & I2 & _ & _). specialize (IH _ _ _ _ _ _ _ _ _ I2 F2 E). subst f. constructor. exact IH.
      * destruct U as (f' & Ef & I2). specialize (IH _ _ _ _ _ _ _ _ _ I2 F2 E). subst f. constructor. exact IH.
    + injection 1 as <- <- <-. destruct U as [-> _]. constructor.
  - cbn [i_step]. pose proof (underflow_spec _ _ _ _ _ _ I F) as U.
    destruct (underflow s es) as [[[c s2] es2]| |]; cbn [ibind]; [| |contradiction].
    + destruct U as (F2 & _ & _ & U). destruct c as [c|].
      * destruct U as ((f' & Ef) & I2 & Hlt & Ec).
        destruct (take_inv _ _ _ _ _ _ 1 I2 ltac:(lia)) as (f1 & Ef1 & I3). rewrite Ec in Ef1, I3. cbn [rev app] in I3.
        cbn [map app] in Ef1.
        destruct (i_run _ es2 ops) as [[[vs0 s3] es3]|] eqn:E; [|discriminate].
        injection 1 as <- <- <-. specialize (IH _ _ _ _ _ _ _ _ _ I3 F2 E). rewrite Ef1. constructor. exact IH.
      * destruct (i_run s2 es2 ops) as [[[vs0 s3] es3]|] eqn:E; [|discriminate].
        injection 1 as <- <- <-. destruct U as (f' & Ef & I2). specialize (IH _ _ _ _ _ _ _ _ _ I2 F2 E).
        subst f. constructor. exact IH.
    + injection 1 as <- <- <-. destruct U as [-> _]. constructor.
  - cbn [i_step]. pose proof (xsgetn_spec (length es + 3) _ _ _ _ _ _ n [] I F (fuel_enough es)) as U.
    destruct (xsgetn (length es + 3) s es n []) as [[[g s2] es2]| |]; cbn [ibind]; [| |contradiction].
    + destruct U as (F2 & d & f' & -> & U). cbn [app].
      destruct (i_run s2 es2 ops) as [[[vs0 s3] es3]|] eqn:E; [|discriminate].
      injection 1 as <- <- <-. destruct U as [(-> & Hz & I2) | (-> & Hz & I2)].
      * constructor; auto. eapply IH; eauto.
      * apply sv_read_eof; auto. eapply IH; eauto.
    + injection 1 as <- <- <-. destruct U as (d & -> & Hz). constructor; auto.
  - destruct b; [intros _; apply sv_lost; auto|]. cbn [i_step].
    destruct (back_spec p f h s es I) as [(H & c & p' & -> & Ec & I2) | (H & Hno)].
    + destruct (Z.ltb_spec (ieb s) (igp s)); [|lia].
      pose proof I as ((Hm & Hp & He) & _). rewrite read_mem_fine by lia. cbn [iacc ibind]. rewrite Ec. cbn [hd]. cbn zeta.
      destruct (i_run _ es ops) as [[[vs0 s3] es3]|] eqn:E; [|discriminate].
      injection 1 as <- <- <-. constructor. eapply IH; eauto.
    + destruct (Z.ltb_spec (ieb s) (igp s)); [lia|].
      destruct (i_run _ es ops) as [[[vs0 s3] es3]|] eqn:E; [|discriminate].
      injection 1 as <- <- <-. apply sv_unget_no; auto. eapply IH; eauto.
  - destruct b; [intros _; apply sv_lost; eauto|]. cbn [i_step].
    destruct (back_spec p f h s es I) as [(H & c & p' & -> & Ec & I2) | (H & Hno)].
    + destruct (Z.ltb_spec (ieb s) (igp s)); [|lia].
      pose proof I as ((Hm & Hp & He) & _). rewrite read_mem_fine by lia. cbn [iacc ibind]. rewrite Ec. cbn [hd]. cbn zeta.
      destruct (Z.eqb_spec w c) as [->|Hne].
      * destruct (i_run _ es ops) as [[[vs0 s3] es3]|] eqn:E; [|discriminate].
        injection 1 as <- <- <-. constructor. eapply IH; eauto.
      * destruct (i_run _ es ops) as [[[vs0 s3] es3]|] eqn:E; [|discriminate].
        injection 1 as <- <- <-. apply sv_putback_no; [right; right; cbn; congruence|]. eapply IH; eauto.
    + destruct (Z.ltb_spec (ieb s) (igp s)); [lia|].
      destruct (i_run _ es ops) as [[[vs0 s3] es3]|] eqn:E; [|discriminate].
      injection 1 as <- <- <-. apply sv_putback_no; [tauto|]. eapply IH; eauto.
Qed.

Lemma i_init_inv junk es : zlen junk = READ_BUFFER_SIZE -> i_inv false [] (arriving es) 0 (i_init junk) es.
Proof.
  intros H. split; [|split; [|split]]; cbn [i_init imem ieb igp ieg].
  - split; cbn [i_init imem ieb igp ieg]; auto. unfold READ_BUFFER_SIZE, PUT_BACK_MAX. lia.
  - rewrite Z.sub_diag. reflexivity.
  - rewrite Z.sub_diag. change (zlen []) with 0. lia.
  - intros _. rewrite Z.sub_diag. split; [reflexivity|]. split; [reflexivity|]. change (zlen []) with 0. lia.
Qed.
