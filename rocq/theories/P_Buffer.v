(** C155: the content of a message is a value: copies and assignments of messages take it over whole, and no change of one message shows in another. *)
From Coq Require Import ZArith List Bool Lia.
From Verif Require Import Base HttpModel Threads BufferModel.
Import ListNotations.

(** What a program expects of buffers: each holds a value, the bytes of the content ([None]: a byte not written yet). [self] is what it
    expects of an assignment of a buffer to itself. A step that no program may do (a buffer that is not there, bytes past the end) is [None].
    If memory is refused, nothing changes, and a copy does not come to be. *)
Definition vals := list (option (list (option Z))).
Definition val (s : vals) (i : nat) : option (list (option Z)) := match nth_error s i with Some v => v | None => None end.
Definition has_room (g : bool) (len : Z) : bool := g || (len =? 0).
Definition expect (self : list (option Z) -> list (option Z)) (s : vals) (x : bop) : option vals :=
  match x with
  | BNew => Some (s ++ [Some []])
  | BCopy j g => match val s j with Some v => Some (s ++ [if has_room g (zlen v) then Some v else None]) | None => None end
  | BAssign i j g => match val s i, val s j with
                     | Some v, Some w => Some (set_nth i (Some (if has_room g (zlen w) then (if Nat.eqb i j then self w else w) else v)) s)
                     | _, _ => None
                     end
  | BResize i len g => match val s i with
                       | Some v => if (0 <=? len) && (len <? 18446744073709551615) then Some (set_nth i (Some (if has_room g len then repeat None (Z.to_nat len) else v)) s) else None
                       | None => None
                       end
  | BClear i => match val s i with Some _ => Some (set_nth i (Some []) s) | None => None end
  | BWrite i off t => match val s i with
                      | Some v => if (0 <=? off) && (off + zlen t <=? zlen v)
                                  then Some (set_nth i (Some (firstn (Z.to_nat off) v ++ map Some t ++ skipn (Z.to_nat off + length t) v)) s) else None
                      | None => None
                      end
  | BDestroy i => match val s i with Some _ => Some (set_nth i None s) | None => None end
  end.
Fixpoint expects (self : list (option Z) -> list (option Z)) (s : vals) (l : list bop) : option vals :=
  match l with [] => Some s | x :: l' => match expect self s x with Some s' => expects self s' l' | None => None end end.

(** the memory before any buffer is there *)
Definition no_mem : mem := mkmem [] [].
(** Each buffer there is has the size and the bytes expected, with a zero after them; there are no others. *)
Definition holds (m : mem) (s : vals) : Prop :=
  forall i, match val s i with
            | Some v => c_size m i = Ok (zlen v) /\ c_bytes m i = Ok (v ++ [Some 0])
            | None => forall z, c_size m i <> Ok z
            end.
(** Every block of memory that is not freed belongs to a buffer. *)
Definition no_leak (m : mem) : Prop :=
  forall a b, nth_error (b_blocks m) a = Some (Some b) -> exists i o, obj m i = Ok o /\ c_buf o = Some a.

(** how an object, a value and the memory belong together *)
Definition fits (m : mem) (i : nat) (o : cbuf) (v : list (option Z)) : Prop :=
  c_len o = zlen v /\ c_empty o = 0 /\ zlen v < 18446744073709551615
  /\ match v with
     | [] => c_buf o = None /\ c_ptr o = PEmpty i
     | _ => exists a, c_buf o = Some a /\ c_ptr o = PBlock a /\ nth_error (b_blocks m) a = Some (Some (v ++ [Some 0]))
     end.
Record inv (m : mem) (s : vals) : Prop := {
  i_len : length (b_objs m) = length s;
  i_fit : forall i, match nth_error s i with
                    | Some (Some v) => exists o, nth_error (b_objs m) i = Some (Some o) /\ fits m i o v
                    | Some None => nth_error (b_objs m) i = Some None
                    | None => True
                    end;
  i_own : forall i j o p a, nth_error (b_objs m) i = Some (Some o) -> nth_error (b_objs m) j = Some (Some p) -> c_buf o = Some a -> c_buf p = Some a -> i = j;
  i_leak : forall a b, nth_error (b_blocks m) a = Some (Some b) -> exists i o, nth_error (b_objs m) i = Some (Some o) /\ c_buf o = Some a }.

Lemma obj_ok m i o : obj m i = Ok o <-> nth_error (b_objs m) i = Some (Some o).
Proof. unfold obj. destruct (nth_error (b_objs m) i) as [[p|]|]; split; intros H; try discriminate; congruence. Qed.
Lemma val_nth s i v : val s i = Some v <-> nth_error s i = Some (Some v).
Proof. unfold val. destruct (nth_error s i) as [[p|]|]; split; intros H; try discriminate; congruence. Qed.
Lemma inv_obj m s i v : inv m s -> val s i = Some v -> exists o, obj m i = Ok o /\ fits m i o v.
Proof. intros I V. apply val_nth in V. pose proof (i_fit m s I i) as F. rewrite V in F. destruct F as (o & A & B). exists o. split; [apply obj_ok; exact A|exact B]. Qed.
Lemma zlen_nil0 {A} (v : list A) : zlen v = 0 -> v = [].
Proof. destruct v; [auto|]. unfold zlen. cbn [length]. lia. Qed.
Lemma zlen_app {A} (v w : list A) : zlen (v ++ w) = zlen v + zlen w.
Proof. unfold zlen. rewrite app_length. lia. Qed.

(** the invariant gives what is observed *)
Lemma inv_holds m s : inv m s -> holds m s.
Proof.
  intros I i. destruct (val s i) as [v|] eqn:V.
  - destruct (inv_obj m s i v I V) as (o & O & (L & E & B & P)). unfold c_size, c_bytes. rewrite O. cbn [obind]. rewrite L. split; [reflexivity|].
    destruct v as [|x v].
    + destruct P as (_ & P). rewrite P. unfold load. rewrite O. cbn. rewrite E. reflexivity.
    + destruct P as (a & _ & P & N). rewrite P. unfold load. rewrite N. rewrite zlen_app. change (zlen [Some 0]) with 1. rewrite Z.leb_refl.
      rewrite firstn_all2; [reflexivity|]. unfold zlen. rewrite app_length. cbn [length]. lia.
  - intros z H. unfold c_size in H. destruct (obj m i) as [o|] eqn:O; [|discriminate]. apply obj_ok in O. unfold val in V. pose proof (i_fit m s I i) as F.
    destruct (nth_error s i) as [[w|]|] eqn:N; [discriminate|congruence|]. apply nth_error_None in N. rewrite <- (i_len m s I) in N. apply nth_error_None in N. congruence.
Qed.
Lemma inv_no_leak m s : inv m s -> no_leak m.
Proof. intros I a b N. destruct (i_leak m s I a b N) as (i & o & A & B). exists i, o. split; [apply obj_ok; exact A|exact B]. Qed.

Lemma nth_app_l {A} (l k : list A) i : (i < length l)%nat -> nth_error (l ++ k) i = nth_error l i.
Proof. intros. apply nth_error_app1. assumption. Qed.
Lemma nth_app_last {A} (l : list A) x : nth_error (l ++ [x]) (length l) = Some x.
Proof. rewrite nth_error_app2 by lia. rewrite PeanoNat.Nat.sub_diag. reflexivity. Qed.
Lemma nth_lt' {A} (l : list A) i x : nth_error l i = Some x -> (i < length l)%nat.
Proof. intros. apply nth_error_Some. congruence. Qed.
Lemma set_nth_app {A} i (x : A) : forall l k, (i < length l)%nat -> set_nth i x (l ++ k) = set_nth i x l ++ k.
Proof. induction i as [|i IH]; intros [|y l] k H; cbn in *; try lia; auto. f_equal. apply IH. lia. Qed.
Lemma set_nth_last {A} (x y : A) : forall l, set_nth (length l) x (l ++ [y]) = l ++ [x].
Proof. induction l as [|z l IH]; cbn; [reflexivity|]. rewrite IH. reflexivity. Qed.

(** the blocks without the one a buffer held *)
Definition without (l : list (option (list (option Z)))) (old : option nat) := match old with Some a => set_nth a None l | None => l end.
Lemma without_length l old : length (without l old) = length l.
Proof. destruct old; [apply set_nth_length|reflexivity]. Qed.
Lemma fits_block m i o v a : fits m i o v -> c_buf o = Some a -> exists b, nth_error (b_blocks m) a = Some (Some b).
Proof. intros (_ & _ & _ & P) E. destruct v as [|x v]; [destruct P; congruence|]. destruct P as (a' & E' & _ & N). exists ((x :: v) ++ [Some 0]). congruence. Qed.
Lemma resize_empty m i o : obj m i = Ok o -> (forall a, c_buf o = Some a -> exists b, nth_error (b_blocks m) a = Some (Some b)) -> forall g,
  c_resize m i 0 g = Ok (mkmem (without (b_blocks m) (c_buf o)) (set_nth i (Some (mkc None 0 (c_empty o) (PEmpty i))) (b_objs m)), false).
Proof.
  intros O H g. unfold c_resize. rewrite O. cbn [obind]. rewrite Z.eqb_refl. unfold free, set_obj. cbn [b_blocks b_objs]. destruct (c_buf o) as [a|] eqn:E.
  - destruct (H a eq_refl) as (b & N). rewrite N. cbn [obind b_blocks b_objs without]. rewrite set_nth_twice. reflexivity.
  - cbn [obind b_blocks b_objs without]. rewrite set_nth_twice. reflexivity.
Qed.
Lemma resize_full m i o len : obj m i = Ok o -> (forall a, c_buf o = Some a -> exists b, nth_error (b_blocks m) a = Some (Some b)) ->
  0 < len < 18446744073709551615 ->
  c_resize m i len true = Ok (mkmem (without (b_blocks m) (c_buf o) ++ [Some (repeat None (Z.to_nat len) ++ [Some 0])])
                                    (set_nth i (Some (mkc (Some (length (b_blocks m))) len (c_empty o) (PBlock (length (b_blocks m))))) (b_objs m)), false).
Proof.
  intros O H R. unfold c_resize. rewrite O. cbn [obind]. destruct (Z.eqb_spec len 0); [lia|]. cbn [negb]. unfold set_obj. cbn [b_blocks b_objs].
  replace (wrap64 (len + 1)) with (len + 1) by (unfold wrap64, two64; rewrite Z.mod_small; lia).
  replace (Z.to_nat (len + 1)) with (Z.to_nat len + 1)%nat by lia. rewrite repeat_app. cbn [repeat].
  set (blk := repeat None (Z.to_nat len) ++ [None]).
  assert (F : free (mkmem (b_blocks m ++ [Some blk]) (set_nth i (Some (mkc (c_buf o) len (c_empty o) (c_ptr o))) (b_objs m))) (c_buf o)
              = Ok (mkmem (without (b_blocks m) (c_buf o) ++ [Some blk]) (set_nth i (Some (mkc (c_buf o) len (c_empty o) (c_ptr o))) (b_objs m)))).
  { unfold free. cbn [b_blocks b_objs]. destruct (c_buf o) as [a|] eqn:E; [|reflexivity]. destruct (H a eq_refl) as (b & N). rewrite nth_app_l by (eapply nth_lt'; eauto). rewrite N.
    cbn [without]. rewrite set_nth_app by (eapply nth_lt'; eauto). reflexivity. }
  rewrite F. cbn [obind b_blocks b_objs]. unfold store. cbn [b_blocks b_objs].
  rewrite <- (without_length (b_blocks m) (c_buf o)). rewrite nth_app_last.
  assert (ZB : zlen blk = len + 1). { unfold blk. rewrite zlen_app. unfold zlen. rewrite repeat_length. cbn [length]. lia. }
  rewrite ZB. change (zlen [Some 0]) with 1. destruct (Z.leb_spec 0 len); [|lia]. rewrite Z.leb_refl. cbn [andb obind b_blocks b_objs]. rewrite set_nth_last, !set_nth_twice.
  unfold blk. rewrite firstn_app, repeat_length, PeanoNat.Nat.sub_diag. cbn [firstn]. rewrite app_nil_r. rewrite firstn_all2 by (rewrite repeat_length; lia).
  rewrite skipn_all2 by (rewrite app_length, repeat_length; cbn [length]; lia). rewrite app_nil_r. reflexivity.
Qed.

Lemma fits_frame m m' i o v : fits m i o v -> (forall a b, c_buf o = Some a -> nth_error (b_blocks m) a = Some (Some b) -> nth_error (b_blocks m') a = Some (Some b)) -> fits m' i o v.
Proof.
  intros (L & E & B & P) K. split; [exact L|]. split; [exact E|]. split; [exact B|]. destruct v; [exact P|]. destruct P as (a & X & Y & N). exists a. split; [exact X|]. split; [exact Y|]. apply K; auto.
Qed.
Lemma without_other l old a : old <> Some a -> nth_error (without l old) a = nth_error l a.
Proof. destruct old as [b|]; [|reflexivity]. intros N. apply set_nth_other. congruence. Qed.

(** an object replaced by one that fits a new value, the others left alone *)
Lemma inv_put m s i o v blocks o' v' : inv m s -> obj m i = Ok o -> val s i = Some v ->
  (forall a b, c_buf o <> Some a -> nth_error (b_blocks m) a = Some (Some b) -> nth_error blocks a = Some (Some b)) ->
  (forall a, c_buf o' = Some a -> c_buf o = Some a \/ (length (b_blocks m) <= a)%nat) ->
  (forall a b, nth_error blocks a = Some (Some b) -> c_buf o' = Some a \/ (c_buf o <> Some a /\ exists b', nth_error (b_blocks m) a = Some (Some b'))) ->
  fits (mkmem blocks (set_nth i (Some o') (b_objs m))) i o' v' ->
  inv (mkmem blocks (set_nth i (Some o') (b_objs m))) (set_nth i (Some v') s).
Proof.
  intros I O V K1 K2 K3 F. apply obj_ok in O. apply val_nth in V. pose proof (nth_lt' _ _ _ O) as LO. pose proof (nth_lt' _ _ _ V) as LV.
  assert (OW : forall j p a, j <> i -> nth_error (b_objs m) j = Some (Some p) -> c_buf p = Some a -> c_buf o <> Some a /\ exists b, nth_error (b_blocks m) a = Some (Some b)).
  { intros j p a NE P E. split; [intros E'; apply NE; exact (i_own m s I j i p o a P O E E')|].
    pose proof (i_fit m s I j) as G. assert (LJ : (j < length s)%nat) by (rewrite <- (i_len m s I); eapply nth_lt'; eauto).
    destruct (nth_error s j) as [[w|]|] eqn:N; [|congruence|apply nth_error_None in N; lia]. destruct G as (q & Q & FQ). rewrite P in Q. injection Q as <-. eapply fits_block; eauto. }
  split; cbn [b_blocks b_objs].
  - rewrite !set_nth_length. apply (i_len m s I).
  - intros j. destruct (PeanoNat.Nat.eq_dec j i) as [->|NE].
    + rewrite set_nth_same by assumption. exists o'. rewrite set_nth_same by assumption. split; [reflexivity|exact F].
    + rewrite !set_nth_other by congruence. pose proof (i_fit m s I j) as G. destruct (nth_error s j) as [[w|]|]; auto. destruct G as (p & P & FP). exists p. split; [exact P|].
      eapply fits_frame; [exact FP|]. cbn [b_blocks]. intros a b E N. destruct (OW j p a NE P E) as (X & _). apply K1; auto.
  - intros j k p q a P Q E1 E2. destruct (set_nth_cases _ _ _ _ _ P) as [(-> & X & _)|(NJ & P')]; destruct (set_nth_cases _ _ _ _ _ Q) as [(-> & Y & _)|(NK & Q')]; auto.
    + injection X as ->. exfalso. destruct (OW k q a NK Q' E2) as (A & b & B). destruct (K2 a E1) as [C|C]; [congruence|]. apply nth_lt' in B. lia.
    + injection Y as ->. exfalso. destruct (OW j p a NJ P' E1) as (A & b & B). destruct (K2 a E2) as [C|C]; [congruence|]. apply nth_lt' in B. lia.
    + eapply (i_own m s I); eauto.
  - intros a b N. destruct (K3 a b N) as [E|(NE & b' & N')].
    + exists i, o'. rewrite set_nth_same by assumption. auto.
    + destruct (i_leak m s I a b' N') as (j & p & P & E). exists j, p. split; [|exact E]. rewrite set_nth_other; [exact P|]. intros ->. rewrite O in P. injection P as ->. congruence.
Qed.
Lemma inv_blocks m s i o v : inv m s -> val s i = Some v -> obj m i = Ok o -> forall a, c_buf o = Some a -> exists b, nth_error (b_blocks m) a = Some (Some b).
Proof. intros I V O a E. destruct (inv_obj m s i v I V) as (o' & O' & F). rewrite O in O'. injection O' as <-. eapply fits_block; eauto. Qed.
Lemma nth_without l old a b : nth_error (without l old) a = Some (Some b) -> old <> Some a /\ nth_error l a = Some (Some b).
Proof.
  destruct old as [c|]; cbn [without]; intros H; [|split; [congruence|exact H]]. destruct (set_nth_cases _ _ _ _ _ H) as [(_ & X & _)|(NE & N)]; [discriminate|]. split; [congruence|exact N].
Qed.
Lemma inv_resize m s i v len : inv m s -> val s i = Some v -> 0 <= len < 18446744073709551615 -> forall g, has_room g len = true ->
  exists m', c_resize m i len g = Ok (m', false) /\ inv m' (set_nth i (Some (repeat None (Z.to_nat len))) s).
Proof.
  intros I V R g G. destruct (inv_obj m s i v I V) as (o & O & F). pose proof (inv_blocks m s i o v I V O) as HB. destruct (Z.eq_dec len 0) as [->|NZ].
  - eexists. split; [apply (resize_empty m i o O HB)|]. eapply inv_put; eauto; cbn [c_buf].
    + intros a b NE N. rewrite without_other by assumption. exact N.
    + intros a E; discriminate.
    + intros a b N. right. apply nth_without in N. destruct N; eauto.
    + split; [reflexivity|]. cbn [c_empty]. split; [apply F|]. split; [reflexivity|]. cbn. auto.
  - assert (g = true) as -> by (unfold has_room in G; destruct g; [reflexivity|]; cbn in G; lia).
    eexists. split; [apply (resize_full m i o len O HB); lia|]. eapply inv_put; eauto; cbn [c_buf].
    + intros a b NE N. rewrite nth_app_l by (rewrite without_length; eapply nth_lt'; eauto). rewrite without_other by assumption. exact N.
    + intros a E. injection E as <-. right. lia.
    + intros a b N. destruct (PeanoNat.Nat.lt_total a (length (b_blocks m))) as [L|[->|L]].
      * rewrite nth_app_l in N by (rewrite without_length; exact L). right. apply nth_without in N. destruct N; eauto.
      * left. reflexivity.
      * exfalso. apply nth_lt' in N. rewrite app_length, without_length in N. cbn [length] in N. lia.
    + assert (ZR : zlen (repeat (@None Z) (Z.to_nat len)) = len) by (unfold zlen; rewrite repeat_length; lia).
      split; [cbn [c_len]; lia|]. split; [apply F|]. split; [lia|]. destruct (repeat (@None Z) (Z.to_nat len)) eqn:E; [rewrite <- ZR in NZ; contradiction NZ; reflexivity|]. rewrite <- E.
      exists (length (b_blocks m)). split; [reflexivity|]. split; [reflexivity|]. cbn [b_blocks]. rewrite <- (without_length (b_blocks m) (c_buf o)). apply nth_app_last.
Qed.
Lemma inv_load m s i o v : inv m s -> val s i = Some v -> obj m i = Ok o -> load m (c_ptr o) (c_len o) = Ok v /\ c_len o = zlen v.
Proof.
  intros I V O. destruct (inv_obj m s i v I V) as (o' & O' & (L & E & B & P)). rewrite O in O'. injection O' as <-. split; [|exact L]. rewrite L. destruct v as [|x v].
  - destruct P as (_ & P). rewrite P. unfold load. rewrite O. reflexivity.
  - destruct P as (a & _ & P & N). rewrite P. unfold load. rewrite N. rewrite zlen_app. change (zlen [Some 0]) with 1. destruct (Z.leb_spec (zlen (x :: v)) (zlen (x :: v) + 1)); [|lia].
    f_equal. rewrite firstn_app. unfold zlen. rewrite Nat2Z.id, PeanoNat.Nat.sub_diag, firstn_all. cbn [firstn]. apply app_nil_r.
Qed.
Definition over (v : list (option Z)) (off : Z) (t : list (option Z)) := firstn (Z.to_nat off) v ++ t ++ skipn (Z.to_nat off + length t) v.
Lemma over_len v off t : 0 <= off -> off + zlen t <= zlen v -> zlen (over v off t) = zlen v.
Proof. intros A B. unfold over. unfold zlen in *. rewrite !app_length, firstn_length, skipn_length. lia. Qed.
Lemma set_nth_id {A} (x : A) : forall i l, nth_error l i = Some x -> set_nth i x l = l.
Proof. induction i as [|i IH]; intros [|y l] H; cbn in *; try discriminate; [congruence|]. f_equal. auto. Qed.
Lemma inv_store m s i o v off t : inv m s -> val s i = Some v -> obj m i = Ok o -> 0 <= off -> off + zlen t <= zlen v ->
  exists m', store m (c_ptr o) off t = Ok m' /\ inv m' (set_nth i (Some (over v off t)) s) /\ b_objs m' = b_objs m.
Proof.
  intros I V O A B. destruct (inv_obj m s i v I V) as (o' & O' & F). rewrite O in O'. injection O' as <-. pose proof F as (L & E & C & P). destruct v as [|x v].
  - assert (t = []) as -> by (apply zlen_nil0; unfold zlen in *; cbn [length] in B; lia). destruct P as (_ & P). rewrite P. exists m. split; [reflexivity|]. split; [|reflexivity].
    unfold over. rewrite firstn_nil. cbn [app length]. rewrite skipn_nil. rewrite set_nth_id; [exact I|]. apply val_nth. exact V.
  - destruct P as (a & E1 & P & N). rewrite P. unfold store. rewrite N.
    destruct (Z.leb_spec 0 off); [|lia]. rewrite zlen_app. change (zlen [Some 0]) with 1. destruct (Z.leb_spec (off + zlen t) (zlen (x :: v) + 1)); [|lia]. cbn [andb].
    eexists. split; [reflexivity|]. split; [|reflexivity]. rewrite <- (set_nth_id (Some o) i (b_objs m)) by (apply obj_ok; exact O).
    set (w := x :: v) in *. assert (OV : firstn (Z.to_nat off) (w ++ [Some 0]) ++ t ++ skipn (Z.to_nat off + length t) (w ++ [Some 0]) = over w off t ++ [Some 0]).
    { unfold over. unfold zlen in *. rewrite firstn_app. replace (Z.to_nat off - length w)%nat with 0%nat by lia. cbn [firstn]. rewrite app_nil_r.
      rewrite skipn_app. replace (Z.to_nat off + length t - length w)%nat with 0%nat by lia. cbn [skipn]. rewrite <- !app_assoc. reflexivity. }
    rewrite OV. eapply inv_put; eauto.
    + intros a' b NE N'. rewrite set_nth_other by congruence. exact N'.
    + intros a' b N'. destruct (set_nth_cases _ _ _ _ _ N') as [(-> & _ & _)|(NE & N2)]; [left; exact E1|right; split; [congruence|eauto]].
    + split; [rewrite over_len by assumption; exact L|]. split; [exact E|]. split; [rewrite over_len by assumption; exact C|].
      pose proof (over_len w off t A B) as OL. destruct (over w off t) as [|y r] eqn:EO; [unfold zlen, w in OL; cbn [length] in OL; lia|]. exists a. split; [exact E1|]. split; [exact P|]. cbn [b_blocks].
      apply set_nth_same. eapply nth_lt'; eauto.
Qed.
Lemma over_all v t : zlen t = zlen v -> over v 0 t = t.
Proof. intros E. unfold over. cbn [Z.to_nat firstn app Nat.add]. rewrite skipn_all2; [apply app_nil_r|]. unfold zlen in E. lia. Qed.
Lemma inv_new m s : inv m s -> inv (mkmem (b_blocks m) (b_objs m ++ [Some (mkc None 0 0 (PEmpty (length (b_objs m))))])) (s ++ [Some []]).
Proof.
  intros I. pose proof (i_len m s I) as LN. split; cbn [b_blocks b_objs].
  - rewrite !app_length. cbn [length]. lia.
  - intros i. destruct (PeanoNat.Nat.lt_total i (length s)) as [L|[->|L]].
    + rewrite !nth_app_l by lia. pose proof (i_fit m s I i) as F. destruct (nth_error s i) as [[v|]|]; auto.
    + rewrite nth_app_last. rewrite <- LN. rewrite nth_app_last. eexists. split; [reflexivity|]. split; [reflexivity|]. split; [reflexivity|]. split; [reflexivity|]. cbn. auto.
    + rewrite (proj2 (nth_error_None _ _)); [exact Logic.I|]. rewrite app_length. cbn [length]. lia.
  - intros i j o p a P Q E1 E2. assert (X : forall k q, nth_error (b_objs m ++ [Some (mkc None 0 0 (PEmpty (length (b_objs m))))]) k = Some (Some q) -> c_buf q = Some a -> nth_error (b_objs m) k = Some (Some q)).
    { intros k q N E. destruct (PeanoNat.Nat.lt_total k (length (b_objs m))) as [L|[->|L]].
      - rewrite nth_app_l in N by lia. exact N.
      - rewrite nth_app_last in N. injection N as <-. discriminate.
      - apply nth_lt' in N. rewrite app_length in N. cbn [length] in N. lia. }
    eapply (i_own m s I); eauto.
  - intros a b N. destruct (i_leak m s I a b N) as (i & o & P & E). exists i, o. split; [|exact E]. rewrite nth_app_l by (eapply nth_lt'; eauto). exact P.
Qed.
Lemma inv_gone m s i o v : inv m s -> val s i = Some v -> obj m i = Ok o ->
  inv (mkmem (without (b_blocks m) (c_buf o)) (set_nth i None (b_objs m))) (set_nth i None s).
Proof.
  intros I V O. pose proof (inv_blocks m s i o v I V O) as HB. apply obj_ok in O. apply val_nth in V. pose proof (nth_lt' _ _ _ O) as LO. pose proof (nth_lt' _ _ _ V) as LV.
  split; cbn [b_blocks b_objs].
  - rewrite !set_nth_length. apply (i_len m s I).
  - intros j. destruct (PeanoNat.Nat.eq_dec j i) as [->|NE].
    + rewrite set_nth_same by assumption. rewrite set_nth_same by assumption. reflexivity.
    + rewrite !set_nth_other by congruence. pose proof (i_fit m s I j) as G. destruct (nth_error s j) as [[w|]|]; auto. destruct G as (p & P & FP). exists p. split; [exact P|].
      eapply fits_frame; [exact FP|]. cbn [b_blocks]. intros a b E N. rewrite without_other; [exact N|]. intros E'. apply NE. exact (i_own m s I j i p o a P O E E').
  - intros j k p q a P Q E1 E2. destruct (set_nth_cases _ _ _ _ _ P) as [(_ & X & _)|(_ & P')]; [discriminate|]. destruct (set_nth_cases _ _ _ _ _ Q) as [(_ & X & _)|(_ & Q')]; [discriminate|].
    eapply (i_own m s I); eauto.
  - intros a b N. apply nth_without in N. destruct N as (NE & N). destruct (i_leak m s I a b N) as (j & p & P & E). exists j, p. split; [|exact E].
    rewrite set_nth_other; [exact P|]. intros ->. rewrite O in P. injection P as ->. congruence.
Qed.

(** what the code makes of an assignment of a buffer to itself *)
Definition lost (v : list (option Z)) : list (option Z) := map (fun _ => None) v.
(** no memory is refused, except for copies *)
Definition granted (x : bop) : Prop := match x with BAssign _ _ g | BResize _ _ g => g = true | _ => True end.
Lemma val_app s i v x : val s i = Some v -> val (s ++ [x]) i = Some v.
Proof. intros V. apply val_nth in V. apply val_nth. rewrite nth_app_l by (eapply nth_lt'; eauto). exact V. Qed.
Lemma val_set_same s i v w : val s i = Some v -> val (set_nth i w s) i = w.
Proof. intros V. apply val_nth in V. unfold val. rewrite set_nth_same by (eapply nth_lt'; eauto). reflexivity. Qed.
Lemma val_set_other s i j w : i <> j -> val (set_nth i w s) j = val s j.
Proof. intros N. unfold val. rewrite set_nth_other by assumption. reflexivity. Qed.
Lemma lost_repeat v : repeat None (Z.to_nat (zlen v)) = lost v.
Proof. unfold zlen, lost. rewrite Nat2Z.id. induction v; cbn; [reflexivity|]. rewrite IHv. reflexivity. Qed.
Lemma lost_lost v : lost (lost v) = lost v.
Proof. unfold lost. rewrite map_map. reflexivity. Qed.
Lemma lost_len v : zlen (lost v) = zlen v.
Proof. unfold zlen, lost. rewrite map_length. reflexivity. Qed.

(** the second half of copies and assignments *)
Lemma inv_copied m s i j v w : inv m s -> val s i = Some v -> val s j = Some w -> zlen w = zlen v ->
  exists m', obind (obj m i) (fun o => obind (obj m j) (fun p => memcpy m (c_ptr o) (c_ptr p) (c_len p))) = Ok m' /\ inv m' (set_nth i (Some w) s).
Proof.
  intros I V W E. destruct (inv_obj m s i v I V) as (o & O & _). destruct (inv_obj m s j w I W) as (p & P & _). rewrite O, P. cbn [obind]. unfold memcpy.
  destruct (inv_load m s j p w I W P) as (-> & _). cbn [obind]. destruct (inv_store m s i o v 0 w I V O) as (m' & S & J & _); [lia|lia|].
  exists m'. split; [exact S|]. rewrite over_all in J by exact E. exact J.
Qed.
Lemma step_ok m s x s' : inv m s -> granted x -> expect lost s x = Some s' -> exists m', c_op m x = Ok m' /\ inv m' s'.
Proof.
  intros I G E. pose proof (i_len m s I) as LN. destruct x as [|j g|i j g|i len g|i|i off t|i]; cbn [expect] in E.
  - injection E as <-. eexists. split; [reflexivity|]. apply inv_new. exact I.
  - destruct (val s j) as [v|] eqn:V; [|discriminate]. injection E as <-. cbn [c_op].
    pose proof (inv_new m s I) as I1. set (m1 := mkmem (b_blocks m) _) in *. pose proof (val_app s j v (Some []) V) as V1. pose proof V as VN. apply val_nth, nth_lt' in VN.
    assert (VI : val (s ++ [Some []]) (length s) = Some []) by (apply val_nth, nth_app_last). rewrite LN.
    destruct (inv_obj m1 _ j v I1 V1) as (src & O & F). rewrite O. cbn [obind]. assert (CL : c_len src = zlen v) by apply F. rewrite CL. unfold has_room.
    destruct (Z.eqb_spec (zlen v) 0) as [Z0|NZ].
    + rewrite orb_true_r. apply zlen_nil0 in Z0 as ->. exists m1. auto.
    + rewrite orb_false_r. destruct g.
      * destruct (inv_resize m1 _ (length s) [] (zlen v) I1 VI) with (g := true) as (m2 & R & I2); [split; [unfold zlen; lia|apply F]|reflexivity|]. rewrite R. cbn [obind fst snd].
        rewrite set_nth_last, lost_repeat in I2. destruct (inv_copied m2 _ (length s) j (lost v) v I2) as (m3 & C & I3).
        { apply val_nth, nth_app_last. } { apply val_app. exact V. } { rewrite lost_len. reflexivity. }
        exists m3. split; [exact C|]. rewrite set_nth_last in I3. exact I3.
      * unfold c_resize. destruct (inv_obj m1 _ (length s) [] I1 VI) as (o & O2 & F2). rewrite O2. cbn [obind]. destruct (Z.eqb_spec (zlen v) 0); [contradiction|]. cbn [negb obind fst snd].
        eexists. split; [reflexivity|]. pose proof (inv_gone m1 _ (length s) o [] I1 VI O2) as I3. destruct F2 as (_ & _ & _ & B & _). rewrite B in I3. cbn [without] in I3.
        rewrite set_nth_last in I3. unfold set_obj. cbn [b_blocks b_objs]. rewrite set_nth_twice. exact I3.
  - destruct (val s i) as [v|] eqn:V; [|discriminate]. destruct (val s j) as [w|] eqn:W; [|discriminate]. injection E as <-. cbn [granted] in G. subst g. cbn [has_room orb c_op].
    destruct (inv_obj m s j w I W) as (src & O & F). rewrite O. cbn [obind]. assert (CL : c_len src = zlen w) by apply F. rewrite CL. destruct (Z.eqb_spec (zlen w) 0) as [Z0|NZ].
    + apply zlen_nil0 in Z0 as ->. destruct (inv_resize m s i v 0 I V) with (g := true) as (m2 & R & I2); [lia|reflexivity|]. rewrite R. cbn [obind fst]. exists m2. split; [reflexivity|].
      destruct (Nat.eqb i j); exact I2.
    + destruct (inv_resize m s i v (zlen w) I V) with (g := true) as (m2 & R & I2); [split; [unfold zlen; lia|apply F]|reflexivity|]. rewrite R. cbn [obind fst snd].
      rewrite lost_repeat in I2. assert (VI : val (set_nth i (Some (lost w)) s) i = Some (lost w)) by (eapply val_set_same; eauto). destruct (PeanoNat.Nat.eqb_spec i j) as [->|NE].
      * destruct (inv_copied m2 _ j j (lost w) (lost w) I2 VI VI eq_refl) as (m3 & C & I3). exists m3. split; [exact C|]. rewrite set_nth_twice in I3. exact I3.
      * destruct (inv_copied m2 _ i j (lost w) w I2 VI) as (m3 & C & I3). { rewrite val_set_other by assumption. exact W. } { rewrite lost_len. reflexivity. }
        exists m3. split; [exact C|]. rewrite set_nth_twice in I3. exact I3.
  - destruct (val s i) as [v|] eqn:V; [|discriminate]. destruct (Z.leb_spec 0 len) as [A|A]; [|discriminate]. destruct (Z.ltb_spec len 18446744073709551615) as [B|B]; [|discriminate]. cbn [andb] in E.
    injection E as <-. cbn [granted] in G. subst g. cbn [has_room orb c_op]. destruct (inv_resize m s i v len I V) with (g := true) as (m2 & R & I2); [lia|reflexivity|]. rewrite R. cbn [obind fst]. eauto.
  - destruct (val s i) as [v|] eqn:V; [|discriminate]. injection E as <-. cbn [c_op]. destruct (inv_resize m s i v 0 I V) with (g := true) as (m2 & R & I2); [lia|reflexivity|]. rewrite R. cbn [obind fst]. eauto.
  - destruct (val s i) as [v|] eqn:V; [|discriminate]. destruct (Z.leb_spec 0 off) as [A|A]; [|discriminate]. destruct (Z.leb_spec (off + zlen t) (zlen v)) as [B|B]; [|discriminate]. cbn [andb] in E.
    injection E as <-. cbn [c_op]. destruct (inv_obj m s i v I V) as (o & O & _). rewrite O. cbn [obind].
    assert (ML : zlen (map Some t) = zlen t) by (unfold zlen; rewrite map_length; reflexivity).
    destruct (inv_store m s i o v off (map Some t) I V O A) as (m' & S & J & _); [lia|]. exists m'. split; [exact S|]. unfold over in J. rewrite map_length in J. exact J.
  - destruct (val s i) as [v|] eqn:V; [|discriminate]. injection E as <-. cbn [c_op]. destruct (inv_obj m s i v I V) as (o & O & _). rewrite O. cbn [obind].
    assert (FR : free m (c_buf o) = Ok (mkmem (without (b_blocks m) (c_buf o)) (b_objs m))).
    { unfold free. destruct (c_buf o) as [a|] eqn:EB; [|destruct m; reflexivity]. destruct (inv_blocks m s i o v I V O a EB) as (b & N). rewrite N. reflexivity. }
    rewrite FR. cbn [obind]. eexists. split; [reflexivity|]. exact (inv_gone m s i o v I V O).
Qed.
Lemma steps_ok l : forall m s s', inv m s -> Forall granted l -> expects lost s l = Some s' -> exists m', c_ops m l = Ok m' /\ inv m' s'.
Proof.
  induction l as [|x l IH]; intros m s s' I F E; cbn [expects c_ops] in *.
  - injection E as <-. eauto.
  - inversion F; subst. destruct (expect lost s x) as [s1|] eqn:X; [|discriminate]. destruct (step_ok m s x s1 I) as (m1 & -> & I1); auto. cbn [obind]. eauto.
Qed.
Lemma inv_none : inv no_mem [].
Proof. split; [reflexivity| | |]; intros; try (destruct i; cbn in *; auto; discriminate). destruct a; discriminate. Qed.

(** no buffer is assigned to itself *)
Definition not_self (x : bop) : Prop := match x with BAssign i j _ => i <> j | _ => True end.
Lemma expects_not_self f g l : forall s, Forall not_self l -> expects f s l = expects g s l.
Proof.
  induction l as [|x l IH]; intros s F; [reflexivity|]. inversion F as [|? ? N F']; subst. cbn [expects].
  assert (E : expect f s x = expect g s x). { destruct x; try reflexivity. cbn [expect]. cbn in N. destruct (PeanoNat.Nat.eqb_spec i j); [contradiction|]. reflexivity. }
  rewrite E. destruct (expect g s x); auto.
Qed.

(** C155. Whatever a program does with buffers, in any order: if no buffer is assigned to itself and no resize or assignment is refused memory,
    no memory is read or written that may not be, each buffer holds the value expected of it, followed by a zero, and no memory is lost.
    Missing: assignments of a buffer to itself and refused memory ([C155_self_refuted], [C155_refused_refuted]). *)
Theorem C155_values_partial l s : Forall granted l -> Forall not_self l -> expects (fun v => v) [] l = Some s ->
  exists m, c_ops no_mem l = Ok m /\ holds m s /\ no_leak m.
Proof.
  intros G N E. rewrite (expects_not_self _ lost l [] N) in E. destruct (steps_ok l no_mem [] s inv_none G E) as (m & R & I).
  exists m. split; [exact R|]. split; [apply inv_holds; exact I|eapply inv_no_leak; eauto].
Qed.
Print Assumptions C155_values_partial.

(** C155. With assignments of buffers to themselves it stays so except for what these do: the size is kept, every byte of the content is lost. *)
Theorem C155_self_partial l s : Forall granted l -> expects (map (fun _ => None)) [] l = Some s ->
  exists m, c_ops no_mem l = Ok m /\ holds m s /\ no_leak m.
Proof.
  intros G E. destruct (steps_ok l no_mem [] s inv_none G E) as (m & R & I). exists m. split; [exact R|]. split; [apply inv_holds; exact I|eapply inv_no_leak; eauto].
Qed.
Print Assumptions C155_self_partial.

(** C155. False: that an assignment of a buffer to itself keeps its value. *)
Theorem C155_self_refuted : ~ (forall l s, Forall granted l -> expects (fun v => v) [] l = Some s -> exists m, c_ops no_mem l = Ok m /\ holds m s).
Proof.
  intros H. destruct (H [BNew; BResize 0 1 true; BWrite 0 0 [65]; BAssign 0 0 true] [Some [Some 65]]) as (m & R & K); [repeat constructor|reflexivity|].
  vm_compute in R. injection R as <-. specialize (K 0%nat). destruct K as (_ & K). vm_compute in K. discriminate.
Qed.
Print Assumptions C155_self_refuted.

(** C155. False: that a resize or an assignment that is refused memory leaves the buffer usable. The size told is then past the memory held. *)
Theorem C155_refused_refuted : ~ (forall l s, Forall not_self l -> expects (fun v => v) [] l = Some s -> exists m, c_ops no_mem l = Ok m /\ forall i v, val s i = Some v -> exists b, c_bytes m i = Ok b).
Proof.
  intros H. destruct (H [BNew; BResize 0 1 true; BWrite 0 0 [65]; BResize 0 9 false] [Some [Some 65]]) as (m & R & K); [repeat constructor; discriminate|reflexivity|].
  vm_compute in R. injection R as <-. destruct (K 0%nat _ eq_refl) as (b & B). vm_compute in B. discriminate.
Qed.
Print Assumptions C155_refused_refuted.

(** two buffers, a copy that is changed, one refused, one assigned and one gone *)
Definition ex_ops : list bop := [BNew; BResize 0 3 true; BWrite 0 0 [72; 105; 33]; BCopy 0 true; BWrite 1 1 [111]; BCopy 0 false; BNew; BAssign 3 1 true; BClear 1; BDestroy 0].
Example C155_case : Forall granted ex_ops /\ Forall not_self ex_ops
  /\ expects (fun v => v) [] ex_ops = Some [None; Some []; None; Some [Some 72; Some 111; Some 33]]
  /\ match c_ops no_mem ex_ops with Ok m => c_bytes m 3 = Ok [Some 72; Some 111; Some 33; Some 0] /\ c_bytes m 1 = Ok [Some 0] | Bad _ => False end.
Proof. vm_compute. repeat split; repeat constructor; discriminate. Qed.
