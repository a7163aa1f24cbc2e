(** What plugin_manager::find returns. *)
From Coq Require Import String ZArith Lia List Bool Permutation.
From Verif Require Import Base SMap Runs Threads PluginModel PluginSpec PluginProofs PlugMgrProofs.
Import ListNotations.
Local Open Scope nat_scope.
Local Arguments is_prefix : simpl never.

Lemma lex_lt_iff : forall a b, lex_lt a b <-> lex_ltb a b = true.
Proof.
  intros a b. split.
  - intros [(c & t & ->)|(p & x & y & t & u & -> & -> & L)]; [apply lex_prefix_lt|].
    induction p as [|z p IH]; simpl; [apply Z.ltb_lt in L; rewrite L; reflexivity|]. rewrite Z.ltb_irrefl, Z.eqb_refl. exact IH.
  - revert b. induction a as [|x a IH]; intros [|y b] L; simpl in L; try discriminate; [left; exists y, b; reflexivity|].
    apply orb_prop in L. destruct L as [L|L].
    + right. exists [], x, y, a, b. apply Z.ltb_lt in L. auto.
    + apply andb_prop in L. destruct L as [E L]. apply Z.eqb_eq in E. subst y. destruct (IH _ L) as [(c & t & ->)|(p & z & w & t & u & -> & -> & M)]; [left; exists c, t; reflexivity|].
      right. exists (x :: p), z, w, t, u. auto.
Qed.
Definition slash : Z := 47%Z.
Lemma covers_iff : forall id res, covers id res <-> is_prefix id res = true /\ (zlen res =? zlen id)%Z || match nth_error res (length id) with Some c => (c =? ch "/")%Z | None => false end = true.
Proof.
  intros id res. unfold covers. rewrite is_prefix_spec. split.
  - intros [->|[t ->]].
    + split; [exists []; symmetry; apply app_nil_r|]. rewrite Z.eqb_refl. reflexivity.
    + split; [eauto|]. rewrite nth_error_app2, Nat.sub_diag by lia. simpl. rewrite orb_true_r. reflexivity.
  - intros [[t ->] H]. destruct t as [|c t]; [left; apply app_nil_r|]. right. exists t. f_equal. f_equal.
    rewrite nth_error_app2, Nat.sub_diag in H by lia. simpl in H. apply orb_prop in H. destruct H as [H|H].
    + apply Z.eqb_eq in H. unfold zlen in H. rewrite app_length in H. simpl in H. lia.
    + apply Z.eqb_eq in H. exact H.
Qed.
Lemma covers_prefix : forall id res, covers id res -> exists t, res = id ++ t.
Proof. intros id res [->|[t ->]]; [exists []; symmetry; apply app_nil_r | eauto]. Qed.
Lemma covers_order : forall a b res, covers a res -> covers b res -> length a < length b -> lex_lt a b.
Proof.
  intros a b res A B L. destruct (covers_prefix _ _ A) as [t ->]. destruct (covers_prefix _ _ B) as [u E]. left.
  clear A B. revert b u E L. induction a as [|x a IH]; intros [|y b] u E L; simpl in *; try lia; [eauto|]. injection E as -> E. destruct (IH b u E) as (c & v & ->); [lia|]. eauto.
Qed.
Lemma covers_same : forall a b res, covers a res -> covers b res -> length a = length b -> a = b.
Proof.
  intros a b res A B L. destruct (covers_prefix _ _ A) as [t ->]. destruct (covers_prefix _ _ B) as [u E].
  clear A B. revert b u E L. induction a as [|x a IH]; intros [|y b] u E L; simpl in *; try lia; [reflexivity|]. injection E as -> E. f_equal. apply (IH b u E). lia.
Qed.
Section Find.
Context {A : Type}.
Implicit Types (m l : smap A).
Fixpoint chain (res : list Z) (l : smap A) : Prop :=
  match l with
  | a :: l' => match l' with b :: _ => is_prefix (fst a) res = false -> length (fst b) < length (fst a) | [] => True end /\ chain res l'
  | [] => True
  end.
Lemma find_loop_iff : forall res l id x, find_loop res l = Some (id, x) <->
  exists pre post, l = pre ++ (id, x) :: post /\ covers id res /\ (forall e, In e pre -> ~ covers (fst e) res) /\ chain res (pre ++ [(id, x)]).
Proof.
  intros res. induction l as [|[k v] l IH]; intros id x.
  - split; [discriminate|]. intros ([|? ?] & post & E & _); discriminate.
  - cbn [find_loop]. set (hit := (zlen res =? zlen k)%Z || match nth_error res (length k) with Some c => (c =? ch "/")%Z | None => false end).
    destruct (is_prefix k res) eqn:P; [destruct hit eqn:H|].
    + assert (CV : covers k res) by (apply covers_iff; split; [exact P | exact H]). split.
      * intros E. injection E as <- <-. exists [], l. split; [reflexivity|]. split; [exact CV|]. split; [intros e []|]. simpl. auto.
      * intros ([|e pre] & post & E & C & N & _); simpl in E; [injection E as <- <- <-; reflexivity | injection E as <- E2]. exfalso. apply (N (k, v)); [left; reflexivity | exact CV].
    + assert (CV : ~ covers k res) by (rewrite covers_iff; intros [_ X]; unfold hit in H; congruence). rewrite IH. split.
      * intros (pre & post & -> & C & N & CH). exists ((k, v) :: pre), post. split; [reflexivity|]. split; [exact C|]. split; [intros e [<-|I]; auto|]. simpl. split; [|exact CH].
        destruct (pre ++ [(id, x)]); auto. intros X. congruence.
      * intros ([|e pre] & post & E & C & N & CH); simpl in E; [injection E as <- <- <-; contradiction | injection E as <- E2]. exists pre, post. split; [exact E2|]. split; [exact C|]. split; [intros e' I; apply N; right; exact I|]. simpl in CH. apply CH.
    + assert (CV : ~ covers k res) by (rewrite covers_iff; intros [X _]; congruence).
      destruct l as [|[k' v'] l']; [|destruct (Z.ltb_spec (zlen k') (zlen k)) as [L|L]].
      * split; [discriminate|]. intros ([|e pre] & post & E & C & _); simpl in E; [injection E as <- <- <-; contradiction | injection E as <- E2]. destruct pre; discriminate.
      * rewrite IH. split.
        -- intros (pre & post & E & C & N & CH). exists ((k, v) :: pre), post. split; [rewrite E; reflexivity|]. split; [exact C|]. split; [intros e [<-|I]; auto|]. simpl. split; [|exact CH].
           destruct pre as [|e pre]; simpl in *; [injection E as <- <- <- | injection E as <- E2]; intros _; unfold zlen in L; simpl; lia.
        -- intros ([|e pre] & post & E & C & N & CH); simpl in E; [injection E as <- <- <-; contradiction | injection E as <- E2]. exists pre, post. split; [exact E2|]. split; [exact C|]. split; [intros e' I; apply N; right; exact I|]. simpl in CH. apply CH.
      * split; [discriminate|]. intros ([|e pre] & post & E & C & N & CH); simpl in E; [injection E as <- <- <-; contradiction | injection E as <- E2]. exfalso. unfold zlen in L. simpl in CH. destruct CH as [CH _].
        destruct pre as [|e pre]; simpl in *; [injection E2 as <- <- _ | injection E2 as <- _]; specialize (CH P); simpl in CH; lia.
Qed.
(** consecutive entries of the descending list *)
Lemma chain_iff : forall res l, chain res l <-> forall p a b q, l = p ++ a :: b :: q -> is_prefix (fst a) res = false -> length (fst b) < length (fst a).
Proof.
  intros res. induction l as [|a l IH]; simpl.
  - split; [intros _ [|? [|? ?]]; discriminate | auto].
  - rewrite IH. split.
    + intros [H1 H2] [|x p] a' b q E; simpl in E; injection E as E1 E2; [subst; simpl in H1; auto | eauto].
    + intros H. split; [destruct l as [|b l]; auto; apply (H [] a b l); reflexivity|]. intros p a' b q E. apply (H (a :: p) a' b q). rewrite E. reflexivity.
Qed.
Definition desc (l : smap A) : Prop := forall p a q b, l = p ++ a :: q -> In b q -> lex_ltb (fst b) (fst a) = true.
Lemma desc_rev : forall m, sorted m -> desc (rev m).
Proof.
  induction m as [|e m IH]; intros S p a q b E I; simpl in E; [destruct p; discriminate|]. destruct S as [S1 S2].
  destruct q as [|q0 q] using rev_ind; [destruct I|]. clear IHq. change (a :: q ++ [q0]) with ((a :: q) ++ [q0]) in E. rewrite app_assoc in E. apply app_inj_tail in E. destruct E as [E <-].
  apply in_app_iff in I. destruct I as [I|[<-|[]]]; [eapply IH; eauto|]. apply S1. apply in_rev. rewrite E. apply in_app_iff. right. left. reflexivity.
Qed.
Lemma desc_first : forall l p a q, desc l -> l = p ++ a :: q -> forall b, In b l -> lex_ltb (fst b) (fst a) = true -> In b q.
Proof.
  intros l p a q D E b I L. rewrite E in I. apply in_app_iff in I. destruct I as [I|[<-|I]]; auto.
  - exfalso. apply in_split in I. destruct I as (p1 & p2 & ->). rewrite <- app_assoc in E. simpl in E. assert (X : lex_ltb (fst a) (fst b) = true) by (eapply (D p1 b (p2 ++ a :: q)); [exact E | apply in_app_iff; right; left; reflexivity]). rewrite (lex_asym _ _ L) in X. discriminate.
  - rewrite lex_irrefl in L. discriminate.
Qed.
Theorem pm_find_iff : forall m res id x, sorted m -> (pm_find m res = Some (id, x) <->
  In (id, x) m /\ covers id res /\ (forall id', In id' (map fst m) -> covers id' res -> length id' <= length id) /\
  (forall y z, In y (map fst m) -> lex_lt id y -> ~ lex_lt res y -> ~ (exists t, res = y ++ t) -> before m z y -> length z < length y)).
Proof.
  intros m res id x S. unfold pm_find. rewrite find_loop_iff.
  assert (D : desc (sm_down m res)) by (apply desc_rev, sm_upto_sorted; exact S).
  assert (DI : forall e, In e (sm_down m res) <-> In e m /\ lex_ltb res (fst e) = false) by (intros; apply sm_down_in; exact S).
  assert (UNIQ : forall e e', In e m -> In e' m -> fst e = fst e' -> e = e').
  { intros [k v] [k' v'] I I' E. simpl in E. subst k'. apply sm_find_in in I; [|exact S]. apply sm_find_in in I'; [|exact S]. congruence. }
  split.
  - intros (pre & post & E & C & N & CH). assert (I : In (id, x) (sm_down m res)) by (rewrite E; apply in_app_iff; right; left; reflexivity). apply DI in I. simpl in I. split; [tauto|]. split; [exact C|]. split.
    + intros id' I' C'. apply in_map_iff in I'. destruct I' as ([k v] & K & I'). simpl in K. subst k. destruct (Nat.le_gt_cases (length id') (length id)) as [L|L]; [exact L|]. exfalso.
      pose proof (covers_order _ _ _ C C' L) as LT. apply lex_lt_iff in LT.
      assert (J : In (id', v) (sm_down m res)). { apply DI. split; [exact I'|]. simpl. destruct (covers_prefix _ _ C') as [t ->]. apply lex_prefix. }
      rewrite E in J. apply in_app_iff in J. destruct J as [J|[J|J]]; [exact (N _ J C') | injection J as -> _; lia |].
      pose proof (D pre (id, x) post (id', v) E J) as X. simpl in X. rewrite (lex_asym _ _ LT) in X. discriminate.
    + intros y z I' LT LE NP (BZ & ZL & BM). apply in_map_iff in I'. destruct I' as ([k v] & K & I'). simpl in K. subst k. apply lex_lt_iff in LT.
      assert (J : In (y, v) (sm_down m res)). { apply DI. split; [exact I'|]. simpl. rewrite lex_lt_iff in LE. destruct (lex_ltb res y); [congruence | reflexivity]. }
      rewrite E in J. apply in_app_iff in J. destruct J as [J|[J|J]]; [| injection J as -> _; rewrite lex_irrefl in LT; discriminate | pose proof (D pre (id, x) post (y, v) E J) as X; simpl in X; rewrite (lex_asym _ _ LT) in X; discriminate].
      apply in_split in J. destruct J as (p1 & p2 & ->). assert (NXT : exists e q, p2 ++ [(id, x)] = e :: q) by (destruct p2; simpl; eauto). destruct NXT as (e & q & NXT).
      assert (LN : length (fst e) < length y).
      { apply ((proj1 (chain_iff res _) CH) p1 (y, v) e q); [rewrite <- app_assoc; simpl; rewrite NXT; reflexivity|]. simpl. destruct (is_prefix y res) eqn:P; [|reflexivity]. apply is_prefix_spec in P. contradiction. }
      assert (E' : sm_down m res = p1 ++ (y, v) :: e :: q ++ post).
      { rewrite E, <- app_assoc. simpl. f_equal. f_equal. change ((id, x) :: post) with ([(id, x)] ++ post). rewrite app_assoc, NXT. reflexivity. }
      assert (IE : In e m) by (apply DI; rewrite E'; apply in_app_iff; right; right; left; reflexivity).
      assert (EY : lex_ltb (fst e) y = true) by (apply (D p1 (y, v) (e :: q ++ post) e E'); left; reflexivity).
      apply in_map_iff in BZ. destruct BZ as ([kz vz] & K & IZ). simpl in K. subst kz. apply lex_lt_iff in ZL.
      assert (JZ : In (z, vz) (sm_down m res)).
      { apply DI. split; [exact IZ|]. simpl. destruct (lex_ltb res z) eqn:X; [|reflexivity]. rewrite lex_lt_iff in LE. rewrite (lex_trans _ _ _ X ZL) in LE. congruence. }
      pose proof (desc_first _ _ _ _ D E' _ JZ ZL) as K. destruct K as [->|K]; [exact LN|].
      assert (ZE : lex_ltb z (fst e) = true) by (apply (D (p1 ++ [(y, v)]) e (q ++ post) (z, vz)); [rewrite E', <- app_assoc; reflexivity | exact K]).
      destruct (BM (fst e)) as [X|X]; [apply in_map; exact IE | apply lex_lt_iff; exact EY | rewrite X in LN; exact LN | apply lex_lt_iff in X; rewrite (lex_asym _ _ X) in ZE; discriminate].
  - intros (I & C & LG & CH). assert (J : In (id, x) (sm_down m res)) by (apply DI; split; [exact I|]; simpl; destruct (covers_prefix _ _ C) as [t ->]; apply lex_prefix).
    apply in_split in J. destruct J as (pre & post & E). exists pre, post. split; [exact E|]. split; [exact C|].
    assert (GT : forall e, In e pre -> lex_ltb id (fst e) = true /\ In e m /\ lex_ltb res (fst e) = false).
    { intros e IP. apply in_split in IP. destruct IP as (p1 & p2 & ->). rewrite <- app_assoc in E. simpl in E. split; [apply (D p1 e (p2 ++ (id, x) :: post) (id, x) E); apply in_app_iff; right; left; reflexivity|].
      apply DI. rewrite E. apply in_app_iff. right. left. reflexivity. }
    split.
    + intros e IP C'. destruct (GT _ IP) as (LT & IM & _). pose proof (LG _ (in_map fst _ _ IM) C') as L. apply Nat.le_lteq in L. destruct L as [L|L].
      * pose proof (covers_order _ _ _ C' C L) as X. apply lex_lt_iff in X. rewrite (lex_asym _ _ X) in LT. discriminate.
      * pose proof (covers_same _ _ _ C' C L) as X. rewrite X, lex_irrefl in LT. discriminate.
    + apply chain_iff. intros p a b q EQ NP. assert (IA : In a pre).
      { assert (X : In a (pre ++ [(id, x)])) by (rewrite EQ; apply in_app_iff; right; left; reflexivity). apply in_app_iff in X. destruct X as [X|[X|[]]]; [exact X|]. subst a. exfalso. destruct q as [|q0 q] using rev_ind.
        - change (p ++ [(id, x); b]) with (p ++ [(id, x)] ++ [b]) in EQ. rewrite app_assoc in EQ. apply app_inj_tail in EQ. destruct EQ as [EQ <-]. assert (IP : In (id, x) pre) by (rewrite EQ; apply in_app_iff; right; left; reflexivity). destruct (GT _ IP) as [X _]. simpl in X. rewrite lex_irrefl in X. discriminate.
        - clear IHq. change (p ++ (id, x) :: b :: q ++ [q0]) with (p ++ ((id, x) :: b :: q) ++ [q0]) in EQ. rewrite app_assoc in EQ. apply app_inj_tail in EQ. destruct EQ as [EQ <-]. assert (IP : In (id, x) pre) by (rewrite EQ; apply in_app_iff; right; left; reflexivity). destruct (GT _ IP) as [X _]. simpl in X. rewrite lex_irrefl in X. discriminate. }
      destruct (GT _ IA) as (LT & IM & LE). assert (E' : sm_down m res = p ++ a :: b :: q ++ post).
      { rewrite E. change ((id, x) :: post) with ([(id, x)] ++ post). rewrite app_assoc, EQ, <- app_assoc. reflexivity. }
      apply (CH (fst a) (fst b)); [apply in_map; exact IM | apply lex_lt_iff; exact LT | rewrite lex_lt_iff; congruence | rewrite <- is_prefix_spec; congruence |].
      split; [apply in_map; apply DI; rewrite E'; apply in_app_iff; right; right; left; reflexivity|]. split; [apply lex_lt_iff; apply (D p a (b :: q ++ post) b E'); left; reflexivity|].
      intros w IW WL. apply in_map_iff in IW. destruct IW as ([k v] & K & IW). simpl in K. subst k. apply lex_lt_iff in WL.
      assert (JW : In (w, v) (sm_down m res)). { apply DI. split; [exact IW|]. simpl. destruct (lex_ltb res w) eqn:X; [|reflexivity]. rewrite (lex_trans _ _ _ X WL) in LE. discriminate. }
      pose proof (desc_first _ _ _ _ D E' _ JW WL) as K. destruct K as [->|K]; [left; reflexivity|]. right. apply lex_lt_iff. apply (D (p ++ [a]) b (q ++ post) (w, v)); [rewrite E', <- app_assoc; reflexivity | exact K].
Qed.
End Find.
