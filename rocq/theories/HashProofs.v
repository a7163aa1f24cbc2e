(** Proofs about the hash table. *)
From Coq Require Import String ZArith List Bool Lia Permutation.
From Verif Require Import Base HttpSpec DictModel DictSpec DictProofs HashModel HashSpec.
Import ListNotations.

Section Table.
Variables (mix : Z -> Z -> Z) (cached : bool).
Notation ihash := (ihash mix).
Lemma hash_equal up x y : iequal_to up x y = true -> ihash up x = ihash up y.
Proof.
  unfold iequal_to, HashModel.ihash. intros E. apply str_eqb_eq in E. assert (K : forall l v, fold_left (fun seed c => mix seed (up c)) l v = fold_left mix (map up l) v).
  { induction l as [|c l IH]; intros v; cbn; auto. } rewrite !K, E. reflexivity.
Qed.
(** the names in use, the locales in force, and one of these *)
Variables (P : list Z -> Prop) (good : toupper -> Prop) (up0 : toupper).
Hypothesis same_up : forall up a, good up -> P a -> map up a = map up0 a.
Hypothesis up_same : forall a b, P a -> P b -> (map up0 a = map up0 b <-> same_name a b = true).
Definition key (e : entry) : list Z := fst (snd e).
Definition val (e : entry) : list Z := snd (snd e).
Lemma hash_up up a : good up -> P a -> ihash up a = ihash up0 a.
Proof.
  intros G A. unfold HashModel.ihash. assert (K : forall (u : toupper) l v, fold_left (fun seed c => mix seed (u c)) l v = fold_left mix (map u l) v).
  { intros u. induction l as [|c l IH]; intros v; cbn; auto. } rewrite (K up), (K up0), (same_up _ _ G A). reflexivity.
Qed.
Definition fits (e : entry) : Prop := P (key e) /\ fst e = ihash up0 (key e).
Definition inv (t : table) : Prop := t <> [] /\ forall i e, In e (nth i t []) -> fits e /\ i = slot t (fst e).
Definition values (n : list Z) (l : list entry) : list (list Z) := map val (filter (fun e => same_name (key e) n) l).
Lemma slot_lt t h : t <> [] -> (slot t h < List.length t)%nat.
Proof. intros N. unfold slot, zlen. assert (0 < Z.of_nat (List.length t)) by (destruct t; [tauto|cbn; lia]). pose proof (Z.mod_pos_bound h (Z.of_nat (List.length t))). lia. Qed.
Lemma matches_same up n e : good up -> P n -> fits e -> matches mix cached up n e = same_name (key e) n.
Proof.
  intros G N (PK & H). unfold matches. destruct (same_name (key e) n) eqn:S.
  - apply (up_same _ _ PK N) in S. assert (E : iequal_to up (key e) n = true) by (unfold iequal_to; rewrite (same_up _ _ G PK), (same_up _ _ G N), S; apply str_eqb_refl).
    unfold key in *. rewrite E. rewrite H. rewrite <- (hash_up up _ G PK), (hash_equal up _ _ E), Z.eqb_refl. destruct cached; reflexivity.
  - assert (E : iequal_to up (key e) n = false).
    { destruct (iequal_to up (key e) n) eqn:E; [|reflexivity]. unfold iequal_to in E. apply str_eqb_eq in E. rewrite (same_up _ _ G PK), (same_up _ _ G N) in E. apply (up_same _ _ PK N) in E. congruence. }
    unfold key in E. rewrite E. apply andb_false_r.
Qed.
Lemma values_app n a b : values n (a ++ b) = values n a ++ values n b.
Proof. unfold values. rewrite filter_app, map_app. reflexivity. Qed.
Lemma values_none n l : (forall e, In e l -> same_name (key e) n = false) -> values n l = [].
Proof. unfold values. induction l as [|e l IH]; intros H; [reflexivity|]. cbn. rewrite (H e) by (left; auto). apply IH. intros. apply H. right. auto. Qed.
Lemma values_perm n a b : Permutation a b -> Permutation (values n a) (values n b).
Proof. intros H. unfold values. apply Permutation_map. induction H; cbn; auto; repeat destruct (same_name _ _); eauto using perm_swap, Permutation_trans. Qed.
Lemma split_nth (t : table) i : (i < List.length t)%nat -> t = firstn i t ++ nth i t [] :: skipn (S i) t.
Proof. revert i. induction t as [|b t IH]; intros [|i] L; cbn in L; try lia; [reflexivity|]. cbn. f_equal. apply IH. lia. Qed.
Lemma split_concat (t : table) i : (i < List.length t)%nat -> concat t = concat (firstn i t) ++ nth i t [] ++ concat (skipn (S i) t).
Proof. intros L. rewrite (split_nth t i L) at 1. rewrite concat_app. reflexivity. Qed.
Lemma in_before (t : table) i e : In e (concat (firstn i t)) -> exists j, (j < i)%nat /\ In e (nth j t []).
Proof.
  revert i. induction t as [|b t IH]; intros [|i] H; try (destruct H; fail). cbn in H. apply in_app_or in H as [H|H]; [exists 0%nat; split; [lia|exact H]|].
  destruct (IH _ H) as (j & L & K). exists (S j). split; [lia|exact K].
Qed.
Lemma in_after (t : table) i e : In e (concat (skipn i t)) -> exists j, (i <= j)%nat /\ In e (nth j t []).
Proof.
  revert i. induction t as [|b t IH]; intros [|i] H; try (destruct H; fail).
  - cbn [skipn concat] in H. apply in_app_or in H as [H|H]; [exists 0%nat; split; [lia|exact H]|]. destruct (IH 0%nat H) as (j & L & K). exists (S j). split; [lia|exact K].
  - cbn [skipn] in H. destruct (IH _ H) as (j & L & K). exists (S j). split; [lia|exact K].
Qed.
(** entries that match are in one bucket *)
Lemma elsewhere t n j e : inv t -> P n -> In e (nth j t []) -> j <> slot t (ihash up0 n) -> same_name (key e) n = false.
Proof.
  intros [_ I] N E D. destruct (I _ _ E) as [[PK H] S]. destruct (same_name (key e) n) eqn:Q; [|reflexivity]. destruct D. rewrite S, H. f_equal. apply (up_same _ _ PK N) in Q.
  apply hash_equal. unfold iequal_to. rewrite Q. apply str_eqb_refl.
Qed.
Lemma values_bucket t n : inv t -> P n -> values n (concat (firstn (slot t (ihash up0 n)) t)) = [] /\ values n (concat (skipn (S (slot t (ihash up0 n))) t)) = [].
Proof.
  intros I N. split; apply values_none; intros e E; [apply in_before in E as (j & L & E)|apply in_after in E as (j & L & E)]; apply (elsewhere t n j); auto; lia.
Qed.
Lemma range_values up t n : inv t -> good up -> P n -> t_range mix cached up t n = values n (concat t).
Proof.
  intros I G N. unfold t_range. rewrite (hash_up _ _ G N). set (i := slot t (ihash up0 n)). destruct (values_bucket t n I N) as [A B]. fold i in A, B.
  rewrite (split_concat t i) by (apply slot_lt; apply I). rewrite !values_app, A, B, app_nil_r. cbn [app]. unfold values. change (fun e : Z * (list Z * list Z) => snd (snd e)) with val. apply (f_equal (map val)). apply filter_ext_in. intros e E. apply matches_same; auto. destruct I as [_ I]. apply (I _ _ E).
Qed.
(** changing one bucket *)
Lemma nth_bucket t i j f : (i < List.length t)%nat -> nth j (on_bucket t i f) [] = if Nat.eq_dec j i then f (nth i t []) else nth j t [].
Proof.
  unfold on_bucket. revert i j. induction t as [|b t IH]; intros [|i] j L; cbn in L; try lia.
  - destruct j; reflexivity.
  - destruct j as [|j]; [reflexivity|]. cbn [firstn app nth skipn]. etransitivity; [apply IH; lia|]. destruct (Nat.eq_dec j i), (Nat.eq_dec (S j) (S i)); try lia; reflexivity.
Qed.
Lemma len_bucket t i f : (i < List.length t)%nat -> List.length (on_bucket t i f) = List.length t.
Proof. intros L. unfold on_bucket. rewrite app_length, firstn_length. cbn [List.length]. rewrite skipn_length. lia. Qed.
Lemma inv_bucket t i f : inv t -> (i < List.length t)%nat -> (forall e, In e (f (nth i t [])) -> (fits e /\ i = slot t (fst e)) \/ exists e', In e' (nth i t []) /\ fst e = fst e' /\ key e = key e') -> inv (on_bucket t i f).
Proof.
  intros [N I] L F. split. { intros E. apply (f_equal (@List.length _)) in E. rewrite (len_bucket t i f L) in E. destruct t; [tauto|discriminate]. }
  intros j e E. unfold slot, zlen. rewrite (len_bucket t i f L). fold (zlen t). fold (slot t (fst e)). rewrite (nth_bucket t i j f L) in E. destruct (Nat.eq_dec j i) as [->|].
  - destruct (F _ E) as [X|(e' & X & Y & Z)]; [exact X|]. destruct (I _ _ X) as [[A B] C]. rewrite <- Y in *. rewrite <- Z in *. split; [split; auto|exact C].
  - apply I. exact E.
Qed.
Lemma put_bucket t e : put t e = on_bucket t (slot t (fst e)) (cons e).
Proof. reflexivity. Qed.
Lemma concat_bucket t i f : concat (on_bucket t i f) = concat (firstn i t) ++ f (nth i t []) ++ concat (skipn (S i) t).
Proof. unfold on_bucket. rewrite concat_app. reflexivity. Qed.
Lemma put_inv t e : inv t -> fits e -> inv (put t e).
Proof. intros I F. rewrite put_bucket. apply inv_bucket; [exact I|apply slot_lt; apply I|]. intros x [<-|X]; [left; auto|right; eauto]. Qed.
Lemma put_all t e : t <> [] -> Permutation (concat (put t e)) (e :: concat t).
Proof. intros N. rewrite put_bucket, concat_bucket, (split_concat t (slot t (fst e))) by (apply slot_lt; exact N). symmetry. apply Permutation_middle. Qed.
Lemma put_fold l : forall t, inv t -> Forall fits l -> inv (fold_left put l t) /\ Permutation (concat (fold_left put l t)) (l ++ concat t).
Proof.
  induction l as [|e l IH]; intros t I F; [split; [exact I|reflexivity]|]. inversion F; subst. cbn [fold_left]. destruct (IH (put t e) (put_inv _ _ I H1) H2) as [A B]. split; [exact A|].
  etransitivity; [exact B|]. cbn [app]. etransitivity; [apply Permutation_app_head; apply put_all; apply I|]. symmetry. apply Permutation_middle.
Qed.
Lemma in_concat_nth (t : table) e : In e (concat t) -> exists j, In e (nth j t []).
Proof. intros H. destruct (in_after t 0 e) as (j & _ & K); [exact H|]. eauto. Qed.
Lemma all_fit t : inv t -> Forall fits (concat t).
Proof. intros [_ I]. apply Forall_forall. intros e E. apply in_concat_nth in E as [j E]. apply (I _ _ E). Qed.
Lemma change_keys f v l e : In e (change_first f v l) -> exists e', In e' l /\ fst e = fst e' /\ key e = key e'.
Proof.
  induction l as [|x l IH]; [intros []|]. cbn [change_first]. destruct (f x).
  - intros [<-|H]; [exists x; split; [left|]; auto|]. apply filter_In in H as [H _]. exists e. split; [right; exact H|auto].
  - intros [<-|H]; [exists x; split; [left|]; auto|]. destruct (IH H) as (e' & A & B). exists e'. split; [right; exact A|exact B].
Qed.
Lemma values_erase k n l (f : entry -> bool) : (forall e, In e l -> f e = same_name (key e) k) -> values n (filter (fun e => negb (f e)) l) = if same_name k n then [] else values n l.
Proof.
  induction l as [|e l IH]; intros F; [destruct (same_name k n); reflexivity|]. cbn [filter]. rewrite (F e) by (left; auto). specialize (IH (fun e I => F e (or_intror I))).
  unfold values in *. destruct (same_name (key e) k) eqn:E; cbn [negb].
  - rewrite IH. cbn [filter]. rewrite <- (same_name_trans _ _ n E). destruct (same_name k n); reflexivity.
  - cbn [filter]. destruct (same_name (key e) n) eqn:E2; cbn [map]; rewrite IH; [|reflexivity]. destruct (same_name k n) eqn:E3; [|reflexivity].
    exfalso. rewrite same_name_sym in E3. rewrite same_name_true in E2, E3.
    assert (same_name (key e) k = true) by (apply same_name_true; congruence). congruence.
Qed.
Lemma values_changed k n v l (f : entry -> bool) : (forall e, In e l -> f e = same_name (key e) k) -> values k l <> [] -> values n (change_first f v l) = if same_name k n then [v] else values n l.
Proof.
  induction l as [|e l IH]; intros F NE; [destruct NE; reflexivity|]. cbn [change_first]. rewrite (F e) by (left; auto). pose proof (fun e I => F e (or_intror I)) as F'.
  destruct (same_name (key e) k) eqn:E.
  - pose proof (values_erase k n l f F') as VE. unfold values in *. cbn [filter key fst snd]. fold (key e). rewrite <- (same_name_trans _ _ n E). destruct (same_name k n); cbn [map val snd]; rewrite VE; reflexivity.
  - assert (NE' : values k l <> []) by (unfold values in *; cbn [filter] in NE; rewrite E in NE; exact NE). specialize (IH F' NE'). unfold values in *. cbn [filter].
    destruct (same_name (key e) n) eqn:E2; cbn [map]; rewrite IH; [|reflexivity]. destruct (same_name k n) eqn:E3; [|reflexivity].
    exfalso. rewrite same_name_sym in E3. rewrite same_name_true in E2, E3. assert (same_name (key e) k = true) by (apply same_name_true; congruence). congruence.
Qed.
(** one operation *)
Definition op_ok (o : hop) : Prop := match o with HAdd k _ | HChange k _ | HDelete k => P k | HLocale up => good up | HRehash _ => True end.
Definition agrees (t : table) (ops : list dict_op) : Prop := forall n, P n -> Permutation (values n (concat t)) (values_after n [] ops).
Lemma values_after_app n a b vs : values_after n vs (a ++ b) = values_after n (values_after n vs a) b.
Proof. revert vs. induction a as [|o a IH]; intros vs; [reflexivity|]. destruct o; cbn; apply IH. Qed.
Lemma add_agrees t k v done h : inv t -> P k -> agrees t done -> h = ihash up0 k -> forall n, P n -> Permutation (values n (concat (put t (h, (k, v))))) (if same_name k n then values_after n [] done ++ [v] else values_after n [] done).
Proof.
  intros I PK A -> n N. etransitivity; [apply values_perm; apply put_all; apply I|]. unfold values at 1. cbn [filter key fst snd]. destruct (same_name k n); cbn [map val snd]; [|apply (A n N)].
  etransitivity; [|apply Permutation_cons_append]. constructor. apply (A n N).
Qed.
Lemma step_agrees t up o done : inv t -> good up -> op_ok o -> agrees t done ->
  let (t', up') := h_step mix cached (t, up) o in inv t' /\ good up' /\ agrees t' (done ++ dict_ops [o]).
Proof.
  intros I G O A. destruct o as [k v|k v|k|m|up']; cbn [h_step op_ok dict_ops] in *.
  - rewrite (hash_up _ _ G O). split; [apply put_inv; auto; split; auto|]. split; [exact G|]. intros n N. rewrite values_after_app. cbn [values_after]. apply add_agrees; auto.
  - rewrite (range_values up t k I G O), (hash_up _ _ G O). set (i := slot t (ihash up0 k)). assert (L : (i < List.length t)%nat) by (apply slot_lt; apply I).
    pose proof (A k O) as AK. destruct (values k (concat t)) as [|w ws] eqn:V.
    + split; [apply put_inv; auto; split; auto|]. split; [exact G|]. intros n N. rewrite values_after_app. cbn [values_after]. etransitivity; [apply add_agrees; eauto|].
      destruct (same_name k n) eqn:S; [|reflexivity]. pose proof (A n N) as AN. assert (VN : values n (concat t) = []).
      { unfold values in *. rewrite <- V. f_equal. apply filter_ext. intros e. rewrite (same_name_sym (key e) n), (same_name_sym (key e) k). symmetry. apply same_name_trans. rewrite same_name_sym. exact S. }
      rewrite VN in AN. apply Permutation_nil in AN. rewrite AN. reflexivity.
    + split. { apply inv_bucket; auto. intros e E. right. eapply change_keys; eauto. } split; [exact G|].
      intros n N. rewrite values_after_app. cbn [values_after]. rewrite concat_bucket, !values_app. destruct (values_bucket t k I O) as [X Y]. fold i in X, Y.
      assert (F : forall e, In e (nth i t []) -> matches mix cached up k e = same_name (key e) k) by (intros e E; apply matches_same; auto; apply (proj2 I _ _ E)).
      rewrite (values_changed k n v _ _ F). 2:{ rewrite (split_concat t i L), !values_app, X, Y, app_nil_r in V. cbn [app] in V. congruence. }
      destruct (same_name k n) eqn:S.
      * assert (Z : forall l, values n l = values k l).
        { intros l. unfold values. f_equal. apply filter_ext. intros e. rewrite (same_name_sym (key e) n), (same_name_sym (key e) k). apply same_name_trans. exact S. }
        rewrite !Z, X, Y. reflexivity.
      * rewrite <- !values_app, <- (split_concat t i L). apply (A n N).
  - rewrite (hash_up _ _ G O). set (i := slot t (ihash up0 k)). assert (L : (i < List.length t)%nat) by (apply slot_lt; apply I).
    split. { apply inv_bucket; auto. intros e E. right. apply filter_In in E as [E _]. eauto. } split; [exact G|].
    intros n N. rewrite values_after_app. cbn [values_after]. rewrite concat_bucket, !values_app. destruct (values_bucket t k I O) as [X Y]. fold i in X, Y.
    assert (F : forall e, In e (nth i t []) -> matches mix cached up k e = same_name (key e) k) by (intros e E; apply matches_same; auto; apply (proj2 I _ _ E)).
    rewrite (values_erase k n _ _ F). destruct (same_name k n) eqn:S.
    + assert (Z : forall l, values n l = values k l).
      { intros l. unfold values. f_equal. apply filter_ext. intros e. rewrite (same_name_sym (key e) n), (same_name_sym (key e) k). apply same_name_trans. exact S. }
      rewrite !Z, X, Y. reflexivity.
    + rewrite <- !values_app, <- (split_concat t i L). apply (A n N).
  - rewrite app_nil_r. assert (M : map (fun e => (if cached then fst e else ihash up (fst (snd e)), snd e)) (concat t) = concat t).
    { rewrite <- (map_id (concat t)) at 2. apply map_ext_in. intros [h [k v]] E. pose proof (all_fit t I) as F. rewrite Forall_forall in F. destruct (F _ E) as [PK H]. unfold key in PK, H. cbn [fst snd] in *. destruct cached; [reflexivity|]. rewrite (hash_up _ _ G PK), <- H. reflexivity. }
    rewrite M. assert (I0 : inv (repeat [] (S m))).
    { split; [discriminate|]. intros j e E. exfalso. revert j E. generalize (S m) as q. induction q as [|q IH]; intros [|j] E; cbn in E; auto. apply (IH j E). }
    destruct (put_fold (concat t) _ I0 (all_fit t I)) as [B C]. split; [exact B|]. split; [exact G|]. intros n N. etransitivity; [apply values_perm; exact C|].
    assert (concat (repeat (@nil entry) (S m)) = []) as -> by (generalize (S m) as q; induction q; cbn; auto). rewrite app_nil_r. apply (A n N).
  - rewrite app_nil_r. auto.
Qed.
Theorem table_agrees up ops : good up -> Forall op_ok ops -> let (t, up') := h_run mix cached up ops in forall n, P n -> Permutation (t_range mix cached up' t n) (values_after n [] (dict_ops ops)).
Proof.
  intros G O. assert (K : forall ops t up done, inv t -> good up -> Forall op_ok ops -> agrees t done -> let (t', up') := fold_left (h_step mix cached) ops (t, up) in inv t' /\ good up' /\ agrees t' (done ++ dict_ops ops)).
  { clear up ops G O. induction ops as [|o ops IH]; intros t up done I G O A; cbn [fold_left]. { rewrite app_nil_r. auto. }
    inversion O; subst. pose proof (step_agrees t up o done I G H1 A) as S. destruct (h_step mix cached (t, up) o) as [t1 up1]. destruct S as (I1 & G1 & A1).
    specialize (IH t1 up1 _ I1 G1 H2 A1). destruct (fold_left (h_step mix cached) ops (t1, up1)) as [t2 up2]. destruct IH as (I2 & G2 & A2). split; [exact I2|]. split; [exact G2|].
    rewrite <- app_assoc in A2. replace (dict_ops (o :: ops)) with (dict_ops [o] ++ dict_ops ops) by (destruct o; reflexivity). exact A2. }
  assert (I0 : inv [[]]) by (split; [discriminate|]; intros [|[|j]] e E; destruct E). assert (A0 : agrees [[]] []) by (intros n N; reflexivity).
  specialize (K ops [[]] up [] I0 G O A0). change (let (t', up') := h_run mix cached up ops in inv t' /\ good up' /\ agrees t' (dict_ops ops)) in K. destruct (h_run mix cached up ops) as [t' up']. destruct K as (I & G' & A).
  intros n N. rewrite range_values by auto. apply (A n N).
Qed.
End Table.
