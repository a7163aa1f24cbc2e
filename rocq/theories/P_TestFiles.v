(** C161-C163: comparing files with the helpers for tests. *)
From Coq Require Import String ZArith List Bool Lia Permutation.
From Verif Require Import Base AlgModel HttpModel TestModel.
Import ListNotations.

(** ** What the claims say *)
Definition blank (c : Z) : Prop := c = 32 \/ 9 <= c <= 13.
(** [t] is [l] without the blanks around it *)
Definition stripped (l t : list Z) : Prop :=
  exists a b, l = a ++ t ++ b /\ Forall blank a /\ Forall blank b
    /\ (forall c r, t = c :: r -> ~ blank c) /\ (forall c r, t = r ++ [c] -> ~ blank c).
(** [ls] are the lines of the bytes [s]; what follows the last newline is a line unless it is empty *)
Definition has_lines (s : list Z) (ls : list (list Z)) : Prop :=
  exists full tail, s = concat (map (fun l => l ++ [10]) full) ++ tail
    /\ Forall (fun l => ~ In 10 l) full /\ ~ In 10 tail
    /\ ls = full ++ match tail with [] => [] | _ => [tail] end.
(** [ts] are the lines of [ls] that count: without the blanks around, neither empty nor a comment *)
Inductive counted : list (list Z) -> list (list Z) -> Prop :=
| counted_nil : counted [] []
| counted_blank l ls ts : Forall blank l -> counted ls ts -> counted (l :: ls) ts
| counted_comment l t ls ts : stripped l (35 :: t) -> counted ls ts -> counted (l :: ls) ts
| counted_line l c t ls ts : stripped l (c :: t) -> c <> 35 -> counted ls ts -> counted (l :: ls) ((c :: t) :: ts).

(** ** Lines *)
Lemma take_line_spec : forall s, let (l, r) := take_line s in
  ~ In 10 l /\ match r with Some s' => s = l ++ 10 :: s' | None => s = l end.
Proof.
  induction s as [|c s IH]; simpl; [auto|].
  destruct (Z.eqb_spec c 10) as [->|N]; simpl; [auto|].
  destruct (take_line s) as [l r]. destruct IH as [I E]. split.
  - intros [H|H]; [congruence | auto].
  - destruct r; simpl; congruence.
Qed.
Lemma take_line_full : forall l s, ~ In 10 l -> take_line (l ++ 10 :: s) = (l, Some s).
Proof.
  induction l as [|c l IH]; intros s H; simpl; [reflexivity|].
  destruct (Z.eqb_spec c 10) as [->|N]; [exfalso; apply H; left; reflexivity|].
  rewrite IH; [reflexivity | intros X; apply H; right; exact X].
Qed.
Lemma take_line_tail : forall l, ~ In 10 l -> take_line l = (l, None).
Proof.
  induction l as [|c l IH]; intros H; simpl; [reflexivity|].
  destruct (Z.eqb_spec c 10) as [->|N]; [exfalso; apply H; left; reflexivity|].
  rewrite IH; [reflexivity | intros X; apply H; right; exact X].
Qed.
(** every sequence of bytes has lines *)
Lemma lines_exist : forall n s, (List.length s <= n)%nat -> exists ls, has_lines s ls.
Proof.
  induction n as [|n IH]; intros s L.
  - destruct s; [|simpl in L; lia]. exists [], [], []. simpl. auto.
  - pose proof (take_line_spec s) as T. destruct (take_line s) as [l [s'|]]; destruct T as [I E].
    + destruct (IH s') as [ls (full & tail & E1 & F & N & E2)].
      { subst s. rewrite app_length in L. simpl in L. lia. }
      exists (l :: ls), (l :: full), tail. simpl. rewrite E, E1, E2, <- !app_assoc. auto.
    + subst l. exists (match s with [] => [] | _ => [s] end), [], s. simpl. auto.
Qed.
(** the lines one by one *)
Lemma has_lines_inv : forall s ls, has_lines s ls ->
  (s = [] /\ ls = []) \/ (exists l s' ls', std_getline s = Some (l, s') /\ ls = l :: ls' /\ has_lines s' ls' /\ (List.length s' < List.length s)%nat /\ take_line s = (l, match s' with [] => snd (take_line s) | _ => Some s' end)).
Proof.
  intros s ls (full & tail & E & F & N & E2). destruct full as [|l full].
  - simpl in *. subst s. destruct tail as [|c tail]; [left; auto|]. right.
    exists (c :: tail), [], []. pose proof (take_line_tail (c :: tail) N) as T.
    unfold std_getline. rewrite T. repeat split; auto; [exists [], []; simpl; auto | simpl; lia].
  - right. inversion F as [|? ? F1 F2]; subst. exists l, (concat (map (fun l => l ++ [10]) full) ++ tail), (full ++ match tail with [] => [] | _ => [tail] end).
    simpl. rewrite <- !app_assoc. simpl. set (s' := concat _ ++ tail). pose proof (take_line_full l s' F1) as T.
    split; [|split; [reflexivity | split; [exists full, tail; auto | split]]].
    + unfold std_getline. rewrite T. destruct (l ++ 10 :: s') eqn:E; [destruct l; discriminate | reflexivity].
    + rewrite app_length. simpl. lia.
    + rewrite T. simpl. destruct s'; reflexivity.
Qed.

(** ** Blanks around *)
Lemma isspace_blank : forall c, c_isspace c = true <-> blank c.
Proof. intros c. unfold c_isspace, blank. rewrite orb_true_iff, andb_true_iff, Z.eqb_eq, !Z.leb_le. tauto. Qed.
Lemma trim_left_split : forall l, exists a, l = a ++ trim_left l /\ Forall blank a /\ (forall c r, trim_left l = c :: r -> ~ blank c).
Proof.
  induction l as [|c l IH]; [exists []; simpl; repeat split; auto; discriminate|]. simpl.
  destruct (c_isspace c) eqn:S.
  - destruct IH as (a & E & F & N). exists (c :: a). simpl. split; [congruence|]. split; [constructor; [apply isspace_blank; exact S | exact F] | exact N].
  - exists []. split; [reflexivity|]. split; [constructor|]. intros c' r [= <- <-] B. apply isspace_blank in B. congruence.
Qed.
Lemma trim_stripped : forall l, stripped l (trim l).
Proof.
  intros l. unfold trim. destruct (trim_left_split l) as (a & E & F & N).
  destruct (trim_left_split (rev (trim_left l))) as (b & E2 & F2 & N2).
  exists a, (rev b). set (t := trim_left (rev (trim_left l))) in *.
  assert (E3 : trim_left l = rev t ++ rev b) by (rewrite <- rev_app_distr, <- E2, rev_involutive; reflexivity).
  split; [congruence|]. split; [exact F|]. split; [apply Forall_rev; exact F2|]. split.
  - intros c r H. apply (N c (r ++ rev b)). rewrite E3, H. reflexivity.
  - intros c r H. apply (N2 c (rev r)). rewrite <- (rev_involutive t), H, rev_app_distr. reflexivity.
Qed.
Lemma trim_left_app : forall a l, Forall blank a -> trim_left (a ++ l) = trim_left l.
Proof. induction a as [|c a IH]; intros l F; [reflexivity|]. inversion F; subst. simpl. rewrite (proj2 (isspace_blank c)) by assumption. auto. Qed.
Lemma trim_left_id : forall l, (forall c r, l = c :: r -> ~ blank c) -> trim_left l = l.
Proof.
  intros [|c l] H; [reflexivity|]. simpl. destruct (c_isspace c) eqn:S; [|reflexivity].
  exfalso. apply (H c l eq_refl). apply isspace_blank. exact S.
Qed.
Lemma stripped_trim : forall l t, stripped l t -> trim l = t.
Proof.
  intros l t (a & b & E & FA & FB & H1 & H2). unfold trim. subst l. rewrite trim_left_app by exact FA.
  destruct t as [|c t].
  - simpl. rewrite <- (app_nil_r b). rewrite trim_left_app by exact FB. reflexivity.
  - rewrite (trim_left_id ((c :: t) ++ b)).
    2: { intros c' r E. simpl in E. injection E as E _. subst c'. apply (H1 c t eq_refl). }
    rewrite rev_app_distr. rewrite trim_left_app by (apply Forall_rev; exact FB).
    rewrite trim_left_id; [apply rev_involutive|].
    intros c' r E. apply (H2 c' (rev r)). rewrite <- (rev_involutive (c :: t)), E. reflexivity.
Qed.
Lemma trim_blank : forall l, Forall blank l <-> trim l = [].
Proof.
  intros l. split.
  - intros F. apply stripped_trim. exists l, []. simpl. rewrite app_nil_r. repeat split; auto; intros c [|? ?]; discriminate.
  - intros E. destruct (trim_stripped l) as (a & b & E2 & FA & FB & _). rewrite E in E2. subst l. simpl. apply Forall_app. auto.
Qed.
Lemma read_loop_counted : forall fuel s ls, has_lines s ls -> (List.length s < fuel)%nat -> counted ls (read_loop fuel s).
Proof.
  induction fuel as [|f IH]; intros s ls H L; [lia|]. simpl.
  destruct (has_lines_inv _ _ H) as [[-> ->]|(l & s' & ls' & G & -> & H' & L' & _)]; [constructor|].
  rewrite G. specialize (IH s' ls' H' ltac:(lia)). destruct (trim l) as [|c t] eqn:T.
  - apply counted_blank; [apply trim_blank; exact T | exact IH].
  - pose proof (trim_stripped l) as S. rewrite T in S. change (ch "#") with 35. destruct (Z.eqb_spec c 35) as [->|N].
    + apply (counted_comment l t); assumption.
    + apply counted_line; assumption.
Qed.
Lemma counted_fun : forall ls ts1 ts2, counted ls ts1 -> counted ls ts2 -> ts1 = ts2.
Proof.
  intros ls ts1 ts2 H. revert ts2. induction H as [|l ls ts B H IH|l t ls ts S H IH|l c t ls ts S N H IH]; intros ts2 H2; inversion H2; subst; auto;
    repeat match goal with
    | X : Forall blank ?l |- _ => apply trim_blank in X
    | X : stripped ?l _ |- _ => apply stripped_trim in X
    end; try congruence.
  f_equal; [congruence | auto].
Qed.

(** ** Sorting *)
Lemma ltb_irrefl : forall a, str_ltb a a = false.
Proof. induction a as [|x a IH]; simpl; [reflexivity|]. rewrite Z.ltb_irrefl, Z.eqb_refl, IH. reflexivity. Qed.
Lemma ltb_trans : forall a b c, str_ltb a b = true -> str_ltb b c = true -> str_ltb a c = true.
Proof.
  induction a as [|x a IH]; intros [|y b] [|z c]; simpl; try congruence.
  rewrite !orb_true_iff, !andb_true_iff, !Z.ltb_lt, !Z.eqb_eq. intros [H|[H1 H2]] [K|[K1 K2]]; try (left; lia).
  right. split; [lia | apply (IH b c); assumption].
Qed.
Lemma ltb_total : forall a b, str_ltb a b = false -> a = b \/ str_ltb b a = true.
Proof.
  induction a as [|x a IH]; intros [|y b]; simpl; try congruence; auto.
  rewrite orb_false_iff, Z.ltb_ge. intros [H1 H2].
  destruct (Z.eqb_spec x y) as [->|N]; simpl in H2.
  - destruct (IH b H2) as [->|H]; [auto|]. right. rewrite Z.eqb_refl, H, orb_true_r. reflexivity.
  - right. apply orb_true_iff. left. apply Z.ltb_lt. lia.
Qed.
(** in order: no element is greater than a later one *)
Inductive ordered : list (list Z) -> Prop :=
| ordered_nil : ordered []
| ordered_cons x l : (forall y, In y l -> str_ltb y x = false) -> ordered l -> ordered (x :: l).
Lemma insert_perm : forall x l, Permutation (x :: l) (list_insert x l).
Proof.
  intros x. induction l as [|y l IH]; simpl; [apply Permutation_refl|].
  destruct (str_ltb x y); [apply Permutation_refl|]. apply perm_trans with (y :: x :: l); [apply perm_swap | apply perm_skip; exact IH].
Qed.
Lemma sort_perm : forall l, Permutation l (list_sort l).
Proof. induction l as [|x l IH]; simpl; [constructor|]. apply perm_trans with (x :: list_sort l); [apply perm_skip; exact IH | apply insert_perm]. Qed.
Lemma insert_ordered : forall x l, ordered l -> ordered (list_insert x l).
Proof.
  intros x l H. induction H as [|y l F H IH]; simpl; [constructor; [intros ? []|constructor]|].
  destruct (str_ltb x y) eqn:E.
  - constructor; [|constructor; assumption]. intros z [<-|I].
    + destruct (str_ltb y x) eqn:E2; [|reflexivity]. pose proof (ltb_trans _ _ _ E E2) as K. rewrite ltb_irrefl in K. discriminate.
    + destruct (str_ltb z x) eqn:E2; [|reflexivity]. pose proof (ltb_trans _ _ _ E2 E) as K. rewrite (F z I) in K. discriminate.
  - constructor; [|exact IH]. intros z I. apply (Permutation_in z (Permutation_sym (insert_perm x l))) in I.
    destruct I as [<-|I]; auto.
Qed.
Lemma sort_ordered : forall l, ordered (list_sort l).
Proof. induction l as [|x l IH]; simpl; [constructor | apply insert_ordered; exact IH]. Qed.
Lemma ordered_unique : forall a b, ordered a -> ordered b -> Permutation a b -> a = b.
Proof.
  intros a b H. revert b. induction H as [|x a F H IH]; intros b HB P.
  - apply Permutation_nil in P. auto.
  - destruct HB as [|y b F2 HB]; [apply Permutation_sym, Permutation_nil in P; discriminate|].
    assert (E : x = y).
    { assert (I : In x (y :: b)) by (apply (Permutation_in x P); left; reflexivity).
      assert (J : In y (x :: a)) by (apply (Permutation_in y (Permutation_sym P)); left; reflexivity).
      destruct I as [<-|I]; [reflexivity|]. destruct J as [<-|J]; [reflexivity|].
      destruct (ltb_total _ _ (F y J)) as [->|K]; [reflexivity|]. rewrite (F2 x I) in K. discriminate. }
    subst y. f_equal. apply IH; [exact HB | apply (Permutation_cons_inv P)].
Qed.
Lemma list_eqb_eq : forall a b, list_eqb a b = true <-> a = b.
Proof.
  induction a as [|x a IH]; intros [|y b]; simpl; split; try congruence; try discriminate.
  - rewrite andb_true_iff, str_eqb_eq, IH. intros [-> ->]. reflexivity.
  - intros [= -> ->]. rewrite andb_true_iff, str_eqb_eq, IH. auto.
Qed.

(** ** C161 *)
(** Two files match exactly if the lines that count are the same, each as often, in whatever order. *)
Theorem C161_match : forall a b la lb ta tb,
  has_lines a la -> counted la ta -> has_lines b lb -> counted lb tb ->
  exists r, check_files_match (Some a) (Some b) = Some r /\ (r = true <-> Permutation ta tb).
Proof.
  intros a b la lb ta tb HA CA HB CB. unfold check_files_match, read_lines_from_file.
  set (ra := read_loop _ a). set (rb := read_loop _ b).
  assert (EA : ra = ta) by (apply (counted_fun la); [apply read_loop_counted; [exact HA | lia] | exact CA]).
  assert (EB : rb = tb) by (apply (counted_fun lb); [apply read_loop_counted; [exact HB | lia] | exact CB]).
  rewrite EA, EB. eexists. split; [reflexivity|]. rewrite list_eqb_eq. split.
  - intros E. apply perm_trans with (list_sort ta); [apply sort_perm|]. rewrite E. apply Permutation_sym, sort_perm.
  - intros P. apply ordered_unique; try apply sort_ordered.
    apply perm_trans with ta; [apply Permutation_sym, sort_perm|]. apply perm_trans with tb; [exact P | apply sort_perm].
Qed.
Print Assumptions C161_match.
(** Every file has lines that count, and only one list of them; a file that cannot be opened ends the test. *)
Theorem C161_lines :
  (forall a, exists la ta, has_lines a la /\ counted la ta) /\
  (forall f, check_files_match None f = None /\ check_files_match f None = None) /\
  (forall a la la' ta ta', has_lines a la -> has_lines a la' -> counted la ta -> counted la' ta' -> ta = ta').
Proof.
  split; [|split].
  - intros a. destruct (lines_exist _ a (le_n _)) as [la H]. exists la, (read_loop (S (List.length a)) a). split; [exact H|].
    apply read_loop_counted; [exact H | lia].
  - intros [s|]; split; reflexivity.
  - intros a la la' ta ta' H H' C C'.
    transitivity (read_loop (S (List.length a)) a).
    + apply (counted_fun la); [exact C | apply read_loop_counted; [exact H | lia]].
    + apply (counted_fun la'); [apply read_loop_counted; [exact H' | lia] | exact C'].
Qed.
Print Assumptions C161_lines.
(** two files with the same lines in another order, other line endings, a comment and blanks; and one with a line more *)
Example C161_case :
  let nl := [10] in let crnl := [13; 10] in
  let a := bs "one" ++ nl ++ bs "# note" ++ nl ++ nl ++ bs "two" in
  let b := bs "  two " ++ crnl ++ bs "one" ++ crnl in
  check_files_match (Some a) (Some b) = Some true /\ check_files_match (Some a) (Some (b ++ bs "one")) = Some false
  /\ has_lines b [bs "  two " ++ [13]; bs "one" ++ [13]] /\ counted [bs "  two " ++ [13]; bs "one" ++ [13]] [bs "two"; bs "one"].
Proof.
  cbv zeta. split; [reflexivity|]. split; [reflexivity|]. split.
  - exists [bs "  two " ++ [13]; bs "one" ++ [13]], []. repeat split; try reflexivity; [|intros []].
    repeat constructor; vm_compute; intros H; repeat destruct H as [H|H]; try discriminate; exact H.
  - apply (counted_line _ 116 (bs "wo")); [|discriminate|apply (counted_line _ 111 (bs "ne")); [|discriminate|constructor]].
    + exists [32; 32], [32; 13]. repeat split; try (repeat constructor; unfold blank; lia).
      * intros c r [= <- <-]. unfold blank. lia.
      * intros c r E. destruct r as [|? [|? [|? r]]]; simpl in E; try discriminate E; try (injection E as E1 E2 E3; subst c; unfold blank; lia).
        injection E as _ _ _ E. destruct r; discriminate E.
    + exists [], [13]. repeat split; try (repeat constructor; unfold blank; lia).
      * intros c r [= <- <-]. unfold blank. lia.
      * intros c r E. destruct r as [|? [|? [|? r]]]; simpl in E; try discriminate E; try (injection E as E1 E2 E3; subst c; unfold blank; lia).
        injection E as _ _ _ E. destruct r; discriminate E.
Qed.

(** ** C162 *)
Lemma bytes_loop_eq : forall n fuel a b, (0 < n)%nat -> (List.length a < fuel)%nat -> (bytes_loop n fuel a b = true <-> a = b).
Proof.
  intros n. induction fuel as [|f IH]; intros a b N L; [lia|]. simpl.
  destruct (Nat.leb_spec n (List.length a)) as [A|A], (Nat.leb_spec n (List.length b)) as [B|B]; simpl.
  - unfold mem_differ. rewrite !firstn_firstn, Nat.min_id.
    destruct (str_eqb (firstn n a) (firstn n b)) eqn:E; simpl.
    + apply str_eqb_eq in E. rewrite IH by (try rewrite skipn_length; lia). split.
      * intros K. rewrite <- (firstn_skipn n a), <- (firstn_skipn n b). congruence.
      * intros ->. reflexivity.
    + split; [discriminate|]. intros ->. rewrite str_eqb_refl in E. discriminate.
  - split; [discriminate|]. intros ->. lia.
  - split; [discriminate|]. intros ->. lia.
  - unfold last_check, is_read. cbn [g_count g_buf]. rewrite !Nat.min_r by lia. destruct (Nat.eqb_spec (List.length a) (List.length b)) as [E|E]; simpl.
    + unfold mem_differ. rewrite negb_involutive, str_eqb_eq. rewrite !firstn_firstn, !Nat.min_l by lia.
      rewrite firstn_all. rewrite E, firstn_all. tauto.
    + split; [discriminate|]. intros ->. congruence.
Qed.
(** Without ignoring line endings, two files match exactly if they have the same bytes. *)
Theorem C162_exact : forall a b, exists r, check_files_exact_match (Some a) (Some b) false = Some r /\ (r = true <-> a = b).
Proof.
  intros a b. unfold check_files_exact_match. eexists. split; [reflexivity|]. apply bytes_loop_eq; [|lia].
  unfold BUF_SIZE. change O with (Z.to_nat 0). apply Z2Nat.inj_lt; lia.
Qed.
Print Assumptions C162_exact.
(** A file that cannot be opened ends the test. *)
Theorem C162_open : forall f g e, check_files_exact_match f g e = None <-> f = None \/ g = None.
Proof. intros [a|] [b|] e; simpl; split; auto; try discriminate. intros [H|H]; discriminate. Qed.
Print Assumptions C162_open.
(** more than one buffer, differing in the last byte only *)
Example C162_case :
  let a := repeat 97 (Z.to_nat 5000) in
  check_files_exact_match (Some (a ++ [1])) (Some (a ++ [1])) false = Some true
  /\ check_files_exact_match (Some (a ++ [1])) (Some (a ++ [2])) false = Some false.
Proof. vm_compute. split; reflexivity. Qed.

(** ** C163 *)
(** [t] is [l] without the carriage returns and newlines at its end *)
Definition without_eol (l t : list Z) : Prop :=
  exists e, l = t ++ e /\ Forall (fun c => c = 10 \/ c = 13) e /\ (forall r c, t = r ++ [c] -> c <> 10 /\ c <> 13).
Lemma trim_back_split : forall r, exists e, r = e ++ trim_back r /\ Forall (fun c => c = 10 \/ c = 13) e /\ (forall c q, trim_back r = c :: q -> c <> 10 /\ c <> 13).
Proof.
  induction r as [|c r IH]; [exists []; simpl; repeat split; auto; discriminate|]. simpl.
  destruct (Z.eqb_spec c 10) as [->|N1]; simpl; [|destruct (Z.eqb_spec c 13) as [->|N2]; simpl].
  - destruct IH as (e & E & F & N). exists (10 :: e). simpl. split; [congruence|]. auto.
  - destruct IH as (e & E & F & N). exists (13 :: e). simpl. split; [congruence|]. auto.
  - exists []. simpl. split; [reflexivity|]. split; [constructor|]. intros c' q [= <- <-]. auto.
Qed.
Lemma trim_eol_without : forall l, without_eol (c_str l) (trim_eol l).
Proof.
  intros l. unfold trim_eol. set (s := c_str l). destruct (trim_back_split (rev s)) as (e & E & F & N). exists (rev e). split; [|split].
  - rewrite <- rev_app_distr, <- E, rev_involutive. reflexivity.
  - apply Forall_rev. exact F.
  - intros r c H. apply (N c (rev r)). rewrite <- (rev_involutive (trim_back _)), H, rev_app_distr. reflexivity.
Qed.
Lemma without_fun : forall l t t', without_eol l t -> without_eol l t' -> t = t'.
Proof.
  assert (W : forall t e t' e', t ++ e = t' ++ e' -> Forall (fun c => c = 10 \/ c = 13) e -> Forall (fun c : Z => c = 10 \/ c = 13) e' ->
    (forall r c, t = r ++ [c] -> c <> 10 /\ c <> 13) -> (forall r c, t' = r ++ [c] -> c <> 10 /\ c <> 13) -> (List.length t <= List.length t')%nat -> t = t').
  { intros t e t' e' E F F' N N' L.
    destruct (app_eq_app _ _ _ _ E) as [x [[A B]|[A B]]].
    - subst t. rewrite app_length in L. destruct x; [rewrite app_nil_r; reflexivity | simpl in L; lia].
    - subst t' e. destruct (rev x) as [|c y] eqn:R.
      + rewrite <- (rev_involutive x), R. simpl. rewrite app_nil_r. reflexivity.
      + assert (X : x = rev y ++ [c]) by (rewrite <- (rev_involutive x), R; reflexivity). subst x.
        exfalso. apply Forall_app in F. destruct F as [F _]. apply Forall_app in F. destruct F as [_ F]. inversion F as [|? ? G _]; subst.
        destruct (N' (t ++ rev y) c) as [G1 G2]; [apply app_assoc | lia]. }
  intros l t t' (e & E & F & N) (e' & E' & F' & N').
  destruct (Nat.le_ge_cases (List.length t) (List.length t')) as [L|L].
  - apply (W t e t' e'); auto. congruence.
  - symmetry. apply (W t' e' t e); auto. congruence.
Qed.
Lemma c_str_id : forall l, ~ In 0 l -> c_str l = l.
Proof.
  induction l as [|c l IH]; intros H; [reflexivity|]. simpl. destruct (Z.eqb_spec c 0) as [->|N]; [exfalso; apply H; left; reflexivity|].
  rewrite IH; [reflexivity | intros X; apply H; right; exact X].
Qed.
(** the line is short enough for the buffer and has no zero byte *)
Definition fair (n : nat) (l : list Z) : Prop := (List.length l < n)%nat /\ ~ In 0 l.
Lemma getline_line : forall n s l s', std_getline s = Some (l, s') -> fair n l -> g_ok (is_getline n s) = true /\ g_buf (is_getline n s) = l /\ g_rest (is_getline n s) = s'.
Proof.
  intros n s l s' H [L _]. unfold std_getline in H. unfold is_getline. destruct s as [|c s]; [discriminate|].
  destruct (take_line (c :: s)) as [l0 r]. injection H as -> <-.
  rewrite (proj2 (Nat.leb_le (S (List.length l)) n)) by lia. destruct r; auto.
Qed.
Lemma Forall2_head {A B} : forall (P : A -> B -> Prop) x y l m, Forall2 P (x :: l) (y :: m) -> P x y.
Proof. intros P x y l m H. inversion H; assumption. Qed.
Lemma lines_loop_eq : forall n fuel a b la lb, has_lines a la -> has_lines b lb -> Forall (fair n) la -> Forall (fair n) lb -> (List.length a < fuel)%nat ->
  (lines_loop n fuel a b = true <-> Forall2 (fun x y => exists t, without_eol x t /\ without_eol y t) la lb).
Proof.
  intros n. induction fuel as [|f IH]; intros a b la lb HA HB FA FB L; [lia|]. cbn [lines_loop].
  destruct (has_lines_inv _ _ HA) as [[-> ->]|(l & a' & la' & G & -> & HA' & LA & _)];
  destruct (has_lines_inv _ _ HB) as [[-> ->]|(l2 & b' & lb' & G2 & -> & HB' & LB & _)].
  - simpl. split; [constructor | reflexivity].
  - inversion FB; subst. destruct (getline_line _ _ _ _ G2 H1) as (O & _ & _). rewrite O. simpl. split; [discriminate | intros X; inversion X].
  - inversion FA; subst. destruct (getline_line _ _ _ _ G H1) as (O & _ & _). rewrite O. simpl. split; [discriminate | intros X; inversion X].
  - pose proof (Forall_inv FA) as F1. pose proof (Forall_inv_tail FA) as F2. pose proof (Forall_inv FB) as F3. pose proof (Forall_inv_tail FB) as F4.
    destruct (getline_line _ _ _ _ G F1) as (O1 & B1 & R1). destruct (getline_line _ _ _ _ G2 F3) as (O2 & B2 & R2).
    rewrite O1, O2, B1, B2, R1, R2. cbn [negb].
    pose proof (trim_eol_without l) as W1. rewrite c_str_id in W1 by apply F1.
    pose proof (trim_eol_without l2) as W2. rewrite c_str_id in W2 by apply F3.
    assert (D : (negb (Nat.eqb (List.length (trim_eol l)) (List.length (trim_eol l2))) = false /\ mem_differ (trim_eol l) (trim_eol l2) (List.length (trim_eol l)) = false) <-> trim_eol l = trim_eol l2).
    { unfold mem_differ. rewrite !negb_false_iff, Nat.eqb_eq, str_eqb_eq, firstn_all. split.
      - intros [E1 E2]. rewrite E1, firstn_all in E2. exact E2.
      - intros E. rewrite <- E, firstn_all. auto. }
    destruct (negb (Nat.eqb _ _)) eqn:E1; [|destruct (mem_differ _ _ _) eqn:E2].
    + split; [discriminate|]. intros X. destruct (Forall2_head _ _ _ _ _ X) as (t & T1 & T2).
      rewrite (without_fun _ _ _ W1 T1), (without_fun _ _ _ W2 T2), Nat.eqb_refl in E1. discriminate.
    + split; [discriminate|]. intros X. destruct (Forall2_head _ _ _ _ _ X) as (t & T1 & T2).
      assert (K : trim_eol l = trim_eol l2) by (rewrite (without_fun _ _ _ W1 T1), (without_fun _ _ _ W2 T2); reflexivity).
      apply D in K. destruct K as [_ K]. discriminate.
    + rewrite (IH a' b' la' lb') by (auto; lia). destruct D as [D _]. specialize (D (conj eq_refl eq_refl)). split.
      * intros K. constructor; [|exact K]. exists (trim_eol l). split; [exact W1 | rewrite D; exact W2].
      * intros X. inversion X; assumption.
Qed.
(** Ignoring line endings, two files match exactly if they have as many lines and these are the same but for carriage returns at the end, as long
    as no line has more than 4095 characters or a zero byte. *)
Theorem C163_ignoring_partial : forall a b la lb, has_lines a la -> has_lines b lb ->
  Forall (fun l => zlen l <= 4095 /\ ~ In 0 l) (la ++ lb) ->
  exists r, check_files_exact_match (Some a) (Some b) true = Some r
    /\ (r = true <-> Forall2 (fun x y => exists t, without_eol x t /\ without_eol y t) la lb).
Proof.
  intros a b la lb HA HB F. unfold check_files_exact_match. eexists. split; [reflexivity|].
  assert (F' : Forall (fair BUF_SIZE) (la ++ lb)).
  { eapply Forall_impl; [|exact F]. intros l [L Z0]. split; [|exact Z0]. unfold BUF_SIZE. unfold zlen in L. lia. }
  apply Forall_app in F'. destruct F' as [FA FB]. apply lines_loop_eq; auto.
Qed.
Print Assumptions C163_ignoring_partial.
(** the full claim, for all files *)
Definition ignoring_claim : Prop := forall a b la lb, has_lines a la -> has_lines b lb ->
  check_files_exact_match (Some a) (Some b) true = Some true ->
  Forall2 (fun x y => exists t, without_eol x t /\ without_eol y t) la lb.
Lemma one_line : forall s, ~ In 10 s -> s <> [] -> has_lines s [s].
Proof. intros s H N. exists [], s. simpl. repeat split; auto. destruct s; congruence. Qed.
(** two files that differ after the first 4095 characters of a line match; so do all that follow such a line *)
Theorem C163_long_refuted : ~ ignoring_claim.
Proof.
  intros C. set (p := repeat 97 (Z.to_nat 4096)).
  assert (R : check_files_exact_match (Some (p ++ bs "x")) (Some (p ++ bs "y")) true = Some true) by (vm_compute; reflexivity).
  assert (I : forall c, c <> 10 -> ~ In 10 (p ++ [c])).
  { intros c Hc H. apply in_app_or in H. destruct H as [H|[H|[]]]; [apply repeat_spec in H; discriminate | congruence]. }
  assert (N : forall c, p ++ [c] <> []) by (intros c; destruct p; discriminate).
  assert (K := C _ _ _ _ (one_line (p ++ bs "x") (I 120 ltac:(discriminate)) (N 120)) (one_line (p ++ bs "y") (I 121 ltac:(discriminate)) (N 121)) R).
  inversion K as [|? ? ? ? (t & T1 & T2) _]; subst.
  assert (W : forall c, c <> 10 -> c <> 13 -> without_eol (p ++ [c]) (p ++ [c])).
  { intros c H1 H2. exists []. rewrite app_nil_r. split; [reflexivity|]. split; [constructor|]. intros r c' E. apply app_inj_tail in E. destruct E as [_ <-]. auto. }
  pose proof (without_fun _ _ _ T1 (W 120 ltac:(discriminate) ltac:(discriminate))) as E1.
  pose proof (without_fun _ _ _ T2 (W 121 ltac:(discriminate) ltac:(discriminate))) as E2.
  rewrite E1 in E2. apply app_inj_tail in E2. destruct E2 as [_ E2]. discriminate E2.
Qed.
Print Assumptions C163_long_refuted.
(** two files that differ after a zero byte match *)
Theorem C163_zero_refuted : ~ ignoring_claim.
Proof.
  intros C.
  assert (K := C [97; 0; 98] [97; 0; 99] [[97; 0; 98]] [[97; 0; 99]]
    ltac:(apply one_line; [intros H; simpl in H; lia | discriminate]) ltac:(apply one_line; [intros H; simpl in H; lia | discriminate]) eq_refl).
  inversion K as [|? ? ? ? (t & T1 & T2) _]; subst.
  assert (W : forall c, c <> 10 -> c <> 13 -> without_eol [97; 0; c] [97; 0; c]).
  { intros c H1 H2. exists []. split; [reflexivity|]. split; [constructor|]. intros r c' E. change [97; 0; c] with ([97; 0] ++ [c]) in E. apply app_inj_tail in E. destruct E as [_ <-]. auto. }
  pose proof (without_fun _ _ _ T1 (W 98 ltac:(discriminate) ltac:(discriminate))) as E1.
  pose proof (without_fun _ _ _ T2 (W 99 ltac:(discriminate) ltac:(discriminate))) as E2.
  rewrite E1 in E2. discriminate E2.
Qed.
Print Assumptions C163_zero_refuted.
(** Whatever follows a line of more than 4095 characters that begins alike in both files, the files match. *)
Theorem C163_rest_partial : forall p a b, ~ In 10 p -> zlen p = 4095 ->
  forall c d, c <> 10 -> d <> 10 -> check_files_exact_match (Some (p ++ c :: a)) (Some (p ++ d :: b)) true = Some true.
Proof.
  intros p a b I L c d C D. unfold check_files_exact_match. f_equal. cbn [lines_loop].
  assert (LP : List.length p = (BUF_SIZE - 1)%nat) by (unfold BUF_SIZE; unfold zlen in L; lia).
  assert (S1 : (1 < BUF_SIZE)%nat) by (unfold BUF_SIZE; lia).
  assert (G : forall c s, c <> 10 -> is_getline BUF_SIZE (p ++ c :: s) = mkgot false p (BUF_SIZE - 1) (c :: s)).
  { clear - I LP S1. intros c s C. unfold is_getline.
    assert (T : (BUF_SIZE <= List.length (fst (take_line (p ++ c :: s))))%nat).
    { assert (Q : forall q, ~ In 10 q -> (S (List.length q) <= List.length (fst (take_line (q ++ c :: s))))%nat).
      { clear - C. induction q as [|x q IH]; intros H; simpl.
        - rewrite (proj2 (Z.eqb_neq c 10) C). destruct (take_line s). simpl. lia.
        - destruct (Z.eqb_spec x 10) as [->|N]; [exfalso; apply H; left; reflexivity|].
          specialize (IH ltac:(intros X; apply H; right; exact X)). destruct (take_line (q ++ c :: s)). simpl in *. lia. }
      specialize (Q p I). lia. }
    destruct (p ++ c :: s) eqn:E; [destruct p; discriminate|]. rewrite <- E in *. destruct (take_line (p ++ c :: s)) as [l1 r1]. simpl in T.
    rewrite (proj2 (Nat.leb_gt (S (List.length l1)) BUF_SIZE)) by lia.
    rewrite <- LP. rewrite firstn_app, Nat.sub_diag, firstn_all, skipn_app, Nat.sub_diag, skipn_all. simpl. rewrite app_nil_r. reflexivity. }
  rewrite (G c a C), (G d b D). cbn [g_ok]. unfold last_check, mem_differ. cbn [g_count g_buf]. rewrite Nat.eqb_refl, str_eqb_refl. reflexivity.
Qed.
Print Assumptions C163_rest_partial.
(** other line endings, and a line more *)
Example C163_case :
  let a := bs "one" ++ [10] ++ bs "two" ++ [10] in
  let b := bs "one" ++ [13; 10] ++ bs "two" in
  check_files_exact_match (Some a) (Some b) true = Some true /\ check_files_exact_match (Some a) (Some (b ++ [10; 10])) true = Some false
  /\ check_files_exact_match (Some a) (Some b) false = Some false.
Proof. vm_compute. auto. Qed.
