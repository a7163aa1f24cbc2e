(** Proofs about URI splitting and X-Forwarded-For. *)
From Coq Require Import String ZArith List Bool Lia.
From Coq Require Import ZifyBool ZifyNat.
From Verif Require Import Base Digits AlgModel FormModel MultipartModel HttpModel HttpSpec HttpHead HttpBody UriModel UriSpec.
Import ListNotations.

Lemma contains_iff p s : contains p s = true <-> exists a b, s = a ++ p ++ b.
Proof.
  induction s as [|c s IH]; cbn [contains]; rewrite orb_true_iff, is_prefix_spec.
  - split; [intros [[t H]|H]; [exists [], t; auto|discriminate]|]. intros (a & b & H). left. exists b. destruct a; [auto|discriminate].
  - rewrite IH. split.
    + intros [[t H]|(a & b & H)]; [exists [], t; auto|exists (c :: a), b; cbn; congruence].
    + intros ([|x a] & b & H); [left; exists b; auto|right; exists a, b; cbn in H; congruence].
Qed.
Lemma search_first p s a b : s = a ++ p ++ b -> (forall a' b', s = a' ++ p ++ b' -> (length a <= length a')%nat) -> search p s = length a.
Proof.
  revert s. induction a as [|x a IH]; intros s E H.
  - cbn [app] in E. assert (is_prefix p s = true) as P by (apply is_prefix_spec; eauto).
    destruct s as [|c s]; cbn [search]; rewrite ?P; reflexivity.
  - destruct s as [|c s]; [discriminate|]. injection E as -> E. cbn [search].
    destruct (is_prefix p (x :: s)) eqn:P.
    + apply is_prefix_spec in P as [t P]. specialize (H [] t P). cbn in H. lia.
    + cbn [length]. f_equal. apply IH; auto. intros a' b' E'. specialize (H (x :: a') b'). cbn in H.
      assert (S (length a) <= S (length a'))%nat by (apply H; congruence). lia.
Qed.
(** the pattern starts with a character that is not in [a] *)
Lemma search_after c p a b : ~ In c a -> search (c :: p) (a ++ (c :: p) ++ b) = length a.
Proof.
  intros H. eapply search_first; [reflexivity|]. intros a' b' E.
  destruct (Nat.le_gt_cases (length a) (length a')) as [L|L]; auto. exfalso. apply H.
  assert (nth_error (a ++ (c :: p) ++ b) (length a') = Some c) as N by (rewrite E, nth_error_app2, Nat.sub_diag by lia; reflexivity).
  rewrite nth_error_app1 in N by lia. eapply nth_error_In; eauto.
Qed.

Lemma split_found c a b : ~ In c a -> split_at c (a ++ c :: b) = (a, Some (c :: b)).
Proof.
  induction a as [|x a IH]; intros H; cbn [app split_at].
  - rewrite Z.eqb_refl. reflexivity.
  - replace (x =? c) with false by (symmetry; apply Z.eqb_neq; intros ->; apply H; left; auto). rewrite IH; [reflexivity|]. intros I; apply H; right; auto.
Qed.
Lemma split_none c a : ~ In c a -> split_at c a = (a, None).
Proof.
  induction a as [|x a IH]; intros H; cbn [split_at]; auto.
  replace (x =? c) with false by (symmetry; apply Z.eqb_neq; intros ->; apply H; left; auto). rewrite IH; [reflexivity|]. intros I; apply H; right; auto.
Qed.
Lemma no_chars_in cs s c : no_chars cs s -> In c cs -> ~ In c s.
Proof. intros H I J. unfold no_chars in H. rewrite Forall_forall in H. exact (H c J I). Qed.
Lemma cast_int p : p <> [] -> Forall is_dec p -> lexical_cast_int p = if dec_value p <=? 2147483647 then Some (dec_value p) else None.
Proof.
  intros HN HF. unfold lexical_cast_int. destruct p as [|c v]; [congruence|].
  inversion HF as [|? ? HD HF']; subst. unfold is_dec in HD.
  change (ch "-") with 45. change (ch "+") with 43. replace (c =? 45) with false by lia. replace (c =? 43) with false by lia.
  assert (forallb is_digit (c :: v) = true) as ->.
  { apply forallb_forall. intros x Hx. rewrite Forall_forall in HF. specialize (HF x Hx). unfold is_dec in HF. unfold is_digit. lia. }
  rewrite dec_value_undigits. fold (dec_value (c :: v)).
  assert (0 <= dec_value (c :: v)) as NN.
  { unfold dec_value. assert (forall s a, Forall is_dec s -> 0 <= a -> 0 <= fold_left (fun a c => a * 10 + digit_val c) s a) as K.
    { induction s as [|y s IH]; intros a F A; cbn; auto. inversion F; subst. apply IH; auto. unfold is_dec, digit_val in *. lia. }
    apply K; auto. lia. }
  destruct (dec_value (c :: v) <=? 2147483647) eqn:E.
  - replace (-2147483648 <=? dec_value (c :: v)) with true by lia. reflexivity.
  - rewrite andb_false_r. reflexivity.
Qed.

Definition uri_parts (u : uri) (port : Z) (old_query : list Z) : uri_out := {|
  u_proto := match ur_scheme u with Some s => s | None => [] end;
  u_host := ur_host u;
  u_port := port;
  u_path := match ur_path u with Some (p, _) => bs "/" ++ p | None => bs "/" end;
  u_query := match ur_path u with Some (_, Some q) => q | Some (_, None) => [] | None => old_query end |}.

Lemma default_port_eq s :
  (if str_eqb s (bs "http") || str_eqb s (bs "HTTP") then 80 else if str_eqb s (bs "https") || str_eqb s (bs "HTTPS") then 443 else 0)
  = default_port (Some s).
Proof.
  unfold default_port.
  assert (forall t, str_eqb s t = if list_eq_dec Z.eq_dec s t then true else false) as K.
  { intros t. destruct (list_eq_dec Z.eq_dec s t) as [->|N]; [apply str_eqb_refl|apply str_eqb_neq; auto]. }
  rewrite !K. repeat destruct (list_eq_dec _ _ _); reflexivity.
Qed.

Lemma uri_parse u o : uri_ok u ->
  match ur_port u with
  | None => parse_uri (wire_uri u) o = (true, uri_parts u (default_port (ur_scheme u)) (u_query o))
  | Some p => if dec_value p <=? 2147483647 then parse_uri (wire_uri u) o = (true, uri_parts u (dec_value p mod 65536) (u_query o))
              else fst (parse_uri (wire_uri u) o) = false
  end.
Proof.
  intros (HS & HN & HH & HP & HQ). destruct u as [sc h po pa]. cbn [ur_scheme ur_host ur_port ur_path] in *.
  set (rest := h ++ match po with Some p => bs ":" ++ p | None => [] end
    ++ match pa with Some (p, q) => bs "/" ++ p ++ match q with Some q => bs "?" ++ q | None => [] end | None => [] end).
  assert (wire_uri (Build_uri sc h po pa) = match sc with Some s => s ++ bs "://" | None => [] end ++ rest) as EW by reflexivity.
  assert ((if contains (bs "://") (wire_uri (Build_uri sc h po pa)) then firstn (search (bs "://") (wire_uri (Build_uri sc h po pa))) (wire_uri (Build_uri sc h po pa)) else []) = match sc with Some s => s | None => [] end
    /\ (if contains (bs "://") (wire_uri (Build_uri sc h po pa)) then skipn (search (bs "://") (wire_uri (Build_uri sc h po pa)) + 3) (wire_uri (Build_uri sc h po pa)) else wire_uri (Build_uri sc h po pa)) = rest) as [E1 E2].
  { destruct sc as [s|].
    - rewrite EW, <- app_assoc. replace (contains (bs "://") (s ++ bs "://" ++ rest)) with true by (symmetry; apply contains_iff; eauto).
      change (bs "://") with (58 :: [47; 47]). rewrite search_after by (eapply no_chars_in; eauto; vm_compute; auto).
      rewrite firstn_app, Nat.sub_diag, firstn_all. cbn [firstn]. rewrite app_nil_r. split; auto.
      rewrite skipn_app. replace (length s + 3 - length s)%nat with 3%nat by lia. rewrite skipn_all2 by lia. reflexivity.
    - destruct (contains (bs "://") (wire_uri (Build_uri None h po pa))) eqn:C; [|split; auto].
      apply contains_iff in C. contradiction. }
  assert (~ In 47 h) as H47 by (eapply no_chars_in; eauto; vm_compute; auto).
  assert (~ In 58 h) as H58 by (eapply no_chars_in; eauto; vm_compute; auto).
  set (t := h ++ match po with Some p => bs ":" ++ p | None => [] end).
  assert (~ In 47 t) as T47.
  { unfold t. intros I. apply in_app_or in I as [I|I]; auto. destruct po as [p|]; [|destruct I].
    destruct HP as [_ HP]. cbn in I. destruct I as [I|I]; [lia|]. rewrite Forall_forall in HP. specialize (HP _ I). unfold is_dec in HP. lia. }
  assert (split_at 47 rest = (t, match pa with Some (p, q) => Some (bs "/" ++ p ++ match q with Some q => bs "?" ++ q | None => [] end) | None => None end)) as ST.
  { unfold rest. rewrite app_assoc. fold t. destruct pa as [[p q]|].
    - change (bs "/") with [47]. cbn [app]. apply split_found; auto.
    - rewrite app_nil_r. apply split_none; auto. }
  assert (split_at 58 t = (h, match po with Some p => Some (58 :: p) | None => None end)) as SP.
  { unfold t. destruct po; [change (bs ":") with [58]; cbn [app]; apply split_found; auto|rewrite app_nil_r; apply split_none; auto]. }
  assert (forall port, (match (match pa with Some (p, q) => Some (bs "/" ++ p ++ match q with Some q => bs "?" ++ q | None => [] end) | None => None end) with
      | Some p =>
        (true, {| u_proto := match sc with Some s => s | None => [] end; u_host := h; u_port := port; u_path := fst (split_at 63 p);
                  u_query := match snd (split_at 63 p) with Some q => tl q | None => [] end |})
      | None => (true, {| u_proto := match sc with Some s => s | None => [] end; u_host := h; u_port := port; u_path := bs "/"; u_query := u_query o |})
      end) = (true, uri_parts (Build_uri sc h po pa) port (u_query o))) as FIN.
  { intros port. destruct pa as [[p q]|]; [|reflexivity]. unfold uri_parts. cbn [ur_scheme ur_host ur_path].
    assert (~ In 63 (bs "/" ++ p)) as N63.
    { intros I. destruct I as [I|I]; [vm_compute in I; discriminate|]. revert I. eapply no_chars_in; eauto. vm_compute; auto. }
    rewrite app_assoc. destruct q as [q|].
    - change (bs "?") with [63]. cbn [app]. rewrite (split_found 63 (bs "/" ++ p) q) by auto. reflexivity.
    - rewrite app_nil_r, split_none by auto. reflexivity. }
  unfold parse_uri. rewrite E1, E2. change (ch "/") with 47. change (ch ":") with 58. change (ch "?") with 63. cbv zeta. rewrite ST. cbn [fst snd]. rewrite SP. cbn [fst snd].
  destruct h as [|x h]; [congruence|]. destruct po as [p|].
  - cbn [tl]. rewrite cast_int by tauto. destruct (dec_value p <=? 2147483647); [|reflexivity]. rewrite <- FIN.
    destruct pa as [[p0 q]|]; reflexivity.
  - specialize (FIN (default_port sc)). destruct sc as [s|].
    + rewrite default_port_eq. rewrite <- FIN. destruct pa as [[p0 q]|]; reflexivity.
    + rewrite <- FIN. destruct pa as [[p0 q]|]; reflexivity.
Qed.

Definition the_port (u : uri) : Z := match ur_port u with Some p => dec_value p | None => default_port (ur_scheme u) end.
Lemma uri_components u o : uri_ok u -> the_port u <= 65535 -> ur_path u <> None ->
  parse_uri (wire_uri u) o = (true, {|
    u_proto := match ur_scheme u with Some s => s | None => [] end; u_host := ur_host u; u_port := the_port u;
    u_path := match ur_path u with Some (p, _) => bs "/" ++ p | None => bs "/" end;
    u_query := match ur_path u with Some (_, Some q) => q | _ => [] end |}).
Proof.
  intros H P N. pose proof (uri_parse u o H) as E. unfold the_port in *. destruct (ur_port u) as [p|] eqn:EP.
  - replace (dec_value p <=? 2147483647) with true in E by lia. rewrite E. unfold uri_parts. do 2 f_equal.
    + apply Z.mod_small. split; [|lia]. destruct H as (_ & _ & _ & HP & _). rewrite EP in HP. destruct HP as [_ HP]. unfold dec_value.
      assert (forall s a, Forall is_dec s -> 0 <= a -> 0 <= fold_left (fun a c => a * 10 + digit_val c) s a) as K.
      { induction s as [|y s IH]; intros a F A; cbn; auto. inversion F; subst. apply IH; auto. unfold is_dec, digit_val in *. lia. }
      apply K; auto. lia.
    + destruct (ur_path u) as [[? [q|]]|]; congruence.
  - rewrite E. unfold uri_parts. do 2 f_equal. destruct (ur_path u) as [[? [q|]]|]; congruence.
Qed.
Lemma uri_no_path u o : uri_ok u -> the_port u <= 65535 -> ur_path u = None ->
  parse_uri (wire_uri u) o = (true, {|
    u_proto := match ur_scheme u with Some s => s | None => [] end; u_host := ur_host u; u_port := the_port u; u_path := bs "/"; u_query := u_query o |}).
Proof.
  intros H P N. pose proof (uri_parse u o H) as E. unfold the_port in *. destruct (ur_port u) as [p|] eqn:EP.
  - replace (dec_value p <=? 2147483647) with true in E by lia. rewrite E. unfold uri_parts. rewrite N. do 2 f_equal.
    apply Z.mod_small. split; [|lia]. destruct H as (_ & _ & _ & HP & _). rewrite EP in HP. destruct HP as [_ HP]. unfold dec_value.
      assert (forall s a, Forall is_dec s -> 0 <= a -> 0 <= fold_left (fun a c => a * 10 + digit_val c) s a) as K.
      { induction s as [|y s IH]; intros a F A; cbn; auto. inversion F; subst. apply IH; auto. unfold is_dec, digit_val in *. lia. }
      apply K; auto. lia.
  - rewrite E. unfold uri_parts. rewrite N. reflexivity.
Qed.
Lemma uri_big_port u p o : uri_ok u -> ur_port u = Some p ->
  (65535 < dec_value p <= 2147483647 -> fst (parse_uri (wire_uri u) o) = true /\ u_port (snd (parse_uri (wire_uri u) o)) = dec_value p mod 65536)
  /\ (2147483647 < dec_value p -> fst (parse_uri (wire_uri u) o) = false).
Proof.
  intros H E. pose proof (uri_parse u o H) as K. rewrite E in K. split; intros B.
  - replace (dec_value p <=? 2147483647) with true in K by lia. rewrite K. auto.
  - replace (dec_value p <=? 2147483647) with false in K by lia. exact K.
Qed.

(** ** Addresses *)
Definition group (t : list Z) : Prop := Forall is_dec t /\ (1 <= List.length t <= 3)%nat.
Lemma is_digit_spec c : is_digit c = true <-> is_dec c.
Proof. unfold is_digit, is_dec. lia. Qed.
Lemma octet_sound s t r : octet s = Some (t, r) -> s = t ++ r /\ group t.
Proof.
  unfold octet, group. intros H.
  repeat match type of H with
  | context [match ?l with [] => _ | _ :: _ => _ end] => destruct l
  | context [if is_digit ?c then _ else _] => let E := fresh in destruct (is_digit c) eqn:E; [apply is_digit_spec in E|]
  end; try discriminate; injection H as <- <-; (split; [reflexivity|split; [repeat apply Forall_cons; auto using Forall_nil|cbn; lia]]).
Qed.
Lemma dot_sound s r : dot s = Some r -> s = bs "." ++ r.
Proof. unfold dot. destruct s as [|c s]; [discriminate|]. destruct (c =? ch ".") eqn:E; [|discriminate]. intros [= ->]. apply Z.eqb_eq in E. subst. reflexivity. Qed.
Lemma at_sound s a b c d r : ipv4_at s = Some (a, b, c, d, r) -> s = dotted a b c d ++ r /\ group a /\ group b /\ group c /\ group d.
Proof.
  unfold ipv4_at. intros H.
  repeat match type of H with
  | context [match octet ?l with Some _ => _ | None => _ end] => let E := fresh in destruct (octet l) as [[? ?]|] eqn:E; [apply octet_sound in E|discriminate]
  | context [match dot ?l with Some _ => _ | None => _ end] => let E := fresh in destruct (dot l) as [?|] eqn:E; [apply dot_sound in E|discriminate]
  end.
  injection H as <- <- <- <- <-.
  repeat match goal with H : _ = _ /\ _ |- _ => destruct H end. subst. unfold dotted. rewrite <- !app_assoc. auto 10.
Qed.
Lemma search_sound s a b c d r : ipv4_search s = Some (a, b, c, d, r) ->
  (exists pre, s = pre ++ dotted a b c d ++ r) /\ group a /\ group b /\ group c /\ group d.
Proof.
  induction s as [|x s IH]; cbn [ipv4_search]; destruct (ipv4_at _) as [q|] eqn:E; intros H; try discriminate.
  - injection H as ->. apply at_sound in E as [E G]. split; auto. exists []. auto.
  - apply IH in H as [[pre H] G]. split; auto. exists (x :: pre). cbn. congruence.
Qed.
Lemma loop_sound f s t : forwarded_loop f s = Some t ->
  exists a b c d pre post, t = dotted a b c d /\ s = pre ++ t ++ post /\ group a /\ group b /\ group c /\ group d /\ private_net a b = false.
Proof.
  revert s. induction f as [|f IH]; intros s H; cbn [forwarded_loop] in H; [discriminate|].
  destruct (ipv4_search s) as [[[[[a b] c] d] r]|] eqn:E; [|discriminate].
  apply search_sound in E as [[pre ->] G]. destruct (private_net a b) eqn:P.
  - apply IH in H as (a' & b' & c' & d' & pre' & post & -> & -> & G' & P'). exists a', b', c', d', (pre ++ dotted a b c d ++ pre'), post.
    split; auto. split; [rewrite <- !app_assoc; reflexivity|tauto].
  - injection H as <-. exists a, b, c, d, pre, r. tauto.
Qed.

Lemma dec_step s a : Forall is_dec s -> 0 <= a -> a <= fold_left (fun a c => a * 10 + digit_val c) s a.
Proof.
  revert a. induction s as [|y s IH]; intros a F A; cbn [fold_left]; [lia|]. inversion F as [|? ? Y F']; subst.
  assert (0 <= digit_val y) by (unfold is_dec, digit_val in *; lia). specialize (IH (a * 10 + digit_val y) F'). lia.
Qed.
Lemma dec_group t n : dec_text t n -> n <= 255 -> group t.
Proof.
  intros (N & F & V & Z0) B. split; auto. destruct t as [|a t]; [congruence|]. destruct t as [|b t]; [cbn; lia|]. destruct t as [|c t]; [cbn; lia|].
  destruct t as [|d t]; [cbn; lia|]. exfalso. destruct Z0 as [Z0|Z0]; [unfold zlen in Z0; cbn [List.length] in Z0; lia|]. cbn [hd] in Z0.
  unfold dec_value in V. cbn [fold_left] in V. inversion F as [|? ? Fa F1]; subst. inversion F1 as [|? ? Fb F2]; subst. inversion F2 as [|? ? Fc F3]; subst. inversion F3 as [|? ? Fd F4]; subst.
  assert (forall x, is_dec x -> 0 <= digit_val x) as DP by (intros; unfold is_dec, digit_val in *; lia).
  assert (1 <= digit_val a) by (unfold is_dec, digit_val in *; lia).
  pose proof (DP b Fb). pose proof (DP c Fc). pose proof (DP d Fd).
  pose proof (dec_step t ((((0 * 10 + digit_val a) * 10 + digit_val b) * 10 + digit_val c) * 10 + digit_val d) F4 ltac:(lia)). lia.
Qed.
(** at most three digits without leading zeros, by cases *)
Lemma dec_cases t n : dec_text t n -> n <= 255 ->
  (exists x, t = [x] /\ 48 <= x <= 57 /\ n = x - 48) \/ (exists x y, t = [x; y] /\ 49 <= x <= 57 /\ 48 <= y <= 57 /\ n = (x - 48) * 10 + (y - 48))
  \/ (exists x y z, t = [x; y; z] /\ 49 <= x <= 57 /\ 48 <= y <= 57 /\ 48 <= z <= 57 /\ n = (x - 48) * 100 + (y - 48) * 10 + (z - 48)).
Proof.
  intros H B. pose proof (dec_group t n H B) as [F L]. destruct H as (N & _ & V & Z0).
  assert (forall x, is_dec x -> 48 <= x <= 57 /\ digit_val x = x - 48) as D by (intros; unfold is_dec, digit_val in *; lia).
  destruct t as [|a t]; [congruence|]. destruct t as [|b t]; [|destruct t as [|c t]; [|destruct t as [|d t]; [|cbn in L; lia]]];
  unfold dec_value in V; cbn [fold_left] in V; repeat match goal with H : Forall _ (_ :: _) |- _ => inversion H; clear H; subst end;
  repeat match goal with H : is_dec _ |- _ => apply D in H; destruct H end.
  - left. exists a. split; [reflexivity|split; lia].
  - right; left. exists a, b. destruct Z0 as [Z0|Z0]; [unfold zlen in Z0; cbn in Z0; lia|]. cbn in Z0. split; [reflexivity|]. lia.
  - right; right. exists a, b, c. destruct Z0 as [Z0|Z0]; [unfold zlen in Z0; cbn in Z0; lia|]. cbn in Z0. split; [reflexivity|]. lia.
Qed.
Lemma text_eq t n u m : dec_text t n -> dec_text u m -> n <= 255 -> m <= 255 -> str_eqb t u = (n =? m).
Proof.
  intros H1 H2 B1 B2. destruct (Z.eqb_spec n m) as [E|E].
  - subst m. replace u with t; [apply str_eqb_refl|].
    apply dec_cases in H1; auto. apply dec_cases in H2; auto.
    destruct H1 as [(x & -> & X)|[(x & y & -> & X)|(x & y & z & -> & X)]]; destruct H2 as [(x' & -> & Y)|[(x' & y' & -> & Y)|(x' & y' & z' & -> & Y)]]; try (exfalso; lia); repeat f_equal; lia.
  - apply str_eqb_neq. intros ->. destruct H1 as (_ & _ & V1 & _), H2 as (_ & _ & V2 & _). lia.
Qed.
Lemma private_iff ta tb a b c d : dec_text ta a -> dec_text tb b -> 0 <= a <= 255 -> 0 <= b <= 255 -> (private_net ta tb = true <-> is_private (a, b, c, d)).
Proof.
  intros HA HB BA BB. unfold private_net, is_private.
  assert (dec_text (bs "10") 10 /\ dec_text (bs "127") 127 /\ dec_text (bs "192") 192 /\ dec_text (bs "168") 168 /\ dec_text (bs "172") 172) as (D1 & D2 & D3 & D4 & D5).
  { unfold dec_text, is_dec. repeat (match goal with |- _ /\ _ => split end); try (vm_compute; intros; discriminate); try reflexivity; repeat constructor; vm_compute; intros; discriminate. }
  rewrite (text_eq ta a _ _ HA D1), (text_eq ta a _ _ HA D2), (text_eq ta a _ _ HA D3), (text_eq tb b _ _ HB D4), (text_eq ta a _ _ HA D5) by lia.
  assert ((match tb with [x; y] => ((x =? 49) && (54 <=? y) && (y <=? 57)) || ((x =? 50) && is_digit y) || ((x =? 51) && (48 <=? y) && (y <=? 49)) | _ => false end) = (16 <=? b) && (b <=? 31)) as ->.
  { apply dec_cases in HB; [|lia]. unfold is_digit. destruct HB as [(x & -> & X)|[(x & y & -> & X)|(x & y & z & -> & X)]]; lia. }
  lia.
Qed.

Lemma octet_group t r : group t -> match r with c :: _ => ~ is_dec c | [] => True end -> octet (t ++ r) = Some (t, r).
Proof.
  intros [F L] R. assert (match r with c :: _ => is_digit c = false | [] => True end) as R' by (destruct r; auto; destruct (is_digit z) eqn:E; auto; apply is_digit_spec in E; contradiction).
  assert (forall x, is_dec x -> is_digit x = true) as D by (intros; apply is_digit_spec; auto).
  destruct t as [|a [|b [|c [|d t]]]]; try (cbn in L; lia); repeat match goal with H : Forall _ (_ :: _) |- _ => inversion H; clear H; subst end;
  repeat match goal with H : is_dec _ |- _ => apply D in H end; destruct r as [|q r]; cbn [app octet]; repeat match goal with H : is_digit _ = _ |- _ => rewrite H; clear H end; reflexivity.
Qed.
Lemma at_dotted a b c d r : group a -> group b -> group c -> group d -> match r with c :: _ => ~ is_dec c | [] => True end ->
  ipv4_at (dotted a b c d ++ r) = Some (a, b, c, d, r).
Proof.
  intros A B C D R. unfold ipv4_at, dotted. change (bs ".") with [46]. rewrite <- !app_assoc. cbn [app].
  assert (~ is_dec 46) by (unfold is_dec; lia).
  rewrite (octet_group a) by auto. cbn [dot]. change (46 =? ch ".") with true. cbv iota.
  rewrite (octet_group b) by auto. cbn [dot]. change (46 =? ch ".") with true. cbv iota.
  rewrite (octet_group c) by auto. cbn [dot]. change (46 =? ch ".") with true. cbv iota.
  rewrite (octet_group d) by auto. reflexivity.
Qed.
Lemma search_skip c s : ~ is_dec c -> ipv4_search (c :: s) = ipv4_search s.
Proof.
  intros H. cbn [ipv4_search]. assert (is_digit c = false) as E by (destruct (is_digit c) eqn:E; auto; apply is_digit_spec in E; contradiction).
  unfold ipv4_at at 1. cbn [octet]. rewrite E. reflexivity.
Qed.
Lemma loop_skip f c s : ~ is_dec c -> forwarded_loop f (c :: s) = forwarded_loop f s.
Proof. intros H. destruct f; cbn [forwarded_loop]; [reflexivity|]. rewrite search_skip by auto. reflexivity. Qed.
Lemma loop_text f t i r : ip_text t i -> match r with c :: _ => ~ is_dec c | [] => True end ->
  (is_private i /\ forwarded_loop (S f) (t ++ r) = forwarded_loop f r) \/ (~ is_private i /\ forwarded_loop (S f) (t ++ r) = Some t).
Proof.
  destruct i as [[[a b] c] d]. intros (ta & tb & tc & td & A & B & C & D & RA & RB & RC & RD & ->) R.
  change (ta ++ bs "." ++ tb ++ bs "." ++ tc ++ bs "." ++ td) with (dotted ta tb tc td).
  assert (ipv4_search (dotted ta tb tc td ++ r) = Some (ta, tb, tc, td, r)) as E.
  { pose proof (at_dotted ta tb tc td r) as K. destruct (dotted ta tb tc td ++ r) eqn:Q; cbn [ipv4_search];
    rewrite K; eauto using dec_group; eapply dec_group; eauto; lia. }
  cbn [forwarded_loop]. rewrite E. destruct (private_net ta tb) eqn:P.
  - left. split; auto. apply (private_iff ta tb a b c d); auto.
  - right. split; auto. intros N. apply (private_iff ta tb a b c d) in N; auto. congruence.
Qed.
Lemma loop_list s l : ip_list s l -> forall f, (List.length s < f)%nat ->
  (Forall is_private l -> forwarded_loop f s = None)
  /\ forall l1 i l2, l = l1 ++ i :: l2 -> Forall is_private l1 -> ~ is_private i -> exists t, ip_text t i /\ forwarded_loop f s = Some t.
Proof.
  induction 1 as [|c s l D N H IH|t i T|t i c s l T D N H IH]; intros f L.
  - split; [intros _; destruct f; reflexivity|]. intros [|? l1] ? ? E; discriminate.
  - cbn in L. rewrite loop_skip by auto. apply IH. lia.
  - destruct f as [|f]; [lia|]. pose proof (loop_text f t i [] T I) as [[P E]|[P E]]; rewrite app_nil_r in E; rewrite E.
    + split; [intros _; destruct f; reflexivity|]. intros [|? [|? ?]] j l2 Q F J; injection Q as -> ?; try discriminate. contradiction.
    + split; [intros F; inversion F; subst; contradiction|]. intros [|? l1] j l2 Q F J; injection Q as -> ?; [eauto|inversion F; subst; contradiction].
  - rewrite app_length in L. cbn [List.length] in L. destruct f as [|f]; [lia|].
    assert (t <> []) as TN. { destruct i as [[[a b] c'] d]. destruct T as (ta & tb & tc & td & (A & _) & _ & _ & _ & _ & _ & _ & _ & ->). destruct ta; [congruence|discriminate]. }
    assert (1 <= List.length t)%nat by (destruct t; [congruence|cbn; lia]).
    pose proof (loop_text f t i (c :: s) T D) as [[P E]|[P E]]; rewrite E.
    + rewrite loop_skip by auto. destruct (IH f ltac:(lia)) as [I1 I2]. split; [intros F; inversion F; subst; auto|].
      intros [|? l1] j l2 Q F J; injection Q as -> ?; [contradiction|]. inversion F; subst. eauto.
    + split; [intros F; inversion F; subst; contradiction|]. intros [|? l1] j l2 Q F J; injection Q as -> ?; [eauto|inversion F; subst; contradiction].
Qed.
Lemma forwarded_list s l : ip_list s l ->
  (Forall is_private l -> parse_forwarded_for s = None)
  /\ forall l1 i l2, l = l1 ++ i :: l2 -> Forall is_private l1 -> ~ is_private i -> exists t, ip_text t i /\ parse_forwarded_for s = Some t.
Proof. intros H. apply (loop_list s l H). lia. Qed.
Lemma forwarded_sound s t : parse_forwarded_for s = Some t ->
  (exists pre post, s = pre ++ t ++ post)
  /\ (exists a b c d, t = a ++ bs "." ++ b ++ bs "." ++ c ++ bs "." ++ d /\ Forall (fun g => Forall is_dec g /\ 1 <= zlen g <= 3) [a; b; c; d])
  /\ (forall i, ip_text t i -> ~ is_private i).
Proof.
  intros H. apply loop_sound in H as (a & b & c & d & pre & post & -> & -> & A & B & C & D & P).
  split; [eauto|]. split.
  - exists a, b, c, d. split; [reflexivity|]. repeat constructor; unfold group, zlen in *; try tauto; lia.
  - intros [[[na nb] nc] nd] (ta & tb & tc & td & TA & TB & _ & _ & RA & RB & RC & RD & E) PR.
    assert (forall g g' r r', Forall is_dec g -> Forall is_dec g' -> g ++ 46 :: r = g' ++ 46 :: r' -> g = g' /\ r = r') as U.
    { induction g as [|x g IH]; intros [|x' g'] r r' F F' Q; cbn in Q.
      - injection Q as Q. auto.
      - exfalso. injection Q as Q1 Q2. inversion F'; subst. unfold is_dec in *. lia.
      - exfalso. injection Q as Q1 Q2. inversion F; subst. unfold is_dec in *. lia.
      - injection Q as Q1 Q2. inversion F; inversion F'; subst. apply IH in Q2 as [-> ->]; auto. }
    unfold dotted in E. change (bs ".") with [46] in E. cbn [app] in E. apply U in E as [-> E]; [|apply A|apply TA]. apply U in E as [-> _]; [|apply B|apply TB].
    apply (private_iff ta tb na nb nc nd) in PR; auto. congruence.
Qed.
Lemma forwarded_odd : parse_forwarded_for (bs "999.999.999.999") = Some (bs "999.999.999.999") /\ parse_forwarded_for (bs "010.1.2.3") = Some (bs "010.1.2.3").
Proof. split; vm_compute; reflexivity. Qed.
Lemma default_port_small s : default_port s <= 65535.
Proof. unfold default_port. destruct s; [|lia]. repeat destruct (list_eq_dec _ _ _); lia. Qed.
Lemma uri_components' u o : uri_ok u -> match ur_port u with Some p => dec_value p <= 65535 | None => True end -> ur_path u <> None ->
  parse_uri (wire_uri u) o = (true, {|
    u_proto := match ur_scheme u with Some s => s | None => [] end; u_host := ur_host u;
    u_port := match ur_port u with Some p => dec_value p | None => default_port (ur_scheme u) end;
    u_path := match ur_path u with Some (p, _) => bs "/" ++ p | None => bs "/" end;
    u_query := match ur_path u with Some (_, Some q) => q | _ => [] end |}).
Proof. intros H P N. apply uri_components; auto. unfold the_port. destruct (ur_port u); auto using default_port_small. Qed.
Lemma uri_stale u o : uri_ok u -> match ur_port u with Some p => dec_value p <= 65535 | None => True end -> ur_path u = None ->
  fst (parse_uri (wire_uri u) o) = true /\ u_query (snd (parse_uri (wire_uri u) o)) = u_query o.
Proof. intros H P N. rewrite uri_no_path; auto. unfold the_port. destruct (ur_port u); auto using default_port_small. Qed.
