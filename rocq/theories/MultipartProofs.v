(** Proofs about multipart/form-data. *)
From Coq Require Import String ZArith List Bool Lia.
From Coq Require Import ZifyBool ZifyNat.
From Verif Require Import Base AlgModel AlgProofs FormModel MultipartModel HttpSpec HttpBase MultipartSpec DictProofs UriProofs.
Import ListNotations.

Definition mu (suf : list Z) (st : mpstate) : nat := 2 * List.length suf + match st with MPFieldData => 1 | _ => 0 end.

Lemma search_le p s : (search p s <= List.length s)%nat.
Proof. induction s as [|c s IH]; cbn [search]; destruct (is_prefix _ _); cbn [List.length]; lia. Qed.
Lemma search_cases p s : skipn (search p s) s = [] \/ exists b, skipn (search p s) s = p ++ b.
Proof.
  induction s as [|c s IH]; cbn [search].
  - destruct (is_prefix p []); left; reflexivity.
  - destruct (is_prefix p (c :: s)) eqn:E; [|exact IH]. apply is_prefix_spec in E as [t E]. right. exists t. cbn [skipn]. auto.
Qed.
Lemma search_pos x p c s : c <> x -> (1 <= search (x :: p) (c :: s))%nat.
Proof. intros H. cbn [search is_prefix]. replace (x =? c) with false by (symmetry; apply Z.eqb_neq; auto). cbn. lia. Qed.

Section Boundary.
Variable tl_b : list Z.
Let b := 45 :: tl_b.

Lemma fuel_enough f1 : forall f2 pre suf st v, (mu suf st < f1)%nat -> (mu suf st < f2)%nat ->
  mp_loop f1 b pre suf st v = mp_loop f2 b pre suf st v /\ mp_loop f1 b pre suf st v <> MPFuel.
Proof.
  induction f1 as [|f1 IH]; intros f2 pre suf st v L1 L2; [lia|]. destruct f2 as [|f2]; [lia|].
  destruct suf as [|c suf]; [split; [reflexivity|discriminate]|].
  assert (forall st' v', mp_loop f1 b (c :: pre) suf st' v' = mp_loop f2 b (c :: pre) suf st' v' /\ mp_loop f1 b (c :: pre) suf st' v' <> MPFuel) as N.
  { intros. apply IH; unfold mu in *; cbn [List.length] in *; destruct st'; lia. }
  cbn [mp_loop]. destruct st.
  - apply IH; unfold mu in *; rewrite skipn_length; unfold b; cbn [List.length] in *; lia.
  - destruct (c =? 13); [apply N|]. destruct (c =? 10); [apply N|]. match goal with |- context [if ?x then _ else _] => destruct x end; split; congruence.
  - destruct (c =? 10); [apply N|]. split; congruence.
  - destruct ((c =? 13) || (c =? 10)); [destruct (mp_hname v); apply N|]. destruct (c =? ch ":"); apply N.
  - destruct (c =? 13); [apply N|]. destruct (c =? 10); [apply N|]. destruct (negb (c =? ch " ")); apply N.
  - destruct ((c =? 13) || (c =? 10)); apply N.
  - destruct (c =? 10) eqn:E; [|split; congruence]. destruct (mp_fname v); [|apply N].
    pose proof (search_pos 45 tl_b c suf ltac:(lia)). fold b in H.
    apply IH; unfold mu in *; rewrite skipn_length; cbn [List.length] in *; lia.
  - destruct (rev (firstn (search b (c :: suf)) (c :: suf)) ++ pre) as [|c1 [|c0 r]]; try (split; congruence).
    destruct ((c0 =? 13) && (c1 =? 10) && Nat.ltb (search b (c :: suf)) 2); [split; congruence|].
    apply IH; unfold mu in *; rewrite skipn_length; cbn [List.length] in *; lia.
Qed.

Definition go (pre suf : list Z) (st : mpstate) (v : mpvars) : mpres := mp_loop (2 * List.length suf + 2) b pre suf st v.
Lemma go_eq f pre suf st v : (mu suf st < f)%nat -> mp_loop f b pre suf st v = go pre suf st v.
Proof. intros H. apply fuel_enough; auto. unfold mu. destruct st; lia. Qed.

Lemma go_next c pre suf st v : go pre (c :: suf) st v =
  match st with
  | MPStart => let n := List.length b in go (rev (firstn n (c :: suf)) ++ pre) (skipn n (c :: suf)) MPHeaderCR (mp_clear v)
  | MPHeaderCR =>
    if c =? 13 then go (c :: pre) suf MPHeaderLF v
    else if c =? 10 then go (c :: pre) suf MPHeaderName v
    else if (c =? ch "-") && match suf with d :: _ => d =? ch "-" | [] => false end then MPOk true (mp_out v)
    else MPOk false (mp_out v)
  | MPHeaderLF => if c =? 10 then go (c :: pre) suf MPHeaderName v else MPOk false (mp_out v)
  | MPHeaderName =>
    if (c =? 13) || (c =? 10) then
      match mp_hname v with
      | [] => go (c :: pre) suf (if c =? 13 then MPLastLF else MPFieldData) v
      | _ => go (c :: pre) suf (if c =? 13 then MPHeaderLF else MPHeaderName) v
      end
    else if c =? ch ":" then go (c :: pre) suf MPHeaderSpace v
    else go (c :: pre) suf MPHeaderName (mp_hdr v (mp_hname v ++ [c]) (mp_hvalue v))
  | MPHeaderSpace =>
    if c =? 13 then go (c :: pre) suf MPHeaderLF v
    else if c =? 10 then go (c :: pre) suf MPHeaderName v
    else if negb (c =? ch " ") then go (c :: pre) suf MPHeaderValue (mp_hdr v (mp_hname v) (mp_hvalue v ++ [c]))
    else go (c :: pre) suf MPHeaderSpace v
  | MPHeaderValue =>
    if (c =? 13) || (c =? 10) then go (c :: pre) suf (if c =? 13 then MPHeaderLF else MPHeaderName) (mp_header_done v)
    else go (c :: pre) suf MPHeaderValue (mp_hdr v (mp_hname v) (mp_hvalue v ++ [c]))
  | MPLastLF =>
    if c =? 10 then
      match mp_fname v with
      | [] => let n := search b (c :: suf) in go (rev (firstn n (c :: suf)) ++ pre) (skipn n (c :: suf)) MPStart v
      | _ => go (c :: pre) suf MPFieldData v
      end
    else MPOk false (mp_out v)
  | MPFieldData =>
    let n := search b (c :: suf) in
    let pre' := rev (firstn n (c :: suf)) ++ pre in
    match pre' with
    | c1 :: c0 :: _ =>
      let crlf := (c0 =? 13) && (c1 =? 10) in
      if crlf && Nat.ltb n 2 then MPBad
      else
        let data := firstn (if crlf then n - 2 else n) (c :: suf) in
        let value := if mp_b64 v then binary_2base64 data (mp_ctype v) else data in
        go pre' (skipn n (c :: suf)) MPStart
          {| mp_hname := mp_hname v; mp_hvalue := mp_hvalue v; mp_fname := mp_fname v; mp_ctype := mp_ctype v;
             mp_b64 := mp_b64 v; mp_found := true; mp_out := mp_out v ++ [(mp_fname v, value)] |}
    | _ => MPBad
    end
  end.
Proof.
  unfold go at 1. replace (2 * List.length (c :: suf) + 2)%nat with (S (2 * List.length suf + 3)) by (cbn [List.length]; lia). cbn [mp_loop].
  set (F := (2 * List.length suf + 3)%nat).
  assert (forall st' v', mp_loop F b (c :: pre) suf st' v' = go (c :: pre) suf st' v') as N.
  { intros. apply go_eq. unfold mu, F. destruct st'; lia. }
  destruct st; cbv zeta; rewrite ?N; try reflexivity.
  - apply go_eq. unfold mu, F. rewrite skipn_length. cbn [List.length]. lia.
  - destruct (c =? 10) eqn:E; [|reflexivity]. destruct (mp_fname v); [|reflexivity].
    apply go_eq. unfold mu, F. rewrite skipn_length. cbn [List.length]. pose proof (search_pos 45 tl_b c suf ltac:(lia)). fold b in H. cbn [List.length] in H. lia.
  - destruct (rev (firstn (search b (c :: suf)) (c :: suf)) ++ pre) as [|c1 [|c0 r]]; try reflexivity.
    destruct ((c0 =? 13) && (c1 =? 10) && Nat.ltb (search b (c :: suf)) 2); [reflexivity|].
    apply go_eq. unfold mu, F. rewrite skipn_length. cbn [List.length]. lia.
Qed.

(** ** Only LF CR LF directly before a boundary makes the parser leave the body *)
Definition binv (pre : list Z) (st : mpstate) (v : mpvars) : Prop :=
  match st with
  | MPStart | MPHeaderCR | MPHeaderLF | MPHeaderSpace | MPHeaderValue => True
  | MPHeaderName => mp_hname v = [] -> exists p, pre = 10 :: p /\ p <> []
  | MPLastLF => exists p, pre = 13 :: 10 :: p
  | MPFieldData => exists x p, pre = 10 :: x :: p /\ (x = 13 -> exists q, p = 10 :: q)
  end.
Lemma bad_boundary f : forall pre suf st v, binv pre st v -> (st = MPStart -> suf = [] \/ exists r, suf = b ++ r) -> (st <> MPStart -> pre <> []) ->
  mp_loop f b pre suf st v = MPBad -> occurs ([10; 13; 10] ++ b) (rev pre ++ suf).
Proof.
  induction f as [|f IH]; intros pre suf st v I S P H; [discriminate|].
  destruct suf as [|c suf]; [discriminate|]. cbn [mp_loop] in H.
  assert (forall st' v', st' <> MPStart -> binv (c :: pre) st' v' -> mp_loop f b (c :: pre) suf st' v' = MPBad -> occurs ([10; 13; 10] ++ b) (rev pre ++ c :: suf)) as N.
  { intros st' v' S' I' H'. apply IH in H'; auto; [|contradiction|discriminate]. cbn [rev] in H'. rewrite <- app_assoc in H'. exact H'. }
  assert (forall n, rev (rev (firstn n (c :: suf)) ++ pre) ++ skipn n (c :: suf) = rev pre ++ c :: suf) as R.
  { intros. rewrite rev_app_distr, rev_involutive, <- app_assoc, firstn_skipn. reflexivity. }
  destruct st; cbn [binv] in I.
  - apply IH in H; [rewrite R in H; exact H|exact Logic.I|discriminate|]. intros _ E. apply app_eq_nil in E as [E _]. unfold b in E. cbn in E. apply app_eq_nil in E as [_ E]. discriminate.
  - assert (pre <> []) by (apply P; discriminate).
    destruct (c =? 13); [apply N in H; cbn [binv]; auto; discriminate|]. destruct (c =? 10) eqn:E; [apply N in H; cbn [binv]; auto; [discriminate|]; intros _; exists pre; split; auto; f_equal; lia|].
    match type of H with context [if ?x then _ else _] => destruct x end; discriminate.
  - assert (pre <> []) by (apply P; discriminate).
    destruct (c =? 10) eqn:E; [|discriminate]. apply N in H; cbn [binv]; auto; [discriminate|]; intros _; exists pre; split; auto; f_equal; lia.
  - assert (pre <> []) by (apply P; discriminate). destruct (c =? 13) eqn:E; cbn [orb] in H.
    + destruct (mp_hname v) as [|] eqn:EN; apply N in H; cbn [binv]; auto; try discriminate. destruct I as (p & -> & _); auto. exists p. f_equal; lia.
    + destruct (c =? 10) eqn:E2.
      * destruct (mp_hname v) as [|] eqn:EN; apply N in H; cbn [binv]; auto; try discriminate.
        -- destruct I as (p & -> & _); auto. exists 10, p. split; [f_equal; lia|]. discriminate.
        -- intros Q. congruence.
      * destruct (c =? ch ":"); apply N in H; cbn [binv]; auto; try discriminate. cbn [mp_hname mp_hdr]. intros Q. apply app_eq_nil in Q as [_ Q]. discriminate.
  - assert (pre <> []) by (apply P; discriminate). destruct (c =? 13); [apply N in H; cbn [binv]; auto; discriminate|].
    destruct (c =? 10) eqn:E; [apply N in H; cbn [binv]; auto; [discriminate|]; intros _; exists pre; split; auto; f_equal; lia|].
    destruct (negb (c =? ch " ")); apply N in H; cbn [binv]; auto; discriminate.
  - assert (pre <> []) by (apply P; discriminate). destruct (c =? 13) eqn:E; cbn [orb] in H; [apply N in H; cbn [binv]; auto; discriminate|].
    destruct (c =? 10) eqn:E2; apply N in H; cbn [binv]; auto; try discriminate. intros _; exists pre; split; auto; f_equal; lia.
  - destruct I as [p ->]. destruct (c =? 10) eqn:E; [|discriminate]. destruct (mp_fname v).
    + apply IH in H; [rewrite R in H; exact H|exact Logic.I|intros _; apply search_cases|congruence].
    + apply N in H; cbn [binv]; auto; [discriminate|]. exists 13, (10 :: p). split; [f_equal; lia|]. eauto.
  - destruct I as (x & p & -> & I). set (n := search b (c :: suf)) in *.
    destruct (rev (firstn n (c :: suf)) ++ 10 :: x :: p) as [|c1 [|c0 r]] eqn:E.
    + apply app_eq_nil in E as [_ E]. discriminate.
    + assert (List.length (rev (firstn n (c :: suf)) ++ 10 :: x :: p) = 1%nat) by (rewrite E; reflexivity). rewrite app_length in H0. cbn in H0. lia.
    + destruct ((c0 =? 13) && (c1 =? 10)) eqn:C; cbn [andb] in H.
      * destruct (Nat.ltb n 2) eqn:L.
        -- assert (n = 0 \/ n = 1)%nat as [Z|Z] by lia.
           ++ rewrite Z in E. cbn in E. injection E as <- <- <-. destruct I as [q ->]; [lia|].
              pose proof (search_cases b (c :: suf)) as [K|[r K]]; fold n in K; rewrite Z in K; cbn [skipn] in K; [discriminate|].
              rewrite K. cbn [rev]. exists (rev q), r. rewrite <- !app_assoc. replace x with 13 by lia. reflexivity.
           ++ rewrite Z in E. cbn in E. injection E as <- <- <-. exfalso. lia.
        -- apply IH in H; [rewrite <- E, R in H; exact H|exact Logic.I|intros _; apply search_cases|congruence].
      * apply IH in H; [rewrite <- E, R in H; exact H|exact Logic.I|intros _; apply search_cases|congruence].
Qed.

(** ** Reading a part *)
Lemma go_start pre r v : go pre (b ++ r) MPStart v = go (rev b ++ pre) r MPHeaderCR (mp_clear v).
Proof.
  change (b ++ r) with (45 :: (tl_b ++ r)). rewrite go_next. cbv zeta. change (45 :: tl_b ++ r) with (b ++ r).
  rewrite firstn_app, skipn_app, Nat.sub_diag, firstn_all, skipn_all. cbn [firstn skipn app]. rewrite app_nil_r. reflexivity.
Qed.
Lemma go_name n : forall pre r v, no_eol n -> ~ In 58 n ->
  go pre (n ++ 58 :: r) MPHeaderName v = go (58 :: rev n ++ pre) r MPHeaderSpace (mp_hdr v (mp_hname v ++ n) (mp_hvalue v)).
Proof.
  induction n as [|c n IH]; intros pre r v [E1 E2] C; cbn [app rev]; rewrite go_next.
  - change (58 =? 13) with false. change (58 =? 10) with false. change (58 =? ch ":") with true. cbn [orb]. cbv iota. rewrite app_nil_r. destruct v; reflexivity.
  - assert (c <> 13 /\ c <> 10 /\ c <> 58) as (N1 & N2 & N3) by (repeat split; intros ->; [apply E1|apply E2|apply C]; left; auto).
    replace (c =? 13) with false by lia. replace (c =? 10) with false by lia. change (ch ":") with 58. replace (c =? 58) with false by lia. cbn [orb]. cbv iota.
    rewrite IH; [|split; intros X; [apply E1|apply E2]; right; auto|intros X; apply C; right; auto].
    cbn [mp_hname mp_hvalue mp_hdr]. rewrite <- !app_assoc. reflexivity.
Qed.
Lemma go_value x : forall pre r v, no_eol x ->
  go pre (x ++ CRLF ++ r) MPHeaderValue v = go (10 :: 13 :: rev x ++ pre) r MPHeaderName (mp_header_done (mp_hdr v (mp_hname v) (mp_hvalue v ++ x))).
Proof.
  induction x as [|c x IH]; intros pre r v [E1 E2]; cbn [app rev].
  - change (CRLF ++ r) with (13 :: 10 :: r). rewrite go_next. change (13 =? 13) with true. cbn [orb]. cbv iota. rewrite go_next. change (10 =? 10) with true. cbv iota. rewrite app_nil_r. destruct v; reflexivity.
  - rewrite go_next. assert (c <> 13 /\ c <> 10) as (N1 & N2) by (repeat split; intros ->; [apply E1|apply E2]; left; auto).
    replace (c =? 13) with false by lia. replace (c =? 10) with false by lia. cbn [orb]. cbv iota.
    rewrite IH; [|split; intros X; [apply E1|apply E2]; right; auto]. cbn [mp_hname mp_hvalue mp_hdr]. rewrite <- !app_assoc. reflexivity.
Qed.
Lemma go_line n x pre r v : no_eol n -> ~ In 58 n -> text_ok x -> mp_hname v = [] -> mp_hvalue v = [] ->
  exists p, go pre (line n x ++ r) MPHeaderName v = go (10 :: p) r MPHeaderName (mp_header_done (mp_hdr v n x)).
Proof.
  intros N C (X0 & [X1 X2] & X3) V1 V2. unfold line. change (bs ": ") with [58; 32]. rewrite <- app_assoc. cbn [app]. rewrite go_name by auto. rewrite go_next.
  change (32 =? 13) with false. change (32 =? 10) with false. change (negb (32 =? ch " ")) with false. cbv iota. rewrite <- app_assoc.
  destruct x as [|c x]; [congruence|]. cbn [hd] in X3. cbn [app]. rewrite go_next.
  assert (c <> 13 /\ c <> 10) as (N1 & N2) by (repeat split; intros ->; [apply X1|apply X2]; left; auto).
  replace (c =? 13) with false by lia. replace (c =? 10) with false by lia. change (ch " ") with 32. replace (c =? 32) with false by lia. cbn [negb]. cbv iota.
  rewrite go_value; [|split; intros X; [apply X1|apply X2]; right; auto]. cbn [mp_hname mp_hvalue mp_hdr]. rewrite V1, V2. cbn [app]. eexists. reflexivity.
Qed.

Lemma search_value val r : no_eol b -> ~ occurs b val -> search b (val ++ CRLF ++ b ++ r) = (List.length val + 2)%nat.
Proof.
  intros [E1 E2] O. replace (List.length val + 2)%nat with (List.length (val ++ CRLF)) by (rewrite app_length; reflexivity).
  rewrite app_assoc. eapply search_first; [reflexivity|]. intros a' b' E. rewrite app_length. cbn [List.length CRLF].
  destruct (Nat.le_gt_cases (List.length val + 2) (List.length a')) as [L|L]; auto. exfalso.
  assert (forall k c, nth_error ((val ++ CRLF) ++ b ++ r) k = Some c -> (List.length a' <= k < List.length a' + List.length b)%nat -> In c b) as K.
  { intros k c HN HK. rewrite E in HN. rewrite nth_error_app2 in HN by lia. rewrite nth_error_app1 in HN by lia. eapply nth_error_In; eauto. }
  assert (1 <= List.length b)%nat by (unfold b; cbn; lia).
  assert (nth_error ((val ++ CRLF) ++ b ++ r) (List.length val) = Some 13) as C13 by (rewrite <- app_assoc, nth_error_app2, Nat.sub_diag by lia; reflexivity).
  assert (nth_error ((val ++ CRLF) ++ b ++ r) (List.length val + 1) = Some 10) as C10 by (rewrite <- app_assoc, nth_error_app2 by lia; replace (List.length val + 1 - List.length val)%nat with 1%nat by lia; reflexivity).
  destruct (Nat.le_gt_cases (List.length a' + List.length b) (List.length val)) as [L2|L2].
  - apply O. exists a', (firstn (List.length val - List.length a' - List.length b) b').
    assert (firstn (List.length val) ((val ++ CRLF) ++ b ++ r) = val) as F by (rewrite <- app_assoc, firstn_app, firstn_all, Nat.sub_diag; cbn [firstn]; apply app_nil_r).
    rewrite E in F. rewrite firstn_app, (firstn_all2 a') in F by lia. rewrite firstn_app, (firstn_all2 b) in F by lia.
    symmetry. exact F.
  - destruct (Nat.le_gt_cases (List.length a') (List.length val)) as [L3|L3].
    + apply E1. eapply K; eauto.
    + apply E2. eapply K; eauto. lia.
Qed.

Definition shown (f : field) : list Z :=
  if is_text f then fd_value f else binary_2base64 (fd_value f) (match fd_type f with Some t => t | None => [] end).

Lemma go_field_data val r pre v : no_eol b -> ~ occurs b val ->
  exists p, go pre (val ++ CRLF ++ b ++ r) MPFieldData v =
  go p (b ++ r) MPStart {| mp_hname := mp_hname v; mp_hvalue := mp_hvalue v; mp_fname := mp_fname v; mp_ctype := mp_ctype v; mp_b64 := mp_b64 v; mp_found := true;
    mp_out := mp_out v ++ [(mp_fname v, if mp_b64 v then binary_2base64 val (mp_ctype v) else val)] |}.
Proof.
  intros E O. pose proof (search_value val r E O) as S. set (w := val ++ CRLF ++ b ++ r) in *.
  assert (firstn (List.length val + 2) w = val ++ CRLF) as F1.
  { unfold w. rewrite app_assoc, firstn_app, firstn_all2 by (rewrite app_length; cbn; lia). rewrite app_length. cbn [List.length CRLF]. rewrite Nat.sub_diag. apply app_nil_r. }
  assert (skipn (List.length val + 2) w = b ++ r) as F2.
  { unfold w. rewrite app_assoc, skipn_app, skipn_all2 by (rewrite app_length; cbn; lia). rewrite app_length. cbn [List.length CRLF]. rewrite Nat.sub_diag. reflexivity. }
  assert (firstn (List.length val) w = val) as F3.
  { unfold w. rewrite firstn_app, firstn_all, Nat.sub_diag. apply app_nil_r. }
  clearbody w. destruct w as [|c w]; [unfold b in F2; rewrite skipn_nil in F2; discriminate|].
  rewrite go_next, S. cbv zeta. rewrite F1, F2, rev_app_distr. cbn [rev CRLF app]. change ((13 =? 13) && (10 =? 10)) with true. cbn [andb].
  replace (Nat.ltb (List.length val + 2) 2) with false by lia. replace (List.length val + 2 - 2)%nat with (List.length val) by lia. rewrite F3. eexists. reflexivity.
Qed.
End Boundary.

Lemma same_iequals a c : iequals a c = same_name a c.
Proof.
  unfold iequals. destruct (same_name a c) eqn:E.
  - apply same_name_true in E. change (lower_str a) with (map ascii_low a). change (lower_str c) with (map ascii_low c). rewrite E. apply str_eqb_refl.
  - apply str_eqb_neq. intros H. assert (same_name a c = true) by (apply same_name_true; exact H). congruence.
Qed.
Lemma until_quote_name n r : ~ In 34 n -> until_quote (n ++ 34 :: r) = n.
Proof.
  induction n as [|c n IH]; intros H; cbn [app until_quote]; [reflexivity|]. replace (c =? 34) with false by (symmetry; apply Z.eqb_neq; intros ->; apply H; left; auto).
  rewrite IH; auto. intros X; apply H; right; auto.
Qed.
Lemma disposition_done f v : ~ In 34 (fd_name f) -> mp_fname v = [] ->
  mp_header_done (mp_hdr v (bs "Content-Disposition") (disposition f)) =
  {| mp_hname := []; mp_hvalue := []; mp_fname := fd_name f; mp_ctype := mp_ctype v; mp_b64 := mp_b64 v; mp_found := mp_found v; mp_out := mp_out v |}.
Proof.
  intros Q F. unfold mp_header_done. cbn [mp_hname mp_hvalue mp_hdr mp_fname mp_ctype mp_b64 mp_found mp_out]. rewrite !same_iequals.
  change (same_name (bs "Content-Disposition") HEADER_CONTENT_TYPE) with false. change (same_name (bs "Content-Disposition") HEADER_CONTENT_DISPOSITION) with true. cbv iota.
  assert (disposition f = bs "form-data; " ++ name_param ++ fd_name f ++ 34 :: fd_params f) as D by reflexivity.
  assert (contains name_param (disposition f) = true) as -> by (rewrite D; apply contains_iff; eauto).
  assert (search name_param (disposition f) = 11%nat) as ->.
  { rewrite D. unfold name_param. reflexivity. }
  rewrite F. cbn [app]. do 2 f_equal. rewrite D. change (skipn (11 + 6) (bs "form-data; " ++ name_param ++ fd_name f ++ 34 :: fd_params f)) with (fd_name f ++ 34 :: fd_params f). apply until_quote_name; auto.
Qed.
Lemma type_done t v : mp_header_done (mp_hdr v (bs "Content-Type") t) =
  {| mp_hname := []; mp_hvalue := []; mp_fname := mp_fname v; mp_ctype := t; mp_b64 := negb (same_name (firstn 5 t) (bs "text/")); mp_found := mp_found v; mp_out := mp_out v |}.
Proof. unfold mp_header_done. cbn [mp_hname mp_hvalue mp_hdr mp_fname mp_ctype mp_b64 mp_found mp_out]. rewrite !same_iequals. reflexivity. Qed.
Lemma other_done n x v : same_name n (bs "Content-Type") = false -> same_name n (bs "Content-Disposition") = false ->
  mp_header_done (mp_hdr v n x) = mp_hdr v [] [].
Proof.
  intros H1 H2. unfold mp_header_done. cbn [mp_hname mp_hvalue mp_hdr mp_fname mp_ctype mp_b64 mp_found mp_out]. rewrite !same_iequals.
  unfold HEADER_CONTENT_TYPE, HEADER_CONTENT_DISPOSITION. rewrite H1, H2. reflexivity.
Qed.

Definition delim (B : list Z) : list Z := bs "--" ++ B.
Lemma go_more B hs : forall pre r v, mp_hname v = [] -> mp_hvalue v = [] ->
  Forall (fun h : list Z * list Z => fst h <> [] /\ no_eol (fst h) /\ ~ In 58 (fst h) /\ text_ok (snd h)
                      /\ same_name (fst h) (bs "Content-Type") = false /\ same_name (fst h) (bs "Content-Disposition") = false) hs ->
  exists p, go (45 :: B) (10 :: pre) (List.concat (map (fun h => line (fst h) (snd h)) hs) ++ r) MPHeaderName v = go (45 :: B) (10 :: p) r MPHeaderName v.
Proof.
  induction hs as [|h hs IH]; intros pre r v V1 V2 F; cbn [map List.concat app]; [eauto|].
  inversion F as [|? ? (A1 & A2 & A3 & A4 & A5 & A6) F']; subst. rewrite <- app_assoc.
  destruct (go_line (45 :: B) (fst h) (snd h) (10 :: pre) (List.concat (map (fun h => line (fst h) (snd h)) hs) ++ r) v) as [p ->]; auto.
  rewrite other_done by auto. replace (mp_hdr v [] []) with v by (destruct v; cbn in *; subst; reflexivity). apply IH; auto.
Qed.

Lemma go_part B f pre r v : no_eol B -> field_ok B f -> exists p v',
  go (45 :: B) pre (part B f ++ delim B ++ r) MPStart v = go (45 :: B) p (delim B ++ r) MPStart v'
  /\ mp_out v' = mp_out v ++ [(fd_name f, shown f)].
Proof.
  intros NB (F1 & F2 & F3 & F4 & F5 & F6 & F7).
  assert (no_eol (45 :: 45 :: B)) as NE by (destruct NB as [N1 N2]; split; intros [H|[H|H]]; try discriminate; auto).
  assert (part B f ++ delim B ++ r = (45 :: 45 :: B) ++ CRLF ++ line (bs "Content-Disposition") (disposition f)
    ++ match fd_type f with Some t => line (bs "Content-Type") t | None => [] end
    ++ List.concat (map (fun h => line (fst h) (snd h)) (fd_more f)) ++ CRLF ++ fd_value f ++ CRLF ++ (45 :: 45 :: B) ++ r) as ->.
  { unfold part, delim. change (bs "--") with [45; 45]. cbn [app]. repeat (f_equal; rewrite <- ?app_assoc). }
  rewrite (go_start (45 :: B)). unfold CRLF at 1. cbn [app]. rewrite go_next. change (13 =? 13) with true. cbv iota. rewrite go_next. change (10 =? 10) with true. cbv iota.
  assert (text_ok (disposition f)) as TD.
  { unfold text_ok, disposition. split; [discriminate|]. split; [|vm_compute; discriminate].
    destruct F2, F4. split; intros H'; repeat (apply in_app_or in H' as [H'|H']); auto;
    try (cbn in H'; repeat destruct H' as [H'|H']; try discriminate; auto). }
  edestruct (go_line (45 :: B) (bs "Content-Disposition") (disposition f)) as [p1 E1]; [| |exact TD| | |rewrite E1; clear E1];
    try reflexivity; try (split; vm_compute; intuition discriminate); try (vm_compute; intuition discriminate).
  rewrite disposition_done by (auto; reflexivity). cbn [mp_clear mp_ctype mp_b64 mp_found mp_out].
  set (v1 := Build_mpvars _ _ _ _ _ _ _).
  assert (exists p2, go (45 :: B) (10 :: p1) (match fd_type f with Some t => line (bs "Content-Type") t | None => [] end
    ++ List.concat (map (fun h => line (fst h) (snd h)) (fd_more f)) ++ CRLF ++ fd_value f ++ CRLF ++ (45 :: 45 :: B) ++ r) MPHeaderName v1
    = go (45 :: B) (10 :: p2) (List.concat (map (fun h => line (fst h) (snd h)) (fd_more f)) ++ CRLF ++ fd_value f ++ CRLF ++ (45 :: 45 :: B) ++ r) MPHeaderName
      {| mp_hname := []; mp_hvalue := []; mp_fname := fd_name f; mp_ctype := match fd_type f with Some t => t | None => [] end;
         mp_b64 := negb (is_text f); mp_found := mp_found v; mp_out := mp_out v |}) as [p2 E2].
  { unfold is_text. destruct (fd_type f) as [t|].
    - edestruct (go_line (45 :: B) (bs "Content-Type") t) as [p2 E2]; [| |exact F5| | |rewrite E2; clear E2];
        try reflexivity; try (split; vm_compute; intuition discriminate); try (vm_compute; intuition discriminate).
      rewrite type_done. exists p2. reflexivity.
    - exists p1. reflexivity. }
  cbn [app] in E2 |- *. rewrite E2. clear E2.
  edestruct (go_more B (fd_more f) p2) as [p3 ->]; [| |exact F6|]; try reflexivity.
  change (CRLF ++ fd_value f ++ CRLF ++ 45 :: 45 :: B ++ r) with (13 :: 10 :: (fd_value f ++ CRLF ++ (45 :: 45 :: B) ++ r)).
  rewrite go_next. change (13 =? 13) with true. cbn [orb mp_hname]. cbv iota. rewrite go_next. change (10 =? 10) with true. cbn [mp_fname]. cbv iota.
  destruct (fd_name f) as [|x nm] eqn:EN; [congruence|].
  destruct (go_field_data (45 :: B) (fd_value f) r (10 :: 13 :: 10 :: p3) {| mp_hname := []; mp_hvalue := []; mp_fname := x :: nm; mp_ctype := match fd_type f with Some t => t | None => [] end;
         mp_b64 := negb (is_text f); mp_found := mp_found v; mp_out := mp_out v |} NE F7) as [p4 ->].
  eexists. eexists. split; [reflexivity|]. cbn [mp_out mp_fname mp_b64 mp_ctype]. unfold shown. destruct (is_text f); reflexivity.
Qed.

Lemma go_parts B fs : forall pre r v, no_eol B -> Forall (field_ok B) fs ->
  go (45 :: B) pre (List.concat (map (part B) fs) ++ delim B ++ bs "--" ++ r) MPStart v = MPOk true (mp_out v ++ map (fun f => (fd_name f, shown f)) fs).
Proof.
  induction fs as [|f fs IH]; intros pre r v NB F; cbn [map List.concat app].
  - change (delim B ++ bs "--" ++ r) with ((45 :: 45 :: B) ++ 45 :: 45 :: r). rewrite (go_start (45 :: B)), go_next.
    change (45 =? 13) with false. change (45 =? 10) with false. change ((45 =? ch "-") && (45 =? ch "-")) with true. cbv iota. cbn [mp_clear mp_out]. rewrite app_nil_r. reflexivity.
  - inversion F as [|? ? F1 F2]; subst. rewrite <- app_assoc.
    assert (exists r', List.concat (map (part B) fs) ++ delim B ++ bs "--" ++ r = delim B ++ r') as [r' E].
    { destruct fs; cbn [map List.concat app]; [eauto|]. unfold part at 1. rewrite <- !app_assoc. unfold delim. rewrite <- app_assoc. eexists. reflexivity. }
    rewrite E. destruct (go_part B f pre r' v NB F1) as (p & v' & -> & O). rewrite <- E, IH by auto. rewrite O, <- app_assoc. reflexivity.
Qed.

Definition first_at (pat a s : list Z) : Prop := (exists r, s = a ++ pat ++ r) /\ forall a' b', s = a' ++ pat ++ b' -> (List.length a <= List.length a')%nat.

Lemma multipart_form ct0 B preamble fs epilogue : no_eol B -> Forall (field_ok B) fs ->
  first_at (bs "boundary=") ct0 (ct0 ++ bs "boundary=" ++ B) ->
  first_at (bs "--" ++ B) preamble (preamble ++ form_body B fs epilogue) ->
  parse_multipart (ct0 ++ bs "boundary=" ++ B) (preamble ++ form_body B fs epilogue) = MPOk true (map (fun f => (fd_name f, shown f)) fs).
Proof.
  intros NB F [_ FC] [_ FP]. unfold parse_multipart.
  assert (exists r', form_body B fs epilogue = (bs "--" ++ B) ++ r') as [r' E].
  { unfold form_body. destruct fs; cbn [map List.concat app]; [rewrite app_assoc; eauto|]. unfold part at 1. rewrite <- !app_assoc. eexists. reflexivity. }
  replace (contains boundary_param (ct0 ++ bs "boundary=" ++ B)) with true by (symmetry; apply contains_iff; exists ct0, B; reflexivity).
  assert (search boundary_param (ct0 ++ bs "boundary=" ++ B) = List.length ct0) as -> by (eapply search_first; [reflexivity|exact FC]).
  assert (bs "--" ++ skipn (List.length ct0 + 9) (ct0 ++ bs "boundary=" ++ B) = bs "--" ++ B) as ->.
  { f_equal. rewrite skipn_app, skipn_all2 by lia. replace (List.length ct0 + 9 - List.length ct0)%nat with 9%nat by lia. reflexivity. }
  cbv zeta.
  assert (search (bs "--" ++ B) (preamble ++ form_body B fs epilogue) = List.length preamble) as ->.
  { eapply search_first; [|exact FP]. rewrite E, <- !app_assoc. reflexivity. }
  rewrite firstn_app, skipn_app, Nat.sub_diag, firstn_all, skipn_all. cbn [firstn skipn app]. rewrite app_nil_r.
  change (bs "--" ++ B) with (45 :: 45 :: B). rewrite (go_eq (45 :: B)).
  - unfold form_body. rewrite (app_assoc (bs "--") B). fold (delim B). rewrite go_parts by auto.
    destruct (preamble ++ _) eqn:Q; [|reflexivity]. exfalso. apply app_eq_nil in Q as [_ Q]. apply app_eq_nil in Q as [_ Q]. discriminate.
  - unfold mu. rewrite app_length. lia.
Qed.

(** the data URL of a field whose type is not text holds its bytes *)
Lemma shown_binary f t : fd_type f = Some t -> same_name (firstn 5 t) (bs "text/") = false -> Forall is_byte (fd_value f) ->
  exists e, shown f = bs "data:" ++ t ++ bs "; base64, " ++ e /\ (zlen e < two32 -> b64_decode e = (B64True, fd_value f)).
Proof.
  intros T N FB. unfold shown, is_text. rewrite T, N. unfold binary_2base64. eexists. split; [reflexivity|]. intros L. unfold b64_decode. rewrite trunc32_id by auto. apply b64_roundtrip_loop; auto.
Qed.

Lemma multipart_total ct body :
  (exists ok out, parse_multipart ct body = MPOk ok out)
  \/ (parse_multipart ct body = MPBad /\ exists B, occurs (bs "boundary=" ++ B) ct /\ occurs ([10; 13; 10] ++ bs "--" ++ B) body).
Proof.
  unfold parse_multipart. destruct body as [|c body]; [left; eauto|]. set (w := c :: body).
  destruct (contains boundary_param ct) eqn:C; [|left; eauto]. cbv zeta.
  set (B := skipn (search boundary_param ct + 9) ct).
  destruct (mp_loop _ _ _ _ _ _) eqn:E; [left; eauto| |].
  - right. split; auto. exists B. split.
    + apply contains_iff in C as (a & r & ->). unfold B.
      pose proof (search_cases boundary_param (a ++ boundary_param ++ r)) as [K|[t K]].
      * exfalso. assert (forall a r, (search boundary_param (a ++ boundary_param ++ r) <= List.length a)%nat) as L.
        { clear. induction a as [|x a IH]; intros r.
          - assert (is_prefix boundary_param (boundary_param ++ r) = true) as P by (apply is_prefix_spec; eauto).
            change (boundary_param ++ r) with (98 :: tl boundary_param ++ r) in *. cbn [app search]. cbn [app] in P. rewrite P. lia.
          - cbn [app search]. destruct (is_prefix _ _); cbn [List.length]; [lia|]. specialize (IH r). lia. }
        specialize (L a r). apply (f_equal (@List.length Z)) in K. rewrite skipn_length, !app_length in K. change (List.length boundary_param) with 9%nat in K. cbn [List.length] in K. lia.
      * set (n := search boundary_param (a ++ boundary_param ++ r)) in *. set (s := a ++ boundary_param ++ r) in *.
        exists (firstn n s), []. rewrite app_nil_r. rewrite <- (firstn_skipn n s) at 1. f_equal. rewrite K. change (bs "boundary=") with boundary_param. f_equal.
        rewrite <- HttpBase.skipn_skipn, K. reflexivity.
    + change (bs "--" ++ B) with (45 :: 45 :: B) in E. eapply (bad_boundary (45 :: B)) in E; [|exact I|intros _; apply search_cases|congruence].
      rewrite rev_involutive, firstn_skipn in E. exact E.
  - exfalso. revert E. change (bs "--" ++ B) with (45 :: 45 :: B). apply (fuel_enough (45 :: B) _ (S (mu (skipn (search (45 :: 45 :: B) w) w) MPStart))); [|lia].
    unfold mu. rewrite skipn_length. lia.
Qed.

Lemma multipart_round_trip ct0 B preamble fs epilogue : no_eol B -> Forall (field_ok B) fs ->
  first_at (bs "boundary=") ct0 (ct0 ++ bs "boundary=" ++ B) ->
  first_at (bs "--" ++ B) preamble (preamble ++ form_body B fs epilogue) ->
  exists out, parse_multipart (ct0 ++ bs "boundary=" ++ B) (preamble ++ form_body B fs epilogue) = MPOk true out
    /\ Forall2 (fun f p => fst p = fd_name f
         /\ (is_text f = true -> snd p = fd_value f)
         /\ (forall t, fd_type f = Some t -> is_text f = false -> Forall is_byte (fd_value f) ->
             exists e, snd p = bs "data:" ++ t ++ bs "; base64, " ++ e /\ (zlen e < two32 -> b64_decode e = (B64True, fd_value f)))) fs out.
Proof.
  intros H1 H2 H3 H4. eexists. split; [apply multipart_form; auto|]. clear. induction fs as [|f fs IH]; cbn [map]; constructor; auto. cbn [fst snd].
  split; auto. split; [intros E; unfold shown; rewrite E; reflexivity|]. intros t T N F. unfold is_text in N. rewrite T in N. apply shown_binary; auto.
Qed.

Lemma content_type_boundary B : contains boundary_param (bs "multipart/form-data; boundary=" ++ B) = true
  /\ skipn (search boundary_param (bs "multipart/form-data; boundary=" ++ B) + 9) (bs "multipart/form-data; boundary=" ++ B) = B.
Proof. split; reflexivity. Qed.
Lemma search_here p s : search p (p ++ s) = 0%nat.
Proof. assert (is_prefix p (p ++ s) = true) as P by (apply is_prefix_spec; eauto). destruct (p ++ s) eqn:E; cbn [search]; rewrite P; reflexivity. Qed.
(** a body that starts with the boundary and one disposition line *)
Lemma multipart_one B x r nm : no_eol B -> nm <> [] -> text_ok x -> until_quote (skipn (search name_param x + 6) x) = nm -> contains name_param x = true ->
  exists p, parse_multipart (bs "multipart/form-data; boundary=" ++ B) (bs "--" ++ B ++ CRLF ++ line (bs "Content-Disposition") x ++ CRLF ++ r)
  = go (45 :: B) (10 :: 13 :: 10 :: p) r MPFieldData {| mp_hname := []; mp_hvalue := []; mp_fname := nm; mp_ctype := []; mp_b64 := false; mp_found := false; mp_out := [] |}.
Proof.
  intros NB NN TX UQ CN. unfold parse_multipart. destruct (content_type_boundary B) as [-> ->]. cbv zeta.
  set (w := line (bs "Content-Disposition") x ++ CRLF ++ r).
  change (bs "--" ++ B ++ CRLF ++ w) with ((45 :: 45 :: B) ++ CRLF ++ w). change (bs "--" ++ B) with (45 :: 45 :: B).
  rewrite search_here. cbn [firstn rev skipn]. rewrite (go_eq (45 :: B)) by (unfold mu; lia). rewrite (go_start (45 :: B)). cbn [app].
  unfold CRLF at 1. cbn [app]. rewrite go_next. change (13 =? 13) with true. cbv iota. rewrite go_next. change (10 =? 10) with true. cbv iota. unfold w.
  edestruct (go_line (45 :: B) (bs "Content-Disposition") x) as [p1 E1]; [| |exact TX| | |rewrite E1; clear E1];
    try reflexivity; try (split; vm_compute; intuition discriminate); try (vm_compute; intuition discriminate).
  exists p1. destruct nm as [|c nm]; [congruence|].
  assert (mp_header_done (mp_hdr (mp_clear mp_init) (bs "Content-Disposition") x) =
    {| mp_hname := []; mp_hvalue := []; mp_fname := c :: nm; mp_ctype := []; mp_b64 := false; mp_found := false; mp_out := [] |}) as ->.
  { unfold mp_header_done. cbn [mp_hname mp_hvalue mp_hdr mp_fname mp_ctype mp_b64 mp_found mp_out mp_clear mp_init]. rewrite !same_iequals.
    change (same_name (bs "Content-Disposition") HEADER_CONTENT_TYPE) with false. change (same_name (bs "Content-Disposition") HEADER_CONTENT_DISPOSITION) with true. cbv iota. rewrite CN, UQ. reflexivity. }
  change (CRLF ++ r) with (13 :: 10 :: r). rewrite go_next. change (13 =? 13) with true. cbn [orb mp_hname]. cbv iota. rewrite go_next. change (10 =? 10) with true. cbn [mp_fname]. cbv iota. reflexivity.
Qed.
Lemma multipart_bad B name rest : no_eol B -> name <> [] -> no_eol name -> ~ In 34 name ->
  parse_multipart (bs "multipart/form-data; boundary=" ++ B)
    (bs "--" ++ B ++ CRLF ++ line (bs "Content-Disposition") (bs "form-data; name=" ++ [34] ++ name ++ [34]) ++ CRLF ++ bs "--" ++ B ++ rest) = MPBad.
Proof.
  intros NB N0 [N1 N2] N3. set (x := bs "form-data; name=" ++ [34] ++ name ++ [34]).
  assert (text_ok x) as TX.
  { unfold text_ok, x. split; [discriminate|]. split; [|vm_compute; discriminate].
    split; intros H'; repeat (apply in_app_or in H' as [H'|H']); auto; cbn in H'; repeat destruct H' as [H'|H']; try discriminate; auto. }
  assert (x = bs "form-data; " ++ name_param ++ name ++ [34]) as EX by reflexivity.
  assert (search name_param x = 11%nat) as SX by (rewrite EX; reflexivity).
  destruct (multipart_one B x (bs "--" ++ B ++ rest) name NB N0 TX) as [p ->].
  - rewrite SX, EX. change (skipn (11 + 6) (bs "form-data; " ++ name_param ++ name ++ [34])) with (name ++ [34]). apply until_quote_name; auto.
  - rewrite EX. apply contains_iff. eauto.
  - destruct name as [|c name]; [congruence|]. change (bs "--" ++ B ++ rest) with (45 :: 45 :: B ++ rest). rewrite go_next.
    change (45 :: 45 :: B ++ rest) with ((45 :: 45 :: B) ++ rest). rewrite search_here. cbn. reflexivity.
Qed.
Lemma multipart_file_first B name file value rest : no_eol B -> file <> [] -> no_eol file -> ~ In 34 file -> no_eol name ->
  ~ occurs (bs "--" ++ B) value ->
  parse_multipart (bs "multipart/form-data; boundary=" ++ B)
    (bs "--" ++ B ++ CRLF ++ line (bs "Content-Disposition") (bs "form-data; filename=" ++ [34] ++ file ++ [34] ++ bs "; name=" ++ [34] ++ name ++ [34]) ++ CRLF
     ++ value ++ CRLF ++ bs "--" ++ B ++ bs "--" ++ rest) = MPOk true [(file, value)].
Proof.
  intros NB N0 [N1 N2] N3 [M1 M2] O. set (x := bs "form-data; filename=" ++ [34] ++ file ++ [34] ++ bs "; name=" ++ [34] ++ name ++ [34]).
  assert (text_ok x) as TX.
  { unfold text_ok, x. split; [discriminate|]. split; [|vm_compute; discriminate].
    split; intros H'; repeat (apply in_app_or in H' as [H'|H']); auto; cbn in H'; repeat destruct H' as [H'|H']; try discriminate; auto. }
  assert (x = bs "form-data; file" ++ name_param ++ file ++ 34 :: bs "; name=" ++ [34] ++ name ++ [34]) as EX by reflexivity.
  assert (search name_param x = 15%nat) as SX by (rewrite EX; reflexivity).
  destruct (multipart_one B x (value ++ CRLF ++ bs "--" ++ B ++ bs "--" ++ rest) file NB N0 TX) as [p ->].
  - rewrite SX, EX. change (skipn (15 + 6) (bs "form-data; file" ++ name_param ++ file ++ 34 :: bs "; name=" ++ [34] ++ name ++ [34])) with (file ++ 34 :: bs "; name=" ++ [34] ++ name ++ [34]). apply until_quote_name; auto.
  - rewrite EX. apply contains_iff. eauto.
  - destruct file as [|c file]; [congruence|].
    assert (no_eol (45 :: 45 :: B)) as NE by (destruct NB as [Q1 Q2]; split; intros [H|[H|H]]; try discriminate; auto).
    change (bs "--" ++ B ++ bs "--" ++ rest) with ((45 :: 45 :: B) ++ bs "--" ++ rest).
    edestruct (go_field_data (45 :: B) value (bs "--" ++ rest)) as [q ->]; auto.
    pose proof (go_parts B [] q rest {| mp_hname := []; mp_hvalue := []; mp_fname := c :: file; mp_ctype := []; mp_b64 := false; mp_found := true; mp_out := [(c :: file, value)] |} NB ltac:(constructor)) as G.
    cbn [map List.concat app mp_out] in G. cbn [mp_hname mp_hvalue mp_fname mp_ctype mp_b64 mp_out app]. exact G.
Qed.
