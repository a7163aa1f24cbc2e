(** C13: Cookie and Set-Cookie headers in any form. *)
From Coq Require Import String ZArith List Bool Lia ZifyBool.
From Verif Require Import Base AlgModel FormModel FormSpec FormProofs.
Import ListNotations.

(** A cookie as it may be written: blanks before the name, and the value missing, as it is, or in quotes of either kind with something ignored behind them; blanks before the value. *)
Inductive written := Missing | Plain (blanks : nat) (v : list Z) | Quoted (blanks : nat) (q : Z) (v rest : list Z).
Record item := mkitem { i_blanks : nat; i_name : list Z; i_value : written }.
Definition value_text (w : written) : list Z :=
  match w with Missing => [] | Plain k v => bs "=" ++ repeat 32 k ++ v | Quoted k q v rest => bs "=" ++ repeat 32 k ++ [q] ++ v ++ [q] ++ rest end.
Definition item_text (i : item) : list Z := repeat 32 (i_blanks i) ++ i_name i ++ value_text (i_value i).
(** each but the first has the sign before it that separates it *)
Fixpoint more_text (l : list (Z * item)) : list Z := match l with [] => [] | (s, i) :: l' => s :: item_text i ++ more_text l' end.

Definition separator (c : Z) : bool := (c =? 59) || (c =? 44).
Definition item_ok (i : item) : Prop :=
  Forall is_byte (i_name i) /\ Forall (fun c => cookie_name_char c = true) (i_name i) /\ zlen (i_name i) <= 1024 /\
  match i_value i with
  | Missing => True
  | Plain _ v => cookie_value_ok v
  | Quoted _ q v rest => (q = 34 \/ q = 39) /\ ~ In q v /\ zlen v <= 1048576 /\ Forall (fun c => separator c = false) rest
  end.
(** What is told: not what has no name or one that begins with $, and in Set-Cookie not the attributes. *)
Definition dropped (set_cookie : bool) (n : list Z) : bool :=
  str_eqb n [] || (hd 0 n =? 36) || (set_cookie && existsb (str_eqb (map ascii_lower n)) reserved_cookie_names).
Definition told (set_cookie : bool) (i : item) : list (list Z * list Z) :=
  if dropped set_cookie (i_name i) then [] else [(i_name i, match i_value i with Missing => [] | Plain _ v | Quoted _ _ v _ => v end)].

Lemma reserved_iff n : existsb (iequals n) cookie_attributes = existsb (str_eqb (map ascii_lower n)) reserved_cookie_names.
Proof.
  apply eq_true_iff_eq. rewrite cookie_attr_reserved, existsb_exists. split; [intros H; exists (map ascii_lower n); split; [exact H|apply str_eqb_refl]|intros (a & H & E); apply str_eqb_eq in E; rewrite E; exact H].
Qed.
Lemma drop_attr sc n : is_cookie_attribute n sc = dropped sc n.
Proof. unfold is_cookie_attribute, dropped. destruct n as [|c n]; [reflexivity|]. rewrite reserved_iff. cbn [str_eqb hd orb]. reflexivity. Qed.

Lemma run_blanks_name sc k : forall n v q out, run (c_step sc) (cst CName n v q out) (repeat 32 k) = (true, cst CName n v q out).
Proof. induction k as [|k IH]; intros; [reflexivity|]. cbn [repeat run]. change (c_step sc (cst CName n v q out) 32) with (true, cst CName n v q out). apply IH. Qed.
Lemma run_blanks_value sc k : forall n out, run (c_step sc) (cst CValue n [] 0 out) (repeat 32 k) = (true, cst CValue n [] 0 out).
Proof. induction k as [|k IH]; intros; [reflexivity|]. cbn [repeat run]. change (c_step sc (cst CValue n [] 0 out) 32) with (true, cst CValue n [] 0 out). apply IH. Qed.
Lemma run_in_quotes sc q m : q = 34 \/ q = 39 -> forall n v out, ~ In q m -> zlen v + zlen m <= 1048576 -> run (c_step sc) (cst CValue n v q out) m = (true, cst CValue n (v ++ m) q out).
Proof.
  intros Q. induction m as [|c m IH]; intros n v out N L; [cbn [run]; rewrite app_nil_r; reflexivity|].
  rewrite zlen_cons in L. pose proof (zlen_nonneg m). cbn [run]. unfold c_step at 1.
  cbn [c_phase cst c_quote c_value c_name c_out]. replace (q =? 0) with false by lia.
  replace (c =? q) with false by (symmetry; apply Z.eqb_neq; intro; apply N; left; auto).
  change COOKIE_VALUE_MAX with 1048576. replace (1048576 <=? zlen v) with false by lia.
  change {| c_phase := CValue; c_name := n; c_value := v ++ [c]; c_quote := q; c_out := out |} with (cst CValue n (v ++ [c]) q out).
  rewrite IH; [rewrite <- app_assoc; reflexivity|intro; apply N; right; auto|rewrite zlen_app, zlen_cons, zlen_nil; lia].
Qed.
Lemma run_ignored sc q out m : Forall (fun c => separator c = false) m -> run (c_step sc) (cst CIgnore [] [] q out) m = (true, cst CIgnore [] [] q out).
Proof.
  induction 1 as [|c m H F IH]; [reflexivity|]. cbn [run]. unfold c_step at 1. cbn [c_phase cst]. change (is_sep c) with (separator c). rewrite H. exact IH.
Qed.
Lemma insert_out sc ph n v q out : c_insert sc (cst ph n v q out) = out ++ if dropped sc n then [] else [(n, v)].
Proof. unfold c_insert. cbn [c_name c_out c_value cst]. rewrite drop_attr. destruct (dropped sc n); [rewrite app_nil_r|]; reflexivity. Qed.

Lemma run_item sc q i out : item_ok i -> exists st, run (c_step sc) (cst CName [] [] q out) (item_text i) = (true, st) /\ c_insert sc st = out ++ told sc i /\
  forall s, separator s = true -> exists q', c_step sc st s = (true, cst CName [] [] q' (out ++ told sc i)).
Proof.
  intros (NB & NC & NL & V). unfold item_text, told. rewrite run_app, run_blanks_name, run_app, run_name by (auto; cbn; lia). cbn [app].
  assert (SE : forall s, separator s = true -> (s =? ch "=") = false) by (intros s S; unfold separator in S; change (ch "=") with 61; lia).
  destruct (i_value i) as [|k v|k q0 v rest]; cbn [value_text].
  - eexists. split; [reflexivity|]. split; [apply insert_out|]. intros s S. exists q. unfold c_step. cbn [c_phase cst c_name c_quote c_value]. rewrite (SE s S). change (is_sep s) with (separator s). rewrite S.
    destruct (i_name i) as [|c n] eqn:N; [cbn; rewrite app_nil_r; reflexivity|]. rewrite <- N in *. rewrite <- (insert_out sc CName (i_name i) [] q out). reflexivity.
  - destruct V as (VB & VC & VL & V1 & V2 & V3). change (bs "=") with [ch "="]. cbn [app run]. rewrite c_step_eq. rewrite run_app, run_blanks_value, run_value by (auto; cbn; lia). cbn [app].
    eexists. split; [reflexivity|]. split; [apply insert_out|]. intros s S. exists 0. unfold c_step. cbn [c_phase cst c_name c_quote c_value Z.eqb]. change (is_sep s) with (separator s). rewrite S.
    rewrite <- (insert_out sc CValue (i_name i) v 0 out). reflexivity.
  - destruct V as (Q & N & VL & R). change (bs "=") with [ch "="]. cbn [app run]. rewrite c_step_eq. rewrite run_app, run_blanks_value. cbn [app run].
    assert (E : c_step sc (cst CValue (i_name i) [] 0 out) q0 = (true, cst CValue (i_name i) [] q0 out)) by (destruct Q as [-> | ->]; reflexivity). rewrite E.
    rewrite run_app, run_in_quotes by (auto; cbn; lia). cbn [app run].
    assert (E2 : c_step sc (cst CValue (i_name i) v q0 out) q0 = (true, cst CIgnore [] [] q0 (c_insert sc (cst CValue (i_name i) v q0 out)))).
    { unfold c_step. cbn [c_phase cst c_quote]. replace (q0 =? 0) with false by lia. rewrite Z.eqb_refl. reflexivity. }
    rewrite E2, run_ignored by exact R. rewrite insert_out. eexists. split; [reflexivity|]. split; [rewrite insert_out; cbn; apply app_nil_r|].
    intros s S. exists q0. unfold c_step. cbn [c_phase cst]. change (is_sep s) with (separator s). rewrite S. reflexivity.
Qed.
Lemma run_more sc l : Forall (fun p => separator (fst p) = true /\ item_ok (snd p)) l -> forall st out, c_insert sc st = out -> (forall s, separator s = true -> exists q, c_step sc st s = (true, cst CName [] [] q out)) ->
  exists st', run (c_step sc) st (more_text l) = (true, st') /\ c_insert sc st' = out ++ concat (map (fun p => told sc (snd p)) l).
Proof.
  induction 1 as [|[s i] l [S I] F IH]; intros st out O H; [exists st; cbn; rewrite app_nil_r; auto|]. cbn [fst snd] in *. cbn [more_text run map concat snd].
  destruct (H s S) as (q & ->). destruct (run_item sc q i out I) as (st1 & E & O1 & H1). rewrite run_app, E. destruct (IH st1 _ O1 H1) as (st2 & E2 & O2). exists st2. split; [exact E2|]. rewrite O2, app_assoc. reflexivity.
Qed.

(** Cookies in any of these forms, separated by semicolons or commas, are told as they are, in order; nothing else is. *)
Theorem C13_any_form : forall sc first more, item_ok first -> Forall (fun p => separator (fst p) = true /\ item_ok (snd p)) more ->
  parse_cookie_header sc (item_text first ++ more_text more) = (true, told sc first ++ concat (map (fun p => told sc (snd p)) more)).
Proof.
  intros sc first more I F. unfold parse_cookie_header. change c_init with (cst CName [] [] 0 []). destruct (run_item sc 0 first [] I) as (st & E & O & H). rewrite run_app, E.
  destruct (run_more sc more F st _ O H) as (st' & E' & O'). rewrite E', O'. reflexivity.
Qed.
Print Assumptions C13_any_form.
(** Commas, blanks, both quotes, a missing value, an attribute and nothing between two separators. *)
Example C13_any_form_case :
  let first := mkitem 1 (bs "a") (Plain 0 (bs "1")) in
  let more := [(44, mkitem 2 (bs "b") (Quoted 1 39 (bs "x;y") (bs " z"))); (59, mkitem 0 [] Missing); (59, mkitem 1 (bs "PATH") (Plain 0 (bs "/"))); (44, mkitem 0 (bs "c") Missing)] in
  item_ok first /\ Forall (fun p => separator (fst p) = true /\ item_ok (snd p)) more /\ item_text first ++ more_text more = bs " a=1,  b= 'x;y' z;; PATH=/,c" /\
  told true first ++ concat (map (fun p => told true (snd p)) more) = [(bs "a", bs "1"); (bs "b", bs "x;y"); (bs "c", [])] /\
  told false first ++ concat (map (fun p => told false (snd p)) more) = [(bs "a", bs "1"); (bs "b", bs "x;y"); (bs "PATH", bs "/"); (bs "c", [])].
Proof.
  cbn zeta. unfold item_ok, cookie_value_ok. cbn [i_name i_value i_blanks].
  split; [|split; [|vm_compute; auto]].
  - repeat split; try apply bs_bytes; try (vm_compute; discriminate); repeat constructor.
  - repeat (apply Forall_cons; [cbn [fst snd i_name i_value]; split; [reflexivity|]; repeat split; try apply bs_bytes; try (vm_compute; discriminate); try (vm_compute; intuition discriminate); try (repeat constructor; fail); auto|]). constructor.
Qed.
