(** C135: a look-up finds what was added, however the table grew.

    Names count as equal when they agree in upper case, upper case being what the global locale of the moment says. The hash is computed from upper case too, so names
    that are equal have equal hashes, in every locale. But the table keeps what was computed under the locale at the time of the insertion: a program that sets its
    locale afterwards no longer finds headers whose names have letters the two treat differently. In a Turkish locale, where the upper case of the letter i is another
    letter, headers are not found under their names in capitals. *)
From Coq Require Import String ZArith List Bool Lia Permutation ZifyBool.
From Verif Require Import Base HttpSpec DictModel DictSpec DictProofs HashModel HashSpec HashProofs.
Import ListNotations.

Theorem C135_hash_respects : forall mix up a b, iequal_to up a b = true -> ihash mix up a = ihash mix up b.
Proof. exact hash_equal. Qed.
Print Assumptions C135_hash_respects.
Theorem C135_equivalence : forall up a b c,
  iequal_to up a a = true /\ iequal_to up a b = iequal_to up b a /\ (iequal_to up a b = true -> iequal_to up b c = true -> iequal_to up a c = true).
Proof.
  intros up a b c. unfold iequal_to. split; [apply str_eqb_refl|]. split.
  - destruct (str_eqb (map up a) (map up b)) eqn:E; [apply str_eqb_eq in E; rewrite E; symmetry; apply str_eqb_refl|].
    symmetry. destruct (str_eqb (map up b) (map up a)) eqn:E2; [apply str_eqb_eq in E2; rewrite E2, str_eqb_refl in E; discriminate|reflexivity].
  - intros A B. apply str_eqb_eq in A, B. rewrite A, B. apply str_eqb_refl.
Qed.
Print Assumptions C135_equivalence.

Lemma c_upper_low a b : map c_upper a = map c_upper b <-> same_name a b = true.
Proof.
  rewrite same_name_true. assert (K : forall x y, c_upper x = c_upper y <-> ascii_low x = ascii_low y).
  { intros x y. unfold c_upper, ascii_low. split; intros H; repeat match goal with |- context[if ?b then _ else _] => destruct b eqn:? | H : context[if ?b then _ else _] |- _ => destruct b eqn:? end; lia. }
  revert b. induction a as [|x a IH]; intros [|y b]; cbn [map]; split; intros H; try discriminate; try reflexivity; injection H as H1 H2; f_equal; try (apply K; exact H1); apply IH; exact H2.
Qed.
(** The program never sets a locale: all names, whatever bytes they have. *)
Theorem C135_table : forall mix cached ops, Forall no_locale ops ->
  let (t, up) := h_run mix cached c_upper ops in
  forall name, Permutation (t_range mix cached up t name) (values_after name [] (dict_ops ops)).
Proof.
  intros mix cached ops N. pose proof (table_agrees mix cached (fun _ => True) (fun up => up = c_upper) c_upper) as T.
  specialize (T ltac:(intros up a -> _; reflexivity) ltac:(intros a b _ _; apply c_upper_low) c_upper ops eq_refl).
  destruct (h_run mix cached c_upper ops) as [t up]. intros name. apply T; auto. eapply Forall_impl; [|exact N]. intros []; cbn; tauto.
Qed.
Print Assumptions C135_table.
(** The program sets locales that agree about ASCII, before, between and after: names in ASCII. *)
Theorem C135_ascii_partial : forall mix cached up0 ops, like_c up0 -> Forall names_ascii ops ->
  let (t, up) := h_run mix cached up0 ops in
  forall name, ascii name -> Permutation (t_range mix cached up t name) (values_after name [] (dict_ops ops)).
Proof.
  intros mix cached up0 ops L N. pose proof (table_agrees mix cached ascii like_c c_upper) as T. apply T; [| |exact L|].
  - intros up a G A. unfold ascii in A. induction A as [|c a C A IH]; [reflexivity|]. cbn. rewrite IH, (G c C). reflexivity.
  - intros a b _ _. apply c_upper_low.
  - eapply Forall_impl; [|exact N]. intros []; cbn; tauto.
Qed.
Print Assumptions C135_ascii_partial.

(** [boost::hash_combine] of a 64-bit system *)
Definition combine (seed c : Z) : Z := Z.lxor seed ((c + 0x9e3779b9 + seed * 64 + seed / 4) mod 2 ^ 64).
(** a locale for ISO 8859-1: the letters with accents have capitals *)
Definition latin1 (c : Z) : Z := if (224 <=? c) && (c <=? 254) && negb (c =? 247) then c - 32 else c_upper c.
(** a locale for Turkish, ISO 8859-9 *)
Definition turkish (c : Z) : Z := if c =? 105 then 221 else latin1 c.
(** Under a locale set after the insertion a header is not found, under the very name it was added with. *)
Theorem C135_locale_refuted :
  ~ (forall cached up0 ops, let (t, up) := h_run combine cached up0 ops in
     forall name, Permutation (t_range combine cached up t name) (values_after name [] (dict_ops ops))).
Proof.
  intros H. specialize (H true c_upper [HRehash 6; HAdd (bs "If-Modified-Since") (bs "x"); HLocale turkish]).
  destruct (h_run combine true c_upper _) as [t up] eqn:E. specialize (H (bs "If-Modified-Since")).
  vm_compute in E. injection E as <- <-. vm_compute in H. apply Permutation_nil in H. discriminate.
Qed.
Print Assumptions C135_locale_refuted.
(** So it is when the locale agrees about ASCII and the name is not in ASCII. *)
Theorem C135_not_ascii_refuted :
  ~ (forall cached up0 ops, like_c up0 -> Forall (fun o => match o with HLocale up => like_c up | _ => True end) ops -> let (t, up) := h_run combine cached up0 ops in
     forall name, Permutation (t_range combine cached up t name) (values_after name [] (dict_ops ops))).
Proof.
  intros H. specialize (H true c_upper [HRehash 6; HAdd [233] (bs "x"); HLocale latin1]).
  assert (L : like_c latin1) by (intros c C; unfold latin1; replace (224 <=? c) with false by lia; reflexivity). specialize (H ltac:(intros c C; reflexivity) ltac:(repeat constructor; exact L)).
  destruct (h_run combine true c_upper _) as [t up] eqn:E. specialize (H [233]).
  vm_compute in E. injection E as <- <-. vm_compute in H. apply Permutation_nil in H. discriminate.
Qed.
Print Assumptions C135_not_ascii_refuted.
(** In a Turkish locale, set from the start, a header in small letters is not found under its name in capitals. *)
Theorem C135_turkish_refuted :
  ~ (forall cached up ops, Forall no_locale ops -> let (t, up) := h_run combine cached up ops in
     forall name, ascii name -> Permutation (t_range combine cached up t name) (values_after name [] (dict_ops ops))).
Proof.
  intros H. specialize (H true turkish [HAdd (bs "if-match") (bs "x")] ltac:(repeat constructor)).
  destruct (h_run combine true turkish _) as [t up] eqn:E. specialize (H (bs "IF-MATCH") ltac:(repeat constructor; vm_compute; congruence)).
  vm_compute in E. injection E as <- <-. vm_compute in H. apply Permutation_nil in H. discriminate.
Qed.
Print Assumptions C135_turkish_refuted.
Example C135_case :
  let ops := [HAdd (bs "Cookie") (bs "a=1"); HAdd (bs "Host") (bs "h"); HRehash 12; HAdd (bs "COOKIE") (bs "b=2"); HChange (bs "host") (bs "i"); HRehash 30; HDelete (bs "Date")] in
  let (t, up) := h_run combine true c_upper ops in
  Forall no_locale ops /\ List.length t = 31%nat /\
  t_range combine true up t (bs "cookie") = [bs "a=1"; bs "b=2"] /\ t_range combine true up t (bs "HOST") = [bs "i"] /\ t_range combine true up t (bs "Date") = [] /\
  values_after (bs "cookie") [] (dict_ops ops) = [bs "a=1"; bs "b=2"].
Proof.
  vm_compute. repeat (split; [first [reflexivity | repeat constructor]|]). reflexivity.
Qed.
