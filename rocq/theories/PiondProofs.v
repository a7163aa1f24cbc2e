(** Proofs about the command line of piond. *)
From Coq Require Import String ZArith List Lia Bool.
From Coq Require Import ZifyBool.
From Verif Require Import Base Digits AlgModel PiondModel PiondSpec.
Import ListNotations.
Local Arguments Z.mul : simpl never.
Local Arguments Z.add : simpl never.
Local Arguments Z.sub : simpl never.

Lemma dec_digits_all s : forall a, Forall (fun c => 48 <= c <= 57) s -> dec_digits a s = undigits 10 a (map (fun c => c - 48) s).
Proof.
  induction s as [|c s IH]; intros a H; cbn [dec_digits map undigits]; auto. inversion H; subst. replace ((48 <=? c) && (c <=? 57)) with true by lia. apply IH. auto.
Qed.
Lemma strtoul_print n : 0 <= n -> strtoul (print_dec n) = if n <? two64 then n else two64 - 1.
Proof.
  intros H. pose proof (print_dec_digits n H) as D. pose proof (print_dec_nonempty n) as N. pose proof (print_dec_value n H) as V.
  destruct (print_dec n) as [|c s]; [congruence|]. cbn [strtoul]. pose proof (Forall_inv D) as C. cbn in C. change (ch "-") with 45. change (ch "+") with 43.
  unfold c_isspace. replace ((c =? 32) || (9 <=? c) && (c <=? 13)) with false by lia. replace (c =? 45) with false by lia. replace (c =? 43) with false by lia.
  unfold strtoul_unsigned. rewrite dec_digits_all by exact D. rewrite V. reflexivity.
Qed.
Lemma port_print n : 1 <= n <= 65535 -> port_of (print_dec n) = n.
Proof.
  intros H. unfold port_of. rewrite strtoul_print by lia. unfold two64. replace (n <? 18446744073709551616) with true by lia. rewrite Z.mod_small by lia. replace (n =? 0) with false by lia. reflexivity.
Qed.
Lemma split_joined n v : ~ In (ch "=") n -> split_option (n ++ bs "=" ++ v) = Some (n, v).
Proof.
  induction n as [|c n IH]; intros H; [reflexivity|]. cbn [app split_option]. destruct (c =? ch "=") eqn:E; [elim H; left; lia|]. rewrite IH; [reflexivity|]. intros X. apply H. right. exact X.
Qed.

Definition opt_ok (e : penv) (o : popt) : Prop :=
  match o with
  | OPort n => 1 <= n <= 65535 | OIp a => e_addr e a <> None | ODir d => e_dir e d = true | OOption n v => ~ In (ch "=") n | _ => True
  end.
(** what one option changes *)
Definition apply_opt (e : penv) (o : popt) (c : pcmd) : pcmd :=
  match o with
  | OPort n => set_port n c | OIp a => match e_addr e a with Some x => set_addr x c | None => c end | OConfig f => set_config f c | ODir d => add_dir d c
  | OOption n v => add_opt (n, v) c | OSsl f => set_ssl f c | OVerbose => set_verbose c
  end.
Lemma parse_opt e o c rest : opt_ok e o -> parse_args e c (opt_args o ++ rest) = parse_args e (apply_opt e o c) rest.
Proof.
  destruct o as [n|a|f|d|n v|f|]; intros H; cbn [opt_args app].
  - change (parse_args e c (bs "-p" :: print_dec n :: rest)) with (parse_args e (set_port (port_of (print_dec n)) c) rest). rewrite port_print by exact H. reflexivity.
  - change (parse_args e c (bs "-i" :: a :: rest)) with (match e_addr e a with Some x => parse_args e (set_addr x c) rest | None => Terminated end). cbn in H |- *.
    destruct (e_addr e a); [reflexivity|congruence].
  - reflexivity.
  - change (parse_args e c (bs "-d" :: d :: rest)) with (if e_dir e d then parse_args e (add_dir d c) rest else NoDirectory). cbn in H. rewrite H. reflexivity.
  - change (parse_args e c (bs "-o" :: (n ++ bs "=" ++ v) :: rest)) with (match split_option (n ++ bs "=" ++ v) with Some o => parse_args e (add_opt o c) rest | None => Usage end).
    rewrite split_joined by exact H. reflexivity.
  - reflexivity.
  - destruct rest; reflexivity.
Qed.
Lemma parse_opts e l : forall c rest, Forall (opt_ok e) l -> parse_args e c (typed l ++ rest) = parse_args e (fold_left (fun c o => apply_opt e o c) l c) rest.
Proof.
  induction l as [|o l IH]; intros c rest H; [reflexivity|]. inversion H; subst. unfold typed. cbn [map concat]. rewrite <- app_assoc, parse_opt by auto. apply IH. auto.
Qed.

(** the settings after all options *)
Definition addr_of (e : penv) (a : option (list Z)) : option (list Z) := match a with Some x => e_addr e x | None => None end.
Lemma fields e l : forall c, Forall (opt_ok e) l -> let d := fold_left (fun c o => apply_opt e o c) l c in
  pc_port d = given (pc_port c) (last_given port_given l) /\ pc_addr d = (match last_given ip_given l with Some a => e_addr e a | None => pc_addr c end)
  /\ pc_config d = given (pc_config c) (last_given config_given l) /\ pc_resource d = pc_resource c /\ pc_service d = pc_service c
  /\ pc_ssl d = (match last_given ssl_given l with Some f => Some f | None => pc_ssl c end)
  /\ pc_dirs d = pc_dirs c ++ all_given dir_given l /\ pc_opts d = pc_opts c ++ all_given option_given l.
Proof.
  induction l as [|o l IH]; intros c H; cbn [fold_left last_given]; [cbn; rewrite !app_nil_r; repeat split; reflexivity|].
  inversion H as [|? ? H1 H2]; subst. specialize (IH (apply_opt e o c) H2). cbv zeta in *. destruct IH as (A1 & A2 & A3 & A4 & A5 & A6 & A7 & A8).
  rewrite A1, A2, A3, A4, A5, A6, A7, A8. unfold all_given. cbn [map concat].
  destruct o as [n|a|f|d|n v|f|]; cbn [apply_opt port_given ip_given config_given dir_given option_given ssl_given app];
    try (destruct (e_addr e a) eqn:EA; [|cbn in H1; congruence]); cbn;
    repeat match goal with |- context [last_given ?f ?l] => destruct (last_given f l) end; rewrite <- ?app_assoc; repeat split; auto.
Qed.
Lemma verbose_told e l : forall c, pc_verbose (fold_left (fun c o => apply_opt e o c) l c) = true <-> pc_verbose c = true \/ In OVerbose l.
Proof.
  induction l as [|o l IH]; intros c; cbn [fold_left In]; [tauto|]. rewrite IH.
  destruct o as [n|a|f|d|n v|f|]; cbn [apply_opt]; try (destruct (e_addr e a)); cbn; split; intros H; repeat (destruct H as [H|H]); try discriminate; auto.
Qed.
Lemma plain_option s : plain s -> is_option s = false /\ is_nil s = false.
Proof. intros (c & s0 & -> & H). cbn. split; [apply Z.eqb_neq; exact H|reflexivity]. Qed.
Lemma parse_named e c r s : plain r -> plain s -> parse_args e c [r; s] = Run (set_service s (set_resource r c)).
Proof. intros R S. cbn [parse_args]. rewrite (proj1 (plain_option r R)), (proj1 (plain_option s S)). reflexivity. Qed.

Lemma exec_all throws l : (forall x, In x l -> throws x = false) -> exec throws l = l.
Proof. induction l as [|x l IH]; intros H; [reflexivity|]. cbn. rewrite (H x) by (left; reflexivity). f_equal. apply IH. intros y I. apply H. right. exact I. Qed.
Lemma exec_prefix throws l : exists rest, l = exec throws l ++ rest /\ (rest = [] \/ exists x r, rest = x :: r /\ throws x = true).
Proof.
  induction l as [|x l IH]; [exists []; auto|]. cbn. destruct (throws x) eqn:E; [exists (x :: l); split; [reflexivity|right; eauto]|].
  destruct IH as (rest & A & B). exists rest. split; [cbn; congruence|exact B].
Qed.
