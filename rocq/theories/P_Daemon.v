(** Property theorems about becoming a daemon: C160. *)
From Coq Require Import ZArith List Bool Lia Arith.
From Verif Require Import Base Threads DaemonModel.
Import ListNotations.
Open Scope Z_scope.

(** what descriptor [i] of a process is *)
Definition fd (t : list (option file)) (i : nat) : option file := match nth_error t i with Some x => x | None => None end.

Lemma fd_set t i x j : (i < length t)%nat -> fd (set_nth i x t) j = if Nat.eqb j i then x else fd t j.
Proof.
  intros L. unfold fd. destruct (Nat.eqb_spec j i) as [-> |N]; [rewrite set_nth_same by auto; reflexivity|]. rewrite set_nth_other by congruence. reflexivity.
Qed.
Lemma fd_out t i : (length t <= i)%nat -> fd t i = None.
Proof. intros L. unfold fd. apply nth_error_None in L. rewrite L. reflexivity. Qed.
Lemma fd_close_eq t i j : fd (fd_close i t) j = if Nat.eqb j i then None else fd t j.
Proof.
  destruct (Nat.ltb_spec i (length t)) as [L|L]; [apply fd_set; auto|]. unfold fd_close.
  destruct (Nat.eqb_spec j i) as [-> |N]; [rewrite fd_out; [reflexivity|rewrite set_nth_length; auto]|]. unfold fd. rewrite set_nth_other by congruence. reflexivity.
Qed.
Lemma close_down_eq n : forall t j, fd (close_down n t) j = if Nat.leb j n then None else fd t j.
Proof.
  induction n as [|n IH]; intros t j; cbn [close_down].
  - rewrite fd_close_eq. destruct j; reflexivity.
  - rewrite IH, fd_close_eq. destruct (Nat.leb_spec j n), (Nat.eqb_spec j (S n)), (Nat.leb_spec j (S n)); try reflexivity; lia.
Qed.
Lemma lowest_eq : forall t n, (forall i, (i < n)%nat -> fd t i <> None) -> fd t n = None -> lowest t = n.
Proof.
  induction t as [|x t IH]; intros n A B.
  - destruct n; [reflexivity|]. exfalso. apply (A O); [lia|reflexivity].
  - destruct n as [|n]; [destruct x; [discriminate B|reflexivity]|]. cbn [lowest]. destruct x as [f|]; [|exfalso; apply (A O); [lia|reflexivity]].
    f_equal. apply IH; [|exact B]. intros i L. apply (A (S i)). lia.
Qed.
Lemma lowest_le t : (lowest t <= length t)%nat.
Proof. induction t as [|[f|] t IH]; cbn; lia. Qed.
Lemma fd_new_eq limit t f n : lowest t = n -> fst (fd_new limit t f) = (if Nat.ltb n limit then Some n else None)
  /\ forall j, fd (snd (fd_new limit t f)) j = if Nat.ltb n limit && Nat.eqb j n then Some f else fd t j.
Proof.
  intros E. unfold fd_new. rewrite E. pose proof (lowest_le t) as L. rewrite E in L. destruct (Nat.ltb n limit); [|auto]. cbn [fst snd andb]. split; auto. intros j.
  destruct (Nat.ltb_spec n (length t)) as [L2|L2]; [apply fd_set; auto|]. assert (n = length t) as -> by lia. unfold fd.
  destruct (Nat.eqb_spec j (length t)) as [-> |N].
  - rewrite nth_error_app2, Nat.sub_diag by lia. reflexivity.
  - destruct (Nat.ltb_spec j (length t)); [rewrite nth_error_app1 by auto; reflexivity|]. rewrite nth_error_app2 by lia.
    destruct (j - length t)%nat as [|k] eqn:K; [lia|]. assert (nth_error t j = None) as -> by (apply nth_error_None; lia). destruct k; reflexivity.
Qed.
Lemma stdio_eq limit t : (forall j, (j <= limit)%nat -> fd t j = None) ->
  forall j, fd (bind_stdio true limit t) j = if Nat.ltb j 3 && Nat.ltb j limit then Some DevNull else fd t j.
Proof.
  intros C j. unfold bind_stdio.
  assert (lowest t = 0%nat) as L0 by (apply lowest_eq; [lia|apply C; lia]). destruct (fd_new_eq limit t DevNull 0 L0) as [A0 B0].
  destruct (fd_new limit t DevNull) as [[i|] t1]; cbn [fst snd] in *.
  2:{ destruct (Nat.ltb_spec 0 limit); [discriminate|]. rewrite B0. cbn [andb]. destruct (Nat.ltb_spec j limit); [lia|]. rewrite andb_false_r. reflexivity. }
  destruct (Nat.ltb_spec 0 limit) as [LM|]; [|discriminate]. cbn [andb] in B0. clear A0 L0.
  assert (lowest t1 = 1%nat) as L1. { apply lowest_eq; [|rewrite B0; apply C; lia]. intros k K. rewrite B0. assert (k = O) as -> by lia. discriminate. }
  destruct (fd_new_eq limit t1 DevNull 1 L1) as [_ B1]. set (t2 := snd (fd_new limit t1 DevNull)) in *. clearbody t2.
  destruct (Nat.ltb_spec 1 limit) as [LM1|LM1]; cbn [andb] in B1.
  - assert (lowest t2 = 2%nat) as L2.
    { apply lowest_eq; [|rewrite B1, B0; apply C; lia]. intros k K. rewrite B1, B0. destruct k as [|[|k]]; [discriminate|discriminate|lia]. }
    destruct (fd_new_eq limit t2 DevNull 2 L2) as [_ B2]. rewrite B2, B1, B0. clear B0 B1 B2 C L1 L2.
    destruct (Nat.ltb_spec 2 limit); destruct j as [|[|[|j]]]; cbn [Nat.eqb andb]; repeat match goal with |- context [Nat.ltb ?a ?b] => destruct (Nat.ltb_spec a b) end; cbn [andb]; try reflexivity; lia.
  - assert (limit = 1%nat) as -> by lia.
    assert (lowest t2 = 1%nat) as L2 by (apply lowest_eq; [|rewrite B1, B0; apply C; lia]; intros k K; rewrite B1, B0; assert (k = O) as -> by lia; discriminate).
    destruct (fd_new_eq 1 t2 DevNull 1 L2) as [_ B2]. rewrite B2, B1, B0. cbn [Nat.ltb Nat.leb andb]. destruct j as [|[|[|j]]]; reflexivity.
Qed.

(** What a daemon is to be: the standard descriptors are the null device, no other is open, and a session is its own. *)
Definition is_daemon (p : proc) : Prop := p_session p = true /\ (forall i, (i < 3)%nat -> fd (p_fds p) i = Some DevNull) /\ forall i, (3 <= i)%nat -> fd (p_fds p) i = None.

(** For every process that is no child of process 1, with whatever descriptors open, none above the limit, if the limit is at least three and the null device can be opened: the caller
    ends with 0 and a process goes on that is a daemon; if there cannot be another process the caller ends with 1. *)
Theorem C160_daemon_partial (fork_ok : bool) limit pid p : p_parent p <> 1 -> (3 <= limit)%nat -> (forall i, (limit < i)%nat -> fd (p_fds p) i = None) ->
  if fork_ok then exists c, daemonize fork_ok true limit pid p = (Exited 0, Some (GoesOn c)) /\ is_daemon c
  else daemonize fork_ok true limit pid p = (Exited 1, None).
Proof.
  intros N L3 C. unfold daemonize. apply Z.eqb_neq in N. rewrite N. destruct fork_ok; [|reflexivity]. eexists. split; [reflexivity|]. unfold child, is_daemon. cbn [p_session p_fds]. split; auto.
  assert (forall j, fd (bind_stdio true limit (close_down limit (p_fds p))) j = if Nat.ltb j 3 then Some DevNull else None) as X.
  { intros j. rewrite stdio_eq by (intros k K; rewrite close_down_eq; apply Nat.leb_le in K; rewrite K; reflexivity). rewrite close_down_eq.
    destruct (Nat.ltb_spec j 3), (Nat.ltb_spec j limit), (Nat.leb_spec j limit); cbn [andb]; try reflexivity; try lia. apply C. lia. }
  split; intros i I; rewrite X; destruct (Nat.ltb_spec i 3); auto; lia.
Qed.
Print Assumptions C160_daemon_partial.
(** Exactly which descriptors the new process has, whatever the limit and whether or not the null device can be opened. *)
Theorem C160_descriptors_partial null_ok limit pid p : p_parent p <> 1 -> exists c, daemonize true null_ok limit pid p = (Exited 0, Some (GoesOn c))
  /\ forall i, fd (p_fds c) i = if Nat.leb i limit then (if null_ok && Nat.ltb i 3 && Nat.ltb i limit then Some DevNull else None) else fd (p_fds p) i.
Proof.
  intros N. unfold daemonize. apply Z.eqb_neq in N. rewrite N. eexists. split; [reflexivity|]. intros i. unfold child. cbn [p_fds]. destruct null_ok.
  - rewrite stdio_eq by (intros k K; rewrite close_down_eq; apply Nat.leb_le in K; rewrite K; reflexivity). rewrite close_down_eq. cbn [andb].
    destruct (Nat.ltb_spec i 3), (Nat.ltb_spec i limit), (Nat.leb_spec i limit); cbn [andb]; try reflexivity; lia.
  - unfold bind_stdio. rewrite close_down_eq. cbn [andb]. reflexivity.
Qed.
Print Assumptions C160_descriptors_partial.
(** Of every file the new process creates, with whatever mode: nobody else may read, write or execute it and the group may not write it; all else is as asked for. *)
Theorem C160_mode_partial null_ok limit pid p c mode k : daemonize true null_ok limit pid p = (Exited 0, Some (GoesOn c)) -> 0 <= k ->
  Z.testbit (created c mode) k = if (k =? 0) || (k =? 1) || (k =? 2) || (k =? 4) then false else Z.testbit mode k.
Proof.
  intros E K. unfold daemonize in E. destruct (p_parent p =? 1); [discriminate E|]. assert (c = child null_ok limit pid p) as -> by congruence. clear E. unfold created, child. cbn [p_umask].
  rewrite Z.land_spec, Z.lnot_spec by lia.
  assert (k = 0 \/ k = 1 \/ k = 2 \/ k = 3 \/ k = 4 \/ 4 < k) as [-> |[-> |[-> |[-> |[-> |H]]]]] by lia; try (rewrite ?andb_false_r, ?andb_true_r; cbn; rewrite ?andb_false_r, ?andb_true_r; reflexivity).
  assert (Z.testbit 23 k = false) as -> by (apply Z.bits_above_log2; [lia|]; change (Z.log2 23) with 4; lia).
  replace (k =? 0) with false by lia. replace (k =? 1) with false by lia. replace (k =? 2) with false by lia. replace (k =? 4) with false by lia. cbn [orb negb]. apply andb_true_r.
Qed.
Print Assumptions C160_mode_partial.

(** After the call what goes on is a daemon: not so for a process whose parent is process 1, ... *)
Definition goes_on (r : after * option after) (q : proc) : Prop := fst r = GoesOn q \/ snd r = Some (GoesOn q).
Definition tty : proc := mkproc 700 false 18 [Some (FileNo 1); Some (FileNo 1); Some (FileNo 1); Some (FileNo 9)].
Theorem C160_parent_refuted : ~ forall fork_ok limit pid p q, (3 <= limit)%nat -> (forall i, (limit < i)%nat -> fd (p_fds p) i = None) -> goes_on (daemonize fork_ok true limit pid p) q -> is_daemon q.
Proof.
  intros H. set (p := mkproc 1 false 18 (p_fds tty)). destruct (H true 3%nat 800 p p) as [X _]; [lia| |left; reflexivity|discriminate X].
  intros i I. apply fd_out. cbn. lia.
Qed.
Print Assumptions C160_parent_refuted.
(** ... if the null device cannot be opened, ... *)
Theorem C160_null_refuted : ~ forall fork_ok null_ok limit pid p q, p_parent p <> 1 -> (3 <= limit)%nat -> (forall i, (limit < i)%nat -> fd (p_fds p) i = None) -> goes_on (daemonize fork_ok null_ok limit pid p) q -> is_daemon q.
Proof.
  intros H. destruct (H true false 3%nat 800 tty (child false 3 800 tty)) as (_ & X & _); [discriminate|lia|intros i I; apply fd_out; cbn; lia|right; reflexivity|].
  specialize (X O ltac:(lia)). discriminate X.
Qed.
Print Assumptions C160_null_refuted.
(** ... and if a descriptor above the limit is open, as it can be if the limit was lowered. *)
Theorem C160_limit_refuted : ~ forall fork_ok limit pid p q, p_parent p <> 1 -> (3 <= limit)%nat -> goes_on (daemonize fork_ok true limit pid p) q -> is_daemon q.
Proof.
  intros H. set (p := mkproc 700 false 18 (p_fds tty ++ [Some (FileNo 4)])). destruct (H true 3%nat 800 p (child true 3 800 p)) as (_ & _ & X); [discriminate|lia|right; reflexivity|].
  specialize (X 4%nat ltac:(lia)). discriminate X.
Qed.
Print Assumptions C160_limit_refuted.
Example C160_case : daemonize true true 5 800 tty = (Exited 0, Some (GoesOn (mkproc 800 true 23 [Some DevNull; Some DevNull; Some DevNull; None])))
  /\ created (mkproc 800 true 23 []) 511 = 488.
Proof. split; reflexivity. Qed.
