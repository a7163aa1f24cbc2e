(** Properties of the TCP stream: C67 (output), C68 (output after an error), C69 (input). *)
From Coq Require Import String ZArith List Lia Bool.
From Verif Require Import Base StreamModel StreamSpec StreamProofs StreamInput.
Import ListNotations.

(** ** C67 *)

(** As long as no write of the connection fails, every call succeeds, what the connection has taken together with at
    most 8191 bytes still held back is exactly what was written, in order; after a flush nothing is held back. *)
Theorem C67_output : forall junk rs ops, zlen junk = 8192 -> Forall (eq WOk) rs ->
  exists res s, o_run (o_init junk rs) ops = Fine (res, s) /\
    Forall2 (fun o r => match o, r with
                        | OPut _, RPut ok => ok = true
                        | OWrite d, RWrite n => n = zlen d
                        | OSync, RSync ok => ok = true
                        | _, _ => False
                        end) ops res /\
    (exists held, owire s ++ held = concat (map payload ops) /\ zlen held <= 8191) /\
    (forall ops', ops = ops' ++ [OSync] -> owire s = concat (map payload ops)).
Proof.
  intros junk rs ops Hj Hr.
  destruct (o_run_ok ops (o_init junk rs) [] (o_init_holds junk rs Hj) Hr) as (res & s & E & F & [Hb Hw] & Hl).
  exists res, s. split; auto. split; [exact F|]. cbn [app] in Hw. split.
  - exists (slice (omem s) 0 (opp s)). split; auto. destruct Hb as [Hm Hp]. unfold epp, WRITE_BUFFER_SIZE in *.
    rewrite zlen_slice by lia. lia.
  - intros ops' X. specialize (Hl ops' X). rewrite <- Hw, Hl, slice_nil, app_nil_r. reflexivity.
Qed.
Print Assumptions C67_output.

(** Whatever the connection does: up to and including the first call that reports a failure, the connection has
    received a prefix of what was written and no call leaves the buffers. *)
Theorem C67_prefix : forall junk rs ops, zlen junk = 8192 ->
  (exists res s, o_run (o_init junk rs) ops = Fine (res, s) /\ Forall2 o_good ops res /\
     prefix_of (owire s) (concat (map payload ops)) /\
     zlen (concat (map payload ops)) <= zlen (owire s) + 8191) \/
  (exists ops1 o ops2 res1 r s, ops = ops1 ++ o :: ops2 /\ o_run (o_init junk rs) (ops1 ++ [o]) = Fine (res1 ++ [r], s) /\
     Forall2 o_good ops1 res1 /\ ~ o_good o r /\ prefix_of (owire s) (concat (map payload (ops1 ++ [o])))).
Proof.
  intros junk rs ops Hj.
  destruct (o_run_spec ops (o_init junk rs) [] (o_init_holds junk rs Hj))
    as [(res & s & E & F & [Hb Hw]) | (ops1 & o & ops2 & rs1 & s1 & r & s2 & -> & E1 & F & Hh1 & E2 & Hg & Ha)].
  - left. exists res, s. cbn [app] in Hw. split; auto. split; auto. split.
    + exists (slice (omem s) 0 (opp s)). auto.
    + rewrite <- Hw, zlen_app. destruct Hb as [Hm Hp]. unfold epp, WRITE_BUFFER_SIZE in *. rewrite zlen_slice by lia. lia.
  - right. exists ops1, o, ops2, rs1, r, s2. split; auto. split.
    + rewrite o_run_app, E1. cbn [abind o_run]. rewrite E2. reflexivity.
    + split; auto. split; auto. destruct Ha as [(? & _) | (_ & Hp & _)]; [contradiction|].
      rewrite map_app, concat_app. cbn [map concat]. rewrite app_nil_r. exact Hp.
Qed.
Print Assumptions C67_prefix.

(** After a write that failed half-way (for example one that was cancelled) going on is not safe: although the flush is
    repeated and succeeds, the connection gets wrong bytes: some twice, some never. *)
Theorem C67_retry_refuted : exists junk rs ops res s, zlen junk = 8192 /\
  o_run (o_init junk rs) (ops ++ [OSync]) = Fine (res ++ [RSync true], s) /\
  concat (map payload ops) = bs "abcde" /\ owire s = bs "ababc".
Proof.
  exists (repeat 0 (Z.to_nat 8192)), [WFail 2], [OWrite (bs "abcde"); OSync]. eexists [_; _]; eexists. split; [vm_compute; reflexivity|].
  split; [vm_compute; reflexivity|]. split; vm_compute; reflexivity.
Qed.
Print Assumptions C67_retry_refuted.

(** A block larger than the buffer behind a character, then a small one and a flush. *)
Example C67_case : exists res s,
  o_run (o_init (repeat 0 (Z.to_nat 8192)) []) [OPut 1; OWrite (repeat 2 (Z.to_nat 20000)); OWrite [3; 4]; OPut 5; OSync]
    = Fine (res, s) /\ res = [RPut true; RWrite 20000; RWrite 2; RPut true; RSync true] /\
  str_eqb (owire s) (1 :: repeat 2 (Z.to_nat 20000) ++ [3; 4; 5]) = true.
Proof. eexists; eexists; split; [vm_compute; reflexivity|]. split; vm_compute; reflexivity. Qed.

(** ** C68 *)

(** The full claim does not hold: after a failed sputc at a full buffer the next one stores outside the buffer. *)
Definition C68_claim : Prop := forall junk rs ops, zlen junk = 8192 -> o_run (o_init junk rs) ops <> Outside.

Theorem C68_error_refuted : ~ C68_claim.
Proof.
  intros H. apply (H (repeat 0 (Z.to_nat 8192)) [WFail 0] [OWrite (repeat 7 (Z.to_nat 8191)); OPut 8; OPut 9]);
    vm_compute; reflexivity.
Qed.
Print Assumptions C68_error_refuted.

(** ... and a block write reads the byte in front of the caller's array. *)
Theorem C68_source_refuted : exists junk rs ops d s res, zlen junk = 8192 /\
  o_run (o_init junk rs) ops = Fine (res, s) /\ d <> [] /\ o_step s (OWrite d) = Outside /\
  (exists s', flush_output s = Fine (false, s')).
Proof.
  exists (repeat 0 (Z.to_nat 8192)), [WFail 0], [OWrite (repeat 7 (Z.to_nat 8191)); OPut 8], [9]. eexists; eexists.
  split; [vm_compute; reflexivity|]. split; [vm_compute; reflexivity|]. split; [discriminate|].
  split; [vm_compute; reflexivity|]. eexists; vm_compute; reflexivity.
Qed.
Print Assumptions C68_source_refuted.

(** What holds: a call that leaves the buffers is a write, and before it a sputc failed and since then no call
    succeeded. So a client that stops writing after a failed sputc until a flush succeeds never leaves the buffers,
    whatever fails; and one that only writes blocks and flushes never does. *)
Theorem C68_error_partial : forall junk rs ops, zlen junk = 8192 -> o_run (o_init junk rs) ops = Outside ->
  exists ops1 c ops2 o ops3 res1 res2 s, ops = (ops1 ++ OPut c :: ops2) ++ o :: ops3 /\ o <> OSync /\
    o_run (o_init junk rs) (ops1 ++ OPut c :: ops2) = Fine (res1 ++ RPut false :: res2, s) /\
    length res1 = length ops1 /\ Forall (fun r => r = RSync false \/ r = RWrite 0) res2.
Proof.
  intros junk rs ops Hj Ho.
  destruct (o_outside ops [] [] (o_init junk rs) (o_init junk rs) eq_refl) as (opsA & o & ops3 & rs1 & s1 & -> & Hn & E & Hst & _).
  - left. apply (o_init_holds junk rs Hj).
  - auto.
  - cbn [app] in *. destruct Hst as (ops1 & res1 & c & ops2 & res2 & -> & -> & Hl & HF).
    exists ops1, c, ops2, o, ops3, res1, res2, s1. auto 10.
Qed.
Print Assumptions C68_error_partial.

Corollary C68_blocks_partial : forall junk rs ops, zlen junk = 8192 -> (forall c, ~ In (OPut c) ops) ->
  o_run (o_init junk rs) ops <> Outside.
Proof.
  intros junk rs ops Hj Hn Ho. destruct (C68_error_partial junk rs ops Hj Ho)
    as (ops1 & c & ops2 & o & ops3 & res1 & res2 & s & -> & _). apply (Hn c). rewrite !in_app_iff. left; right; left; auto.
Qed.
Print Assumptions C68_blocks_partial.

(** A failed sputc, a failed flush, a successful flush, and the stream is usable again. *)
Example C68_case : exists res s,
  o_run (o_init (repeat 0 (Z.to_nat 8192)) [WFail 0; WFail 1; WOk])
    [OWrite (repeat 7 (Z.to_nat 8191)); OPut 8; OSync; OSync; OPut 9; OSync] = Fine (res, s) /\
  res = [RWrite 8191; RPut false; RSync false; RSync true; RPut true; RSync true] /\ opp s = 0.
Proof. eexists; eexists; split; [vm_compute; reflexivity|]. split; vm_compute; reflexivity. Qed.

(** ** C69 *)

(** For every segmentation of the input, all errors and every sequence of calls: no call leaves the buffer, and the
    results are those the specification of StreamSpec.v allows: reads give exactly the bytes that arrive, in order, end of
    file exactly where the connection reports an error, waiting only when the input at hand is used up; and until the
    first error at least ten characters behind the furthest one read can be put back. *)
Theorem C69_input_partial : forall junk es ops, zlen junk = 8192 ->
  Forall (fun e => match e with Got d => 1 <= zlen d <= 8182 | RErr => True end) es ->
  exists vs s es', i_run (i_init junk) es ops = Some (vs, s, es') /\ served false [] (arriving es) 0 ops vs.
Proof.
  intros junk es ops Hj F. pose proof (i_init_inv junk es Hj) as I.
  assert (Forall rev_ok es) as F' by exact F.
  pose proof (i_run_safe ops (i_init junk) es (proj1 I) F') as Hs.
  destruct (i_run (i_init junk) es ops) as [[[vs s] es']|] eqn:E; [|contradiction].
  exists vs, s, es'. split; auto. eapply i_run_served; eauto.
Qed.
Print Assumptions C69_input_partial.

(** Only reading: the bytes handed out, in order, are a prefix of the bytes received. *)
Definition taken_by (o : iop) (v : ival) : list Z :=
  match o, v with IGet, VChar (Some c) => [c] | IRead _, VStr d => d | _, _ => [] end.
Fixpoint taken (ops : list iop) (vs : list ival) : list Z :=
  match ops, vs with o :: ops, v :: vs => taken_by o v ++ taken ops vs | _, _ => [] end.
Definition bytes_of (f : list (option Z)) : list Z := flat_map (fun x => match x with Some c => [c] | None => [] end) f.

Lemma bytes_of_app f g : bytes_of (f ++ g) = bytes_of f ++ bytes_of g.
Proof. unfold bytes_of. apply flat_map_app. Qed.
Lemma bytes_of_some d : bytes_of (map Some d) = d.
Proof. unfold bytes_of. induction d; cbn [map flat_map app]; congruence. Qed.

Lemma served_prefix b p f h ops vs : served b p f h ops vs ->
  (forall o, In o ops -> o <> IUnget /\ forall w, o <> IPutBack w) -> prefix_of (taken ops vs) (bytes_of f).
Proof.
  intros S. induction S; intros Hn; cbn [taken taken_by];
    try (match goal with |- prefix_of [] _ => eexists; reflexivity end);
    try (exfalso; match goal with
      | H : forall o, In o (IUnget :: _) -> _ |- _ => apply (proj1 (H IUnget (or_introl eq_refl))); reflexivity
      | H : forall o, In o (IPutBack ?w :: _) -> _ |- _ => apply (proj2 (H (IPutBack w) (or_introl eq_refl)) w); reflexivity
      end);
    try (assert (prefix_of (taken ops vs) (bytes_of f)) as P by (apply IHS; intros o Ho; apply Hn; right; exact Ho)).
  - apply IHS. intros o Ho; apply Hn; right; exact Ho.
  - cbn [app]. exact P.
  - change (bytes_of (Some c :: f)) with ([c] ++ bytes_of f). apply prefix_app, P.
  - exact P.
  - rewrite bytes_of_app, bytes_of_some. apply prefix_app, P.
  - rewrite bytes_of_app, bytes_of_some. apply prefix_app, P.
  - exfalso. destruct (Hn o (or_introl eq_refl)) as [A B]. destruct H as [->|[w ->]]; [apply A|apply (B w)]; reflexivity.
Qed.

Corollary C69_bytes_partial : forall junk es ops vs s es', zlen junk = 8192 ->
  Forall (fun e => match e with Got d => 1 <= zlen d <= 8182 | RErr => True end) es ->
  (forall o, In o ops -> o <> IUnget /\ forall w, o <> IPutBack w) ->
  i_run (i_init junk) es ops = Some (vs, s, es') ->
  prefix_of (taken ops vs) (concat (map (fun e => match e with Got d => d | RErr => [] end) es)).
Proof.
  intros junk es ops vs s es' Hj F Hn E.
  destruct (C69_input_partial junk es ops Hj F) as (vs1 & s1 & es1 & E1 & S).
  rewrite E in E1. injection E1 as <- <- <-.
  pose proof (served_prefix _ _ _ _ _ _ S Hn) as P.
  assert (bytes_of (arriving es) = concat (map (fun e => match e with Got d => d | RErr => [] end) es)) as <-; auto.
  clear. unfold arriving. induction es as [|[d|] es IH]; cbn [map concat]; auto.
  rewrite bytes_of_app, bytes_of_some, IH. reflexivity.
Qed.
Print Assumptions C69_bytes_partial.

(** After an error putting back can give wrong characters: the bytes were moved although the pointers were not.
    "abcde" and "xy" are read, the end of the stream is reported, three characters are put back: the third one should be
    the e. *)
Theorem C69_putback_refuted : exists junk es ops vs s es', zlen junk = 8192 /\
  es = [Got (bs "abcde"); Got (bs "xy"); RErr] /\ ops = [IRead 7; IGet; IUnget; IUnget; IUnget] /\
  i_run (i_init junk) es ops = Some (vs, s, es') /\
  vs = [VStr (bs "abcdexy"); VChar None; VChar (Some (ch "y")); VChar (Some (ch "x")); VChar (Some (ch "y"))].
Proof.
  exists (repeat 0 (Z.to_nat 8192)). eexists; eexists; eexists; eexists; eexists.
  split; [vm_compute; reflexivity|]. split; [reflexivity|]. split; [reflexivity|].
  split; [vm_compute; reflexivity|]. vm_compute; reflexivity.
Qed.
Print Assumptions C69_putback_refuted.

(** Two segments, a look ahead, a block read across the border and three characters put back. *)
Example C69_case : exists s es', i_run (i_init (repeat 0 (Z.to_nat 8192))) [Got (bs "abc"); Got (bs "defg")]
    [IPeek; IRead 5; IUnget; IPutBack (ch "d"); IUnget; IRead 4; IRead 2] =
  Some ([VChar (Some (ch "a")); VStr (bs "abcde"); VChar (Some (ch "e")); VChar (Some (ch "d")); VChar (Some (ch "c"));
         VStr (bs "cdef")], s, es') /\ es' = [].
Proof. eexists; eexists; split; [vm_compute; reflexivity|]. reflexivity. Qed.

(** ** C100 *)
From Verif Require Import Runs StreamWait.

(** A result that has arrived is never missed: as soon as the operation of a call has finished, the call returns after the
    two steps that are left (wake, return), in every execution, with or without spurious wake-ups. *)
Theorem C100_not_missed : forall ls s tr i, run wstep wst0 ls = Some (s, tr) ->
  (wpc s = CHold i \/ wpc s = CWait i \/ wpc s = CWoken i) -> (exists n, In (WDone i n) tr) ->
  exists ls' s' tr' n, run wstep s ls' = Some (s', tr') /\ In (WRet i n) tr' /\
    Forall (fun l => l = LNotify \/ l = LReturn) ls'.
Proof.
  intros ls s tr i R Hpc [n Hd]. destruct (w_inv_run ls s tr R) as (I1 & I2 & I3 & I4).
  destruct Hpc as [P|[P|P]]; rewrite P in I4.
  - destruct I4 as [Hi _]. exfalso. eapply I1; eauto.
  - destruct I4 as [Hi|Hh]; [exfalso; eapply I1; eauto|].
    exists [LNotify; LReturn]. eexists; eexists; eexists. cbn [run wstep]. rewrite Hh, P. cbn [wpc whand lock_free].
    unfold lock_free; cbn [wpc whand]. split; [reflexivity|]. cbn [app]. split; [left; reflexivity|]. repeat (apply Forall_cons; [tauto|]); apply Forall_nil.
  - destruct (whand s) as [j|] eqn:W.
    + exists [LNotify; LReturn]. eexists; eexists; eexists. cbn [run wstep]. rewrite W, P. cbn [wpc whand].
      unfold lock_free; cbn [wpc whand]. split; [reflexivity|]. cbn [app]. split; [left; reflexivity|]. repeat (apply Forall_cons; [tauto|]); apply Forall_nil.
    + exists [LReturn]. eexists; eexists; eexists. cbn [run wstep]. rewrite P. unfold lock_free. rewrite W, P.
      split; [reflexivity|]. cbn [app]. split; [left; reflexivity|]. repeat (apply Forall_cons; [tauto|]); apply Forall_nil.
Qed.
Print Assumptions C100_not_missed.

(** The full claim, a call returns only after its operation has finished and with its result, does not hold: *)
Definition C100_claim : Prop := forall ls s tr, run wstep wst0 ls = Some (s, tr) ->
  forall t1 i n t2, tr = t1 ++ WRet i n :: t2 -> In (WDone i n) t1.

(** a spurious wake-up ends the wait while the operation is still running; *)
Theorem C100_waits_refuted : ~ C100_claim.
Proof.
  intros H.
  assert (exists s, run wstep wst0 [LStart; LSleep; LWake; LReturn] = Some (s, [WStart 0; WRet 0 0%Z])) as [s R].
  { eexists. vm_compute. reflexivity. }
  specialize (H _ _ _ R [WStart 0] 0%nat 0%Z [] eq_refl). destruct H as [H|[]]. discriminate.
Qed.
Print Assumptions C100_waits_refuted.

(** without spurious wake-ups it holds. *)
Theorem C100_waits_partial : forall ls s tr, run wstep wst0 ls = Some (s, tr) -> ~ In LWake ls ->
  forall t1 i n t2, tr = t1 ++ WRet i n :: t2 -> In (WDone i n) t1.
Proof. intros ls s tr R Hn. exact (proj2 (w_calm_run ls s tr R Hn)). Qed.
Print Assumptions C100_waits_partial.

(** A later call can even be given the result of an earlier one. *)
Example C100_case : exists s, run wstep wst0
    [LStart; LSleep; LWake; LReturn; LStart; LSleep; LHandle 0 5; LNotify; LReturn] =
  Some (s, [WStart 0; WRet 0 0%Z; WStart 1; WDone 0 5; WRet 1 5%Z]).
Proof. eexists. vm_compute. reflexivity. Qed.
Example C100_case2 : exists s, run wstep wst0
    [LStart; LSleep; LHandle 0 5; LNotify; LReturn; LStart; LSleep; LHandle 1 6; LNotify; LReturn] =
  Some (s, [WStart 0; WDone 0 5; WRet 0 5%Z; WStart 1; WDone 1 6; WRet 1 6%Z]).
Proof. eexists. vm_compute. reflexivity. Qed.
