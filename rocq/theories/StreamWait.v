(** How an operation of the TCP stream buffer waits for its asynchronous operation:
    include/pion/tcp/stream.hpp:117-125 (flush_output), 152-160 (underflow), 223-231 (xsputn) and 283-290
    (operation_finished): lock, clear the result, start the operation, wait on the condition variable without a predicate,
    use the result; the handler locks, stores the result, notifies and unlocks.  One client thread (a stream buffer is used
    by one thread), any number of threads running handlers. *)
From Coq Require Import List ZArith Lia Bool Arith.
From Verif Require Import Base Runs.
Import ListNotations.
Local Open Scope nat_scope.

(** Where the client is: outside, holding the lock after starting operation [i], waiting on the condition, woken. *)
Inductive cpc := CIdle | CHold (i : nat) | CWait (i : nat) | CWoken (i : nat).
Record wst := { wpc : cpc; wnext : nat; wfly : list nat; whand : option nat; wbytes : Z }.
Definition wst0 : wst := {| wpc := CIdle; wnext := 0; wfly := []; whand := None; wbytes := 0%Z |}.

Inductive wlab :=
| LStart                          (* lock, m_bytes_transferred = 0, async_write / async_read_some: 117-122 *)
| LSleep                          (* m_async_done.wait: releases the lock: 123 *)
| LHandle (i : nat) (n : Z)       (* operation i has finished, its handler locks and stores: 286-288 *)
| LNotify                         (* notify_one and unlock: 289-290 *)
| LWake                           (* the wait ends by itself: allowed for boost::condition *)
| LReturn.                        (* the wait has locked again; the result is used: 124-128 *)

Inductive wev := WStart (i : nat) | WDone (i : nat) (n : Z) | WRet (i : nat) (n : Z).

Definition lock_free (s : wst) : bool :=
  match whand s, wpc s with None, CHold _ => false | None, _ => true | Some _, _ => false end.

Definition wstep (s : wst) (l : wlab) : option (wst * list wev) :=
  match l with
  | LStart =>
      match wpc s with
      | CIdle => if lock_free s
          then Some ({| wpc := CHold (wnext s); wnext := S (wnext s); wfly := wnext s :: wfly s; whand := None; wbytes := 0%Z |},
                     [WStart (wnext s)])
          else None
      | _ => None
      end
  | LSleep =>
      match wpc s with
      | CHold i => Some ({| wpc := CWait i; wnext := wnext s; wfly := wfly s; whand := whand s; wbytes := wbytes s |}, [])
      | _ => None
      end
  | LHandle i n =>
      if existsb (Nat.eqb i) (wfly s) && lock_free s
      then Some ({| wpc := wpc s; wnext := wnext s; wfly := remove Nat.eq_dec i (wfly s); whand := Some i; wbytes := n |}, [WDone i n])
      else None
  | LNotify =>
      match whand s with
      | Some _ =>
          Some ({| wpc := match wpc s with CWait i => CWoken i | p => p end; wnext := wnext s; wfly := wfly s;
                   whand := None; wbytes := wbytes s |}, [])
      | None => None
      end
  | LWake =>
      match wpc s with
      | CWait i => Some ({| wpc := CWoken i; wnext := wnext s; wfly := wfly s; whand := whand s; wbytes := wbytes s |}, [])
      | _ => None
      end
  | LReturn =>
      match wpc s with
      | CWoken i => if lock_free s
          then Some ({| wpc := CIdle; wnext := wnext s; wfly := wfly s; whand := whand s; wbytes := wbytes s |}, [WRet i (wbytes s)])
          else None
      | _ => None
      end
  end.

(** ** The wake-up is not lost *)

Definition w_inv (s : wst) (tr : list wev) : Prop :=
  (forall i, In i (wfly s) -> forall n, ~ In (WDone i n) tr) /\ (forall i, In i (wfly s) -> i < wnext s) /\
  (forall i n, In (WDone i n) tr -> i < wnext s) /\
  match wpc s with
  | CIdle => True
  | CHold i => In i (wfly s) /\ whand s = None
  | CWait i => In i (wfly s) \/ whand s = Some i
  | CWoken i => True
  end.

Lemma w_inv_run ls s tr : run wstep wst0 ls = Some (s, tr) -> w_inv s tr.
Proof.
  apply (run_ind wstep w_inv).
  - repeat split; intros *; cbn; tauto.
  - clear. intros s tr l s' e (I1 & I2 & I3 & I4) H. unfold wstep in H. destruct l.
    + destruct (wpc s) eqn:P; try discriminate. destruct (lock_free s); [|discriminate]. injection H as <- <-.
      unfold w_inv; cbn [wpc wnext wfly whand]. split; [|split; [|split]].
      * intros i [<-|Hi] n Hin; apply in_app_iff in Hin as [Hin|[Hin|[]]]; try discriminate.
        -- apply I3 in Hin. lia.
        -- eapply I1; eauto.
      * intros i [<-|Hi]; [lia|]. apply I2 in Hi. lia.
      * intros i n Hin. apply in_app_iff in Hin as [Hin|[Hin|[]]]; [|discriminate]. apply I3 in Hin. lia.
      * split; auto. left; auto.
    + destruct (wpc s) eqn:P; try discriminate. injection H as <- <-. rewrite app_nil_r.
      unfold w_inv; cbn [wpc wnext wfly whand]. tauto.
    + destruct (existsb (Nat.eqb i) (wfly s)) eqn:X; [|discriminate].
      apply existsb_exists in X as (j & Hj & X). apply Nat.eqb_eq in X. subst j. cbn [andb] in H.
      destruct (lock_free s) eqn:L; [|discriminate]. injection H as <- <-.
      unfold w_inv; cbn [wpc wnext wfly whand]. split; [|split; [|split]].
      * intros j Hr m Hin. apply in_remove in Hr as [Hr Hne]. apply in_app_iff in Hin as [Hin|[Hin|[]]].
        -- eapply I1; eauto.
        -- congruence.
      * intros j Hr. apply in_remove in Hr as [Hr _]. auto.
      * intros j m Hin. apply in_app_iff in Hin as [Hin|[Hin|[]]]; [eauto|]. injection Hin as <- <-. auto.
      * unfold lock_free in L. destruct (whand s) eqn:W; [discriminate|]. destruct (wpc s) as [|k|k|k]; auto; try discriminate.
        destruct I4 as [I4|I4]; [|discriminate]. destruct (Nat.eq_dec k i) as [->|Hne]; auto.
        left. apply in_in_remove; auto.
    + destruct (whand s) eqn:W; [|discriminate]. injection H as <- <-. rewrite app_nil_r.
      unfold w_inv; cbn [wpc wnext wfly whand]. split; [auto|]. split; [auto|]. split; [auto|].
      destruct (wpc s); auto. tauto.
    + destruct (wpc s) eqn:P; try discriminate. injection H as <- <-. rewrite app_nil_r.
      unfold w_inv; cbn [wpc wnext wfly whand]. tauto.
    + destruct (wpc s) eqn:P; try discriminate. destruct (lock_free s) eqn:L; [|discriminate]. injection H as <- <-.
      unfold w_inv; cbn [wpc wnext wfly whand]. split; [|split; [|split]]; auto.
      * intros j Hj m Hin. apply in_app_iff in Hin as [Hin|[Hin|[]]]; [|discriminate]. eapply I1; eauto.
      * intros j m Hin. apply in_app_iff in Hin as [Hin|[Hin|[]]]; [eauto|discriminate].
Qed.

(** ** Without spurious wake-ups the result is the one of the operation *)

Definition w_calm (s : wst) (tr : list wev) : Prop :=
  match wpc s with
  | CIdle => wfly s = [] /\ whand s = None
  | CHold i => wfly s = [i] /\ whand s = None
  | CWait i => (wfly s = [i] /\ whand s = None) \/ (wfly s = [] /\ whand s = Some i /\ In (WDone i (wbytes s)) tr)
  | CWoken i => wfly s = [] /\ whand s = None /\ In (WDone i (wbytes s)) tr
  end /\
  (forall t1 i n t2, tr = t1 ++ WRet i n :: t2 -> In (WDone i n) t1).

Lemma split_snoc (tr t1 t2 : list wev) e x : tr ++ [e] = t1 ++ x :: t2 ->
  (t2 = [] /\ t1 = tr /\ x = e) \/ (exists t3, t2 = t3 ++ [e] /\ tr = t1 ++ x :: t3).
Proof.
  intros H. destruct t2 as [|y t2] using rev_ind.
  - apply app_inj_tail in H as [-> ->]. auto.
  - right. rewrite app_comm_cons, app_assoc in H. apply app_inj_tail in H as [-> ->]. eauto.
Qed.

Lemma w_calm_run ls : forall s tr, run wstep wst0 ls = Some (s, tr) -> ~ In LWake ls -> w_calm s tr.
Proof.
  induction ls as [|l ls IH] using rev_ind; intros s' tr' R Hn.
  - injection R as <- <-. split; [cbn; auto|]. intros [|? ?]; discriminate.
  - apply run_snoc in R as (s & tr & e & R & H & ->).
    assert (~ In LWake ls /\ l <> LWake) as [Hn1 Hn2].
    { split; intros X; apply Hn; apply in_app_iff; [left; auto|right; left; auto]. }
    destruct (IH s tr R Hn1) as [C T]. clear IH R Hn.
    assert (forall ev, e = [ev] -> (forall i n, ev = WRet i n -> In (WDone i n) tr) ->
       forall t1 i n t2, tr ++ e = t1 ++ WRet i n :: t2 -> In (WDone i n) t1) as K.
    { intros ev -> Hev t1 i n t2 X. apply split_snoc in X as [(-> & -> & X) | (t3 & -> & X)]; eauto. }
    assert (e = [] -> forall t1 i n t2, tr ++ e = t1 ++ WRet i n :: t2 -> In (WDone i n) t1) as K0.
    { intros -> t1 i n t2 X. rewrite app_nil_r in X. eauto. }
    unfold wstep in H. destruct l; [| | | |contradiction|].
    + destruct (wpc s) eqn:P; try discriminate. destruct (lock_free s); [|discriminate]. injection H as <- <-.
      unfold w_calm in *. cbn [wpc wfly whand]. destruct C as [-> _]. split; auto.
      eapply K; [reflexivity|]. discriminate.
    + destruct (wpc s) eqn:P; try discriminate. injection H as <- <-.
      unfold w_calm in *. cbn [wpc wfly whand]. split; [left; exact C|exact (K0 eq_refl)].
    + destruct (existsb (Nat.eqb i) (wfly s)) eqn:X; [|discriminate].
      apply existsb_exists in X as (j & Hj & X). apply Nat.eqb_eq in X. subst j. cbn [andb] in H.
      destruct (lock_free s) eqn:L; [|discriminate]. injection H as <- <-.
      unfold w_calm in *. cbn [wpc wfly whand wbytes]. split; [|eapply K; [reflexivity|]; discriminate].
      unfold lock_free in L. destruct (wpc s) as [|k|k|k].
      * destruct C as [C _]. rewrite C in Hj. destruct Hj.
      * destruct C as [_ C]. rewrite C in L. discriminate.
      * destruct C as [[Cf Ch]|[Cf _]]; rewrite Cf in Hj; [|destruct Hj]. destruct Hj as [->|[]].
        right. rewrite Cf. cbn. destruct (Nat.eq_dec i i); [|contradiction]. split; auto. split; auto.
        apply in_app_iff. right; left; auto.
      * destruct C as [C _]. rewrite C in Hj. destruct Hj.
    + destruct (whand s) as [k0|] eqn:W; [|discriminate]. injection H as <- <-.
      unfold w_calm in *. cbn [wpc wfly whand wbytes]. split; [|exact (K0 eq_refl)]. rewrite app_nil_r.
      destruct (wpc s) as [|k|k|k].
      * destruct C; discriminate.
      * destruct C; discriminate.
      * destruct C as [[_ C]|(Cf & Ch & Cd)]; [discriminate|]. auto.
      * destruct C as (_ & C & _); discriminate.
    + destruct (wpc s) as [|k|k|k] eqn:P; try discriminate. destruct (lock_free s) eqn:L; [|discriminate]. injection H as <- <-.
      unfold w_calm in *. cbn [wpc wfly whand wbytes]. destruct C as (Cf & Ch & Cd). split; [auto|].
      eapply K; [reflexivity|]. intros i n X. injection X as <- <-. exact Cd.
Qed.
