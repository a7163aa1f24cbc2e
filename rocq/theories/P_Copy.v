(** C156: a copy of a message is as good as the original. *)
From Coq Require Import String ZArith List Bool Lia.
From Verif Require Import Base DictModel HttpModel MessageModel MessageProofs WriterProofs Threads CopyModel.
Import ListNotations.

(** A message is what was done to it: whether it is a request, and the calls. A copy, or the target of an assignment, has had all calls of
    its source, and from then on only its own. *)
Definition life := (bool * list mop)%type.
Definition lives (s : list life) (x : sop) : option (list life) :=
  match x with
  | SNew r => Some (s ++ [(r, [])])
  | SCopy j => match nth_error s j with Some h => Some (s ++ [h]) | None => None end
  | SAssign i j => match nth_error s i, nth_error s j with
                   | Some (r, _), Some (r', l) => if Bool.eqb r r' then Some (set_nth i (r', l) s) else None
                   | _, _ => None
                   end
  | SCall i c => match nth_error s i with Some (r, l) => Some (set_nth i (r, l ++ [c]) s) | None => None end
  end.
Fixpoint all_lives (s : list life) (l : list sop) : option (list life) :=
  match l with [] => Some s | x :: l' => match lives s x with Some s' => all_lives s' l' | None => None end end.
(** the bytes a message sends ([None]: it is not there), with or without its body, on a connection that is kept or not *)
Definition sends (pos : dpos) (keep headers_only : bool) (o : option omsg) : option (outcome (list Z)) :=
  match o with Some o => Some (match msg_send pos o keep headers_only with Ok (t, _) => Ok t | Bad b => Bad b end) | None => None end.
(** a message that had these calls and was never copied *)
Definition alone (pos : dpos) (h : life) : omsg := msg_ops pos (o_new (fst h)) (snd h).

Definition apart (x : sop) : Prop := match x with SAssign i j => i <> j | _ => True end.

Lemma copy_same o : o_copy o = o.
Proof. destruct o as [r [] l c n]. reflexivity. Qed.
Lemma assign_same d o : o_request d = o_request o -> o_assign false d o = o.
Proof. destruct o as [r [] l c n]. intros E. unfold o_assign. rewrite E. reflexivity. Qed.
Lemma op_kind pos o x : o_request (msg_op pos o x) = o_request o.
Proof. apply op_request. Qed.
Lemma alone_kind pos h : o_request (alone pos h) = fst h.
Proof.
  unfold alone, msg_ops. rewrite <- (rev_involutive (snd h)). generalize (rev (snd h)). intros l. induction l as [|x l IH]; [reflexivity|].
  cbn [rev]. rewrite fold_left_app. cbn [fold_left]. rewrite op_kind. exact IH.
Qed.
Lemma nth_map {A B} (f : A -> B) l i : nth_error (map f l) i = match nth_error l i with Some x => Some (f x) | None => None end.
Proof. revert i; induction l as [|x l IH]; intros [|i]; cbn; auto. Qed.
Lemma map_set {A B} (f : A -> B) x : forall i l, map f (set_nth i x l) = set_nth i (f x) (map f l).
Proof. induction i as [|i IH]; intros [|y l]; cbn; auto. f_equal. apply IH. Qed.
Lemma step_alone pos x h : apart x -> s_op pos (map (alone pos) h) x = match lives h x with Some h' => Some (map (alone pos) h') | None => None end.
Proof.
  intros A. destruct x as [r|j|i j|i c]; cbn [s_op lives].
  - rewrite map_app. reflexivity.
  - rewrite nth_map. destruct (nth_error h j) as [k|]; [|reflexivity]. rewrite copy_same, map_app. reflexivity.
  - rewrite !nth_map. destruct (nth_error h i) as [[r l]|]; [|reflexivity]. destruct (nth_error h j) as [[r' l']|]; [|reflexivity]. rewrite !alone_kind. cbn [fst].
    destruct (Bool.eqb r r') eqn:E; [|reflexivity]. apply Bool.eqb_prop in E. cbn in A. destruct (PeanoNat.Nat.eqb_spec i j); [contradiction|].
    rewrite assign_same by (rewrite !alone_kind; exact E). rewrite map_set. reflexivity.
  - rewrite nth_map. destruct (nth_error h i) as [[r l]|]; [|reflexivity]. rewrite map_set. unfold alone. cbn [fst snd]. unfold msg_ops. rewrite fold_left_app. reflexivity.
Qed.
Lemma steps_alone pos l : forall h, Forall apart l -> s_ops pos (map (alone pos) h) l = match all_lives h l with Some h' => Some (map (alone pos) h') | None => None end.
Proof.
  induction l as [|x l IH]; intros h F; [reflexivity|]. inversion F; subst. cbn [s_ops all_lives]. rewrite step_alone by assumption. destruct (lives h x); auto.
Qed.

(** C156. In any program with any number of messages, each message sends what a message sends that had all the calls it had, its source's
    before it was copied included, and was never copied or assigned; calls of one message never show in another.
    Missing: a message assigned to itself ([C156_self_refuted]). *)
Theorem C156_copies_partial pos l h : Forall apart l -> all_lives [] l = Some h ->
  exists s, s_ops pos [] l = Some s /\ length s = length h /\
    forall i keep ho, sends pos keep ho (nth_error s i) = sends pos keep ho (match nth_error h i with Some k => Some (alone pos k) | None => None end).
Proof.
  intros A E. exists (map (alone pos) h). pose proof (steps_alone pos l [] A) as S. cbn [map] in S. rewrite E in S. split; [exact S|]. split; [apply map_length|].
  intros i keep ho. rewrite nth_map. reflexivity.
Qed.
Print Assumptions C156_copies_partial.

(** C156. False: the same for a message assigned to itself. Its content is lost, and what is sent is not determined. *)
Theorem C156_self_refuted : ~ (forall pos l h, all_lives [] l = Some h ->
  exists s, s_ops pos [] l = Some s /\ forall i keep ho, sends pos keep ho (nth_error s i) = sends pos keep ho (match nth_error h i with Some k => Some (alone pos k) | None => None end)).
Proof.
  intros H. destruct (H (fun d _ => length d) [SNew false; SCall 0 (MsgContent (bs "Hi")); SAssign 0 0] [(false, [MsgContent (bs "Hi")])]) as (s & S & K).
  - reflexivity.
  - vm_compute in S. injection S as <-. specialize (K 0%nat true false). vm_compute in K. discriminate.
Qed.
Print Assumptions C156_self_refuted.

(** an answer that is copied, changed, and assigned over the original *)
Definition ex_prog : list sop := [SNew false; SCall 0 (MsgContent (bs "Hi")); SCopy 0; SCall 1 (MsgCode 404); SCall 1 (MsgReason (bs "Not Found")); SCall 0 (MsgContent (bs "Ho")); SNew false; SAssign 2 1].
Example C156_case : Forall apart ex_prog
  /\ all_lives [] ex_prog = Some [(false, [MsgContent (bs "Hi"); MsgContent (bs "Ho")]); (false, [MsgContent (bs "Hi"); MsgCode 404; MsgReason (bs "Not Found")]); (false, [MsgContent (bs "Hi"); MsgCode 404; MsgReason (bs "Not Found")])]
  /\ match s_ops (fun d _ => length d) [] ex_prog with
     | Some s => sends (fun d _ => length d) true false (nth_error s 2) = Some (Ok (bs "HTTP/1.1 404 Not Found" ++ [13; 10] ++ bs "Connection: Keep-Alive" ++ [13; 10] ++ bs "Content-Length: 2" ++ [13; 10; 13; 10] ++ bs "Hi"))
     | None => False
     end.
Proof. vm_compute. repeat split; repeat constructor; discriminate. Qed.
