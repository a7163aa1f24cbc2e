(** C164: entries that several threads log at once. *)
From Coq Require Import String ZArith List Bool Lia.
From Verif Require Import Base Threads Digits TestModel.
Import ListNotations.

(** ** What the claims say *)
(** an entry as a thread logs it: one start, any number of values, one finish *)
Record entry := mke { e_kind : nat; e_file : list Z; e_line : Z; e_values : list (list Z) }.
Definition calls_of (e : entry) : list call := LStart (e_kind e) (e_file e) (e_line e) :: map LValue (e_values e) ++ [LFinish].
Definition name_of (kind : nat) : list Z :=
  match kind with
  | 0 => bs "Info" | 1 => bs "Message" | 2 => bs "Warning" | 3 => bs "Error" | 4 => bs "FatalError" | _ => []
  end%nat.
Definition escaped (c : Z) : list Z :=
  if c =? 34 then bs "&quot;" else if c =? 38 then bs "&amp;" else if c =? 39 then bs "&apos;" else if c =? 60 then bs "&lt;" else if c =? 62 then bs "&gt;" else [c].
Definition head_of (e : entry) : list Z :=
  bs "<" ++ name_of (e_kind e) ++ bs " file=" ++ [34] ++ flat_map escaped (e_file e) ++ [34] ++ bs " line=" ++ [34] ++ print_dec (e_line e) ++ [34] ++ bs "><![CDATA[".
Definition tail_of (e : entry) : list Z := bs "]]></" ++ name_of (e_kind e) ++ bs ">" ++ [10].
(** the whole text of an entry *)
Definition text_of (e : entry) : list Z := head_of e ++ concat (e_values e) ++ tail_of e.
(** the text of an entry of which [k] values are written *)
Definition open_text (o : option (nat * entry * nat)) : list Z :=
  match o with None => [] | Some (_, e, k) => head_of e ++ concat (firstn k (e_values e)) end.
(** the entries of thread [i] among those logged *)
Definition by_thread (i : nat) (h : list (nat * entry)) : list entry := map snd (filter (fun p => Nat.eqb (fst p) i) h).
Definition open_by (i : nat) (o : option (nat * entry * nat)) : list entry :=
  match o with Some (j, e, _) => if Nat.eqb j i then [e] else [] | None => [] end.
(** the threads have made all their calls *)
Definition all_done (x : tlog) : Prop := forall i t, nth_error (x_threads x) i = Some t -> t_calls t = [].

(** ** Invariant *)
Lemma escape_same : forall f, concat (map xml_escape f) = flat_map escaped f.
Proof.
  intros f. rewrite flat_map_concat_map. f_equal. apply map_ext. intros c. unfold xml_escape, escaped.
  destruct (Z.eqb_spec c 60) as [->|]; [reflexivity|]. destruct (Z.eqb_spec c 62) as [->|]; [reflexivity|].
  destruct (Z.eqb_spec c 38) as [->|]; [reflexivity|]. destruct (Z.eqb_spec c 39) as [->|]; [reflexivity|]. reflexivity.
Qed.
Lemma tag_same : forall k, xml_tag k = name_of k.
Proof. intros k. do 5 (destruct k as [|k]; [reflexivity|]). destruct k; reflexivity. Qed.
(** what a thread has still to do, given the entry that is open *)
Definition rest_calls (i : nat) (o : option (nat * entry * nat)) (rest : list entry) : list call :=
  match o with
  | Some (j, e, k) => if Nat.eqb j i then map LValue (skipn k (e_values e)) ++ LFinish :: flat_map calls_of rest else flat_map calls_of rest
  | None => flat_map calls_of rest
  end.
Record inv (progs : list (list entry)) (x : tlog) (h : list (nat * entry)) (o : option (nat * entry * nat)) : Prop := mkinv {
  i_out : f_out (x_fmt x) = flat_map (fun p => text_of (snd p)) h ++ open_text o;
  i_busy : f_busy (x_fmt x) = match o with Some _ => true | None => false end;
  i_tag : match o with Some (_, e, _) => f_tag (x_fmt x) = name_of (e_kind e) | None => True end;
  i_len : List.length (x_threads x) = List.length progs;
  i_own : match o with Some (j, e, k) => (j < List.length progs)%nat /\ (k <= List.length (e_values e))%nat | None => True end;
  i_hist : forall i e, In (i, e) h -> (i < List.length progs)%nat;
  i_thr : forall i t, nth_error (x_threads x) i = Some t ->
    exists rest, nth i progs [] = by_thread i h ++ open_by i o ++ rest /\ t_calls t = rest_calls i o rest
      /\ (t_asleep t = true -> match o with Some (j, _, _) => j <> i | None => False end) }.

Lemma inv_begin : forall progs, inv progs (t_begin (map (flat_map calls_of) progs)) [] None.
Proof.
  intros progs. constructor; simpl; auto.
  - rewrite !map_length. reflexivity.
  - intros i e [].
  - intros i t H. rewrite map_map, nth_error_map in H. destruct (nth_error progs i) as [p|] eqn:E; [|discriminate].
    injection H as <-. exists p. simpl. split; [apply nth_error_nth; exact E|]. split; [reflexivity | discriminate].
Qed.
Lemma by_thread_snoc : forall i h j e, by_thread i (h ++ [(j, e)]) = by_thread i h ++ (if Nat.eqb j i then [e] else []).
Proof. intros i h j e. unfold by_thread. rewrite filter_app, map_app. simpl. destruct (Nat.eqb j i); reflexivity. Qed.
Lemma skipn_next {A} : forall k (l : list A) x r, skipn k l = x :: r -> firstn (S k) l = firstn k l ++ [x] /\ skipn (S k) l = r /\ (S k <= List.length l)%nat.
Proof.
  induction k as [|k IH]; intros [|y l] x r H; simpl in H; try discriminate.
  - injection H as -> ->. simpl. split; [reflexivity|]. split; [reflexivity | lia].
  - destruct (IH l x r H) as (E1 & E2 & L). split; [simpl in *; f_equal; exact E1 | split; [exact E2 | simpl; lia]].
Qed.
Lemma inv_step : forall progs a x h o, inv progs x h o -> exists h' o', inv progs (t_step a x) h' o'.
Proof.
  intros progs [i|i] x h o [IO IB IT IL IW IH IR]; unfold t_step.
  2: { destruct (nth_error (x_threads x) i) as [t|] eqn:E; [|exists h, o; constructor; assumption].
    exists h, o. constructor; simpl; auto; [rewrite set_nth_length; exact IL|].
    intros j t' H. apply set_nth_cases in H. destruct H as [(-> & -> & _)|(_ & H)]; [|apply IR; exact H].
    destruct (IR i t E) as (rest & R1 & R2 & _). exists rest. simpl. repeat split; auto. discriminate. }
  destruct (nth_error (x_threads x) i) as [[[|c rest] [|]]|] eqn:E; try (exists h, o; constructor; assumption).
  destruct (IR i _ E) as (es & R1 & R2 & _). simpl in R2.
  assert (LI : (i < List.length progs)%nat) by (rewrite <- IL; apply (nth_lt _ _ _ E)).
  destruct c as [kind file line|v|].
  - (* start *)
    rewrite IB. destruct o as [[[j e] k]|].
    + (* another has the entry *)
      exists h, (Some (j, e, k)). constructor; simpl; auto; [rewrite set_nth_length; exact IL|].
      intros i' t' H. apply set_nth_cases in H. destruct H as [(-> & -> & _)|(_ & H)]; [|apply IR; exact H].
      exists es. simpl. split; [exact R1|]. split; [exact R2|]. intros _ ->. simpl in R2. rewrite Nat.eqb_refl in R2.
      destruct (skipn k (e_values e)); discriminate R2.
    + simpl in R2. destruct es as [|e es]; [discriminate R2|]. simpl in R2. injection R2 as -> -> -> ->.
      exists h, (Some (i, e, 0%nat)). constructor; simpl; auto.
      * rewrite IO. simpl. rewrite !app_nil_r. unfold attr_value, head_of. rewrite tag_same, escape_same, <- !app_assoc. reflexivity.
      * apply tag_same.
      * rewrite set_nth_length; exact IL.
      * split; [exact LI | lia].
      * intros i' t' H. apply set_nth_cases in H. destruct H as [(-> & -> & _)|(N & H)].
        -- exists es. rewrite Nat.eqb_refl. simpl. split; [exact R1|]. split; [rewrite <- app_assoc; reflexivity | discriminate].
        -- destruct (IR i' t' H) as (es' & Q1 & Q2 & Q3). exists es'. rewrite (proj2 (Nat.eqb_neq i i')) by congruence. split; [exact Q1|]. split; [exact Q2|].
           intros A. elim (Q3 A).
  - (* value *)
    destruct o as [[[j e] k]|]; simpl in R2; [|destruct es; discriminate R2].
    destruct (Nat.eqb_spec j i) as [->|N]; [|destruct es; discriminate R2].
    destruct (skipn k (e_values e)) as [|v' vs] eqn:K; [discriminate R2|]. simpl in R2. injection R2 as -> ->.
    destruct (skipn_next _ _ _ _ K) as (K1 & K2 & K3).
    exists h, (Some (i, e, S k)). unfold entry_value. rewrite IB. constructor.
    + cbn [x_fmt f_out open_text] in *. rewrite IO, K1, concat_app. cbn [concat]. rewrite app_nil_r, <- !app_assoc. reflexivity.
    + reflexivity.
    + exact IT.
    + cbn [x_threads]. rewrite set_nth_length. exact IL.
    + split; assumption.
    + exact IH.
    + cbn [x_threads]. intros i' t' H. apply set_nth_cases in H. destruct H as [(-> & -> & _)|(N & H)].
      * exists es. split; [exact R1|]. cbn [rest_calls t_calls]. rewrite Nat.eqb_refl, K2. split; [reflexivity | discriminate].
      * destruct (IR i' t' H) as (es' & Q1 & Q2 & Q3). exists es'. split; [exact Q1|]. split; [|exact Q3].
        unfold rest_calls in *. rewrite (proj2 (Nat.eqb_neq i i')) in * by congruence. exact Q2.
  - (* finish *)
    destruct o as [[[j e] k]|]; simpl in R2; [|destruct es; discriminate R2].
    destruct (Nat.eqb_spec j i) as [->|N]; [|destruct es; discriminate R2].
    destruct (skipn k (e_values e)) as [|v' vs] eqn:K; [|discriminate R2]. simpl in R2. injection R2 as ->.
    exists (h ++ [(i, e)]), None. unfold entry_finish. rewrite IB. constructor.
    + cbn [x_fmt f_out open_text] in *. rewrite IO, IT, flat_map_app. cbn [flat_map snd]. rewrite !app_nil_r. unfold text_of, tail_of.
      assert (F : firstn k (e_values e) = e_values e) by (rewrite <- (firstn_skipn k (e_values e)) at 2; rewrite K, app_nil_r; reflexivity).
      rewrite F, <- !app_assoc. reflexivity.
    + reflexivity.
    + exact I.
    + cbn [x_threads]. unfold wake_all. rewrite map_length, set_nth_length. exact IL.
    + exact I.
    + intros i' e' J. apply in_app_or in J. destruct J as [J|[J|[]]]; [apply (IH _ _ J) | injection J as <- <-; exact LI].
    + cbn [x_threads]. intros i' t' H. unfold wake_all in H. rewrite nth_error_map in H.
      destruct (nth_error (set_nth i _ _) i') as [t0|] eqn:H0; [|discriminate]. injection H as <-. cbn [t_calls t_asleep].
      apply set_nth_cases in H0. rewrite by_thread_snoc. destruct H0 as [(-> & -> & _)|(N & H0)].
      * exists es. simpl in R1 |- *. rewrite Nat.eqb_refl in *. rewrite <- app_assoc. split; [exact R1|]. split; [reflexivity | discriminate].
      * destruct (IR i' t0 H0) as (es' & Q1 & Q2 & Q3). exists es'. simpl in Q1, Q2 |- *. rewrite (proj2 (Nat.eqb_neq i i')) in * by congruence.
        rewrite app_nil_r. split; [exact Q1|]. split; [exact Q2 | discriminate].
Qed.
Lemma inv_run : forall progs acts x h o, inv progs x h o -> exists h' o', inv progs (t_run acts x) h' o'.
Proof.
  induction acts as [|a acts IH]; intros x h o H; simpl; [exists h, o; exact H|].
  destruct (inv_step progs a x h o H) as (h' & o' & H'). apply (IH _ _ _ H').
Qed.

(** ** C164 *)
(** Threads that log whole entries: whatever the order in which they run, what is written is whole entries one after the other, followed by the
    beginning of at most one more; the entries of every thread are there in its order; and when all have made their calls there is nothing else. *)
Theorem C164_entries_partial : forall progs acts,
  let x := t_run acts (t_begin (map (flat_map calls_of) progs)) in
  exists h o,
    f_out (x_fmt x) = flat_map (fun p => text_of (snd p)) h ++ open_text o
    /\ (forall i, exists rest, nth i progs [] = by_thread i h ++ open_by i o ++ rest)
    /\ (all_done x -> o = None /\ forall i, by_thread i h = nth i progs []).
Proof.
  intros progs acts x. destruct (inv_run progs acts _ _ _ (inv_begin progs)) as (h & o & [IO IB IT IL IW IH IR]). fold x in IO, IB, IT, IL, IR.
  exists h, o. split; [exact IO|].
  assert (OUT : forall i, (List.length progs <= i)%nat -> by_thread i h = [] /\ open_by i o = []).
  { intros i L. split.
    - unfold by_thread. replace (filter _ h) with (@nil (nat * entry)); [reflexivity|]. symmetry.
      assert (G : forall p, In p h -> Nat.eqb (fst p) i = false) by (intros [j e] J; apply Nat.eqb_neq; specialize (IH j e J); simpl; lia).
      clear - G. induction h as [|p h IHh]; [reflexivity|]. simpl. rewrite (G p (or_introl eq_refl)). apply IHh. intros q J. apply G. right. exact J.
    - destruct o as [[[j e] k]|]; [|reflexivity]. simpl. destruct (Nat.eqb_spec j i) as [->|N]; [lia | reflexivity]. }
  assert (THR : forall i, (i < List.length progs)%nat -> exists t, nth_error (x_threads x) i = Some t).
  { intros i L. destruct (nth_error (x_threads x) i) as [t|] eqn:E; [exists t; reflexivity | apply nth_error_None in E; lia]. }
  split.
  - intros i. destruct (Nat.lt_ge_cases i (List.length progs)) as [L|L].
    + destruct (THR i L) as [t E]. destruct (IR i t E) as (rest & R & _). exists rest. exact R.
    + destruct (OUT i L) as [B O]. exists []. rewrite B, O. apply nth_overflow. exact L.
  - intros D. assert (N : o = None).
    { destruct o as [[[j e] k]|]; [|reflexivity]. destruct IW as [L _]. destruct (THR j L) as [t E]. destruct (IR j t E) as (rest & _ & R & _).
      rewrite (D j t E) in R. simpl in R. rewrite Nat.eqb_refl in R. destruct (skipn k (e_values e)); discriminate R. }
    split; [exact N|]. subst o. intros i. destruct (Nat.lt_ge_cases i (List.length progs)) as [L|L].
    + destruct (THR i L) as [t E]. destruct (IR i t E) as (rest & R & Q & _). rewrite (D i t E) in Q. simpl in Q, R.
      destruct rest as [|e rest]; [rewrite app_nil_r in R; symmetry; exact R | discriminate Q].
    + destruct (OUT i L) as [B _]. rewrite B. symmetry. apply nth_overflow. exact L.
Qed.
Print Assumptions C164_entries_partial.

(** the number of calls still to be made *)
Definition work (x : tlog) : nat := list_sum (map (fun t => List.length (t_calls t)) (x_threads x)).
Lemma work_set : forall l i t c rest, nth_error l i = Some t -> t_calls t = c :: rest ->
  (list_sum (map (fun t => List.length (t_calls t)) (set_nth i (mktester rest false) l)) < list_sum (map (fun t => List.length (t_calls t)) l))%nat.
Proof.
  induction l as [|y l IH]; intros [|i] t c rest H E; simpl in *; try discriminate.
  - injection H as ->. rewrite E. simpl. lia.
  - specialize (IH i t c rest H E). lia.
Qed.
Lemma work_wake : forall l, list_sum (map (fun t => List.length (t_calls t)) (wake_all l)) = list_sum (map (fun t => List.length (t_calls t)) l).
Proof. intros l. unfold wake_all. rewrite map_map. reflexivity. Qed.
Lemma work_step : forall progs x h o, inv progs x h o -> ~ all_done x -> exists i, (work (t_step (TRun i) x) < work x)%nat.
Proof.
  intros progs x h o [IO IB IT IL IW IH IR] N. destruct o as [[[j e] k]|].
  - (* the owner goes on *)
    destruct IW as [L _]. exists j. destruct (nth_error (x_threads x) j) as [[cs a]|] eqn:E; [|apply nth_error_None in E; lia].
    destruct (IR j _ E) as (rest & _ & R & A). simpl in R, A. rewrite Nat.eqb_refl in R.
    destruct a; [elim (A eq_refl); reflexivity|]. unfold t_step. rewrite E. unfold work.
    destruct (skipn k (e_values e)) as [|v vs]; simpl in R; subst cs; cbn [x_threads].
    + rewrite IB, work_wake. eapply work_set; [exact E | reflexivity].
    + eapply work_set; [exact E | reflexivity].
  - (* any thread that has something to do *)
    assert (X : exists i t, nth_error (x_threads x) i = Some t /\ t_calls t <> []).
    { clear - N. unfold all_done in N. destruct x as [f l]. simpl in *. induction l as [|t l IH].
      - elim N. intros [|i] t H; discriminate H.
      - destruct (t_calls t) as [|c cs] eqn:E.
        + destruct IH as (i & t' & H & K); [|exists (S i), t'; auto].
          intros D. apply N. intros [|i] t' H; simpl in H; [injection H as <-; exact E | apply (D i t' H)].
        + exists 0%nat, t. split; [reflexivity | rewrite E; discriminate]. }
    destruct X as (i & [cs a] & E & K). exists i. destruct (IR i _ E) as (rest & _ & R & A). simpl in R, A, K.
    destruct a; [elim (A eq_refl)|]. destruct cs as [|c cs]; [congruence|].
    destruct rest as [|e rest]; [discriminate R|]. simpl in R. injection R as -> ->.
    unfold t_step. rewrite E, IB. unfold work. cbn [x_threads]. eapply work_set; [exact E | reflexivity].
Qed.
(** No thread waits for ever: whatever has happened, as long as one has calls to make there is one that can go on, and all can come to an end. *)
Theorem C164_ends_partial : forall progs acts,
  exists more, all_done (t_run more (t_run acts (t_begin (map (flat_map calls_of) progs)))).
Proof.
  intros progs acts. destruct (inv_run progs acts _ _ _ (inv_begin progs)) as (h & o & H).
  set (x := t_run acts _) in *. clearbody x. remember (work x) as n eqn:W. revert x h o H W.
  induction n as [n IH] using lt_wf_ind. intros x h o H W.
  assert (DEC : all_done x \/ ~ all_done x).
  { destruct (Forall_dec (fun t => t_calls t = []) (fun t => match t_calls t as c return {c = []} + {c <> []} with [] => left eq_refl | c :: r => right (fun E => nil_cons (eq_sym E)) end) (x_threads x)) as [F|F].
    - left. intros i t E. apply (proj1 (Forall_forall _ _) F). apply nth_error_In in E. exact E.
    - right. intros D. apply F. apply Forall_forall. intros t J. apply In_nth_error in J. destruct J as [i J]. apply (D i t J). }
  destruct DEC as [D|D]; [exists []; exact D|].
  destruct (work_step _ _ _ _ H D) as [i L]. destruct (inv_step _ (TRun i) _ _ _ H) as (h' & o' & H').
  destruct (IH _ ltac:(subst n; exact L) _ _ _ H' eq_refl) as [more M]. exists (TRun i :: more). exact M.
Qed.
Print Assumptions C164_ends_partial.

(** the output is entries one after the other, whatever calls the threads make *)
Definition any_calls_claim : Prop := forall progs acts, let x := t_run acts (t_begin progs) in
  all_done x -> exists es, f_out (x_fmt x) = flat_map text_of es /\ forall e, In e es ->
    exists p a b, In p progs /\ p = a ++ calls_of e ++ b.
(** a thread that has not started an entry writes into that of another, and can end it *)
Theorem C164_others_refuted : ~ any_calls_claim.
Proof.
  intros C.
  set (e := mke 3 (bs "a.cpp") 7 [bs "one"; bs "two"]).
  specialize (C [calls_of e; [LValue (bs "other"); LFinish]] [TRun 0; TRun 0; TRun 1; TRun 1; TRun 0; TRun 0]%nat).
  destruct C as (es & E & F).
  - intros i t H. vm_compute in H. destruct i as [|[|i]]; [injection H as <-; reflexivity | injection H as <-; reflexivity | destruct i; discriminate H].
  - assert (ALL : forall e', In e' es -> e' = e).
    { intros e' J. destruct (F e' J) as (p & a & b & [<-|[<-|[]]] & P).
      - destruct a as [|c a]; [|exfalso].
        + simpl in P. unfold calls_of, e in P. simpl in P. injection P as P1 P2 P3 P4. destruct e' as [k f l vs]. simpl in *. subst k f l. f_equal.
          destruct vs as [|v1 [|v2 [|v3 vs]]]; simpl in P4; try discriminate P4; injection P4; intros; subst; try reflexivity; discriminate.
        + unfold calls_of, e in P. simpl in P. injection P as _ P. unfold calls_of in P.
          destruct a as [|? [|? [|? a]]]; simpl in P; try discriminate P. injection P as _ _ _ P. destruct a; discriminate P.
      - destruct a as [|? [|? a]]; unfold calls_of in P; simpl in P; try discriminate P. injection P as _ _ P. destruct a; discriminate P. }
    assert (N : es = [] \/ exists r, es = e :: r) by (destruct es as [|e1 r]; [left; reflexivity | right; exists r; rewrite (ALL e1 (or_introl eq_refl)); reflexivity]).
    destruct N as [->|[r ->]]; [vm_compute in E; discriminate E|].
    assert (K : nth 48 (f_out (x_fmt (t_run [TRun 0; TRun 0; TRun 1; TRun 1; TRun 0; TRun 0]%nat (t_begin [calls_of e; [LValue (bs "other"); LFinish]])))) 0 = nth 48 (text_of e ++ flat_map text_of r) 0)
      by (rewrite E; reflexivity).
    vm_compute in K. discriminate K.
Qed.
Print Assumptions C164_others_refuted.

(** what an XML reader takes [c] to be: the characters of [s] before the first end of a CDATA section *)
Definition cdata_reads (s c : list Z) : Prop :=
  (exists r, s = c ++ bs "]]>" ++ r) /\ forall c' r', s = c' ++ bs "]]>" ++ r' -> (List.length c <= List.length c')%nat.
(** What was logged is read back, if it does not itself contain the end of a CDATA section. *)
Theorem C164_cdata_partial : forall e, (forall a b, concat (e_values e) <> a ++ bs "]]>" ++ b) ->
  cdata_reads (concat (e_values e) ++ tail_of e) (concat (e_values e)).
Proof.
  intros e N. set (v := concat (e_values e)) in *. split.
  - unfold tail_of. exists (bs "</" ++ name_of (e_kind e) ++ bs ">" ++ [10]). reflexivity.
  - intros c' r' E. destruct (Nat.le_gt_cases (List.length v) (List.length c')) as [L|L]; [exact L|]. exfalso.
    destruct (app_eq_app _ _ _ _ E) as [x [[A B]|[A B]]]; [|subst c'; rewrite app_length in L; lia].
    unfold tail_of in B. destruct x as [|x0 [|x1 [|x2 x]]]; simpl in B.
    + rewrite app_nil_r in A. subst v. rewrite A in L. lia.
    + discriminate B.
    + discriminate B.
    + injection B as <- <- <- B. apply (N c' x). exact A.
Qed.
Print Assumptions C164_cdata_partial.
Definition cdata_claim : Prop := forall e, cdata_reads (concat (e_values e) ++ tail_of e) (concat (e_values e)).
(** a value with the end of a CDATA section in it ends the entry's text early *)
Theorem C164_cdata_refuted : ~ cdata_claim.
Proof.
  intros C. destruct (C (mke 0 [] 0 [bs "a]]>b"])) as [_ H].
  specialize (H (bs "a") (bs "b" ++ tail_of (mke 0 [] 0 [])) eq_refl). simpl in H. lia.
Qed.
Print Assumptions C164_cdata_refuted.
(** two threads with an entry each; the second comes while the first has its entry open, waits and is woken *)
Example C164_case :
  let e1 := mke 1 (bs "a<b.cpp") 12 [bs "one"; bs "two"] in
  let e2 := mke 3 (bs "c.cpp") 7 [bs "three"] in
  let x := t_run [TRun 0; TRun 1; TRun 0; TRun 1; TRun 0; TWake 1; TRun 1; TRun 0; TRun 1; TRun 1; TRun 1]%nat (t_begin (map (flat_map calls_of) [[e1]; [e2]])) in
  all_done x /\ f_out (x_fmt x) =
    bs "<Message file=" ++ [34] ++ bs "a&lt;b.cpp" ++ [34] ++ bs " line=" ++ [34] ++ bs "12" ++ [34] ++ bs "><![CDATA[onetwo]]></Message>" ++ [10] ++
    bs "<Error file=" ++ [34] ++ bs "c.cpp" ++ [34] ++ bs " line=" ++ [34] ++ bs "7" ++ [34] ++ bs "><![CDATA[three]]></Error>" ++ [10].
Proof.
  cbv zeta. split; [|vm_compute; reflexivity].
  intros i t H. vm_compute in H. destruct i as [|[|[|i]]]; try discriminate H; injection H as <-; reflexivity.
Qed.
