(** What exceptions and logs tell. *)
From Coq Require Import String ZArith List Lia Bool.
From Coq Require Import ZifyBool.
From Verif Require Import Base Digits ReportModel.
Import ListNotations.

(** C147. The value an exception is to show: the last one attached as the kind of information its class shows. *)
Definition info_eqb (a b : info) : bool :=
  match a, b with InfoMessage, InfoMessage | InfoArgName, InfoArgName | InfoFileName, InfoFileName | InfoDirName, InfoDirName | InfoPluginName, InfoPluginName | InfoSymbolName, InfoSymbolName => true | _, _ => false end.
Fixpoint last_of (i : info) (l : list (info * list Z)) : option (list Z) :=
  match l with [] => None | (j, v) :: l' => match last_of i l' with Some w => Some w | None => if info_eqb i j then Some v else None end end.
(** what each class is documented to be about (the comment above each class), and the information named with it *)
Definition about (k : exn) : list Z * option info :=
  match k with
  | BadArg => (bs "bad argument", Some InfoArgName)
  | BadConfig => (bs "config parser error", Some InfoFileName)
  | OpenFile => (bs "unable to open file", Some InfoFileName)
  | ReadFile => (bs "unable to read file", Some InfoFileName)
  | FileNotFound => (bs "file not found", Some InfoFileName)
  | DirectoryNotFound => (bs "directory not found", Some InfoDirName)
  | OpenPlugin => (bs "unable to open plugin", Some InfoPluginName)
  | PluginNotFound => (bs "plugin not found", Some InfoPluginName)
  | DuplicatePlugin => (bs "duplicate plugin", Some InfoPluginName)
  | PluginMissingSymbol => (bs "missing plugin symbol", Some InfoSymbolName)
  | PluginUndefined => (bs "plugin has undefined state", None)
  | BadPasswordHash => (bs "bad password hash", None)
  end.
Definition told (k : exn) (l : list (info * list Z)) : list Z :=
  fst (about k) ++ match snd (about k) with Some i => match last_of i l with Some v => bs ": " ++ v | None => [] end | None => [] end.
(** kinds of information that are confused with each other *)
Definition confused (i j : info) : bool :=
  match i, j with InfoMessage, InfoArgName | InfoArgName, InfoMessage | InfoDirName, InfoSymbolName | InfoSymbolName, InfoDirName => true | _, _ => false end.

Lemma get_put t t' v l : get_info t (put_info t' v l) = if tag_eqb t t' then Some v else get_info t l.
Proof.
  induction l as [|[u w] l IH]; cbn; [reflexivity|]. destruct (tag_eqb t' u) eqn:E; cbn.
  - destruct (tag_eqb t t') eqn:F; [reflexivity|]. assert (tag_eqb t u = false) as -> by (destruct t, t', u; cbn in *; congruence). reflexivity.
  - destruct (tag_eqb t u) eqn:G; [|exact IH]. assert (tag_eqb t t' = false) as -> by (destruct t, t', u; cbn in *; congruence). reflexivity.
Qed.
Lemma attached l : forall x, x_kind (attach_all l x) = x_kind x /\ x_what (attach_all l x) = x_what x.
Proof. induction l as [|iv l IH]; intros x; [auto|]. exact (IH (attach (fst iv) (snd iv) x)). Qed.
Lemma got i l : (forall j v, In (j, v) l -> confused i j = false) -> forall x,
  get_info (tag_of i) (x_infos (attach_all l x)) = match last_of i l with Some v => Some v | None => get_info (tag_of i) (x_infos x) end.
Proof.
  induction l as [|[j v] l IH]; intros H x; [reflexivity|]. change (attach_all ((j, v) :: l) x) with (attach_all l (attach j v x)). rewrite IH by (intros; apply (H j0 v0); right; assumption).
  cbn [last_of]. destruct (last_of i l); [reflexivity|]. cbn [attach x_infos]. rewrite get_put. pose proof (H j v (or_introl eq_refl)) as C.
  destruct i, j; cbn in C |- *; try discriminate; reflexivity.
Qed.

Lemma about_is k : about k = (exn_text k, exn_info k).
Proof. destruct k; reflexivity. Qed.
Theorem C147_what_partial : forall k l, (forall i j v, snd (about k) = Some i -> In (j, v) l -> confused i j = false) -> snd (what (attach_all l (thrown k))) = told k l.
Proof.
  intros k l H. unfold told. rewrite about_is in H |- *. cbn [fst snd] in H |- *.
  unfold what. destruct (attached l (thrown k)) as [A B]. rewrite A, B. cbn [thrown x_kind x_what snd]. unfold set_what_msg. f_equal.
  destruct (exn_info k) as [i|] eqn:E; [|reflexivity]. rewrite got by (intros j v I; apply (H i j v); auto). cbn. destruct (last_of i l); reflexivity.
Qed.
Print Assumptions C147_what_partial.
(** Asking again gives the same text, and it does not change the class. *)
Theorem C147_again_partial : forall k l, let x := attach_all l (thrown k) in snd (what (fst (what x))) = snd (what x) /\ x_kind (fst (what x)) = k.
Proof.
  intros k l. cbv zeta. unfold what. destruct (attached l (thrown k)) as [A B]. rewrite A, B. cbn. set (w := set_what_msg _ _). split; [|reflexivity]. destruct w eqn:E; [|reflexivity].
  unfold w, set_what_msg in E. destruct k; discriminate.
Qed.
Print Assumptions C147_again_partial.
(** The text tells the class, whatever is attached: no two classes ever have the same text. *)
Fixpoint before_colon (l : list Z) : list Z := match l with [] => [] | c :: l' => if c =? 58 then [] else c :: before_colon l' end.
Theorem C147_class_partial : forall k k' l l', snd (what (attach_all l (thrown k))) = snd (what (attach_all l' (thrown k'))) -> k = k'.
Proof.
  assert (X : forall k l, exists r, snd (what (attach_all l (thrown k))) = fst (about k) ++ r /\ (r = [] \/ exists v, r = 58 :: v)).
  { intros k l. unfold what. destruct (attached l (thrown k)) as [A B]. rewrite A, B, about_is. cbn [thrown x_kind x_what snd fst]. unfold set_what_msg. eexists; split; [reflexivity|].
    destruct (match exn_info k with Some i => _ | None => None end); [right; cbn; eauto|auto]. }
  assert (Y : forall k r, r = [] \/ (exists v, r = 58 :: v) -> before_colon (fst (about k) ++ r) = fst (about k)) by (intros k r [->|[v ->]]; destruct k; reflexivity).
  intros k k' l l' E. destruct (X k l) as (r & E1 & R1), (X k' l') as (r' & E2 & R2). rewrite E1, E2 in E. apply (f_equal before_colon) in E. rewrite !Y in E by assumption.
  destruct k, k'; try reflexivity; vm_compute in E; discriminate E.
Qed.
Print Assumptions C147_class_partial.

(** The full claims: what() tells the information of the class, whatever else is attached; what is attached is told, whenever that is; a message that was attached can be read. *)
Definition tells_its_own : Prop := forall k l, snd (what (attach_all l (thrown k))) = told k l.
Theorem C147_own_refuted : ~ tells_its_own.
Proof. intros H. specialize (H BadArg [(InfoArgName, bs "port"); (InfoMessage, bs "no number")]). vm_compute in H. discriminate. Qed.
Print Assumptions C147_own_refuted.
Definition tells_later : Prop := forall k l1 l2, snd (what (attach_all l2 (fst (what (attach_all l1 (thrown k)))))) = snd (what (attach_all (l1 ++ l2) (thrown k))).
Theorem C147_later_refuted : ~ tells_later.
Proof. intros H. specialize (H FileNotFound [] [(InfoFileName, bs "/etc/x")]). vm_compute in H. discriminate. Qed.
Print Assumptions C147_later_refuted.
(** plugin.cpp attaches the name of a plug-in and why the library could not be opened *)
Definition tells_why : Prop := forall name why, exists a b, snd (what (attach_all [(InfoPluginName, name); (InfoMessage, why)] (thrown OpenPlugin))) = a ++ why ++ b.
Theorem C147_why_refuted : ~ tells_why.
Proof.
  intros H. destruct (H [] (bs "#")) as (a & b & E). assert (In 35 (a ++ bs "#" ++ b)) as I by (apply in_or_app; right; left; reflexivity). rewrite <- E in I. vm_compute in I.
  repeat (destruct I as [I|I]; [discriminate|]). contradiction.
Qed.
Print Assumptions C147_why_refuted.
Example C147_case : snd (what (attach_all [(InfoPluginName, bs "Hello"); (InfoSymbolName, bs "pion_create_Hello")] (thrown PluginMissingSymbol))) = bs "missing plugin symbol: pion_create_Hello"
  /\ snd (what (thrown FileNotFound)) = bs "file not found"
  /\ (forall j v, In (j, v) [(InfoPluginName, bs "Hello"); (InfoSymbolName, bs "pion_create_Hello")] -> confused InfoSymbolName j = false).
Proof. split; [reflexivity|]. split; [reflexivity|]. intros j v [E|[E|[]]]; injection E as <- _; reflexivity. Qed.

(** C148. What is written: every event that is not below the level last set, each once and in order, with its time, level and logger; warnings and worse to std::cerr. *)
Definition title (v : level) : list Z := match v with DEBUG => bs "DEBUG" | INFO => bs "INFO" | WARN => bs "WARN" | ERROR => bs "ERROR" | FATAL => bs "FATAL" end.
Definition as_bad (now v : level) : bool :=
  match now, v with DEBUG, _ | INFO, (INFO | WARN | ERROR | FATAL) | WARN, (WARN | ERROR | FATAL) | ERROR, (ERROR | FATAL) | FATAL, FATAL => true | _, _ => false end.
Fixpoint written (err : bool) (now : level) (l : list logop) : list Z :=
  match l with
  | [] => []
  | LSet _ v :: l' => written err v l'
  | LLog name v time text :: l' =>
    (if as_bad now v && Bool.eqb err (as_bad WARN v) then print_dec time ++ bs " " ++ title v ++ bs " " ++ name ++ bs " " ++ text ++ [10] else []) ++ written err now l'
  end.
Lemma log_written l : forall s, l_out (fold_left log_op l s) = l_out s ++ written false (l_priority s) l /\ l_err (fold_left log_op l s) = l_err s ++ written true (l_priority s) l.
Proof.
  induction l as [|o l IH]; intros s; [cbn; rewrite !app_nil_r; auto|]. cbn [fold_left]. destruct (IH (log_op s o)) as [A B]. rewrite A, B. destruct o as [n v|n v t x]; [auto|]. cbn [log_op written].
  assert (level_num (l_priority s) <=? level_num v = as_bad (l_priority s) v) as -> by (destruct (l_priority s), v; reflexivity).
  assert (level_name v = bs " " ++ title v ++ bs " ") as -> by (destruct v; reflexivity).
  destruct (as_bad (l_priority s) v) eqn:E; [|auto]. destruct v; cbn [l_out l_err l_priority andb as_bad Bool.eqb]; rewrite <- ?app_assoc, ?app_nil_l; auto.
Qed.
Theorem C148_written_partial : forall l, l_out (log_run l) = written false INFO l /\ l_err (log_run l) = written true INFO l.
Proof. intros l. apply (log_written l log_init). Qed.
Print Assumptions C148_written_partial.

(** The full claim: what a logger writes depends on the levels set for that logger only. *)
Fixpoint own_level (name : list Z) (now : level) (l : list logop) : level :=
  match l with [] => now | LSet n v :: l' => own_level name (if str_eqb n name then v else now) l' | _ :: l' => own_level name now l' end.
Definition own_levels : Prop := forall l name v t text, let s := log_run l in
  log_op s (LLog name v t text) = s <-> as_bad (own_level name INFO l) v = false.
Theorem C148_own_refuted : ~ own_levels.
Proof.
  intros H. destruct (H [LSet (bs "a") ERROR] (bs "b") WARN 0 []) as [A _]. cbv zeta in A. assert (X : as_bad (own_level (bs "b") INFO [LSet (bs "a") ERROR]) WARN = false) by (apply A; reflexivity).
  vm_compute in X. discriminate.
Qed.
Print Assumptions C148_own_refuted.
(** With one logger only, it does. *)
Lemma num_as_bad a v : (level_num a <=? level_num v) = as_bad a v.
Proof. destruct a, v; reflexivity. Qed.
Lemma all_own name l : (forall n v, In (LSet n v) l -> n = name) -> forall s, l_priority (fold_left log_op l s) = own_level name (l_priority s) l.
Proof.
  induction l as [|o l IH]; intros H s; [reflexivity|]. cbn [fold_left]. rewrite IH by (intros n v I; apply (H n v); right; exact I). destruct o as [n v|n v t x].
  - rewrite (H n v) by (left; reflexivity). cbn. rewrite str_eqb_refl. reflexivity.
  - cbn [own_level log_op]. f_equal. destruct (_ <=? _); [destruct v|]; reflexivity.
Qed.
Theorem C148_own_partial : forall l name v t text, (forall n v, In (LSet n v) l -> n = name) -> let s := log_run l in
  log_op s (LLog name v t text) = s <-> as_bad (own_level name INFO l) v = false.
Proof.
  intros l name v t text H. cbv zeta. pose proof (all_own name l H log_init) as P. unfold log_run in *. set (s := fold_left log_op l log_init) in *. cbn [log_init l_priority] in P. rewrite <- P.
  cbn [log_op]. rewrite <- (num_as_bad (l_priority s) v). split.
  - intros E. destruct (level_num (l_priority s) <=? level_num v) eqn:L; [|reflexivity]. exfalso. set (line := print_dec t ++ _) in E.
    assert (N : line <> []). { unfold line. destruct (print_dec t) eqn:Q; [exact (fun _ => print_dec_nonempty t Q)|discriminate]. }
    assert (G : forall x : list Z, x ++ line = x -> False). { intros x X. apply N. apply (app_inv_head x). rewrite X, app_nil_r. reflexivity. }
    destruct s as [pr o e]. cbn in E. destruct v; injection E as E; exact (G _ E).
  - intros L. rewrite L. reflexivity.
Qed.
Print Assumptions C148_own_partial.
(** The full claim: one event is one line. *)
Definition one_line : Prop := forall l, Z.of_nat (count_occ Z.eq_dec (l_out (log_run l) ++ l_err (log_run l)) 10) <= zlen l.
Theorem C148_line_refuted : ~ one_line.
Proof. intros H. specialize (H [LLog (bs "pion") INFO 0 (bs "GET /" ++ [10] ++ bs "1 FATAL pion forged")]). vm_compute in H. apply H. reflexivity. Qed.
Print Assumptions C148_line_refuted.
Example C148_case : let l := [LLog (bs "x") DEBUG 1 (bs "a"); LSet (bs "x") DEBUG; LLog (bs "x") DEBUG 2 (bs "b"); LLog (bs "x") ERROR 3 (bs "c")] in
  l_out (log_run l) = bs "2 DEBUG x b" ++ [10] /\ l_err (log_run l) = bs "3 ERROR x c" ++ [10] /\ (forall n v, In (LSet n v) l -> n = bs "x").
Proof. cbv zeta. split; [vm_compute; reflexivity|]. split; [vm_compute; reflexivity|]. intros n v I. cbn in I. decompose [or] I; try discriminate; try contradiction. match goal with E : LSet _ _ = _ |- _ => injection E as <- _ end. reflexivity. Qed.
