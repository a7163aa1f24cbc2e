(** C70, C103, C104: the service configuration file. *)
From Coq Require Import String ZArith List Bool Lia.
From Verif Require Import Base ConfigModel ConfigSpec ConfigProofs.
Import ListNotations.

(** lines ended by line feeds *)
Definition lf (l : list string) : list tline := map (fun s => (bs s, 10)) l.
Definition all_fine : list call -> call -> bool := fun _ _ => true.
Lemma lf_lines l : Forall (fun s => forallb (fun c => negb (eol c)) (bs s) = true) l -> Forall is_line (lf l).
Proof.
  induction 1 as [|s l H F IH]; [constructor|]. cbn [lf map]. constructor; auto. split; [|right; reflexivity]. cbn [fst]. apply Forall_forall. intros c I. rewrite forallb_forall in H. specialize (H c I).
  intros E. apply eol_spec in E. rewrite E in H. discriminate.
Qed.
Ltac line_by := apply line_parse_spec; vm_compute; reflexivity.

(* ------------------------------------------------------------------ C70 *)

(** C70. A file whose lines are all ended is executed line by line. *)
Theorem C70_lines env ls : Forall is_line ls -> executed env None [] (map fst ls) (fst (load_config env (text_of ls))) (snd (load_config env (text_of ls))).
Proof.
  intros F. destruct (run_lines env [] ls c_init None [] ready_init F) as (calls & r & X & [[N E]|[-> (h' & a & s' & R & -> & E)]]); rewrite app_nil_r in E; unfold load_config; rewrite E; auto.
  destruct R as (_ & _ & R). cbn [config_run fst snd]. rewrite R. exact X.
Qed.
Print Assumptions C70_lines.
(** The execution of lines is a function of them, and so is the meaning of a line. *)
Theorem C70_deterministic env a h ls h1 r1 h2 r2 : executed env a h ls h1 r1 -> executed env a h ls h2 r2 -> h1 = h2 /\ r1 = r2.
Proof. intros A B. exact (executed_fun env a h ls h1 r1 A h2 r2 B). Qed.
Print Assumptions C70_deterministic.
Theorem C70_grammar l a b : line_means l a -> line_means l b -> a = b.
Proof. apply line_means_unique. Qed.
Print Assumptions C70_grammar.
Definition ex_file : list string :=
  ["# services"; ""; "PATH /usr/lib/pion"; "service 	/echo  EchoService"; "option /echo a=b=c d"; "Auth basic"; "user bob  se cret "; "restrict /echo"]%string.
Example C70_case : Forall is_line (lf ex_file) /\ load_config all_fine (text_of (lf ex_file)) =
  ([XPath (bs "/usr/lib/pion"); XService (bs "/echo") (bs "EchoService"); XOption (bs "/echo") (bs "a") (bs "b=c d"); XAuth (Some (KBasic, [AUser (bs "bob") (bs "se cret "); ARestrict (bs "/echo")]))], RDone)
  /\ load_config all_fine (text_of (lf ["service /echo"; "path /x"]%string)) = ([], RBad)
  /\ load_config all_fine (text_of (lf ["path /x"; "restrict /y"]%string)) = ([XPath (bs "/x")], RBad).
Proof. split; [apply lf_lines; repeat constructor|]. split; [|split]; vm_compute; reflexivity. Qed.

(** What follows the last end of line is not executed: the load does what it does without it, but may refuse it. *)
Theorem C70_tail_partial env ls tail : Forall is_line ls -> Forall (fun c => ~ is_eol c) tail ->
  load_config env (text_of ls ++ tail) = load_config env (text_of ls)
  \/ exists h a, load_config env (text_of ls) = (h ++ [XAuth a], RDone) /\ load_config env (text_of ls ++ tail) = (h, RBad).
Proof.
  intros F T. destruct (run_lines env tail ls c_init None [] ready_init F) as (calls & r & X & D). destruct (run_lines env [] ls c_init None [] ready_init F) as (calls2 & r2 & X2 & D2).
  destruct (executed_fun _ _ _ _ _ _ X _ _ X2) as [<- <-]. rewrite app_nil_r in D2. unfold load_config.
  destruct D as [[N E]|[-> (h' & a & s' & R & -> & E)]]; destruct D2 as [[N2 E2]|[R2 (h2 & a2 & s2 & RR & C2 & E2)]]; try congruence.
  - left. congruence.
  - rewrite E, E2. apply app_inj_tail in C2. destruct C2 as [<- C2]. injection C2 as <-. destruct RR as (_ & _ & RA). cbn [config_run]. rewrite RA. destruct (run_tail env h' s' a tail R T) as [-> | ->]; eauto.
Qed.
Print Assumptions C70_tail_partial.
Example C70_tail_case : load_config all_fine (text_of (lf ex_file) ++ bs "nonsense 1") = ([XPath (bs "/usr/lib/pion"); XService (bs "/echo") (bs "EchoService"); XOption (bs "/echo") (bs "a") (bs "b=c d")], RBad).
Proof. vm_compute. reflexivity. Qed.

(** The last line of a file is lost, without an error, if it is not ended: here the line that protects the service. *)
Theorem C70_last_line_refuted : ~ forall env ls tail, Forall is_line ls -> Forall (fun c => ~ is_eol c) tail -> tail <> [] ->
  executed env None [] (map fst ls ++ [tail]) (fst (load_config env (text_of ls ++ tail))) (snd (load_config env (text_of ls ++ tail))).
Proof.
  intros H. set (ls := lf ["service /s S"; "auth basic"; "user a b"]%string). set (tail := bs "restrict /s").
  assert (Forall is_line ls) as F by (apply lf_lines; repeat constructor).
  assert (Forall (fun c => ~ is_eol c) tail) as T. { apply Forall_forall. intros c I E. apply eol_spec in E. assert (forallb (fun c => negb (eol c)) tail = true) as X by (vm_compute; reflexivity). rewrite forallb_forall in X. specialize (X c I). rewrite E in X. discriminate. }
  specialize (H all_fine ls tail F T ltac:(discriminate)).
  pose proof (C70_lines all_fine (ls ++ [(tail, 10)])) as Y. assert (Forall is_line (ls ++ [(tail, 10)])) as F2 by (apply Forall_app; split; auto; constructor; [split; [exact T|right; reflexivity]|constructor]).
  specialize (Y F2). rewrite map_app in Y. destruct (executed_fun _ _ _ _ _ _ H _ _ Y) as [E _]. vm_compute in E. discriminate.
Qed.
Print Assumptions C70_last_line_refuted.

(* ------------------------------------------------------------------ C103 *)

(** Every service of the file that the file restricts is loaded together with an authentication that restricts it: not so if the load fails later. *)
Definition protected (calls : list call) (s : list Z) : Prop := exists k x, In (XAuth (Some (k, x))) calls /\ In (ARestrict s) x.
Theorem C103_failed_refuted : ~ forall env ls calls r s n, Forall is_line ls -> load_config env (text_of ls) = (calls, r) -> In (XService s n) calls ->
  (exists l, In l (map fst ls) /\ line_means l (Some (CRestrict s))) -> protected calls s.
Proof.
  intros H. set (ls := lf ["auth basic"; "user a b"; "restrict /s"; "service /s S"; "servise /t T"]%string).
  assert (Forall is_line ls) as F by (apply lf_lines; repeat constructor).
  assert (load_config all_fine (text_of ls) = ([XService (bs "/s") (bs "S")], RBad)) as E by (vm_compute; reflexivity).
  destruct (H all_fine ls _ _ (bs "/s") (bs "S") F E) as (k & x & I & _); [left; reflexivity| |destruct I as [I|[]]; discriminate].
  exists (bs "restrict /s"). split; [right; right; left; reflexivity|line_by].
Qed.
Print Assumptions C103_failed_refuted.
(** The same load, all commands being fine, when a service refuses an option. *)
Theorem C103_thrown_refuted : ~ forall env ls calls r s n, Forall is_line ls -> (forall l, In l (map fst ls) -> exists c, line_means l c) -> load_config env (text_of ls) = (calls, r) -> In (XService s n) calls ->
  (exists l, In l (map fst ls) /\ line_means l (Some (CRestrict s))) -> protected calls s.
Proof.
  intros H. set (ls := lf ["auth basic"; "user a b"; "restrict /s"; "service /s S"; "option /s a=b"]%string).
  assert (Forall is_line ls) as F by (apply lf_lines; repeat constructor).
  set (env := fun (h : list call) (x : call) => match x with XOption _ _ _ => false | _ => true end).
  assert (load_config env (text_of ls) = ([XService (bs "/s") (bs "S"); XOption (bs "/s") (bs "a") (bs "b")], RThrown)) as E by (vm_compute; reflexivity).
  destruct (fun A => H env ls _ _ (bs "/s") (bs "S") F A E) as (k & x & I & _).
  - intros l I. assert (forall l, In l (map fst ls) -> exists c, line_parse l = Some c) as X by (intros l0 I0; repeat (destruct I0 as [<-|I0]; [eexists; vm_compute; reflexivity|]); destruct I0).
    destruct (X l I) as (c & C). exists c. apply line_parse_spec. exact C.
  - left. reflexivity.
  - exists (bs "restrict /s"). split; [right; right; left; reflexivity|line_by].
  - destruct I as [I|[I|[]]]; discriminate.
Qed.
Print Assumptions C103_thrown_refuted.
(** For every file: authentication is installed if and only if the load succeeds, once, and after everything else. So the services of a file can be reached
    without authentication until the whole file is read, and stay so if the load fails. *)
Theorem C103_order_partial env ls calls r : Forall is_line ls -> load_config env (text_of ls) = (calls, r) ->
  exists h, Forall not_auth h /\ (r <> RDone -> calls = h) /\ (r = RDone -> exists a, calls = h ++ [XAuth a]).
Proof.
  intros F E. pose proof (C70_lines env ls F) as X. rewrite E in X. cbn [fst snd] in X. destruct (executed_auth _ _ _ _ _ _ X) as (h & N & A & B). exists h. split; auto. split; auto. intros D. destruct (B D) as (a & C & _). exists a. exact C.
Qed.
Print Assumptions C103_order_partial.
Example C103_case : load_config all_fine (text_of (lf ["service /s S"; "auth cookie"; "user a b"; "restrict /s"]%string)) = ([XService (bs "/s") (bs "S")] ++ [XAuth (Some (KCookie, [AUser (bs "a") (bs "b"); ARestrict (bs "/s")]))], RDone).
Proof. vm_compute. reflexivity. Qed.

(* ------------------------------------------------------------------ C104 *)

(** Every restriction of a file that is loaded is in force: not so if there is a second auth command. *)
Theorem C104_all_refuted : ~ forall env ls calls s, Forall is_line ls -> load_config env (text_of ls) = (calls, RDone) ->
  (exists l, In l (map fst ls) /\ line_means l (Some (CRestrict s))) -> protected calls s.
Proof.
  intros H. set (ls := lf ["auth basic"; "user a b"; "restrict /s"; "auth cookie"; "restrict /t"]%string).
  assert (Forall is_line ls) as F by (apply lf_lines; repeat constructor).
  assert (load_config all_fine (text_of ls) = ([XAuth (Some (KCookie, [ARestrict (bs "/t")]))], RDone)) as E by (vm_compute; reflexivity).
  destruct (H all_fine ls _ (bs "/s") F E) as (k & x & I & J).
  - exists (bs "restrict /s"). split; [right; right; left; reflexivity|line_by].
  - destruct I as [I|[]]. injection I as <- <-. destruct J as [J|[]]. vm_compute in J. discriminate.
Qed.
Print Assumptions C104_all_refuted.
(** For every file that is loaded: the kind of the last auth command is installed with the restrictions and users of the lines after it, in order; without auth command,
    authentication is switched off, whatever was set before. *)
Theorem C104_last_partial env ls calls : Forall is_line ls -> load_config env (text_of ls) = (calls, RDone) ->
  exists h a, calls = h ++ [XAuth a]
  /\ ((forall l, In l (map fst ls) -> ~ auth_line l) -> a = None)
  /\ (forall pre lk post k, map fst ls = pre ++ lk :: post -> line_means lk (Some (CAuth k)) -> (forall l, In l post -> ~ auth_line l) -> exists y, given post y /\ a = Some (k, y)).
Proof.
  intros F E. pose proof (C70_lines env ls F) as X. rewrite E in X. cbn [fst snd] in X. destruct (executed_auth _ _ _ _ _ _ X) as (h & N & _ & B). destruct (B eq_refl) as (a & C & G1 & G2). exists h, a. split; [exact C|]. split; [exact G1|exact G2].
Qed.
Print Assumptions C104_last_partial.
Example C104_case : exists pre lk post, map fst (lf ex_file) = pre ++ lk :: post /\ line_means lk (Some (CAuth KBasic)) /\ (forall l, In l post -> ~ auth_line l)
  /\ given post [AUser (bs "bob") (bs "se cret "); ARestrict (bs "/echo")].
Proof.
  exists (map fst (lf (firstn 5 ex_file))), (bs "Auth basic"), (map fst (lf (skipn 6 ex_file))). split; [reflexivity|]. split; [line_by|]. split.
  - intros l I (k & K). apply line_parse_spec in K. repeat (destruct I as [<-|I]; [vm_compute in K; discriminate|]). destruct I.
  - eapply G_user; [line_by|]. eapply G_restrict; [line_by|]. constructor.
Qed.
