(** The command line of piond, and what the program does with it. *)
From Coq Require Import String ZArith List Lia Bool.
From Coq Require Import ZifyBool.
From Verif Require Import Base Digits PiondModel PiondSpec PiondProofs.
Import ListNotations.

(** C142: what the options say. A system that reads addresses as they are typed, for the examples. *)
Definition ex_env : penv := {| e_dir := fun d => str_eqb d (bs "/lib"); e_addr := fun a => if str_eqb a (bs "127.0.0.1") then Some a else None |}.
(** the settings that options [l] ask for *)
Definition asks (e : penv) (l : list popt) (c : pcmd) : Prop :=
  pc_port c = given 8080 (last_given port_given l)
  /\ pc_addr c = (match last_given ip_given l with Some a => e_addr e a | None => None end)
  /\ pc_config c = given [] (last_given config_given l)
  /\ pc_ssl c = last_given ssl_given l
  /\ pc_dirs c = all_given dir_given l
  /\ pc_opts c = all_given option_given l
  /\ (pc_verbose c = true <-> In OVerbose l).

Theorem C142_service_line_partial : forall e l r s,
  Forall (opt_ok e) l -> plain r -> plain s ->
  exists c, command_line e (typed l ++ [r; s]) = Run c /\ asks e l c /\ pc_resource c = r /\ pc_service c = s.
Proof.
  intros e l r s H R S. unfold command_line. rewrite parse_opts by exact H. rewrite parse_named by assumption. cbn [pc_resource pc_service set_service set_resource pc_config].
  rewrite (proj2 (plain_option r R)), (proj2 (plain_option s S)). rewrite andb_false_r. eexists. split; [reflexivity|].
  destruct (fields e l cmd_init H) as (A1 & A2 & A3 & A4 & A5 & A6 & A7 & A8). unfold asks.
  cbn [pc_port pc_addr pc_config pc_ssl pc_dirs pc_opts pc_verbose set_service set_resource]. rewrite A1, A2, A3, A6, A7, A8, (verbose_told e l cmd_init).
  split; [|split; reflexivity]. destruct (last_given ssl_given l); (do 6 (split; [reflexivity|])); (split; [intros [X|X]; [discriminate|exact X]|auto]).
Qed.
Print Assumptions C142_service_line_partial.

Theorem C142_config_line_partial : forall e l names,
  Forall (opt_ok e) l -> given [] (last_given config_given l) <> [] -> (List.length names <= 2)%nat -> (forall x t, In x names -> x <> ch "-" :: t) ->
  exists c, command_line e (typed l ++ names) = Run c /\ asks e l c
    /\ pc_service c = match names with [_; s] => s | [s] => s | _ => [] end /\ pc_resource c = match names with [r; _] => r | _ => [] end.
Proof.
  intros e l names H N L U. unfold command_line. rewrite parse_opts by exact H.
  assert (O : forall x, In x names -> is_option x = false).
  { intros [|c x] I; [reflexivity|]. cbn. apply Z.eqb_neq. intros ->. exact (U _ x I eq_refl). }
  destruct (fields e l cmd_init H) as (A1 & A2 & A3 & A4 & A5 & A6 & A7 & A8). change (pc_config cmd_init) with (@nil Z) in A3. cbn zeta in *.
  set (d := fold_left _ l cmd_init) in *.
  assert (exists c, parse_args e d names = Run c /\ pc_config c = pc_config d /\ (asks e l d -> asks e l c)
    /\ pc_service c = match names with [_; s] => s | [s] => s | _ => pc_service d end /\ pc_resource c = match names with [r; _] => r | _ => pc_resource d end) as (c & E & C & K & S & R).
  { destruct names as [|x [|y [|z names]]]; [| | |cbn in L; lia]; cbn [parse_args]; rewrite ?(O x), ?(O y) by (cbn; auto); eexists; (split; [reflexivity|]); (split; [reflexivity|]); (split; [intros AK; exact AK|]); split; reflexivity. }
  rewrite E, C, A3. destruct (given [] (last_given config_given l)) eqn:G; [congruence|]. cbn [is_nil andb]. exists c. split; [reflexivity|]. split.
  - apply K. unfold asks, d. rewrite (verbose_told e l cmd_init). fold d. rewrite A1, A2, A3, A6, A7, A8, G.
    destruct (last_given ssl_given l); (do 6 (split; [reflexivity|])); (split; [intros [X|X]; [discriminate|exact X]|auto]).
  - rewrite S, R, A4, A5. change (pc_service cmd_init) with (@nil Z). change (pc_resource cmd_init) with (@nil Z). auto.
Qed.
Print Assumptions C142_config_line_partial.

(** Without a service and without a configuration file, usage is shown. *)
Theorem C142_nothing_to_serve_partial : forall e l x, Forall (opt_ok e) l -> last_given config_given l = None -> plain x ->
  command_line e (typed l) = Usage /\ command_line e (typed l ++ [x]) = Usage.
Proof.
  intros e l x H N X. destruct (fields e l cmd_init H) as (A1 & A2 & A3 & A4 & A5 & A6 & A7 & A8). rewrite N in A3. cbn [given] in A3. change (pc_config cmd_init) with (@nil Z) in A3. split; unfold command_line.
  - rewrite <- (app_nil_r (typed l)), parse_opts by exact H. cbn [parse_args]. rewrite A3, A4. reflexivity.
  - rewrite parse_opts by exact H. cbn [parse_args]. rewrite (proj1 (plain_option x X)). cbn [set_service pc_config pc_resource]. rewrite A3, A4. reflexivity.
Qed.
Print Assumptions C142_nothing_to_serve_partial.

(** An argument that begins with a minus sign and is none of the options, or an option without the value it needs, shows usage;
    a directory that does not exist is an error; more than two names show usage. *)
Definition option_names : list (list Z) := [bs "-p"; bs "-i"; bs "-c"; bs "-d"; bs "-o"; bs "-ssl"; bs "-v"].
Theorem C142_unknown_partial : forall e l s rest, Forall (opt_ok e) l -> ~ In (ch "-" :: s) option_names ->
  command_line e (typed l ++ (ch "-" :: s) :: rest) = Usage.
Proof.
  intros e l s rest H N. unfold command_line. rewrite parse_opts by exact H. cbn [parse_args].
  change (is_option (ch "-" :: s)) with true. cbv iota.
  assert (F : forall x, In x option_names -> str_eqb (ch "-" :: s) x = false) by (intros x I; apply str_eqb_neq; intros Q; rewrite <- Q in I; contradiction).
  rewrite (F (bs "-p")), (F (bs "-i")), (F (bs "-c")), (F (bs "-d")), (F (bs "-o")), (F (bs "-ssl")), (F (bs "-v")) by (unfold option_names; cbn [In]; tauto).
  destruct rest; reflexivity.
Qed.
Print Assumptions C142_unknown_partial.
Theorem C142_value_missing_partial : forall e l o, Forall (opt_ok e) l -> In o [bs "-p"; bs "-i"; bs "-c"; bs "-d"; bs "-o"; bs "-ssl"] ->
  command_line e (typed l ++ [o]) = Usage.
Proof.
  intros e l o H I. unfold command_line. rewrite parse_opts by exact H. cbn [In] in I. repeat destruct I as [<-|I]; try reflexivity. contradiction.
Qed.
Print Assumptions C142_value_missing_partial.
Theorem C142_names_partial : forall e l r s x rest, Forall (opt_ok e) l -> plain r -> command_line e (typed l ++ r :: s :: x :: rest) = Usage.
Proof.
  intros e l r s x rest H R. unfold command_line. rewrite parse_opts by exact H. cbn [parse_args]. rewrite (proj1 (plain_option r R)). reflexivity.
Qed.
Print Assumptions C142_names_partial.
Theorem C142_refused_values_partial : forall e l v rest, Forall (opt_ok e) l ->
  (e_dir e v = false -> command_line e (typed l ++ bs "-d" :: v :: rest) = NoDirectory)
  /\ (~ In (ch "=") v -> command_line e (typed l ++ bs "-o" :: v :: rest) = Usage)
  /\ (e_addr e v = None -> command_line e (typed l ++ bs "-i" :: v :: rest) = Terminated).
Proof.
  intros e l v rest H. unfold command_line. rewrite !parse_opts by exact H. set (c := fold_left _ l cmd_init). split; [|split]; intros D.
  - change (parse_args e c (bs "-d" :: v :: rest)) with (if e_dir e v then parse_args e (add_dir v c) rest else NoDirectory). rewrite D. reflexivity.
  - change (parse_args e c (bs "-o" :: v :: rest)) with (match split_option v with Some o => parse_args e (add_opt o c) rest | None => Usage end).
    assert (E : split_option v = None). { clear - D. induction v as [|a v IH]; [reflexivity|]. cbn [split_option]. destruct (a =? ch "=") eqn:E; [elim D; left; lia|].
      rewrite IH; [reflexivity|]. intros X. apply D. right. exact X. } rewrite E. reflexivity.
  - change (parse_args e c (bs "-i" :: v :: rest)) with (match e_addr e v with Some x => parse_args e (set_addr x c) rest | None => Terminated end). rewrite D. reflexivity.
Qed.
Print Assumptions C142_refused_values_partial.

(** Every number is taken as a port: modulo 65536, and multiples of it as 8080. *)
Theorem C142_port_partial : forall n, 0 <= n < two64 -> port_of (print_dec n) = if n mod 65536 =? 0 then 8080 else n mod 65536.
Proof. intros n H. unfold port_of. rewrite strtoul_print by lia. replace (n <? two64) with true by lia. reflexivity. Qed.
Print Assumptions C142_port_partial.

(** The full claim: the port used is the one typed, and other texts are refused. *)
Definition only_ports : Prop := forall e v r s, plain r -> plain s ->
  match command_line e [bs "-p"; v; r; s] with Run c => v = print_dec (pc_port c) | _ => True end.
Theorem C142_only_ports_refuted : ~ only_ports.
Proof.
  intros H. specialize (H ex_env (bs "70000") (bs "/") (bs "H")). assert (X : bs "70000" = print_dec 4464).
  { apply H; [exists (ch "/"), []|exists (ch "H"), []]; split; try reflexivity; discriminate. }
  vm_compute in X. congruence.
Qed.
Print Assumptions C142_only_ports_refuted.
(** The full claim: whatever is typed, the program either serves or says what is wrong. *)
Definition always_says : Prop := forall e args, command_line e args <> Terminated.
Theorem C142_always_says_refuted : ~ always_says.
Proof. intros H. apply (H ex_env [bs "-i"; bs "localhost"; bs "/"; bs "H"]). reflexivity. Qed.
Print Assumptions C142_always_says_refuted.

Example C142_case : let l := [OPort 80; OOption (bs "directory") (bs "/a=b"); OIp (bs "127.0.0.1"); OVerbose; OPort 8081; ODir (bs "/lib"); OOption (bs "x") []] in
  Forall (opt_ok ex_env) l /\ plain (bs "/doc") /\ plain (bs "FileService")
  /\ exists c, command_line ex_env [bs "-p"; bs "80"; bs "-o"; bs "directory=/a=b"; bs "-i"; bs "127.0.0.1"; bs "-v"; bs "-p"; bs "8081"; bs "-d"; bs "/lib"; bs "-o"; bs "x="; bs "/doc"; bs "FileService"] = Run c
     /\ pc_port c = 8081 /\ pc_opts c = [(bs "directory", bs "/a=b"); (bs "x", [])].
Proof.
  cbv zeta. split; [repeat constructor; cbn; try lia; try discriminate; try (intros I; decompose [or] I; try discriminate; auto)|].
  split; [eexists _, _; split; [reflexivity|discriminate]|]. split; [eexists _, _; split; [reflexivity|discriminate]|].
  eexists. split; [vm_compute; reflexivity|]. split; vm_compute; reflexivity.
Qed.

(** C143: what is done with a server. The operations in the order in which they are wanted. *)
Definition wanted (ssl : bool) (e : penv) (l : list popt) (r s : list Z) : list pevent :=
  (match last_given ssl_given l with Some f => if ssl then [EKeyFile f] else [] | None => [] end)
  ++ [ELoad r s] ++ map (fun o => EOption r (fst o) (snd o)) (all_given option_given l)
  ++ [EStart (match last_given ip_given l with Some a => e_addr e a | None => None end) (given 8080 (last_given port_given l)); EShutdown].

Lemma steps_wanted ssl e l r s : Forall (opt_ok e) l -> plain r -> plain s -> last_given config_given l = None ->
  exists c, command_line e (typed l ++ [r; s]) = Run c /\ steps ssl c = wanted ssl e l r s.
Proof.
  intros H R S N. destruct (C142_service_line_partial e l r s H R S) as (c & E & (A1 & A2 & A3 & A4 & A5 & A6 & A7) & B1 & B2). exists c. split; [exact E|].
  unfold steps, wanted. rewrite A1, A2, A3, A4, A6, B1, B2, N. reflexivity.
Qed.

(** If nothing fails, everything is done, in this order. *)
Theorem C143_all_done_partial : forall ssl e throws l r s,
  Forall (opt_ok e) l -> plain r -> plain s -> last_given config_given l = None ->
  (forall x, In x (wanted ssl e l r s) -> throws x = false) ->
  piond e ssl throws (typed l ++ [r; s]) = (wanted ssl e l r s, Some 0).
Proof.
  intros ssl e throws l r s H R S N F. destruct (steps_wanted ssl e l r s H R S N) as (c & E & T). unfold piond. rewrite E, T, exec_all by exact F. reflexivity.
Qed.
Print Assumptions C143_all_done_partial.
(** Whatever fails: the server is started only after the service was loaded and every option was set, and with a key file only after the key file was read. *)
Theorem C143_start_last_partial : forall ssl e throws l r s a p,
  Forall (opt_ok e) l -> plain r -> plain s -> last_given config_given l = None ->
  In (EStart a p) (fst (piond e ssl throws (typed l ++ [r; s]))) ->
  In (ELoad r s) (fst (piond e ssl throws (typed l ++ [r; s])))
  /\ (forall n v, In (OOption n v) l -> In (EOption r n v) (fst (piond e ssl throws (typed l ++ [r; s]))))
  /\ (forall f, last_given ssl_given l = Some f -> ssl = true -> In (EKeyFile f) (fst (piond e ssl throws (typed l ++ [r; s]))))
  /\ p = given 8080 (last_given port_given l) /\ a = (match last_given ip_given l with Some a => e_addr e a | None => None end).
Proof.
  intros ssl e throws l r s a p H R S N I. destruct (steps_wanted ssl e l r s H R S N) as (c & E & T). unfold piond in *. rewrite E, T in *. cbn [fst] in *.
  set (pre := (match last_given ssl_given l with Some f => if ssl then [EKeyFile f] else [] | None => [] end) ++ [ELoad r s] ++ map (fun o => EOption r (fst o) (snd o)) (all_given option_given l)).
  set (st := EStart (match last_given ip_given l with Some a => e_addr e a | None => None end) (given 8080 (last_given port_given l))).
  assert (W : wanted ssl e l r s = pre ++ [st; EShutdown]) by (unfold wanted, pre, st; rewrite <- !app_assoc; reflexivity). rewrite W in *.
  assert (NP : ~ In (EStart a p) pre). { unfold pre. rewrite !in_app_iff. intros [X|[X|X]].
    - destruct (last_given ssl_given l); [destruct ssl; cbn in X; intuition discriminate|contradiction].
    - cbn in X. intuition discriminate.
    - apply in_map_iff in X. destruct X as (o & X & _). discriminate. }
  assert (Q : In (EStart a p) (exec throws (pre ++ [st; EShutdown])) -> (forall x, In x pre -> In x (exec throws (pre ++ [st; EShutdown]))) /\ EStart a p = st).
  { clear - NP. revert NP. generalize pre. clear. induction pre as [|x q IH]; intros NP.
    - cbn. destruct (throws st); [intros []|]. destruct (throws EShutdown); cbn; intros [<-|X]; try (split; [intros ? []|reflexivity]); cbn in X; try contradiction; destruct X as [X|X]; try discriminate; contradiction.
    - cbn [app exec]. destruct (throws x); [intros []|]. cbn [In]. intros [->|X]; [elim NP; left; reflexivity|].
      destruct (IH (fun Y => NP (or_intror Y)) X) as [A B]. split; [|exact B]. intros y [->|Y]; [left; reflexivity|right; apply A; exact Y]. }
  destruct (Q I) as [A B]. split; [|split; [|split]].
  - apply A. unfold pre. rewrite !in_app_iff. right. left. left. reflexivity.
  - intros n v J. apply A. unfold pre. rewrite !in_app_iff. right. right. apply in_map_iff. exists (n, v). split; [reflexivity|].
    unfold all_given. apply in_concat. exists [(n, v)]. split; [|left; reflexivity]. apply in_map_iff. exists (OOption n v). split; [reflexivity|exact J].
  - intros f F ->. apply A. unfold pre. rewrite F, !in_app_iff. left. left. reflexivity.
  - unfold st in B. injection B as -> ->. split; reflexivity.
Qed.
Print Assumptions C143_start_last_partial.
(** With a configuration file, the server is started with what the file says. *)
Theorem C143_config_partial : forall ssl e throws l f,
  Forall (opt_ok e) l -> last_given config_given l = Some f -> f <> [] -> last_given ssl_given l = None ->
  (forall x, throws x = false) ->
  piond e ssl throws (typed l)
  = ([EConfig f; EStart (match last_given ip_given l with Some a => e_addr e a | None => None end) (given 8080 (last_given port_given l)); EShutdown], Some 0).
Proof.
  intros ssl e throws l f H N NF NS F. destruct (C142_config_line_partial e l [] H) as (c & E & (A1 & A2 & A3 & A4 & A5 & A6 & A7) & _); [rewrite N; exact NF|cbn; lia|intros x t []|].
  rewrite app_nil_r in E.
  unfold piond. rewrite E, exec_all by auto. unfold steps. rewrite A1, A2, A3, A4, NS, N. cbn [given]. destruct f; [congruence|reflexivity].
Qed.
Print Assumptions C143_config_partial.
(** Nothing is done for a command line that is refused, and the status says so. *)
Theorem C143_refused_partial : forall e ssl throws args, (forall c, command_line e args <> Run c) -> fst (piond e ssl throws args) = [] /\ snd (piond e ssl throws args) <> Some 0.
Proof. intros e ssl throws args H. unfold piond. destruct (command_line e args) eqn:E; [elim (H c); reflexivity| | |]; split; cbn; congruence. Qed.
Print Assumptions C143_refused_partial.

(** The full claims. The status tells whether the server ran. *)
Definition status_tells : Prop := forall e ssl throws args, snd (piond e ssl throws args) = Some 0 -> In EShutdown (fst (piond e ssl throws args)).
Theorem C143_status_refuted : ~ status_tells.
Proof. intros H. apply (H ex_env true (fun _ => true) [bs "/"; bs "H"]). reflexivity. Qed.
Print Assumptions C143_status_refuted.
(** A server asked to use SSL is never started without a key file. *)
Definition ssl_or_nothing : Prop := forall e ssl throws l r s f a p, Forall (opt_ok e) l -> plain r -> plain s -> last_given ssl_given l = Some f ->
  In (EStart a p) (fst (piond e ssl throws (typed l ++ [r; s]))) -> In (EKeyFile f) (fst (piond e ssl throws (typed l ++ [r; s]))).
Theorem C143_ssl_refuted : ~ ssl_or_nothing.
Proof.
  intros H. specialize (H ex_env false (fun _ => false) [OSsl (bs "k")] (bs "/") (bs "H") (bs "k") None 8080).
  assert (X : In (EKeyFile (bs "k")) [ELoad (bs "/") (bs "H"); EStart None 8080; EShutdown]).
  { apply H; [repeat constructor|eexists _, _; split; [reflexivity|discriminate]|eexists _, _; split; [reflexivity|discriminate]|reflexivity|right; left; reflexivity]. }
  cbn in X. intuition discriminate.
Qed.
Print Assumptions C143_ssl_refuted.
(** Every option given is set, or the command line is refused. *)
Definition options_used : Prop := forall e l r s n v, Forall (opt_ok e) l -> plain r -> plain s -> In (OOption n v) l ->
  snd (piond e true (fun _ => false) (typed l ++ [r; s])) = Some 0 -> In (EOption r n v) (fst (piond e true (fun _ => false) (typed l ++ [r; s]))).
Theorem C143_options_refuted : ~ options_used.
Proof.
  intros H. specialize (H ex_env [OConfig (bs "f"); OOption (bs "a") (bs "b")] (bs "/") (bs "H") (bs "a") (bs "b")).
  assert (X : In (EOption (bs "/") (bs "a") (bs "b")) [EConfig (bs "f"); EStart None 8080; EShutdown]).
  { apply H; [repeat constructor; cbn; intros I; decompose [or] I; try discriminate; auto|eexists _, _; split; [reflexivity|discriminate]|eexists _, _; split; [reflexivity|discriminate]|right; left; reflexivity|reflexivity]. }
  cbn in X. intuition discriminate.
Qed.
Print Assumptions C143_options_refuted.

Example C143_case : let l := [OPort 81; OOption (bs "a") (bs "1"); OSsl (bs "k"); OOption (bs "b") (bs "2")] in
  Forall (opt_ok ex_env) l /\ last_given config_given l = None
  /\ piond ex_env true (fun _ => false) (typed l ++ [bs "/"; bs "H"]) = ([EKeyFile (bs "k"); ELoad (bs "/") (bs "H"); EOption (bs "/") (bs "a") (bs "1"); EOption (bs "/") (bs "b") (bs "2"); EStart None 81; EShutdown], Some 0)
  /\ piond ex_env true (fun x => match x with EOption _ n _ => str_eqb n (bs "b") | _ => false end) (typed l ++ [bs "/"; bs "H"]) = ([EKeyFile (bs "k"); ELoad (bs "/") (bs "H"); EOption (bs "/") (bs "a") (bs "1")], Some 0).
Proof. cbv zeta. split; [repeat constructor; cbn; try lia; intros I; decompose [or] I; try discriminate; auto|]. repeat split; vm_compute; reflexivity. Qed.
