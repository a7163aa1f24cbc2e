(** C149, C150: how the files of plug-ins are found, and the list of plug-ins. *)
From Coq Require Import String ZArith List Lia Bool.
From Coq Require Import ZifyBool.
From Verif Require Import Base SMap Runs Threads PathModel FileSpec PathProofs PluginModel PluginSpec PluginProofs FindModel.
Import ListNotations.

(* ------------------------------------------------------------------ C149 *)

(** Where a plug-in is looked for, first to last. *)
Definition places (dirs : list (list Z)) (name ext : list Z) : list (list Z) :=
  [name; name ++ ext] ++ concat (map (fun d => [d ++ bs "/" ++ name; d ++ bs "/" ++ name ++ ext]) dirs).
(** directories and names as they are written mostly: no slash at the end of the one and at the begin of the other *)
Definition plain_dir (d : list Z) : Prop := d <> [] /\ last d 0 <> 47.
Definition plain_start (name : list Z) : Prop := exists c r, name = c :: r /\ c <> 47.

Lemma append_plain d name : plain_dir d -> plain_start name -> p_append d name = d ++ bs "/" ++ name.
Proof.
  intros [D1 D2] (c & r & -> & C). unfold p_append. destruct d as [|x d]; [tauto|]. assert (last (x :: d) 0 =? SLASH = false) as -> by (apply Z.eqb_neq; exact D2).
  assert (c =? SLASH = false) as -> by (apply Z.eqb_neq; exact C). reflexivity.
Qed.
Lemma plain_ext name ext : plain_start name -> plain_start (name ++ ext).
Proof. intros (c & r & -> & C). exists c, (r ++ ext). auto. Qed.
Lemma check_places fs d name ext : plain_dir d -> plain_start name ->
  check_for_file fs d name ext = find (is_regular fs) [d ++ bs "/" ++ name; d ++ bs "/" ++ name ++ ext].
Proof.
  intros D N. unfold check_for_file. rewrite (append_plain d (name ++ ext)) by (auto using plain_ext). rewrite append_plain by auto.
  destruct N as (c & r & -> & C). cbn [find]. destruct (is_regular fs (d ++ bs "/" ++ c :: r)); [reflexivity|]. destruct (is_regular fs _); reflexivity.
Qed.
Lemma find_two {A} (f : A -> bool) a b : find f (a ++ b) = match find f a with Some x => Some x | None => find f b end.
Proof. induction a as [|x a IH]; [reflexivity|]. cbn. destruct (f x); auto. Qed.
Lemma check_dirs_places fs name ext : plain_start name -> forall dirs, Forall plain_dir dirs ->
  check_dirs fs dirs name ext = find (is_regular fs) (concat (map (fun d => [d ++ bs "/" ++ name; d ++ bs "/" ++ name ++ ext]) dirs)).
Proof.
  intros N. induction dirs as [|d dirs IH]; intros F; [reflexivity|]. inversion F; subst. cbn [map concat check_dirs]. rewrite find_two, check_places, IH by auto. reflexivity.
Qed.
(** The file found is the first of these places where there is a regular file; none is found only if there is none. *)
Theorem C149_search_partial : forall fs dirs name, Forall plain_dir dirs -> plain_start name ->
  find_plugin_file fs dirs name = find (is_regular fs) (places dirs name (bs ".so")) /\
  find_config_file fs dirs name = find (is_regular fs) (places dirs name (bs ".conf")).
Proof.
  intros fs dirs name D N. assert (X : forall ext, find_file fs dirs name ext = find (is_regular fs) (places dirs name ext)); [|split; apply X].
  intros ext. unfold find_file, places. rewrite check_dirs_places, find_two by auto. unfold check_for_file. cbn [find]. destruct (is_regular fs name); [reflexivity|].
  destruct (is_regular fs (name ++ ext)); reflexivity.
Qed.
Print Assumptions C149_search_partial.

(** Names as they are meant to be: neither slash nor dot. *)
Definition plain_name (name : list Z) : Prop := name <> [] /\ ~ In 47 name /\ ~ In 46 name.

Lemma last_dot_none f : ~ In 46 f -> last_dot f = None.
Proof. induction f as [|c f IH]; intros N; [reflexivity|]. cbn. rewrite IH by (intros I; apply N; right; exact I). assert (c =? 46 = false) as -> by (apply Z.eqb_neq; intros ->; apply N; left; reflexivity). reflexivity. Qed.
Lemma last_dot_app a b : ~ In 46 b -> last_dot (a ++ 46 :: b) = Some (a, 46 :: b).
Proof. intros N. induction a as [|c a IH]; [cbn; rewrite last_dot_none by exact N; reflexivity|]. cbn [app last_dot]. rewrite IH. reflexivity. Qed.
Lemma last_dot_spec f a b : last_dot f = Some (a, b) -> exists b', f = a ++ b /\ b = 46 :: b' /\ ~ In 46 b'.
Proof.
  revert a b. induction f as [|c f IH]; intros a b H; [discriminate|]. cbn in H. destruct (last_dot f) as [[a' b']|] eqn:E.
  - injection H as <- <-. destruct (IH _ _ eq_refl) as (b1 & -> & -> & N). eauto.
  - destruct (c =? 46) eqn:C; [|discriminate]. injection H as <- <-. apply Z.eqb_eq in C. subst c. exists f. split; [reflexivity|]. split; [reflexivity|]. clear - E. induction f as [|c f IH]; [auto|].
    cbn in E. destruct (last_dot f) as [[? ?]|]; [discriminate|]. destruct (c =? 46) eqn:C; [discriminate|]. intros [->|I]; [discriminate|]. exact (IH eq_refl I).
Qed.
Lemma stem_plain f : ~ In 46 f -> stem f = f.
Proof. intros N. unfold stem. rewrite last_dot_none by exact N. destruct (_ || _); reflexivity. Qed.
Lemma stem_so name : stem (name ++ bs ".so") = name.
Proof.
  assert (L : forall n, length (n ++ bs ".so") = (length n + 3)%nat) by (intros n; rewrite app_length; reflexivity).
  unfold stem. assert (str_eqb (name ++ bs ".so") DOT || str_eqb (name ++ bs ".so") DOTDOT = false) as ->.
  { apply orb_false_iff; split; apply str_eqb_neq; intros E; apply (f_equal (@length Z)) in E; rewrite L in E; cbn in E; lia. }
  change (bs ".so") with (46 :: bs "so"). rewrite last_dot_app; [reflexivity|]. vm_compute. intuition discriminate.
Qed.
Lemma filename_append d n : el_ok n -> filename (p_append d n) = n.
Proof.
  intros N. assert (LS : last (p_append d n) 0 <> 47).
  { assert (X : forall q, last (q ++ n) 0 <> 47). { intros q. destruct N as [N1 N2]. destruct (exists_last N1) as (m & z & ->). rewrite app_assoc, last_snoc_z. intros ->. apply N2. apply in_or_app. right. left. reflexivity. }
    destruct d as [|x d]; [destruct n; exact (X [])|]. destruct (append_split (x :: d) n N) as [q E]; [discriminate|]. rewrite E. replace (q ++ SLASH :: n) with ((q ++ [SLASH]) ++ n) by (rewrite <- app_assoc; reflexivity). apply X. }
  unfold filename, elements. assert (last (p_append d n) 0 =? SLASH = false) as -> by (apply Z.eqb_neq; exact LS). rewrite andb_false_r, app_nil_r.
  destruct d as [|x d].
  - destruct N as [N1 N2]. destruct n as [|c n]; [tauto|]. cbn [p_append]. unfold names. rewrite fields_noslash by exact N2. cbn [filter is_nil negb]. apply last_last.
  - rewrite names_snoc by (try discriminate; exact N). rewrite app_assoc. apply last_last.
Qed.
Lemma base_of_place d name : plain_name name -> plugin_name_of (p_append d name) = name /\ plugin_name_of (p_append d (name ++ bs ".so")) = name.
Proof.
  intros (N1 & N2 & N3). unfold plugin_name_of. rewrite !filename_append.
  - split; [apply stem_plain; exact N3 | apply stem_so].
  - split; [destruct name; discriminate|]. rewrite in_app_iff. intros [I|I]; [exact (N2 I)|]. vm_compute in I. intuition discriminate.
  - split; assumption.
Qed.
Lemma check_base fs d name f : plain_name name -> check_for_file fs d name (bs ".so") = Some f -> plugin_name_of f = name.
Proof.
  intros N H. unfold check_for_file in H. destruct (base_of_place d name N) as [A B]. destruct name as [|c r]; [destruct N; tauto|].
  destruct (is_regular fs (p_append d (c :: r))); [injection H as <-; exact A|]. destruct (is_regular fs _); [injection H as <-; exact B|discriminate].
Qed.
Lemma found_base fs dirs name f : plain_name name -> find_plugin_file fs dirs name = Some f -> plugin_name_of f = name.
Proof.
  intros N H. unfold find_plugin_file, find_file in H. destruct (check_for_file fs name [] PLUGIN_EXTENSION) eqn:E.
  - injection H as <-. destruct (base_of_place [] name N) as [A B]. unfold check_for_file in E. destruct (is_regular fs name); [injection E as <-; destruct name; exact A|].
    destruct (is_regular fs _); [injection E as <-; destruct name; exact B|discriminate].
  - clear E. induction dirs as [|d dirs IH]; [discriminate|]. cbn [check_dirs] in H. destruct (check_for_file fs d name PLUGIN_EXTENSION) eqn:E; [injection H as <-; exact (check_base _ _ _ _ N E)|auto].
Qed.

(** there are fewer than 2^64 handles *)
Definition countable (s : plib) : Prop := Z.of_nat (length (p_handles s)) < two64.
Definition open_as (s : plib) (i : nat) (name : list Z) : Prop := exists k d, nth_error (p_handles s) i = Some (HOpen k) /\ nth_error (p_datas s) k = Some d /\ d_name d = name /\ d_freed d = false.
Definition known (s : plib) (name : list Z) : Prop := exists k d, nth_error (p_datas s) k = Some d /\ d_name d = name /\ d_freed d = false.

Lemma release_quiet s i s1 e : release_data s i = (s1, e) -> ~ In EThrow e /\ (forall name, sm_find (p_map s) name = None -> sm_find (p_map s1) name = None).
Proof.
  intros R. unfold release_data in R. destruct (nth_error (p_handles s) i) as [[| |k]|]; try (injection R as <- <-; split; [cbn; tauto|auto]).
  destruct (nth_error (p_datas s) k) as [d|]; [|injection R as <- <-; split; [cbn; intuition discriminate|auto]]. destruct (d_freed d); [injection R as <- <-; split; [cbn; intuition discriminate|auto]|].
  destruct (_ && _); injection R as <- <-; (split; [cbn; intuition discriminate|]); intros name N; cbn; [|exact N]. rewrite sm_find_erase, N. destruct (str_eqb _ _); reflexivity.
Qed.
Lemma open_as_ref s i k d name : (i < length (p_handles s))%nat -> nth_error (p_datas s) k = Some d -> d_name d = name -> d_freed d = false -> open_as (add_ref (set_handle s i (HOpen k)) k) i name.
Proof.
  intros I D N F. unfold add_ref. cbn [set_handle p_datas p_map p_handles p_hung]. rewrite D. exists k, (mkd (d_name d) (d_static d) (wrap64 (d_refs d + 1)) (d_freed d)). cbn [p_handles p_datas].
  split; [apply set_nth_same; exact I|]. split; [apply set_nth_same; exact (nth_lt _ _ _ D)|]. auto.
Qed.
(** Opening a plug-in by such a name either opens a plug-in of that name or throws, and it throws exactly if the plug-in is not in use yet and there is no file of it, or one that cannot be loaded. *)
Theorem C149_open_partial : forall fs opens dirs ops s tr i name s1 e, run p_step p_init ops = Some (s, tr) -> countable s -> alive s i = true -> plain_name name ->
  open_plugin_named fs opens dirs s i name = (s1, e) -> ~ In EHang e ->
  (~ In EThrow e -> open_as s1 i name) /\ (In EThrow e <-> ~ known s name /\ (forall f, find_plugin_file fs dirs name = Some f -> opens f = false)).
Proof.
  intros fs opens dirs ops s tr i name s1 e R F A N E NH. pose proof (p_run_inv _ _ _ R F) as V. destruct (alive_nth _ _ A) as (h & H & NG). pose proof (nth_lt _ _ _ H) as IL.
  assert (K : known s name <-> sm_find (p_map s) name <> None).
  { split; [intros (k & d & D); intros X; assert (Y : sm_find (p_map s) name = Some k) by (apply (v_map _ _ V); eauto); congruence|].
    intros X. destruct (sm_find (p_map s) name) as [k|] eqn:Y; [|tauto]. apply (v_map _ _ V) in Y. destruct Y as (d & Y). exists k, d. exact Y. }
  unfold open_plugin_named, open_name in E. destruct (sm_find (p_map s) name) as [k|] eqn:SF.
  - rewrite H in E. destruct h as [| |k']; [tauto| |injection E as <- <-; exfalso; apply NH; left; reflexivity].
    injection E as <- <-. apply (v_map _ _ V) in SF. destruct SF as (d & D & DN & DF). split; [intros _; eapply open_as_ref; eauto|]. split; [intros []|]. intros [X _]. exfalso. apply X. apply K. discriminate.
  - assert (NK : ~ known s name) by (rewrite K; tauto). destruct (find_plugin_file fs dirs name) as [f|] eqn:FF.
    + rewrite (found_base _ _ _ _ N FF) in E. unfold open_file in E. destruct (release_data s i) as [s0 e0] eqn:RD. destruct (release_quiet _ _ _ _ RD) as [Q1 Q2]. rewrite (Q2 _ SF) in E.
      destruct (release_inv _ _ _ _ _ _ V F H NG RD) as (_ & HS & _). destruct (opens f) eqn:O; injection E as <- <-.
      * split; [intros _|].
        -- exists (length (p_datas s0)), (mkd name false 1 false). cbn. split; [apply set_nth_same; rewrite HS, set_nth_length; exact IL|]. split; [rewrite nth_error_app2, Nat.sub_diag by lia; reflexivity|auto].
        -- rewrite in_app_iff. split; [intros [X|[X|[]]]; [contradiction|discriminate]|]. intros [_ X]. rewrite (X f eq_refl) in O. discriminate.
      * split; [intros X; exfalso; apply X, in_or_app; right; left; reflexivity|]. split; [intros _; split; [exact NK|intros g G; injection G as <-; exact O]|]. intros _. apply in_or_app. right. left. reflexivity.
    + injection E as <- <-. split; [intros X; exfalso; apply X; left; reflexivity|]. split; [intros _; split; [exact NK|intros g G; discriminate]|intros _; left; reflexivity].
Qed.
Print Assumptions C149_open_partial.

(** The full claims. A plug-in that was asked for by name comes from one of the directories for plug-ins. *)
Definition from_directories : Prop := forall fs dirs name f, find_plugin_file fs dirs name = Some f -> exists d r, In d dirs /\ f = p_append d r.
Theorem C149_directories_refuted : ~ from_directories.
Proof.
  intros H. destruct (H (fun p => Some (str_eqb p (bs "Hello"))) [bs "/usr/lib/pion"] (bs "Hello") (bs "Hello") ltac:(vm_compute; reflexivity)) as (d & r & [<-|[]] & E).
  assert (X : hd 0 (p_append (bs "/usr/lib/pion") r) = 47) by (destruct r as [|c r]; [reflexivity|]; unfold p_append; destruct (_ || _); reflexivity). rewrite <- E in X. vm_compute in X. discriminate.
Qed.
Print Assumptions C149_directories_refuted.
(** If it is not taken from the current directory, the file is in that directory itself. *)
Definition stays_inside : Prop := forall fs dirs name f, (forall p, fs p = Some true -> exists r, p = 47 :: r) -> hd 0 name <> 47 -> find_plugin_file fs dirs name = Some f ->
  exists d, In d dirs /\ resolve [] (branch f) = resolve [] d.
Theorem C149_inside_refuted : ~ stays_inside.
Proof.
  intros H. destruct (H (fun p => Some (str_eqb p (bs "/usr/lib/pion/../../tmp/x.so"))) [bs "/usr/lib/pion"] (bs "../../tmp/x") (bs "/usr/lib/pion/../../tmp/x.so")) as (d & [<-|[]] & E).
  - intros p P. injection P as P. apply str_eqb_eq in P. subst p. eexists. reflexivity.
  - vm_compute. discriminate.
  - vm_compute. reflexivity.
  - vm_compute in E. discriminate.
Qed.
Print Assumptions C149_inside_refuted.
(** A name opens the plug-in of that name, whatever the name is. *)
Definition opens_its_name : Prop := forall fs opens dirs ops s tr i name s1 e, run p_step p_init ops = Some (s, tr) -> countable s -> alive s i = true ->
  open_plugin_named fs opens dirs s i name = (s1, e) -> ~ In EHang e -> ~ In EThrow e -> open_as s1 i name.
Theorem C149_name_refuted : ~ opens_its_name.
Proof.
  intros H. destruct (H (fun p => Some (str_eqb p (bs "/lib/Echo.v2"))) (fun _ => true) [bs "/lib"] [PNew] (mkp [] [] [HClosed] false) [] O (bs "Echo.v2")
    (fst (open_plugin_named (fun p => Some (str_eqb p (bs "/lib/Echo.v2"))) (fun _ => true) [bs "/lib"] (mkp [] [] [HClosed] false) O (bs "Echo.v2"))) [ELoad O]) as (k & d & A & B & C & _); try (vm_compute; reflexivity).
  - vm_compute. intuition discriminate.
  - vm_compute. intuition discriminate.
  - vm_compute in A. injection A as <-. vm_compute in B. injection B as <-. vm_compute in C. discriminate.
Qed.
Print Assumptions C149_name_refuted.
(** Two different files are two different plug-ins. *)
Definition own_library : Prop := forall fs opens dirs ops s tr n1 n2 f1 f2 s1 e1 s2 e2 k1 k2, run p_step p_init ops = Some (s, tr) -> countable s -> alive s 0 = true -> alive s 1 = true ->
  find_plugin_file fs dirs n1 = Some f1 -> find_plugin_file fs dirs n2 = Some f2 -> resolve [] f1 <> resolve [] f2 ->
  open_plugin_named fs opens dirs s 0 n1 = (s1, e1) -> open_plugin_named fs opens dirs s1 1 n2 = (s2, e2) ->
  nth_error (p_handles s2) 0 = Some (HOpen k1) -> nth_error (p_handles s2) 1 = Some (HOpen k2) -> k1 <> k2.
Theorem C149_library_refuted : ~ own_library.
Proof.
  intros H. set (fs := fun p => Some (str_eqb p (bs "/lib/old/Echo.so") || str_eqb p (bs "/lib/new/Echo.so"))). set (st := mkp [] [] [HClosed; HClosed] false).
  set (r1 := open_plugin_named fs (fun _ => true) [bs "/lib"] st 0 (bs "old/Echo")). set (r2 := open_plugin_named fs (fun _ => true) [bs "/lib"] (fst r1) 1 (bs "new/Echo")).
  apply (H fs (fun _ => true) [bs "/lib"] [PNew; PNew] st [] (bs "old/Echo") (bs "new/Echo") (bs "/lib/old/Echo.so") (bs "/lib/new/Echo.so") (fst r1) (snd r1) (fst r2) (snd r2) O O); try (vm_compute; reflexivity).
  vm_compute. discriminate.
Qed.
Print Assumptions C149_library_refuted.
Example C149_case : let fs := fun p => Some (str_eqb p (bs "/b/Hello.so") || str_eqb p (bs "/c/Hello")) in let dirs := [bs "/a"; bs "/b"; bs "/c"] in
  find_plugin_file fs dirs (bs "Hello") = Some (bs "/b/Hello.so") /\ find_plugin_file fs dirs (bs "Hell") = None
  /\ Forall plain_dir dirs /\ plain_start (bs "Hello") /\ plain_name (bs "Hello")
  /\ open_as (fst (open_plugin_named fs (fun _ => true) dirs (mkp [] [] [HClosed] false) 0 (bs "Hello"))) 0 (bs "Hello").
Proof.
  cbv zeta. split; [vm_compute; reflexivity|]. split; [vm_compute; reflexivity|]. split; [repeat constructor; discriminate|]. split; [exists 72, (bs "ello"); split; [reflexivity|discriminate]|].
  split; [split; [discriminate|split; vm_compute; intuition discriminate]|]. exists O. eexists. split; [vm_compute; reflexivity|]. split; [vm_compute; reflexivity|]. split; reflexivity.
Qed.

(* ------------------------------------------------------------------ C150 *)

(** The names listed are those of the regular files that end in .so in the directories, and those of the plug-ins that are linked. *)
Theorem C150_exact_partial : forall listing dirs linked l, get_all_plugin_names listing dirs linked = Some l ->
  forall n, In n l <-> (exists d es, In d dirs /\ listing d = Some es /\ In (n ++ bs ".so", true) es) \/ In n linked.
Proof.
  assert (E : forall f n, str_eqb (f_extension f) PLUGIN_EXTENSION = true /\ stem f = n <-> f = n ++ bs ".so").
  { intros f n. split.
    - intros [X Y]. apply str_eqb_eq in X. unfold f_extension in X. unfold stem in Y. destruct (_ || _); [discriminate|]. destruct (last_dot f) as [[a b]|] eqn:L; [|discriminate].
      subst. destruct (last_dot_spec _ _ _ L) as (b' & -> & _). reflexivity.
    - intros ->. split; [|apply stem_so]. apply str_eqb_eq. pose proof (stem_so n) as S. unfold stem in S. unfold f_extension. destruct (_ || _) eqn:O.
      + apply (f_equal (@length Z)) in S. rewrite app_length in S. cbn in S. lia.
      + change (bs ".so") with (46 :: bs "so"). rewrite last_dot_app; [reflexivity|]. vm_compute. intuition discriminate. }
  assert (D : forall es n, In n (dir_plugins es) <-> In (n ++ bs ".so", true) es).
  { induction es as [|[f reg] es IH]; intros n; [cbn; tauto|]. cbn [dir_plugins In]. rewrite in_app_iff, IH. specialize (E f n). destruct reg; cbn [andb].
    - destruct (str_eqb (f_extension f) PLUGIN_EXTENSION) eqn:X; cbn [In].
      + split; [intros [[Y|[]]|Y]; [left; f_equal; apply E; auto|auto]|]. intros [Y|Y]; [left; left; injection Y as Y; apply E; exact Y|auto].
      + split; [intros [[]|Y]; auto|]. intros [Y|Y]; [injection Y as Y; apply E in Y; destruct Y; discriminate|auto].
    - cbn [In]. split; [intros [[]|Y]; auto|]. intros [Y|Y]; [discriminate|auto]. }
  intros listing dirs linked l H n. unfold get_all_plugin_names in H. destruct (dirs_plugins listing dirs) as [l0|] eqn:G; [|discriminate]. injection H as <-. rewrite in_app_iff.
  assert (In n l0 <-> (exists d es, In d dirs /\ listing d = Some es /\ In (n ++ bs ".so", true) es)); [|tauto]. revert l0 G. induction dirs as [|d dirs IH]; intros l0 G.
  - injection G as <-. split; [intros []|]. intros (d & es & [] & _).
  - cbn [dirs_plugins] in G. destruct (listing d) as [es|] eqn:L; [|discriminate]. destruct (dirs_plugins listing dirs) as [l1|]; [|discriminate]. injection G as <-. rewrite in_app_iff, D, (IH l1 eq_refl).
    split.
    + intros [X|(d' & es' & A & B & C)]; [exists d, es; cbn; auto|exists d', es'; cbn; auto].
    + intros (d' & es' & [<-|A] & B & C); [left; congruence|right; eauto].
Qed.
Print Assumptions C150_exact_partial.

(** The answers of the file system fit together: what is a regular file in the list of a directory is one if asked for by its path; names in lists are not empty and have no slash. *)
Definition consistent (fs : regularity) (listing : list Z -> option (list (list Z * bool))) : Prop :=
  forall d es f, listing d = Some es -> In (f, true) es -> fs (p_append d f) = Some true /\ f <> [] /\ ~ In 47 f.
(** Every name that is listed and is not empty can be found again. *)
Theorem C150_found_partial : forall fs listing dirs linked l n, consistent fs listing -> get_all_plugin_names listing dirs linked = Some l -> In n l -> n <> [] -> ~ In n linked ->
  exists f, find_plugin_file fs dirs n = Some f /\ is_regular fs f = true.
Proof.
  intros fs listing dirs linked l n C H I NE NL. apply (C150_exact_partial _ _ _ _ H) in I. destruct I as [(d & es & D & L & I)|I]; [|contradiction]. destruct (C _ _ _ L I) as (R & _ & _).
  assert (X : forall st nm f, check_for_file fs st nm (bs ".so") = Some f -> is_regular fs f = true).
  { intros st nm f Y. unfold check_for_file in Y. destruct (is_regular fs (match nm with [] => st | _ => _ end)) eqn:A; [injection Y as <-; exact A|].
    destruct (is_regular fs (match nm with [] => st ++ _ | _ => _ end)) eqn:B; [injection Y as <-; exact B|discriminate]. }
  unfold find_plugin_file, find_file. change PLUGIN_EXTENSION with (bs ".so"). destruct (check_for_file fs n [] (bs ".so")) as [f|] eqn:E; [exists f; split; [reflexivity|exact (X _ _ _ E)]|]. clear E H.
  induction dirs as [|d' dirs IH]; [destruct D|]. cbn [check_dirs]. destruct (check_for_file fs d' n (bs ".so")) as [f|] eqn:E; [exists f; split; [reflexivity|exact (X _ _ _ E)]|].
  destruct D as [<-|D].
  - exfalso. unfold check_for_file in E. destruct n as [|c r]; [tauto|]. assert (is_regular fs (p_append d' ((c :: r) ++ bs ".so")) = true) as Y by (unfold is_regular; rewrite R; reflexivity).
    rewrite Y in E. destruct (is_regular fs (p_append d' (c :: r))); discriminate.
  - exact (IH D).
Qed.
Print Assumptions C150_found_partial.

(** The full claims: every name listed can be opened; no name is listed twice; a directory that cannot be read does not hide the others. *)
Definition all_found : Prop := forall fs listing dirs linked l n, consistent fs listing -> get_all_plugin_names listing dirs linked = Some l -> In n l -> ~ In n linked ->
  exists f, find_plugin_file fs dirs n = Some f.
Theorem C150_found_refuted : ~ all_found.
Proof.
  intros H. set (fs := fun p => Some (str_eqb p (bs "/lib/.so"))). set (listing := fun d => if str_eqb d (bs "/lib") then Some [(bs ".so", true)] else None).
  destruct (H fs listing [bs "/lib"] [] [[]] []) as [f F].
  - intros d es f L I. unfold listing in L. destruct (str_eqb d (bs "/lib")) eqn:D; [|discriminate]. injection L as <-. apply str_eqb_eq in D. subst d. destruct I as [I|[]]. injection I as <-. split; [vm_compute; reflexivity|].
    split; [discriminate|vm_compute; intuition discriminate].
  - vm_compute. reflexivity.
  - left. reflexivity.
  - intros [].
  - vm_compute in F. discriminate.
Qed.
Print Assumptions C150_found_refuted.
Definition listed_once : Prop := forall listing dirs linked l, get_all_plugin_names listing dirs linked = Some l -> NoDup linked -> NoDup dirs -> (forall d es, listing d = Some es -> NoDup (map fst es)) -> NoDup l.
Theorem C150_once_refuted : ~ listed_once.
Proof.
  intros H. assert (X : NoDup [bs "Hello"; bs "Hello"]).
  { apply (H (fun _ => Some [(bs "Hello.so", true)]) [bs "/a"; bs "/b"] []); [vm_compute; reflexivity|constructor| |].
    - constructor; [|constructor; [intros []|constructor]]. intros [E|[]]. discriminate E.
    - intros d es L. injection L as <-. constructor; [intros []|constructor]. }
  inversion X as [|x l N _]; subst. apply N. left. reflexivity.
Qed.
Print Assumptions C150_once_refuted.
Definition others_listed : Prop := forall listing dirs linked d es f, In d dirs -> listing d = Some es -> In (f ++ bs ".so", true) es -> exists l, get_all_plugin_names listing dirs linked = Some l /\ In f l.
Theorem C150_others_refuted : ~ others_listed.
Proof.
  intros H. destruct (H (fun d => if str_eqb d (bs "/a") then Some [(bs "Hello.so", true)] else None) [bs "/a"; bs "/removed"] [] (bs "/a") [(bs "Hello.so", true)] (bs "Hello")) as (l & E & _).
  - left. reflexivity.
  - vm_compute. reflexivity.
  - left. vm_compute. reflexivity.
  - vm_compute in E. discriminate.
Qed.
Print Assumptions C150_others_refuted.
(** The list fails exactly if one of the directories cannot be read. *)
Theorem C150_fails_partial : forall listing dirs linked, get_all_plugin_names listing dirs linked = None <-> exists d, In d dirs /\ listing d = None.
Proof.
  intros listing dirs linked. unfold get_all_plugin_names. assert (X : dirs_plugins listing dirs = None <-> exists d, In d dirs /\ listing d = None).
  { induction dirs as [|d dirs IH]; cbn [dirs_plugins]; [split; [discriminate|intros (d & [] & _)]|]. destruct (listing d) as [es|] eqn:L.
    - destruct (dirs_plugins listing dirs).
      + split; [discriminate|]. intros (d' & [<-|I] & N); [congruence|]. assert (Some l = None) by (apply IH; eauto). discriminate.
      + split; [intros _|reflexivity]. destruct IH as [IH _]. destruct (IH eq_refl) as (d' & I & N). exists d'. cbn. auto.
    - split; [intros _; exists d; cbn; auto|reflexivity]. }
  destruct (dirs_plugins listing dirs); [|exact X]. split; [discriminate|]. intros Y. apply X in Y. discriminate.
Qed.
Print Assumptions C150_fails_partial.
(** A directory can be added only if it is there; it is then searched after those added before, under the same path wherever the process goes to. *)
Theorem C150_added_partial : forall cwd there dirs dir, dir <> [] -> hd 0 cwd = 47 ->
  match add_plugin_directory cwd there dirs dir with
  | Some dirs' => exists p, dirs' = dirs ++ [p] /\ there p = true /\ hd 0 p = 47 /\ forall w, resolve w p = resolve (resolve [] cwd) dir
  | None => there (match dir with 47 :: _ => dir | _ => p_append cwd dir end) = false
  end.
Proof.
  intros cwd there dirs dir NE CW. unfold add_plugin_directory. destruct dir as [|c r]; [tauto|]. destruct (c =? SLASH) eqn:C.
  - apply Z.eqb_eq in C. subst c. unfold SLASH. destruct (there (47 :: r)) eqn:T; [|reflexivity]. eexists. split; [reflexivity|]. split; [first [exact T | reflexivity]|]. split; [reflexivity|]. intros w. rewrite !resolve_eq. reflexivity.
  - assert (c <> 47) as C' by (apply Z.eqb_neq in C; exact C). assert (match c with 47 => c :: r | _ => p_append cwd (c :: r) end = p_append cwd (c :: r)) as HM.
    { destruct (Z.eq_dec c 47); [contradiction|]. clear - n. repeat (match goal with |- context [match ?x with _ => _ end] => is_var x; destruct x end; try reflexivity; try contradiction). }
    destruct (there (p_append cwd (c :: r))) eqn:T; [|rewrite HM; exact T]. eexists. split; [reflexivity|]. split; [exact T|].
    destruct cwd as [|x cwd]; [discriminate|]. cbn [hd] in CW. subst x. unfold p_append. split; [destruct (_ || _); reflexivity|]. intros w. rewrite (resolve_eq (resolve [] (47 :: cwd)) (c :: r)).
    assert (start (resolve [] (47 :: cwd)) (c :: r) = resolve [] (47 :: cwd)) as ->. { unfold start. repeat (match goal with |- context [match ?x with _ => _ end] => is_var x; destruct x end; try reflexivity; try contradiction). }
    rewrite (resolve_eq w), (resolve_eq []). rewrite C, orb_false_r. assert (S1 : forall x, start w ((47 :: cwd) ++ x) = []) by reflexivity. assert (S2 : start [] (47 :: cwd) = []) by reflexivity.
    destruct (last (47 :: cwd) 0 =? SLASH) eqn:L; rewrite S1, S2; clear S1 S2.
    + apply Z.eqb_eq in L. destruct (@exists_last _ (47 :: cwd)) as (q & z & Eq); [discriminate|]. rewrite Eq in *. rewrite last_last in L. subst z. rewrite <- app_assoc. cbn [app].
      rewrite !fields_app_slash, !walk_app. reflexivity.
    + rewrite fields_app_slash, walk_app. reflexivity.
Qed.
Print Assumptions C150_added_partial.
Example C150_case : let listing := fun d => if str_eqb d (bs "/a") then Some [(bs "Hello.so", true); (bs "readme", true); (bs "x.so", false); (bs "My.App.so", true)] else Some [] in
  get_all_plugin_names listing [bs "/a"; bs "/b"] [bs "Linked"] = Some [bs "Hello"; bs "My.App"; bs "Linked"]
  /\ add_plugin_directory (bs "/home/me") (fun _ => true) [] (bs "lib") = Some [bs "/home/me/lib"].
Proof. vm_compute. split; reflexivity. Qed.
