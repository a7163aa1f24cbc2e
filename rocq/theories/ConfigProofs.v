(** Proofs about the configuration file. *)
From Coq Require Import String ZArith List Bool Lia.
From Verif Require Import Base ConfigModel ConfigSpec.
Import ListNotations.

Lemma blank_spec c : blank c = true <-> is_blank c.
Proof. unfold blank, is_blank. rewrite orb_true_iff, !Z.eqb_eq. reflexivity. Qed.
Lemma eol_spec c : eol c = true <-> is_eol c.
Proof. unfold eol, is_eol. rewrite orb_true_iff, !Z.eqb_eq. reflexivity. Qed.
Lemma alpha_spec c : alpha c = true <-> is_letter c.
Proof. unfold alpha, is_letter. rewrite orb_true_iff, !andb_true_iff, !Z.leb_le. reflexivity. Qed.
Lemma alpha_blank c : alpha c = true -> blank c = false.
Proof. unfold alpha, blank. lia. Qed.

(* ------------------------------------------------------------------ a reader of lines *)

Fixpoint span (f : Z -> bool) (l : list Z) : list Z * list Z :=
  match l with [] => ([], []) | c :: l' => if f c then (c :: fst (span f l'), snd (span f l')) else ([], l) end.
Definition drop (f : Z -> bool) (l : list Z) : list Z := snd (span f l).
Lemma span_app f l : l = fst (span f l) ++ snd (span f l).
Proof. induction l as [|c l IH]; [reflexivity|]. cbn [span]. destruct (f c); cbn [fst snd app]; [f_equal; auto|reflexivity]. Qed.
Lemma span_all f l : Forall (fun c => f c = true) (fst (span f l)).
Proof. induction l as [|c l IH]; [constructor|]. cbn [span]. destruct (f c) eqn:E; constructor; auto. Qed.
Lemma span_rest f l : match snd (span f l) with [] => True | c :: _ => f c = false end.
Proof. induction l as [|c l IH]; [exact I|]. cbn [span]. destruct (f c) eqn:E; cbn [snd]; auto. Qed.
Lemma span_unique f a b : Forall (fun c => f c = true) a -> match b with [] => True | c :: _ => f c = false end -> span f (a ++ b) = (a, b).
Proof.
  induction 1 as [|c a C F IH]; intros H; cbn [app span].
  - destruct b as [|c b]; [reflexivity|]. cbn [span]. rewrite H. reflexivity.
  - rewrite C, IH by auto. reflexivity.
Qed.

Definition nonblank (c : Z) : bool := negb (blank c).
(** a name and a value after the command *)
Definition name_value (l : list Z) : option (list Z * list Z) :=
  let '(n, rest) := span nonblank (drop blank l) in
  match n, drop blank rest with _ :: _, c :: v => Some (n, c :: v) | _, _ => None end.
Definition value_of (l : list Z) : option (list Z) := match drop blank l with [] => None | v => Some v end.
Definition line_parse (l : list Z) : option (option command) :=
  match l with
  | [] => Some None
  | c0 :: _ =>
    if c0 =? 35 then Some None else
    let '(w, rest) := span alpha l in
    let k := map lower w in
    match rest with
    | [] => None
    | b :: rest =>
      if negb (blank b) then None
      else if str_eqb k (bs "path") then match value_of rest with Some v => Some (Some (CPath v)) | None => None end
      else if str_eqb k (bs "auth") then
        match value_of rest with
        | Some v => if str_eqb v (bs "basic") then Some (Some (CAuth KBasic)) else if str_eqb v (bs "cookie") then Some (Some (CAuth KCookie)) else None
        | None => None
        end
      else if str_eqb k (bs "restrict") then match value_of rest with Some v => Some (Some (CRestrict v)) | None => None end
      else if str_eqb k (bs "user") then match name_value rest with Some (u, v) => Some (Some (CUser u v)) | None => None end
      else if str_eqb k (bs "service") then match name_value rest with Some (u, v) => Some (Some (CService u v)) | None => None end
      else if str_eqb k (bs "option") then
        match name_value rest with
        | Some (u, v) => match split_eq v with Some (n, x) => Some (Some (COption u n x)) | None => None end
        | None => None
        end
      else None
    end
  end.

Lemma lower_word k w : Forall (fun c => 97 <= c <= 122) k -> word k w <-> Forall is_letter w /\ map lower w = k.
Proof.
  intros K. unfold word. split; intros [L M]; split; auto.
  - induction M as [|a b k w H M IH]; [reflexivity|]. inversion K; subst. inversion L; subst. cbn [map]. rewrite IH by auto. f_equal. unfold lower, is_letter in *. destruct ((65 <=? b) && (b <=? 90)) eqn:E; lia.
  - subst k. induction w as [|c w IH]; [constructor|]. cbn [map] in *. inversion K; subst. inversion L; subst. constructor; auto. unfold lower in *. destruct ((65 <=? c) && (c <=? 90)); lia.
Qed.
Lemma gap_cons g : gap g <-> exists b t, g = b :: t /\ is_blank b /\ Forall is_blank t.
Proof.
  split.
  - intros [N F]. destruct g as [|b t]; [congruence|]. inversion F; subst. eauto.
  - intros (b & t & -> & B & F). split; [discriminate|constructor; auto].
Qed.
Lemma drop_gap t v : Forall is_blank t -> value_text v -> drop blank (t ++ v) = v.
Proof.
  intros F (c & v' & -> & N). unfold drop. rewrite span_unique; [reflexivity| |].
  - eapply Forall_impl; [|exact F]. intros a. apply blank_spec.
  - destruct (blank c) eqn:E; auto. apply blank_spec in E. contradiction.
Qed.
Lemma value_of_spec l v : value_of l = Some v <-> exists t, l = t ++ v /\ Forall is_blank t /\ value_text v.
Proof.
  unfold value_of. split.
  - intros H. exists (fst (span blank l)). pose proof (span_app blank l) as A. pose proof (span_all blank l) as F. pose proof (span_rest blank l) as R. unfold drop in H. destruct (snd (span blank l)) as [|c t]; [discriminate|]. injection H as <-.
    split; auto. split; [eapply Forall_impl; [|exact F]; intros a; apply blank_spec|]. exists c, t. split; auto. intros B. apply blank_spec in B. congruence.
  - intros (t & -> & F & V). rewrite drop_gap by auto. destruct V as (c & v' & -> & _). reflexivity.
Qed.
Lemma name_value_spec l n v : name_value l = Some (n, v) <-> exists t g, l = t ++ n ++ g ++ v /\ Forall is_blank t /\ name_text n /\ gap g /\ value_text v.
Proof.
  unfold name_value. split.
  - intros H. pose proof (span_app blank l) as A. pose proof (span_all blank l) as F. unfold drop in H. set (r := snd (span blank l)) in *.
    pose proof (span_app nonblank r) as A2. pose proof (span_all nonblank r) as F2. pose proof (span_rest nonblank r) as R2. destruct (span nonblank r) as [n' rest]. cbn [fst snd] in *.
    pose proof (span_app blank rest) as A3. pose proof (span_all blank rest) as F3. pose proof (span_rest blank rest) as R3. set (v' := snd (span blank rest)) in *.
    destruct n' as [|c n']; [discriminate|]. destruct v' as [|d v']; [discriminate|]. injection H as <- <-. exists (fst (span blank l)), (fst (span blank rest)).
    split; [rewrite A at 1; rewrite A2 at 1; rewrite <- A3; reflexivity|]. split; [eapply Forall_impl; [|exact F]; intros a; apply blank_spec|].
    split; [split; [discriminate|]; eapply Forall_impl; [|exact F2]; intros a; unfold nonblank; rewrite negb_true_iff; intros X Y; apply blank_spec in Y; congruence|].
    split; [split; [|eapply Forall_impl; [|exact F3]; intros a; apply blank_spec]|exists d, v'; split; auto; intros B; apply blank_spec in B; congruence].
    intros X. rewrite X in A3. cbn [app] in A3. subst rest. unfold nonblank in R2. rewrite R3 in R2. discriminate.
  - intros (t & g & -> & F & N & G & V). rewrite drop_gap; auto.
    + rewrite span_unique.
      * destruct G as [_ G]. rewrite drop_gap by auto. destruct N as [N _]. destruct n; [congruence|]. destruct V as (c & v' & -> & _). reflexivity.
      * destruct N as [_ N]. eapply Forall_impl; [|exact N]. intros a H. unfold nonblank. destruct (blank a) eqn:E; auto. apply blank_spec in E. contradiction.
      * apply gap_cons in G. destruct G as (b & g' & -> & B & _). cbn [app]. unfold nonblank. apply blank_spec in B. rewrite B. reflexivity.
    + destruct N as [N1 N2]. destruct n as [|c n]; [congruence|]. inversion N2; subst. exists c, (n ++ g ++ v). auto.
Qed.
Lemma split_eq_spec v a b : split_eq v = Some (a, b) <-> v = a ++ 61 :: b /\ ~ In 61 a.
Proof.
  revert a. induction v as [|c v IH]; intros a; cbn [split_eq].
  - split; [discriminate|]. intros [H _]. destruct a; discriminate.
  - destruct (c =? 61) eqn:E.
    + apply Z.eqb_eq in E. subst c. split; [intros H; injection H as <- <-; auto|]. intros [H N]. destruct a as [|x a]; [injection H as <-; reflexivity|]. injection H as <- _. exfalso. apply N. left. reflexivity.
    + apply Z.eqb_neq in E. split.
      * destruct (split_eq v) as [[a' b']|] eqn:S; [|discriminate]. intros H. injection H as <- <-. destruct (proj1 (IH a') eq_refl) as [-> N]. split; [reflexivity|]. intros [X|X]; auto.
      * intros [H N]. destruct a as [|x a]; [injection H as -> _; congruence|]. injection H as <- ->. rewrite (proj2 (IH a)); [reflexivity|]. split; auto. intros X. apply N. right. exact X.
Qed.

Lemma letters_span w b r : Forall is_letter w -> is_blank b -> span alpha (w ++ b :: r) = (w, b :: r).
Proof.
  intros L B. apply span_unique.
  - eapply Forall_impl; [|exact L]. intros a. apply alpha_spec.
  - apply blank_spec in B. destruct (alpha b) eqn:E; auto. apply alpha_blank in E. congruence.
Qed.
Ltac lowers := repeat (apply Forall_cons; [cbn; lia|]); apply Forall_nil.
Lemma word_cons k w : word k w -> k <> [] -> exists c t, w = c :: t /\ c =? 35 = false.
Proof. intros [L M] N. destruct w as [|c t]; [inversion M; congruence|]. exists c, t. split; auto. inversion L; subst. unfold is_letter in *. lia. Qed.
(** the shape of a line with a command word *)
Lemma parse_word k w b r : word k w -> Forall (fun c => 97 <= c <= 122) k -> k <> [] -> is_blank b ->
  line_parse (w ++ b :: r) =
    if str_eqb k (bs "path") then match value_of r with Some v => Some (Some (CPath v)) | None => None end
      else if str_eqb k (bs "auth") then
        match value_of r with
        | Some v => if str_eqb v (bs "basic") then Some (Some (CAuth KBasic)) else if str_eqb v (bs "cookie") then Some (Some (CAuth KCookie)) else None
        | None => None
        end
      else if str_eqb k (bs "restrict") then match value_of r with Some v => Some (Some (CRestrict v)) | None => None end
      else if str_eqb k (bs "user") then match name_value r with Some (u, v) => Some (Some (CUser u v)) | None => None end
      else if str_eqb k (bs "service") then match name_value r with Some (u, v) => Some (Some (CService u v)) | None => None end
      else if str_eqb k (bs "option") then
        match name_value r with
        | Some (u, v) => match split_eq v with Some (n, x) => Some (Some (COption u n x)) | None => None end
        | None => None
        end
      else None.
Proof.
  intros W K N B. destruct (word_cons k w W N) as (c & t & -> & C). apply (lower_word k (c :: t) K) in W. destruct W as [L M].
  unfold line_parse. cbn [app]. rewrite C. change (c :: t ++ b :: r) with ((c :: t) ++ b :: r). rewrite letters_span by auto. rewrite M. apply blank_spec in B. rewrite B. reflexivity.
Qed.

Ltac words := repeat match goal with |- context [str_eqb (bs ?a) (bs ?b)] => let v := eval vm_compute in (str_eqb (bs a) (bs b)) in change (str_eqb (bs a) (bs b)) with v end; cbv iota.
Theorem line_parse_spec l c : line_means l c <-> line_parse l = Some c.
Proof.
  split.
  - intros H. destruct H as [|t|w g v W G V|w g W G|w g W G|w g v W G V|w g u g' v W G U G' V|w g u g' v W G U G' V|w g u g' n v W G U G' V NI]; [reflexivity|reflexivity|..];
      apply gap_cons in G; destruct G as (b & t & -> & B & T); cbn [app]; rewrite (parse_word _ _ b _ W) by (try lowers; try discriminate; auto); words.
    + rewrite (proj2 (value_of_spec _ v)); eauto.
    + rewrite (proj2 (value_of_spec _ (bs "basic"))); [reflexivity|]. exists t. split; auto. split; auto. eexists _, _. split; [reflexivity|]. intros [X|X]; vm_compute in X; discriminate.
    + rewrite (proj2 (value_of_spec _ (bs "cookie"))); [reflexivity|]. exists t. split; auto. split; auto. eexists _, _. split; [reflexivity|]. intros [X|X]; vm_compute in X; discriminate.
    + rewrite (proj2 (value_of_spec _ v)); eauto.
    + rewrite (proj2 (name_value_spec _ u v)); eauto 10.
    + rewrite (proj2 (name_value_spec _ u v)); eauto 10.
    + rewrite (proj2 (name_value_spec _ u (n ++ bs "=" ++ v))); eauto 10. rewrite (proj2 (split_eq_spec _ n v)); auto.
  - intros H. unfold line_parse in H. destruct l as [|c0 l']; [injection H as <-; constructor|]. destruct (c0 =? 35) eqn:C; [apply Z.eqb_eq in C; subst c0; injection H as <-; apply (LM_comment l')|].
    pose proof (span_app alpha (c0 :: l')) as A. pose proof (span_all alpha (c0 :: l')) as F. destruct (span alpha (c0 :: l')) as [w rest]. cbn [fst snd] in *. rewrite A. clear A C c0 l'.
    destruct rest as [|b r]; [discriminate|]. destruct (blank b) eqn:B; cbn [negb] in H; [|discriminate]. apply blank_spec in B.
    assert (Forall is_letter w) as L by (eapply Forall_impl; [|exact F]; intros a; apply alpha_spec).
    assert (forall k, str_eqb (map lower w) (bs k) = true -> Forall (fun c => 97 <= c <= 122) (bs k) -> word (bs k) w) as WD by (intros k E K; apply str_eqb_eq in E; apply lower_word; auto).
    assert (forall t, Forall is_blank t -> gap (b :: t)) as GD by (intros t T; apply gap_cons; eauto).
    destruct (str_eqb (map lower w) (bs "path")) eqn:E1; [|destruct (str_eqb (map lower w) (bs "auth")) eqn:E2; [|destruct (str_eqb (map lower w) (bs "restrict")) eqn:E3; [|
      destruct (str_eqb (map lower w) (bs "user")) eqn:E4; [|destruct (str_eqb (map lower w) (bs "service")) eqn:E5; [|destruct (str_eqb (map lower w) (bs "option")) eqn:E6; [|discriminate]]]]]].
    + destruct (value_of r) as [v|] eqn:V; [|discriminate]. injection H as <-. apply value_of_spec in V. destruct V as (t & -> & T & V). apply (LM_path w (b :: t) v); auto. apply WD; auto. lowers.
    + destruct (value_of r) as [v|] eqn:V; [|discriminate]. apply value_of_spec in V. destruct V as (t & -> & T & V). destruct (str_eqb v (bs "basic")) eqn:V1; [|destruct (str_eqb v (bs "cookie")) eqn:V2; [|discriminate]]; injection H as <-.
      * apply str_eqb_eq in V1. subst v. apply (LM_basic w (b :: t)); auto. apply WD; auto. lowers.
      * apply str_eqb_eq in V2. subst v. apply (LM_cookie w (b :: t)); auto. apply WD; auto. lowers.
    + destruct (value_of r) as [v|] eqn:V; [|discriminate]. injection H as <-. apply value_of_spec in V. destruct V as (t & -> & T & V). apply (LM_restrict w (b :: t) v); auto. apply WD; auto. lowers.
    + destruct (name_value r) as [[u v]|] eqn:V; [|discriminate]. injection H as <-. apply name_value_spec in V. destruct V as (t & g & -> & T & U & G & V). apply (LM_user w (b :: t) u g v); auto. apply WD; auto. lowers.
    + destruct (name_value r) as [[u v]|] eqn:V; [|discriminate]. injection H as <-. apply name_value_spec in V. destruct V as (t & g & -> & T & U & G & V). apply (LM_service w (b :: t) u g v); auto. apply WD; auto. lowers.
    + destruct (name_value r) as [[u v]|] eqn:V; [|discriminate]. apply name_value_spec in V. destruct V as (t & g & -> & T & U & G & V). destruct (split_eq v) as [[n x]|] eqn:S; [|discriminate]. injection H as <-. apply split_eq_spec in S. destruct S as [-> S].
      apply (LM_option w (b :: t) u g n x); auto. apply WD; auto. lowers.
Qed.
Lemma line_means_unique l a b : line_means l a -> line_means l b -> a = b.
Proof. rewrite !line_parse_spec. congruence. Qed.
Lemma line_malformed l : line_parse l = None -> forall c, ~ line_means l c.
Proof. intros H c X. apply line_parse_spec in X. congruence. Qed.

(* ------------------------------------------------------------------ the bytes of a line *)

(** a byte that ends no line: no calls *)
Definition lstep (s : cst) (c : Z) : option cst := match config_step (fun _ _ => true) [] s c with CNext s' _ => Some s' | CFail _ _ => None end.
Fixpoint lrun (s : cst) (l : list Z) : option cst := match l with [] => Some s | c :: l' => match lstep s c with Some s' => lrun s' l' | None => None end end.
Lemma lstep_spec env h s c : eol c = false -> config_step env h s c = match lstep s c with Some s' => CNext s' [] | None => CFail [] RBad end.
Proof.
  intros E. unfold lstep, config_step. rewrite E. destruct (c_state s).
  - destruct (c =? 35); [reflexivity|]. destruct (alpha c); reflexivity.
  - destruct (blank c); [|destruct (alpha c); reflexivity]. destruct (_ || _ || _); [reflexivity|]. destruct (_ || _); [reflexivity|]. destruct (str_eqb _ _); reflexivity.
  - destruct (blank c); [|reflexivity]. destruct (c_resource s); reflexivity.
  - destruct (blank c); [|reflexivity]. destruct (c_value s); reflexivity.
  - reflexivity.
  - destruct (blank c); [|reflexivity]. destruct (c_username s); reflexivity.
Qed.
Lemma run_line env h : forall l s rest, Forall (fun c => ~ is_eol c) l ->
  config_run env h s (l ++ rest) = match lrun s l with Some s' => config_run env h s' rest | None => (h, RBad) end.
Proof.
  induction l as [|c l IH]; intros s rest F; [reflexivity|]. inversion F; subst. cbn [app config_run lrun].
  rewrite lstep_spec by (destruct (eol c) eqn:E; auto; apply eol_spec in E; contradiction). destruct (lstep s c) as [s'|]; rewrite app_nil_r; auto.
Qed.

Lemma span_cons f c l : span f (c :: l) = if f c then (c :: fst (span f l), snd (span f l)) else ([], c :: l).
Proof. reflexivity. Qed.
Lemma not_eol c : ~ is_eol c -> eol c = false.
Proof. intros H. destruct (eol c) eqn:X; auto. apply eol_spec in X. contradiction. Qed.
Ltac fields := unfold set_value, set_state; cbn [c_state c_value c_command c_resource c_username c_auth].
Lemma value_more cmd res usr au l : Forall (fun c => ~ is_eol c) l -> forall v, v <> [] -> lrun (mkc PValue cmd res usr v au) l = Some (mkc PValue cmd res usr (v ++ l) au).
Proof.
  induction 1 as [|c l E F IH]; intros v N; cbn [lrun]; [rewrite app_nil_r; reflexivity|].
  unfold lstep, config_step. fields. rewrite not_eol by auto.
  destruct v as [|v0 v]; [congruence|]. destruct (blank c); fields; rewrite IH by discriminate; rewrite <- app_assoc; reflexivity.
Qed.
Lemma value_run cmd res usr au l : Forall (fun c => ~ is_eol c) l -> lrun (mkc PValue cmd res usr [] au) l = Some (mkc PValue cmd res usr (drop blank l) au).
Proof.
  induction 1 as [|c l E F IH]; [reflexivity|]. cbn [lrun]. unfold lstep, config_step. fields. rewrite not_eol by auto.
  unfold drop in *. cbn [span]. destruct (blank c); fields; cbn [snd]; [exact IH|]. rewrite value_more by (auto; discriminate). reflexivity.
Qed.
(** the state after a name and what follows *)
Definition after_name (val : list Z) (p : pstate) (mk : list Z -> pstate -> list Z -> cst) (n rest : list Z) : cst := match rest with [] => mk n p val | _ => mk n PValue (drop blank rest) end.
Lemma resource_more cmd usr val au l : Forall (fun c => ~ is_eol c) l -> forall n, n <> [] ->
  lrun (mkc PResource cmd n usr val au) l = Some (after_name val PResource (fun n p v => mkc p cmd n usr v au) (n ++ fst (span nonblank l)) (snd (span nonblank l))).
Proof.
  induction 1 as [|c l E F IH]; intros n N; cbn [lrun]; [cbn; rewrite app_nil_r; reflexivity|].
  unfold lstep, config_step. fields. rewrite not_eol by auto. rewrite span_cons. change (nonblank c) with (negb (blank c)). destruct (blank c) eqn:B; cbn [negb fst snd].
  - destruct n as [|n0 n]; [congruence|]. fields. rewrite app_nil_r, value_run by auto. unfold after_name, drop. cbn [span]. rewrite B. reflexivity.
  - rewrite IH by (destruct n; discriminate). rewrite <- app_assoc. reflexivity.
Qed.
Lemma resource_run cmd usr val au l : Forall (fun c => ~ is_eol c) l ->
  lrun (mkc PResource cmd [] usr val au) l = Some (after_name val PResource (fun n p v => mkc p cmd n usr v au) (fst (span nonblank (drop blank l))) (snd (span nonblank (drop blank l)))).
Proof.
  induction 1 as [|c l E F IH]; [reflexivity|]. cbn [lrun]. unfold lstep, config_step. fields. rewrite not_eol by auto. unfold drop in *. cbn [span]. destruct (blank c) eqn:B; cbn [snd]; [exact IH|].
  rewrite resource_more by (auto; discriminate). rewrite span_cons. change (nonblank c) with (negb (blank c)). rewrite B. reflexivity.
Qed.
Lemma username_more cmd res val au l : Forall (fun c => ~ is_eol c) l -> forall n, n <> [] ->
  lrun (mkc PUsername cmd res n val au) l = Some (after_name val PUsername (fun n p v => mkc p cmd res n v au) (n ++ fst (span nonblank l)) (snd (span nonblank l))).
Proof.
  induction 1 as [|c l E F IH]; intros n N; cbn [lrun]; [cbn; rewrite app_nil_r; reflexivity|].
  unfold lstep, config_step. fields. rewrite not_eol by auto. rewrite span_cons. change (nonblank c) with (negb (blank c)). destruct (blank c) eqn:B; cbn [negb fst snd].
  - destruct n as [|n0 n]; [congruence|]. fields. rewrite app_nil_r, value_run by auto. unfold after_name, drop. cbn [span]. rewrite B. reflexivity.
  - rewrite IH by (destruct n; discriminate). rewrite <- app_assoc. reflexivity.
Qed.
Lemma username_run cmd res val au l : Forall (fun c => ~ is_eol c) l ->
  lrun (mkc PUsername cmd res [] val au) l = Some (after_name val PUsername (fun n p v => mkc p cmd res n v au) (fst (span nonblank (drop blank l))) (snd (span nonblank (drop blank l)))).
Proof.
  induction 1 as [|c l E F IH]; [reflexivity|]. cbn [lrun]. unfold lstep, config_step. fields. rewrite not_eol by auto. unfold drop in *. cbn [span]. destruct (blank c) eqn:B; cbn [snd]; [exact IH|].
  rewrite username_more by (auto; discriminate). rewrite span_cons. change (nonblank c) with (negb (blank c)). rewrite B. reflexivity.
Qed.

(** the state after the blank that ends the command word *)
Definition after_word (res usr val : list Z) (au : option auth) (k : list Z) : option cst :=
  if str_eqb k (bs "path") || str_eqb k (bs "auth") || str_eqb k (bs "restrict") then Some (mkc PValue k res usr [] au)
  else if str_eqb k (bs "service") || str_eqb k (bs "option") then Some (mkc PResource k [] usr val au)
  else if str_eqb k (bs "user") then Some (mkc PUsername k res [] val au) else None.
Lemma command_run res usr val au l : Forall (fun c => ~ is_eol c) l -> forall k,
  lrun (mkc PCommand k res usr val au) l =
    let w := k ++ map lower (fst (span alpha l)) in
    match snd (span alpha l) with
    | [] => Some (mkc PCommand w res usr val au)
    | b :: r => if blank b then match after_word res usr val au w with Some s => lrun s r | None => None end else None
    end.
Proof.
  induction 1 as [|c l E F IH]; intros k; cbn [lrun]; [cbn; rewrite app_nil_r; reflexivity|].
  unfold lstep, config_step. fields. rewrite span_cons. destruct (alpha c) eqn:A.
  - rewrite alpha_blank by auto. cbn [negb]. rewrite IH. cbn [fst snd map]. rewrite <- app_assoc. reflexivity.
  - cbn [fst snd map negb]. cbv zeta. rewrite app_nil_r. destruct (blank c); [|reflexivity]. unfold after_word. fields. destruct (_ || _ || _); [reflexivity|]. destruct (_ || _); [reflexivity|]. destruct (str_eqb _ _); reflexivity.
Qed.
Lemma comment_run cmd res usr val au l : Forall (fun c => ~ is_eol c) l -> lrun (mkc PComment cmd res usr val au) l = Some (mkc PComment cmd res usr val au).
Proof. induction 1 as [|c l E F IH]; [reflexivity|]. cbn [lrun]. unfold lstep, config_step. fields. rewrite not_eol by auto. exact IH. Qed.

(** what a command does *)
Definition effect (env : list call -> call -> bool) (h : list call) (au : option auth) (c : command) : (option auth * list call) + (list call * result) :=
  match c with
  | CPath d => inl (au, [XPath d])
  | CAuth k => inl (Some (k, []), [])
  | CRestrict v => match au with Some (k, l) => inl (Some (k, l ++ [ARestrict v]), []) | None => inr ([], RBad) end
  | CUser u v => match au with Some (k, l) => inl (Some (k, l ++ [AUser u v]), []) | None => inr ([], RBad) end
  | CService r n => if env h (XService r n) then inl (au, [XService r n]) else inr ([XService r n], RThrown)
  | COption r n v => if env h (XOption r n v) then inl (au, [XOption r n v]) else inr ([XOption r n v], RThrown)
  end.
(** ready for a line *)
Definition ready (s : cst) (au : option auth) : Prop := c_state s = PNewline /\ c_command s = [] /\ c_auth s = au.

Lemma one_line env h s au l e rest : ready s au -> Forall (fun c => ~ is_eol c) l -> is_eol e ->
  match line_parse l with
  | None => config_run env h s (l ++ e :: rest) = (h, RBad)
  | Some None => exists s', ready s' au /\ config_run env h s (l ++ e :: rest) = config_run env h s' rest
  | Some (Some c) =>
    match effect env h au c with
    | inl (au', x) => exists s', ready s' au' /\ config_run env h s (l ++ e :: rest) = config_run env (h ++ x) s' rest
    | inr (x, r) => config_run env h s (l ++ e :: rest) = (h ++ x, r)
    end
  end.
Proof.
  intros (R1 & R2 & R3) F E. apply eol_spec in E. destruct s as [st cmd res usr val au0]. cbn in R1, R2, R3. subst st cmd au0.
  rewrite run_line by auto. destruct l as [|c0 l].
  { cbn [line_parse lrun config_run]. exists (mkc PNewline [] res usr val au). split; [split; auto|]. unfold config_step. fields. rewrite E.
    assert (e =? 35 = false) as -> by (unfold eol in E; lia). assert (alpha e = false) as -> by (unfold eol, alpha in *; lia). rewrite app_nil_r. reflexivity. }
  inversion F; subst. unfold line_parse. cbn [lrun]. unfold lstep, config_step. fields. destruct (c0 =? 35) eqn:C.
  { fields. rewrite comment_run by auto. eexists. split; [|cbn [config_run]; unfold config_step; fields; rewrite E, app_nil_r; reflexivity]. split; auto. }
  rewrite span_cons. destruct (alpha c0) eqn:A.
  2:{ rewrite not_eol by auto. cbn [fst snd]. destruct (blank c0); cbn [negb]; [|reflexivity]. cbn [map]. words. reflexivity. }
  cbn [app]. rewrite command_run by auto. cbv zeta. destruct (span alpha l) as [w r] eqn:SP. cbn [fst snd]. change ([lower c0] ++ map lower w) with (map lower (c0 :: w)). set (k := map lower (c0 :: w)).
  destruct r as [|b r].
  { cbn [config_run]. unfold config_step. fields. assert (blank e = false) as -> by (unfold eol, blank in *; lia). assert (alpha e = false) as -> by (unfold eol, alpha in *; lia). cbn [negb]. rewrite app_nil_r. reflexivity. }
  assert (Forall (fun c => ~ is_eol c) r) as FR. { pose proof (span_app alpha l) as X. rewrite SP in X. cbn [fst snd] in X. rewrite X in H2. apply Forall_app in H2. destruct H2 as [_ H2]. inversion H2; auto. }
  destruct (blank b) eqn:B; cbn [negb]; [|reflexivity]. unfold after_word.
  assert (forall k0 v, v <> [] -> forall s1, c_state s1 = PValue -> c_value s1 = v -> c_command s1 = k0 -> config_run env h s1 (e :: rest) = match finish_line env h s1 with CNext s' x => config_run env (h ++ x) s' rest | CFail x r => (h ++ x, r) end) as FIN.
  { intros k0 v N s1 S1 S2 S3. cbn [config_run]. unfold config_step. rewrite S1, E. reflexivity. }
  assert (forall s1, c_state s1 = PValue -> c_value s1 = [] -> config_run env h s1 (e :: rest) = (h, RBad)) as FIN0.
  { intros s1 S1 S2. cbn [config_run]. unfold config_step. rewrite S1, E. unfold finish_line. rewrite S2. rewrite app_nil_r. reflexivity. }
  assert (forall s1, c_state s1 = PResource \/ c_state s1 = PUsername -> config_run env h s1 (e :: rest) = (h, RBad)) as FINN.
  { intros s1 S1. cbn [config_run]. unfold config_step. assert (blank e = false) as BE by (unfold eol, blank in *; lia). rewrite BE, E. destruct S1 as [-> | ->]; rewrite app_nil_r; reflexivity. }
  destruct (str_eqb k (bs "path")) eqn:E1; [|destruct (str_eqb k (bs "auth")) eqn:E2; [|destruct (str_eqb k (bs "restrict")) eqn:E3; [|
      destruct (str_eqb k (bs "user")) eqn:E4; [|destruct (str_eqb k (bs "service")) eqn:E5; [|destruct (str_eqb k (bs "option")) eqn:E6]]]]]; cbn [orb].
  - apply str_eqb_eq in E1. rewrite E1. rewrite value_run by auto. unfold value_of. destruct (drop blank r) as [|v0 v] eqn:D; [apply FIN0; reflexivity|].
    rewrite (FIN (bs "path") (v0 :: v)) by (reflexivity || discriminate). unfold finish_line. fields. words. eexists. split; [|reflexivity]. split; auto.
  - apply str_eqb_eq in E2. rewrite E2. rewrite value_run by auto. unfold value_of. destruct (drop blank r) as [|v0 v] eqn:D; [apply FIN0; reflexivity|].
    rewrite (FIN (bs "auth") (v0 :: v)) by (reflexivity || discriminate). unfold finish_line. fields. words.
    destruct (str_eqb (v0 :: v) (bs "basic")); [eexists; split; [|reflexivity]; split; auto|]. destruct (str_eqb (v0 :: v) (bs "cookie")); [eexists; split; [|reflexivity]; split; auto|]. rewrite app_nil_r. reflexivity.
  - apply str_eqb_eq in E3. rewrite E3. rewrite value_run by auto. unfold value_of. destruct (drop blank r) as [|v0 v] eqn:D; [apply FIN0; reflexivity|].
    rewrite (FIN (bs "restrict") (v0 :: v)) by (reflexivity || discriminate). unfold finish_line. fields. words. cbn [effect]. destruct au as [[ki acs]|]; [eexists; split; [|reflexivity]; split; auto|reflexivity].
  - apply str_eqb_eq in E4. rewrite E4. words. cbn [orb]. rewrite username_run by auto. unfold name_value. destruct (span nonblank (drop blank r)) as [n rr] eqn:SN. cbn [fst snd]. unfold after_name.
    pose proof (span_rest nonblank (drop blank r)) as R2. rewrite SN in R2. cbn [snd] in R2. pose proof (span_rest blank r) as R3. fold (drop blank r) in R3.
    destruct rr as [|rb rr]; [replace (drop blank []) with (@nil Z) by reflexivity; rewrite FINN by (right; reflexivity); destruct n; reflexivity|].
    destruct n as [|n0 n]. { exfalso. pose proof (span_app nonblank (drop blank r)) as X. rewrite SN in X. cbn [fst snd app] in X. rewrite X in R3. unfold nonblank in R2. rewrite R3 in R2. discriminate. }
    destruct (drop blank (rb :: rr)) as [|v0 v] eqn:D; [apply FIN0; reflexivity|]. rewrite (FIN (bs "user") (v0 :: v)) by (reflexivity || discriminate). unfold finish_line. fields. words.
    cbn [effect]. destruct au as [[ki acs]|]; [eexists; split; [|reflexivity]; split; auto|reflexivity].
  - apply str_eqb_eq in E5. rewrite E5. rewrite resource_run by auto. unfold name_value. destruct (span nonblank (drop blank r)) as [n rr] eqn:SN. cbn [fst snd]. unfold after_name.
    pose proof (span_rest nonblank (drop blank r)) as R2. rewrite SN in R2. cbn [snd] in R2. pose proof (span_rest blank r) as R3. fold (drop blank r) in R3.
    destruct rr as [|rb rr]; [replace (drop blank []) with (@nil Z) by reflexivity; rewrite FINN by (left; reflexivity); destruct n; reflexivity|].
    destruct n as [|n0 n]. { exfalso. pose proof (span_app nonblank (drop blank r)) as X. rewrite SN in X. cbn [fst snd app] in X. rewrite X in R3. unfold nonblank in R2. rewrite R3 in R2. discriminate. }
    destruct (drop blank (rb :: rr)) as [|v0 v] eqn:D; [apply FIN0; reflexivity|]. rewrite (FIN (bs "service") (v0 :: v)) by (reflexivity || discriminate). unfold finish_line. fields. words.
    cbn [effect]. destruct (env h _); [eexists; split; [|reflexivity]; split; auto|reflexivity].
  - apply str_eqb_eq in E6. rewrite E6. rewrite resource_run by auto. unfold name_value. destruct (span nonblank (drop blank r)) as [n rr] eqn:SN. cbn [fst snd]. unfold after_name.
    pose proof (span_rest nonblank (drop blank r)) as R2. rewrite SN in R2. cbn [snd] in R2. pose proof (span_rest blank r) as R3. fold (drop blank r) in R3.
    destruct rr as [|rb rr]; [replace (drop blank []) with (@nil Z) by reflexivity; rewrite FINN by (left; reflexivity); destruct n; reflexivity|].
    destruct n as [|n0 n]. { exfalso. pose proof (span_app nonblank (drop blank r)) as X. rewrite SN in X. cbn [fst snd app] in X. rewrite X in R3. unfold nonblank in R2. rewrite R3 in R2. discriminate. }
    destruct (drop blank (rb :: rr)) as [|v0 v] eqn:D; [apply FIN0; reflexivity|]. rewrite (FIN (bs "option") (v0 :: v)) by (reflexivity || discriminate). unfold finish_line. fields. words.
    destruct (split_eq (v0 :: v)) as [[on ov]|]; [|rewrite app_nil_r; reflexivity]. cbn [effect]. destruct (env h _); [eexists; split; [|reflexivity]; split; auto|reflexivity].
  - reflexivity.
Qed.

(* ------------------------------------------------------------------ the file *)

Lemma executed_fun env a h ls h1 r1 : executed env a h ls h1 r1 -> forall h2 r2, executed env a h ls h2 r2 -> h1 = h2 /\ r1 = r2.
Proof.
  induction 1; intros h2 r2 X; inversion X; subst; auto;
    try (exfalso; match goal with H : forall c, ~ line_means ?l c, K : line_means ?l _ |- _ => exact (H _ K) end);
    repeat match goal with A : line_means ?l ?x, B : line_means ?l ?y |- _ => let E := fresh "E" in pose proof (line_means_unique l x y A B) as E; clear B; try discriminate E; try (injection E; intros; subst); clear E end;
    try congruence; auto.
Qed.

Lemma run_lines env tail : forall ls s au h, ready s au -> Forall is_line ls ->
  exists calls r, executed env au h (map fst ls) calls r /\
    ((r <> RDone /\ config_run env h s (text_of ls ++ tail) = (calls, r))
     \/ (r = RDone /\ exists h' a s', ready s' a /\ calls = h' ++ [XAuth a] /\ config_run env h s (text_of ls ++ tail) = config_run env h' s' tail)).
Proof.
  induction ls as [|[l e] ls IH]; intros s au h R F.
  { exists (h ++ [XAuth au]), RDone. split; [constructor|]. right. split; auto. exists h, au, s. auto. }
  inversion F as [|? ? [L E] F']; subst. cbn [fst snd] in *. unfold text_of. cbn [map concat fst snd]. rewrite <- !app_assoc. cbn [app]. fold (text_of ls).
  pose proof (one_line env h s au l e (text_of ls ++ tail) R L E) as O. destruct (line_parse l) as [[c|]|] eqn:P.
  - apply line_parse_spec in P. destruct (effect env h au c) as [[au' x]|[x r]] eqn:EF.
    + destruct O as (s' & R' & ->). destruct (IH s' au' (h ++ x) R' F') as (calls & r & X & D). exists calls, r. split; [|exact D].
      destruct c; cbn [effect] in EF; try (injection EF as <- <-; rewrite ?app_nil_r in X).
      * eapply X_path; eauto.
      * eapply X_auth; eauto.
      * destruct au as [[k ac]|]; [|discriminate]. injection EF as <- <-. rewrite app_nil_r in X. eapply X_restrict; eauto.
      * destruct au as [[k ac]|]; [|discriminate]. injection EF as <- <-. rewrite app_nil_r in X. eapply X_user; eauto.
      * destruct (env h _) eqn:V; [|discriminate]. injection EF as <- <-. eapply X_service; eauto.
      * destruct (env h _) eqn:V; [|discriminate]. injection EF as <- <-. eapply X_option; eauto.
    + exists (h ++ x), r. rewrite O. destruct c; cbn [effect] in EF; try discriminate.
      * destruct au as [[k ac]|]; [discriminate|]. injection EF as <- <-. rewrite app_nil_r. split; [eapply X_restrict_early; eauto|]. left. split; [discriminate|reflexivity].
      * destruct au as [[k ac]|]; [discriminate|]. injection EF as <- <-. rewrite app_nil_r. split; [eapply X_user_early; eauto|]. left. split; [discriminate|reflexivity].
      * destruct (env h _) eqn:V; [discriminate|]. injection EF as <- <-. split; [eapply X_service_throws; eauto|]. left. split; [discriminate|reflexivity].
      * destruct (env h _) eqn:V; [discriminate|]. injection EF as <- <-. split; [eapply X_option_throws; eauto|]. left. split; [discriminate|reflexivity].
  - apply line_parse_spec in P. destruct O as (s' & R' & ->). destruct (IH s' au h R' F') as (calls & r & X & D). exists calls, r. split; [|exact D]. apply X_skip; auto.
  - exists h, RBad. rewrite O. split; [apply X_malformed, line_malformed; auto|]. left. split; [discriminate|reflexivity].
Qed.

Lemma lstep_auth s c s' : eol c = false -> lstep s c = Some s' -> c_auth s' = c_auth s.
Proof.
  intros E. unfold lstep, config_step. rewrite E. destruct (c_state s);
    repeat match goal with |- match (if ?b then _ else _) with _ => _ end = _ -> _ => destruct b | |- match match ?x with _ => _ end with _ => _ end = _ -> _ => destruct x end;
    intros H; try discriminate H; injection H as <-; reflexivity.
Qed.
Lemma lrun_auth : forall l s s', Forall (fun c => ~ is_eol c) l -> lrun s l = Some s' -> c_auth s' = c_auth s.
Proof.
  induction l as [|c l IH]; intros s s' F H; cbn [lrun] in H; [congruence|]. inversion F; subst. destruct (lstep s c) as [s1|] eqn:L; [|discriminate].
  rewrite (IH s1 s'); auto. apply (lstep_auth s c); auto. apply not_eol; auto.
Qed.
Lemma run_tail env h s au tail : ready s au -> Forall (fun c => ~ is_eol c) tail -> config_run env h s tail = (h ++ [XAuth au], RDone) \/ config_run env h s tail = (h, RBad).
Proof.
  intros (_ & _ & R) F. pose proof (run_line env h tail s [] F) as L. rewrite app_nil_r in L. rewrite L. destruct (lrun s tail) as [s'|] eqn:E; auto. left. cbn [config_run]. rewrite (lrun_auth tail s s' F E), R. reflexivity.
Qed.
Lemma ready_init : ready c_init None.
Proof. repeat split. Qed.

Definition not_auth (x : call) : Prop := match x with XAuth _ => False | _ => True end.
Lemma executed_auth env a h ls calls r : executed env a h ls calls r ->
  exists h', Forall not_auth h' /\ (r <> RDone -> calls = h ++ h') /\
  (r = RDone -> exists a', calls = h ++ h' ++ [XAuth a']
    /\ ((forall l, In l ls -> ~ auth_line l) -> match a with None => a' = None | Some (k, x) => exists y, given ls y /\ a' = Some (k, x ++ y) end)
    /\ (forall pre lk post k, ls = pre ++ lk :: post -> line_means lk (Some (CAuth k)) -> (forall l, In l post -> ~ auth_line l) -> exists y, given post y /\ a' = Some (k, y))).
Proof.
  assert (forall l c, line_means l (Some c) -> (forall v, c <> CRestrict v) -> (forall u p, c <> CUser u p) -> (forall v, ~ line_means l (Some (CRestrict v))) /\ (forall u p, ~ line_means l (Some (CUser u p)))) as OTH.
  { intros l c M N1 N2. split; intros; intros X; pose proof (line_means_unique _ _ _ M X) as E; injection E as E; [apply (N1 v)|apply (N2 u p)]; exact E. }
  assert (forall l, line_means l None -> (forall v, ~ line_means l (Some (CRestrict v))) /\ (forall u p, ~ line_means l (Some (CUser u p)))) as OTN.
  { intros l M. split; intros; intros X; pose proof (line_means_unique _ _ _ M X) as E; discriminate. }
  assert (forall l c k, line_means l c -> line_means l (Some (CAuth k)) -> c = Some (CAuth k)) as ATH by (intros; eapply line_means_unique; eauto).
  induction 1 as [a h|a h l ls h' r M X IH|a h l ls M|a h l ls d h' r M X IH|a h l ls k h' r M X IH|k ac h l ls v h' r M X IH|h l ls v M|k ac h l ls u p h' r M X IH|h l ls u p M
    |a h l ls s n h' r M V X IH|a h l ls s n M V|a h l ls s n v h' r M V X IH|a h l ls s n v M V].
  - exists []. split; [constructor|]. split; [congruence|]. intros _. exists a. split; [reflexivity|]. split.
    + intros _. destruct a as [[k x]|]; auto. exists []. rewrite app_nil_r. split; [constructor|reflexivity].
    + intros pre lk post k E. destruct pre; discriminate.
  - destruct IH as (h1 & F & A & B). exists h1. split; auto. split; auto. intros D. destruct (B D) as (a' & E & G1 & G2). exists a'. split; auto. split.
    + intros N. specialize (G1 (fun l0 I => N l0 (or_intror I))). destruct a as [[k x]|]; auto. destruct G1 as (y & G & Q). exists y. split; auto. destruct (OTN l M). apply G_other; auto.
    + intros pre lk post k E1 ML NP. destruct pre as [|p0 pre]; injection E1 as -> ->; [pose proof (ATH _ _ _ M ML); discriminate|]. eapply G2; eauto.
  - exists []. split; [constructor|]. split; [rewrite app_nil_r; auto|discriminate].
  - destruct IH as (h1 & F & A & B). exists (XPath d :: h1). split; [constructor; cbn; auto|]. rewrite <- app_assoc in A. split; auto. intros D. destruct (B D) as (a' & E & G1 & G2). exists a'. rewrite <- app_assoc in E. split; auto. split.
    + intros N. specialize (G1 (fun l0 I => N l0 (or_intror I))). destruct a as [[k x]|]; auto. destruct G1 as (y & G & Q). exists y. split; auto. destruct (OTH l _ M) as [O1 O2]; try discriminate. apply G_other; auto.
    + intros pre lk post k E1 ML NP. destruct pre as [|p0 pre]; injection E1 as -> ->; [pose proof (ATH _ _ _ M ML); discriminate|]. eapply G2; eauto.
  - destruct IH as (h1 & F & A & B). exists h1. split; auto. split; auto. intros D. destruct (B D) as (a' & E & G1 & G2). exists a'. split; auto. split.
    + intros N. exfalso. apply (N l (or_introl eq_refl)). exists k. exact M.
    + intros pre lk post k' E1 ML NP. destruct pre as [|p0 pre]; injection E1 as -> ->; [|eapply G2; eauto]. pose proof (ATH _ _ _ M ML) as Q. injection Q as <-. destruct (G1 NP) as (y & G & Y). exists y. auto.
  - destruct IH as (h1 & F & A & B). exists h1. split; auto. split; auto. intros D. destruct (B D) as (a' & E & G1 & G2). exists a'. split; auto. split.
    + intros N. destruct (G1 (fun l0 I => N l0 (or_intror I))) as (y & G & Q). exists (ARestrict v :: y). rewrite <- app_assoc in Q. split; auto. apply G_restrict; auto.
    + intros pre lk post k' E1 ML NP. destruct pre as [|p0 pre]; injection E1 as -> ->; [pose proof (ATH _ _ _ M ML); discriminate|]. eapply G2; eauto.
  - exists []. split; [constructor|]. split; [rewrite app_nil_r; auto|discriminate].
  - destruct IH as (h1 & F & A & B). exists h1. split; auto. split; auto. intros D. destruct (B D) as (a' & E & G1 & G2). exists a'. split; auto. split.
    + intros N. destruct (G1 (fun l0 I => N l0 (or_intror I))) as (y & G & Q). exists (AUser u p :: y). rewrite <- app_assoc in Q. split; auto. apply G_user; auto.
    + intros pre lk post k' E1 ML NP. destruct pre as [|p0 pre]; injection E1 as -> ->; [pose proof (ATH _ _ _ M ML); discriminate|]. eapply G2; eauto.
  - exists []. split; [constructor|]. split; [rewrite app_nil_r; auto|discriminate].
  - destruct IH as (h1 & F & A & B). exists (XService s n :: h1). split; [constructor; cbn; auto|]. rewrite <- app_assoc in A. split; auto. intros D. destruct (B D) as (a' & E & G1 & G2). exists a'. rewrite <- app_assoc in E. split; auto. split.
    + intros N. specialize (G1 (fun l0 I => N l0 (or_intror I))). destruct a as [[k x]|]; auto. destruct G1 as (y & G & Q). exists y. split; auto. destruct (OTH l _ M) as [O1 O2]; try discriminate. apply G_other; auto.
    + intros pre lk post k E1 ML NP. destruct pre as [|p0 pre]; injection E1 as -> ->; [pose proof (ATH _ _ _ M ML); discriminate|]. eapply G2; eauto.
  - exists [XService s n]. split; [constructor; cbn; auto|]. split; [auto|discriminate].
  - destruct IH as (h1 & F & A & B). exists (XOption s n v :: h1). split; [constructor; cbn; auto|]. rewrite <- app_assoc in A. split; auto. intros D. destruct (B D) as (a' & E & G1 & G2). exists a'. rewrite <- app_assoc in E. split; auto. split.
    + intros N. specialize (G1 (fun l0 I => N l0 (or_intror I))). destruct a as [[k x]|]; auto. destruct G1 as (y & G & Q). exists y. split; auto. destruct (OTH l _ M) as [O1 O2]; try discriminate. apply G_other; auto.
    + intros pre lk post k E1 ML NP. destruct pre as [|p0 pre]; injection E1 as -> ->; [pose proof (ATH _ _ _ M ML); discriminate|]. eapply G2; eauto.
  - exists [XOption s n v]. split; [constructor; cbn; auto|]. split; [auto|discriminate].
Qed.
