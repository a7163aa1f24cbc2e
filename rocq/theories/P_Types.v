(** C152: files are sent with the type their name tells. *)
From Coq Require Import String ZArith List Bool Lia.
From Verif Require Import Base AlgModel MessageModel WriterModel PathModel SMap FormSpec HttpModel FileModel.
Import ListNotations.

(** The types by extension; the extension is in small letters. *)
Definition type_table : list (list Z * list Z) :=
  map (fun p => (bs (fst p), bs (snd p)))
    [("css", "text/css"); ("htm", "text/html"); ("html", "text/html"); ("xhtml", "text/html"); ("js", "text/javascript"); ("txt", "text/plain"); ("xml", "text/xml");
     ("gif", "image/gif"); ("jpg", "image/jpeg"); ("jpeg", "image/jpeg"); ("png", "image/png"); ("svg", "image/svg+xml");
     ("otf", "application/x-font-opentype"); ("ttf", "application/x-font-ttf"); ("woff", "application/font-woff"); ("eof", "application/vnd.ms-fontobject")]%string.
Definition octets : list Z := bs "application/octet-stream".
Definition type_for (ext t : list Z) : Prop := In (ext, t) type_table \/ (t = octets /\ forall t', ~ In (ext, t') type_table).
(** what a name tells: by what follows the last dot; without a dot nothing, if the name is not one of the extensions *)
Definition type_of_name (name t : list Z) : Prop :=
  (forall base ext, name = base ++ 46 :: ext -> ~ In 46 ext -> type_for (map ascii_lower ext) t) /\
  (~ In 46 name -> (forall t', ~ In (map ascii_lower name, t') type_table) -> t = octets).

Lemma ext_dot base ext : ~ In 46 ext -> extension (base ++ 46 :: ext) = ext.
Proof.
  intros N. assert (X : forall l, existsb (Z.eqb 46) l = true <-> In 46 l) by (intros l; rewrite existsb_exists; split; [intros (x & I & E); apply Z.eqb_eq in E; subst; exact I|intros I; exists 46; split; [exact I|reflexivity]]).
  induction base as [|c base IH]; cbn [app extension].
  - destruct (existsb (Z.eqb 46) ext) eqn:E; [apply X in E; contradiction|]. reflexivity.
  - assert (existsb (Z.eqb 46) (base ++ 46 :: ext) = true) as -> by (apply X, in_or_app; right; left; reflexivity). rewrite orb_true_r. exact IH.
Qed.
Lemma ext_none name : ~ In 46 name -> extension name = name.
Proof.
  intros N. destruct name as [|c name]; [reflexivity|]. cbn [extension]. destruct (Z.eqb_spec c 46) as [->|D]; [exfalso; apply N; left; reflexivity|].
  destruct (existsb (Z.eqb 46) name) eqn:E; [|reflexivity]. exfalso. apply existsb_exists in E. destruct E as (x & I & E). apply Z.eqb_eq in E. subst. apply N. right. exact I.
Qed.
Lemma same_table ext t : In (ext, t) mime_types <-> In (ext, t) type_table.
Proof. unfold mime_types, type_table. cbn [map fst snd In]. intuition auto. Qed.
Lemma keys_once : forall e t t', In (e, t) mime_types -> In (e, t') mime_types -> t = t'.
Proof.
  assert (NoDup (map fst mime_types)) as N by (apply (NoDup_count_occ' (list_eq_dec Z.eq_dec)); intros x I; vm_compute in I; repeat (destruct I as [<-|I]; [vm_compute; reflexivity|]); destruct I).
  revert N. generalize mime_types. induction l as [|[k v] l IH]; intros N e t t' A B; [destruct A|]. cbn in N. inversion N as [|? ? X Y]; subst.
  destruct A as [A|A], B as [B|B]; try congruence; [injection A as -> ->|injection B as -> ->|eapply IH; eauto]; exfalso; apply X; apply in_map_iff; [exists (e, t')|exists (e, t)]; auto.
Qed.
Lemma mime_told name : type_of_name name (find_mime name).
Proof.
  assert (F : forall e, type_for e (match find (fun x => str_eqb (fst x) e) mime_types with Some x => snd x | None => octets end)).
  { intros e. destruct (find _ mime_types) as [[k v]|] eqn:E.
    - apply find_some in E. destruct E as [I E]. cbn [fst] in E. apply str_eqb_eq in E. subst k. left. apply same_table. exact I.
    - right. split; [reflexivity|]. intros t' I. apply same_table in I. pose proof (find_none _ _ E _ I) as X. cbn [fst] in X. rewrite str_eqb_refl in X. discriminate. }
  split.
  - intros base ext -> N. unfold find_mime. rewrite ext_dot by exact N. apply (F (map ascii_lower ext)).
  - intros N NT. unfold find_mime. rewrite ext_none by exact N. fold octets. change (map lower name) with (map ascii_lower name). destruct (F (map ascii_lower name)) as [I|[E _]]; [exfalso; exact (NT _ I)|exact E].
Qed.

(* ------------------------------------------------------------------ all that is in the cache *)

Definition typed (f : diskfile) : Prop := f_mime f = find_mime (filename (f_path f)).
Definition all_typed (s : fserv) : Prop := forall k e, In (k, e) (s_cache s) -> typed e.
Section Service.
Variables (two : bool) (date : Z -> list Z).
Lemma typed_cache s c : all_typed s -> (forall k e, In (k, e) c -> In (k, e) (s_cache s) \/ typed e) -> all_typed (with_cache s c).
Proof. intros A H k e I. cbn [with_cache s_cache] in I. destruct (H k e I) as [X|X]; [exact (A k e X)|exact X]. Qed.
Lemma typed_insert s k f : all_typed s -> typed f -> all_typed (with_cache s (sm_insert (s_cache s) k f)).
Proof. intros A T. apply typed_cache; [exact A|]. intros k' e I. apply sm_insert_in in I. destruct I as [E|I]; [injection E as -> ->|]; auto. Qed.
Lemma update_keeps d f ok f' tr : df_update date d f = (ok, f', tr) -> f_path f' = f_path f /\ f_mime f' = f_mime f.
Proof. unfold df_update. destruct (d (f_path f)) as [[es ed|c t r]|]; intros E; injection E as <- <- <-; auto. Qed.
Lemma read_keeps d f ok f' tr : df_read d f = (ok, f', tr) -> f_path f' = f_path f /\ f_mime f' = f_mime f.
Proof. unfold df_read. destruct (match d (f_path f) with Some (NFile c _ true) => _ | _ => _ end) as [o b]. intros E; injection E as <- <- <-; auto. Qed.
Lemma check_keeps d f ok f' tr : df_check date d f = (ok, f', tr) -> f_path f' = f_path f /\ f_mime f' = f_mime f.
Proof.
  unfold df_check. destruct (d (f_path f)) as [[es ed|c t r]|]; try (intros E; injection E as <- <- <-; auto; fail). destruct ((t =? f_time f) && (zlen c =? f_size f))%bool; [intros E; injection E as <- <- <-; auto|].
  destruct (df_read d _) as [[o g] tr'] eqn:R. apply read_keeps in R. intros E; injection E as <- <- <-. exact R.
Qed.
Lemma keeps_typed f f' : typed f -> f_path f' = f_path f /\ f_mime f' = f_mime f -> typed f'.
Proof. unfold typed. intros T [-> ->]. exact T. Qed.
Lemma add_typed d s rel p ph ok s' tr : all_typed s -> add_entry date d s rel p ph = (ok, s', tr) -> all_typed s'.
Proof.
  intros A. unfold add_entry. destruct ph; [intros E; injection E as <- <- <-; apply typed_insert; auto; reflexivity|].
  destruct (df_update date d _) as [[o1 e1] t1] eqn:U. destruct o1; cbn [negb]; [|intros E; injection E as <- <- <-; exact A]. destruct (df_read d e1) as [[o2 e2] t2] eqn:R. intros E; injection E as <- <- <-.
  destruct o2; [|exact A]. apply typed_insert; auto. eapply keeps_typed; [eapply keeps_typed; [|exact (update_keeps _ _ _ _ _ U)]|exact (read_keeps _ _ _ _ _ R)]. reflexivity.
Qed.
Lemma scan_typed depth d : forall s p ok s' tr, all_typed s -> scan_dir date depth d s p = (ok, s', tr) -> all_typed s'.
Proof.
  induction depth as [|depth IH]; intros s p ok s' tr A E; cbn [scan_dir] in E; [injection E as <- <- <-; exact A|]. destruct (d p) as [[entries t|c0 t0 r0]|]; try (injection E as <- <- <-; exact A).
  destruct (scan_entries date (scan_dir date depth d) d p entries s) as [[o1 s1] t1] eqn:S. injection E as <- <- <-. revert s o1 s1 t1 A S.
  induction entries as [|n entries IHe]; intros s o1 s1 t1 A S; cbn [scan_entries] in S; [injection S as <- <- <-; exact A|].
  destruct (if is_dir d (p_append p n) then _ else _) as [[o2 s2] t2] eqn:X. assert (A2 : all_typed s2).
  { destruct (is_dir d (p_append p n)); [eapply IH; eauto|]. destruct (zlen (p_append p n) <? zlen (s_dir s) + 1); [injection X as <- <- <-; exact A|eapply add_typed; eauto]. }
  destruct o2; [|injection S as <- <- <-; exact A2]. destruct (scan_entries date (scan_dir date depth d) d p entries s2) as [[o3 s3] t3] eqn:Y. injection S as <- <- <-. eapply IHe; eauto.
Qed.
Lemma start_typed depth d s ok s' tr : all_typed s -> fs_start date depth d s = (ok, s', tr) -> all_typed s'.
Proof.
  intros A. unfold fs_start. destruct (s_scan s =? 0); [intros E; injection E as <- <- <-; exact A|].
  assert (A1 : all_typed (if ((s_caching s =? 0) && (1 <? s_scan s))%bool then mkfs (s_resource s) (s_dir s) (s_file s) (s_cache s) 1 (s_scan s) (s_chunk s) (s_writable s) else s)) by (destruct ((s_caching s =? 0) && (1 <? s_scan s))%bool; exact A).
  revert A1. generalize (if ((s_caching s =? 0) && (1 <? s_scan s))%bool then mkfs (s_resource s) (s_dir s) (s_file s) (s_cache s) 1 (s_scan s) (s_chunk s) (s_writable s) else s). intros s1 A1.
  destruct (if is_nil (s_file s1) then _ else _) as [[o2 s2] t2] eqn:X. assert (A2 : all_typed s2) by (destruct (is_nil (s_file s1)); [injection X as <- <- <-; exact A1|eapply add_typed; eauto]).
  destruct o2; cbn [negb]; [|intros E; injection E as <- <- <-; exact A2]. destruct (is_nil (s_dir s2)); [intros E; injection E as <- <- <-; exact A2|]. destruct (scan_dir date depth d s2 (s_dir s2)) as [[o3 s3] t3] eqn:Y.
  intros E; injection E as <- <- <-. eapply scan_typed; eauto.
Qed.
(** answers that tell a type *)
Definition says_typed (r : fres) : Prop := match r with FSend f => typed f | FAnswer (WMsg (MsgContentType t) :: _) => exists f, typed f /\ t = f_mime f | _ => True end.
Lemma choose_typed m f : typed f -> says_typed (choose m f).
Proof. intros T. unfold choose, headers_only. destruct (str_eqb _ _); [cbn; eauto|]. destruct (is_head m); cbn; eauto. Qed.
Lemma page_typed code reason title h1 before about after e1 e2 body : says_typed (page code reason title h1 before about after e1 e2 body).
Proof. unfold page. destruct (xml_encode about); [exact I|]. destruct body; exact I. Qed.
Lemma disk_typed d s m p rel r s' tr : all_typed s -> fs_from_disk date d s m p rel = (r, s', tr) -> says_typed r /\ all_typed s'.
Proof.
  intros A. unfold fs_from_disk. destruct (exists_ d p); cbn [negb]; [|intros E; injection E as <- <- <-; split; [apply page_typed|exact A]]. destruct (df_update date d _) as [[o1 e1] t1] eqn:U.
  assert (T1 : typed e1) by (eapply keeps_typed; [|exact (update_keeps _ _ _ _ _ U)]; reflexivity). destruct o1; cbn [negb]; [|intros E; injection E as <- <- <-; split; [exact I|exact A]].
  destruct (sends (choose m e1) && negb (s_caching s =? 0))%bool; [|intros E; injection E as <- <- <-; split; [apply choose_typed; exact T1|exact A]].
  destruct (df_read d e1) as [[o2 e2] t2] eqn:R. assert (T2 : typed e2) by (eapply keeps_typed; [exact T1|exact (read_keeps _ _ _ _ _ R)]).
  destruct o2; intros E; injection E as <- <- <-; (split; [try exact T2; exact I|try exact A]). apply typed_insert; auto.
Qed.
Lemma find_in {A} (m : smap A) k v : sm_find m k = Some v -> exists k', In (k', v) m.
Proof. unfold sm_find. destruct (find _ m) as [[k' v']|] eqn:F; [|discriminate]. intros E. injection E as ->. apply find_some in F. exists k'. apply F. Qed.
Lemma get_typed d s m p r s' tr : all_typed s -> fs_get date d s m p = (r, s', tr) -> says_typed r /\ all_typed s'.
Proof.
  intros A. unfold fs_get. destruct ((0 <? s_caching s) || (0 <? s_scan s))%bool; [|intros E; eapply disk_typed; eauto]. destruct (sm_find (s_cache s) (relative s (m_resource m))) as [e|] eqn:F.
  2:{ destruct ((s_scan s =? 1) || (s_scan s =? 3))%bool; [intros E; injection E as <- <- <-; split; [apply page_typed|exact A]|intros E; eapply disk_typed; eauto]. }
  assert (T : typed e) by (destruct (find_in _ _ _ F) as [k' I]; exact (A _ _ I)).
  destruct (s_caching s =? 0).
  - destruct (df_update date d _) as [[o1 e1] t1] eqn:U. assert (T1 : typed e1) by (eapply keeps_typed; [|exact (update_keeps _ _ _ _ _ U)]; exact T).
    intros E; injection E as <- <- <-. split; [|exact A]. destruct o1; [apply choose_typed; exact T1|exact I].
  - destruct (if f_time e =? 0 then _ else _) as [[o1 e1] t1] eqn:U.
    assert (T1 : typed e1).
    { destruct (f_time e =? 0).
      - destruct (df_update date d e) as [[o2 e2] t2] eqn:U2. assert (T2 : typed e2) by (eapply keeps_typed; [exact T|exact (update_keeps _ _ _ _ _ U2)]). destruct o2; [|injection U as <- <- <-; exact T2].
        destruct (df_read d e2) as [[o3 e3] t3] eqn:U3. injection U as <- <- <-. eapply keeps_typed; [exact T2|exact (read_keeps _ _ _ _ _ U3)].
      - destruct (s_caching s =? 1); [eapply keeps_typed; [exact T|exact (check_keeps _ _ _ _ _ U)]|injection U as <- <- <-; exact T]. }
    intros E; injection E as <- <- <-. split; [destruct o1; [apply choose_typed; exact T1|exact I]|]. apply typed_cache; [exact A|]. intros k' e' I'. unfold sm_set in I'. apply in_map_iff in I'.
    destruct I' as ([k0 e0] & Q & I'). cbn [fst] in Q. destruct (str_eqb k0 (relative s (m_resource m))); injection Q as <- <-; auto.
Qed.
Lemma change_typed d d' s m p data why r tr : fs_change d d' s m p data why = (r, tr) -> says_typed r.
Proof.
  assert (W : forall x, says_typed x -> (forall ops, x = FAnswer ops -> exists c ops', ops = WMsg (MsgCode c) :: ops') -> says_typed (write_answer d' m p x)).
  { intros x X Y. unfold write_answer. destruct (exists_ d' p); [exact X|]. destruct x as [ops| | |]; try exact X. destruct (Y ops eq_refl) as (c & ops' & ->). destruct (xml_encode (m_resource m)); exact I. }
  unfold fs_change. destruct (s_writable s); cbn [negb]; [|intros E; injection E as <- <-; apply page_typed]. destruct (str_eqb (m_method m) (bs "DELETE")).
  - destruct (exists_ d p); cbn [negb]; [|intros E; injection E as <- <-; apply page_typed]. destruct (exists_ d' p); intros E; injection E as <- <-; [apply page_typed|exact I].
  - destruct (exists_ d p); [intros E; injection E as <- <-; apply W; [exact I|intros ops Q; injection Q as <-; eauto]|]. destruct (exists_ d (branch p)); cbn [negb]; intros E; injection E as <- <-; [|apply page_typed].
    apply W; [apply page_typed|]. intros ops. unfold page. destruct (xml_encode (m_resource m)); [|discriminate]. intros Q; injection Q as <-. cbn [app]. eauto.
Qed.
Lemma handle_typed d d' s m data why r s' tr : all_typed s -> fs_handle two date d d' s m data why = (r, s', tr) -> says_typed r /\ all_typed s'.
Proof.
  intros A. unfold fs_handle. destruct (file_path two s m) as [p|]; [|intros E; injection E as <- <- <-; split; [apply page_typed|exact A]].
  destruct (is_prefix (s_dir s) p); cbn [negb]; [|intros E; injection E as <- <- <-; split; [apply page_typed|exact A]]. destruct (is_dir d p); [intros E; injection E as <- <- <-; split; [apply page_typed|exact A]|].
  destruct (str_eqb (m_method m) (bs "GET") || is_head m)%bool; [destruct (fs_get date d s m p) as [[r1 s1] t1] eqn:G; intros E; injection E as <- <- <-; eapply get_typed; eauto|].
  destruct (str_eqb (m_method m) (bs "POST") || str_eqb (m_method m) (bs "PUT") || str_eqb (m_method m) (bs "DELETE"))%bool; [|intros E; injection E as <- <- <-; split; [apply page_typed|exact A]].
  destruct (fs_change d d' s m p data why) as [r1 t1] eqn:C. intros E; injection E as <- <- <-. split; [eapply change_typed; eauto|exact A].
Qed.
Lemma run_typed ops : forall s, all_typed s -> all_typed (fst (fs_run two date s ops)).
Proof.
  induction ops as [|o ops IH]; intros s A; [exact A|]. cbn [fs_run]. destruct (fs_step two date s o) as [s1 t1] eqn:S.
  assert (A1 : all_typed s1).
  { destruct o as [d o|n d| |d d' m data why]; cbn [fs_step] in S.
    - assert (X : forall b x t, fs_option two d s o = (b, x, t) -> s_cache x = s_cache s).
      { intros b x t. destruct o; cbn [fs_option]; repeat match goal with |- context [if ?c then _ else _] => destruct c end; intros E; injection E as <- <- <-; reflexivity. }
      destruct (fs_option two d s o) as [[b x] t] eqn:E. injection S as <- <-. intros k e. rewrite (X _ _ _ eq_refl). apply A.
    - destruct (fs_start date n d s) as [[b x] t] eqn:E. injection S as <- <-. eapply start_typed; eauto.
    - injection S as <- <-. intros k e [].
    - destruct (fs_handle two date d d' s m data why) as [[b x] t] eqn:E. injection S as <- <-. eapply handle_typed; eauto. }
  specialize (IH s1 A1). destruct (fs_run two date s1 ops) as [s2 t2]. exact IH.
Qed.
End Service.

(* ------------------------------------------------------------------ C152 *)

(** Whatever was done before, what is sent of a file, or told of it without sending it, has the type the last part of its path tells. *)
Theorem C152_type_partial two date resource ops d d' m data why r s' tr : fs_handle two date d d' (fst (fs_run two date (fs_init resource) ops)) m data why = (r, s', tr) ->
  match r with
  | FSend f => type_of_name (filename (f_path f)) (f_mime f)
  | FAnswer (WMsg (MsgContentType t) :: _) => exists p, type_of_name (filename p) t
  | _ => True
  end.
Proof.
  intros E. apply handle_typed in E; [|apply run_typed; intros k e []]. destruct E as [S _]. unfold says_typed in S. destruct r as [[|o l]|f| |]; auto.
  - destruct o as [x| | | | | | | |]; auto. destruct x; auto. destruct S as (f & T & ->). exists (f_path f). rewrite T. apply mime_told.
  - rewrite S. apply mime_told.
Qed.
Print Assumptions C152_type_partial.
(** Every name tells one type only. *)
Theorem C152_one_partial name t t' : In 46 name -> type_of_name name t -> type_of_name name t' -> t = t'.
Proof.
  intros D [A _] [B _]. assert (X : exists base ext, name = base ++ 46 :: ext /\ ~ In 46 ext).
  { clear - D. induction name as [|c name IH]; [destruct D|]. destruct (in_dec Z.eq_dec 46 name) as [I|N]; [destruct (IH I) as (b & e & -> & F); exists (c :: b), e; auto|].
    destruct D as [-> |D]; [exists [], name; auto|contradiction]. }
  destruct X as (base & ext & E & N). destruct (A _ _ E N) as [I|[-> I]], (B _ _ E N) as [J|[-> J]]; auto; [|exfalso; exact (J _ I)|exfalso; exact (I _ J)].
  apply same_table in I. apply same_table in J. exact (keys_once _ _ _ I J).
Qed.
Print Assumptions C152_one_partial.

(** The full claims: a name without a dot tells nothing; fonts for pages have the type registered for them. *)
Definition dir_with (name : list Z) : disk := fun p => if str_eqb p (bs "/w") then Some (NDir [name] 1) else if str_eqb p (bs "/w/" ++ name) then Some (NFile (bs "x") 1 true) else None.
Definition get_file (name : list Z) : msg := set_m_method (bs "GET") (set_m_resource (bs "/f/" ++ name) msg_init).
Definition asked_for (name : list Z) : fres := fst (fst (fs_handle false (fun _ => bs "now") (dir_with name) (dir_with name) (fst (fs_run false (fun _ => bs "now") (fs_init (bs "/f")) [FOption (dir_with name) (ODirectory (bs "/w"))])) (get_file name) [] [])).
Definition no_dot_tells_nothing : Prop := forall name f, ~ In 46 name -> asked_for name = FSend f -> f_mime f = octets.
Theorem C152_dot_refuted : ~ no_dot_tells_nothing.
Proof. intros H. assert (X : exists f, asked_for (bs "html") = FSend f /\ f_mime f = bs "text/html") by (eexists; split; vm_compute; reflexivity). destruct X as (f & A & B). specialize (H (bs "html") f ltac:(vm_compute; intuition discriminate) A). rewrite B in H. discriminate H. Qed.
Print Assumptions C152_dot_refuted.
Definition fonts_typed : Prop := forall name f, asked_for (name ++ bs ".eot") = FSend f -> f_mime f = bs "application/vnd.ms-fontobject".
Theorem C152_font_refuted : ~ fonts_typed.
Proof. intros H. assert (X : exists f, asked_for (bs "a" ++ bs ".eot") = FSend f /\ f_mime f = octets) by (eexists; split; vm_compute; reflexivity). destruct X as (f & A & B). specialize (H (bs "a") f A). rewrite B in H. discriminate H. Qed.
Print Assumptions C152_font_refuted.
Example C152_case : exists f g, asked_for (bs "a.b.JPeG") = FSend f /\ f_path f = bs "/w/a.b.JPeG" /\ f_mime f = bs "image/jpeg" /\ asked_for (bs "README") = FSend g /\ f_mime g = octets.
Proof. eexists. eexists. split; [vm_compute; reflexivity|]. split; [vm_compute; reflexivity|]. split; [vm_compute; reflexivity|]. split; vm_compute; reflexivity. Qed.
