(** How much text forms, cookies and messages hold against how much was received. *)
From Coq Require Import String ZArith List Lia Bool Permutation.
From Coq Require Import ZifyBool ZifyNat.
From Verif Require Import Base Digits AlgModel AlgProofs FormModel DictModel MultipartModel MultipartProofs HttpModel HttpBase HttpSplit HttpSpec HttpProofs HttpHead HttpBody HttpChunk HttpBounds HttpLimits HttpStatus KeptSpec.
Import ListNotations.

Local Arguments zlen : simpl never.
Local Arguments Z.add : simpl never.
Local Arguments Z.sub : simpl never.
Local Arguments Z.mul : simpl never.

Lemma ts_app a b : text_size (a ++ b) = text_size a + text_size b.
Proof. induction a as [|p a IH]; cbn; lia. Qed.
Lemma ts_nonneg d : 0 <= text_size d.
Proof. induction d as [|p d IH]; cbn; [lia|]. pose proof (zlen_nonneg (fst p)). pose proof (zlen_nonneg (snd p)). lia. Qed.
Lemma ts_perm a b : Permutation a b -> text_size a = text_size b.
Proof. induction 1; cbn; lia. Qed.
Lemma ts_insert pos d p : text_size (d_insert pos d p) = text_size d + zlen (fst p) + zlen (snd p).
Proof. rewrite <- (ts_perm _ _ (d_insert_perm pos d p)). cbn. lia. Qed.
Lemma ts_insert_all pos d l : text_size (d_insert_all pos d l) = text_size d + text_size l.
Proof. rewrite <- (ts_perm _ _ (d_insert_all_perm pos l d)), ts_app. lia. Qed.
Lemma ts_range d k : text_size (d_range d k) <= text_size d.
Proof.
  induction d as [|p d IH]; cbn; [lia|]. pose proof (zlen_nonneg (fst p)). pose proof (zlen_nonneg (snd p)).
  unfold d_range in *. destruct (d_match k p); cbn; lia.
Qed.

(* ------------------------------------------------------------------ URL-encoded forms *)

Definition u_pot (st : ustate) : Z := text_size (u_out st) + zlen (u_name st) + zlen (u_value st).

Lemma u_insert_size st : text_size (u_insert st) <= u_pot st.
Proof.
  unfold u_insert, u_pot. destruct (u_name st) as [|a n] eqn:E; [pose proof (zlen_nonneg (u_value st)); rewrite zlen_nil; lia|].
  rewrite ts_app. cbn [text_size fst snd]. pose proof (url_decode_len (a :: n)). pose proof (url_decode_len (u_value st)). lia.
Qed.

Lemma u_step_size st c : zlen (u_name st) <= 1024 -> (u_value_state st = false -> u_value st = []) ->
  zlen (u_name (snd (u_step st c))) <= 1024
  /\ (u_value_state (snd (u_step st c)) = false -> u_value (snd (u_step st c)) = [])
  /\ u_pot (snd (u_step st c)) <= u_pot st + 1024.
Proof.
  intros H V. pose proof (u_insert_size st) as I. unfold u_step, QUERY_VALUE_MAX, QUERY_NAME_MAX.
  assert (u_value_state st = false -> zlen (u_value st) = 0) as V0 by (intros X; rewrite (V X); apply zlen_nil).
  pose proof (zlen_nonneg (u_value st)). pose proof (zlen_nonneg (u_name st)).
  destruct (u_value_state st) eqn:EV;
  repeat match goal with |- context [if ?b then _ else _] => destruct b eqn:? end; unfold u_pot in *; cbn; rewrite ?zlen_snoc, ?zlen_nil in *;
  (split; [lia|split; [intros; try discriminate; auto; congruence|lia]]).
Qed.

Lemma u_run_size s : forall st, zlen (u_name st) <= 1024 -> (u_value_state st = false -> u_value st = []) ->
  u_pot (snd (run u_step st s)) <= u_pot st + 1024 * zlen s.
Proof.
  induction s as [|c s IH]; intros st H V; cbn [run]; [rewrite zlen_nil; cbn; lia|].
  destruct (u_step_size st c H V) as (A & B & C). destruct (u_step st c) as [ok st']. cbn [snd] in *. rewrite zlen_cons.
  pose proof (zlen_nonneg s). destruct ok; cbn [snd]; [|lia]. specialize (IH st' A B). lia.
Qed.

Lemma url_encoded_size s : text_size (snd (parse_url_encoded s)) <= 1024 * zlen s.
Proof.
  unfold parse_url_encoded. destruct s as [|c s]; [rewrite zlen_nil; cbn; lia|].
  pose proof (u_run_size (c :: s) u_init ltac:(cbn [u_init u_name]; rewrite zlen_nil; lia) (fun _ => eq_refl)) as R.
  change (u_pot u_init) with 0 in R. destruct (run u_step u_init (c :: s)) as [ok st]. cbn [snd] in R.
  destruct ok; cbn [snd]; [pose proof (u_insert_size st); lia|].
  unfold u_pot in R. pose proof (zlen_nonneg (u_name st)). pose proof (zlen_nonneg (u_value st)). lia.
Qed.

(* ------------------------------------------------------------------ cookies *)

Definition c_pot (st : cstate) : Z := text_size (c_out st) + zlen (c_name st) + zlen (c_value st).

Lemma c_insert_size sc st : text_size (c_insert sc st) <= c_pot st.
Proof.
  unfold c_insert, c_pot. pose proof (zlen_nonneg (c_name st)). pose proof (zlen_nonneg (c_value st)).
  destruct (is_cookie_attribute _ _); [lia|]. rewrite ts_app. cbn [text_size fst snd]. lia.
Qed.

Lemma c_step_size sc st c : (c_phase st = CName -> c_value st = []) ->
  (c_phase st = CIgnore -> c_name st = [] /\ c_value st = []) ->
  (c_phase (snd (c_step sc st c)) = CName -> c_value (snd (c_step sc st c)) = [])
  /\ (c_phase (snd (c_step sc st c)) = CIgnore -> c_name (snd (c_step sc st c)) = [] /\ c_value (snd (c_step sc st c)) = [])
  /\ c_pot (snd (c_step sc st c)) <= c_pot st + 1.
Proof.
  intros V W. pose proof (c_insert_size sc st) as I. unfold c_step.
  pose proof (zlen_nonneg (c_value st)). pose proof (zlen_nonneg (c_name st)).
  destruct (c_phase st) eqn:EV; [specialize (V eq_refl)| |destruct (W eq_refl) as [W1 W2]].
  all: repeat match goal with |- context [if ?b then _ else _] => destruct b eqn:? end.
  all: repeat match goal with |- context [match ?l with [] => _ | _ => _ end] => destruct l eqn:? end.
  all: unfold c_pot in *; cbn; rewrite ?EV, ?zlen_snoc, ?zlen_nil in *; (split; [intros; try discriminate; auto; try congruence|split; [intros; try discriminate; auto; try congruence|try lia]]).
  all: try (rewrite ?V, ?zlen_nil in *; lia).
  all: try (pose proof (zlen_nonneg (c_value st)); lia).
  rewrite Heql, zlen_cons. change (z :: l ++ [c]) with ((z :: l) ++ [c]). rewrite zlen_snoc, zlen_cons. lia.
Qed.

Lemma c_run_size sc s : forall st, (c_phase st = CName -> c_value st = []) ->
  (c_phase st = CIgnore -> c_name st = [] /\ c_value st = []) ->
  c_pot (snd (run (c_step sc) st s)) <= c_pot st + zlen s.
Proof.
  induction s as [|c s IH]; intros st H V; cbn [run]; [rewrite zlen_nil; cbn; lia|].
  destruct (c_step_size sc st c H V) as (A & B & C). destruct (c_step sc st c) as [ok st']. cbn [snd] in *. rewrite zlen_cons.
  pose proof (zlen_nonneg s). destruct ok; cbn [snd]; [|lia]. specialize (IH st' A B). lia.
Qed.

Lemma cookie_header_size sc s : text_size (snd (parse_cookie_header sc s)) <= zlen s.
Proof.
  unfold parse_cookie_header.
  pose proof (c_run_size sc s c_init (fun _ => eq_refl) ltac:(discriminate)) as R.
  change (c_pot c_init) with 0 in R. destruct (run (c_step sc) c_init s) as [ok st]. cbn [snd] in R.
  destruct ok; cbn [snd]; [pose proof (c_insert_size sc st); lia|].
  unfold c_pot in R. pose proof (zlen_nonneg (c_name st)). pose proof (zlen_nonneg (c_value st)). lia.
Qed.

Lemma add_cookies_size cf sc hs : forall ck, text_size (add_cookies cf sc hs ck) <= text_size ck + text_size hs.
Proof.
  unfold add_cookies. induction hs as [|p hs IH]; intros ck; cbn [fold_left text_size]; [lia|].
  eapply Z.le_trans; [apply IH|]. rewrite ts_insert_all. pose proof (cookie_header_size sc (snd p)). pose proof (zlen_nonneg (fst p)). lia.
Qed.

(* ------------------------------------------------------------------ multipart forms *)

Definition mp_pot (st : mpstate) (v : mpvars) : Z :=
  text_size (mp_out v) + match st with MPStart => 0
                         | _ => 20 + zlen (mp_hname v) + zlen (mp_hvalue v) + zlen (mp_fname v) + zlen (mp_ctype v) end.

Lemma until_quote_len s : zlen (until_quote s) <= zlen s.
Proof. induction s as [|c s IH]; cbn [until_quote]; [lia|]. destruct (c =? 34); rewrite ?zlen_nil, ?zlen_cons; pose proof (zlen_nonneg s); lia. Qed.
Lemma zlen_skipn_le {A} n (s : list A) : zlen (skipn n s) <= zlen s.
Proof. unfold zlen. rewrite skipn_length. lia. Qed.

Lemma header_done_size v : zlen (mp_hname (mp_header_done v)) + zlen (mp_hvalue (mp_header_done v)) + zlen (mp_fname (mp_header_done v)) + zlen (mp_ctype (mp_header_done v))
  <= zlen (mp_hname v) + zlen (mp_hvalue v) + zlen (mp_fname v) + zlen (mp_ctype v) /\ mp_out (mp_header_done v) = mp_out v.
Proof.
  pose proof (zlen_nonneg (mp_hname v)). pose proof (zlen_nonneg (mp_hvalue v)). pose proof (zlen_nonneg (mp_ctype v)). pose proof (zlen_nonneg (mp_fname v)).
  unfold mp_header_done. destruct (iequals _ _); [cbn; rewrite zlen_nil; split; [lia|auto]|].
  destruct (iequals _ _); [|cbn; rewrite zlen_nil; split; [lia|auto]].
  destruct (contains _ _); cbn [mp_hname mp_hvalue mp_fname mp_ctype mp_out]; rewrite ?zlen_nil; (split; [|auto]); [|lia]. rewrite zlen_app.
  pose proof (until_quote_len (skipn (search name_param (mp_hvalue v) + 6) (mp_hvalue v))).
  pose proof (zlen_skipn_le (search name_param (mp_hvalue v) + 6) (mp_hvalue v)). lia.
Qed.

Lemma zlen_split {A} n (s : list A) : zlen (firstn n s) + zlen (skipn n s) = zlen s.
Proof. rewrite <- zlen_app, firstn_skipn. reflexivity. Qed.

Lemma b64_value_size d t : zlen (binary_2base64 d t) <= zlen t + 19 + 2 * zlen d.
Proof.
  unfold binary_2base64. rewrite !zlen_app, b64_encode_len_loop. change (zlen (bs "data:")) with 5. change (zlen (bs "; base64, ")) with 10.
  pose proof (zlen_nonneg d). pose proof (Z.div_mod (zlen d + 2) 3 ltac:(lia)). pose proof (Z.mod_pos_bound (zlen d + 2) 3 ltac:(lia)). lia.
Qed.

Lemma mp_loop_size f : forall b pre suf st v ret out, b <> [] -> mp_loop f b pre suf st v = MPOk ret out ->
  text_size out <= mp_pot st v + 20 * zlen suf.
Proof.
  induction f as [|f IH]; intros b pre suf st v ret out B; cbn [mp_loop]; [discriminate|].
  pose proof (ts_nonneg (mp_out v)) as T0.
  pose proof (zlen_nonneg (mp_hname v)) as T1. pose proof (zlen_nonneg (mp_hvalue v)) as T2. pose proof (zlen_nonneg (mp_ctype v)) as T3. pose proof (zlen_nonneg (mp_fname v)) as T4.
  assert (text_size (mp_out v) <= mp_pot st v) as TP by (unfold mp_pot; destruct st; lia).
  destruct suf as [|c suf]; [intros H; inversion H; subst; rewrite zlen_nil; lia|].
  pose proof (zlen_nonneg suf) as T5.
  assert (forall x, text_size x <= text_size (mp_out v) -> text_size x <= mp_pot st v + 20 * zlen (c :: suf)) as STOP by (intros x Hx; rewrite zlen_cons; lia).
  assert (forall st' v', mp_loop f b (c :: pre) suf st' v' = MPOk ret out -> mp_pot st' v' <= mp_pot st v + 20 -> text_size out <= mp_pot st v + 20 * zlen (c :: suf)) as NEXT.
  { intros st' v' H1 H2. apply IH in H1; auto. rewrite zlen_cons. lia. }
  destruct st; unfold mp_pot in *.
  - intros H. apply IH in H; auto. unfold mp_pot in H. cbn [mp_clear mp_out mp_hname mp_hvalue mp_fname mp_ctype] in H. rewrite !zlen_nil in H.
    destruct b as [|x b]; [congruence|]. cbn [List.length skipn] in H. pose proof (zlen_skipn_le (List.length b) suf). rewrite zlen_cons. lia.
  - destruct (c =? 13); [intros H; eapply NEXT; [eauto|cbn; lia]|]. destruct (c =? 10); [intros H; eapply NEXT; [eauto|cbn; lia]|].
    destruct (_ && _); intros H; inversion H; subst; apply STOP; lia.
  - destruct (c =? 10); [intros H; eapply NEXT; [eauto|cbn; lia]|]. intros H; inversion H; subst; apply STOP; lia.
  - destruct (_ || _).
    + destruct (mp_hname v) eqn:EN; intros H; (eapply NEXT; [eauto|]); destruct (c =? 13); rewrite ?EN, ?zlen_nil in *; lia.
    + destruct (c =? ch ":"); intros H; (eapply NEXT; [eauto|]); cbn; rewrite ?zlen_snoc; lia.
  - destruct (c =? 13); [intros H; eapply NEXT; [eauto|cbn; lia]|]. destruct (c =? 10); [intros H; eapply NEXT; [eauto|cbn; lia]|].
    destruct (negb _); intros H; (eapply NEXT; [eauto|]); cbn; rewrite ?zlen_snoc; lia.
  - destruct (header_done_size v) as [D1 D2].
    destruct (_ || _); intros H; (eapply NEXT; [eauto|]).
    + rewrite D2. destruct (c =? 13); lia.
    + cbn; rewrite ?zlen_snoc; lia.
  - destruct (c =? 10); [|intros H; inversion H; subst; apply STOP; lia].
    destruct (mp_fname v) eqn:EN; [|intros H; eapply NEXT; [eauto|]; rewrite EN; lia].
    intros H. apply IH in H; auto. unfold mp_pot in H.
    pose proof (zlen_skipn_le (search b (c :: suf)) (c :: suf)). lia.
  - destruct (rev (firstn (search b (c :: suf)) (c :: suf)) ++ pre) as [|c1 [|c0 pre']]; try discriminate.
    destruct (_ && _); [discriminate|]. set (n := search b (c :: suf)).
    set (d := firstn (if (c0 =? 13) && (c1 =? 10) then (n - 2)%nat else n) (c :: suf)).
    assert (zlen d <= zlen (firstn n (c :: suf))) as LD.
    { unfold d, zlen. rewrite !firstn_length. destruct ((c0 =? 13) && (c1 =? 10)); lia. }
    clearbody d. intros H. apply IH in H; auto. unfold mp_pot in H. cbn [mp_out] in H. rewrite ts_app in H. cbn [text_size fst snd] in H.
    pose proof (zlen_split n (c :: suf)). pose proof (b64_value_size d (mp_ctype v)). pose proof (zlen_nonneg d).
    destruct (mp_b64 v); lia.
Qed.

Lemma multipart_size ct s ret out : parse_multipart ct s = MPOk ret out -> text_size out <= 20 * zlen s.
Proof.
  unfold parse_multipart. pose proof (zlen_nonneg s). destruct s as [|c s]; [intros H'; inversion H'; cbn; lia|].
  destruct (contains _ _); [|intros H'; inversion H'; cbn; lia]. cbv zeta. intros M. apply mp_loop_size in M; [|discriminate].
  unfold mp_pot in M. cbn [mp_init mp_out text_size] in M.
  match type of M with context [skipn ?n ?l] => pose proof (zlen_skipn_le n l) end. lia.
Qed.

(* ------------------------------------------------------------------ the parser *)

Definition prog (h : hdrs) : Z :=
  match h_state h with
  | HHeaderName => zlen (h_name h) | HSpaceBeforeValue | HHeaderValue => zlen (h_name h) + zlen (h_value h) | _ => 0 end.
Definition hline (h : hdrs) : Z := zlen (h_method h) + zlen (h_resource h) + zlen (h_query h) + zlen (h_reason h).
Definition mline (cf : pcfg) (m : msg) : Z :=
  if cf_request cf then zlen (m_method m) + zlen (m_resource m) + zlen (m_query_string m) else zlen (m_reason m).
Definition hl (b : bool) (h : hdrs) : Z := if b then hline h else 0.
Definition noform (cf : pcfg) : bool := cf_handler cf || cf_headers_only cf.
Definition in_head (ph : phase) : bool := match ph with PStart | PHeaders => true | _ => false end.
Definition body (cf : pcfg) (st : pst) (m : msg) : Z :=
  if noform cf then 0 else
  match p_phase st with
  | PContent => Z.max 0 (m_clen m - p_remaining st)
  | PChunks | PContentNoLength => zlen (m_cache m)
  | PFooters | PEnd => m_clen m
  | _ => 0 end.

(** everything but the headers is as before *)
Definition same_else (m m' : msg) : Prop :=
  m_method m' = m_method m /\ m_resource m' = m_resource m /\ m_query_string m' = m_query_string m /\ m_reason m' = m_reason m
  /\ m_queries m' = m_queries m /\ m_cookies m' = m_cookies m /\ m_cache m' = m_cache m /\ m_clen m' = m_clen m.
Lemma same_else_trans a b c : same_else a b -> same_else b c -> same_else a c.
Proof. intros (?&?&?&?&?&?&?&?) (?&?&?&?&?&?&?&?). repeat split; congruence. Qed.
Lemma same_else_refl m : same_else m m.
Proof. repeat split. Qed.
Lemma same_else_mline cf a b : same_else a b -> mline cf b = mline cf a.
Proof. intros (E1&E2&E3&E4&_). unfold mline. rewrite E1, E2, E3, E4. reflexivity. Qed.

Lemma h_char_kept b cf h m c :
  match h_char cf h m c with
  | HCont h' m' => text_size (m_headers m') + prog h' + hl b h' <= text_size (m_headers m) + prog h + hl b h + 1 /\ same_else m m'
  | HDone _ h' m' => h' = h /\ m' = m
  | HFail _ => True end.
Proof.
  pose proof (zlen_nonneg (h_method h)). pose proof (zlen_nonneg (h_resource h)). pose proof (zlen_nonneg (h_query h)). pose proof (zlen_nonneg (h_reason h)).
  pose proof (zlen_nonneg (h_name h)). pose proof (zlen_nonneg (h_value h)).
  unfold h_char.
  destruct (h_state h) eqn:EH; unfold begin_name, goto, version00, add_header;
  repeat match goal with |- context [if ?b then _ else _] => destruct b eqn:? end; auto;
  (split; [|repeat split]); destruct b; unfold prog, hl, hline; cbn; rewrite ?EH, ?ts_insert, ?zlen_snoc, ?zlen_nil, ?zlen_one; cbn [fst snd]; try lia.
Qed.

Lemma save_raw_kept b cf h c : prog (save_raw cf h c) = prog h /\ hl b (save_raw cf h c) = hl b h.
Proof. unfold save_raw. destruct (cf_save_raw cf); auto. Qed.

Lemma h_loop_kept b cf s : forall h m, let r := h_loop cf h m s in
  text_size (m_headers (snd (s_st r))) + prog (fst (s_st r)) + hl b (fst (s_st r)) + zlen (s_rest r) <= text_size (m_headers m) + prog h + hl b h + zlen s
  /\ same_else m (snd (s_st r)).
Proof.
  induction s as [|c s IH]; intros h m; cbn [h_loop]; [cbn; split; [lia|apply same_else_refl]|].
  destruct (save_raw_kept b cf h c) as [S1 S2]. pose proof (h_char_kept b cf (save_raw cf h c) m c) as HC. rewrite S1, S2 in HC.
  rewrite zlen_cons.
  destruct (h_char cf (save_raw cf h c) m c) as [h2 m2|e|k h2 m2].
  - destruct HC as [A B]. destruct (IH h2 m2) as [C D]. cbv zeta. split; [lia|eapply same_else_trans; eauto].
  - cbn. rewrite S1, S2, zlen_cons. split; [lia|apply same_else_refl].
  - destruct HC as [-> ->]. destruct k; cbn; rewrite S1, S2, ?zlen_cons; (split; [lia|apply same_else_refl]).
Qed.

Lemma k_char_kept cf k ca pa c s n k' ca' pa' : k_char cf k ca pa c s = KCont n k' ca' pa' ->
  zlen ca <= zlen ca' <= zlen ca + Z.of_nat n /\ zlen ca' + zlen (k_size_str k') <= zlen ca + zlen (k_size_str k) + Z.of_nat n /\ (n <= S (List.length s))%nat.
Proof.
  intros H. pose proof (k_char_within _ _ _ _ _ _ _ _ _ _ H) as W. revert H. pose proof (zlen_nonneg (k_size_str k)). pose proof (zlen_nonneg ca).
  unfold k_char. destruct (k_state k);
  repeat match goal with |- context [if ?b then _ else _] => destruct b eqn:? end; intros E; inversion E; subst; cbn; rewrite ?zlen_snoc, ?zlen_one; lia.
Qed.

Lemma k_loop_kept cf f : forall k ca pa s, (List.length s <= f)%nat -> let r := k_loop f cf k ca pa s in
  zlen ca <= zlen (ko_cache (s_st r)) /\ zlen (ko_cache (s_st r)) + zlen (s_rest r) <= zlen ca + zlen s
  /\ zlen (ko_cache (s_st r)) + zlen (k_size_str (ko_k (s_st r))) + zlen (s_rest r) <= zlen ca + zlen (k_size_str k) + zlen s.
Proof.
  induction f as [|f IH]; intros k ca pa s HL; destruct s as [|c s]; cbn [k_loop]; cbv zeta; try (cbn [s_st s_rest ko_cache ko_k]; lia).
  destruct (k_char cf k ca pa c s) as [n k' ca' pa'| | |] eqn:E; try (cbn [s_st s_rest ko_cache ko_k]; rewrite ?zlen_cons; lia).
  pose proof (k_char_within _ _ _ _ _ _ _ _ _ _ E) as W. apply k_char_kept in E as (A & B & C).
  assert (List.length (skipn n (c :: s)) <= f)%nat as HF by (rewrite skipn_length; cbn [List.length] in *; lia).
  destruct (IH k' ca' pa' (skipn n (c :: s)) HF) as (I0 & I1 & I2).
  assert (zlen (skipn n (c :: s)) = zlen (c :: s) - Z.of_nat n) as HS by (unfold zlen; rewrite skipn_length; cbn [List.length] in *; lia).
  lia.
Qed.

Definition kinv (cf : pcfg) (n : Z) (st : pst) (m : msg) : Prop :=
  0 <= n /\ 0 <= m_clen m /\ zlen (m_cache m) + zlen (k_size_str (p_k st)) <= n /\
  if in_head (p_phase st)
  then text_size (m_headers m) + prog (p_h st) + hline (p_h st) <= n /\ mline cf m <= 3 /\ m_queries m = [] /\ m_cookies m = [] /\ m_cache m = []
  else text_size (m_headers m) + prog (p_h st) + mline cf m + body cf st m <= n /\ text_size (m_cookies m) <= n
       /\ text_size (m_queries m) <= 1024 * mline cf m.

Definition kept_ok (cf : pcfg) (n : Z) (st : pst) (m : msg) : Prop :=
  text_size (m_headers m) + prog (p_h st) <= n /\ mline cf m <= n + 3 /\ text_size (m_cookies m) <= n /\ text_size (m_queries m) <= 1024 * n
  /\ zlen (m_cache m) + zlen (k_size_str (p_k st)) <= n.

Lemma prog_nonneg h : 0 <= prog h.
Proof. unfold prog. pose proof (zlen_nonneg (h_name h)). pose proof (zlen_nonneg (h_value h)). destruct (h_state h); lia. Qed.
Lemma hline_nonneg h : 0 <= hline h.
Proof. unfold hline. pose proof (zlen_nonneg (h_method h)). pose proof (zlen_nonneg (h_resource h)). pose proof (zlen_nonneg (h_query h)). pose proof (zlen_nonneg (h_reason h)). lia. Qed.
Lemma mline_nonneg cf m : 0 <= mline cf m.
Proof. unfold mline. pose proof (zlen_nonneg (m_method m)). pose proof (zlen_nonneg (m_resource m)). pose proof (zlen_nonneg (m_query_string m)). pose proof (zlen_nonneg (m_reason m)). destruct (cf_request cf); lia. Qed.
Lemma body_nonneg cf st m : 0 <= m_clen m -> 0 <= body cf st m.
Proof. intros H. unfold body. pose proof (zlen_nonneg (m_cache m)). destruct (noform cf); [lia|]. destruct (p_phase st); lia. Qed.

Lemma kinv_kept cf n st m : kinv cf n st m -> kept_ok cf n st m.
Proof.
  intros (N & CL & K & H). unfold kept_ok.
  pose proof (hline_nonneg (p_h st)). pose proof (mline_nonneg cf m). pose proof (body_nonneg cf st m CL). pose proof (prog_nonneg (p_h st)). pose proof (ts_nonneg (m_headers m)).
  destruct (in_head (p_phase st)).
  - destruct H as (A & B & -> & -> & _). cbn [text_size]. repeat split; lia.
  - destruct H as (A & B & C). repeat split; lia.
Qed.

Lemma update_message_kept cf h m : mline cf m <= 3 -> m_queries m = [] -> m_cookies m = [] ->
  let m0 := update_message cf h (update_transfer_encoding (set_m_clen 0 m)) in
  m_headers m0 = m_headers m /\ m_cache m0 = m_cache m /\ m_clen m0 = 0 /\ mline cf m0 <= hline h
  /\ text_size (m_queries m0) <= 1024 * mline cf m0 /\ text_size (m_cookies m0) <= text_size (m_headers m).
Proof.
  intros L Q C. unfold update_message, mline, hline in *.
  pose proof (zlen_nonneg (h_method h)). pose proof (zlen_nonneg (h_resource h)). pose proof (zlen_nonneg (h_query h)). pose proof (zlen_nonneg (h_reason h)).
  destruct (cf_request cf).
  - pose proof (add_cookies_size cf false (d_range (m_headers m) HEADER_COOKIE) []) as AC. pose proof (ts_range (m_headers m) HEADER_COOKIE). cbn [text_size] in AC.
    destruct (h_query h) as [|c q] eqn:EQ; cbn -[add_cookies d_range HEADER_COOKIE parse_url_encoded d_insert_all text_size]; rewrite ?C, ?Q; repeat split; auto; try lia.
    + cbn [text_size]. lia.
    + rewrite ts_insert_all. cbn [text_size]. pose proof (url_encoded_size (c :: q)). lia.
  - pose proof (add_cookies_size cf true (d_range (m_headers m) HEADER_SET_COOKIE) []) as AC. pose proof (ts_range (m_headers m) HEADER_SET_COOKIE). cbn [text_size] in AC.
    cbn -[add_cookies d_range HEADER_SET_COOKIE text_size]; rewrite ?C, ?Q; repeat split; auto; try lia. cbn [text_size]. lia.
Qed.

Lemma create_same m m' : create_content_buffer m = Ok m' -> same_else m m' /\ m_headers m' = m_headers m.
Proof. unfold create_content_buffer. destruct (_ <=? _); intros H; inversion H; subst. repeat split. Qed.

Lemma finish_headers_kept cf n st m rc e st' m' : 0 <= cf_max cf -> 0 <= n ->
  text_size (m_headers m) + prog (p_h st) + hline (p_h st) <= n -> mline cf m <= 3 -> m_queries m = [] -> m_cookies m = [] -> m_cache m = [] ->
  zlen (k_size_str (p_k st)) <= n ->
  finish_headers cf st m = Ok (rc, e, (st', m')) ->
  kept_ok cf n st' m' /\ (rc = TIndet -> kinv cf n st' m') /\ (rc = TTrue -> kinv cf n (set_p_phase PEnd st') m').
Proof.
  intros MX N A L Q C CA KS E. destruct (finish_headers_k _ _ _ _ _ _ _ E) as (HK & _ & _ & _ & HP & _).
  destruct (update_message_kept cf (p_h st) m L Q C) as (U1 & U2 & U3 & U4 & U5 & U6). cbv zeta in *.
  revert E. unfold finish_headers. set (m0 := update_message cf (p_h st) (update_transfer_encoding (set_m_clen 0 m))) in *. clearbody m0. cbv zeta.
  pose proof (ts_nonneg (m_headers m)) as T0. pose proof (hline_nonneg (p_h st)) as T1. pose proof (prog_nonneg (p_h st)) as T2. pose proof (mline_nonneg cf m0) as T3.
  assert (forall m2, same_else (set_m_clen (m_clen m2) m0) m2 -> m_headers m2 = m_headers m0 -> 0 <= m_clen m2 ->
    kept_ok cf n st' m2 /\ (in_head (p_phase st') = false -> body cf st' m2 = 0 -> kinv cf n st' m2)
    /\ (cf_headers_only cf = true \/ m_clen m2 = 0 -> kinv cf n (set_p_phase PEnd st') m2)) as G.
  { intros m2 S2 H2 CL. pose proof (same_else_mline cf _ _ S2) as ML. change (mline cf (set_m_clen (m_clen m2) m0)) with (mline cf m0) in ML.
    destruct S2 as (_ & _ & _ & _ & E1 & E2 & E3 & _). cbn in E1, E2, E3.
    assert (zlen (m_cache m2) = 0) as CZ by (rewrite E3, U2, CA; apply zlen_nil).
    unfold kept_ok, kinv. rewrite H2, E1, E2, CZ, HP, HK, U1, ML. split; [repeat split; lia|]. split.
    - intros F B. rewrite F. repeat split; lia.
    - intros B. cbn [in_head p_phase set_p_phase p_h p_k]. rewrite HP, HK.
      assert (body cf (set_p_phase PEnd st') m2 = 0) as B0.
      { unfold body, noform. destruct B as [->| ->]; [rewrite orb_true_r; reflexivity|]. destruct (_ || _); reflexivity. }
      rewrite B0. repeat split; lia. }
  assert (forall x, 0 <= x -> same_else (set_m_clen (m_clen (set_m_clen x m0)) m0) (set_m_clen x m0)) as SX by (intros; repeat split).
  assert (zlen (m_cache m0) = 0) as CZ by (rewrite U2, CA; apply zlen_nil).
  destruct (m_chunked m0).
  { intros H; inversion H; subst. destruct (G m') as (G1 & G2 & G3); [repeat split|reflexivity|lia|].
    split; [exact G1|]. split; [intros _; apply G2; [reflexivity|]|].
    - unfold body. cbn [p_phase set_p_phase]. rewrite CZ. destruct (noform cf); reflexivity.
    - intros _. apply G3. auto. }
  destruct (is_content_length_implied (cf_request cf) m0).
  { intros H; inversion H; subst. destruct (G m') as (G1 & G2 & G3); [repeat split|reflexivity|lia|]. split; [exact G1|]. split; [discriminate|auto]. }
  destruct (d_has (m_headers m0) HEADER_CONTENT_LENGTH).
  - destruct (update_content_length m0) as [m2|] eqn:EU.
    2:{ intros H; inversion H; subst. destruct (G m') as (G1 & G2 & G3); [repeat split|reflexivity|lia|]. split; [exact G1|]. split; discriminate. }
    apply update_content_length_spec in EU as (x & Hx & ->). assert (m_clen (set_m_clen x m0) = x) as EX by reflexivity. rewrite EX.
    destruct (x =? 0) eqn:E0.
    { assert (x = 0) as -> by lia. intros H; inversion H; subst. destruct (G (set_m_clen 0 m0)) as (G1 & G2 & G3); [repeat split|reflexivity|reflexivity|]. split; [exact G1|]. split; [discriminate|auto]. }
    set (m3 := if cf_max cf <? x then set_m_clen (cf_max cf) (set_m_clen x m0) else set_m_clen x m0).
    assert (same_else (set_m_clen (m_clen m3) m0) m3 /\ m_headers m3 = m_headers m0 /\ 0 <= m_clen m3 <= x) as (M1 & M2 & M3).
    { unfold m3. destruct (cf_max cf <? x) eqn:EM; (split; [repeat split|split; [reflexivity|cbn; lia]]). }
    clearbody m3. destruct (cf_headers_only cf) eqn:EH.
    { intros H; inversion H; subst. destruct (G m') as (G1 & G2 & G3); auto; [lia|]. split; [exact G1|]. split; [discriminate|auto]. }
    destruct (create_content_buffer m3) as [m4|] eqn:EC; [|discriminate]. cbn [obind]. intros H; inversion H; subst.
    apply create_same in EC as [EC1 EC2].
    assert (m_clen m' = m_clen m3) as CC by apply EC1.
    destruct (G m') as (G1 & G2 & G3); [rewrite CC; eapply same_else_trans; eauto|congruence|lia|]. split; [exact G1|]. split; [|discriminate].
    intros _. apply G2; [reflexivity|]. unfold body. cbn [p_phase p_remaining set_p_remaining set_p_phase]. destruct (noform cf); lia.
  - destruct (cf_request cf); intros H; inversion H; subst.
    + destruct (G m') as (G1 & G2 & G3); [repeat split|reflexivity|lia|]. split; [exact G1|]. split; [discriminate|auto].
    + destruct (G (set_m_cache [] m0)) as (G1 & G2 & G3); [repeat split; cbn; congruence|reflexivity|cbn; lia|]. split; [exact G1|].
      destruct (cf_headers_only cf); (split; [try discriminate|try discriminate; auto]).
      intros _. apply G2; [reflexivity|]. unfold body. cbn [p_phase set_p_phase m_cache set_m_cache]. rewrite zlen_nil. destruct (noform cf); reflexivity.
Qed.

Lemma concatenate_same m m' : concatenate_chunks m = Ok m' ->
  same_else (set_m_clen (zlen (m_cache m)) m) m' /\ m_headers m' = m_headers m /\ m_clen m' = zlen (m_cache m).
Proof.
  unfold concatenate_chunks. destruct (create_content_buffer _) as [m1|] eqn:E; [|discriminate]. cbn [obind]. intros H.
  apply create_same in E as [E1 E2].
  assert (same_else m1 m' /\ m_headers m' = m_headers m1) as [E3 E4].
  { revert H. unfold buf_write. destruct (_ <=? _); intros H; inversion H; subst. repeat split. }
  pose proof (same_else_trans _ _ _ E1 E3) as E5. split; auto. split; [rewrite E4, E2; reflexivity|]. apply E5.
Qed.

Lemma cache_fill_len cf ca s : zlen ca <= zlen (cache_fill cf ca s) <= zlen ca + zlen s.
Proof.
  unfold cache_fill. rewrite zlen_app. set (k := Z.to_nat (cf_max cf - zlen ca)). clearbody k.
  assert (0 <= zlen (firstn k s) <= zlen s) by (unfold zlen; rewrite firstn_length; lia). lia.
Qed.

Lemma k_loop_footers cf f : forall k ca pa s, ko_footers (s_st (k_loop f cf k ca pa s)) = true -> s_rc (k_loop f cf k ca pa s) = TTrue.
Proof.
  induction f as [|f IH]; intros k ca pa s; destruct s as [|c s]; cbn [k_loop]; try (cbn; discriminate).
  destruct (k_char cf k ca pa c s); cbn; auto; discriminate.
Qed.

Lemma round_kept cf n st m s r : pinv cf st m -> kinv cf n st m -> p_round cf st m s = Ok r ->
  let n' := n + zlen s - zlen (s_rest r) in
  kept_ok cf n' (fst (s_st r)) (snd (s_st r))
  /\ (s_rc r = TIndet -> kinv cf n' (fst (s_st r)) (snd (s_st r)))
  /\ (s_rc r = TTrue -> kinv cf n' (set_p_phase PEnd (fst (s_st r))) (snd (s_st r))).
Proof.
  intros HP (N & CL & K & HI) HR n'.
  assert (zlen (s_rest r) <= zlen s) as LE.
  { destruct (round_suffix _ _ _ _ _ HP HR) as (p & E & _). rewrite E, zlen_app. pose proof (zlen_nonneg p). lia. }
  assert (0 <= cf_max cf) as MX by apply HP.
  revert HR. unfold p_round.
  assert (in_head (p_phase st) = true -> (let r := parse_headers cf (set_p_phase PHeaders st) m s in
    match s_rc r with
    | TTrue =>
      obind (finish_headers cf (fst (s_st r)) (snd (s_st r))) (fun x =>
        match x with (rc, e, stm) => Ok (mksub rc e stm (s_rest r)) end)
    | _ => Ok r
    end) = Ok r ->
    kept_ok cf n' (fst (s_st r)) (snd (s_st r))
    /\ (s_rc r = TIndet -> kinv cf n' (fst (s_st r)) (snd (s_st r)))
    /\ (s_rc r = TTrue -> kinv cf n' (set_p_phase PEnd (fst (s_st r))) (snd (s_st r)))) as HH.
  { intros F. rewrite F in HI. destruct HI as (A & L & Q & C & CA). cbv zeta.
    set (ra := parse_headers cf (set_p_phase PHeaders st) m s).
    destruct (h_loop_kept true cf s (p_h st) m) as [B1 B2]. cbv zeta in B1, B2. unfold hl in B1.
    assert (p_h (fst (s_st ra)) = fst (s_st (h_loop cf (p_h st) m s)) /\ snd (s_st ra) = snd (s_st (h_loop cf (p_h st) m s)) /\ s_rest ra = s_rest (h_loop cf (p_h st) m s)
      /\ p_phase (fst (s_st ra)) = PHeaders /\ p_k (fst (s_st ra)) = p_k st) as (R1 & R2 & R3 & R4 & R5) by (repeat split).
    rewrite <- R1, <- R2, <- R3 in B1. rewrite <- R2 in B2. clearbody ra. pose proof (same_else_mline cf _ _ B2) as ML.
    destruct B2 as (_ & _ & _ & _ & E1 & E2 & E3 & E4).
    assert (s_rest ra = s_rest r -> zlen (s_rest ra) <= zlen s) as LE2 by (intros ->; auto).
    assert (s_rest ra = s_rest r -> kinv cf n' (fst (s_st ra)) (snd (s_st ra))) as KR.
    { intros RR. unfold kinv. rewrite R4, R5. cbn [in_head]. unfold n'. rewrite <- RR. specialize (LE2 RR).
      rewrite E1, E2, E3, E4, ML. repeat split; auto; lia. }
    destruct (s_rc ra) eqn:ER.
    - destruct (finish_headers cf (fst (s_st ra)) (snd (s_st ra))) as [[[rc e] [st' m']]|x] eqn:EF; [|discriminate].
      cbn [obind]. intros H; inversion H; subst. cbn [s_st s_rc s_rest fst snd] in *.
      eapply finish_headers_kept; [exact MX| | | | | | | |exact EF]; rewrite ?E1, ?E2, ?E3, ?R5, ?ML; auto; unfold n'; cbn [s_rest]; rewrite ?CA, ?zlen_nil in K; lia.
    - intros H; inversion H; subst. specialize (KR eq_refl). split; [apply kinv_kept; auto|]. rewrite ER. split; [auto|discriminate].
    - intros H; inversion H; subst. specialize (KR eq_refl). split; [apply kinv_kept; auto|]. rewrite ER. split; [auto|discriminate]. }
  assert (forall st' m', fst (s_st r) = st' -> snd (s_st r) = m' -> kinv cf n' st' m' -> (s_rc r = TTrue -> body cf (set_p_phase PEnd st') m' <= body cf st' m') -> in_head (p_phase st') = false ->
    kept_ok cf n' (fst (s_st r)) (snd (s_st r))
    /\ (s_rc r = TIndet -> kinv cf n' (fst (s_st r)) (snd (s_st r)))
    /\ (s_rc r = TTrue -> kinv cf n' (set_p_phase PEnd (fst (s_st r))) (snd (s_st r)))) as FIN.
  { intros st' m' <- <- KK BB FF. split; [apply kinv_kept; auto|]. split; auto. intros T. specialize (BB T).
    destruct KK as (K1 & K2 & K3 & K4). rewrite FF in K4. unfold kinv. cbn [in_head p_phase set_p_phase p_h p_k]. repeat split; auto; try lia; try apply K4. }
  destruct (p_phase st) eqn:EP; cbn [in_head] in HI.
  - apply HH; reflexivity.
  - apply HH; reflexivity.
  - (* footers *) intros H; inversion H; subst. destruct HI as (A & C & Q).
    destruct (h_loop_kept false cf s (p_h st) m) as [B1 B2]. cbv zeta in B1, B2. unfold hl in B1. pose proof (same_else_mline cf _ _ B2) as ML.
    destruct B2 as (_ & _ & _ & _ & E1 & E2 & E3 & E4).
    set (lr := h_loop cf (p_h st) m s) in *.
    eapply FIN; [reflexivity|reflexivity| | |].
    + unfold kinv, parse_headers. cbn [s_st s_rest fst snd p_phase p_k p_h set_p_total set_p_last set_p_h]. fold lr. rewrite EP. cbn [in_head].
      unfold n', parse_headers. cbn [s_rest]. fold lr. unfold parse_headers in LE. cbn [s_rest] in LE. fold lr in LE.
      unfold body in *. cbn [p_phase set_p_total set_p_last set_p_h]. rewrite EP in *. rewrite E1, E2, E3, E4, ML. repeat split; auto; lia.
    + intros _. unfold body, parse_headers. cbn [s_st fst snd p_phase p_k p_h set_p_total set_p_last set_p_h set_p_phase]. rewrite EP. lia.
    + unfold parse_headers. cbn [s_st fst snd p_phase set_p_total set_p_last set_p_h]. rewrite EP. reflexivity.
  - (* content *) rewrite consume_content_eq by auto. intros H; inversion H; subst. destruct HI as (A & C & Q).
    destruct HP as (HC & _). specialize (HC EP). destruct HC as (RP & _). set (k := content_bytes st s) in *.
    assert (0 <= k <= zlen s /\ k <= p_remaining st) as Hk by (unfold k, content_bytes; pose proof (zlen_nonneg s); lia).
    assert (zlen (firstn (Z.to_nat k) s) = k) as KL by (unfold zlen in *; rewrite firstn_length; lia).
    assert (n' = n + k) as -> by (unfold n'; cbn [s_rest]; unfold zlen in *; rewrite skipn_length; lia).
    cbn [s_st s_rest s_rc fst snd] in *.
    assert (body cf (content_st cf st (firstn (Z.to_nat k) s)) (content_msg cf st m (firstn (Z.to_nat k) s)) <= body cf st m + k) as BB.
    { unfold body, content_st, content_msg. rewrite EP. cbn [p_remaining set_p_remaining]. rewrite KL.
      destruct (noform cf); [lia|]. destruct (cf_handler cf); cbn [p_phase set_p_remaining set_p_content_read set_p_total set_p_last set_p_payload]; rewrite EP; cbn [m_clen set_m_buf]; lia. }
    eapply FIN; [reflexivity|reflexivity| | |].
    + unfold kinv.
      assert (m_clen (content_msg cf st m (firstn (Z.to_nat k) s)) = m_clen m /\ m_cache (content_msg cf st m (firstn (Z.to_nat k) s)) = m_cache m
        /\ m_headers (content_msg cf st m (firstn (Z.to_nat k) s)) = m_headers m /\ mline cf (content_msg cf st m (firstn (Z.to_nat k) s)) = mline cf m
        /\ m_cookies (content_msg cf st m (firstn (Z.to_nat k) s)) = m_cookies m /\ m_queries (content_msg cf st m (firstn (Z.to_nat k) s)) = m_queries m) as (->&->&->&->&->&->)
        by (unfold content_msg, mline; destruct (cf_handler cf); repeat split).
      assert (p_k (content_st cf st (firstn (Z.to_nat k) s)) = p_k st /\ p_h (content_st cf st (firstn (Z.to_nat k) s)) = p_h st /\ p_phase (content_st cf st (firstn (Z.to_nat k) s)) = PContent) as (->&->&->)
        by (unfold content_st; destruct (cf_handler cf); repeat split; cbn; auto).
      cbn [in_head]. repeat split; auto; lia.
    + destruct (p_remaining st <=? zlen s) eqn:ER; [|discriminate]. intros _.
      assert (k = p_remaining st) as KR by (unfold k, content_bytes; lia).
      unfold body, content_st, content_msg. cbn [p_phase set_p_phase p_remaining set_p_remaining]. rewrite KL.
      destruct (noform cf); [lia|]. destruct (cf_handler cf); cbn [p_phase set_p_remaining set_p_content_read set_p_total set_p_last set_p_payload]; rewrite EP; cbn [m_clen set_m_buf]; lia.
    + unfold content_st. destruct (cf_handler cf); cbn; rewrite EP; reflexivity.
  - (* no length *) intros H; inversion H; subst. destruct HI as (A & C & Q). cbn [s_st s_rc s_rest fst snd] in *. assert (n' = n + zlen s) as EN by (unfold n'; cbn [s_rest]; rewrite zlen_nil; lia).
    pose proof (cache_fill_len cf (m_cache m) s) as CF.
    eapply FIN; [reflexivity|reflexivity| |discriminate|].
    + rewrite EN. pose proof (zlen_nonneg s). unfold consume_no_length. destruct (cf_handler cf) eqn:EHN; unfold kinv; cbn [fst snd p_phase p_k p_h set_p_content_read set_p_total set_p_last set_p_payload m_cache m_clen m_headers m_cookies m_queries set_m_cache]; rewrite EP; cbn [in_head].
      * unfold body in *. cbn [fst snd p_phase set_p_content_read set_p_total set_p_last set_p_payload]. rewrite EP in *. repeat split; auto; lia.
      * unfold body in *. cbn [fst snd p_phase set_p_content_read set_p_total set_p_last set_p_payload m_cache set_m_cache]. rewrite EP in *.
        change (mline cf (set_m_cache (cache_fill cf (m_cache m) s) m)) with (mline cf m). destruct (noform cf); repeat split; auto; lia.
    + unfold consume_no_length. destruct (cf_handler cf); cbn; rewrite EP; reflexivity.
  - (* chunks *) destruct HI as (A & C & Q).
    destruct (k_loop_kept cf (List.length s) (p_k st) (m_cache m) (p_payload st) s (le_n _)) as (I0 & I1 & I2). cbv zeta in I0, I1, I2.
    set (ra := parse_chunks cf st m s).
    set (lr := k_loop (List.length s) cf (p_k st) (m_cache m) (p_payload st) s) in *.
    assert (s_rest ra = s_rest lr /\ p_k (fst (s_st ra)) = ko_k (s_st lr) /\ snd (s_st ra) = set_m_cache (ko_cache (s_st lr)) m
      /\ p_phase (fst (s_st ra)) = (if ko_footers (s_st lr) then PFooters else PChunks) /\ prog (p_h (fst (s_st ra))) <= prog (p_h st)
      /\ (ko_footers (s_st lr) = true -> s_rc ra = TTrue)) as (R1 & R2 & R3 & R4 & R5 & R6).
    { split; [reflexivity|]. assert (ko_footers (s_st lr) = true -> s_rc ra = TTrue) as KF by (intros; apply k_loop_footers; auto). repeat (match goal with |- _ /\ (_ -> _) => split; [|exact KF] | |- _ /\ _ => split end).
      all: clear KF.
      all: unfold ra, parse_chunks; fold lr; destruct (ko_footers (s_st lr)); cbn; rewrite ?EP; auto; try lia; try apply prog_nonneg. }
    clearbody ra. clearbody lr.
    assert (body cf st m = if noform cf then 0 else zlen (m_cache m)) as BS by (unfold body; rewrite EP; reflexivity).
    assert (forall cl, 0 <= cl -> (noform cf = true \/ ko_footers (s_st lr) = false \/ cl = zlen (ko_cache (s_st lr))) -> s_rest lr = s_rest r ->
      forall m', same_else (set_m_clen cl (snd (s_st ra))) m' -> m_headers m' = m_headers m -> kinv cf n' (fst (s_st ra)) m') as KC.
    { intros cl H1 H2 H3 m' S H4. pose proof (same_else_mline cf _ _ S) as ML. rewrite R3 in ML. change (mline cf (set_m_clen cl (set_m_cache (ko_cache (s_st lr)) m))) with (mline cf m) in ML.
      destruct S as (_ & _ & _ & _ & E1 & E2 & E3 & E4). rewrite R3 in E1, E2, E3, E4. cbn in E1, E2, E3, E4.
      unfold kinv. rewrite E1, E2, E3, E4, ML, H4, R2, R4. unfold n'. rewrite <- H3 in *.
      assert (body cf (fst (s_st ra)) m' <= body cf st m + (zlen s - zlen (s_rest lr))) as BB.
      { rewrite BS. unfold body. rewrite R4, E3, E4. destruct (noform cf) eqn:NF; [lia|].
        destruct (ko_footers (s_st lr)) eqn:KF; [destruct H2 as [H2|[H2|H2]]; try discriminate; lia|lia]. }
      destruct (ko_footers (s_st lr)); cbn [in_head]; repeat split; auto; lia. }
    cbv zeta. destruct (s_rc ra) eqn:ER.
    + destruct (cf_handler cf) eqn:EHN.
      * intros H; inversion H; subst. assert (noform cf = true) as NF by (unfold noform; rewrite EHN; reflexivity).
        eapply FIN; [reflexivity|reflexivity| | |].
        -- eapply (KC (m_clen m)); auto; rewrite R3; repeat split.
        -- intros _. unfold body. rewrite NF. lia.
        -- rewrite R4. destruct (ko_footers (s_st lr)); reflexivity.
      * destruct (concatenate_chunks (snd (s_st ra))) as [m'|] eqn:EC; [|discriminate]. cbn [obind]. intros H; inversion H; subst.
        apply concatenate_same in EC as (E1 & E2 & E3). rewrite R3 in E1, E2, E3. cbn [m_cache set_m_cache] in E1, E3.
        cbn [s_st s_rc s_rest fst snd] in *.
        eapply FIN; [reflexivity|reflexivity| | |].
        -- eapply (KC (zlen (ko_cache (s_st lr)))); auto; [apply zlen_nonneg|rewrite R3; exact E1].
        -- intros _. unfold body. rewrite R4, E3. cbn [p_phase set_p_phase]. destruct E1 as (_ & _ & _ & _ & _ & _ & E4 & _). cbn in E4.
           destruct (noform cf); [lia|]. rewrite E4. destruct (ko_footers (s_st lr)); lia.
        -- rewrite R4. destruct (ko_footers (s_st lr)); reflexivity.
    + intros H; inversion H; subst. rewrite ER in *. unfold kept_ok. split; [|split; discriminate].
      pose proof (mline_nonneg cf m). pose proof (body_nonneg cf st m CL). pose proof (prog_nonneg (p_h st)). pose proof (ts_nonneg (m_headers m)).
      rewrite R2, R3. cbn [m_headers m_cookies m_queries m_cache set_m_cache]. change (mline cf (set_m_cache (ko_cache (s_st lr)) m)) with (mline cf m).
      unfold n'. rewrite R1 in *. repeat split; lia.
    + intros H; inversion H; subst.
      destruct (ko_footers (s_st lr)) eqn:KF.
      { specialize (R6 eq_refl). congruence. }
      eapply FIN; [reflexivity|reflexivity| |rewrite ER; discriminate|].
      * eapply (KC (m_clen m)); auto; rewrite R3; repeat split.
      * rewrite R4. reflexivity.
  - intros H; inversion H; subst. cbn [s_st s_rc s_rest fst snd] in *.
    eapply FIN; [reflexivity|reflexivity| | |rewrite EP; reflexivity].
    + replace n' with n by (unfold n'; lia). unfold kinv. rewrite EP. auto.
    + intros _. unfold body. cbn. rewrite EP. lia.
Qed.

Lemma kept_mono cf n n' st m : n <= n' -> kept_ok cf n st m -> kept_ok cf n' st m.
Proof. unfold kept_ok. intros H (A & B & C & D & E). repeat split; lia. Qed.
Lemma kinv_mono cf n n' st m : n <= n' -> kinv cf n st m -> kinv cf n' st m.
Proof. unfold kinv. intros H (A & B & C & D). repeat split; try lia. destruct (in_head (p_phase st)); destruct D as (D & D1 & D2); repeat split; auto; try apply D2; lia. Qed.

Lemma p_loop_kept cf : forall f n st m s t r t', pinv cf st m -> kinv cf n st m -> p_loop f cf st m s t = Ok (Some (r, t')) ->
  kept_ok cf (n + zlen s) (fst (s_st r)) (snd (s_st r))
  /\ (s_rc r = TIndet -> kinv cf (n + zlen s) (fst (s_st r)) (snd (s_st r)))
  /\ (s_rc r = TTrue -> kinv cf (n + zlen s) (set_p_phase PEnd (fst (s_st r))) (snd (s_st r))).
Proof.
  induction f as [|f IH]; intros n st m s t r t' HP HK; [discriminate|]. rewrite p_loop_S.
  destruct (p_round cf st m s) as [r1|x] eqn:E; [|discriminate]. cbn [obind].
  destruct (round_ok _ _ _ _ _ HP E) as (_ & O2 & _ & _). destruct (round_kept _ _ _ _ _ _ HP HK E) as (K1 & K2 & K3). cbv zeta in *.
  pose proof (zlen_nonneg (s_rest r1)) as NR.
  assert (r1 = r -> kept_ok cf (n + zlen s) (fst (s_st r)) (snd (s_st r))
    /\ (s_rc r = TIndet -> kinv cf (n + zlen s) (fst (s_st r)) (snd (s_st r)))
    /\ (s_rc r = TTrue -> kinv cf (n + zlen s) (set_p_phase PEnd (fst (s_st r))) (snd (s_st r)))) as D.
  { intros <-. split; [eapply kept_mono; [|eauto]; lia|]. split; intros X; eapply kinv_mono; [|apply K2; auto| |apply K3; auto]; lia. }
  destruct (s_rc r1) eqn:EC.
  - intros H; inversion H; subst; auto.
  - intros H; inversion H; subst; auto.
  - destruct (s_rest r1) eqn:ER; [intros H; inversion H; subst; auto|]. rewrite <- ER in *. intros H. apply (IH _ _ _ _ _ _ _ (O2 eq_refl) (K2 eq_refl)) in H.
    replace (n + zlen s - zlen (s_rest r1) + zlen (s_rest r1)) with (n + zlen s) in H by lia. exact H.
Qed.

Lemma content_of_len m l : 0 <= m_clen m -> content_of m = Ok l -> zlen l <= m_clen m.
Proof.
  intros H. unfold content_of. destruct (_ <=? _); [|discriminate].
  assert (forall x y, all_some x = Some y -> zlen y = zlen x) as AL.
  { induction x as [|[b|] x IH]; intros y; cbn; [intros E; inversion E; reflexivity| |discriminate].
    destruct (all_some x) as [y'|] eqn:E; [|discriminate]. intros E'; inversion E'; subst. rewrite !zlen_cons. rewrite (IH y'); auto. }
  destruct (all_some _) as [l'|] eqn:E; [|discriminate]. apply AL in E. intros E'; inversion E'; subst. rewrite E. unfold zlen. rewrite firstn_length. lia.
Qed.

Lemma finish_kept cf n st m m' : p_phase st = PEnd -> kinv cf n st m -> finish cf st m = Ok m' -> kept_ok cf n st m'.
Proof.
  intros HP (N & CL & K & H). rewrite HP in H. cbn [in_head] in H. destruct H as (A & C & Q). unfold finish. rewrite HP.
  pose proof (prog_nonneg (p_h st)). pose proof (ts_nonneg (m_headers m)). pose proof (mline_nonneg cf m). pose proof (body_nonneg cf st m CL).
  set (mv := compute_status (set_m_valid true m) (m_valid (set_m_valid true m))).
  assert (m_headers mv = m_headers m /\ mline cf mv = mline cf m /\ m_cookies mv = m_cookies m /\ m_queries mv = m_queries m /\ m_cache mv = m_cache m /\ m_clen mv = m_clen m) as (E1 & E2 & E3 & E4 & E5 & E6) by (repeat split).
  clearbody mv. unfold finish_forms.
  assert (forall q, text_size q <= 1024 * n -> kept_ok cf n st (set_m_queries q mv)) as G.
  { intros q Hq. unfold kept_ok. cbn [m_headers m_cookies m_queries m_cache set_m_queries]. change (mline cf (set_m_queries q mv)) with (mline cf mv). rewrite E1, E2, E3, E5. repeat split; auto; lia. }
  assert (kept_ok cf n st mv) as G0 by (unfold kept_ok; rewrite E1, E2, E3, E4, E5; repeat split; lia).
  destruct (cf_request cf && negb (cf_handler cf) && negb (cf_headers_only cf)) eqn:EF; [|intros X; inversion X; subst; auto].
  assert (body cf st m = m_clen m) as EB.
  { unfold body, noform. rewrite HP. destruct (cf_handler cf), (cf_headers_only cf); try reflexivity; destruct (cf_request cf); discriminate. }
  destruct (is_prefix _ _); [|destruct (is_prefix _ _); [|intros X; inversion X; subst; auto]].
  - destruct (content_of mv) as [l|] eqn:EC; [|discriminate]. apply content_of_len in EC; [|lia]. cbn [obind]. intros X; inversion X; subst. apply G.
    rewrite ts_insert_all, E4. pose proof (url_encoded_size l). lia.
  - destruct (content_of mv) as [l|] eqn:EC; [|discriminate]. apply content_of_len in EC; [|lia]. cbn [obind].
    destruct (parse_multipart (d_get (m_headers mv) HEADER_CONTENT_TYPE) l) as [ret out| |] eqn:EM; try discriminate. intros X; inversion X; subst. apply G.
    apply multipart_size in EM. rewrite ts_insert_all, E4. lia.
Qed.

Lemma parse_kept cf n st m s r : pinv cf st m -> kinv cf n st m -> parse cf st m s = Ok (Some r) ->
  kept_ok cf (n + zlen s) (r_st r) (r_msg r) /\ (r_rc r = TIndet -> kinv cf (n + zlen s) (r_st r) (r_msg r)).
Proof.
  intros HP HK. unfold parse. set (m0 := if m_missing m then set_m_after true m else m).
  assert (pinv cf st m0) as HP0 by (subst m0; destruct (m_missing m); auto).
  assert (kinv cf n st m0) as HK0 by (subst m0; destruct (m_missing m); auto). clearbody m0.
  destruct (p_loop 4 cf st m0 s 0) as [[[r1 t]|]|] eqn:EL; cbn [obind]; try discriminate.
  destruct (p_loop_kept _ _ _ _ _ _ _ _ _ HP0 HK0 EL) as (K1 & K2 & K3).
  destruct (s_rc r1).
  - destruct (finish cf (set_p_phase PEnd (fst (s_st r1))) (snd (s_st r1))) eqn:EF; cbn [obind]; try discriminate.
    intros H; inversion H; subst. cbn [r_st r_msg r_rc]. split; [|discriminate].
    apply (finish_kept cf (n + zlen s)) in EF; [|reflexivity|auto]. exact EF.
  - intros H; inversion H; subst. cbn [r_st r_msg r_rc]. split; [|discriminate]. exact K1.
  - intros H; inversion H; subst. cbn [r_st r_msg r_rc]. split; [exact K1|]. intros _. exact (K2 eq_refl).
Qed.

Lemma kinv_init cf : kinv cf 0 (p_init cf) msg_init.
Proof. unfold kinv, mline, hline, prog. cbn. rewrite !zlen_nil. destruct (cf_request cf); cbn; repeat split; try lia; unfold zlen; cbn; lia. Qed.
