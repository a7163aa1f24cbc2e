(** What a user tells of its password. *)
From Coq Require Import String ZArith List Bool Lia.
From Verif Require Import Base SMap AlgModel HttpModel UserModel UserSpec UserProofs.
Import ListNotations.

(** C167. The text of a list of bytes in lower case hexadecimal. *)
Definition lower_hex (l : list Z) : list Z :=
  concat (map (fun v => [nth (Z.to_nat (v / 16)) (bs "0123456789abcdef") 0; nth (Z.to_nat (v mod 16)) (bs "0123456789abcdef") 0]) l).
(** the hash functions give bytes *)
Definition byte_hashes (b : build) : Prop := forall x v, In v (b_sha256 b x) \/ In v (b_sha1 b x) -> 0 <= v < 256.

Lemma hex_digit_nth x : 0 <= x < 16 -> hex_digit x = nth (Z.to_nat x) (bs "0123456789abcdef") 0.
Proof.
  intros H. assert (x = 0 \/ x = 1 \/ x = 2 \/ x = 3 \/ x = 4 \/ x = 5 \/ x = 6 \/ x = 7 \/ x = 8 \/ x = 9 \/ x = 10 \/ x = 11 \/ x = 12 \/ x = 13 \/ x = 14 \/ x = 15) as C by lia.
  repeat (destruct C as [->|C]; [reflexivity|]). subst. reflexivity.
Qed.
Lemma parts v : 0 <= v < 256 -> 0 <= v / 16 < 16 /\ 0 <= v mod 16 < 16 /\ v = 16 * (v / 16) + v mod 16.
Proof. intros H. pose proof (Z.div_mod v 16 ltac:(lia)). pose proof (Z.mod_pos_bound v 16 ltac:(lia)). lia. Qed.
Lemma hex_text l : (forall v, In v l -> 0 <= v < 256) -> flat_map hex2 l = lower_hex l.
Proof.
  induction l as [|v l IH]; intros H; [reflexivity|]. destruct (parts v (H v (or_introl eq_refl))) as (A & B & _).
  cbn [flat_map]. rewrite IH by (intros; apply H; right; auto). unfold lower_hex. cbn [map concat]. unfold hex2. rewrite !hex_digit_nth by auto. reflexivity.
Qed.
Lemma lower_hex_in l : (forall v, In v l -> 0 <= v < 256) -> in_hex (lower_hex l) l.
Proof.
  induction l as [|v l IH]; intros H; [constructor|]. destruct (parts v (H v (or_introl eq_refl))) as (A & B & C).
  unfold lower_hex. cbn [map concat]. constructor; [|apply IH; intros; apply H; right; auto].
  exists (v / 16), (v mod 16). repeat (split; [auto|]). auto.
Qed.

Lemma step_sorted b us o : sorted us -> sorted (fst (u_step b us o)).
Proof.
  intros S. destruct o as [n p|n p|n h|n h|n]; cbn [u_step]; destruct (sm_find us n) as [u|]; try destruct (b_ssl b); cbn [fst]; auto;
    try (apply sm_insert_sorted; auto); try (apply sm_set_sorted; auto); try (apply sm_erase_sorted; auto).
  - destruct (set_password_hash u_new h) as [u' [|]]; cbn [fst]; auto. apply sm_insert_sorted; auto.
  - destruct (set_password_hash u h) as [u' ok]; cbn [fst]; auto. apply sm_set_sorted; auto.
Qed.
Lemma run_sorted b ops : forall us, sorted us -> sorted (u_run b us ops).
Proof. induction ops as [|o ops IH]; intros us S; auto. apply IH, step_sorted; auto. Qed.

(** With OpenSSL, what a user tells as its password is the SHA-256 digest in lower case hexadecimal; without, it is the password. *)
Theorem C167_text_partial b ops o n p : byte_hashes b -> o = UAdd n p \/ o = UUpdate n p -> snd (u_step b (u_run b [] ops) o) = UTrue ->
  exists u, sm_find (fst (u_step b (u_run b [] ops) o)) n = Some u /\ u_password u = if b_ssl b then lower_hex (b_sha256 b p) else p.
Proof.
  intros BH O. pose proof (run_sorted b ops [] I) as S. generalize dependent (u_run b [] ops). intros us S.
  assert (forall u, u_password (set_password b u p) = if b_ssl b then lower_hex (b_sha256 b p) else p) as T.
  { intros u. unfold set_password. destruct (b_ssl b); cbn [u_password]; auto. apply hex_text. intros v H. apply (BH p). auto. }
  destruct O as [-> | ->]; cbn [u_step]; destruct (sm_find us n) as [u|] eqn:E; cbn [snd fst]; intros R; try discriminate R.
  - exists (set_password b u_new p). split; [|apply T]. rewrite sm_find_insert by auto. rewrite str_eqb_refl, E. reflexivity.
  - exists (set_password b u p). split; [|apply T]. rewrite sm_find_set, E, str_eqb_refl. reflexivity.
Qed.
Print Assumptions C167_text_partial.

(** two calls that differ at most in passwords with the same digest *)
Definition alike (b : build) (o o' : uop) : Prop :=
  match o, o' with
  | UAdd n p, UAdd n' p' | UUpdate n p, UUpdate n' p' => n = n' /\ b_sha256 b p = b_sha256 b p'
  | _, _ => o = o'
  end.
(** With OpenSSL nothing but the digests of the passwords is kept: histories with passwords of the same digests leave the same
    manager behind and give the same results, so nothing else of a password can be told or stored. *)
Theorem C167_digest_only_partial b : b_ssl b = true -> forall ops ops', Forall2 (alike b) ops ops' -> forall us,
  u_run b us ops = u_run b us ops' /\ u_results b us ops = u_results b us ops'.
Proof.
  intros SSL ops ops' H. induction H as [|o o' ops ops' A _ IH]; intros us; [auto|].
  assert (u_step b us o = u_step b us o') as E.
  { destruct o, o'; cbn [alike] in A; try discriminate A; try (injection A; intros; subst; reflexivity); destruct A as [-> A]; cbn [u_step]; unfold set_password; rewrite SSL, A; reflexivity. }
  unfold u_run. cbn [fold_left u_results]. rewrite E. destruct (IH (fst (u_step b us o'))) as [X Y]. split; [exact X|]. rewrite Y. reflexivity.
Qed.
Print Assumptions C167_digest_only_partial.

(** what a user tells stands for what it holds *)
Definition settled (b : build) (u : user) : Prop :=
  if b_ssl b then
    exists l, hash_bytes (u_password u) = (l, true) /\ init_bytes (firstn (List.length l) (u_hash u)) = Some l /\ List.length (u_password u) = (2 * List.length l)%nat
      /\ (u_type u = HtSha256 /\ List.length l = 32%nat \/ u_type u = HtSha1 /\ List.length l = 20%nat)
  else True.
Lemma put_init h l : init_bytes (firstn (List.length l) (put_bytes h l)) = Some l.
Proof. unfold put_bytes. rewrite firstn_app, map_length, Nat.sub_diag, firstn_O, app_nil_r, <- (map_length Some l), firstn_all. apply init_bytes_some. Qed.
Lemma hash_bytes_len s l : hash_bytes s = (l, true) -> forall n, List.length s = (2 * n)%nat -> List.length l = n.
Proof.
  intros H n. revert s l H. induction n as [|n IH]; intros s l H L.
  - destruct s; [|discriminate]. cbn in H. injection H as <-. reflexivity.
  - destruct s as [|x [|y s]]; cbn in L; try lia. cbn [hash_bytes] in H. destruct (255 <? wrap64 (strtol16 [x; y])); [discriminate H|].
    destruct (hash_bytes s) as [l1 ok] eqn:E. injection H as <- ->. cbn [List.length]. f_equal. apply (IH s l1); auto. lia.
Qed.
Lemma set_password_settled b u p : real_hashes b -> byte_hashes b -> settled b (set_password b u p).
Proof.
  intros RH BH. unfold settled, set_password. destruct (b_ssl b); auto. cbn [u_password u_hash u_type].
  assert (forall v, In v (b_sha256 b p) -> 0 <= v < 256) as R by (intros v I; apply (BH p); auto).
  pose proof (lower_hex_in _ R) as HX. rewrite hex_text by auto. exists (b_sha256 b p). split; [apply hash_bytes_hex; auto|]. split; [apply put_init|].
  split; [apply in_hex_len; auto|]. left. split; auto. apply RH.
Qed.
Lemma set_hash_settled b u h u' : b_ssl b = true -> set_password_hash u h = (u', true) -> settled b u'.
Proof.
  intros SSL. unfold set_password_hash, settled. rewrite SSL. unfold zlen. destruct (Z.of_nat (List.length h) =? 64) eqn:E.
  - destruct (hash_bytes h) as [l ok] eqn:HB. intros X. injection X as <- ->. cbn [u_password u_hash u_type].
    pose proof (hash_bytes_len _ _ HB 32 ltac:(lia)) as L. exists l. split; [auto|]. split; [apply put_init|]. split; [lia|auto].
  - destruct (Z.of_nat (List.length h) =? 40) eqn:E2; [|discriminate]. destruct (hash_bytes h) as [l ok] eqn:HB. intros X. injection X as <- ->. cbn [u_password u_hash u_type].
    pose proof (hash_bytes_len _ _ HB 20 ltac:(lia)) as L. exists l. split; [auto|]. split; [apply put_init|]. split; [lia|auto].
Qed.
(** an update with a text of the length of a hash that threw *)
Definition broken_update (x : uop * ures) : Prop := match x with (UUpdateHash _ h, UThrow) => hash_size h | _ => False end.
Lemma step_settled b us o : real_hashes b -> byte_hashes b -> sorted us -> ~ broken_update (o, snd (u_step b us o)) ->
  (forall n u, sm_find us n = Some u -> settled b u) -> forall n u, sm_find (fst (u_step b us o)) n = Some u -> settled b u.
Proof.
  intros RH BH S NB H. destruct o as [n p|n p|n h|n h|n]; cbn [u_step] in *; destruct (sm_find us n) as [u0|] eqn:E; cbn [fst]; try exact H.
  - intros k u. rewrite sm_find_insert by auto. destruct (str_eqb n k); [|apply H]. rewrite E. intros X. injection X as <-. apply set_password_settled; auto.
  - intros k u. rewrite sm_find_set. destruct (str_eqb n k); [|apply H]. rewrite E. intros X. injection X as <-. apply set_password_settled; auto.
  - destruct (b_ssl b); exact H.
  - destruct (b_ssl b) eqn:SSL; [|exact H]. destruct (set_password_hash u_new h) as [u' [|]] eqn:P; [|exact H]. cbn [fst].
    intros k u. rewrite sm_find_insert by auto. destruct (str_eqb n k); [|apply H]. rewrite E. intros X. injection X as <-. eapply set_hash_settled; eauto.
  - destruct (b_ssl b) eqn:SSL; [|exact H]. destruct (set_password_hash u0 h) as [u' ok] eqn:P. cbn [fst snd] in *.
    assert (settled b u') as G.
    { destruct ok; [eapply set_hash_settled; eauto|]. assert (~ hash_size h) as W by exact NB. rewrite hash_wrong_size in P by auto. injection P as <-. eauto. }
    intros k u. rewrite sm_find_set. destruct (str_eqb n k); [|apply H]. rewrite E. intros X. injection X as <-. exact G.
  - destruct (b_ssl b); exact H.
  - intros k u. rewrite sm_find_erase. destruct (str_eqb n k); [discriminate|apply H].
Qed.
Lemma run_settled b : real_hashes b -> byte_hashes b -> forall ops us, sorted us -> Forall (fun x => ~ broken_update x) (combine ops (u_results b us ops)) ->
  (forall n u, sm_find us n = Some u -> settled b u) -> forall n u, sm_find (u_run b us ops) n = Some u -> settled b u.
Proof.
  intros RH BH. induction ops as [|o ops IH]; intros us S NB H; [exact H|]. cbn [u_results combine] in NB. inversion NB; subst.
  apply IH; auto. apply step_sorted; auto. apply step_settled; auto.
Qed.
Lemma settled_moves b u : real_hashes b -> b_ssl b = true -> settled b u -> forall u0,
  exists u', set_password_hash u0 (u_password u) = (u', true) /\ forall pw, match_password b u' pw = match_password b u pw.
Proof.
  intros RH SSL ST u0. unfold settled in ST. rewrite SSL in ST. destruct ST as (l & HB & IB & L & T). unfold set_password_hash, zlen. rewrite L, HB.
  destruct T as [[T N]|[T N]]; rewrite N in *; cbn; eexists; (split; [reflexivity|]); intros pw; unfold match_password; rewrite SSL; cbn [u_type u_hash]; rewrite T;
    rewrite hash_equal_put by auto; unfold hash_equal; rewrite IB; reflexivity.
Qed.

(** how a user is put into a manager from what another one tells: as a hash with OpenSSL, as a password without *)
Definition carry_over (b : build) (n t : list Z) : uop := if b_ssl b then UAddHash n t else UAdd n t.
(** What a user of one manager tells as its password, given to another manager, makes a user there that takes exactly the same
    passwords: for every two histories, if no update threw in the first. (Missing: histories with such an update, see below.) *)
Theorem C167_carried_partial b ops n u ops2 k : real_hashes b -> byte_hashes b -> Forall (fun x => ~ broken_update x) (combine ops (u_results b [] ops)) ->
  sm_find (u_run b [] ops) n = Some u -> sm_find (u_run b [] ops2) k = None ->
  let (us', r) := u_step b (u_run b [] ops2) (carry_over b k (u_password u)) in
  r = UTrue /\ forall pw, exists v, get_user b us' k pw = Ok v /\ get_user b (u_run b [] ops) n pw = Ok v.
Proof.
  intros RH BH NB F N. pose proof (run_settled b RH BH ops [] I NB ltac:(discriminate) n u F) as ST.
  pose proof (run_sorted b ops2 [] I) as S. generalize dependent (u_run b [] ops2). intros us N S. unfold carry_over. 
  assert (forall pw, exists v, match_password b u pw = Ok v) as D.
  { intros pw. unfold match_password. unfold settled in ST. destruct (b_ssl b); [|eauto]. destruct ST as (l & _ & IB & _ & [[T L]|[T L]]); rewrite T; rewrite L in IB; unfold hash_equal; rewrite IB; eauto. }
  destruct (b_ssl b) eqn:SSL; cbn [u_step]; rewrite N; [rewrite SSL|].
  - destruct (settled_moves b u RH SSL ST u_new) as (u' & P & M). rewrite P. split; auto. intros pw. destruct (D pw) as (v & V). exists v.
    unfold get_user. rewrite F. rewrite sm_find_insert by auto. rewrite N, str_eqb_refl, M. auto.
  - split; auto. intros pw. destruct (D pw) as (v & V). exists v. unfold get_user. rewrite F. rewrite sm_find_insert by auto. rewrite N, str_eqb_refl.
    split; auto. rewrite <- V. unfold match_password, set_password. rewrite SSL. reflexivity.
Qed.
Print Assumptions C167_carried_partial.

(** a hash function for examples *)
Definition sum_hash : build := mkbuild true (fun x => firstn 32 (map (fun v => Z.land v 255) x ++ repeat 171 32)) (fun x => firstn 20 (map (fun v => Z.land v 255) x ++ repeat 205 20)).
Lemma firstn_In {A} (v : A) : forall n l, In v (firstn n l) -> In v l.
Proof. induction n as [|n IH]; intros [|x l]; cbn [firstn]; try contradiction. intros [H|H]; [left; auto|right; auto]. Qed.
Lemma sum_real : real_hashes sum_hash.
Proof. intros x. cbn [b_sha256 b_sha1 sum_hash]. rewrite !firstn_length, !app_length, !map_length, !repeat_length. lia. Qed.
Lemma sum_bytes : byte_hashes sum_hash.
Proof.
  assert (forall c n m x v, 0 <= c < 256 -> In v (firstn n (map (fun v => Z.land v 255) x ++ repeat c m)) -> 0 <= v < 256) as G.
  { intros c n m x v C H. apply firstn_In in H. apply in_app_or in H as [H|H].
    - apply in_map_iff in H as (w & <- & _). change 255 with (Z.ones 8). rewrite Z.land_ones by lia. apply Z.mod_pos_bound. lia.
    - apply repeat_spec in H. lia. }
  intros x v [H|H]; eapply G; try exact H; lia.
Qed.
Definition first_hist : list uop := [UAdd (bs "a") (bs "pw"); UAddHash (bs "b") (bs "5A5a" ++ concat (repeat (bs "cd") 18)); UUpdateHash (bs "a") (bs "short"); UUpdate (bs "a") (bs "new")].
Example C167_case :
  Forall (fun x => ~ broken_update x) (combine first_hist (u_results sum_hash [] first_hist))
  /\ u_results sum_hash [] first_hist = [UTrue; UTrue; UThrow; UTrue]
  /\ (exists u, sm_find (u_run sum_hash [] first_hist) (bs "a") = Some u /\ u_password u = bs "6e6577" ++ concat (repeat (bs "ab") 29)
      /\ let (us, r) := u_step sum_hash [] (UAddHash (bs "c") (u_password u)) in
         r = UTrue /\ get_user sum_hash us (bs "c") (bs "new") = Ok true /\ get_user sum_hash us (bs "c") (bs "pw") = Ok false)
  /\ (exists u, sm_find (u_run sum_hash [] first_hist) (bs "b") = Some u
      /\ let (us, r) := u_step sum_hash [] (UAddHash (bs "c") (u_password u)) in
         r = UTrue /\ get_user sum_hash us (bs "c") (bs "ZZ") = Ok true /\ get_user sum_hash us (bs "c") (bs "Z") = Ok false).
Proof.
  split; [|split; [vm_compute; reflexivity|split; eexists; (split; [vm_compute; reflexivity|]); vm_compute; auto]].
  repeat (constructor; [vm_compute; intuition discriminate|]). constructor.
Qed.
Example C167_alike_case : Forall2 (alike sum_hash) [UAdd (bs "a") [97]; URemove (bs "b")] [UAdd (bs "a") [353]; URemove (bs "b")].
Proof. repeat constructor. Qed.

(** Without that condition it does not hold: after an update that threw, the user tells a text that no manager takes, while it
    still has bytes of both hashes. *)
Definition always_carried : Prop := forall b ops n u, real_hashes b -> byte_hashes b -> sm_find (u_run b [] ops) n = Some u ->
  snd (u_step b [] (carry_over b n (u_password u))) = UTrue.
Theorem C167_carried_refuted : ~ always_carried.
Proof.
  intros H. specialize (H sum_hash [UAdd (bs "a") (bs "pw"); UUpdateHash (bs "a") (bs "61-1" ++ repeat 48 60)] (bs "a") _ sum_real sum_bytes ltac:(vm_compute; reflexivity)).
  vm_compute in H. discriminate H.
Qed.
Print Assumptions C167_carried_refuted.

(** A user made by hand that was never given a password takes none with OpenSSL, and only the empty one without. *)
Theorem C167_unset_partial : forall b pw, match_password b u_new pw = Ok true <-> b_ssl b = false /\ pw = [].
Proof.
  intros b pw. unfold match_password, u_new. cbn [u_type u_password]. destruct (b_ssl b).
  - split; [intros H; discriminate H|intros [H _]; discriminate H].
  - destruct pw as [|c pw]; cbn; split; try (intros [_ H]; discriminate H); auto. intros H. discriminate H.
Qed.
Print Assumptions C167_unset_partial.
Theorem C167_unset_refuted : ~ (forall b pw, match_password b u_new pw <> Ok true).
Proof. intros H. apply (H (mkbuild false (fun x => x) (fun x => x)) []). reflexivity. Qed.
Print Assumptions C167_unset_refuted.
