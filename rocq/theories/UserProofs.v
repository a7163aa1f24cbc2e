(** Proofs about the user manager. *)
From Coq Require Import String ZArith List Bool Lia.
From Verif Require Import Base SMap AlgModel HttpModel UserModel UserSpec.
Import ListNotations.

Lemma hex_char_val x a : 0 <= x < 16 -> (a = nth (Z.to_nat x) (bs "0123456789abcdef") 0 \/ a = nth (Z.to_nat x) (bs "0123456789ABCDEF") 0) ->
  hex_val a = Some x /\ c_isspace a = false /\ (a =? ch "-") = false /\ (a =? ch "+") = false.
Proof.
  intros H. assert (x = 0 \/ x = 1 \/ x = 2 \/ x = 3 \/ x = 4 \/ x = 5 \/ x = 6 \/ x = 7 \/ x = 8 \/ x = 9 \/ x = 10 \/ x = 11 \/ x = 12 \/ x = 13 \/ x = 14 \/ x = 15) as C by lia.
  repeat (destruct C as [->|C]; [intros [->| ->]; vm_compute; auto|]). subst. intros [->| ->]; vm_compute; auto.
Qed.
Lemma hex_pair_strtol a b v : hex_pair a b v -> wrap64 (strtol16 [a; b]) = v /\ 0 <= v <= 255.
Proof.
  intros (x & y & X & Y & -> & A & B). destruct (hex_char_val x a X A) as (A1 & A2 & A3 & A4). destruct (hex_char_val y b Y B) as (B1 & _).
  split; [|lia]. cbn [strtol16]. rewrite A2. unfold strtol_signed. rewrite A3, A4. cbn [strtol_digits]. rewrite A1, B1.
  unfold wrap64. rewrite Z.mod_small; [lia|]. change two64 with 18446744073709551616. lia.
Qed.
Lemma hash_bytes_hex s l : in_hex s l -> hash_bytes s = (l, true).
Proof.
  induction 1 as [|a b v s l H _ IH]; [reflexivity|]. apply hex_pair_strtol in H as [H1 H2].
  cbn [hash_bytes]. rewrite H1, IH. destruct (255 <? v) eqn:E; [lia|reflexivity].
Qed.
Lemma in_hex_det s l l' : in_hex s l -> in_hex s l' -> l = l'.
Proof. intros H1 H2. apply hash_bytes_hex in H1, H2. congruence. Qed.
Lemma in_hex_len s l : in_hex s l -> List.length s = (2 * List.length l)%nat.
Proof. induction 1; cbn [List.length]; lia. Qed.

Lemma init_bytes_some l : init_bytes (map Some l) = Some l.
Proof. induction l as [|x l IH]; cbn; auto. rewrite IH. auto. Qed.
Lemma hash_equal_put n hash h l : List.length l = n -> hash_equal n hash (put_bytes h l) = Ok (str_eqb hash l).
Proof.
  intros <-. unfold hash_equal, put_bytes. rewrite firstn_app, map_length, Nat.sub_diag, firstn_O, app_nil_r.
  rewrite <- (map_length Some l) at 1. rewrite firstn_all, init_bytes_some. reflexivity.
Qed.

(** a stored user agrees with a secret *)
Definition holds (b : build) (u : user) (s : secret) : Prop :=
  forall pw, exists v, match_password b u pw = Ok v /\ (v = true <-> fits b s pw).
Lemma set_password_holds b u p : real_hashes b -> holds b (set_password b u p) (Password p).
Proof.
  intros RH pw. unfold set_password, match_password, fits. destruct (b_ssl b).
  - cbn [u_type u_hash]. rewrite hash_equal_put by apply RH. eexists; split; [reflexivity|]. apply str_eqb_eq.
  - cbn [u_password]. eexists; split; [reflexivity|]. rewrite str_eqb_eq. split; congruence.
Qed.
Lemma set_hash_holds b u h l : real_hashes b -> b_ssl b = true -> hash_size h -> in_hex h l ->
  exists u', set_password_hash u h = (u', true) /\ holds b u' (Hash h).
Proof.
  intros RH SSL HS HX. pose proof (in_hex_len _ _ HX) as LEN. unfold set_password_hash. rewrite (hash_bytes_hex _ _ HX). unfold zlen.
  destruct HS as [HS|HS]; rewrite HS; cbn.
  - eexists; split; [reflexivity|]. intros pw. unfold match_password. rewrite SSL. cbn [u_type u_hash]. rewrite hash_equal_put by lia.
    eexists; split; [reflexivity|]. rewrite str_eqb_eq. unfold fits. split.
    + intros <-. auto.
    + intros [[_ F]|[F _]]; [|lia]. eapply in_hex_det; eauto.
  - eexists; split; [reflexivity|]. intros pw. unfold match_password. rewrite SSL. cbn [u_type u_hash]. rewrite hash_equal_put by lia.
    eexists; split; [reflexivity|]. rewrite str_eqb_eq. unfold fits. split.
    + intros <-. auto.
    + intros [[F _]|[_ F]]; [lia|]. eapply in_hex_det; eauto.
Qed.
Lemma hash_wrong_size u h : ~ hash_size h -> set_password_hash u h = (u, false).
Proof.
  intros N. unfold set_password_hash, zlen, hash_size in *. destruct (Z.of_nat (List.length h) =? 64) eqn:E1; [exfalso; apply N; lia|].
  destruct (Z.of_nat (List.length h) =? 40) eqn:E2; [exfalso; apply N; lia|]. reflexivity.
Qed.

(** the map of the model is the map of the specification *)
Definition agrees (b : build) (us : smap user) (f : umap) : Prop :=
  sorted us /\ forall n, match sm_find us n, f n with Some u, Some s => holds b u s | None, None => True | _, _ => False end.
Lemma agrees_none b us f n : agrees b us f -> (sm_find us n = None <-> f n = None).
Proof. intros [_ A]. specialize (A n). destruct (sm_find us n), (f n); try contradiction; split; auto; discriminate. Qed.
Lemma assign_eq f n s : assign f n s n = s.
Proof. unfold assign. destruct (list_eq_dec Z.eq_dec n n); congruence. Qed.
Lemma str_eqb_dec a b {A} (x y : A) : (if str_eqb a b then x else y) = if list_eq_dec Z.eq_dec b a then x else y.
Proof. destruct (list_eq_dec Z.eq_dec b a) as [->|N]; [rewrite str_eqb_refl; auto|]. destruct (str_eqb a b) eqn:E; auto. apply str_eqb_eq in E. congruence. Qed.
Lemma agrees_insert b us f n u s : agrees b us f -> f n = None -> holds b u s -> agrees b (sm_insert us n u) (assign f n (Some s)).
Proof.
  intros [S A] F H. split; [apply sm_insert_sorted; auto|]. intros k. rewrite sm_find_insert by auto. rewrite str_eqb_dec. unfold assign.
  destruct (list_eq_dec Z.eq_dec k n) as [->|N]; [|apply A]. specialize (A n). rewrite F in A. destruct (sm_find us n); [contradiction|exact H].
Qed.
Lemma agrees_set b us f n u s : agrees b us f -> f n <> None -> holds b u s -> agrees b (sm_set us n u) (assign f n (Some s)).
Proof.
  intros [S A] F H. split; [apply sm_set_sorted; auto|]. intros k. rewrite sm_find_set, str_eqb_dec. unfold assign.
  destruct (list_eq_dec Z.eq_dec k n) as [->|N]; [|apply A]. specialize (A n). destruct (sm_find us n), (f n); try contradiction; auto; try congruence.
Qed.
Lemma agrees_erase b us f n : agrees b us f -> agrees b (sm_erase us n) (assign f n None).
Proof.
  intros [S A]. split; [apply sm_erase_sorted; auto|]. intros k. rewrite sm_find_erase, str_eqb_dec. unfold assign.
  destruct (list_eq_dec Z.eq_dec k n) as [->|N]; [exact I|apply A].
Qed.
Lemma sm_set_same {A} (m : smap A) k v : sorted m -> sm_find m k = Some v -> sm_set m k v = m.
Proof.
  unfold sm_set. induction m as [|[k0 v0] m IH]; auto. intros [S1 S2] H. rewrite sm_find_cons in H. cbn [map fst]. destruct (str_eqb k0 k) eqn:E.
  - injection H as ->. apply str_eqb_eq in E. subst. f_equal. clear IH. assert (forall e, In e m -> fst e <> k) as N.
    { intros e I X. specialize (S1 _ I). cbn in S1. rewrite X, lex_irrefl in S1. discriminate. }
    clear - N. induction m as [|e m IH]; auto. cbn [map]. destruct (str_eqb (fst e) k) eqn:E; [apply str_eqb_eq in E; exfalso; eapply N; [left; eauto|auto]|].
    f_equal. apply IH. intros; apply N; right; auto.
  - f_equal. auto.
Qed.

Lemma step_call b us f o : real_hashes b -> sound_call b o -> agrees b us f ->
  exists f', call b f o f' (snd (u_step b us o)) /\ agrees b (fst (u_step b us o)) f'.
Proof.
  intros RH SC A. pose proof (agrees_none b us f) as AN.
  assert (forall n, (exists u, sm_find us n = Some u /\ f n <> None) \/ (sm_find us n = None /\ f n = None)) as C.
  { intros n. specialize (AN n A). destruct (sm_find us n) as [u|]; [left; exists u; split; auto; intros X; apply AN in X; discriminate|right; split; auto; apply AN; auto]. }
  assert (forall h, hash_size h \/ ~ hash_size h) as HSD by (intros; unfold hash_size; lia).
  destruct o as [n p|n p|n h|n h|n]; cbn [u_step sound_call] in *; destruct (C n) as [(u & E & F)|[E F]]; rewrite E; try match type of SC with _ /\ _ => destruct SC as [SSL SC]; rewrite SSL end.
  - exists f. split; [apply call_add_no; auto|auto].
  - eexists. split; [apply call_add; auto|]. apply agrees_insert; auto. apply set_password_holds; auto.
  - eexists. split; [apply call_update; auto|]. apply agrees_set; auto. apply set_password_holds; auto.
  - exists f. split; [apply call_update_no; auto|auto].
  - exists f. split; [apply call_add_hash_no; auto|auto].
  - destruct (HSD h) as [HS|HS].
    + destruct (SC HS) as [l HX]. destruct (set_hash_holds b u_new h l RH SSL HS HX) as (u' & U & H). rewrite U. cbn [fst snd].
      eexists. split; [apply call_add_hash; auto|]. apply agrees_insert; auto.
    + rewrite hash_wrong_size by auto. cbn [fst snd]. exists f. split; [apply call_add_hash_bad; auto|auto].
  - destruct (HSD h) as [HS|HS].
    + destruct (SC HS) as [l HX]. destruct (set_hash_holds b u h l RH SSL HS HX) as (u' & U & H). rewrite U. cbn [fst snd].
      eexists. split; [apply call_update_hash; auto|]. apply agrees_set; auto.
    + rewrite hash_wrong_size by auto. cbn [fst snd]. rewrite sm_set_same by (auto; apply A). exists f. split; [apply call_update_hash_bad; auto|auto].
  - exists f. split; [apply call_update_hash_no; auto|auto].
  - eexists. split; [apply call_remove; auto|]. apply agrees_erase; auto.
  - exists f. split; [apply call_remove_no; auto|auto].
Qed.
(** the results of calls one after the other *)
Fixpoint u_results (b : build) (us : smap user) (ops : list uop) : list ures :=
  match ops with [] => [] | o :: l => snd (u_step b us o) :: u_results b (fst (u_step b us o)) l end.
Lemma run_calls b : real_hashes b -> forall ops us f, Forall (sound_call b) ops -> agrees b us f ->
  exists f', calls b f ops f' (u_results b us ops) /\ agrees b (u_run b us ops) f'.
Proof.
  intros RH. induction ops as [|o ops IH]; intros us f SC A; [exists f; split; [constructor|auto]|].
  destruct (step_call b us f o RH (Forall_inv SC) A) as (f1 & C1 & A1). destruct (IH _ _ (Forall_inv_tail SC) A1) as (f2 & C2 & A2).
  exists f2. split; [econstructor; eauto|exact A2].
Qed.
Lemma call_det b f o f1 r1 f2 r2 : call b f o f1 r1 -> call b f o f2 r2 -> f1 = f2 /\ r1 = r2.
Proof. intros H1 H2. destruct H1; inversion H2; subst; try contradiction; try congruence; auto. Qed.
Lemma calls_det b f ops f1 r1 f2 r2 : calls b f ops f1 r1 -> calls b f ops f2 r2 -> f1 = f2 /\ r1 = r2.
Proof.
  intros H. revert f2 r2. induction H as [|f o fa r l fb rs C _ IH]; intros f2 r2 H2; inversion H2; subst; auto.
  match goal with X : call b f o ?y _ |- _ => destruct (call_det _ _ _ _ _ _ _ C X) end. subst.
  match goal with X : calls b _ l f2 _ |- _ => destruct (IH _ _ X) end. subst. auto.
Qed.
Lemma agrees_nobody b : agrees b [] nobody.
Proof. split; [exact I|]. intros n. exact I. Qed.

(** the user manager is the map, for every history of calls *)
Lemma user_manager b ops : real_hashes b -> Forall (sound_call b) ops ->
  exists f, calls b nobody ops f (u_results b [] ops)
    /\ (forall n, sm_find (u_run b [] ops) n = None <-> f n = None)
    /\ (u_run b [] ops = [] <-> forall n, f n = None)
    /\ (forall n pw, exists v, get_user b (u_run b [] ops) n pw = Ok v /\ (v = true <-> exists s, f n = Some s /\ fits b s pw)).
Proof.
  intros RH SC. destruct (run_calls b RH ops [] nobody SC (agrees_nobody b)) as (f & C & A). exists f. split; auto. split; [intros; apply agrees_none with (b := b); auto|].
  split.
  - split.
    + intros E n. apply (agrees_none b _ f n A). rewrite E. reflexivity.
    + intros N. destruct (u_run b [] ops) as [|[n u] l] eqn:E; auto. exfalso. specialize (N n). apply (agrees_none b _ f n A) in N.
      rewrite sm_find_cons, str_eqb_refl in N. discriminate.
  - intros n pw. unfold get_user. destruct A as [_ A]. specialize (A n). destruct (sm_find _ n) as [u|], (f n) as [s|]; try contradiction.
    + destruct (A pw) as (v & M & V). exists v. split; auto. rewrite V. split; [eauto|]. intros (s' & E & F). congruence.
    + exists false. split; auto. split; [discriminate|]. intros (s & E & _). discriminate.
Qed.
(** without OpenSSL a password is matched by itself alone *)
Lemma knows_get b ops n pw : real_hashes b -> Forall (sound_call b) ops -> (get_user b (u_run b [] ops) n pw = Ok true <-> knows b ops n pw).
Proof.
  intros RH SC. destruct (user_manager b ops RH SC) as (f & C & _ & _ & G). destruct (G n pw) as (v & E & V). rewrite E. split.
  - intros H. injection H as ->. intros f' rs C'. destruct (calls_det _ _ _ _ _ _ _ C C') as [-> _]. apply V. auto.
  - intros K. specialize (K _ _ C). apply V in K. congruence.
Qed.
