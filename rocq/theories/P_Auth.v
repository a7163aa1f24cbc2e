(** C40, C41, C43-C48, C89, C90: users, basic and cookie authentication. *)
From Coq Require Import String ZArith List Bool Lia.
From Verif Require Import Base AlgModel AlgSpec AlgProofs DictModel HttpModel HttpSpec SMap ServerModel ServerSpec ServerProofs UserModel UserSpec UserProofs AuthModel AuthSpec AuthProofs.
Import ListNotations.

Lemma sound_split b l1 l2 : Forall (sound_call b) (user_ops (l1 ++ l2)) -> Forall (sound_call b) (user_ops l1).
Proof. unfold user_ops. rewrite flat_map_app. intros H. apply Forall_app in H. tauto. Qed.

(** C41. After every history of changes of the lists, of the users and of requests. *)
Theorem C41_restriction b cookies start lin lout red ops w m :
  real_hashes b -> Forall (sound_call b) (user_ops ops) -> a_run b cookies (a_init start lin lout red) ops = Ok w ->
  (need_authentication w m = true <-> needs b ops m).
Proof. exact (need_spec b cookies start lin lout red ops w m). Qed.
Print Assumptions C41_restriction.

(** C43. A request that basic authentication lets through needs no authentication, or has credentials that are good for the
    user it gets. *)
Theorem C43_known_users b start lin lout red ops t rnd w m u w' :
  real_hashes b -> Forall (sound_call b) (user_ops ops) -> ordered start (times ops ++ [t]) ->
  a_run b false (a_init start lin lout red) ops = Ok w -> a_handle b false t rnd w m = Ok (true, u, w') ->
  match u with None => ~ needs b ops m | Some x => needs b ops m /\ basic_good b (a_init start lin lout red) ops t m x end.
Proof.
  intros RH SC HO HR HH. pose proof (C41_restriction b false start lin lout red ops w m RH SC HR) as NS.
  destruct (basic_accepted b start lin lout red ops t rnd w m u w' HO HR HH) as [(-> & N)|(k & x & -> & N & C & H)].
  - intros Q. apply NS in Q. congruence.
  - split; [apply NS; auto|]. destruct H as [(p & ST & G)|(t0 & U & LT)].
    + exists k, p. split; [apply cred_presents; auto|]. split; auto. left. apply knows_get; auto. destruct (rules_run _ _ _ _ _ _ _ _ HR) as [<- _]. auto.
    + assert (ordered start (times ops)) as HO1 by (apply ordered_app in HO; tauto).
      destruct (used_root b start lin lout red ops t0 k x HO1 U) as (bf & t1 & rnd1 & m1 & af & w1 & p & E & C1 & R1 & ST & G).
      exists k, p. split; [apply cred_presents; auto|]. split; auto. right. split.
      * exists bf, t1, rnd1, m1, af. split; auto. split; [apply cred_presents; auto|]. apply knows_get; auto.
        -- rewrite E in SC. eapply sound_split; eauto.
        -- destruct (rules_run _ _ _ _ _ _ _ _ R1) as [<- _]. auto.
      * destruct U as (bf0 & rnd0 & m0 & af0 & E0 & C0 & L0). exists bf0, t0, rnd0, m0, af0. split; auto. split; [apply cred_presents; auto|]. split; auto.
Qed.
Print Assumptions C43_known_users.

(** C89. Credentials of a user are let through, as that user. *)
Theorem C89_right_password b start lin lout red ops t rnd w m u p :
  real_hashes b -> Forall (sound_call b) (user_ops ops) -> ordered start (times ops ++ [t]) ->
  a_run b false (a_init start lin lout red) ops = Ok w -> needs b ops m ->
  Forall is_byte (u ++ ch ":" :: p) -> 4 * ((zlen (u ++ ch ":" :: p) + 2) / 3) < two32 -> u <> [] -> ~ In (ch ":") u ->
  knows b (user_ops ops) u p -> presents_only m (b64_encode (u ++ ch ":" :: p)) ->
  exists w', a_handle b false t rnd w m = Ok (true, Some u, w').
Proof.
  intros RH SC HO HR N IB LN NE NI KN PO. apply (need_spec b false start lin lout red ops w m RH SC HR) in N.
  set (k := b64_encode (u ++ ch ":" :: p)) in *. assert (stands_for k u p) as ST by (split; [apply b64_roundtrip; auto|auto]). clearbody k.
  assert (w_users w = u_run b [] (user_ops ops)) as US by (destruct (rules_run _ _ _ _ _ _ _ _ HR); auto).
  apply knows_get in KN; auto. rewrite <- US in KN. apply presents_cred in PO.
  cbn [a_handle]. unfold basic_handle. rewrite N. cbn [negb]. unfold cred_of in PO.
  destruct (d_get (m_headers m) (bs "Authorization")) as [|c0 a]; [vm_compute in PO; discriminate|]. rewrite PO.
  destruct (sm_find (w_cache (expire BASIC_EXPIRATION t w)) k) as [[t0 x]|] eqn:F.
  - assert (x = u) as ->; [|eauto]. apply ordered_app in HO as [HO _]. destruct (cache_run b start lin lout red ops w HO HR) as (S & _ & EN).
    apply sm_find_in in F; [|apply expire_sorted; auto].
    assert (In (k, (t0, x)) (w_cache w)) as I by (unfold expire in F; destruct (_ <? _) in F; auto; cbn [w_cache set_cache] in F; apply filter_In in F; tauto).
    destruct (EN _ _ _ I) as [U _]. destruct (used_root b start lin lout red ops t0 k x HO U) as (? & ? & ? & ? & ? & ? & p' & _ & _ & _ & ST' & _).
    apply parse_credentials_spec in ST, ST'. congruence.
  - apply parse_credentials_spec in ST. rewrite ST. cbn [obind]. assert (w_users (expire BASIC_EXPIRATION t w) = w_users w) as -> by apply same_expire.
    rewrite KN. cbn [obind]. eauto.
Qed.
Print Assumptions C89_right_password.

(** C44. Taken as it stands, revoked credentials stop at once. *)
Definition revoked_stop : Prop := forall b start ops t rnd w m u w' cred p,
  real_hashes b -> Forall (sound_call b) (user_ops ops) -> ordered start (times ops ++ [t]) ->
  a_run b false (a_init start [] [] []) ops = Ok w -> needs b ops m -> presents_only m cred -> stands_for cred u p -> ~ knows b (user_ops ops) u p ->
  a_handle b false t rnd w m <> Ok (true, Some u, w').
(** It does not hold: for 300 seconds after a request that was let through, requests with the same credentials are let through
    as the same user, whatever happened to the users (as long as there is one). *)
Theorem C44_still_let_through b start lin lout red before t rnd m cred u after w t2 rnd2 m2 :
  real_hashes b -> Forall (sound_call b) (user_ops (before ++ ORequest t rnd m :: after)) ->
  ordered start (times (before ++ ORequest t rnd m :: after) ++ [t2]) -> t2 <= t + 300 ->
  let_through b false (a_init start lin lout red) before t rnd m u -> presents_only m cred ->
  a_run b false (a_init start lin lout red) (before ++ ORequest t rnd m :: after) = Ok w -> needs b (before ++ ORequest t rnd m :: after) m2 -> presents_only m2 cred ->
  exists w', a_handle b false t2 rnd2 w m2 = Ok (true, Some u, w').
Proof.
  intros RH SC HO LT L PO HR N PO2. rewrite times_app in HO. change (times (ORequest t rnd m :: after)) with (t :: times after) in HO.
  rewrite <- app_assoc in HO. apply ordered_app in HO as [HO1 HO2]. cbn [app ordered] in HO2. destruct HO2 as [_ HO2]. apply ordered_app in HO2 as [HO2 [HO3 _]].
  destruct (ordered_last _ _ HO2) as [A B].
  apply (still_accepted b start lin lout red before t rnd m cred u after w t2 rnd2 m2); auto using presents_cred.
  - apply Forall_forall. intros x I. specialize (B x I). change BASIC_EXPIRATION with 300. lia.
  - change BASIC_EXPIRATION with 300. lia.
  - apply (need_spec b false start lin lout red _ w m2 RH SC HR). auto.
Qed.
Print Assumptions C44_still_let_through.

(** C45. Credentials that are no user's now, and with which no request was let through in the last 600 seconds, are refused. *)
Theorem C45_expire b start lin lout red ops t rnd w m cred r u w' :
  real_hashes b -> Forall (sound_call b) (user_ops ops) -> ordered start (times ops ++ [t]) ->
  a_run b false (a_init start lin lout red) ops = Ok w -> needs b ops m -> presents_only m cred ->
  (forall x p, stands_for cred x p -> ~ knows b (user_ops ops) x p) ->
  (forall before t0 rnd0 m0 after x, ops = before ++ ORequest t0 rnd0 m0 :: after -> presents m0 cred -> let_through b false (a_init start lin lout red) before t0 rnd0 m0 x -> t0 + 600 < t) ->
  a_handle b false t rnd w m = Ok (r, u, w') -> r = false /\ u = None.
Proof.
  intros RH SC HO HR N PO NK NU HH. destruct r.
  - exfalso. pose proof (C43_known_users b start lin lout red ops t rnd w m u w' RH SC HO HR HH) as H. destruct u as [x|]; [|contradiction].
    destruct H as [_ (cred' & p & PR & ST & K)].
    assert (cred' = cred) as ->. { destruct PO as [_ F]. destruct PR as [I _]. rewrite Forall_forall in F. specialize (F _ I). apply app_inv_head in F. auto. }
    destruct K as [K|(_ & bf & t0 & rnd0 & m0 & af & E & P0 & L0 & LT)]; [exact (NK _ _ ST K)|]. specialize (NU bf t0 rnd0 m0 af x E P0 L0). lia.
  - split; auto. cbn [a_handle] in HH. apply basic_cases in HH as [(_ & ? & _)|(_ & [(_ & ? & _)|(? & ? & _ & ? & _)])]; auto; discriminate.
Qed.
Print Assumptions C45_expire.

(* ------------------------------------------------------------------ a concrete server *)

(** no hash functions: passwords are stored as they are *)
Definition plain : build := mkbuild false (fun _ => repeat 0 32) (fun _ => repeat 0 20).
Lemma plain_real : real_hashes plain. Proof. intros x. split; reflexivity. Qed.
Definition with_auth (res : string) (value : list Z) : msg :=
  set_m_resource (bs res) (set_m_headers [(bs "Authorization", value)] msg_init).
Definition good_cred : list Z := b64_encode (bs "bob:pw").
Definition asks (t : Z) (res : string) : aop := ORequest t [] (with_auth res (bs "Basic " ++ good_cred)).
Definition setup : list aop := [OUser (UAdd (bs "bob") (bs "pw")); OUser (UAdd (bs "eve") (bs "x")); ORestrict (bs "/private/"); OPermit (bs "/private/logo")].
Definition get_w (o : outcome aworld) : aworld := match o with Ok w => w | _ => a_init 0 [] [] [] end.
Definition answer (ops : list aop) (t : Z) (m : msg) : option (bool * option (list Z)) :=
  match a_run plain false (a_init 0 [] [] []) ops with
  | Ok w => match a_handle plain false t [] w m with Ok (r, u, _) => Some (r, u) | _ => None end
  | _ => None
  end.
Lemma setup_sound ops : Forall (sound_call plain) (user_ops (setup ++ ops)) <-> Forall (sound_call plain) (user_ops ops).
Proof. change (user_ops (setup ++ ops)) with (user_ops setup ++ user_ops ops). rewrite Forall_app. split; [tauto|]. intros H. split; auto. repeat constructor. Qed.

Lemma needs_case ops m : Forall (sound_call plain) (user_ops ops) -> a_run plain false (a_init 0 [] [] []) ops = Ok (get_w (a_run plain false (a_init 0 [] [] []) ops)) ->
  (needs plain ops m <-> need_authentication (get_w (a_run plain false (a_init 0 [] [] []) ops)) m = true).
Proof. intros SC E. symmetry. exact (C41_restriction plain false 0 [] [] [] ops _ m plain_real SC E). Qed.
Ltac needs_tac := apply needs_case; [repeat constructor|vm_compute; reflexivity|vm_compute; reflexivity].
Ltac no_need_tac := let H := fresh in intros H; apply needs_case in H; [vm_compute in H; discriminate|repeat constructor|vm_compute; reflexivity].
Example C41_case : needs plain setup (with_auth "/private/x" []) /\ needs plain setup (with_auth "/private" []) /\ ~ needs plain setup (with_auth "/private/logo/" [])
  /\ ~ needs plain setup (with_auth "/privateer" []) /\ ~ needs plain (setup ++ [OUser (URemove (bs "bob")); OUser (URemove (bs "eve"))]) (with_auth "/private/x" []).
Proof. split; [needs_tac|]. split; [needs_tac|]. split; [no_need_tac|]. split; no_need_tac. Qed.

Lemma knows_case ops u p : Forall (sound_call plain) ops -> (knows plain ops u p <-> get_user plain (u_run plain [] ops) u p = Ok true).
Proof. intros SC. symmetry. apply knows_get; auto. apply plain_real. Qed.
Lemma stands_good u p : stands_for good_cred u p -> u = bs "bob" /\ p = bs "pw".
Proof. intros H. apply parse_credentials_spec in H. vm_compute in H. injection H as <- <-. auto. Qed.
Lemma asks_presents t res : exists m, asks t res = ORequest t [] m /\ presents_only m good_cred.
Proof. eexists. split; [reflexivity|]. split; [split|]; vm_compute; auto. discriminate. Qed.

(** let in, removed, let in again; from another client never *)
Definition revoked : list aop := setup ++ [asks 10 "/private/x"; OUser (URemove (bs "bob"))].
Example C43_case : answer setup 10 (with_auth "/private/x" (bs "Basic " ++ good_cred)) = Some (true, Some (bs "bob"))
  /\ answer revoked 310 (with_auth "/private/x" (bs "Basic " ++ good_cred)) = Some (true, Some (bs "bob"))
  /\ answer setup 10 (with_auth "/private/x" (bs "Basic " ++ b64_encode (bs "bob:px"))) = Some (false, None)
  /\ answer setup 10 (with_auth "/private/x" []) = Some (false, None)
  /\ answer setup 10 (with_auth "/private/logo" []) = Some (true, None)
  /\ ordered 0 (times revoked ++ [310]) /\ Forall (sound_call plain) (user_ops revoked).
Proof. vm_compute. repeat (split; [first [reflexivity|discriminate|repeat constructor|idtac]|]); repeat constructor; discriminate. Qed.
Theorem C44_revoked_at_once_refuted : ~ revoked_stop.
Proof.
  intros H. destruct (asks_presents 10 "/private/x") as (m & _ & P). set (m' := with_auth "/private/x" (bs "Basic " ++ good_cred)).
  refine (H plain 0 revoked 310 [] (get_w (a_run plain false (a_init 0 [] [] []) revoked)) m' (bs "bob")
    (match a_handle plain false 310 [] (get_w (a_run plain false (a_init 0 [] [] []) revoked)) m' with Ok (_, _, w) => w | _ => a_init 0 [] [] [] end) good_cred (bs "pw") plain_real _ _ _ _ _ _ _ _).
  - repeat constructor.
  - vm_compute. repeat split; discriminate.
  - vm_compute. reflexivity.
  - needs_tac.
  - split; [split|]; vm_compute; auto. discriminate.
  - apply parse_credentials_spec. vm_compute. reflexivity.
  - intros K. apply knows_case in K; [vm_compute in K; discriminate|repeat constructor].
  - vm_compute. reflexivity.
Qed.
Print Assumptions C44_revoked_at_once_refuted.
Definition m_bob : msg := with_auth "/private/x" (bs "Basic " ++ good_cred).
Example C44_case : let_through plain false (a_init 0 [] [] []) setup 10 [] m_bob (bs "bob") /\ presents_only m_bob good_cred
  /\ needs plain (setup ++ ORequest 10 [] m_bob :: [OUser (URemove (bs "bob"))]) m_bob.
Proof.
  split; [|split].
  - exists (get_w (a_run plain false (a_init 0 [] [] []) setup)), (match a_handle plain false 10 [] (get_w (a_run plain false (a_init 0 [] [] []) setup)) m_bob with Ok (_, _, w) => w | _ => a_init 0 [] [] [] end).
    split; vm_compute; reflexivity.
  - split; [split|]; vm_compute; auto. discriminate.
  - needs_tac.
Qed.

(** The bound of 600 seconds is not 300: other requests put the look at old entries off. *)
Definition other (t : Z) : aop := ORequest t [] (with_auth "/private/x" []).
Definition late_history : list aop := setup ++ [asks 290 "/private/x"; OUser (URemove (bs "bob")); other 301].
Definition expires_in_300 : Prop := forall b start lin lout red ops t rnd w m cred r u w',
  real_hashes b -> Forall (sound_call b) (user_ops ops) -> ordered start (times ops ++ [t]) ->
  a_run b false (a_init start lin lout red) ops = Ok w -> needs b ops m -> presents_only m cred ->
  (forall x p, stands_for cred x p -> ~ knows b (user_ops ops) x p) ->
  (forall before t0 rnd0 m0 after x, ops = before ++ ORequest t0 rnd0 m0 :: after -> presents m0 cred -> let_through b false (a_init start lin lout red) before t0 rnd0 m0 x -> t0 + 300 < t) ->
  a_handle b false t rnd w m = Ok (r, u, w') -> r = false.
Lemma requests_of (ops : list aop) before t rnd m after : ops = before ++ ORequest t rnd m :: after -> In t (times ops).
Proof. intros ->. rewrite times_app. apply in_or_app. right. left. reflexivity. Qed.
Theorem C45_within_300_refuted : ~ expires_in_300.
Proof.
  intros H. assert (true = false) as X; [|discriminate].
  refine (H plain 0 [] [] [] late_history 601 [] (get_w (a_run plain false (a_init 0 [] [] []) late_history)) m_bob good_cred true (Some (bs "bob"))
    (match a_handle plain false 601 [] (get_w (a_run plain false (a_init 0 [] [] []) late_history)) m_bob with Ok (_, _, w) => w | _ => a_init 0 [] [] [] end) plain_real _ _ _ _ _ _ _ _).
  - repeat constructor.
  - vm_compute. repeat split; discriminate.
  - vm_compute. reflexivity.
  - needs_tac.
  - split; [split|]; vm_compute; auto. discriminate.
  - intros x p ST K. apply stands_good in ST as [-> ->]. apply knows_case in K; [vm_compute in K; discriminate|repeat constructor].
  - intros bf t0 rnd0 m0 af x E PR _. assert (In (ORequest t0 rnd0 m0) late_history) as I by (rewrite E; apply in_elt). clear E.
    destruct I as [I|[I|[I|[I|[I|[I|[I|[]]]]]]]]; try discriminate I; injection I as <- _ <-; [reflexivity|].
    exfalso. destruct PR as [[I|[]] _]. vm_compute in I. discriminate.
  - vm_compute. reflexivity.
Qed.
Print Assumptions C45_within_300_refuted.
Definition quiet_history : list aop := setup ++ [asks 290 "/private/x"; OUser (URemove (bs "bob")); other 891].
Example C45_case : answer late_history 601 m_bob = Some (true, Some (bs "bob")) /\ answer quiet_history 891 m_bob = Some (false, None).
Proof. vm_compute. auto. Qed.

(* ------------------------------------------------------------------ cookies *)

(** C46. A request that cookie authentication lets through needs no authentication, or is for the page unauthorized requests
    are sent to, or has a session that is good for the user it gets. *)
Theorem C46_sessions b start lin lout red ops t rnd w m u w' :
  real_hashes b -> Forall (sound_call b) (user_ops ops) -> ordered start (times ops ++ [t]) ->
  a_run b true (a_init start lin lout red) ops = Ok w -> a_handle b true t rnd w m = Ok (true, u, w') ->
  match u with None => ~ needs b ops m \/ redirect_page red ops m | Some x => needs b ops m /\ session_good b (a_init start lin lout red) ops t m x end.
Proof.
  intros RH SC HO HR HH. pose proof (C41_restriction b true start lin lout red ops w m RH SC HR) as NS. destruct (settings_run _ _ _ _ _ _ _ HR) as (_ & _ & RD).
  destruct (cookie_accepted b start lin lout red ops t rnd w m u w' HO HR HH) as (_ & _ & [(-> & [N|N])|(x & t0 & -> & N & NE & RT & US & LT)]).
  - left. intros Q. apply NS in Q. congruence.
  - right. unfold redirect_page. rewrite <- RD. auto.
  - split; [apply NS; auto|]. exists (sess_of m). split; [apply sess_session; auto|]. split.
    + destruct RT as (bf & t1 & rnd1 & m1 & af & w1 & E & L & R1 & G & NED). exists bf, t1, rnd1, m1, af. split; auto. split; auto. split; auto.
      apply knows_get; auto; [rewrite E in SC; eapply sound_split; eauto|]. destruct (rules_run _ _ _ _ _ _ _ _ R1) as [<- _]. auto.
    + destruct US as (bf & rnd0 & m0 & af & E & H). exists bf, t0, rnd0, m0, af. split; auto. split; [|exact LT]. destruct H as [H|[H1 H2]]; [auto|right]. split; auto.
      rewrite <- H1. apply sess_session. rewrite H1. auto.
Qed.
Print Assumptions C46_sessions.

(** C47. After a logout the session is refused until a login gives the same id again. *)
Theorem C47_logout b start lin lout red before t1 rnd1 m1 after c t rnd w m r u w' :
  real_hashes b -> Forall (sound_call b) (user_ops (before ++ ORequest t1 rnd1 m1 :: after)) -> ordered start (times (before ++ ORequest t1 rnd1 m1 :: after) ++ [t]) ->
  logged_out b (a_init start lin lout red) before t1 rnd1 m1 c ->
  (forall l t2 rnd2 m2 l' x, after = l ++ ORequest t2 rnd2 m2 :: l' -> ~ logged_in b (a_init start lin lout red) (before ++ ORequest t1 rnd1 m1 :: l) t2 rnd2 m2 c x) ->
  a_run b true (a_init start lin lout red) (before ++ ORequest t1 rnd1 m1 :: after) = Ok w ->
  needs b (before ++ ORequest t1 rnd1 m1 :: after) m -> ~ redirect_page red (before ++ ORequest t1 rnd1 m1 :: after) m -> session_only m c ->
  a_handle b true t rnd w m = Ok (r, u, w') -> r = false.
Proof.
  intros RH SC HO LO NL HR N NR SO HH. destruct r; auto. exfalso.
  pose proof (C46_sessions b start lin lout red _ t rnd w m u w' RH SC HO HR HH) as H. destruct u as [x|]; [|tauto].
  destruct H as (_ & c' & SE & (bf & t2 & rnd2 & m2 & af & E & LI & _ & NE) & _).
  assert (c' = c) as ->. { destruct SO as [_ F]. rewrite Forall_forall in F. destruct SE as [I _]. symmetry. auto. }
  (* where the login is *)
  assert (exists l, (before = bf ++ ORequest t2 rnd2 m2 :: l /\ af = l ++ ORequest t1 rnd1 m1 :: after) \/
                    (ORequest t1 rnd1 m1 = ORequest t2 rnd2 m2 /\ bf = before) \/
                    (bf = before ++ ORequest t1 rnd1 m1 :: l /\ after = l ++ ORequest t2 rnd2 m2 :: af)) as (l & P).
  { clear - E. revert bf E. induction before as [|o before IH]; intros bf E.
    - destruct bf as [|o bf]; cbn [app] in E; [injection E; intros; subst; exists []; right; left; auto|]. injection E as <- ->. exists bf. right. right. auto.
    - destruct bf as [|o' bf]; cbn [app] in E.
      + injection E as -> <-. exists before. left. auto.
      + injection E as <- E. destruct (IH bf E) as (l & [(-> & ->)|[(A & ->)|(-> & ->)]]); exists l; auto. }
  destruct P as [(-> & ->)|[(A & ->)|(-> & ->)]].
  - apply NE. exists l, t1, rnd1, m1, after. split; auto. rewrite <- app_assoc. exact LO.
  - injection A as -> -> ->. destruct LO as [_ (v & v' & url & R1 & H1)]. destruct LI as (y & y' & url' & R2 & H2 & _). rewrite R1 in R2. injection R2 as <-. rewrite H1 in H2. discriminate.
  - exact (NL l t2 rnd2 m2 af x eq_refl LI).
Qed.
Print Assumptions C47_logout.

(** A session not used for more than 7200 seconds is refused. (The claim has 3600: see below.) *)
Theorem C47_expire_partial b start lin lout red ops t rnd w m c r u w' :
  real_hashes b -> Forall (sound_call b) (user_ops ops) -> ordered start (times ops ++ [t]) ->
  a_run b true (a_init start lin lout red) ops = Ok w -> needs b ops m -> ~ redirect_page red ops m -> session_only m c ->
  (forall before t0 rnd0 m0 after x, ops = before ++ ORequest t0 rnd0 m0 :: after ->
     logged_in b (a_init start lin lout red) before t0 rnd0 m0 c x \/ session m0 c /\ let_through b true (a_init start lin lout red) before t0 rnd0 m0 x -> t0 + 7200 < t) ->
  a_handle b true t rnd w m = Ok (r, u, w') -> r = false.
Proof.
  intros RH SC HO HR N NR SO NU HH. destruct r; auto. exfalso.
  pose proof (C46_sessions b start lin lout red _ t rnd w m u w' RH SC HO HR HH) as H. destruct u as [x|]; [|tauto].
  destruct H as (_ & c' & SE & _ & bf & t0 & rnd0 & m0 & af & E & U & LT).
  assert (c' = c) as ->. { destruct SO as [_ F]. rewrite Forall_forall in F. destruct SE as [I _]. symmetry. auto. }
  specialize (NU bf t0 rnd0 m0 af x E U). lia.
Qed.
Print Assumptions C47_expire_partial.

(** Until then it lives: a new session id, or one with which a request was let through, is good for 3600 seconds unless it is
    ended, whatever happens to the users. *)
Theorem C47_lives b start lin lout red before t rnd m c u after w t2 rnd2 m2 :
  real_hashes b -> Forall (sound_call b) (user_ops (before ++ ORequest t rnd m :: after)) ->
  ordered start (times (before ++ ORequest t rnd m :: after) ++ [t2]) -> t2 <= t + 3600 ->
  (logged_in b (a_init start lin lout red) before t rnd m c u /\ never_given b (a_init start lin lout red) before c
   \/ session_only m c /\ let_through b true (a_init start lin lout red) before t rnd m u) ->
  not_ended b (a_init start lin lout red) (before ++ [ORequest t rnd m]) after c ->
  a_run b true (a_init start lin lout red) (before ++ ORequest t rnd m :: after) = Ok w -> needs b (before ++ ORequest t rnd m :: after) m2 ->
  ~ redirect_page red (before ++ ORequest t rnd m :: after) m2 ->
  (forall p, cleaned (m_resource m2) p -> p <> setting (bs "login") lin (before ++ ORequest t rnd m :: after) /\ p <> setting (bs "logout") lout (before ++ ORequest t rnd m :: after)) ->
  session_only m2 c ->
  exists w', a_handle b true t2 rnd2 w m2 = Ok (true, Some u, w').
Proof.
  intros RH SC HO LT L NE HR N NR PG SO. rewrite times_app in HO. change (times (ORequest t rnd m :: after)) with (t :: times after) in HO.
  rewrite <- app_assoc in HO. apply ordered_app in HO as [HO1 HO2]. cbn [app ordered] in HO2. destruct HO2 as [_ HO2]. apply ordered_app in HO2 as [HO2 [HO3 _]].
  destruct (ordered_last _ _ HO2) as [A B]. destruct (settings_run _ _ _ _ _ _ _ HR) as (S1 & S2 & S3). apply session_sess in SO as [SO NC].
  destruct (PG (strip_slash (m_resource m2)) (proj2 (cleaned_strip _ _) eq_refl)) as [PG1 PG2].
  apply (session_lives b start lin lout red before t rnd m c u after w t2 rnd2 m2); auto.
  - destruct L as [[L1 L2]|[L1 L2]]; [right|left].
    + split; auto. intros x (bf & t1 & rnd1 & m1 & af & w1 & E & LI & _). exact (L2 _ _ _ _ _ _ E LI).
    + split; auto. apply session_sess; auto.
  - intros l t1 rnd1 m1 l' v w1 url E RV HV SM. apply (NE l t1 rnd1 m1 l' v w1 url E); auto. rewrite <- SM. apply sess_session. congruence.
  - apply Forall_forall. intros x I. specialize (B x I). change COOKIE_EXPIRATION with 3600. lia.
  - change COOKIE_EXPIRATION with 3600. lia.
  - apply (need_spec b true start lin lout red _ w m2 RH SC HR). auto.
  - congruence.
  - congruence.
  - destruct (list_eq_dec Z.eq_dec (w_redirect w) []) as [E|NN]; [auto|right]. intros E. apply NR. unfold redirect_page. rewrite <- S3. auto.
Qed.
Print Assumptions C47_lives.

Definition page (res : string) (q c : list (String.string * list Z)) : msg :=
  set_m_cookies (map (fun p => (bs (fst p), snd p)) c) (set_m_queries (map (fun p => (bs (fst p), snd p)) q) (set_m_resource (bs res) msg_init)).
Definition rnd1 : list Z := [1; 2; 3; 4; 5; 6; 7; 8; 9; 10; 11; 12; 13; 14; 15; 16; 17; 18; 19; 20].
Definition sid : list Z := b64_encode rnd1.
Definition m_login : msg := page "/login" [("user"%string, bs "bob"); ("pass"%string, bs "pw")] [].
Definition m_logout : msg := page "/logout/" [] [("pion_session_id"%string, sid)].
Definition m_sess : msg := page "/private/x" [] [("pion_session_id"%string, sid)].
Definition c0 : aworld := a_init 0 (bs "/login") (bs "/logout") [].
Definition c_answer (ops : list aop) (t : Z) (m : msg) : option (bool * option (list Z) * option cresp) :=
  match a_run plain true c0 ops with
  | Ok w => match cookie_handle plain t rnd1 w m with Ok (r, u, _, x) => Some (r, u, x) | _ => None end
  | _ => None
  end.
Definition in_session : list aop := setup ++ [ORequest 10 rnd1 m_login].
Lemma c_needs_case ops m : Forall (sound_call plain) (user_ops ops) -> a_run plain true c0 ops = Ok (get_w (a_run plain true c0 ops)) ->
  (needs plain ops m <-> need_authentication (get_w (a_run plain true c0 ops)) m = true).
Proof. intros SC E. symmetry. exact (C41_restriction plain true 0 (bs "/login") (bs "/logout") [] ops _ m plain_real SC E). Qed.
Ltac c_needs_tac := apply c_needs_case; [repeat constructor|vm_compute; reflexivity|vm_compute; reflexivity].
Example C46_case : c_answer setup 10 m_login = Some (false, None, Some (CDone [] (Some sid)))
  /\ c_answer setup 10 (page "/login" [("user"%string, bs "bob"); ("pass"%string, bs "px")] []) = Some (false, None, Some CUnauthorized)
  /\ c_answer setup 10 m_sess = Some (false, None, Some CUnauthorized)
  /\ c_answer in_session 20 m_sess = Some (true, Some (bs "bob"), None)
  /\ c_answer (in_session ++ [ORequest 30 rnd1 m_logout]) 40 m_sess = Some (false, None, Some CUnauthorized)
  /\ c_answer (in_session ++ [OUser (URemove (bs "bob"))]) 3610 m_sess = Some (true, Some (bs "bob"), None)
  /\ needs plain in_session m_sess /\ ordered 0 (times in_session ++ [20]) /\ Forall (sound_call plain) (user_ops in_session).
Proof.
  do 6 (split; [vm_compute; reflexivity|]). split; [c_needs_tac|]. split; [vm_compute; repeat split; discriminate|repeat constructor].
Qed.
Lemma login_sid : logged_in plain c0 setup 10 rnd1 m_login sid (bs "bob").
Proof.
  exists (get_w (a_run plain true c0 setup)), (match cookie_handle plain 10 rnd1 (get_w (a_run plain true c0 setup)) m_login with Ok (_, _, w, _) => w | _ => c0 end), [].
  split; [vm_compute; reflexivity|]. split; [vm_compute; reflexivity|]. reflexivity.
Qed.
Lemma session_sid res q : session_only (page res q [("pion_session_id"%string, sid)]) sid.
Proof. split; [split|]; [left; reflexivity|vm_compute; discriminate|repeat constructor]. Qed.
Example C47_case : logged_in plain c0 setup 10 rnd1 m_login sid (bs "bob") /\ never_given plain c0 setup sid /\ not_ended plain c0 in_session [OUser (URemove (bs "bob"))] sid
  /\ logged_out plain c0 in_session 30 rnd1 m_logout sid /\ session_only m_sess sid /\ ~ redirect_page [] in_session m_sess
  /\ (forall p, cleaned (m_resource m_sess) p -> p <> setting (bs "login") (bs "/login") in_session /\ p <> setting (bs "logout") (bs "/logout") in_session).
Proof.
  split; [exact login_sid|]. split; [|split; [|split; [|split; [apply session_sid|split]]]].
  - intros bf t rnd m af u E. apply requests_of in E. destruct E.
  - intros l t rnd m l' w w' url E. exfalso. destruct l as [|? [|]]; discriminate.
  - split; [apply session_sid|]. exists (get_w (a_run plain true c0 in_session)), (match cookie_handle plain 30 rnd1 (get_w (a_run plain true c0 in_session)) m_logout with Ok (_, _, w, _) => w | _ => c0 end), [].
    split; vm_compute; reflexivity.
  - intros [H _]. apply H. reflexivity.
  - intros p H. apply cleaned_strip in H. subst p. split; vm_compute; discriminate.
Qed.

(** 3600 seconds without use are not enough *)
Definition c_other (t : Z) : aop := ORequest t rnd1 (page "/private/x" [] []).
Definition c_late : list aop := setup ++ [ORequest 3590 rnd1 m_login; c_other 3601].
Definition sessions_end_in_3600 : Prop := forall b start lin lout red ops t rnd w m c r u w',
  real_hashes b -> Forall (sound_call b) (user_ops ops) -> ordered start (times ops ++ [t]) ->
  a_run b true (a_init start lin lout red) ops = Ok w -> needs b ops m -> ~ redirect_page red ops m -> session_only m c ->
  (forall before t0 rnd0 m0 after x, ops = before ++ ORequest t0 rnd0 m0 :: after ->
     logged_in b (a_init start lin lout red) before t0 rnd0 m0 c x \/ session m0 c /\ let_through b true (a_init start lin lout red) before t0 rnd0 m0 x -> t0 + 3600 < t) ->
  a_handle b true t rnd w m = Ok (r, u, w') -> r = false.
Theorem C47_within_3600_refuted : ~ sessions_end_in_3600.
Proof.
  intros H. assert (true = false) as X; [|discriminate].
  refine (H plain 0 (bs "/login") (bs "/logout") [] c_late 7201 rnd1 (get_w (a_run plain true c0 c_late)) m_sess sid true (Some (bs "bob"))
    (match a_handle plain true 7201 rnd1 (get_w (a_run plain true c0 c_late)) m_sess with Ok (_, _, w) => w | _ => c0 end) plain_real _ _ _ _ _ _ _ _).
  - repeat constructor.
  - vm_compute. repeat split; discriminate.
  - vm_compute. reflexivity.
  - c_needs_tac.
  - intros [N _]. apply N. reflexivity.
  - apply session_sid.
  - intros bf t0 rnd0 m0 af x E U. assert (In (ORequest t0 rnd0 m0) c_late) as I by (rewrite E; apply in_elt).
    destruct I as [I|[I|[I|[I|[I|[I|[]]]]]]]; try discriminate I; injection I as <- <- <-; [reflexivity|]. exfalso.
    assert (bf = setup ++ [ORequest 3590 rnd1 m_login]) as ->.
    { assert (bf = firstn (List.length bf) c_late) as E1 by (rewrite E, firstn_app, Nat.sub_diag, firstn_all, firstn_O, app_nil_r; reflexivity).
      assert (nth_error c_late (List.length bf) = Some (c_other 3601)) as E2 by (rewrite E, nth_error_app2, Nat.sub_diag by lia; reflexivity). clear - E1 E2.
      destruct (List.length bf) as [|[|[|[|[|[|n]]]]]]; cbn [nth_error] in E2; try discriminate; [exact E1|]. exfalso. vm_compute in E2. destruct n; discriminate. }
    destruct U as [(w & w' & url & R & CH & _)|[[[] _] _]]. vm_compute in R. injection R as <-. vm_compute in CH. discriminate.
  - vm_compute. reflexivity.
Qed.
Print Assumptions C47_within_3600_refuted.

(** C91. Removing a user does not end the sessions of the user, nor does a change of the password. *)
Definition removal_ends_sessions : Prop := forall b start lin lout red ops t rnd w m u w',
  real_hashes b -> Forall (sound_call b) (user_ops ops) -> ordered start (times ops ++ [t]) -> (forall pw, ~ knows b (user_ops ops) u pw) ->
  a_run b true (a_init start lin lout red) ops = Ok w -> a_handle b true t rnd w m <> Ok (true, Some u, w').
Theorem C91_removed_users_refuted : ~ removal_ends_sessions.
Proof.
  intros H. set (ops := in_session ++ [OUser (URemove (bs "bob"))]).
  refine (H plain 0 (bs "/login") (bs "/logout") [] ops 20 rnd1 (get_w (a_run plain true c0 ops)) m_sess (bs "bob")
    (match a_handle plain true 20 rnd1 (get_w (a_run plain true c0 ops)) m_sess with Ok (_, _, w) => w | _ => c0 end) plain_real _ _ _ _ _).
  - repeat constructor.
  - vm_compute. repeat split; discriminate.
  - intros pw K. apply knows_case in K; [vm_compute in K; discriminate|repeat constructor].
  - vm_compute. reflexivity.
  - vm_compute. reflexivity.
Qed.
Print Assumptions C91_removed_users_refuted.

(* ------------------------------------------------------------------ the server *)

(** C40. If a server with authentication calls a handler (or the one for resources not found) for a request, then the request,
    after the redirects, needs no authentication or has good credentials; else it answers for authentication only, or there were too
    many redirects. *)
Definition server_auth (b : build) (cookies : bool) (t : Z) (rnd : list Z) : aworld -> msg -> outcome (bool * aworld) :=
  fun w m => obind (a_handle b cookies t rnd w m) (fun x => Ok (fst (fst x), snd x)).
Definition may_pass (b : build) (cookies : bool) (start : Z) (lin lout red : list Z) (ops : list aop) (t : Z) (m : msg) : Prop :=
  ~ needs b ops m
  \/ (if cookies then redirect_page red ops m \/ exists u, session_good b (a_init start lin lout red) ops t m u
      else exists u, basic_good b (a_init start lin lout red) ops t m u).
Theorem C40_restricted b cookies start lin lout red ops t rnd w tops throws m c l m' w' :
  real_hashes b -> Forall (sound_call b) (user_ops ops) -> ordered start (times ops ++ [t]) ->
  a_run b cookies (a_init start lin lout red) ops = Ok w -> m_valid m = true -> cleaned (m_resource m) c ->
  handle_request (t_run tops) (Some (server_auth b cookies t rnd)) throws None w m = Ok (l, m', w') ->
  l = [ATooMany] \/
  exists n q, (n <= 10)%nat /\ leads tops n c q /\ (forall b, ~ redirected tops q b) /\ (m' = if n then m else set_m_resource q m) /\
    (l = [AAuth] \/
     may_pass b cookies start lin lout red ops t m'
     /\ exists o, best tops q o /\ l = match o with Some h => if throws h then [AHandler h; AServerError] else [AHandler h] | None => [ANotFound] end).
Proof.
  intros RH SC HO HR V CL HH.
  destruct (dispatch_request tops (Some (server_auth b cookies t rnd)) throws w m c V CL) as [(q & q' & _ & _ & E)|(n & q & m1 & LN & LE & NR & EM & o & BO & E)]; rewrite E in HH.
  - injection HH as <- _ _. left. auto.
  - right. exists n, q. unfold server_auth in HH. destruct (a_handle b cookies t rnd w m1) as [[[r u] w2]|] eqn:AH; [|discriminate]. cbn [obind fst snd] in HH. injection HH as <- <- <-.
    split; auto. split; auto. split; auto. split; auto. destruct r; [right|left; auto]. split; [|exists o; auto]. unfold may_pass. destruct cookies.
    + pose proof (C46_sessions b start lin lout red ops t rnd w m1 u w2 RH SC HO HR AH) as H. destruct u as [x|]; [destruct H; eauto|tauto].
    + pose proof (C43_known_users b start lin lout red ops t rnd w m1 u w2 RH SC HO HR AH) as H. destruct u as [x|]; [destruct H; eauto|tauto].
Qed.
Print Assumptions C40_restricted.
Definition tops1 : list top := [TAdd (bs "/") 1%nat; TAdd (bs "/private") 2%nat; TRedirect (bs "/home") (bs "/private/x")].
Definition served (cookies : bool) (ops : list aop) (t : Z) (m : msg) : list hact :=
  match a_run plain cookies (a_init 0 (bs "/login") (bs "/logout") []) ops with
  | Ok w => match handle_request (t_run tops1) (Some (server_auth plain cookies t [])) (fun _ => false) None w (set_m_valid true m) with Ok (l, _, _) => l | _ => [] end
  | _ => []
  end.
Example C40_case : served false setup 10 (with_auth "/home" []) = [AAuth] /\ served false setup 10 (with_auth "/home" (bs "Basic " ++ good_cred)) = [AHandler 2]
  /\ served false setup 10 (with_auth "/private/logo" []) = [AHandler 2] /\ served false setup 10 (with_auth "/public" []) = [AHandler 1]
  /\ served true in_session 10 (page "/home" [] []) = [AAuth] /\ served true in_session 10 (page "/home" [] [("pion_session_id"%string, sid)]) = [AHandler 2].
Proof. vm_compute. repeat split. Qed.

(* ------------------------------------------------------------------ users *)

(** C48. The user manager is a map from names to secrets, for every history of calls. (Missing: calls with a hash of the right
    length that is not hexadecimal, see below.) *)
Theorem C48_user_manager_partial b ops : real_hashes b -> Forall (sound_call b) ops ->
  exists f, calls b nobody ops f (u_results b [] ops)
    /\ forall n pw, exists v, get_user b (u_run b [] ops) n pw = Ok v /\ (v = true <-> exists s, f n = Some s /\ fits b s pw).
Proof. intros RH SC. destruct (user_manager b ops RH SC) as (f & A & _ & _ & B). exists f. auto. Qed.
Print Assumptions C48_user_manager_partial.
(** a hash function for examples *)
Definition toy : build := mkbuild true (fun x => firstn 32 (x ++ repeat 0 32)) (fun x => firstn 20 (x ++ repeat 0 20)).
Lemma toy_real : real_hashes toy.
Proof. intros x. cbn [b_sha256 b_sha1 toy]. rewrite !firstn_length, !app_length, !repeat_length. lia. Qed.
Definition hash_ab : list Z := bs "6162" ++ repeat 48 60.
Definition u_hist : list uop := [UAdd (bs "a") (bs "x"); UAdd (bs "a") (bs "y"); UAddHash (bs "b") hash_ab; UUpdate (bs "a") (bs "z"); URemove (bs "c"); UAddHash (bs "d") (bs "12")].
Lemma repeat_hex n : in_hex (repeat 48 (2 * n)) (repeat 0 n).
Proof.
  induction n as [|n IH]; [constructor|]. replace (2 * S n)%nat with (S (S (2 * n)))%nat by lia. cbn [repeat]. constructor; auto.
  exists 0, 0. split; [lia|]. split; [lia|]. split; [lia|]. split; left; reflexivity.
Qed.
Lemma hash_ab_hex : in_hex hash_ab (bs "ab" ++ repeat 0 30).
Proof.
  change hash_ab with (54 :: 49 :: 54 :: 50 :: repeat 48 (2 * 30)). change (bs "ab" ++ repeat 0 30) with (97 :: 98 :: repeat 0 30).
  constructor; [exists 6, 1; repeat (split; [lia|]); split; left; reflexivity|]. constructor; [exists 6, 2; repeat (split; [lia|]); split; left; reflexivity|]. apply repeat_hex.
Qed.
Example C48_case : Forall (sound_call toy) u_hist /\ u_results toy [] u_hist = [UTrue; UFalse; UTrue; UTrue; UFalse; UThrow]
  /\ get_user toy (u_run toy [] u_hist) (bs "a") (bs "z") = Ok true /\ get_user toy (u_run toy [] u_hist) (bs "b") (bs "ab") = Ok true
  /\ get_user toy (u_run toy [] u_hist) (bs "a") (bs "x") = Ok false.
Proof.
  split; [|vm_compute; auto]. repeat constructor. - intros _. exists (bs "ab" ++ repeat 0 30). apply hash_ab_hex. - intros [H|H]; discriminate.
Qed.
(** An update with a hash of the right length but with a pair such as -1 throws, and yet the old password is gone and the user is changed. *)
Definition throwing_update_changes_nothing : Prop := forall b ops n h pw, real_hashes b -> Forall (sound_call b) ops -> b_ssl b = true ->
  snd (u_step b (u_run b [] ops) (UUpdateHash n h)) = UThrow ->
  get_user b (fst (u_step b (u_run b [] ops) (UUpdateHash n h))) n pw = get_user b (u_run b [] ops) n pw.
Theorem C48_throwing_update_refuted : ~ throwing_update_changes_nothing.
Proof.
  intros H. specialize (H toy [UAdd (bs "a") (bs "x")] (bs "a") (bs "61-1" ++ repeat 48 60) (bs "x") toy_real ltac:(repeat constructor) eq_refl ltac:(vm_compute; reflexivity)).
  vm_compute in H. discriminate.
Qed.
Print Assumptions C48_throwing_update_refuted.
(** A text of 64 characters that is no hash at all is taken. *)
Definition only_hex_taken : Prop := forall b ops n h, real_hashes b -> b_ssl b = true -> snd (u_step b (u_run b [] ops) (UAddHash n h)) = UTrue -> exists l, in_hex h l.
Theorem C48_any_text_refuted : ~ only_hex_taken.
Proof.
  intros H. destruct (H toy [] (bs "a") (repeat 122 64) toy_real eq_refl ltac:(vm_compute; reflexivity)) as (l & HX).
  inversion HX as [|a b' v s l' (x & y & RX & RY & _ & A & _) _ E]. clear - A RX.
  assert (x = 0 \/ x = 1 \/ x = 2 \/ x = 3 \/ x = 4 \/ x = 5 \/ x = 6 \/ x = 7 \/ x = 8 \/ x = 9 \/ x = 10 \/ x = 11 \/ x = 12 \/ x = 13 \/ x = 14 \/ x = 15) as C by lia.
  repeat (destruct C as [->|C]; [vm_compute in A; destruct A; discriminate|]). subst x. vm_compute in A. destruct A; discriminate.
Qed.
Print Assumptions C48_any_text_refuted.

(* ------------------------------------------------------------------ any bytes *)

(** C90. Basic authentication gives a verdict for every request whose credentials have no byte over 127 that the decoder
    looks at. (The claim is for every request.) *)
Theorem C90_verdict_partial b start lin lout red ops t rnd w m :
  real_hashes b -> Forall (sound_call b) (user_ops ops) -> a_run b false (a_init start lin lout red) ops = Ok w ->
  (forall k, presents m k -> Forall is_byte k /\ zlen k < two32 /\ ~ b64_high_byte_reached k) ->
  exists r, a_handle b false t rnd w m = Ok r.
Proof.
  intros RH SC HR HP. cbn [a_handle]. unfold basic_handle. destruct (negb _); [eauto|]. set (w1 := expire BASIC_EXPIRATION t w).
  assert (w_users w1 = w_users w) as US by apply same_expire. pose proof (fun k H => HP k (cred_presents m k H)) as HC. unfold cred_of in HC.
  destruct (d_get (m_headers m) (bs "Authorization")) as [|c a]; [eauto|]. destruct (parse_authorization (c :: a)) as [k|]; [|eauto].
  destruct (sm_find (w_cache w1) k) as [[t0 x]|]; [eauto|]. destruct (HC k eq_refl) as (IB & LN & NH). pose proof (b64_decode_ub k IB LN) as UB. unfold parse_credentials.
  destruct (b64_decode k) as [[] s]; cbn [fst] in UB.
  - destruct (split_at (ch ":") s) as [[[|u0 u] p]|]; cbn [obind]; eauto. destruct (user_manager b (user_ops ops) RH SC) as (f & _ & _ & _ & G).
    destruct (G (u0 :: u) p) as (v & GV & _). rewrite US. destruct (rules_run _ _ _ _ _ _ _ _ HR) as [-> _]. rewrite GV. cbn [obind]. destruct v; eauto.
  - cbn [obind]. eauto.
  - exfalso. apply NH, UB. reflexivity.
Qed.
Print Assumptions C90_verdict_partial.
Definition always_a_verdict : Prop := forall b start lin lout red ops t rnd w m,
  real_hashes b -> Forall (sound_call b) (user_ops ops) -> a_run b false (a_init start lin lout red) ops = Ok w ->
  (forall k, presents m k -> Forall is_byte k /\ zlen k < two32) -> exists r, a_handle b false t rnd w m = Ok r.
Theorem C90_verdict_refuted : ~ always_a_verdict.
Proof.
  intros H. destruct (H plain 0 [] [] [] setup 10 [] (get_w (a_run plain false (a_init 0 [] [] []) setup)) (with_auth "/private/x" (bs "Basic " ++ [200])) plain_real) as (r & E).
  - repeat constructor.
  - vm_compute. reflexivity.
  - intros k [[I|[]] _]. apply (app_inv_head (bs "Basic ")) in I. subst k. split; [repeat constructor; lia|reflexivity].
  - vm_compute in E. discriminate.
Qed.
Print Assumptions C90_verdict_refuted.
Example C90_case : presents (with_auth "/private/x" (bs "Basic !!")) (bs "!!") /\ ~ b64_high_byte_reached (bs "!!")
  /\ answer setup 10 (with_auth "/private/x" (bs "Basic !!")) = Some (false, None).
Proof.
  split; [split; [left; reflexivity|discriminate]|]. split; [|vm_compute; reflexivity].
  intros U. apply b64_decode_ub in U; [vm_compute in U; discriminate|repeat constructor; vm_compute; auto; discriminate|reflexivity].
Qed.
Example C89_case : knows plain (user_ops setup) (bs "bob") (bs "pw") /\ presents_only m_bob (b64_encode (bs "bob" ++ ch ":" :: bs "pw")) /\ needs plain setup m_bob.
Proof. split; [apply knows_case; [repeat constructor|vm_compute; reflexivity]|]. split; [split; [split|]; vm_compute; auto; discriminate|needs_tac]. Qed.
