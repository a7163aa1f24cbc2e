(** C166: the variables and cookies of a received message. *)
From Coq Require Import String ZArith List Bool Lia Permutation.
From Verif Require UriProofs.
From Verif Require Import Base AlgModel FormModel FormSpec FormProofs DictModel MultipartModel MultipartSpec MultipartProofs HttpModel HttpSpec HttpProofs HttpHead HttpBody HttpMore HttpExamples VarProofs P_Cookies.
Import ListNotations.

(** What follows a head: nothing, content of the length told, or chunks and perhaps more headers; with all headers of the message and its content. *)
Inductive carried (cf : pcfg) (m : msg) (hd : head) : list Z -> list hdr -> list Z -> Prop :=
  | CNone : cf_request cf = true -> no_chunks hd -> values_of (bs "Content-Length") (hdrs_of hd) = [] -> carried cf m hd [] (hdrs_of hd) []
  | CLength v body : ~ bodiless m hd -> no_chunks hd -> values_of (bs "Content-Length") (hdrs_of hd) = [v] -> v <> [] -> Forall is_dec v ->
      dec_value v = zlen body -> carried cf m hd body (hdrs_of hd) body
  | CChunks v l size ext tr : values_of (bs "Transfer-Encoding") (hdrs_of hd) = [v] -> says_chunked v -> Forall chunk_ok l -> last_ok size ext -> Forall hdr_ok tr ->
      carried cf m hd (wire_chunks l size ext tr) (tr ++ hdrs_of hd) (chunk_data l).
(** a new or cleared message *)
Definition empty_msg (m : msg) : Prop := m_headers m = [] /\ m_missing m = false /\ m_cache m = [] /\ m_queries m = [] /\ m_cookies m = [].
(** a message that is whole when [tail] follows its head *)
Definition arrives (cf : pcfg) (m : msg) (hd : head) (pieces : list (list Z)) (hs : list hdr) (body more : list Z) : Prop :=
  storing cf /\ head_ok cf hd /\ empty_msg m /\ zlen body <= cf_max cf /\ zlen body < two64 - 1 /\
  exists tail, carried cf m hd tail hs body /\ cut pieces (wire_head hd ++ tail ++ more).
Definition query_of (hd : head) : list Z := match hd with HReq r _ => match rl_query r with Some q => q | None => [] end | HResp _ _ => [] end.

Lemma arrives_got cf m hd pieces hs body more : arrives cf m hd pieces hs body more -> forms_end cf m hd hs body ->
  got cf m hd hs body (feed cf (p_init cf) m pieces) more.
Proof.
  intros (ST & HD & (HM & HMS & HC & _) & L1 & L2 & tail & C & CT) FE. apply (got_feed cf m hd pieces (wire_head hd ++ tail ++ more)); auto; [destruct ST as (? & _); lia|eapply wire_head_nonempty; eauto|].
  destruct C.
  - apply got_no_body; auto.
  - eapply got_length; eauto.
  - eapply got_chunks; eauto.
Qed.
Lemma no_forms_end cf m hd hs body : (cf_request cf = true -> forall v, In v (values_of (bs "Content-Type") hs) -> ~ exists t, v = bs "multipart/form-data" ++ t) -> forms_end cf m hd hs body.
Proof.
  intros N m1 (C & P & _). unfold finish_forms. destruct (cf_request cf); [|eexists; reflexivity]. cbn [andb]. destruct (negb (cf_handler cf) && negb (cf_headers_only cf)); [|eexists; reflexivity].
  destruct (is_prefix CONTENT_TYPE_URLENCODED _); [rewrite C; cbn [obind]; eexists; reflexivity|].
  destruct (is_prefix CONTENT_TYPE_MULTIPART _) eqn:EM; [|eexists; reflexivity].
  exfalso. apply is_prefix_spec in EM as [t EM]. unfold d_get in EM. pose proof (d_find_perm HEADER_CONTENT_TYPE _ _ P) as DP.
  destruct (d_find (m_headers m1) HEADER_CONTENT_TYPE) as [v|]; [|discriminate]. apply (N eq_refl v); auto. exists t. exact EM.
Qed.

(* ------------------------------------------------------------------ variables *)

Lemma query_bytes cf hd : head_ok cf hd -> Forall is_byte (query_of hd).
Proof.
  destruct hd as [r l|r l]; cbn [query_of]; [|constructor]. intros (_ & (_ & _ & _ & _ & _ & Q & _) & _). destruct (rl_query r) as [q|]; [|constructor].
  eapply Forall_impl; [|apply Q]. intros c (A & _). unfold is_byte. lia.
Qed.
Lemma head_queries cf m r l : head_ok cf (HReq r l) -> m_queries m = [] -> form_ok (query_of (HReq r l)) = true ->
  Permutation (form_pairs (query_of (HReq r l))) (m_queries (head_m0 cf m (HReq r l))).
Proof.
  intros HD HQ F. pose proof (query_bytes _ _ HD) as B. destruct (parse_form_spec _ B) as [_ PS]. specialize (PS F). destruct HD as (RQ & _ & _).
  assert (m_queries (head_m0 cf m (HReq r l)) = match query_of (HReq r l) with [] => m_queries m | q => d_insert_all (cf_pos cf) (m_queries m) (snd (parse_url_encoded q)) end) as ->.
  { unfold head_m0, update_message. rewrite RQ. cbn [head_h h_query query_of]. destruct (rl_query r) as [[|c q]|]; reflexivity. }
  destruct (query_of (HReq r l)) as [|c q]; [rewrite HQ; reflexivity|]. rewrite PS, HQ. rewrite <- (app_nil_r (form_pairs _)) at 1. apply d_insert_all_perm.
Qed.

(** C166: a form in the content adds its variables to those of the query string. *)
Theorem C166_form_partial cf m r l pieces hs body more ct t : arrives cf m (HReq r l) pieces hs body more ->
  values_of (bs "Content-Type") hs = [ct] -> ct = bs "application/x-www-form-urlencoded" ++ t ->
  Forall is_byte body -> form_ok (query_of (HReq r l)) = true -> form_ok body = true ->
  exists res, feed cf (p_init cf) m pieces = Ok (Some res) /\ r_rc res = TTrue /\ r_rest res = more
    /\ Permutation (form_pairs (query_of (HReq r l)) ++ form_pairs body) (m_queries (r_msg res)).
Proof.
  intros A CT E B FQ FB. destruct (arrives_got _ _ _ _ _ _ _ A) as (res & m1 & F & RC & (CO & P & Q & K) & FF & RR).
  { apply no_forms_end. intros _ v I [t' E']. rewrite CT in I. destruct I as [I|[]]. subst. discriminate. }
  exists res. split; [auto|]. split; [auto|]. split; [auto|].
  destruct A as ((_ & HO & HH) & HD & (_ & _ & _ & HQ & _) & _). pose proof (head_queries cf m r l HD HQ FQ) as PQ. destruct (parse_form_spec _ B) as [_ PS]. specialize (PS FB).
  destruct HD as (RQ & _ & _). unfold finish_forms in FF. rewrite RQ, HH, HO in FF. cbn [andb negb] in FF.
  unfold d_get in FF. rewrite (d_find_one HEADER_CONTENT_TYPE _ _ ct P CT) in FF.
  replace (is_prefix CONTENT_TYPE_URLENCODED ct) with true in FF by (symmetry; apply is_prefix_spec; exists t; exact E).
  rewrite CO in FF. cbn [obind] in FF. injection FF as <-. rewrite PS. cbn [m_queries set_m_queries].
  eapply Permutation_trans; [|apply d_insert_all_perm]. rewrite Q. eapply Permutation_trans; [apply Permutation_app_comm|]. apply Permutation_app_head. exact PQ.
Qed.
Print Assumptions C166_form_partial.

(** C166: content of another type adds none. *)
Theorem C166_other_partial cf m r l pieces hs body more : arrives cf m (HReq r l) pieces hs body more ->
  (forall v, In v (values_of (bs "Content-Type") hs) -> ~ exists t, v = bs "application/x-www-form-urlencoded" ++ t \/ v = bs "multipart/form-data" ++ t) ->
  form_ok (query_of (HReq r l)) = true ->
  exists res, feed cf (p_init cf) m pieces = Ok (Some res) /\ r_rc res = TTrue /\ r_rest res = more
    /\ Permutation (form_pairs (query_of (HReq r l))) (m_queries (r_msg res)).
Proof.
  intros A CT FQ. destruct (arrives_got _ _ _ _ _ _ _ A) as (res & m1 & F & RC & (CO & P & Q & K) & FF & RR).
  { apply no_forms_end. intros _ v I [t' E']. apply (CT v I). eauto. }
  exists res. split; [auto|]. split; [auto|]. split; [auto|].
  destruct A as ((_ & HO & HH) & HD & (_ & _ & _ & HQ & _) & _). pose proof (head_queries cf m r l HD HQ FQ) as PQ. rewrite <- Q in PQ.
  assert (r_msg res = m1) as ->; [|exact PQ].
  destruct HD as (RQ & _ & _). unfold finish_forms in FF. rewrite RQ, HH, HO in FF. cbn [andb negb] in FF.
  assert (In (d_get (m_headers m1) HEADER_CONTENT_TYPE) (values_of (bs "Content-Type") hs) \/ d_get (m_headers m1) HEADER_CONTENT_TYPE = []) as D.
  { unfold d_get. pose proof (d_find_perm HEADER_CONTENT_TYPE _ _ P) as DP. destruct (d_find (m_headers m1) HEADER_CONTENT_TYPE); auto. }
  destruct (is_prefix CONTENT_TYPE_URLENCODED _) eqn:E1 in FF.
  { exfalso. destruct D as [I|I]; [|rewrite I in E1; discriminate]. apply is_prefix_spec in E1 as [t E1]. apply (CT _ I). exists t. left. exact E1. }
  destruct (is_prefix CONTENT_TYPE_MULTIPART _) eqn:E2 in FF.
  { exfalso. destruct D as [I|I]; [|rewrite I in E2; discriminate]. apply is_prefix_spec in E2 as [t E2]. apply (CT _ I). exists t. right. exact E2. }
  injection FF as <-. reflexivity.
Qed.
Print Assumptions C166_other_partial.

(** C166: a multipart form adds its fields, text as it is. *)
Theorem C166_multipart_partial cf m r l pieces hs more t B preamble fs epilogue : let ct0 := bs "multipart/form-data" ++ t in let body := preamble ++ form_body B fs epilogue in
  arrives cf m (HReq r l) pieces hs body more -> values_of (bs "Content-Type") hs = [ct0 ++ bs "boundary=" ++ B] ->
  no_eol B -> Forall (MultipartSpec.field_ok B) fs -> first_at (bs "boundary=") ct0 (ct0 ++ bs "boundary=" ++ B) -> first_at (bs "--" ++ B) preamble body ->
  Forall (fun f => is_text f = true) fs -> form_ok (query_of (HReq r l)) = true ->
  exists res, feed cf (p_init cf) m pieces = Ok (Some res) /\ r_rc res = TTrue /\ r_rest res = more
    /\ Permutation (form_pairs (query_of (HReq r l)) ++ map (fun f => (fd_name f, fd_value f)) fs) (m_queries (r_msg res)).
Proof.
  intros ct0 body A CT NB FO FA1 FA2 TX FQ. destruct (multipart_round_trip ct0 B preamble fs epilogue NB FO FA1 FA2) as (out & MP & F2). fold body in MP.
  assert (out = map (fun f => (fd_name f, fd_value f)) fs) as ->.
  { clear - TX F2. induction F2 as [|f [n v] fs out (A1 & A2 & _) _ IH]; [reflexivity|]. inversion TX; subst. cbn [fst snd map] in *. rewrite IH, <- A1, <- A2; auto. }
  clear F2. generalize dependent body. intros body A FA2 MP.
  assert (forall m1, ready cf m (HReq r l) hs body m1 -> finish_forms cf m1 = Ok (set_m_queries (d_insert_all (cf_pos cf) (m_queries m1) (map (fun f => (fd_name f, fd_value f)) fs)) m1)) as FF.
  { intros m1 (CO & P & _). destruct A as ((_ & HO & HH) & (RQ & _) & _). unfold finish_forms. rewrite RQ, HH, HO. cbn [andb negb].
    unfold d_get. rewrite (d_find_one HEADER_CONTENT_TYPE _ _ _ P CT). change (is_prefix CONTENT_TYPE_URLENCODED (ct0 ++ bs "boundary=" ++ B)) with false. cbv iota.
    replace (is_prefix CONTENT_TYPE_MULTIPART (ct0 ++ bs "boundary=" ++ B)) with true by (symmetry; apply is_prefix_spec; unfold ct0; rewrite <- app_assoc; eexists; reflexivity).
    rewrite CO. cbn [obind]. rewrite MP. reflexivity. }
  destruct (arrives_got _ _ _ _ _ _ _ A) as (res & m1 & F & RC & RD & FF1 & RR); [intros m1 RD; eauto|].
  exists res. split; [auto|]. split; [auto|]. split; [auto|]. rewrite (FF m1 RD) in FF1. injection FF1 as <-. cbn [m_queries set_m_queries].
  destruct A as (_ & HD & (_ & _ & _ & HQ & _) & _). pose proof (head_queries cf m r l HD HQ FQ) as PQ. destruct RD as (_ & _ & Q & _).
  eapply Permutation_trans; [|apply d_insert_all_perm]. rewrite Q. eapply Permutation_trans; [apply Permutation_app_comm|]. apply Permutation_app_head. exact PQ.
Qed.
Print Assumptions C166_multipart_partial.

(* ------------------------------------------------------------------ cookies *)

(** a Cookie or Set-Cookie header: a first cookie and more, each with the sign before it *)
Definition cookie_header := (item * list (Z * item))%type.
Definition header_text (h : cookie_header) : list Z := item_text (fst h) ++ more_text (snd h).
Definition header_ok (h : cookie_header) : Prop := item_ok (fst h) /\ Forall (fun p => separator (fst p) = true /\ item_ok (snd p)) (snd h).
Definition header_told (sc : bool) (h : cookie_header) : list (list Z * list Z) := told sc (fst h) ++ concat (map (fun p => told sc (snd p)) (snd h)).

Lemma add_cookies_perm cf sc hs : forall d, Permutation (flat_map (fun p => snd (parse_cookie_header sc (snd p))) hs ++ d) (add_cookies cf sc hs d).
Proof.
  unfold add_cookies. induction hs as [|p hs IH]; intros d; [reflexivity|]. cbn [flat_map fold_left]. eapply Permutation_trans; [|apply IH].
  rewrite <- app_assoc. eapply Permutation_trans; [apply Permutation_app_swap_app|]. apply Permutation_app_head. apply d_insert_all_perm.
Qed.
Lemma read_headers sc ll : Forall header_ok ll -> flat_map (fun v => snd (parse_cookie_header sc v)) (map header_text ll) = flat_map (header_told sc) ll.
Proof.
  induction 1 as [|h ll (O1 & O2) _ IH]; [reflexivity|]. cbn [map flat_map]. rewrite IH. f_equal. unfold header_text. rewrite (C13_any_form sc _ _ O1 O2). reflexivity.
Qed.
Lemma flat_map_snd {A B C} (f : B -> list C) (l : list (A * B)) : flat_map (fun p => f (snd p)) l = flat_map f (map snd l).
Proof. induction l as [|p l IH]; [reflexivity|]. cbn [flat_map map]. rewrite IH. reflexivity. Qed.
Lemma head_cookies cf m hd ll : head_ok cf hd -> m_headers m = [] -> m_cookies m = [] -> Forall header_ok ll ->
  values_of (match hd with HReq _ _ => bs "Cookie" | HResp _ _ => bs "Set-Cookie" end) (hdrs_of hd) = map header_text ll ->
  Permutation (flat_map (header_told (match hd with HReq _ _ => false | HResp _ _ => true end)) ll) (m_cookies (head_m0 cf m hd)).
Proof.
  intros HD HM HK HO V. destruct (head_m0_facts cf m hd HD HM) as (P & _).
  set (sc := match hd with HReq _ _ => false | HResp _ _ => true end). set (name := match hd with HReq _ _ => bs "Cookie" | HResp _ _ => bs "Set-Cookie" end) in *.
  assert (m_cookies (head_m0 cf m hd) = add_cookies cf sc (d_range (m_headers (head_m0 cf m hd)) name) []) as E.
  { unfold head_m0, update_message. destruct hd as [r l|r l]; destruct HD as (RQ & _); rewrite RQ; [|cbn; rewrite HK; reflexivity].
    cbn [head_h h_query]. destruct (match rl_query r with Some q => q | None => [] end); cbn; rewrite HK; reflexivity. }
  rewrite E. eapply Permutation_trans; [|apply add_cookies_perm]. rewrite app_nil_r. rewrite (flat_map_snd (fun v => snd (parse_cookie_header sc v))). rewrite <- read_headers by auto. apply Permutation_flat_map.
  rewrite <- V. unfold values_of, d_range. apply Permutation_map.
  rewrite (filter_ext (d_match name) (fun p => same_name (fst p) name)) by (intros; apply same_name_match). apply filter_perm. exact P.
Qed.

(** C166: the cookies of a request are those of its Cookie headers, of a response those of its Set-Cookie headers, each as C13 has it. *)
Theorem C166_cookies_partial cf m hd pieces hs body more ll : arrives cf m hd pieces hs body more ->
  (cf_request cf = true -> forall v, In v (values_of (bs "Content-Type") hs) -> ~ exists t, v = bs "multipart/form-data" ++ t) -> Forall header_ok ll ->
  values_of (match hd with HReq _ _ => bs "Cookie" | HResp _ _ => bs "Set-Cookie" end) (hdrs_of hd) = map header_text ll ->
  exists res, feed cf (p_init cf) m pieces = Ok (Some res) /\ r_rc res = TTrue /\ r_rest res = more
    /\ Permutation (flat_map (header_told (match hd with HReq _ _ => false | HResp _ _ => true end)) ll) (m_cookies (r_msg res)).
Proof.
  intros A NM HO V. destruct (arrives_got _ _ _ _ _ _ _ A) as (res & m1 & F & RC & (CO & P & Q & K) & FF & RR); [apply no_forms_end; auto|].
  exists res. split; [auto|]. split; [auto|]. split; [auto|].
  destruct A as (_ & HD & (HM & _ & _ & _ & HK) & _). pose proof (head_cookies cf m hd ll HD HM HK HO V) as PK. rewrite <- K in PK.
  assert (m_cookies (r_msg res) = m_cookies m1) as ->; [|exact PK].
  unfold finish_forms in FF. destruct (_ && _) in FF; [|injection FF as <-; reflexivity].
  destruct (is_prefix _ _) in FF; [rewrite CO in FF; cbn [obind] in FF; injection FF as <-; reflexivity|].
  destruct (is_prefix _ _) in FF; [|injection FF as <-; reflexivity]. rewrite CO in FF. cbn [obind] in FF.
  destruct (parse_multipart _ _) in FF; [|discriminate FF..]. injection FF as <-. reflexivity.
Qed.
Print Assumptions C166_cookies_partial.

(* ------------------------------------------------------------------ a case, and what is violated *)

Definition vars_type : string := "application/x-www-form-urlencoded; charset=UTF-8".
Definition upper_type : string := "Application/x-www-form-urlencoded".
Definition longer_type : string := "application/x-www-form-urlencoded2".
Definition vars_head (type cl : string) : head := HReq {| rl_method := bs "POST"; rl_resource := bs "/p"; rl_query := Some (bs "x=1&y=%41"); rl_version := v11 |}
  [(bs "Content-Type", bs type); (bs "Content-Length", bs cl); (bs "cookie", bs "$Version=1; id=7"); (bs "Cookie", bs "path=/a")].
Lemma vars_arrive type cl body : (forall h, head_ok (ex_cf true h) (vars_head type cl)) -> bs cl <> [] -> Forall is_dec (bs cl) -> dec_value (bs cl) = zlen body -> zlen body <= 1048576 ->
  arrives (ex_cf true false) ex_msg (vars_head type cl) [wire_head (vars_head type cl) ++ body ++ bs "GET"] (hdrs_of (vars_head type cl)) body (bs "GET").
Proof.
  intros HO N D V L. split; [apply ex_storing|]. split; [apply HO|]. split; [repeat split|]. split; [exact L|]. split; [unfold two64; lia|]. exists body. split.
  - apply (CLength _ _ _ (bs cl)); [intros []|apply no_te; reflexivity|reflexivity|auto..].
  - split; [constructor; [eapply wire_head_nonempty; apply (HO false)|constructor]|]. cbn [concat]. apply app_nil_r.
Qed.
(** a form with a query string, and two Cookie headers, of which one begins with a name that is for the protocol and the other has one that is an attribute in Set-Cookie *)
Lemma vars_ok h : head_ok (ex_cf true h) (vars_head vars_type "7").
Proof. unfold head_ok, vars_head, vars_type, upper_type, longer_type. http_ok. Qed.
Definition vars_cookies : list cookie_header :=
  [(mkitem 0 (bs "$Version") (Plain 0 (bs "1")), [(59, mkitem 1 (bs "id") (Plain 0 (bs "7")))]); (mkitem 0 (bs "path") (Plain 0 (bs "/a")), [])].
Ltac item_tac := unfold item_ok, cookie_value_ok; cbn [i_name i_value]; (split; [repeat constructor; vm_compute; discriminate|]); (split; [repeat constructor|]); (split; [vm_compute; discriminate|]);
    (split; [repeat constructor; vm_compute; discriminate|]); (split; [repeat constructor|]); (split; [vm_compute; discriminate|]); repeat split; vm_compute; discriminate.
Example C166_case : arrives (ex_cf true false) ex_msg (vars_head vars_type "7") [wire_head (vars_head vars_type "7") ++ bs "a=1&x=2" ++ bs "GET"] (hdrs_of (vars_head vars_type "7")) (bs "a=1&x=2") (bs "GET")
  /\ (exists t, values_of (bs "Content-Type") (hdrs_of (vars_head vars_type "7")) = [bs "application/x-www-form-urlencoded" ++ t])
  /\ form_pairs (query_of (vars_head vars_type "7")) ++ form_pairs (bs "a=1&x=2") = [(bs "x", bs "1"); (bs "y", bs "A"); (bs "a", bs "1"); (bs "x", bs "2")]
  /\ form_ok (query_of (vars_head vars_type "7")) = true /\ form_ok (bs "a=1&x=2") = true
  /\ Forall header_ok vars_cookies /\ values_of (bs "Cookie") (hdrs_of (vars_head vars_type "7")) = map header_text vars_cookies
  /\ flat_map (header_told false) vars_cookies = [(bs "id", bs "7"); (bs "path", bs "/a")] /\ flat_map (header_told true) vars_cookies = [(bs "id", bs "7")].
Proof.
  split; [apply vars_arrive; [exact vars_ok|discriminate|repeat constructor; vm_compute; discriminate|reflexivity|vm_compute; discriminate]|].
  split; [exists (bs "; charset=UTF-8"); reflexivity|]. split; [reflexivity|]. split; [reflexivity|]. split; [reflexivity|].
  split; [|split; [reflexivity|split; reflexivity]].
  apply Forall_cons; [|apply Forall_cons; [|apply Forall_nil]]; (split; cbn [fst snd]; [item_tac|]); [|apply Forall_nil].
  apply Forall_cons; [|apply Forall_nil]. split; cbn [fst snd]; [reflexivity|item_tac].
Qed.

(** C166 violated: media types are the same whatever the case of their letters, but a form of a type written in other letters is not read. *)
Lemma upper_ok h : head_ok (ex_cf true h) (vars_head upper_type "7").
Proof. unfold head_ok, vars_head, vars_type, upper_type, longer_type. http_ok. Qed.
Theorem C166_type_case_refuted : ~ forall cf m r l pieces hs body more ct, arrives cf m (HReq r l) pieces hs body more -> values_of (bs "Content-Type") hs = [ct] ->
  same_name ct (bs "application/x-www-form-urlencoded") = true -> Forall is_byte body -> form_ok (query_of (HReq r l)) = true -> form_ok body = true ->
  exists res, feed cf (p_init cf) m pieces = Ok (Some res) /\ Permutation (form_pairs (query_of (HReq r l)) ++ form_pairs body) (m_queries (r_msg res)).
Proof.
  intros C. assert (arrives (ex_cf true false) ex_msg (vars_head upper_type "7") [wire_head (vars_head upper_type "7") ++ bs "a=1&x=2" ++ bs "GET"] (hdrs_of (vars_head upper_type "7")) (bs "a=1&x=2") (bs "GET")) as A.
  { apply vars_arrive; [exact upper_ok|discriminate|repeat constructor; vm_compute; discriminate|reflexivity|vm_compute; discriminate]. }
  pose proof A as A2. unfold vars_head in A. apply C with (ct := bs upper_type) in A; [|reflexivity|reflexivity|repeat constructor; vm_compute; discriminate|reflexivity|reflexivity].
  destruct A as (res & F & P). apply Permutation_length in P.
  destruct (C166_other_partial _ _ _ _ _ _ _ _ A2) as (res' & F' & _ & _ & P'); [|reflexivity|].
  { intros v I. vm_compute in I. destruct I as [<-|[]]. intros (t & [E|E]); vm_compute in E; discriminate E. }
  unfold vars_head in F'. rewrite F in F'. injection F' as ->. apply Permutation_length in P'. rewrite <- P' in P. vm_compute in P. discriminate P.
Qed.
Print Assumptions C166_type_case_refuted.

(** C166 violated: a type that only begins like that of forms is taken for it. *)
Lemma longer_ok h : head_ok (ex_cf true h) (vars_head longer_type "7").
Proof. unfold head_ok, vars_head, vars_type, upper_type, longer_type. http_ok. Qed.
Theorem C166_type_name_refuted : ~ forall cf m r l pieces hs body more ct, arrives cf m (HReq r l) pieces hs body more -> values_of (bs "Content-Type") hs = [ct] ->
  Forall (fun c => c <> 59) ct -> ct <> bs "application/x-www-form-urlencoded" -> ct <> bs "multipart/form-data" -> form_ok (query_of (HReq r l)) = true ->
  exists res, feed cf (p_init cf) m pieces = Ok (Some res) /\ Permutation (form_pairs (query_of (HReq r l))) (m_queries (r_msg res)).
Proof.
  intros C. assert (arrives (ex_cf true false) ex_msg (vars_head longer_type "7") [wire_head (vars_head longer_type "7") ++ bs "a=1&x=2" ++ bs "GET"] (hdrs_of (vars_head longer_type "7")) (bs "a=1&x=2") (bs "GET")) as A.
  { apply vars_arrive; [exact longer_ok|discriminate|repeat constructor; vm_compute; discriminate|reflexivity|vm_compute; discriminate]. }
  pose proof A as A2. unfold vars_head in A. apply C with (ct := bs longer_type) in A; [|reflexivity|repeat constructor; vm_compute; discriminate|discriminate|discriminate|reflexivity].
  destruct A as (res & F & P). apply Permutation_length in P.
  destruct (C166_form_partial _ _ _ _ _ _ _ _ (bs longer_type) (bs "2") A2) as (res' & F' & _ & _ & P'); [reflexivity|reflexivity|repeat constructor; vm_compute; discriminate|reflexivity|reflexivity|].
  unfold vars_head in F'. rewrite F in F'. injection F' as ->. apply Permutation_length in P'. rewrite <- P' in P. vm_compute in P. discriminate P.
Qed.
Print Assumptions C166_type_name_refuted.

(** C166 violated: a form that cannot be read is not reported; the request is valid and has the variables up to the fault. *)
Definition broken_form : list Z := bs "a=1&b" ++ [0] ++ bs "2".
Theorem C166_silent_refuted : ~ (forall cf m r l pieces hs body more ct t res, arrives cf m (HReq r l) pieces hs body more ->
  values_of (bs "Content-Type") hs = [ct] -> ct = bs "application/x-www-form-urlencoded" ++ t -> Forall is_byte body -> form_ok body = false ->
  feed cf (p_init cf) m pieces = Ok (Some res) -> r_rc res <> TTrue \/ m_valid (r_msg res) = false \/ r_err res <> None).
Proof.
  intros C. assert (arrives (ex_cf true false) ex_msg (vars_head vars_type "7") [wire_head (vars_head vars_type "7") ++ broken_form ++ bs "GET"] (hdrs_of (vars_head vars_type "7")) broken_form (bs "GET")) as A.
  { apply vars_arrive; [exact vars_ok|discriminate|repeat constructor; vm_compute; discriminate|reflexivity|vm_compute; discriminate]. }
  assert (exists res, feed (ex_cf true false) (p_init (ex_cf true false)) ex_msg [wire_head (vars_head vars_type "7") ++ broken_form ++ bs "GET"] = Ok (Some res) /\ r_rc res = TTrue /\ m_valid (r_msg res) = true /\ r_err res = None) as (res & F & R1 & R2 & R3).
  { eexists. split; [vm_compute; reflexivity|]. repeat split. }
  unfold vars_head in A. destruct (C _ _ _ _ _ _ _ _ (bs vars_type) (bs "; charset=UTF-8") res A) as [X|[X|X]]; try congruence; try reflexivity; [repeat constructor; vm_compute; discriminate|exact F].
Qed.
Print Assumptions C166_silent_refuted.

(** a request with a form of one field, with a line break and the beginning of a boundary in its value *)
Definition part_type : string := "multipart/form-data; boundary=two".
Lemma part_ok h : head_ok (ex_cf true h) (vars_head part_type "71").
Proof. unfold head_ok, vars_head, part_type. http_ok. Qed.
Example C166_multipart_case :
  let f := {| fd_name := bs "a"; fd_params := []; fd_type := None; fd_more := []; fd_value := bs "one" ++ CRLF ++ bs "--tw" |} in let body := [] ++ form_body (bs "two") [f] CRLF in
  arrives (ex_cf true false) ex_msg (vars_head part_type "71") [wire_head (vars_head part_type "71") ++ body ++ bs "GET"] (hdrs_of (vars_head part_type "71")) body (bs "GET")
  /\ values_of (bs "Content-Type") (hdrs_of (vars_head part_type "71")) = [(bs "multipart/form-data" ++ bs "; ") ++ bs "boundary=" ++ bs "two"]
  /\ Forall (MultipartSpec.field_ok (bs "two")) [f] /\ is_text f = true
  /\ match feed (ex_cf true false) (p_init (ex_cf true false)) ex_msg [wire_head (vars_head part_type "71") ++ body ++ bs "GET"] with
     | Ok (Some res) => In (bs "a", bs "one" ++ CRLF ++ bs "--tw") (m_queries (r_msg res)) /\ r_rest res = bs "GET" | _ => False end.
Proof.
  cbv zeta. split; [apply vars_arrive; [exact part_ok|discriminate|repeat constructor; vm_compute; discriminate|reflexivity|vm_compute; discriminate]|]. split; [reflexivity|]. split; [|split; [reflexivity|vm_compute; auto 10]].
  apply Forall_cons; [|apply Forall_nil]. unfold MultipartSpec.field_ok, no_eol, MultipartSpec.text_ok, no_eol; cbn [fd_name fd_params fd_type fd_more fd_value fst snd];
  repeat match goal with
  | |- _ /\ _ => split
  | |- ~ occurs _ _ => intros Q; apply UriProofs.contains_iff in Q; vm_compute in Q; discriminate
  | |- Forall _ [] => apply Forall_nil
  | |- Forall _ (_ :: _) => apply Forall_cons; cbn [fst snd]
  | |- True => exact I
  | |- _ = _ => vm_compute; reflexivity
  | |- _ => vm_compute; intuition discriminate
  end.
Qed.
