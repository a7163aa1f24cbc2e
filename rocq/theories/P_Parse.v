(** Properties of URI splitting, multipart forms, X-Forwarded-For and captures with gaps (C71-C74). Definitions used in
    the statements: UriModel.v, MultipartModel.v, HttpModel.v ([parse_missing_data]); UriSpec.v, MultipartSpec.v,
    MissingSpec.v, HttpSpec.v. *)
From Coq Require Import String ZArith List Permutation Lia.
From Verif Require Import Base AlgModel MultipartModel HttpModel HttpSpec UriModel UriSpec UriProofs MultipartSpec MultipartProofs MissingSpec HttpMissing HttpExamples.
Import ListNotations.

(** C71, the part that holds: scheme, host, port, path and query of a URI with a path and a port that fits are given
    back. Missing: ports above 65535 (next theorem) and URIs without a path (the one after). *)
Theorem C71_components_partial : forall u o, uri_ok u ->
  match ur_port u with Some p => dec_value p <= 65535 | None => True end -> ur_path u <> None ->
  parse_uri (wire_uri u) o = (true, {|
    u_proto := match ur_scheme u with Some s => s | None => [] end; u_host := ur_host u;
    u_port := match ur_port u with Some p => dec_value p | None => default_port (ur_scheme u) end;
    u_path := match ur_path u with Some (p, _) => bs "/" ++ p | None => bs "/" end;
    u_query := match ur_path u with Some (_, Some q) => q | _ => [] end |}).
Proof. exact uri_components'. Qed.
Print Assumptions C71_components_partial.
(** a port of 65536 up to 2^31-1 is accepted and replaced by another one; only larger ones are refused *)
Theorem C71_large_ports_refuted : forall u p o, uri_ok u -> ur_port u = Some p ->
  (65535 < dec_value p <= 2147483647 -> fst (parse_uri (wire_uri u) o) = true /\ u_port (snd (parse_uri (wire_uri u) o)) = dec_value p mod 65536)
  /\ (2147483647 < dec_value p -> fst (parse_uri (wire_uri u) o) = false).
Proof. exact uri_big_port. Qed.
Print Assumptions C71_large_ports_refuted.
(** without a path the query output keeps the value it had before the call *)
Theorem C71_stale_query_refuted : forall u o, uri_ok u ->
  match ur_port u with Some p => dec_value p <= 65535 | None => True end -> ur_path u = None ->
  fst (parse_uri (wire_uri u) o) = true /\ u_query (snd (parse_uri (wire_uri u) o)) = u_query o.
Proof. exact uri_stale. Qed.
Print Assumptions C71_stale_query_refuted.
(** What is accepted is made of the parts that are told: a host that is not empty, a port that is a number, and what follows. *)
Lemma split_parts c s : s = fst (split_at c s) ++ match snd (split_at c s) with Some t => t | None => [] end /\ ~ In c (fst (split_at c s)) /\ match snd (split_at c s) with Some t => t = c :: tl t | None => True end.
Proof.
  induction s as [|x s (A & B & C)]; [cbn; tauto|]. cbn [split_at]. destruct (Z.eqb_spec x c) as [->|N]; [cbn; tauto|]. cbn [fst snd app]. split; [f_equal; exact A|]. split; [|exact C].
  intros [E|I]; [congruence|exact (B I)].
Qed.
Lemma search_parts s : contains (bs "://") s = true -> s = firstn (search (bs "://") s) s ++ bs "://" ++ skipn (search (bs "://") s + 3) s.
Proof.
  intros C. destruct (search_cases (bs "://") s) as [E|[b E]].
  - exfalso. revert C E. induction s as [|c s IH]; [discriminate|]. cbn [contains search]. destruct (is_prefix (bs "://") (c :: s)) eqn:P; [discriminate|]. cbn [orb skipn]. exact IH.
  - rewrite <- (firstn_skipn (search (bs "://") s) s) at 1. f_equal. rewrite E at 1. f_equal. rewrite Nat.add_comm. 
    assert (X : forall n m (l : list Z), skipn n (skipn m l) = skipn (n + m) l).
    { intros n m l. revert n l. induction m as [|m IHm]; intros n l; [rewrite Nat.add_0_r; reflexivity|]. rewrite Nat.add_succ_r. destruct l; [rewrite !skipn_nil; reflexivity|]. cbn [skipn]. apply IHm. }
    rewrite <- X, E. reflexivity.
Qed.
Definition signed_number (p : list Z) : Prop := exists sign ds, p = sign ++ ds /\ In sign [[]; bs "+"; bs "-"] /\ ds <> [] /\ Forall is_dec ds.
Lemma cast_signed p v : lexical_cast_int p = Some v -> signed_number p.
Proof.
  assert (X : forall ds (b : bool) w, (match ds with [] => None | _ => if forallb FormModel.is_digit ds then (let v := Digits.undigits 10 0 (map (fun c => c - 48) ds) in let w := if b then - v else v in if (-2147483648 <=? w) && (w <=? 2147483647) then Some w else None) else None end)%bool = Some w -> ds <> [] /\ Forall is_dec ds).
  { intros ds b w H. destruct ds as [|c ds]; [discriminate|]. split; [discriminate|]. destruct (forallb FormModel.is_digit (c :: ds)) eqn:F; [|discriminate]. rewrite forallb_forall in F. apply Forall_forall. intros x I. specialize (F x I).
    unfold FormModel.is_digit in F. unfold is_dec. apply andb_prop in F. lia. }
  unfold lexical_cast_int. destruct p as [|c p]; [discriminate|]. destruct (Z.eqb_spec c (ch "-")) as [->|N1]; [|destruct (Z.eqb_spec c (ch "+")) as [->|N2]]; intros H.
  - apply (X p true) in H. exists (bs "-"), p. cbn. tauto.
  - apply (X p false) in H. exists (bs "+"), p. cbn. tauto.
  - apply (X (c :: p) false) in H. exists [], (c :: p). cbn. tauto.
Qed.
Theorem C71_accepted_partial : forall s o o', parse_uri s o = (true, o') -> exists scheme port tail,
  s = (if scheme : bool then u_proto o' ++ bs "://" else []) ++ u_host o' ++ match port with Some p => bs ":" ++ p | None => [] end ++
      match tail with None => [] | Some false => u_path o' | Some true => u_path o' ++ bs "?" ++ u_query o' end /\
  (scheme = false -> u_proto o' = [] /\ ~ exists a b, s = a ++ bs "://" ++ b) /\ u_host o' <> [] /\ no_chars (bs ":/") (u_host o') /\ match port with Some p => signed_number p | None => True end /\
  hd 0 (u_path o') = 47 /\ match tail with None => u_path o' = bs "/" | Some q => no_chars (bs "?") (u_path o') /\ (q = false -> u_query o' = []) end.
Proof.
  intros s o o' H. unfold parse_uri in H. set (rest := if contains (bs "://") s then skipn (search (bs "://") s + 3) s else s) in *. set (proto := if contains (bs "://") s then firstn (search (bs "://") s) s else []) in *.
  assert (S : s = (if contains (bs "://") s then proto ++ bs "://" else []) ++ rest).
  { unfold proto, rest. destruct (contains (bs "://") s) eqn:C; [|reflexivity]. rewrite <- app_assoc. apply search_parts. exact C. }
  change (ch "/") with 47 in H. change (ch ":") with 58 in H. change (ch "?") with 63 in H.
  destruct (split_parts 47 rest) as (R1 & R2 & R3). destruct (split_parts 58 (fst (split_at 47 rest))) as (T1 & T2 & T3). cbv zeta in H.
  assert (HN : no_chars (bs ":/") (fst (split_at 58 (fst (split_at 47 rest))))).
  { unfold no_chars. apply Forall_forall. intros x I [<-|[<-|[]]]; [exact (T2 I)|]. apply R2. rewrite T1. apply in_or_app. left. exact I. }
  destruct (fst (split_at 58 (fst (split_at 47 rest)))) as [|h0 h] eqn:Eh; [discriminate|].
  assert (PO : exists pn, (match snd (split_at 58 (fst (split_at 47 rest))) with Some p => signed_number (tl p) | None => True end) /\
     match snd (split_at 47 rest) with
      | Some p => o' = {| u_proto := proto; u_host := h0 :: h; u_port := pn; u_path := fst (split_at 63 p); u_query := match snd (split_at 63 p) with Some q => tl q | None => [] end |}
      | None => o' = {| u_proto := proto; u_host := h0 :: h; u_port := pn; u_path := bs "/"; u_query := u_query o |} end).
  { destruct (snd (split_at 58 (fst (split_at 47 rest)))) as [p|].
    - destruct (lexical_cast_int (tl p)) as [v|] eqn:C; [|discriminate]. exists (v mod 65536). split; [eapply cast_signed; eauto|]. clear - H. destruct (snd (split_at 47 rest)); injection H as <-; reflexivity.
    - eexists. split; [exact I|]. clear - H. destruct (snd (split_at 47 rest)); injection H as <-; reflexivity. }
  destruct PO as (pn & PO & O). clear H.
  exists (contains (bs "://") s), (match snd (split_at 58 (fst (split_at 47 rest))) with Some p => Some (tl p) | None => None end),
    (match snd (split_at 47 rest) with None => None | Some p => Some (match snd (split_at 63 p) with Some _ => true | None => false end) end).
  assert (TX : fst (split_at 47 rest) = (h0 :: h) ++ match (match snd (split_at 58 (fst (split_at 47 rest))) with Some p => Some (tl p) | None => None end) with Some p => bs ":" ++ p | None => [] end).
  { rewrite T1 at 1. f_equal. destruct (snd (split_at 58 (fst (split_at 47 rest)))) as [p|]; [exact T3|reflexivity]. }
  assert (NS : contains (bs "://") s = false -> proto = [] /\ ~ exists a b, s = a ++ bs "://" ++ b).
  { intros C. unfold proto. rewrite C. split; [reflexivity|]. intros X. apply contains_iff in X. congruence. }
  destruct (snd (split_at 47 rest)) as [p|].
  - destruct (split_parts 63 p) as (P1 & P2 & P3). subst o'. cbn [u_proto u_host u_path u_query]. split; [|split; [exact NS|split; [discriminate|split; [exact HN|split]]]].
    + rewrite S at 1. f_equal. etransitivity; [exact R1|]. rewrite TX at 1. rewrite <- app_assoc. f_equal. f_equal. rewrite P1 at 1. destruct (snd (split_at 63 p)) as [q|]; [rewrite P3 at 1; reflexivity|apply app_nil_r].
    + destruct (snd (split_at 58 (fst (split_at 47 rest)))); exact PO.
    + split; [|split].
      * rewrite R3. cbn [split_at Z.eqb]. reflexivity.
      * unfold no_chars. apply Forall_forall. intros x I [<-|[]]. exact (P2 I).
      * destruct (snd (split_at 63 p)); [discriminate|reflexivity].
  - subst o'. cbn [u_proto u_host u_path u_query]. split; [|split; [exact NS|split; [discriminate|split; [exact HN|split; [destruct (snd (split_at 58 (fst (split_at 47 rest)))); exact PO|split; reflexivity]]]]].
    rewrite S at 1. f_equal. etransitivity; [exact R1|]. rewrite TX at 1. rewrite <- app_assoc. reflexivity.
Qed.
Print Assumptions C71_accepted_partial.
(** A URI without a scheme is taken for another one if there is :// anywhere in it: the host told is not the host of the URI. *)
Theorem C71_embedded_refuted : ~ forall u o, ur_scheme u = None -> ur_host u <> [] -> no_chars (bs ":/") (ur_host u) -> ur_port u = None -> match ur_path u with Some (p, _) => no_chars (bs "?") p | None => True end ->
  fst (parse_uri (wire_uri u) o) = true -> u_host (snd (parse_uri (wire_uri u) o)) = ur_host u.
Proof.
  intros H. specialize (H {| ur_scheme := None; ur_host := bs "example.org"; ur_port := None; ur_path := Some (bs "go", Some (bs "to=http://other.net/")) |} (Build_uri_out [] [] 0 [] [])).
  cbn [ur_scheme ur_host ur_port ur_path] in H. assert (X : bs "other.net" = bs "example.org"); [|discriminate X]. apply H; try reflexivity; try discriminate; apply Forall_forall; vm_compute; intuition (subst; intuition discriminate).
Qed.
Print Assumptions C71_embedded_refuted.
Example C71_case :
  let u := {| ur_scheme := Some (bs "https"); ur_host := bs "example.org"; ur_port := Some (bs "8443"); ur_path := Some (bs "a/b", Some (bs "x=1?y")) |} in
  uri_ok u /\ wire_uri u = bs "https://example.org:8443/a/b?x=1?y"
  /\ u_port (snd (parse_uri (bs "http://h:65616/") (Build_uri_out [] [] 0 [] []))) = 80
  /\ u_query (snd (parse_uri (bs "http://h") (Build_uri_out [] [] 0 [] (bs "old")))) = bs "old".
Proof.
  split; [|vm_compute; auto]. unfold uri_ok, no_chars. cbn [ur_scheme ur_host ur_port ur_path].
  repeat match goal with |- _ /\ _ => split | |- Forall _ _ => repeat constructor; vm_compute; intuition discriminate end; vm_compute; discriminate.
Qed.

(** C72: every form, with file names, other part headers, a preamble and an epilogue, is read back; fields of another
    than a text type are turned into a data URL that holds the bytes. *)
Theorem C72_form_round_trip : forall ct0 B preamble fs epilogue, no_eol B -> Forall (field_ok B) fs ->
  first_at (bs "boundary=") ct0 (ct0 ++ bs "boundary=" ++ B) ->
  first_at (bs "--" ++ B) preamble (preamble ++ form_body B fs epilogue) ->
  exists out, parse_multipart (ct0 ++ bs "boundary=" ++ B) (preamble ++ form_body B fs epilogue) = MPOk true out
    /\ Forall2 (fun f p => fst p = fd_name f
         /\ (is_text f = true -> snd p = fd_value f)
         /\ (forall t, fd_type f = Some t -> is_text f = false -> Forall is_byte (fd_value f) ->
             exists e, snd p = bs "data:" ++ t ++ bs "; base64, " ++ e /\ (zlen e < two32 -> b64_decode e = (B64True, fd_value f)))) fs out.
Proof. exact multipart_round_trip. Qed.
Print Assumptions C72_form_round_trip.
(** C72, second half, is false of the code: a part whose boundary follows directly after the blank line makes the parser
    compute a negative length. *)
Theorem C72_boundary_after_headers_refuted : forall B name rest, no_eol B -> name <> [] -> no_eol name -> ~ In 34 name ->
  parse_multipart (bs "multipart/form-data; boundary=" ++ B)
    (bs "--" ++ B ++ CRLF ++ line (bs "Content-Disposition") (bs "form-data; name=" ++ [34] ++ name ++ [34]) ++ CRLF ++ bs "--" ++ B ++ rest) = MPBad.
Proof. exact multipart_bad. Qed.
Print Assumptions C72_boundary_after_headers_refuted.
(** ... and it is the only way: otherwise every content type and every body gives a result. *)
Theorem C72_always_inside_partial : forall ct body,
  (exists ok out, parse_multipart ct body = MPOk ok out)
  \/ (parse_multipart ct body = MPBad /\ exists B, occurs (bs "boundary=" ++ B) ct /\ occurs ([10; 13; 10] ++ bs "--" ++ B) body).
Proof. exact multipart_total. Qed.
Print Assumptions C72_always_inside_partial.
(** the value is looked up by the first name parameter text, so a file name before the name is taken for it *)
Theorem C72_file_name_first_refuted : forall B name file value rest, no_eol B -> file <> [] -> no_eol file -> ~ In 34 file -> no_eol name ->
  ~ occurs (bs "--" ++ B) value ->
  parse_multipart (bs "multipart/form-data; boundary=" ++ B)
    (bs "--" ++ B ++ CRLF ++ line (bs "Content-Disposition") (bs "form-data; filename=" ++ [34] ++ file ++ [34] ++ bs "; name=" ++ [34] ++ name ++ [34]) ++ CRLF
     ++ value ++ CRLF ++ bs "--" ++ B ++ bs "--" ++ rest) = MPOk true [(file, value)].
Proof. exact multipart_file_first. Qed.
Print Assumptions C72_file_name_first_refuted.
Example C72_case :
  let f1 := {| fd_name := bs "a"; fd_params := []; fd_type := None; fd_more := []; fd_value := bs "one" ++ CRLF ++ bs "--tw" |} in
  let f2 := {| fd_name := bs "up"; fd_params := bs "; filename=x"; fd_type := Some (bs "image/png"); fd_more := [(bs "X-Y", bs "z")]; fd_value := [0; 255; 13; 10] |} in
  Forall (field_ok (bs "two")) [f1; f2]
  /\ parse_multipart (bs "multipart/form-data; boundary=two") (form_body (bs "two") [f1; f2] CRLF)
     = MPOk true [(bs "a", bs "one" ++ CRLF ++ bs "--tw"); (bs "up", bs "data:image/png; base64, AP8NCg==")].
Proof.
  split; [|vm_compute; reflexivity].
  repeat apply Forall_cons; try apply Forall_nil; unfold field_ok, no_eol, text_ok, no_eol; cbn [fd_name fd_params fd_type fd_more fd_value fst snd];
  repeat match goal with
  | |- _ /\ _ => split
  | |- ~ occurs _ _ => intros Q; apply contains_iff in Q; vm_compute in Q; discriminate
  | |- Forall _ [] => apply Forall_nil
  | |- Forall _ (_ :: _) => apply Forall_cons; cbn [fst snd]
  | |- True => exact I
  | |- _ = _ => vm_compute; reflexivity
  | |- _ => vm_compute; intuition discriminate
  end.
Qed.

(** C73: the address given back is in the header and is not private. *)
Theorem C73_result_is_public : forall s t, parse_forwarded_for s = Some t ->
  (exists pre post, s = pre ++ t ++ post)
  /\ (exists a b c d, t = a ++ bs "." ++ b ++ bs "." ++ c ++ bs "." ++ d /\ Forall (fun g => Forall is_dec g /\ 1 <= zlen g <= 3) [a; b; c; d])
  /\ (forall i, ip_text t i -> ~ is_private i).
Proof. exact forwarded_sound. Qed.
Print Assumptions C73_result_is_public.
(** ... and it is the first public one of a list of addresses; with private ones only there is none. *)
Theorem C73_first_public : forall s l, ip_list s l ->
  (Forall is_private l -> parse_forwarded_for s = None)
  /\ forall l1 i l2, l = l1 ++ i :: l2 -> Forall is_private l1 -> ~ is_private i -> exists t, ip_text t i /\ parse_forwarded_for s = Some t.
Proof. exact forwarded_list. Qed.
Print Assumptions C73_first_public.
(** texts that are no addresses, or private ones with a leading zero, are given back as well *)
Theorem C73_other_texts_refuted :
  parse_forwarded_for (bs "999.999.999.999") = Some (bs "999.999.999.999") /\ parse_forwarded_for (bs "010.1.2.3") = Some (bs "010.1.2.3").
Proof. exact forwarded_odd. Qed.
Print Assumptions C73_other_texts_refuted.
Example C73_case : parse_forwarded_for (bs "10.0.0.1, 172.16.9.9,192.168.3.4, 198.51.100.7, 203.0.113.5") = Some (bs "198.51.100.7")
  /\ ip_list (bs "10.0.0.1, 8.8.8.8") [(10, 0, 0, 1); (8, 8, 8, 8)].
Proof.
  split; [vm_compute; reflexivity|].
  change (bs "10.0.0.1, 8.8.8.8") with (bs "10.0.0.1" ++ 44 :: 32 :: bs "8.8.8.8").
  apply ip_cons; [exists (bs "10"), (bs "0"), (bs "0"), (bs "1")| | |apply ip_skip; [| |apply ip_last; exists (bs "8"), (bs "8"), (bs "8"), (bs "8")]];
  unfold dec_text, is_dec; repeat match goal with |- _ /\ _ => split | |- Forall _ (bs _) => repeat constructor; vm_compute; discriminate end;
  try (vm_compute; intuition discriminate); try reflexivity; try lia; try (left; reflexivity); try (right; vm_compute; discriminate).
Qed.

(** C74: whatever parts of a body with Content-Length are missing, the bytes received are at their offsets, 'X' stands
    for the missing ones, and the status tells. [full_msg hd body miss after rest o]: [o] is success with this content. *)
Theorem C74_gaps_in_body : forall cf hd n, storing cf -> no_multipart hd -> 0 <= n < two64 - 1 -> n <= cf_max cf ->
  forall m v b0 l, head_ok cf hd -> m_headers m = [] -> m_missing m = false -> m_after m = false ->
  ~ bodiless m hd -> no_chunks hd ->
  values_of (bs "Content-Length") (hdrs_of hd) = [v] -> v <> [] -> Forall is_dec v -> dec_value v = n ->
  Forall event_ok l -> l <> [] -> zlen (b0 ++ expand l) = n ->
  full_msg hd (b0 ++ expand l) (existsb is_gap l) (resumes l) [] (feed_events cf (p_init cf) m (Bytes (wire_head hd ++ b0) :: l)).
Proof. exact gaps_in_body. Qed.
Print Assumptions C74_gaps_in_body.
(** inside a chunk, or in a body that ends with the connection, a gap is the same as that many dummy bytes *)
Theorem C74_gap_is_dummy_bytes : forall cf st m k rc e st' m', 0 <= cf_max cf -> reach any_msg true cf st m -> 0 < k < two64 ->
  p_phase st = PChunks \/ p_phase st = PContentNoLength ->
  cf_handler cf = true \/ zlen (m_cache m) + k <= cf_max cf ->
  parse_missing_data cf st m k = Ok (rc, e, st', m') -> rc <> TFalse ->
  exists r, parse cf st m (repeat 88 (Z.to_nat k)) = Ok (Some r) /\ r_rc r = rc /\ rc = TIndet /\ r_rest r = [] /\ r_st r = st'
    /\ set_m_after true (set_m_missing true (r_msg r)) = set_m_after true m'.
Proof. exact (gap_is_bytes any_msg). Qed.
Print Assumptions C74_gap_is_dummy_bytes.
(** not so for bodies longer than the maximum: the message is reported complete and its content was never written *)
Theorem C74_gap_beyond_maximum_refuted : forall cf hd m v n, storing cf -> cf_request cf = false -> head_ok cf hd -> m_headers m = [] -> m_missing m = false ->
  ~ bodiless m hd -> no_chunks hd ->
  values_of (bs "Content-Length") (hdrs_of hd) = [v] -> v <> [] -> Forall is_dec v -> dec_value v = n -> 0 < cf_max cf < n -> n < two64 ->
  exists r, feed_events cf (p_init cf) m [Bytes (wire_head hd); Gap n] = Ok (Some r) /\ r_rc r = TTrue /\ m_valid (r_msg r) = true
    /\ m_clen (r_msg r) = cf_max cf /\ content_of (r_msg r) = Bad BadMemory.
Proof. exact gap_beyond_maximum. Qed.
Print Assumptions C74_gap_beyond_maximum_refuted.
(** and with a payload handler the missing bytes are handed over but not counted as content read *)
Theorem C74_gap_not_counted_refuted : forall cf st m k rc e st' m', cf_handler cf = true -> p_phase st = PContent -> 0 < k <= p_remaining st ->
  parse_missing_data cf st m k = Ok (rc, e, st', m') -> p_content_read st' = p_content_read st /\ p_payload st' = p_payload st ++ repeat 88 (Z.to_nat k).
Proof. exact gap_not_counted. Qed.
Print Assumptions C74_gap_not_counted_refuted.
Example C74_case : exists r, feed_events (ex_cf true false) (p_init (ex_cf true false)) ex_msg [Bytes (wire_head ex_post ++ bs "he"); Gap 4; Bytes (bs "world")] = Ok (Some r)
  /\ r_rc r = TTrue /\ content_of (r_msg r) = Ok (bs "heXXXXworld") /\ m_status (r_msg r) = STATUS_PARTIAL.
Proof. eexists. split; [vm_compute; reflexivity|]. vm_compute. auto. Qed.
