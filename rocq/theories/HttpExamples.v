(** Concrete messages that show that the hypotheses of the HTTP theorems can be met. *)
From Coq Require Import String ZArith List Bool.
From Verif Require Import Base DictModel HttpModel HttpSpec.
Import ListNotations.

Definition ex_cf (request handler : bool) : pcfg :=
  {| cf_request := request; cf_max := 1048576; cf_headers_only := false; cf_save_raw := true; cf_handler := handler; cf_pos := fun _ _ => 0%nat |}.
Definition ex_msg : msg := {| m_valid := false; m_chunked := false; m_vmaj := 1; m_vmin := 1; m_clen := 0; m_buf := []; m_cache := []; m_headers := [];
  m_cookies := []; m_status := STATUS_NONE; m_missing := false; m_after := false; m_method := bs "GET"; m_resource := []; m_query_string := [];
  m_queries := []; m_code := 200; m_reason := bs "OK"; m_req_method := [] |}.

Definition v11 : version := {| v_maj := bs "1"; v_min := bs "1" |}.
Definition ex_get : head := HReq {| rl_method := bs "GET"; rl_resource := bs "/a/b"; rl_query := Some (bs "x=1&y="); rl_version := v11 |}
  [(bs "Host", bs "example.org"); (bs "Accept", bs "*/*"); (bs "accept", [])].
Definition ex_post : head := HReq {| rl_method := bs "POST"; rl_resource := bs "/p"; rl_query := None; rl_version := v11 |}
  [(bs "content-LENGTH", bs "11"); (bs "Content-Type", bs "text/plain")].
Definition ex_chunked : head := HReq {| rl_method := bs "PUT"; rl_resource := bs "/p"; rl_query := None; rl_version := v11 |}
  [(bs "Transfer-Encoding", bs "Chunked")].
Definition ex_chunks : list chunk := [{| c_size := bs "5"; c_ext := []; c_data := bs "hello" |}; {| c_size := bs "00a"; c_ext := bs ";x=y"; c_data := bs "0123456789" |}].
Definition ex_huge : head := HReq {| rl_method := bs "POST"; rl_resource := bs "/p"; rl_query := None; rl_version := v11 |} [(bs "Content-Length", bs "-1")].
Definition ex_304 : head := HResp {| sl_version := v11; sl_code := bs "304"; sl_reason := bs "Not Modified" |} [(bs "Content-Length", bs "11")].
Definition ex_200 : head := HResp {| sl_version := v11; sl_code := bs "200"; sl_reason := bs "OK" |} [(bs "Server", bs "pion")].

Ltac http_ok :=
  repeat match goal with
  | |- _ /\ _ => split
  | |- Forall _ (_ :: _) => apply Forall_cons; cbn [fst snd c_size c_ext c_data rl_method rl_resource rl_query rl_version sl_version sl_code sl_reason v_maj v_min]
  | |- Forall _ [] => apply Forall_nil
  | |- Forall _ (bs _) => cbn [bs]
  | |- _ <= _ => vm_compute; discriminate
  | |- _ < _ => vm_compute; reflexivity
  | |- ~ In _ _ => vm_compute; intuition discriminate
  | |- _ <> _ => vm_compute; discriminate
  | |- _ = _ => vm_compute; reflexivity
  | |- token_char _ => split
  | |- uri_char _ => split
  | |- query_char _ => split
  | |- text_char _ => split
  | |- value_char _ => left
  | |- is_dec _ => split
  | |- hex_char _ => unfold hex_char; first [left; split; vm_compute; discriminate | right; left; split; vm_compute; discriminate | right; right; split; vm_compute; discriminate]
  | |- hdr_ok _ => unfold hdr_ok; cbn [fst snd]
  | |- version_ok _ => unfold version_ok, v11; cbn [v_maj v_min]
  | |- reqline_ok _ => unfold reqline_ok; cbn [rl_method rl_resource rl_query rl_version]
  | |- statline_ok _ => unfold statline_ok; cbn [sl_version sl_code sl_reason]
  | |- chunk_ok _ => unfold chunk_ok; cbn [c_size c_ext c_data]
  | |- True => exact I
  end.

Lemma ex_get_ok h : head_ok (ex_cf true h) ex_get.
Proof. unfold head_ok, ex_get. http_ok. Qed.
Lemma ex_post_ok h : head_ok (ex_cf true h) ex_post.
Proof. unfold head_ok, ex_post. http_ok. Qed.
Lemma ex_chunked_ok h : head_ok (ex_cf true h) ex_chunked.
Proof. unfold head_ok, ex_chunked. http_ok. Qed.
Lemma ex_304_ok h : head_ok (ex_cf false h) ex_304.
Proof. unfold head_ok, ex_304. http_ok. Qed.
Lemma ex_200_ok h : head_ok (ex_cf false h) ex_200.
Proof. unfold head_ok, ex_200. http_ok. Qed.
Lemma ex_huge_ok c : cf_request c = true -> head_ok c ex_huge.
Proof. intros E. unfold head_ok, ex_huge. http_ok. exact E. Qed.
Lemma ex_chunks_ok : Forall chunk_ok ex_chunks.
Proof. unfold ex_chunks. http_ok; first [left; apply Forall_nil | right; exists (bs "x=y"); split; [reflexivity|]; cbn [bs]; http_ok]. Qed.
Lemma ex_last_ok : last_ok (bs "0") [].
Proof. unfold last_ok. http_ok. left. apply Forall_nil. Qed.
Lemma ex_storing r : storing (ex_cf r false).
Proof. unfold storing. http_ok. Qed.
Lemma ex_streaming r : streaming (ex_cf r true).
Proof. unfold streaming. http_ok. Qed.
Lemma ex_says : says_chunked (bs "Chunked").
Proof. exists [], []. vm_compute. reflexivity. Qed.
