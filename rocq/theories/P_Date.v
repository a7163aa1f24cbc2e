(** C134: dates in headers. *)
From Coq Require Import String ZArith List Bool Lia ZifyBool.
From Verif Require Import Base DictModel HttpModel WriterModel MessageModel PathModel FileModel FileSpec DateModel DateSpec DateProofs DateText P_File.
Import ListNotations.

(** The claim: every [time_t] is written as a date that stands for it. *)
Definition dates_written (loc : locale) : Prop := forall t, - 2 ^ 63 <= t < 2 ^ 63 -> exists s, get_date_string loc t = Some s /\ denotes s t.
(** C134. Every time whose year a [struct tm] can hold is written as a date that stands for it, by a calendar that counts day by day. *)
Theorem C134_denotes_partial t : holds_year t -> exists s, get_date_string c_locale t = Some s /\ denotes s t.
Proof. intros H. apply gmtime_some in H as [x G]. exists (strftime c_locale x). split; [apply date_string; exact G|]. apply strftime_denotes. exact G. Qed.
Print Assumptions C134_denotes_partial.
(** For the others, there is no broken-down time, and strftime is given a null pointer. *)
Theorem C134_too_large loc t : ~ holds_year t <-> get_date_string loc t = None.
Proof.
  split.
  - intros N. unfold get_date_string. destruct (gmtime t) as [x|] eqn:G; [|reflexivity]. destruct N. apply gmtime_some. eauto.
  - intros E H. apply gmtime_some in H as [x G]. unfold get_date_string in E. rewrite G in E. discriminate.
Qed.
Print Assumptions C134_too_large.
Theorem C134_any_time_refuted loc : ~ dates_written loc.
Proof. intros H. destruct (H (2 ^ 62)) as (s & E & _); [split; [discriminate|reflexivity]|]. unfold get_date_string in E. replace (gmtime (2 ^ 62)) with (@None tm) in E by (vm_compute; reflexivity). discriminate. Qed.
Print Assumptions C134_any_time_refuted.
(** In another locale the names are others. *)
Definition german : locale := mkloc (map bs ["So"; "Mo"; "Di"; "Mi"; "Do"; "Fr"; "Sa"]%string) (map bs ["Jan"; "Feb"; "Mrz"; "Apr"; "Mai"; "Jun"; "Jul"; "Aug"; "Sep"; "Okt"; "Nov"; "Dez"]%string).
Theorem C134_locale_refuted : exists s, get_date_string german 0 = Some s /\ forall t, ~ denotes s t.
Proof.
  eexists. split; [vm_compute; reflexivity|]. intros t (n & h & mi & sec & y & m & d & wd & dd & mo & yy & hh & mm & ss & _ & _ & _ & _ & _ & WD & _ & _ & _ & _ & _ & _ & E).
  apply weekday_len in WD. destruct wd as [|a [|b [|c [|]]]]; try discriminate WD. cbn in E. discriminate E.
Qed.
Print Assumptions C134_locale_refuted.
(** Two times are never written the same way. *)
Theorem C134_unambiguous t t' s : get_date_string c_locale t = Some s -> get_date_string c_locale t' = Some s -> t = t'.
Proof.
  intros A B. assert (K : forall t, get_date_string c_locale t = Some s -> denotes s t).
  { clear. intros t A. destruct (gmtime t) as [x|] eqn:G; [|unfold get_date_string in A; rewrite G in A; discriminate]. rewrite (date_string _ _ G) in A. injection A as <-. apply strftime_denotes. exact G. }
  eapply unambiguous; eauto.
Qed.
Print Assumptions C134_unambiguous.
(** From the year 1000 to 9999 the date has the fixed length of RFC 7231; before, it is shorter. *)
Theorem C134_length_partial t : four_digit_year t -> exists s, get_date_string c_locale t = Some s /\ zlen s = 29.
Proof.
  intros F. destruct (four_year t F) as (y & m & d & D & Y). assert (H : holds_year t) by (exists y, m, d; split; [exact D|lia]). apply gmtime_some in H as [x G].
  exists (strftime c_locale x). split; [apply date_string; exact G|]. destruct (strftime_len _ _ G) as [-> _]. destruct (strftime_denotes _ _ G) as [_ D']. apply civil_day in D, D'. rewrite <- D in D'. injection D' as -> _ _. rewrite four_len by exact Y. reflexivity.
Qed.
Print Assumptions C134_length_partial.
Theorem C134_length_refuted : get_date_string c_locale (-30610224001) = Some (bs "Tue, 31 Dec 999 23:59:59 GMT").
Proof. vm_compute. reflexivity. Qed.
Print Assumptions C134_length_refuted.
(** So the comparison of texts by the file service is one of times: who asks with the date of [t0] is told that the file was not modified only if its time is [t0]. *)
Definition http_date (t : Z) : list Z := match get_date_string c_locale t with Some s => s | None => [] end.
Theorem C134_not_modified two cwd resource opts ops d d' m data why l s' tr t0 :
  (forall v, directory_of opts = Some v -> ends_with_name (normalize two v)) -> Forall serves ops -> (forall n d, In (FStart n d) ops -> real_disk d) ->
  (forall d, seen ops d -> all_readable d) -> all_readable d -> caching_of opts <= 1 -> holds_year t0 -> d_get (m_headers m) (bs "If-Modified-Since") = http_date t0 ->
  fs_handle two http_date d d' (fst (fs_run two http_date (configure two http_date resource opts) ops)) m data why = (FAnswer l, s', tr) -> In (WMsg (MsgCode 304)) l ->
  exists p c r, stands_for cwd (directory_of opts) (file_of opts) (asked resource m) p /\ d p = Some (NFile c t0 r).
Proof.
  intros A B C D E F H IM X I. destruct (C64_not_modified_partial two http_date cwd resource opts ops d d' m data why l s' tr A B C D E F X I) as (p & c & t & r & ST & DP & IM').
  rewrite IM in IM'. exists p, c, r. split; [exact ST|]. assert (t = t0); [|subst; exact DP].
  destruct (C134_denotes_partial _ H) as (s0 & G0 & N0). unfold http_date in IM'. rewrite G0 in IM'. destruct (get_date_string c_locale t) as [s1|] eqn:G1.
  - subst s1. eapply C134_unambiguous; eauto.
  - exfalso. subst s0. destruct N0 as (n & h & mi & sec & y & m' & dd & wd & d2 & mo & yy & hh & mm & ss & _ & _ & _ & _ & _ & WD & _ & _ & _ & _ & _ & _ & Q). apply weekday_len in WD. destruct wd; discriminate.
Qed.
Print Assumptions C134_not_modified.
Example C134_case : get_date_string c_locale 784111777 = Some (bs "Sun, 06 Nov 1994 08:49:37 GMT") /\ get_date_string c_locale 951782400 = Some (bs "Tue, 29 Feb 2000 00:00:00 GMT")
  /\ get_date_string c_locale (-1) = Some (bs "Wed, 31 Dec 1969 23:59:59 GMT") /\ four_digit_year 784111777 /\ holds_year 784111777.
Proof. split; [vm_compute; reflexivity|]. split; [vm_compute; reflexivity|]. split; [vm_compute; reflexivity|]. split; [split; [discriminate|reflexivity]|]. exists 1994, 11, 6. split; [|lia]. replace (1994, 11, 6) with (civil (784111777 / 86400)) by (vm_compute; reflexivity). apply day_civil. Qed.
