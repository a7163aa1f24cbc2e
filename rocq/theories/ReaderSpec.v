(** Specification of keep-alive and of successive requests on a connection. *)
From Coq Require Import String ZArith List.
From Verif Require Import Base DictModel HttpModel HttpSpec ReaderModel.
Import ListNotations.

(** HTTP/1.1 or later *)
Definition at_least_1_1 (m : msg) : Prop := 1 < m_vmaj m \/ m_vmaj m = 1 /\ 1 <= m_vmin m.
(** The connection is to stay: no Connection header has the value close. It is to be closed: an older version, or every
    Connection header, and there is one, has the value close. *)
Definition stays (m : msg) : Prop := ~ In (bs "close") (values_of (bs "Connection") (m_headers m)) /\ at_least_1_1 m.
Definition leaves (m : msg) : Prop :=
  ~ at_least_1_1 m \/ (values_of (bs "Connection") (m_headers m) <> []
                       /\ Forall (eq (bs "close")) (values_of (bs "Connection") (m_headers m))).
(** as HTTP has it: the header is a list of options, and their case does not matter *)
Definition says_close (m : msg) : Prop :=
  exists v, In v (values_of (bs "Connection") (m_headers m)) /\ map ascii_low v = bs "close".

(** Bytes that, received alone, are one request and no more; and the request. *)
Definition whole (cf : pcfg) (w : list Z) (m : msg) : Prop :=
  exists r, parse cf (p_init cf) msg_init w = Ok (Some r) /\ r_rc r = TTrue /\ r_rest r = [] /\ r_msg r = m.
(** bytes that are the beginning of a message, or that no message begins with *)
Definition unfinished (cf : pcfg) (w : list Z) (m : msg) : Prop :=
  exists r, parse cf (p_init cf) msg_init w = Ok (Some r) /\ r_rc r = TIndet /\ r_msg r = m.
Definition refused (cf : pcfg) (w : list Z) (m : msg) : Prop :=
  exists r, parse cf (p_init cf) msg_init w = Ok (Some r) /\ r_rc r = TFalse /\ m = set_m_valid false (r_msg r).

(** What is to happen on a connection that receives the bytes [s], then nothing ([tail] empty) or a read error:
    [log] has happened, [l] is all that will have happened, [open]: the connection is still open then. *)
Inductive story (cf : pcfg) (go : list sev -> bool) : list sev -> list Z -> list rev -> list sev -> bool -> Prop :=
  | story_idle log : story cf go log [] [] log true
  | story_gone log t : story cf go log [] (RFail :: t) (log ++ [SLost msg_init]) false
  | story_request log w m more tail l b : w <> [] -> whole cf w m -> stays m -> go (log ++ [SHandled m]) = true ->
      story cf go (log ++ [SHandled m]) more tail l b -> story cf go log (w ++ more) tail l b
  | story_last log w m more tail : w <> [] -> whole cf w m -> leaves m \/ go (log ++ [SHandled m]) = false ->
      story cf go log (w ++ more) tail (log ++ [SHandled m]) false
  | story_bad log w m more tail : w <> [] -> refused cf w m -> story cf go log (w ++ more) tail (log ++ [SBad m]) false
  | story_part log w m : w <> [] -> unfinished cf w m -> story cf go log w [] log true
  | story_cut log w m t : w <> [] -> unfinished cf w m -> story cf go log w (RFail :: t) (log ++ [SLost m]) false.

(** as [whole], for a message that [receive] clears first *)
Definition whole_cleared (cf : pcfg) (w : list Z) (m : msg) : Prop :=
  exists r, parse cf (p_init cf) (if cf_request cf then set_m_method [] msg_init else msg_init) w = Ok (Some r)
    /\ r_rc r = TTrue /\ r_rest r = [] /\ r_msg r = m.
