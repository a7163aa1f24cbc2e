(** Model of http::reader, of [message::receive] and of what http::server and tcp::server do with a connection:
    src/http_reader.cpp, src/http_message.cpp, src/http_server.cpp, src/tcp_server.cpp, include/pion/http/message.hpp,
    include/pion/tcp/connection.hpp. *)
From Coq Require Import String ZArith List Bool.
From Verif Require Import Base DictModel HttpModel MessageModel WriterModel.
Import ListNotations.

(** message.hpp:381-385 *)
Definition check_keep_alive (m : msg) : bool :=
  negb (str_eqb (d_get (m_headers m) HEADER_CONNECTION) (bs "close"))
  && ((1 <? m_vmaj m) || ((1 <=? m_vmaj m) && (1 <=? m_vmin m))).

(** The completions of the read operations on a connection, in their order: bytes, or an error (end of file, time-out,
    shutdown). At most [READ_BUFFER_SIZE] bytes come at once; the model does not use this. http_reader.cpp:41-67, 127-136 *)
Inductive rev := RData (s : list Z) | RFail.

(** The error codes handed to the callers: of the parser, of the failed read, end of file. http_reader.cpp:41-164 *)
Inductive rerr := EParse (e : perr) | ERead | EEof.
(** the error code of the parser, http_reader.cpp:80-81 *)
Definition parse_err (e : option perr) : option rerr := match e with Some x => Some (EParse x) | None => None end.

(** What a reader has come to: [rr_fin] is the error code given to [finished_reading], or [None] while a read operation is
    waiting; the message; the lifecycle and the bookmark ([save_read_pos]: the bytes between the two pointers) of the
    connection; the completions to come. http_reader.cpp:27-164 *)
Record rres := mkrres { rr_fin : option (option rerr); rr_msg : msg; rr_life : lifecycle; rr_saved : list Z; rr_evs : list rev }.

(** http_reader.cpp:91-111: lifecycle and bookmark after a finished message *)
Definition after_message (m : msg) (rest saved : list Z) : lifecycle * list Z :=
  if check_keep_alive m then match rest with [] => (LKeep, saved) | _ => (LPipelined, rest) end else (LClose, saved).

(** http_reader.cpp:70-125 [consume_bytes()] on the read buffer [buf]; [more] is [read_bytes_with_timeout] *)
Definition r_consume (cf : pcfg) (more : pst -> msg -> outcome (option rres)) (saved : list Z) (st : pst) (m : msg) (buf : list Z)
    (evs : list rev) : outcome (option rres) :=
  match parse cf st m buf with
  | Ok (Some r) =>
    match r_rc r with
    | TTrue => let (life, saved') := after_message (r_msg r) (r_rest r) saved in
               Ok (Some (mkrres (Some (parse_err (r_err r))) (r_msg r) life saved' evs))
    | TFalse => Ok (Some (mkrres (Some (parse_err (r_err r))) (set_m_valid false (r_msg r)) LClose saved evs))
    | TIndet => more (r_st r) (r_msg r)
    end
  | Ok None => Ok None
  | Bad b => Bad b
  end.

(** http_reader.cpp:127-136 and 41-67 [consume_bytes(read_error, bytes_read)], 138-164 [handle_read_error]. The lifecycle was set
    to close when the reader started. The read timer is left out: when it fires the read fails. *)
Fixpoint r_read (cf : pcfg) (saved : list Z) (st : pst) (m : msg) (evs : list rev) : outcome (option rres) :=
  match evs with
  | [] => Ok (Some (mkrres None m LClose saved []))
  | RFail :: evs' =>
    obind (check_premature_eof cf st m) (fun x => match x with (premature, _, m') =>
      Ok (Some (mkrres (Some (if premature then Some ERead else None)) m' LClose saved evs')) end)
  | RData [] :: evs' => Ok (Some (mkrres (Some (Some EEof)) m LClose saved evs'))
  | RData s :: evs' => r_consume cf (fun st' m' => r_read cf saved st' m' evs') saved st m s evs'
  end.

(** http_reader.cpp:27-39 *)
Definition r_receive (cf : pcfg) (st : pst) (m : msg) (life : lifecycle) (saved : list Z) (evs : list rev) : outcome (option rres) :=
  match life with
  | LPipelined => r_consume cf (fun st' m' => r_read cf saved st' m' evs) saved st m saved evs
  | _ => r_read cf saved st m evs
  end.

(** What the server does with requests: it calls the handlers for a valid one, or the handler for bad requests, or gives
    the connection up. http_server.cpp:29-65, tcp_server.cpp:247-267 *)
Inductive sev := SHandled (m : msg) | SBad (m : msg) | SLost (m : msg).

(** http_server.cpp:29-65 with tcp_server.cpp:247-267. Every request is answered and the connection is then finished;
    [go], given what happened so far, is false when the handler has set the lifecycle to close or the server no longer
    listens. The result: what happened, and whether the connection is still open (a read is waiting). *)
Fixpoint serve (fuel : nat) (cf : pcfg) (go : list sev -> bool) (log : list sev) (life : lifecycle) (saved : list Z) (evs : list rev)
    : outcome (option (list sev * bool)) :=
  match fuel with O => Ok None | S fuel' =>
    match r_receive cf (p_init cf) msg_init life saved evs with
    | Ok (Some r) =>
      match rr_fin r with
      | None => Ok (Some (log, true))
      | Some None =>
        if m_valid (rr_msg r) then
          let log' := log ++ [SHandled (rr_msg r)] in
          if keeps (rr_life r) && go log' then serve fuel' cf go log' (rr_life r) (rr_saved r) (rr_evs r)
          else Ok (Some (log', false))
        else Ok (Some (log ++ [SLost (rr_msg r)], false))
      | Some (Some (EParse _)) => Ok (Some (log ++ [SBad (rr_msg r)], false))
      | Some (Some _) => Ok (Some (log ++ [SLost (rr_msg r)], false))
      end
    | Ok None => Ok None
    | Bad b => Bad b
    end
  end.
(** Every pass uses up a completion or the bookmark. http_server.cpp:29-36 after tcp_server.cpp:253 *)
Definition serve_all (cf : pcfg) (go : list sev -> bool) (evs : list rev) : outcome (option (list sev * bool)) :=
  serve (S (List.length (concat (map (fun e => match e with RData s => s | RFail => [] end) evs)) + List.length evs)) cf go [] LClose [] evs.

(** http_message.cpp:48-141 [message::receive] with a new parser; the loop of 72-100. [None] for a read that does not
    complete. A failed read before the first byte and a failed parse leave the lifecycle as it was. *)
Record mres := mkmres { mr_err : option rerr; mr_ok : bool; mr_msg : msg; mr_life : lifecycle; mr_saved : list Z; mr_evs : list rev }.
(** http_message.cpp:99-140; [forced]: the content was ended by the end of the connection *)
Definition mr_done (cf : pcfg) (forced : bool) (m : msg) (rest saved : list Z) (evs : list rev) : mres :=
  if negb forced && check_keep_alive m then
    match rest with [] => mkmres None true m LKeep saved evs | _ => mkmres None true m LPipelined rest evs end
  else mkmres None true m LClose (if cf_headers_only cf then rest else saved) evs.
(** http_message.cpp:72-98 *)
Definition mr_consume (cf : pcfg) (more : pst -> msg -> outcome (option (option mres))) (life : lifecycle) (saved : list Z) (st : pst) (m : msg)
    (buf : list Z) (evs : list rev) : outcome (option (option mres)) :=
  match parse cf st m buf with
  | Ok (Some r) =>
    match r_rc r with
    | TTrue => Ok (Some (Some (mr_done cf false (r_msg r) (r_rest r) saved evs)))
    | TFalse => Ok (Some (Some (mkmres (parse_err (r_err r)) false (r_msg r) life saved evs)))
    | TIndet => more (r_st r) (r_msg r)
    end
  | Ok None => Ok None
  | Bad b => Bad b
  end.
(** http_message.cpp:72-98 *)
Fixpoint mr_read (cf : pcfg) (life : lifecycle) (saved : list Z) (st : pst) (m : msg) (evs : list rev) : outcome (option (option mres)) :=
  match evs with
  | [] => Ok (Some None)
  | RData (c :: s) :: evs' => mr_consume cf (fun st' m' => mr_read cf life saved st' m' evs') life saved st m (c :: s) evs'
  | _ :: evs' =>
    obind (check_premature_eof cf st m) (fun x => match x with (premature, _, m') =>
      if premature then Ok (Some (Some (mkmres (Some ERead) false m' life saved evs')))
      else Ok (Some (Some (mr_done cf true m' [] saved evs'))) end)
  end.
(** http_message.cpp:48-98. Before the first byte the parser is in its first state, so the end of the connection is premature. *)
Definition m_receive (cf : pcfg) (life : lifecycle) (saved : list Z) (evs : list rev) : outcome (option (option mres)) :=
  let m := o_msg (o_clear (o_new (cf_request cf))) in
  match life with
  | LPipelined => mr_consume cf (fun st' m' => mr_read cf life saved st' m' evs) life saved (p_init cf) m saved evs
  | _ => mr_read cf life saved (p_init cf) m evs
  end.
(** successive calls, each with a new parser, until one fails or has to wait; http_message.cpp:48-141 *)
Fixpoint m_receive_all (n : nat) (cf : pcfg) (life : lifecycle) (saved : list Z) (evs : list rev) : outcome (option (list mres)) :=
  match n with O => Ok (Some []) | S n' =>
    match m_receive cf life saved evs with
    | Ok (Some (Some r)) =>
      if mr_ok r then
        obind (m_receive_all n' cf (mr_life r) (mr_saved r) (mr_evs r)) (fun o => Ok (match o with Some l => Some (r :: l) | None => None end))
      else Ok (Some [r])
    | Ok (Some None) => Ok (Some [])
    | Ok None => Ok None
    | Bad b => Bad b
    end
  end.
