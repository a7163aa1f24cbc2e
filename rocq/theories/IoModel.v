(** Model of the stream operations of http::message with the state of the stream, and of responses received for a given request:
    src/http_message.cpp, include/pion/http/message.hpp, response.hpp, response_reader.hpp. *)
From Coq Require Import String ZArith List Bool.
From Verif Require Import Base DictModel HttpModel MessageModel WriterModel ReaderModel.
Import ListNotations.

(** A [std::istream]: the bytes it still holds, and what it converts to as a condition. Reading a byte it does not have makes it false for good. used at http_message.cpp:184-221 *)
Record istream := mkin { i_data : list Z; i_good : bool }.
(** http_message.cpp:184-221 [message::read] of the object [o] with a new parser: whether an error is reported, the message, the stream. The loop of 180-190 is
    [read_loop]. A new [tribool] is false, so the stream that is false at once reports nothing. *)
Definition read_in (cf : pcfg) (o : omsg) (i : istream) : outcome (option (bool * msg * istream)) :=
  let m := o_msg (o_clear o) in
  if i_good i then
    match i_data i with
    | [] => Ok (Some (true, m, mkin [] false))
    | _ =>
      match read_loop cf (p_init cf) m (i_data i) with
      | Ok (Some (TIndet, _, st, m', rest)) => obind (check_premature_eof cf st m') (fun x => match x with (premature, _, m2) => Ok (Some (premature, m2, mkin rest false)) end)
      | Ok (Some (_, e, _, m', rest)) => Ok (Some (e, m', mkin rest true))
      | Ok None => Ok None
      | Bad b => Bad b
      end
    end
  else Ok (Some (false, m, i)).
(** one call of [read] after the other, each for another object; http_message.cpp:184-221, called for each *)
Fixpoint read_each (cf : pcfg) (os : list omsg) (i : istream) : outcome (option (list (bool * msg) * istream)) :=
  match os with
  | [] => Ok (Some ([], i))
  | o :: os' =>
    obind (read_in cf o i) (fun x => match x with
    | Some (e, m, i') => obind (read_each cf os' i') (fun y => Ok (match y with Some (l, j) => Some ((e, m) :: l, j) | None => None end))
    | None => Ok None
    end)
  end.

(** A [std::ostream]: the bytes written, how many more its destination takes, and what it converts to as a condition. A stream that is false takes nothing. used at http_message.cpp:154-182 *)
Record ostream := mkout { out_bytes : list Z; out_room : nat; out_good : bool }.
(** http_message.cpp:173 *)
Definition out_write (o : ostream) (b : list Z) : ostream :=
  if out_good o then
    if (List.length b <=? out_room o)%nat then mkout (out_bytes o ++ b) (out_room o - List.length b) true
    else mkout (out_bytes o ++ firstn (out_room o) b) 0 false
  else o.
(** http_message.cpp:154-182, the loop of [message::write] over the buffers: the count returned, whether an error is reported, the stream *)
Fixpoint write_out (n : Z) (bufs : list (list Z)) (o : ostream) : Z * bool * ostream :=
  match bufs with
  | [] => (n, false, o)
  | b :: r => let o' := out_write o b in if out_good o' then write_out (n + zlen b) r o' else (n, true, o')
  end.

(** response.hpp:37-52: a response made for a request with the method [method] *)
Definition response_to (method : list Z) : omsg := o_with (o_new false) (set_m_req_method method msg_init).
(** http_message.cpp:48-141 [message::receive] of the object [o]; as [m_receive] *)
Definition receive_into (o : omsg) (cf : pcfg) (life : lifecycle) (saved : list Z) (evs : list rev) : outcome (option (option mres)) :=
  let m := o_msg (o_clear o) in
  match life with
  | LPipelined => mr_consume cf (fun st' m' => mr_read cf life saved st' m' evs) life saved (p_init cf) m saved evs
  | _ => mr_read cf life saved (p_init cf) m evs
  end.
(** response_reader.hpp:74-80: the response is made for the request and not cleared *)
Definition read_response (method : list Z) (cf : pcfg) (life : lifecycle) (saved : list Z) (evs : list rev) : outcome (option rres) :=
  r_receive cf (p_init cf) (o_msg (response_to method)) life saved evs.
