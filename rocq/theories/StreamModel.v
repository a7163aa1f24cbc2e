(** Model of the TCP stream buffer: include/pion/tcp/stream.hpp:32-316 (class stream_buffer), the buffer behind
    [tcp::stream], together with the non-virtual part of [std::basic_streambuf] that calls it (sputc, sputn, pubsync,
    sgetc, sbumpc, sgetn, sungetc, sputbackc; C++ standard 27.6.3, [streambuf]).

    Pointers into a buffer are offsets from its beginning; the memory of a buffer is a list of bytes of its size, and
    an access outside it is the outcome [Bad].  The asynchronous operations with the wait behind them (flush_output 117-125,
    underflow 152-162, xsputn 223-232, operation_finished 283-290) are one step: the environment supplies their results.
    Simplified: a wait that ends although the operation has not completed (a spurious wake-up; the code has no
    predicate around the wait) is modelled separately in StreamWait.v. *)
From Coq Require Import String ZArith List Lia Bool.
From Verif Require Import Base.
Import ListNotations.

(** include/pion/tcp/stream.hpp:45-46 *)
Definition PUT_BACK_MAX : Z := 10.
(** tcp/stream.hpp:47 *)
Definition WRITE_BUFFER_SIZE : Z := 8192.
(** include/pion/tcp/connection.hpp:52 *)
Definition READ_BUFFER_SIZE : Z := 8192.

(** [n] bytes of the memory [m] from offset [a]. memory, used at tcp/stream.hpp:103-272 *)
Definition slice (m : list Z) (a n : Z) : list Z := firstn (Z.to_nat n) (skipn (Z.to_nat a) m).
(** memcpy / memmove of [d] to offset [a] of the memory [m]; the source has been read before. memory, used at tcp/stream.hpp:103-272 *)
Definition blit (m : list Z) (a : Z) (d : list Z) : list Z :=
  firstn (Z.to_nat a) m ++ d ++ skipn (Z.to_nat a + length d) m.
(** the range [a, a+n) lies in the memory [m]; memory, used at tcp/stream.hpp:103-272 *)
Definition in_mem (m : list Z) (a n : Z) : bool := (0 <=? a) && (0 <=? n) && (a + n <=? zlen m).

(** An access outside a buffer. memory, used at tcp/stream.hpp:103-272 *)
Inductive acc (A : Type) := Fine (a : A) | Outside.
Arguments Fine {A}. Arguments Outside {A}.
(** memory, used at tcp/stream.hpp:103-272 *)
Definition abind {A B} (x : acc A) (f : A -> acc B) : acc B :=
  match x with Fine a => f a | Outside => Outside end.
(** memory, used at tcp/stream.hpp:103-272 *)
Definition read_mem (m : list Z) (a n : Z) : acc (list Z) := if in_mem m a n then Fine (slice m a n) else Outside.
(** memory, used at tcp/stream.hpp:103-272 *)
Definition write_mem (m : list Z) (a : Z) (d : list Z) : acc (list Z) :=
  if in_mem m a (zlen d) then Fine (blit m a d) else Outside.

(** ** Output *)

(** Result of connection::async_write (boost::asio::async_write: all bytes, or an error after fewer). used at tcp/stream.hpp:121, 226; tcp/connection.hpp:561-569 *)
Inductive wres := WOk | WFail (n : Z).
(** number of bytes taken of [k] bytes offered; used at tcp/stream.hpp:121, 226; tcp/connection.hpp:561-569 *)
Definition w_taken (r : wres) (k : Z) : Z := match r with WOk => k | WFail n => Z.max 0 (Z.min n k) end.
(** used at tcp/stream.hpp:121, 226; tcp/connection.hpp:561-569 *)
Definition w_err (r : wres) : bool := match r with WOk => false | WFail _ => true end.

(** m_write_buf, pptr() - pbase(), and what the connection has taken; pbase() = m_write_buf and
    epptr() = m_write_buf + 8191 never change (setup_buffers 105-106).  [orest]: the results of the writes to come. tcp/stream.hpp:107 *)
Record ostate := { omem : list Z; opp : Z; owire : list Z; orest : list wres }.
(** tcp/stream.hpp:107 *)
Definition epp : Z := WRITE_BUFFER_SIZE - 1.
(** stream.hpp:55-62, 103-108: a new stream buffer, whatever m_write_buf contains *)
Definition o_init (junk : list Z) (rs : list wres) : ostate := {| omem := junk; opp := 0; owire := []; orest := rs |}.

(** the answers of the connection, in order: tcp/stream.hpp:125, 231 *)
Definition next_res (rs : list wres) : wres * list wres := match rs with [] => (WOk, []) | r :: rs => (r, rs) end.

(** stream.hpp:115-132 flush_output; the flag tells that eof() was returned *)
Definition flush_output (s : ostate) : acc (bool * ostate) :=
  let n := opp s in
  if 0 <? n then
    abind (read_mem (omem s) 0 n) (fun d =>
    let '(r, rs) := next_res (orest s) in
    let sent := w_taken r n in
    Fine (w_err r, {| omem := omem s; opp := opp s - sent; owire := owire s ++ firstn (Z.to_nat sent) d; orest := rs |}))
  else Fine (false, s).

(** *pptr() = c; pbump(1); tcp/stream.hpp:187-188 *)
Definition put_char (s : ostate) (c : Z) : acc ostate :=
  abind (write_mem (omem s) (opp s) [c]) (fun m =>
  Fine {| omem := m; opp := opp s + 1; owire := owire s; orest := orest s |}).

(** stream.hpp:182-193 overflow with a character; the flag tells that eof() was returned *)
Definition overflow (s : ostate) (c : Z) : acc (bool * ostate) :=
  abind (put_char s c) flush_output.

(** stream.hpp:203-242 xsputn; result: the number of characters written.  The source [d] is the caller's array; reading
    it outside (s+bytes_available with a negative bytes_available, 226 and 237) is an access outside as well. *)
Definition xsputn (s : ostate) (d : list Z) : acc (Z * ostate) :=
  let n := zlen d in
  let avail := epp - opp s in
  if n <=? avail then
    abind (write_mem (omem s) (opp s) d) (fun m =>
    Fine (n, {| omem := m; opp := opp s + n; owire := owire s; orest := orest s |}))
  else
    abind (if 0 <? avail
           then abind (read_mem d 0 avail) (fun d1 =>
                abind (write_mem (omem s) (opp s) d1) (fun m =>
                Fine {| omem := m; opp := opp s + avail; owire := owire s; orest := orest s |}))
           else Fine s) (fun s1 =>
    abind (flush_output s1) (fun '(e, s2) =>
    if e : bool then Fine (0, s2)
    else
      abind (read_mem d avail (n - avail)) (fun d2 =>
      if epp <=? n - avail then
        let '(r, rs) := next_res (orest s2) in
        let sent := w_taken r (n - avail) in
        Fine (avail + sent, {| omem := omem s2; opp := opp s2;
                               owire := owire s2 ++ firstn (Z.to_nat sent) d2; orest := rs |})
      else
        abind (write_mem (omem s2) 0 d2) (fun m =>
        Fine (n, {| omem := m; opp := opp s2 + (n - avail); owire := owire s2; orest := orest s2 |}))))).

(** The calls a client can make: sputc(c), sputn(s, n), pubsync(); [std::ostream] makes no others. std::streambuf, which calls tcp/stream.hpp:182-281 *)
Inductive oop := OPut (c : Z) | OWrite (d : list Z) | OSync.
(** What a call returns: sputc: the character or eof; sputn: the number; pubsync: 0 or -1. std::streambuf, which calls tcp/stream.hpp:182-281 *)
Inductive ores := RPut (ok : bool) | RWrite (n : Z) | RSync (ok : bool).

(** std::basic_streambuf::sputc: stores at pptr() while pptr() < epptr(), otherwise calls overflow;
    sputn = xsputn; pubsync = sync (stream.hpp:279-281) *)
Definition o_step (s : ostate) (o : oop) : acc (ores * ostate) :=
  match o with
  | OPut c =>
      if opp s <? epp then abind (put_char s c) (fun s' => Fine (RPut true, s'))
      else abind (overflow s c) (fun '(e, s') => Fine (RPut (negb e), s'))
  | OWrite d => abind (xsputn s d) (fun '(n, s') => Fine (RWrite n, s'))
  | OSync => abind (flush_output s) (fun '(e, s') => Fine (RSync (negb e), s'))
  end.

(** A sequence of calls; the results in order. std::streambuf, which calls tcp/stream.hpp:182-281 *)
Fixpoint o_run (s : ostate) (ops : list oop) : acc (list ores * ostate) :=
  match ops with
  | [] => Fine ([], s)
  | o :: ops => abind (o_step s o) (fun '(r, s') => abind (o_run s' ops) (fun '(rs, s'') => Fine (r :: rs, s'')))
  end.

(** ** Input *)

(** Result of connection::async_read_some with room for [n] bytes: between 1 and [n] bytes, or an error (end of the
    stream, connection reset, cancelled). used at tcp/stream.hpp:158 *)
Inductive revent := Got (d : list Z) | RErr.

(** the connection's read buffer and eback, gptr, egptr as offsets; tcp/stream.hpp:105, 168-170 *)
Record istate := { imem : list Z; ieb : Z; igp : Z; ieg : Z }.
(** stream.hpp:103-104 *)
Definition i_init (junk : list Z) : istate :=
  {| imem := junk; ieb := PUT_BACK_MAX; igp := PUT_BACK_MAX; ieg := PUT_BACK_MAX |}.

(** The outcome of an input call: it returns, or it waits for more input (the environment has no further event), or it
    reads or writes outside the buffer. tcp/stream.hpp:139-272 *)
Inductive ires (A : Type) := Ret (a : A) | Wait | Out.
Arguments Ret {A}. Arguments Wait {A}. Arguments Out {A}.
(** tcp/stream.hpp:139-272 *)
Definition ibind {A B} (x : ires A) (f : A -> ires B) : ires B :=
  match x with Ret a => f a | Wait => Wait | Out => Out end.
(** tcp/stream.hpp:139-272 *)
Definition iacc {A} (x : acc A) : ires A := match x with Fine a => Ret a | Outside => Out end.

(** stream.hpp:139-174 underflow; None = eof() *)
Definition underflow (s : istate) (es : list revent) : ires (option Z * istate * list revent) :=
  if igp s <? ieg s then
    ibind (iacc (read_mem (imem s) (igp s) 1)) (fun c => Ret (hd_error c, s, es))
  else
    let pb := Z.min (igp s - ieb s) PUT_BACK_MAX in
    ibind (if 0 <? pb
           then ibind (iacc (read_mem (imem s) (igp s - pb) pb)) (fun d =>
                iacc (write_mem (imem s) (PUT_BACK_MAX - pb) d))
           else Ret (imem s)) (fun m1 =>
    match es with
    | [] => Wait
    | RErr :: es' => Ret (None, {| imem := m1; ieb := ieb s; igp := igp s; ieg := ieg s |}, es')
    | Got d :: es' =>
        ibind (iacc (write_mem m1 PUT_BACK_MAX d)) (fun m2 =>
        ibind (iacc (read_mem m2 PUT_BACK_MAX 1)) (fun c =>
        Ret (hd_error c, {| imem := m2; ieb := PUT_BACK_MAX - pb; igp := PUT_BACK_MAX;
                            ieg := PUT_BACK_MAX + zlen d |}, es')))
    end).

(** stream.hpp:252-272 xsgetn; [fuel] bounds the iterations of the loop (each but the first and last takes an event);
    [got]: what has been copied to the caller's array *)
Fixpoint xsgetn (fuel : nat) (s : istate) (es : list revent) (rem : Z) (got : list Z)
  : ires (list Z * istate * list revent) :=
  match fuel with
  | O => Wait
  | S fuel =>
      if 0 <? rem then
        let avail := ieg s - igp s in
        let k := Z.min rem avail in
        ibind (if 0 <? k
               then ibind (iacc (read_mem (imem s) (igp s) k)) (fun d =>
                    Ret (got ++ d, {| imem := imem s; ieb := ieb s; igp := igp s + k; ieg := ieg s |}, rem - k))
               else Ret (got, s, rem)) (fun '(got, s, rem) =>
        if 0 <? rem then
          ibind (underflow s es) (fun '(c, s, es) =>
          match c with
          | None => Ret (got, s, es)
          | Some _ => xsgetn fuel s es rem got
          end)
        else xsgetn fuel s es rem got)
      else Ret (got, s, es)
  end.

(** The calls a client can make: sgetc, sbumpc, sgetn(n), sungetc, sputbackc(c). std::streambuf, which calls tcp/stream.hpp:139-272 *)
Inductive iop := IPeek | IGet | IRead (n : Z) | IUnget | IPutBack (c : Z).
(** What they return: a character or eof, or the characters stored. std::streambuf, which calls tcp/stream.hpp:139-272 *)
Inductive ival := VChar (c : option Z) | VStr (d : list Z).

(** std::basic_streambuf: sgetc calls underflow when gptr() == egptr(); sbumpc calls uflow, whose default calls
    underflow and advances; sungetc and sputbackc step back while gptr() > eback() (the latter when the character is the
    same), otherwise they call pbackfail, whose default fails. std::streambuf, which calls tcp/stream.hpp:139-272 *)
Definition i_step (s : istate) (es : list revent) (o : iop) : ires (ival * istate * list revent) :=
  let back (want : option Z) :=
    if ieb s <? igp s then
      ibind (iacc (read_mem (imem s) (igp s - 1) 1)) (fun d =>
      let c := hd 0 d in
      if match want with Some w => w =? c | None => true end
      then Ret (VChar (Some c), {| imem := imem s; ieb := ieb s; igp := igp s - 1; ieg := ieg s |}, es)
      else Ret (VChar None, s, es))
    else Ret (VChar None, s, es) in
  match o with
  | IPeek => ibind (underflow s es) (fun '(c, s, es) => Ret (VChar c, s, es))
  | IGet => ibind (underflow s es) (fun '(c, s, es) =>
      match c with
      | Some _ => Ret (VChar c, {| imem := imem s; ieb := ieb s; igp := igp s + 1; ieg := ieg s |}, es)
      | None => Ret (VChar None, s, es)
      end)
  | IRead n => ibind (xsgetn (length es + 3) s es n []) (fun '(d, s, es) => Ret (VStr d, s, es))
  | IUnget => back None
  | IPutBack c => back (Some c)
  end.

(** A sequence of calls: the results of the calls that returned (the sequence ends at a call that waits), the state
    and the remaining events; None: an access outside the buffer. std::streambuf, which calls tcp/stream.hpp:139-272 *)
Fixpoint i_run (s : istate) (es : list revent) (ops : list iop) : option (list ival * istate * list revent) :=
  match ops with
  | [] => Some ([], s, es)
  | o :: ops =>
      match i_step s es o with
      | Wait => Some ([], s, es)
      | Out => None
      | Ret (v, s', es') =>
          match i_run s' es' ops with
          | Some (vs, s'', es'') => Some (v :: vs, s'', es'')
          | None => None
          end
      end
  end.
