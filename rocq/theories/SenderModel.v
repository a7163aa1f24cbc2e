(** Model of the class that sends a file: services/FileService.cpp, services/FileService.hpp (DiskFileSender). *)
From Coq Require Import String ZArith List Bool.
From Verif Require Import Base HttpModel MessageModel WriterModel FileModel.
Import ListNotations.

(** FileService.hpp:199-229. [sd_pos]: the position in [m_file_stream], if it is open. [sd_room]: the size of [m_content_buf], if it
    was allocated. The writer is given by the calls made on it. *)
Record sender := mksd { sd_file : diskfile; sd_max : Z; sd_to_send : Z; sd_sent : Z; sd_pos : option Z; sd_room : option Z }.
(** FileService.cpp:813-840, the constructor; and the calls it makes on the writer *)
Definition sender_new (f : diskfile) (max : Z) : sender := mksd f max 0 0 None None.
(** FileService.cpp:813-840 *)
Definition sender_head (f : diskfile) : list wop :=
  [WMsg (MsgContentType (f_mime f)); WMsg (MsgAddHeader (bs "Last-Modified") (f_date f)); WMsg (MsgCode 200); WMsg (MsgReason (bs "OK"))].

(** Where a call of [send] leads: the bytes go to the connection and [handle_write] is called later, the answer is complete and the
    connection's [finish] is called later, nothing happens any more, bytes outside the file's buffer or of it before they were
    written are read, or bytes are written outside the transfer buffer. FileService.cpp:842-937 *)
Inductive sres := SWait | SLast | SNothing | SBadRead | SBadWrite.
(** FileService.cpp:842-937 *)
Fixpoint known (l : list (option Z)) : option (list Z) :=
  match l with [] => Some [] | Some c :: l' => match known l' with Some r => Some (c :: r) | None => None end | None :: _ => None end.

(** FileService.cpp:855-912: the bytes to be sent. [now]: the content of the file, if it can be opened; a file that is open is
    read as it is now. *)
Definition sender_bytes (sd : sender) (n : Z) (now : option (list Z)) : sres * list Z * sender :=
  match f_content (sd_file sd) with
  | Some buf =>
    let sd := mksd (sd_file sd) (sd_max sd) n (sd_sent sd) (sd_pos sd) (sd_room sd) in
    if zlen buf <? sd_sent sd + n then (SBadRead, [], sd)
    else match known (firstn (Z.to_nat n) (skipn (Z.to_nat (sd_sent sd)) buf)) with Some s => (SWait, s, sd) | None => (SBadRead, [], sd) end
  | None =>
    let pos := match sd_pos sd, now with Some p, _ => Some p | None, Some _ => Some 0 | None, None => None end in
    let room := match sd_room sd with Some r => r | None => n end in
    match pos with
    | None => (SNothing, [], mksd (sd_file sd) (sd_max sd) n (sd_sent sd) None (sd_room sd))
    | Some p =>
      if room <? n then (SBadWrite, [], sd) else
      match now with
      | Some c =>
        let s := firstn (Z.to_nat n) (skipn (Z.to_nat p) c) in
        if zlen s <? n then (SNothing, [], mksd (sd_file sd) (sd_max sd) n (sd_sent sd) (Some (p + zlen s)) (Some room))
        else (SWait, s, mksd (sd_file sd) (sd_max sd) n (sd_sent sd) (Some (p + n)) (Some room))
      | None => (SNothing, [], mksd (sd_file sd) (sd_max sd) n (sd_sent sd) (Some p) (Some room))
      end
    end
  end.
(** FileService.cpp:842-937 [send]. The sizes are below 2^63, so nothing wraps. *)
Definition sender_send (sd : sender) (now : option (list Z)) : sres * list wop * sender :=
  let size := f_size (sd_file sd) in
  if size <=? sd_sent sd then (SLast, [WSend], sd) else
  let rest := size - sd_sent sd in
  let n := if (0 <? sd_max sd) && (sd_max sd <? rest) then sd_max sd else rest in
  let '(r, s, sd) := sender_bytes sd n now in
  match r with
  | SWait => (SWait, [WNoCopy s; if size <=? sd_sent sd + n then (if 0 <? sd_sent sd then WSendFinal else WSend) else WSendChunk], sd)
  | r => (r, [], sd)
  end.
(** FileService.cpp:939-982 [handle_write] after a write; [true]: finished *)
Definition sender_wrote (sd : sender) (ok : bool) : bool * list wop * sender :=
  if negb ok then (true, [], sd) else
  let sd := mksd (sd_file sd) (sd_max sd) (sd_to_send sd) (sd_sent sd + sd_to_send sd) (sd_pos sd) (sd_room sd) in
  if f_size (sd_file sd) <=? sd_sent sd then (true, [], sd) else (false, [WClear], sd).

(** How the sending ends: [finish] was called, or will be by the writer; the sender is given up and [finish] is never called; memory
    is misused; or it goes on. FileService.cpp:842-982 *)
Inductive send_end := EFinished | ELost | EBadRead | EBadWrite | EGoesOn.
(** [l]: for each call of [send], the file at this time and whether the write succeeds; FileService.cpp:842-982 *)
Fixpoint sender_run (sd : sender) (l : list (option (list Z) * bool)) : send_end * list wop :=
  match l with
  | [] => (EGoesOn, [])
  | (now, ok) :: l' =>
    let '(r, ops, sd) := sender_send sd now in
    match r with
    | SLast => (EFinished, ops)
    | SNothing => (ELost, ops)
    | SBadRead => (EBadRead, ops)
    | SBadWrite => (EBadWrite, ops)
    | SWait =>
      let '(fin, ops', sd) := sender_wrote sd ok in
      if fin then (EFinished, ops ++ ops') else let (e, more) := sender_run sd l' in (e, ops ++ ops' ++ more)
    end
  end.
(** all of it, FileService.cpp:375-380 *)
Definition send_file (f : diskfile) (max : Z) (l : list (option (list Z) * bool)) : send_end * list wop :=
  let (e, ops) := sender_run (sender_new f max) l in (e, sender_head f ++ ops).
