(** What a reader of a TCP stream can rely on, stated without the buffer: independent of StreamModel.v except for the
    types of calls, results and events. *)
From Coq Require Import String ZArith List Lia Bool.
From Verif Require Import Base StreamModel.
Import ListNotations.

(** What arrives, one entry per byte and one ([None]) per error reported by the connection; the segmentation is gone. *)
Definition arriving (es : list revent) : list (option Z) :=
  concat (map (fun e => match e with Got d => map Some d | RErr => [None] end) es).

(** A read of the connection that succeeds delivers at least one byte and at most what was asked for. *)
Definition rev_ok (e : revent) : Prop :=
  match e with Got d => 1 <= zlen d <= READ_BUFFER_SIZE - PUT_BACK_MAX | RErr => True end.

(** [served lost past future far calls results]: the results the calls may give when the bytes of [past] (newest
    first) have been read and [future] is still to come; [far] is the largest number of bytes read so far; [lost] tells
    that the connection reported an error (after that nothing is promised about putting back).  Calls without result wait
    for more input, which is allowed only if the input at hand does not answer them. *)
Inductive served : bool -> list Z -> list (option Z) -> Z -> list iop -> list ival -> Prop :=
| sv_done b p f h : served b p f h [] []
| sv_peek b p c f h ops vs :
    served b p (Some c :: f) h ops vs -> served b p (Some c :: f) h (IPeek :: ops) (VChar (Some c) :: vs)
| sv_peek_eof b p f h ops vs : served true p f h ops vs -> served b p (None :: f) h (IPeek :: ops) (VChar None :: vs)
| sv_peek_wait b p h ops : served b p [] h (IPeek :: ops) []
| sv_get b p c f h ops vs :
    served b (c :: p) f (Z.max h (zlen (c :: p))) ops vs ->
    served b p (Some c :: f) h (IGet :: ops) (VChar (Some c) :: vs)
| sv_get_eof b p f h ops vs : served true p f h ops vs -> served b p (None :: f) h (IGet :: ops) (VChar None :: vs)
| sv_get_wait b p h ops : served b p [] h (IGet :: ops) []
| sv_read b p d f h n ops vs : zlen d = Z.max 0 n ->
    served b (rev d ++ p) f (Z.max h (zlen (rev d ++ p))) ops vs ->
    served b p (map Some d ++ f) h (IRead n :: ops) (VStr d :: vs)
| sv_read_eof b p d f h n ops vs : zlen d < n ->
    served true (rev d ++ p) f (Z.max h (zlen (rev d ++ p))) ops vs ->
    served b p (map Some d ++ None :: f) h (IRead n :: ops) (VStr d :: vs)
| sv_read_wait b p d h n ops : zlen d < n -> served b p (map Some d) h (IRead n :: ops) []
| sv_unget p c f h ops vs :
    served false p (Some c :: f) h ops vs -> served false (c :: p) f h (IUnget :: ops) (VChar (Some c) :: vs)
| sv_unget_no p f h ops vs : p = [] \/ 10 <= h - zlen p ->
    served false p f h ops vs -> served false p f h (IUnget :: ops) (VChar None :: vs)
| sv_putback p c f h ops vs :
    served false p (Some c :: f) h ops vs -> served false (c :: p) f h (IPutBack c :: ops) (VChar (Some c) :: vs)
| sv_putback_no p w f h ops vs : p = [] \/ 10 <= h - zlen p \/ hd_error p <> Some w ->
    served false p f h ops vs -> served false p f h (IPutBack w :: ops) (VChar None :: vs)
| sv_lost p f h o ops vs : (o = IUnget \/ exists w, o = IPutBack w) -> served true p f h (o :: ops) vs.
