(** Model of the content buffers of messages at the level of memory: [content_buffer_t] of include/pion/http/message.hpp:501-561.
    Blocks of memory are allocated, freed, read and written; reading or writing a freed block or past its end is [Bad]. *)
From Coq Require Import ZArith List Bool.
From Verif Require Import Base HttpModel Threads.
Import ListNotations.

(** Where [m_ptr] points to: the [m_empty] of an object, or a block of memory. message.hpp:559-560 *)
Inductive cptr := PEmpty (i : nat) | PBlock (a : nat).
(** The members [m_buf], [m_len], [m_empty] and [m_ptr]. message.hpp:557-560 *)
Record cbuf := mkc { c_buf : option nat; c_len : Z; c_empty : Z; c_ptr : cptr }.
(** The memory: the blocks ever allocated ([None]: freed; a byte is [None] until it is written) and the objects ever created
    ([None]: destroyed). An address is never used twice, so that a use of a freed block shows. message.hpp:501-561 *)
Record mem := mkmem { b_blocks : list (option (list (option Z))); b_objs : list (option cbuf) }.

(** the object a program names, message.hpp:501-561 *)
Definition obj (m : mem) (i : nat) : outcome cbuf :=
  match nth_error (b_objs m) i with Some (Some o) => Ok o | _ => Bad BadMemory end.
(** assignment to members of an object, message.hpp:557-560 *)
Definition set_obj (m : mem) (i : nat) (o : option cbuf) : mem := mkmem (b_blocks m) (set_nth i o (b_objs m)).

(** [n] bytes read at a pointer, message.hpp:515, 523, 537 *)
Definition load (m : mem) (p : cptr) (n : Z) : outcome (list (option Z)) :=
  match p with
  | PEmpty i => obind (obj m i) (fun o => if n <=? 1 then Ok (firstn (Z.to_nat n) [Some (c_empty o)]) else Bad BadMemory)
  | PBlock a => match nth_error (b_blocks m) a with
                | Some (Some b) => if n <=? zlen b then Ok (firstn (Z.to_nat n) b) else Bad BadMemory
                | _ => Bad BadMemory
                end
  end.
(** Bytes written at an offset from a pointer, message.hpp:515, 523, 540, 550. Writing to [m_empty] is left out ([Bad]): nothing in the
    library does so. *)
Definition store (m : mem) (p : cptr) (off : Z) (s : list (option Z)) : outcome mem :=
  match p with
  | PEmpty i => match s with [] => Ok m | _ => Bad BadMemory end
  | PBlock a => match nth_error (b_blocks m) a with
                | Some (Some b) =>
                  if (0 <=? off) && (off + zlen s <=? zlen b)
                  then Ok (mkmem (set_nth a (Some (firstn (Z.to_nat off) b ++ s ++ skipn (Z.to_nat off + length s) b)) (b_blocks m)) (b_objs m))
                  else Bad BadMemory
                | _ => Bad BadMemory
                end
  end.
(** [memcpy], message.hpp:515, 523. On the same range twice, which the standard leaves open, it keeps the bytes. *)
Definition memcpy (m : mem) (dst src : cptr) (n : Z) : outcome mem := obind (load m src n) (store m dst 0).

(** [scoped_array::reset]: the block held before is freed. message.hpp:546-549 *)
Definition free (m : mem) (old : option nat) : outcome mem :=
  match old with
  | None => Ok m
  | Some a => match nth_error (b_blocks m) a with
              | Some (Some _) => Ok (mkmem (set_nth a None (b_blocks m)) (b_objs m))
              | _ => Bad BadMemory
              end
  end.

(** [resize()], message.hpp:543-553. [granted]: whether the allocation succeeds; if not, an exception is thrown (the flag of the
    result). The length is assigned first. *)
Definition c_resize (m : mem) (i : nat) (len : Z) (granted : bool) : outcome (mem * bool) :=
  obind (obj m i) (fun o =>
  let m1 := set_obj m i (Some (mkc (c_buf o) len (c_empty o) (c_ptr o))) in
  if len =? 0 then obind (free m1 (c_buf o)) (fun m2 => Ok (set_obj m2 i (Some (mkc None len (c_empty o) (PEmpty i))), false))
  else if negb granted then Ok (m1, true)
  else
    let a := length (b_blocks m1) in
    let m2 := mkmem (b_blocks m1 ++ [Some (repeat None (Z.to_nat (wrap64 (len + 1))))]) (b_objs m1) in
    obind (free m2 (c_buf o)) (fun m3 =>
    let m4 := set_obj m3 i (Some (mkc (Some a) len (c_empty o) (c_ptr o))) in
    obind (store m4 (PBlock a) len [Some 0]) (fun m5 =>
    Ok (set_obj m5 i (Some (mkc (Some a) len (c_empty o) (PBlock a))), false)))).

(** What a program does with buffers. [BWrite]: bytes written at an offset through the pointer [get()] gives.
    message.hpp:505-553, 324-352 *)
Inductive bop := BNew | BCopy (j : nat) (granted : bool) | BAssign (i j : nat) (granted : bool) | BResize (i : nat) (len : Z) (granted : bool)
  | BClear (i : nat) | BWrite (i : nat) (off : Z) (s : list Z) | BDestroy (i : nat).

(** message.hpp:505-556. A copy whose allocation fails is no object; its exception, like the others, is left to the caller. *)
Definition c_op (m : mem) (x : bop) : outcome mem :=
  match x with
  | BNew => Ok (mkmem (b_blocks m) (b_objs m ++ [Some (mkc None 0 0 (PEmpty (length (b_objs m))))]))
  | BCopy j g =>
    let i := length (b_objs m) in
    let m1 := mkmem (b_blocks m) (b_objs m ++ [Some (mkc None 0 0 (PEmpty i))]) in
    obind (obj m1 j) (fun src =>
    if c_len src =? 0 then Ok m1
    else obind (c_resize m1 i (c_len src) g) (fun r =>
         if snd r then Ok (set_obj (fst r) i None)
         else obind (obj (fst r) i) (fun o => obind (obj (fst r) j) (fun s => memcpy (fst r) (c_ptr o) (c_ptr s) (c_len s)))))
  | BAssign i j g =>
    obind (obj m j) (fun src =>
    if c_len src =? 0 then obind (c_resize m i 0 true) (fun r => Ok (fst r))
    else obind (c_resize m i (c_len src) g) (fun r =>
         if snd r then Ok (fst r)
         else obind (obj (fst r) i) (fun o => obind (obj (fst r) j) (fun s => memcpy (fst r) (c_ptr o) (c_ptr s) (c_len s)))))
  | BResize i len g => obind (c_resize m i len g) (fun r => Ok (fst r))
  | BClear i => obind (c_resize m i 0 true) (fun r => Ok (fst r))
  | BWrite i off s => obind (obj m i) (fun o => store m (c_ptr o) off (map Some s))
  | BDestroy i => obind (obj m i) (fun o => obind (free m (c_buf o)) (fun m1 => Ok (set_obj m1 i None)))
  end.
(** one after the other, message.hpp:505-556 *)
Fixpoint c_ops (m : mem) (l : list bop) : outcome mem := match l with [] => Ok m | x :: l' => obind (c_op m x) (fun m1 => c_ops m1 l') end.

(** [size()], message.hpp:534 *)
Definition c_size (m : mem) (i : nat) : outcome Z := obind (obj m i) (fun o => Ok (c_len o)).
(** the bytes [get()] points to, as many as [size()] tells and one more: message.hpp:534-540 *)
Definition c_bytes (m : mem) (i : nat) : outcome (list (option Z)) := obind (obj m i) (fun o => load m (c_ptr o) (c_len o + 1)).
