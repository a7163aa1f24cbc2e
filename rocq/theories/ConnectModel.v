(** Model of the calls of tcp::connection and tcp::stream that open, secure and close a connection, and of what is written through it.
    Only the blocking calls are modelled. The system's answers are part of the operations. *)
From Coq Require Import String ZArith List Bool.
From Verif Require Import Base.
Import ListNotations.

(** An endpoint: its address family (4 or 6), its address and its port. boost::asio::ip::tcp::endpoint, used at tcp/connection.hpp:257-314 *)
Record endpoint := mkep { ep_family : Z; ep_addr : list Z; ep_port : Z }.
(** Error codes; the errors of the system are numbers. boost::system::error_code, used at tcp/connection.hpp:209-376 *)
Inductive errc := System (n : Z) | HostNotFound | AlreadyConnected | FamilyNotSupported | AlreadyOpen | NotConnected | SslError (n : Z).
(** What an endpoint answers when somebody connects to it: it accepts; no socket of its family can be made; the connection fails. used at tcp/connection.hpp:212, 260 *)
Inductive answer := Accepts | NoSocket (n : Z) | Refuses (n : Z).

(** The socket (m_ssl_socket.lowest_layer()): closed, or open for a family of addresses, and then connected or not. tcp/connection.hpp:708-718 *)
Inductive sock := Closed | Open (family : Z) (peer : option endpoint).
(** include/pion/tcp/connection.hpp:718-721: the socket and m_ssl_flag. [c_session]: the SSL object has completed a handshake.
    [c_secured] is not in the code: a handshake was completed on the present TCP connection. *)
Record conn := mkconn { c_sock : sock; c_flag : bool; c_session : bool; c_secured : bool }.
(** include/pion/tcp/connection.hpp:109-123 (and 131-143 with [flag] true, 689-705): the constructor; [ssl] is PION_HAVE_SSL *)
Definition new_conn (ssl flag : bool) : conn := mkconn Closed (ssl && flag) false false.
(** include/pion/tcp/connection.hpp:146-148 *)
Definition is_open (c : conn) : bool := match c_sock c with Closed => false | Open _ _ => true end.
(** a change of the socket ends what was secured; tcp/connection.hpp:151-169, 209-214, 257-262 *)
Definition set_sock (s : sock) (c : conn) : conn := mkconn s (c_flag c) (c_session c) false.
(** include/pion/tcp/connection.hpp:151-169 *)
Definition close (c : conn) : conn := if is_open c then set_sock Closed c else c.

(** include/pion/tcp/connection.hpp:257-262, with basic_socket::connect of Boost.Asio: a closed socket is opened for the family of the endpoint and
    stays open if the connection fails; an open socket is used as it is, if it is for that family and not connected. *)
Definition connect (ep : endpoint) (a : answer) (c : conn) : conn * option errc :=
  match c_sock c with
  | Closed => match a with
    | Accepts => (set_sock (Open (ep_family ep) (Some ep)) c, None)
    | NoSocket n => (c, Some (System n))
    | Refuses n => (set_sock (Open (ep_family ep) None) c, Some (System n))
    end
  | Open f (Some _) => (c, Some AlreadyConnected)
  | Open f None => if f =? ep_family ep then
      match a with Accepts => (set_sock (Open f (Some ep)) c, None) | NoSocket n | Refuses n => (c, Some (System n)) end
    else (c, Some FamilyNotSupported)
  end.

(** include/pion/tcp/connection.hpp:303-311, the loop; the endpoints the resolver gave with what they answer if tried. Also returned: the endpoints tried. *)
Fixpoint try_each (l : list (endpoint * answer)) (c : conn) (ec : option errc) : conn * option errc * list endpoint :=
  match ec, l with
  | None, _ | _, [] => (c, ec, [])
  | Some _, (ep, a) :: l' =>
    let '(c1, e1) := connect ep a c in
    let '(c2, e2, tried) := try_each l' (match e1 with Some _ => close c1 | None => c1 end) e1 in (c2, e2, ep :: tried)
  end.
(** include/pion/tcp/connection.hpp:289-314; [inl n]: the name is not resolved *)
Definition connect_host (r : Z + list (endpoint * answer)) (c : conn) : conn * option errc * list endpoint :=
  match r with inl n => (c, Some (System n), []) | inr l => try_each l c (Some HostNotFound) end.

(** include/pion/tcp/connection.hpp:209-214, with basic_socket_acceptor::accept: the socket must not be open; [inl n]: accept fails *)
Definition accept (r : Z + endpoint) (c : conn) : conn * option errc :=
  match c_sock c with
  | Open _ _ => (c, Some AlreadyOpen)
  | Closed => match r with inl n => (c, Some (System n)) | inr ep => (set_sock (Open (ep_family ep) (Some ep)) c, None) end
  end.

(** include/pion/tcp/connection.hpp:353-360 and 369-376 (both do the same here); [r]: None if the handshake succeeds.
    Without SSL support nothing is done. On a socket that is not connected, the handshake fails. *)
Definition handshake (ssl : bool) (r : option Z) (c : conn) : conn * option errc :=
  if ssl then
    match c_sock c, r with
    | Open _ (Some _), None => (mkconn (c_sock c) true true true, None)
    | Open _ (Some _), Some n => (mkconn (c_sock c) true false false, Some (SslError n))
    | _, _ => (mkconn (c_sock c) true false false, Some NotConnected)
    end
  else (c, None).

(** What reaches the peer: who it is, whether it was encrypted, whether a handshake with this peer was completed, the bytes. tcp/connection.hpp:579-592 *)
Record sent := mksent { s_peer : endpoint; s_encrypted : bool; s_secured : bool; s_data : list Z }.
(** include/pion/tcp/connection.hpp:579-592 ([write]; 561-569 for [async_write]): through the SSL object if m_ssl_flag is set, else through the socket.
    An SSL object without a session sends nothing. *)
Definition write (data : list Z) (c : conn) : option errc * list sent :=
  match c_sock c with
  | Open _ (Some ep) => if c_flag c then (if c_session c then (None, [mksent ep true (c_secured c) data]) else (Some (SslError 0), []))
                        else (None, [mksent ep false (c_secured c) data])
  | _ => (Some NotConnected, [])
  end.

(** The calls of a connection. tcp/connection.hpp:146-376, 579-592 *)
Inductive call := CConnect (ep : endpoint) (a : answer) | CHost (r : Z + list (endpoint * answer)) | CAccept (r : Z + endpoint) | CClose | CHandshake (r : option Z) | CWrite (data : list Z).
(** one call: the connection afterwards, the error returned, what was sent; tcp/connection.hpp:146-376, 579-592 *)
Definition call_step (ssl : bool) (c : conn) (k : call) : conn * option errc * list sent :=
  match k with
  | CConnect ep a => let '(c', e) := connect ep a c in (c', e, [])
  | CHost r => let '(c', e, _) := connect_host r c in (c', e, [])
  | CAccept r => let '(c', e) := accept r c in (c', e, [])
  | CClose => (close c, None, [])
  | CHandshake r => let '(c', e) := handshake ssl r c in (c', e, [])
  | CWrite d => let '(e, s) := write d c in (c, e, s)
  end.
(** a sequence of calls (no code of its own) *)
Fixpoint calls (ssl : bool) (c : conn) (l : list call) : conn * list sent :=
  match l with [] => (c, []) | k :: l' => let '(c1, _, s1) := call_step ssl c k in let '(c2, s2) := calls ssl c1 l' in (c2, s1 ++ s2) end.

(** include/pion/tcp/stream.hpp:384-389, 399-404, 415-422: a stream connects or accepts and then does the handshake, if the connection is to be encrypted.
    [h] is the handshake's answer. *)
Definition secure_then (ssl : bool) (h : option Z) (r : conn * option errc) : conn * option errc :=
  match r with
  | (c, None) => if c_flag c then handshake ssl h c else (c, None)
  | (c, Some e) => (c, Some e)
  end.
(** The calls of a stream; writing stands for what its buffer gives to the connection. tcp/stream.hpp:384-425 *)
Inductive scall := SConnect (ep : endpoint) (a : answer) (h : option Z) | SAccept (r : Z + endpoint) (h : option Z) | SClose | SWrite (data : list Z).
(** include/pion/tcp/stream.hpp:384-425 *)
Definition scall_step (ssl : bool) (c : conn) (k : scall) : conn * option errc * list sent :=
  match k with
  | SConnect ep a h => let '(c', e) := secure_then ssl h (connect ep a c) in (c', e, [])
  | SAccept r h => let '(c', e) := secure_then ssl h (accept r c) in (c', e, [])
  | SClose => (close c, None, [])
  | SWrite d => let '(e, s) := write d c in (c, e, s)
  end.
(** a sequence of calls (no code of its own) *)
Fixpoint scalls (ssl : bool) (c : conn) (l : list scall) : conn * list sent :=
  match l with [] => (c, []) | k :: l' => let '(c1, _, s1) := scall_step ssl c k in let '(c2, s2) := scalls ssl c1 l' in (c2, s1 ++ s2) end.
