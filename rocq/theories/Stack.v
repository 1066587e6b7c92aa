(** Programs of the upper layers run over the byte-stream channels of
    saltchannel/channel.py: one peer on a failing network, and two peers joined by
    two byte streams.  Definitions only. *)
From Coq Require Import List ZArith Bool Strings.Byte.
From Verif Require Import PyBase IO Channel.
Import ListNotations.
Open Scope Z_scope.

(** ** One peer *)

(** [SocketChannel.write(msg, *args)], channel.py:62-63,81-89: the buffers given to
    [sendall] and the result.  A call without a message cannot be written in Python. *)
Definition socket_write (send : res unit) (ms : list bytes) : list bytes * res unit :=
  match ms with
  | m :: args => write_sync send m args
  | [] => ([], Ok tt)
  end.

(** A coroutine whose channel is a [SocketChannel] (channel.py:59-63: the coroutines
    [read] and [write] are the blocking calls).  [sends] are the outcomes of the
    [sendall] calls; once used up, they succeed.  Returned: the buffers sent, the
    socket and the outcome.  [None] only if [recvall] ran out of fuel. *)
Fixpoint over_socket {A} (p : io A) (s : sock) (sends : list (res unit))
  : option (list bytes * sock * A) :=
  match p with
  | Ret a => Some ([], s, a)
  | Read k =>
      match read_sync s with
      | None => None
      | Some (s', r) => over_socket (k r) s' sends
      end
  | Write ms l k =>
      let (bufs, r) := socket_write (hd (Ok tt) sends) ms in
      match over_socket (k r) s (if is_empty bufs then sends else tl sends) with
      | None => None
      | Some (out, s', a) => Some (bufs ++ out, s', a)
      end
  end.

(** The same on an [AsyncioChannel] (channel.py:46-52): [drains] are the outcomes of
    [drain]. *)
Fixpoint over_asyncio {A} (p : io A) (s : areader) (drains : list (res unit)) : bytes * areader * A :=
  match p with
  | Ret a => ([], s, a)
  | Read k => let (s', r) := read_msg s in over_asyncio (k r) s' drains
  | Write ms l k =>
      let (b, r) := async_write (hd (Ok tt) drains) ms in
      let '(out, s', a) := over_asyncio (k r) s (tl drains) in (b ++ out, s', a)
  end.

(** ** Two peers *)

(** What a peer does to the two byte streams of a connection without failures.
    [t_write] is one [channel.write]: the bytes handed to the network and the result.
    [t_take reading buf n] tells whether the peer may now move [n] bytes from the
    network to [buf], the bytes it has received and not consumed; [reading] tells
    whether it is inside [channel.read].  [t_read] is the completion of
    [channel.read], possible once [t_ready] holds of the received bytes. *)
Record transport : Type := Transport {
  t_write : list bytes -> bytes * res unit;
  t_take : bool -> bytes -> Z -> bool;
  t_read : bytes -> bytes * res bytes
}.

(** A complete message (or an impossible length prefix) has been received. *)
Definition t_ready (buf : bytes) : bool :=
  (4 <=? zlen buf) && (4 + unpack_i (firstn 4 buf) <=? zlen buf).

(** The most that the next [recv] of [read_sync] may return when [buf] has been
    received of the current message: the rest of the length prefix, then the rest of
    the body (channel.py:70-74, 91-98). *)
Definition recv_limit (buf : bytes) : Z :=
  if zlen buf <? 4 then 4 - zlen buf else 4 + unpack_i (firstn 4 buf) - zlen buf.

(** [SocketChannel]: bytes are received only inside [read_sync], by [recv] calls each
    returning between one byte and the number asked for. *)
Definition socket_transport : transport := Transport
  (fun ms => let (bufs, r) := socket_write (Ok tt) ms in (concat bufs, r))
  (fun reading buf n => reading && (n <=? recv_limit buf))
  (fun buf => match read_sync (Sock buf []) with
              | Some (s, r) => (sk_in s, r)
              | None => (buf, Err ComException)
              end).

(** [AsyncioChannel]: the event loop feeds the [StreamReader] at any time, unless the
    reader has paused the transport ([paused], any policy); inside [readexactly] with
    too little data the transport is always resumed. *)
Definition asyncio_transport (paused : bytes -> bool) : transport := Transport
  (async_write (Ok tt))
  (fun reading buf n => (reading && negb (t_ready buf)) || negb (paused buf))
  (fun buf => let (s, r) := read_msg (AReader buf []) in (ar_buf s, r)).

(** A connection: the two programs, what each has received and not consumed, and the
    bytes in flight.  Simplified: the network buffers without limit, so a write
    completes at once. *)
Record conn (A B : Type) : Type := Conn {
  c_left : io A; c_lbuf : bytes;
  c_right : io B; c_rbuf : bytes;
  c_lr : bytes;   (* in flight from left to right *)
  c_rl : bytes
}.
Arguments Conn {A B} _ _ _ _ _ _.
Arguments c_left {A B} _.
Arguments c_lbuf {A B} _.
Arguments c_right {A B} _.
Arguments c_rbuf {A B} _.
Arguments c_lr {A B} _.
Arguments c_rl {A B} _.

Definition reading {A} (p : io A) : bool := match p with Read _ => true | _ => false end.

Inductive cstep {A B} (TL TR : transport) : conn A B -> conn A B -> Prop :=
| cs_lw : forall ms l k lb q rb lr rl bs r, t_write TL ms = (bs, r) ->
    cstep TL TR (Conn (Write ms l k) lb q rb lr rl) (Conn (k r) lb q rb (lr ++ bs) rl)
| cs_lt : forall p lb q rb lr c rl, c <> [] -> t_take TL (reading p) lb (zlen c) = true ->
    cstep TL TR (Conn p lb q rb lr (c ++ rl)) (Conn p (lb ++ c) q rb lr rl)
| cs_lr : forall k lb lb' q rb lr rl r, t_ready lb = true -> t_read TL lb = (lb', r) ->
    cstep TL TR (Conn (Read k) lb q rb lr rl) (Conn (k r) lb' q rb lr rl)
| cs_rw : forall p lb ms l k rb lr rl bs r, t_write TR ms = (bs, r) ->
    cstep TL TR (Conn p lb (Write ms l k) rb lr rl) (Conn p lb (k r) rb lr (rl ++ bs))
| cs_rt : forall p lb q rb c lr rl, c <> [] -> t_take TR (reading q) rb (zlen c) = true ->
    cstep TL TR (Conn p lb q rb (c ++ lr) rl) (Conn p lb q (rb ++ c) lr rl)
| cs_rr : forall p lb k rb rb' lr rl r, t_ready rb = true -> t_read TR rb = (rb', r) ->
    cstep TL TR (Conn p lb (Read k) rb lr rl) (Conn p lb (k r) rb' lr rl).

(** Every run from the state is finite and its last state satisfies [P]. *)
Inductive inevitable {S} (R : S -> S -> Prop) (P : S -> Prop) : S -> Prop :=
| inev_done : forall s, P s -> (forall s', ~ R s s') -> inevitable R P s
| inev_step : forall s, (exists s', R s s') -> (forall s', R s s' -> inevitable R P s') -> inevitable R P s.
