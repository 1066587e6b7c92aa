(** Model of saltchannel/channel.py and of the asyncio stream classes in
    saltchannel/dev/client_server_a.py.  Definitions only. *)
From Coq Require Import List ZArith Bool Strings.Byte.
From Verif Require Import PyBase.
Import ListNotations.
Open Scope Z_scope.

(** [struct.pack('<i', n)]: struct.error outside the signed 32-bit range. *)
Definition pack_i (n : Z) : res bytes :=
  if (- 2 ^ 31 <=? n) && (n <? 2 ^ 31) then Ok (le_enc 4 n) else Err StructError.

(** [struct.unpack('<i', b)] for a 4-byte buffer. *)
Definition unpack_i (b : bytes) : Z := le_dec_signed 4 b.

(** ** Blocking sockets *)

(** What the network does at one [recv] call: deliver at most [max 1 k] of the
    bytes that have arrived, or fail. *)
Inductive recv_choice : Type := RChunk (k : nat) | RFail (e : exn).

(** The receiving side of a socket: all bytes that will arrive before the peer
    closes, and the network's future choices (once the list is used up, every
    [recv] delivers all it can). *)
Record sock : Type := Sock { sk_in : bytes; sk_sched : list recv_choice }.

(** [socket.recv(n)]: ValueError for negative [n]; b'' only at end of stream. *)
Definition recv (n : Z) (s : sock) : sock * res bytes :=
  if n <? 0 then (s, Err ValueError)
  else match sk_sched s with
       | RFail e :: r => (Sock (sk_in s) r, Err e)
       | RChunk k :: r =>
           let m := Nat.min (Z.to_nat n) (Nat.max 1 k) in
           (Sock (skipn m (sk_in s)) r, Ok (firstn m (sk_in s)))
       | [] =>
           let m := Z.to_nat n in
           (Sock (skipn m (sk_in s)) [], Ok (firstn m (sk_in s)))
       end.

(** [SocketChannel.recvall], channel.py:91-98.  [fuel] bounds the loop; [None]
    would mean the bound was too small, which is proved impossible for the fuel
    used in [read_sync]. *)
Fixpoint recvall_loop (fuel : nat) (count : Z) (buf : bytes) (s : sock)
  : option (sock * res (bytes * bool)) :=
  match fuel with
  | O => None
  | S f =>
      if count =? 0 then Some (s, Ok (buf, true))
      else match recv count s with
           | (s', Err e) => Some (s', Err e)
           | (s', Ok newbuf) =>
               if is_empty newbuf then Some (s', Ok (buf, false))
               else recvall_loop f (count - zlen newbuf) (buf ++ newbuf) s'
           end
  end.
Definition recvall (count : Z) (s : sock) : option (sock * res (bytes * bool)) :=
  recvall_loop (S (Z.to_nat count)) count [] s.

(** [SocketChannel.read_sync], channel.py:68-79: every exception is re-raised as
    ComException. *)
Definition read_sync (s : sock) : option (sock * res bytes) :=
  match recvall 4 s with
  | None => None
  | Some (s1, Err _) => Some (s1, Err ComException)
  | Some (s1, Ok (_, false)) => Some (s1, Err ComException)
  | Some (s1, Ok (len_buf, true)) =>
      match recvall (unpack_i len_buf) s1 with
      | None => None
      | Some (s2, Err _) => Some (s2, Err ComException)
      | Some (s2, Ok (_, false)) => Some (s2, Err ComException)
      | Some (s2, Ok (msg, true)) => Some (s2, Ok msg)
      end
  end.

(** Successive [read_sync] calls, stopping at the first exception. *)
Fixpoint read_sync_n (n : nat) (s : sock) : option (sock * list bytes * option exn) :=
  match n with
  | O => Some (s, [], None)
  | S n' =>
      match read_sync s with
      | None => None
      | Some (s', Err e) => Some (s', [], Some e)
      | Some (s', Ok m) =>
          match read_sync_n n' s' with
          | None => None
          | Some (s'', ms, e) => Some (s'', m :: ms, e)
          end
      end
  end.

(** The loop of [write_sync], channel.py:84-85 *)
Fixpoint pack_frames (msgs : list bytes) : res bytes :=
  match msgs with
  | [] => Ok []
  | m :: r =>
      match pack_i (zlen m) with
      | Err e => Err e
      | Ok h => match pack_frames r with
                | Err e => Err e
                | Ok b => Ok (h ++ m ++ b)
                end
      end
  end.

(** [SocketChannel.write_sync], channel.py:81-89.  [send] is the outcome of
    [sock.sendall]; the first component lists the buffers handed to [sendall]. *)
Definition write_sync (send : res unit) (message : bytes) (args : list bytes) : list bytes * res unit :=
  match pack_frames (message :: args) with
  | Err _ => ([], Err ComException)
  | Ok raw => ([raw], match send with Ok _ => Ok tt | Err _ => Err ComException end)
  end.

(** ** asyncio streams *)

(** [StreamReader]: the buffer, and the chunks the transport will still feed
    before end of stream.  Simplified: [set_exception] (connection reset) is not
    modelled. *)
Record areader : Type := AReader { ar_buf : bytes; ar_chunks : list bytes }.

(** [StreamReader.readexactly(n)] (Python standard library, used at
    client_server_a.py:18-19): waits for chunks until [n] bytes are buffered; at
    end of stream raises IncompleteReadError and discards the buffer. *)
Fixpoint await_data (n : Z) (buf : bytes) (chunks : list bytes) : areader * res bytes :=
  if n <=? zlen buf
  then (AReader (skipn (Z.to_nat n) buf) chunks, Ok (firstn (Z.to_nat n) buf))
  else match chunks with
       | [] => (AReader [] [], Err IncompleteReadError)
       | c :: r => await_data n (buf ++ c) r
       end.
Definition readexactly (n : Z) (s : areader) : areader * res bytes :=
  if n <? 0 then (s, Err ValueError)
  else await_data n (ar_buf s) (ar_chunks s).

(** [SaltChannelStreamReader.read_msg], client_server_a.py:16-19 ([msg_len] is a
    one-element tuple, hence always truthy); [AsyncioChannel.read],
    channel.py:46-47. *)
Definition read_msg (s : areader) : areader * res bytes :=
  match readexactly 4 s with
  | (s1, Err e) => (s1, Err e)
  | (s1, Ok h) => readexactly (unpack_i h) s1
  end.

(** Successive reads, stopping at the first exception. *)
Fixpoint read_msg_n (n : nat) (s : areader) : areader * list bytes * option exn :=
  match n with
  | O => (s, [], None)
  | S n' =>
      match read_msg s with
      | (s', Err e) => (s', [], Some e)
      | (s', Ok m) => match read_msg_n n' s' with (s'', ms, e) => (s'', m :: ms, e) end
      end
  end.

(** [SaltChannelStreamWriter.write_msg], client_server_a.py:12-14: the bytes given
    to the transport. *)
Definition write_msg (m : bytes) : res bytes :=
  match pack_i (zlen m) with Ok h => Ok (h ++ m) | Err e => Err e end.

(** [AsyncioChannel.write], channel.py:49-52: each message is handed to the
    transport at once; an oversized one raises with the previous ones already
    sent.  [drain] is the outcome of [writer.drain()]. *)
Fixpoint async_write (drain : res unit) (msgs : list bytes) : bytes * res unit :=
  match msgs with
  | [] => ([], drain)
  | m :: r =>
      match write_msg m with
      | Err e => ([], Err e)
      | Ok b => match async_write drain r with (bs, x) => (b ++ bs, x) end
      end
  end.
