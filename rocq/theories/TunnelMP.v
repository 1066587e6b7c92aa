(** Model of [TunnelMP] (saltchannel/dev/tunnel.py:26-41): two channels over the ends of a
    multiprocessing pipe, used by two programs.  Definitions only. *)
From Coq Require Import List Bool.
From Verif Require Import PyBase IO Dev.
Import ListNotations.

(** [send_bytes] for one message after the other (tunnel.py:39-40), then the rest of the program.
    The pipe is a queue of messages in each direction ([sys] of IO.v).  Simplified: its capacity is
    not limited and its ends stay open. *)
Fixpoint send_each {A} (ms : list bytes) (k : io A) : io A :=
  match ms with
  | [] => k
  | m :: r => Write [m] false (fun _ => send_each r k)
  end.

(** A call [write(msg, *args)] (tunnel.py:38-40), [msg] bytes or a tuple of messages *)
Definition mp_write {A} (msg : tval) (args : list bytes) (k : res unit -> io A) : io A :=
  match py_add msg (TTuple args) with
  | Ok (TTuple l) => send_each l (k (Ok tt))
  | Ok (TBytes _) => k (Err TypeError)
  | Err e => k (Err e)
  end.

(** A program of channel calls run on an end of the pipe.  [pass] is how its writes pass the first
    message: as it is (the API of [ByteChannel], channel.py:12-33), or in a tuple.  A write without
    a message is a TypeError of the call.  [read] is [recv_bytes] (tunnel.py:35-36), which waits. *)
Fixpoint over_pipe {A} (pass : bytes -> tval) (p : io A) : io A :=
  match p with
  | Ret a => Ret a
  | Read k => Read (fun r => over_pipe pass (k r))
  | Write [] _ k => over_pipe pass (k (Err TypeError))
  | Write (m :: args) _ k => mp_write (pass m) args (fun r => over_pipe pass (k r))
  end.

(** Every write call of the program, whatever it is answered, has a message. *)
Fixpoint writes_some {A} (p : io A) : Prop :=
  match p with
  | Ret _ => True
  | Read k => forall r, writes_some (k r)
  | Write ms _ k => ms <> [] /\ forall r, writes_some (k r)
  end.
