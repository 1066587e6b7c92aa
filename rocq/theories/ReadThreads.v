(** Threads that read from one [SocketChannel] (channel.py:68-79, 91-98).  Definitions only. *)
From Coq Require Import List ZArith Bool Strings.Byte.
From Verif Require Import PyBase Channel Harness Threads.
Import ListNotations.
Open Scope Z_scope.

(** Where a thread is in [read_sync]: not in a call; in [recvall(4)] (line 70) with the bytes it
    has; in [recvall(msg_len[0])] (line 74) with that length and the bytes it has *)
Inductive rphase : Type :=
| ROut
| RHead (got : bytes)
| RBody (len : Z) (got : bytes).

(** The bytes that will still arrive, the threads with the number of calls they are still going to
    make, and the calls that are over, with their results *)
Record rsock : Type := RSock {
  r_in : bytes;
  r_threads : list (rphase * nat);
  r_log : list (nat * res bytes)
}.

(** A step of any thread.  [recv(count)] (line 94) returns some of the bytes, at most [count]; b''
    at the end of the stream, which ends [recvall] without success (line 95) and the call with
    ComException (lines 71-72, 75-76); ValueError if [count] is negative, which becomes
    ComException (lines 78-79).  Simplified: [recv] does not fail otherwise; while no byte has
    arrived yet a thread waits, which is to say that it makes no step. *)
Inductive rstep : rsock -> rsock -> Prop :=
| rs_begin : forall b ts l i n, nth_error ts i = Some (ROut, S n) ->
    rstep (RSock b ts l) (RSock b (set_at i (RHead [], n) ts) l)
| rs_head : forall b p ts l i got n, nth_error ts i = Some (RHead got, n) -> p <> [] -> zlen got + zlen p <= 4 ->
    rstep (RSock (p ++ b) ts l) (RSock b (set_at i (RHead (got ++ p), n) ts) l)
| rs_head_end : forall ts l i got n, nth_error ts i = Some (RHead got, n) -> zlen got < 4 ->
    rstep (RSock [] ts l) (RSock [] (set_at i (ROut, n) ts) (l ++ [(i, Err ComException)]))
| rs_len : forall b ts l i got n, nth_error ts i = Some (RHead got, n) -> zlen got = 4 ->
    rstep (RSock b ts l) (RSock b (set_at i (RBody (unpack_i got) [], n) ts) l)
| rs_negative : forall b ts l i len n, nth_error ts i = Some (RBody len [], n) -> len < 0 ->
    rstep (RSock b ts l) (RSock b (set_at i (ROut, n) ts) (l ++ [(i, Err ComException)]))
| rs_body : forall b p ts l i len got n, nth_error ts i = Some (RBody len got, n) -> p <> [] -> zlen got + zlen p <= len ->
    rstep (RSock (p ++ b) ts l) (RSock b (set_at i (RBody len (got ++ p), n) ts) l)
| rs_body_end : forall ts l i len got n, nth_error ts i = Some (RBody len got, n) -> zlen got < len ->
    rstep (RSock [] ts l) (RSock [] (set_at i (ROut, n) ts) (l ++ [(i, Err ComException)]))
| rs_return : forall b ts l i len got n, nth_error ts i = Some (RBody len got, n) -> zlen got = len ->
    rstep (RSock b ts l) (RSock b (set_at i (ROut, n) ts) (l ++ [(i, Ok got)])).

(** Threads that are going to make [ns] calls each (line 68), on a socket that will receive [b] *)
Definition rinit (b : bytes) (ns : list nat) : rsock := RSock b (map (fun n => (ROut, n)) ns) [].

(** ** Specification *)
Definition reading {Y} (x : rphase * Y) : bool := match fst x with ROut => false | _ => true end.
