(** Cancelled reads on an [AsyncioChannel] (channel.py:46-47, read_msg in
    dev/client_server_a.py:16-19), for example by [asyncio.wait_for].  Definitions
    only. *)
From Coq Require Import List ZArith Bool Strings.Byte.
From Verif Require Import PyBase Channel.
Import ListNotations.
Open Scope Z_scope.

(** [asyncio.CancelledError], raised at the await in which the task is suspended. *)
Definition CancelledError : exn := OtherExn 0.

(** [StreamReader.readexactly] (Python standard library, used at
    client_server_a.py:18-19) as in [Channel.readexactly], but when it has to wait
    after [j] more chunks have arrived the task is cancelled: the buffer keeps what
    has arrived.  Also returns how many of the [j] chunks are still to come. *)
Fixpoint await_cancel (j : nat) (n : Z) (buf : bytes) (chunks : list bytes) : areader * nat * res bytes :=
  if n <=? zlen buf
  then (AReader (skipn (Z.to_nat n) buf) chunks, j, Ok (firstn (Z.to_nat n) buf))
  else match j with
       | O => (AReader buf chunks, O, Err CancelledError)
       | S j' => match chunks with
                 | [] => (AReader [] [], j, Err IncompleteReadError)
                 | c :: r => await_cancel j' n (buf ++ c) r
                 end
       end.
Definition readexactly_cancel (j : nat) (n : Z) (s : areader) : areader * nat * res bytes :=
  if n <? 0 then (s, j, Err ValueError)
  else await_cancel j n (ar_buf s) (ar_chunks s).

(** [read_msg], client_server_a.py:16-19, cancelled at the first wait after [j]
    more chunks have arrived (not at all if it ends before). *)
Definition read_cancel (j : nat) (s : areader) : areader * res bytes :=
  match readexactly_cancel j 4 s with
  | (s1, _, Err e) => (s1, Err e)
  | (s1, j1, Ok h) => let '(s2, _, r) := readexactly_cancel j1 (unpack_i h) s1 in (s2, r)
  end.
