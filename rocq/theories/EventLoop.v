(** Tasks of one event loop, over the channels of saltchannel/channel.py.  A task runs until a
    coroutine of asyncio suspends it: [AsyncioChannel.read] and [write] (channel.py:46-52) await
    the stream, which may suspend; [SocketChannel.read] and [write] (lines 62-66) are coroutines
    too, but call the blocking methods and so never do.  Definitions only. *)
From Coq Require Import List ZArith Bool Strings.Byte.
From Verif Require Import PyBase IO Harness.
Import ListNotations.

(** The task that the loop runs (None: the loop chooses, or waits for its streams), and the tasks:
    the rest of their programs and the messages that have arrived for them and have not been
    read yet (channel.py:46-47, 62-63) *)
Record loop (A : Type) : Type := Loop { lo_run : option nat; lo_tasks : list (io A * list bytes) }.
Arguments Loop {A} _ _.
Arguments lo_run {A} _.
Arguments lo_tasks {A} _.

Section Tasks.
  Context {A : Type}.
  (** Which tasks use an AsyncioChannel (true) and which a SocketChannel, and the task of the same
      loop at the other end of the connection of a task, if there is one (None: another process). *)
  Variable susp : nat -> bool.
  Variable peer : nat -> option nat.

  (** The frames of a write arrive at the other end (channel.py:49-52, 81-89).  Simplified: whole
      messages; connections do not break and their buffers are never full. *)
  Definition deliver (to : option nat) (ms : list bytes) (ts : list (io A * list bytes)) : list (io A * list bytes) :=
    match to with
    | Some j => match nth_error ts j with Some (c, q) => set_at j (c, q ++ ms) ts | None => ts end
    | None => ts
    end.

  (** Tasks that the loop can run: a task that has suspended in [read] when a message has arrived;
      one that has not been started yet (the only state in which the loop can find an unfinished
      task over a SocketChannel).  Simplified: starting a task over an AsyncioChannel that begins
      with a read only makes it wait, and is left out. *)
  Definition ready (i : nat) (c : io A) (q : list bytes) : bool :=
    match c with
    | Ret _ => false
    | Read _ => negb (susp i) || match q with [] => false | _ => true end
    | Write _ _ _ => true
    end.

  (** After a call of an AsyncioChannel that has not waited for a message the task may go on or
      may have been suspended ([drain], line 52); over a SocketChannel it goes on. *)
  Definition after (i : nat) (r : option nat) : Prop := r = Some i \/ (susp i = true /\ r = None).

  (** One step of the loop (label None), or the arrival of a message for a task whose peer is
      elsewhere (label: the task) *)
  Inductive lo_step : loop A -> option nat -> loop A -> Prop :=
  | lo_pick : forall ts i c q, nth_error ts i = Some (c, q) -> ready i c q = true ->
      lo_step (Loop None ts) None (Loop (Some i) ts)
  | lo_write : forall ts i ms l k q r, nth_error ts i = Some (Write ms l k, q) -> after i r ->
      lo_step (Loop (Some i) ts) None (Loop r (deliver (peer i) ms (set_at i (k (Ok tt), q) ts)))
  | lo_read : forall ts i k m q r, nth_error ts i = Some (Read k, m :: q) -> after i r ->
      lo_step (Loop (Some i) ts) None (Loop r (set_at i (k (Ok m), q) ts))
  | lo_wait : forall ts i k, nth_error ts i = Some (Read k, []) -> susp i = true ->
      lo_step (Loop (Some i) ts) None (Loop None ts)
  | lo_end : forall ts i a q, nth_error ts i = Some (Ret a, q) ->
      lo_step (Loop (Some i) ts) None (Loop None ts)
  | lo_arrive : forall run ts i c q m, nth_error ts i = Some (c, q) -> peer i = None ->
      lo_step (Loop run ts) (Some i) (Loop run (set_at i (c, q ++ [m]) ts)).

  (** Several steps, with their labels *)
  Inductive lo_path : list (option nat) -> loop A -> loop A -> Prop :=
  | lp_nil : forall s, lo_path [] s s
  | lp_cons : forall l ls s t u, lo_step s l t -> lo_path ls t u -> lo_path (l :: ls) s u.
End Tasks.

(** Two tasks that are connected with each other *)
Definition pair_peer (i : nat) : option nat := match i with O => Some 1%nat | _ => Some O end.
Definition pair_start {A} (p q : io A) : loop A := Loop None [(p, []); (q, [])].
(** The same with results of different types *)
Definition lefts {A B} (p : io A) : io (A + B) := iobind p (fun x => Ret (inl x)).
Definition rights {A B} (q : io B) : io (A + B) := iobind q (fun x => Ret (inr x)).

(** ** Specification *)

(** Whatever the loop does next, if nothing arrives from outside it comes to a state in [P]. *)
Inductive inevitably {A} (susp : nat -> bool) (peer : nat -> option nat) (P : loop A -> Prop) : loop A -> Prop :=
| iv_now : forall s, P s -> inevitably susp peer P s
| iv_later : forall s, (exists t, lo_step susp peer s None t) -> (forall t, lo_step susp peer s None t -> inevitably susp peer P t) ->
    inevitably susp peer P s.
