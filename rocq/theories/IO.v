(** Interaction with a [ByteChannel] (saltchannel/channel.py:12-33) as seen from
    the layers above it, and the executions of such programs.  A coroutine is a
    tree: it has returned, awaits [channel.read()], or awaits
    [channel.write(msg, *args, is_last=...)].  The result of each await is
    supplied from outside: the peer, the attacker, or an I/O failure. *)
From Coq Require Import List ZArith Bool.
From Verif Require Import PyBase.
Import ListNotations.

Inductive io (A : Type) : Type :=
| Ret (a : A)
| Read (k : res bytes -> io A)
| Write (ms : list bytes) (last : bool) (k : res unit -> io A).
Arguments Ret {A} _.
Arguments Read {A} _.
Arguments Write {A} _ _ _.

Fixpoint iobind {A B} (p : io A) (f : A -> io B) : io B :=
  match p with
  | Ret a => f a
  | Read k => Read (fun r => iobind (k r) f)
  | Write ms l k => Write ms l (fun r => iobind (k r) f)
  end.

(** Python coroutine methods: they read and update the object's state [S], may
    await the channel, and finish with a value or an exception.  State changes
    made before an exception persist. *)
Definition M (S A : Type) : Type := S -> io (S * res A).

Definition mret {S A} (a : A) : M S A := fun s => Ret (s, Ok a).
Definition mraise {S A} (e : exn) : M S A := fun s => Ret (s, Err e).
Definition mbind {S A B} (m : M S A) (f : A -> M S B) : M S B :=
  fun s => iobind (m s) (fun x => match snd x with
                                  | Ok a => f a (fst x)
                                  | Err e => Ret (fst x, Err e)
                                  end).
Definition mget {S} : M S S := fun s => Ret (s, Ok s).
Definition mput {S} (s' : S) : M S unit := fun _ => Ret (s', Ok tt).
Definition mmod {S} (f : S -> S) : M S unit := fun s => Ret (f s, Ok tt).
Definition mlift {S A} (r : res A) : M S A := fun s => Ret (s, r).
Definition mread {S} : M S bytes := fun s => Read (fun r => Ret (s, r)).
Definition mwrite {S} (ms : list bytes) (last : bool) : M S unit :=
  fun s => Write ms last (fun r => Ret (s, r)).

(** Running a method of a sub-object held in the state. *)
Definition mzoom {S T A} (g : S -> T) (p : T -> S -> S) (m : M T A) : M S A :=
  fun s => iobind (m (g s)) (fun x => Ret (p (fst x) s, snd x)).

Declare Scope m_scope.
Notation "x <- m ;; f" := (mbind m (fun x => f)) (at level 61, m at next level, right associativity) : m_scope.
Notation "m ;;; f" := (mbind m (fun _ => f)) (at level 61, right associativity) : m_scope.

(** Events seen on the channel and the executions of a program.  The environment
    chooses every answer; [None] as outcome means the execution was cut off at
    that point (crash, or not finished yet). *)
Inductive ev : Type :=
| ERead (r : res bytes)
| EWrite (ms : list bytes) (last : bool) (r : res unit).

Inductive exec {A} : io A -> list ev -> option A -> Prop :=
| ex_cut : forall p, exec p [] None
| ex_ret : forall a, exec (Ret a) [] (Some a)
| ex_read : forall k r t o, exec (k r) t o -> exec (Read k) (ERead r :: t) o
| ex_write : forall ms l k r t o, exec (k r) t o -> exec (Write ms l k) (EWrite ms l r :: t) o.

(** Two peers joined by two reliable FIFO queues of frames. *)
Record sys (A B : Type) : Type := Sys {
  s_left : io A;
  s_right : io B;
  s_lr : list bytes;   (* frames in flight from left to right *)
  s_rl : list bytes    (* frames in flight from right to left *)
}.
Arguments Sys {A B} _ _ _ _.
Arguments s_left {A B} _.
Arguments s_right {A B} _.
Arguments s_lr {A B} _.
Arguments s_rl {A B} _.

(** One atomic step of one peer; which peer moves is up to the scheduler. *)
Inductive step {A B} : sys A B -> sys A B -> Prop :=
| st_lw : forall ms l k pr a b,
    step (Sys (Write ms l k) pr a b) (Sys (k (Ok tt)) pr (a ++ ms) b)
| st_lr : forall k pr a m b,
    step (Sys (Read k) pr a (m :: b)) (Sys (k (Ok m)) pr a b)
| st_rw : forall pl ms l k a b,
    step (Sys pl (Write ms l k) a b) (Sys pl (k (Ok tt)) a (b ++ ms))
| st_rr : forall pl k m a b,
    step (Sys pl (Read k) (m :: a) b) (Sys pl (k (Ok m)) a b).

Inductive steps {A B} : nat -> sys A B -> sys A B -> Prop :=
| steps_O : forall s, steps 0 s s
| steps_S : forall n s t u, step s t -> steps n t u -> steps (S n) s u.

Definition stuck {A B} (s : sys A B) : Prop := forall t, ~ step s t.
