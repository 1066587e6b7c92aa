(** User programs written against the messages of an [AppChannelV2]: they await
    [app_channel.read()] and [app_channel.write(msg, *args, is_last=...)].  Such a program
    is again an [io] tree, whose reads return messages and whose writes are batches of
    messages.  Definitions only. *)
From Coq Require Import List ZArith Bool Strings.Byte.
From Verif Require Import PyBase IO Packets Crypto Time EncChannel AppChannel AppUse Session StackUse.
Import ListNotations.
Open Scope Z_scope.

Section WithLib.
  Variable L : lib.
  Variable TK : tkeeper.
  Variable TC : tchecker.

  (** The program run on an application channel (v2/app_channel_v2.py:25-64): every read
      is [read], every write is [write]; exceptions go to the program.  [write] without a
      message is a TypeError of the call. *)
  Fixpoint over_app {A} (p : io A) (a : ac) : io (ac * A) :=
    match p with
    | Ret x => Ret (a, x)
    | Read k => iobind (ac_read L TC a) (fun y => over_app (k (snd y)) (fst y))
    | Write [] l k => over_app (k (Err TypeError)) a
    | Write (m :: args) l k => iobind (ac_write L TK m args l a) (fun y => over_app (k (snd y)) (fst y))
    end.

  (** [await session.handshake()], then the program on [session.app_channel] (the use
      shown in dev/example_session1.py:44-53, 74-82 and example_session3.py:52-67,
      108-122); the outcome of the program, or the exception of the handshake. *)
  Definition client_runs {A} (s : cs) (p : io A) : io (cs * option ac * res A) :=
    iobind (client_handshake L TK TC s) (fun x =>
      match snd x, cs_app (fst x) with
      | Ok _, Some a => iobind (over_app p a) (fun y => Ret (fst x, Some (fst y), Ok (snd y)))
      | Err e, a => Ret (fst x, a, Err e)
      | Ok _, None => Ret (fst x, None, Err AttributeError)
      end).

  Definition server_runs {A} (s : ss) (p : io A) : io (ss * option ac * res A) :=
    iobind (server_handshake L TK TC s) (fun x =>
      match snd x, ss_app (fst x) with
      | Ok _, Some a => iobind (over_app p a) (fun y => Ret (fst x, Some (fst y), Ok (snd y)))
      | Err e, a => Ret (fst x, a, Err e)
      | Ok _, None => Ret (fst x, None, Err AttributeError)
      end).
End WithLib.

(** A program that writes at most [n] messages in all, in batches that fit, as long as
    the messages it reads are of a size that can be sent. *)
Inductive modest {A} : nat -> io A -> Prop :=
| mo_ret : forall n a, modest n (Ret a)
| mo_read : forall n k, (forall r, (forall m, r = Ok m -> bulk [m]) -> modest n (k r)) -> modest n (Read k)
| mo_write : forall n m args l k, fits (m :: args) -> bulk (m :: args) ->
    (forall r, modest n (k r)) -> modest (length (m :: args) + n) (Write (m :: args) l k).

(** The session's program [p'] has stopped where the user's program [p] has: finished
    with the same result, or waiting for a message. *)
Definition same_end {S A} (p : io A) (p' : io (S * option ac * res A)) : Prop :=
  match p with
  | Ret x => exists s a, p' = Ret (s, Some a, Ok x)
  | Read _ => exists k, p' = Read k
  | Write _ _ _ => False
  end.
