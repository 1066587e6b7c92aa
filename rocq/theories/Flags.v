(** User programs that use an [AppChannelV2] including its [last] property: they await
    [app_channel.read()] and [app_channel.write(msg, *args, is_last=...)] and may look at
    [app_channel.last] at any time.  Definitions only. *)
From Coq Require Import List ZArith Bool Strings.Byte.
From Verif Require Import PyBase IO Packets Crypto Time EncChannel AppChannel AppUse EncUse Session StackUse.
Import ListNotations.
Open Scope Z_scope.

Inductive lio (A : Type) : Type :=
| LRet : A -> lio A
| LRead : (res bytes -> lio A) -> lio A
| LWrite : list bytes -> bool -> (res unit -> lio A) -> lio A
| LLast : (bool -> lio A) -> lio A.
Arguments LRet {A} _.
Arguments LRead {A} _.
Arguments LWrite {A} _ _ _.
Arguments LLast {A} _.

Section WithLib.
  Variable L : lib.
  Variable TK : tkeeper.
  Variable TC : tchecker.

  (** The program run on an application channel (v2/app_channel_v2.py:25-64); [last] is the
      property of lines 21-23.  Exceptions go to the program.  [write] without a message is a
      TypeError of the call. *)
  Fixpoint over_flags {A} (p : lio A) (a : ac) : io (ac * A) :=
    match p with
    | LRet x => Ret (a, x)
    | LRead k => iobind (ac_read L TC a) (fun y => over_flags (k (snd y)) (fst y))
    | LWrite [] l k => over_flags (k (Err TypeError)) a
    | LWrite (m :: args) l k => iobind (ac_write L TK m args l a) (fun y => over_flags (k (snd y)) (fst y))
    | LLast k => over_flags (k (ac_last a)) a
    end.

  (** [session.handshake_sync()], then the program on [session.app_channel] (the use shown in
      dev/example_session1.py:38-47, 65-73); the outcome of the program, or the exception of
      the handshake. *)
  Definition client_uses {A} (s : cs) (p : lio A) : io (cs * option ac * res A) :=
    iobind (client_handshake L TK TC s) (fun x =>
      match snd x, cs_app (fst x) with
      | Ok _, Some a => iobind (over_flags p a) (fun y => Ret (fst x, Some (fst y), Ok (snd y)))
      | Err e, a => Ret (fst x, a, Err e)
      | Ok _, None => Ret (fst x, None, Err AttributeError)
      end).
  Definition server_uses {A} (s : ss) (p : lio A) : io (ss * option ac * res A) :=
    iobind (server_handshake L TK TC s) (fun x =>
      match snd x, ss_app (fst x) with
      | Ok _, Some a => iobind (over_flags p a) (fun y => Ret (fst x, Some (fst y), Ok (snd y)))
      | Err e, a => Ret (fst x, a, Err e)
      | Ok _, None => Ret (fst x, None, Err AttributeError)
      end).
End WithLib.

(** ** The specification: two perfect queues of messages with flags *)

(** The flags with which the messages of one write call arrive.  A batch that travels in one
    MultiAppPacket (two messages or more, none above 65535 bytes) has the flag on every
    message, any other batch only on its last one. *)
Definition flagged (l : bool) (msgs : list bytes) : list (bytes * bool) :=
  if (1 <? Z.of_nat (length msgs)) && forallb short msgs then map (fun m => (m, l)) msgs else mark l msgs.

(** Two programs, what [last] says at each, and the messages on their way. *)
Record lsys (A B : Type) : Type := LSys {
  l_left : lio A;
  l_lflag : bool;
  l_right : lio B;
  l_rflag : bool;
  l_lr : list (bytes * bool);
  l_rl : list (bytes * bool)
}.
Arguments LSys {A B} _ _ _ _ _ _.
Arguments l_left {A B} _.
Arguments l_lflag {A B} _.
Arguments l_right {A B} _.
Arguments l_rflag {A B} _.
Arguments l_lr {A B} _.
Arguments l_rl {A B} _.

Inductive lstep {A B} : lsys A B -> lsys A B -> Prop :=
| ls_lw : forall ms l k f q g a b, lstep (LSys (LWrite ms l k) f q g a b) (LSys (k (Ok tt)) f q g (a ++ flagged l ms) b)
| ls_lr : forall k f q g a m h b, lstep (LSys (LRead k) f q g a ((m, h) :: b)) (LSys (k (Ok m)) h q g a b)
| ls_ll : forall k f q g a b, lstep (LSys (LLast k) f q g a b) (LSys (k f) f q g a b)
| ls_rw : forall ms l k f p g a b, lstep (LSys p f (LWrite ms l k) g a b) (LSys p f (k (Ok tt)) g a (b ++ flagged l ms))
| ls_rr : forall k f p g a m h b, lstep (LSys p f (LRead k) g ((m, h) :: a) b) (LSys p f (k (Ok m)) h a b)
| ls_rl : forall k f p g a b, lstep (LSys p f (LLast k) g a b) (LSys p f (k g) g a b).

Inductive lsteps {A B} : nat -> lsys A B -> lsys A B -> Prop :=
| lsteps_O : forall s, lsteps 0 s s
| lsteps_S : forall n s t u, lstep s t -> lsteps n t u -> lsteps (S n) s u.

(** Run to the end: no program can go on. *)
Definition lends {A B} (s F : lsys A B) : Prop := (exists n, lsteps n s F) /\ forall t, ~ lstep F t.

(** As [modest] in Pipe.v: at most [n] messages written in all, in batches that fit, as long as
    the messages read satisfy [P]; and the messages written satisfy [P]. *)
Inductive lmodest {A} (P : bytes -> Prop) : nat -> lio A -> Prop :=
| lm_ret : forall n a, lmodest P n (LRet a)
| lm_read : forall n k, (forall r, (forall m, r = Ok m -> P m) -> lmodest P n (k r)) -> lmodest P n (LRead k)
| lm_write : forall n m args l k, fits (m :: args) -> bulk (m :: args) -> Forall P (m :: args) ->
    (forall r, lmodest P n (k r)) -> lmodest P (length (m :: args) + n) (LWrite (m :: args) l k)
| lm_last : forall n k, (forall f, lmodest P n (k f)) -> lmodest P n (LLast k).

(** The real program has ended like the ideal one, or waits where it waits. *)
Definition lsame_end {S A} (p : lio A) (p' : io (S * option ac * res A)) : Prop :=
  match p with
  | LRet x => exists s a, p' = Ret (s, Some a, Ok x)
  | LRead _ => exists k, p' = Read k
  | LWrite _ _ _ | LLast _ => False
  end.
