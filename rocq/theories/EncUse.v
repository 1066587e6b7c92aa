(** Histories of calls on one [EncryptedChannelV2], as used in the statements
    about it: every call runs to its end against answers of the underlying
    channel chosen by the environment (frames, successes, I/O errors,
    cancellation).  Definitions only; the calls themselves are those of
    [EncChannel] (v2/encrypted_channel_v2.py:57-74). *)
From Coq Require Import List ZArith Bool Strings.Byte.
From Verif Require Import PyBase IO Crypto EncChannel.
Import ListNotations.
Open Scope Z_scope.

(** One call: what happened on the underlying channel, the result, and for a
    read the attribute [last_flag] afterwards (line 95). *)
Inductive ecall : Type :=
| EcRead (t : list ev) (r : res bytes) (last : bool)
| EcWrite (m : bytes) (args : list bytes) (last : bool) (t : list ev) (r : res unit).

Inductive ec_hist (L : lib) : ec -> list ecall -> ec -> Prop :=
| eh_nil : forall s, ec_hist L s [] s
| eh_read : forall s t s1 r h s2,
    exec (ec_read L s) t (Some (s1, r)) -> ec_hist L s1 h s2 ->
    ec_hist L s (EcRead t r (ec_last_flag s1) :: h) s2
| eh_write : forall s m args last t s1 r h s2,
    exec (ec_write L m args last s) t (Some (s1, r)) -> ec_hist L s1 h s2 ->
    ec_hist L s (EcWrite m args last t r :: h) s2.

(** Frames handed to the underlying channel, and frames obtained from it. *)
Definition ev_out (e : ev) : list bytes := match e with EWrite ms _ _ => ms | ERead _ => [] end.
Definition ev_in (e : ev) : list bytes := match e with ERead (Ok f) => [f] | _ => [] end.
Definition call_events (c : ecall) : list ev :=
  match c with EcRead t _ _ => t | EcWrite _ _ _ t _ => t end.
Definition events (h : list ecall) : list ev := concat (map call_events h).
Definition frames_out (h : list ecall) : list bytes := concat (map ev_out (events h)).
Definition frames_in (h : list ecall) : list bytes := concat (map ev_in (events h)).

(** The messages of one write call; only the final one may carry the flag. *)
Fixpoint mark (last : bool) (msgs : list bytes) : list (bytes * bool) :=
  match msgs with
  | [] => []
  | [m] => [(m, last)]
  | m :: r => (m, false) :: mark last r
  end.

(** The messages of the write calls that reached the underlying channel. *)
Definition call_sent (c : ecall) : list (bytes * bool) :=
  match c with
  | EcWrite m args last (_ :: _) _ => mark last (m :: args)
  | _ => []
  end.
Definition sent_msgs (h : list ecall) : list (bytes * bool) := concat (map call_sent h).

(** What the successful reads returned, with the flag reported. *)
Definition call_got (c : ecall) : list (bytes * bool) :=
  match c with EcRead _ (Ok m) last => [(m, last)] | _ => [] end.
Definition got_msgs (h : list ecall) : list (bytes * bool) := concat (map call_got h).

(** Running a list of calls with given answers of the underlying channel (an
    answer is ignored when the call does not reach the channel).  Every such run
    is a history; used for the examples. *)
Inductive eop : Type :=
| OpRead (ans : res bytes)
| OpWrite (m : bytes) (args : list bytes) (last : bool) (ans : res unit).

Fixpoint io_run {A} (p : io A) (rd : res bytes) (wr : res unit) : list ev * A :=
  match p with
  | Ret a => ([], a)
  | Read k => let (t, a) := io_run (k rd) rd wr in (ERead rd :: t, a)
  | Write ms l k => let (t, a) := io_run (k wr) rd wr in (EWrite ms l wr :: t, a)
  end.

Fixpoint ec_run (L : lib) (s : ec) (ops : list eop) : list ecall * ec :=
  match ops with
  | [] => ([], s)
  | OpRead ans :: r =>
      let '(t, (s1, x)) := io_run (ec_read L s) ans (Ok tt) in
      let (h, s2) := ec_run L s1 r in (EcRead t x (ec_last_flag s1) :: h, s2)
  | OpWrite m args last ans :: r =>
      let '(t, (s1, x)) := io_run (ec_write L m args last s) (Ok []) ans in
      let (h, s2) := ec_run L s1 r in (EcWrite m args last t x :: h, s2)
  end.
