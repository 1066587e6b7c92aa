(** Threads that share a channel: the synchronous methods of one [AppChannelV2]
    (v2/app_channel_v2.py:8-64, util/__init__.py:37-62), one [SocketChannel] (channel.py:58-98),
    and one [EncryptedChannelV2] driven by loops of the threads' own
    (v2/encrypted_channel_v2.py:68-77).  Definitions only. *)
From Coq Require Import List ZArith Bool Strings.Byte.
From Verif Require Import PyBase IO Packets Crypto Time Channel EncChannel EncUse AppChannel AppUse Tasks Harness.
From Verif Require Sync.
Import ListNotations.
Open Scope Z_scope.

(** ** [read_sync] and [write_sync] of an [AppChannelV2] *)

(** A call in progress: the loop of the channel runs the coroutine (util/__init__.py:58-60), which
    has got as far as [c], for thread [i]; [t] is what has happened on the channel below. *)
Inductive running : Type :=
| InRead (i : nat) (k : res bytes -> prog) (t : list ev) (c : io (ac * res bytes))
| InWrite (i : nat) (m : bytes) (args : list bytes) (last : bool) (k : res unit -> prog) (t : list ev) (c : io (ac * res unit)).
Definition runner (r : running) : nat := match r with InRead i _ _ _ | InWrite i _ _ _ _ _ _ => i end.

(** The attributes of the channel, what its loop runs, and what the threads have still to do
    ([prog] of Tasks.v, every call made as [read_sync()] or [write_sync(...)]) *)
Record shared : Type := Shared {
  sh_ac : ac;
  sh_run : option running;
  sh_threads : list prog
}.

(** The channel below answers a coroutine. *)
Inductive answered {A} : io A -> ev -> io A -> Prop :=
| an_read : forall k a, answered (Read k) (ERead a) (k a)
| an_write : forall ms l k a, answered (Write ms l k) (EWrite ms l a) (k a).

Section Sync.
  Variable L : lib.
  Variable TK : tkeeper.
  Variable TC : tchecker.

  (** A step, and the call that is over with it, if any: the thread, whether the call was run
      ([false]: refused), and the call.  [run_until_complete] raises RuntimeError if the loop is
      running, before it touches the coroutine (util/__init__.py:60; asyncio/base_events.py,
      [_check_running]); app_channel_v2.py:25-64 are [ac_read] and [ac_write].  Simplified: the
      check and the start of the loop are one step. *)
  Inductive sstep : shared -> option (nat * bool * ecall) -> shared -> Prop :=
  | ss_read : forall s ps i k, nth_error ps i = Some (PRead k) ->
      sstep (Shared s None ps) None (Shared s (Some (InRead i k [] (ac_read L TC s))) ps)
  | ss_write : forall s ps i m args last k, nth_error ps i = Some (PWrite m args last k) ->
      sstep (Shared s None ps) None (Shared s (Some (InWrite i m args last k [] (ac_write L TK m args last s))) ps)
  | ss_no_read : forall s r ps i k, nth_error ps i = Some (PRead k) -> i <> runner r ->
      sstep (Shared s (Some r) ps) (Some (i, false, EcRead [] (Err Sync.RuntimeError) (ac_last s)))
            (Shared s (Some r) (set_at i (k (Err Sync.RuntimeError)) ps))
  | ss_no_write : forall s r ps i m args last k, nth_error ps i = Some (PWrite m args last k) -> i <> runner r ->
      sstep (Shared s (Some r) ps) (Some (i, false, EcWrite m args last [] (Err Sync.RuntimeError)))
            (Shared s (Some r) (set_at i (k (Err Sync.RuntimeError)) ps))
  | ss_in_read : forall s ps i k t c e c', answered c e c' ->
      sstep (Shared s (Some (InRead i k t c)) ps) None (Shared s (Some (InRead i k (t ++ [e]) c')) ps)
  | ss_in_write : forall s ps i m args last k t c e c', answered c e c' ->
      sstep (Shared s (Some (InWrite i m args last k t c)) ps) None (Shared s (Some (InWrite i m args last k (t ++ [e]) c')) ps)
  | ss_end_read : forall s ps i k t s' r,
      sstep (Shared s (Some (InRead i k t (Ret (s', r)))) ps) (Some (i, true, EcRead t r (ac_last s')))
            (Shared s' None (set_at i (k r) ps))
  | ss_end_write : forall s ps i m args last k t s' r,
      sstep (Shared s (Some (InWrite i m args last k t (Ret (s', r)))) ps) (Some (i, true, EcWrite m args last t r))
            (Shared s' None (set_at i (k r) ps)).

  (** Executions (any schedule of the threads), with the calls that are over, in that order *)
  Inductive ssteps : shared -> list (nat * bool * ecall) -> shared -> Prop :=
  | sss_nil : forall x, ssteps x [] x
  | sss_step : forall x o y l z, sstep x o y -> ssteps y l z ->
      ssteps x (match o with Some c => c :: l | None => l end) z.
End Sync.

(** The calls that were run, and all calls with the threads that made them *)
Definition accepted (l : list (nat * bool * ecall)) : list ecall := map snd (filter (fun x => snd (fst x)) l).
Definition made (l : list (nat * bool * ecall)) : list (nat * ecall) := map (fun x => (fst (fst x), snd x)) l.

(** ** [write_sync] of a [SocketChannel] *)

(** A thread: the bytes [sendall] has still to send ([None]: not in a call), and the calls it is
    still going to make.  The socket: the bytes sent so far.  The log: the calls begun, in order. *)
Record wire : Type := Wire {
  w_sent : bytes;
  w_threads : list (option bytes * list (bytes * list bytes));
  w_log : list (nat * (bytes * list bytes))
}.

(** A step of any thread: [write_sync] packs its messages (channel.py:82-85) or raises, [sendall]
    (line 86) sends a piece of what is left, or returns.  CPython's [sendall] calls [send] until
    all is sent and lets other threads run meanwhile.  Simplified: sending does not fail. *)
Inductive wstep : wire -> wire -> Prop :=
| ws_begin : forall b ts l i m args cs raw, nth_error ts i = Some (None, (m, args) :: cs) -> pack_frames (m :: args) = Ok raw ->
    wstep (Wire b ts l) (Wire b (set_at i (Some raw, cs) ts) (l ++ [(i, (m, args))]))
| ws_raise : forall b ts l i m args cs e, nth_error ts i = Some (None, (m, args) :: cs) -> pack_frames (m :: args) = Err e ->
    wstep (Wire b ts l) (Wire b (set_at i (None, cs) ts) l)
| ws_send : forall b ts l i p q cs, nth_error ts i = Some (Some (p ++ q), cs) -> p <> [] ->
    wstep (Wire b ts l) (Wire (b ++ p) (set_at i (Some q, cs) ts) l)
| ws_end : forall b ts l i cs, nth_error ts i = Some (Some [], cs) ->
    wstep (Wire b ts l) (Wire b (set_at i (None, cs) ts) l).

Definition winit (css : list (list (bytes * list bytes))) : wire := Wire [] (map (fun cs => (None, cs)) css) [].

(** ** [write] of an [EncryptedChannelV2] *)

(** Where a thread is in [write] (encrypted_channel_v2.py:68-74): not in a call; at the head of the
    loop, with the messages left and the frames made; after line 72, about to evaluate
    [self.value += 2] (line 29): to read it; and to store it.  The flag is [is_last]. *)
Inductive nphase : Type :=
| NOut
| NLoop (ms out : list bytes) (last : bool)
| NLoad (ms out : list bytes) (last : bool)
| NStore (ms out : list bytes) (last : bool) (v : Z).

(** The channel's attributes, the frames handed to the channel below, and the threads with the
    calls they are still going to make *)
Record nonces : Type := Nonces {
  n_ec : ec;
  n_sent : list bytes;
  n_threads : list (nphase * list (bytes * list bytes * bool))
}.

Definition ec_set_write (v : Z) (s : ec) : ec :=
  EC (ec_key s) (ec_pushback s) (ec_last_flag s) (ec_read_nonce s) v (ec_session_nonce s).

Section Nonces.
  Variable L : lib.

  (** A step of any thread.  Line 72 encrypts with the value the nonce has then (lines 76-77) and
      wraps; line 73 advances (lines 28-29); line 74 hands over all frames.  Simplified: encryption
      reads the nonce once, in one step, and the channel below takes the frames of a call whole. *)
  Inductive nstep : nonces -> nonces -> Prop :=
  | ns_begin : forall s b ts i m args last cs, nth_error ts i = Some (NOut, (m, args, last) :: cs) ->
      nstep (Nonces s b ts) (Nonces s b (set_at i (NLoop (m :: args) [] last, cs) ts))
  | ns_encrypt : forall s b ts i m ms out last cs c, nth_error ts i = Some (NLoop (m :: ms) out last, cs) ->
      ec_encrypt L s m = Ok c ->
      nstep (Nonces s b ts) (Nonces s b (set_at i (NLoad ms (out ++ [ec_wrap c (last && is_empty ms)]) last, cs) ts))
  | ns_raise : forall s b ts i m ms out last cs e, nth_error ts i = Some (NLoop (m :: ms) out last, cs) ->
      ec_encrypt L s m = Err e ->
      nstep (Nonces s b ts) (Nonces s b (set_at i (NOut, cs) ts))
  | ns_load : forall s b ts i ms out last cs, nth_error ts i = Some (NLoad ms out last, cs) ->
      nstep (Nonces s b ts) (Nonces s b (set_at i (NStore ms out last (ec_write_nonce s), cs) ts))
  | ns_store : forall s b ts i ms out last v cs, nth_error ts i = Some (NStore ms out last v, cs) ->
      nstep (Nonces s b ts) (Nonces (ec_set_write (v + 2) s) b (set_at i (NLoop ms out last, cs) ts))
  | ns_send : forall s b ts i out last cs, nth_error ts i = Some (NLoop [] out last, cs) ->
      nstep (Nonces s b ts) (Nonces s (b ++ out) (set_at i (NOut, cs) ts)).
End Nonces.

Definition ninit (s : ec) (css : list (list (bytes * list bytes * bool))) : nonces := Nonces s [] (map (fun cs => (NOut, cs)) css).

(** ** Specification *)

(** The threads use a lock around their calls: at most one of them is in a call. *)
Definition alone {X} (busy : X -> bool) (ts : list X) : Prop :=
  forall i j x y, nth_error ts i = Some x -> nth_error ts j = Some y -> busy x = true -> busy y = true -> i = j.
Definition sending {Y} (x : option bytes * Y) : bool := match fst x with Some _ => true | None => false end.
Definition writing {Y} (x : nphase * Y) : bool := match fst x with NOut => false | _ => true end.

(** Executions all of whose states satisfy [P] *)
Inductive keeping {X} (R : X -> X -> Prop) (P : X -> Prop) : X -> X -> Prop :=
| kp_nil : forall x, P x -> keeping R P x x
| kp_step : forall x y z, P x -> R x y -> keeping R P y z -> keeping R P x z.

(** Calls of thread [i] in a log *)
Definition of_thread {X} (i : nat) (l : list (nat * X)) : list X := map snd (filter (fun x => Nat.eqb (fst x) i) l).

(** Messages that [write_sync] can frame: the length fits the four bytes. *)
Definition sendable (c : bytes * list bytes) : bool := forallb (fun m => Z.of_nat (length m) <? 2 ^ 31) (fst c :: snd c).

(** The arguments of a call of [write] *)
Definition written (c : ecall) : list (bytes * list bytes * bool) :=
  match c with EcWrite m args last _ _ => [(m, args, last)] | EcRead _ _ _ => [] end.
