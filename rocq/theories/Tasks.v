(** asyncio tasks sharing one [AppChannelV2] (v2/app_channel_v2.py:25-64 on top of
    v2/encrypted_channel_v2.py:57-74).  A task runs without interruption until it
    awaits something that is not ready; the scheduler may then run any other task.
    The calls of [AppChannel] are therefore cut at their awaits, and what follows
    an await works on the attributes as they are at that time.  Definitions only. *)
From Coq Require Import List ZArith Bool Strings.Byte.
From Verif Require Import PyBase IO Packets Crypto Time EncChannel EncUse AppChannel AppUse.
Import ListNotations.
Open Scope Z_scope.

(** What a task does with the shared channel: nothing any more, await
    [channel.read()], or await [channel.write(m, *args, is_last=last)]; results,
    including exceptions, go to the continuation. *)
Inductive prog : Type :=
| PDone
| PRead (k : res bytes -> prog)
| PWrite (m : bytes) (args : list bytes) (last : bool) (k : res unit -> prog).

(** A task: running (or ready to run), suspended in the await of the channel below
    inside [read] (app_channel_v2.py:29, encrypted_channel_v2.py:62), or suspended
    in that of [write] (app_channel_v2.py:64, encrypted_channel_v2.py:74), which
    will give [r]. *)
Inductive task : Type :=
| TRun (p : prog)
| TRead (k : res bytes -> prog)
| TWrite (r : res unit) (k : res unit -> prog).

Section WithLib.
  Variable L : lib.
  Variable TK : tkeeper.
  Variable TC : tchecker.

  (** The part of [read] after the channel below has answered
      (encrypted_channel_v2.py:64-66, then app_channel_v2.py:30-39): [readQ] is
      extended, whatever it holds by now. *)
  Definition ac_finish (s : ac) (raw : bytes) : ac * res bytes :=
    match ec_process L (ac_enc s) raw with
    | (e1, Err e) => (ac_set_enc e1 s, Err e)
    | (e1, Ok clear) =>
        match ac_interpret TC clear with
        | Err e => (ac_set_enc e1 s, Err e)
        | Ok (d, q) => (ac_set_readq (ac_readq s ++ q) (ac_set_enc e1 s), Ok d)
        end
    end.

  (** [read] on an answer of the channel below: an exception passes through. *)
  Definition ac_answer (s : ac) (a : res bytes) : ac * res bytes :=
    match a with Ok raw => ac_finish s raw | Err e => (s, Err e) end.

  (** The part of [write] before the channel below is called
      (app_channel_v2.py:42-64, encrypted_channel_v2.py:69-74): the new attributes
      and the frames to be written. *)
  Definition ac_send (m : bytes) (args : list bytes) (last : bool) (s : ac) : ac * res (list bytes) :=
    let (t, tk') := tk_get TK (ac_tk s) in
    let m4 := match ac_buffered_m4 s with
              | Some d => [pkt_bytes (Pkt (m34_set_time t d) None)]
              | None => []
              end in
    let s1 := AC (ac_enc s) tk' None (ac_readq s) in
    match m4 ++ ac_packets t (m :: args) with
    | [] => (s1, Err IndexError)
    | p :: ps => match ec_wrap_all L (ac_enc s) last (p :: ps) with
                 | (e1, Ok fs) => (ac_set_enc e1 s1, Ok fs)
                 | (e1, Err e) => (ac_set_enc e1 s1, Err e)
                 end
    end.

  (** One step of one task, with the call that takes effect in it, if any.  Between
      a step that leaves the task running and its next one other tasks may run:
      this allows more schedules than asyncio has.  The channel below takes the
      frames of a write when it is called (both channels of channel.py do:
      AsyncioChannel.write, lines 49-52, buffers them before it awaits, and
      SocketChannel.write, lines 65-66, never suspends); the outcome [a] of that
      call is chosen by the environment and reaches the task when it resumes. *)
  Inductive tstep : ac -> task -> option ecall -> ac -> task -> Prop :=
  | st_queue : forall s k m q, ac_readq s = m :: q ->              (* app_channel_v2.py:26-27 *)
      tstep s (TRun (PRead k)) (Some (EcRead [] (Ok m) (ac_last s)))
            (ac_set_readq q s) (TRun (k (Ok m)))
  | st_push : forall s k s1 r,                                     (* encrypted_channel_v2.py:58-60 *)
      ac_readq s = [] -> ec_pushback (ac_enc s) <> [] ->
      ac_finish (ac_set_enc (ec_set_pushback [] (ac_enc s)) s) (ec_pushback (ac_enc s)) = (s1, r) ->
      tstep s (TRun (PRead k)) (Some (EcRead [] r (ac_last s1))) s1 (TRun (k r))
  | st_wait : forall s k, ac_readq s = [] -> ec_pushback (ac_enc s) = [] ->
      tstep s (TRun (PRead k)) None s (TRead k)
  | st_answer : forall s k a s1 r, ac_answer s a = (s1, r) ->
      tstep s (TRead k) (Some (EcRead [ERead a] r (ac_last s1))) s1 (TRun (k r))
  | st_refuse : forall s m args last k s1 e, ac_send m args last s = (s1, Err e) ->
      tstep s (TRun (PWrite m args last k)) (Some (EcWrite m args last [] (Err e))) s1 (TRun (k (Err e)))
  | st_send : forall s m args last k s1 fs a, ac_send m args last s = (s1, Ok fs) ->
      tstep s (TRun (PWrite m args last k)) (Some (EcWrite m args last [EWrite fs last a] a)) s1 (TWrite a k)
  | st_sent : forall s a k, tstep s (TWrite a k) None s (TRun (k a)).

  (** Executions of several tasks; the log tells which task made which call, in the
      order in which the calls took effect. *)
  Inductive tsteps : ac -> list task -> list (nat * ecall) -> ac -> list task -> Prop :=
  | ts_nil : forall s ts, tsteps s ts [] s ts
  | ts_step : forall s l t r o s1 t1 log s2 ts2,
      tstep s t o s1 t1 -> tsteps s1 (l ++ t1 :: r) log s2 ts2 ->
      tsteps s (l ++ t :: r)
             (match o with Some c => (length l, c) :: log | None => log end) s2 ts2.
End WithLib.

(** Programs that never read. *)
Inductive writes_only : prog -> Prop :=
| wo_done : writes_only PDone
| wo_write : forall m args last k, (forall r, writes_only (k r)) -> writes_only (PWrite m args last k).

(** At most one of the programs reads. *)
Definition one_reader (ps : list prog) : Prop :=
  exists j, forall i p, nth_error ps i = Some p -> i <> j -> writes_only p.

(** The calls of task [i], and all calls. *)
Definition calls_of (i : nat) (log : list (nat * ecall)) : list ecall :=
  map snd (filter (fun x => Nat.eqb (fst x) i) log).
Definition calls (log : list (nat * ecall)) : list ecall := map snd log.

(** [p], getting the results of the calls [h], makes exactly those calls, one after
    the other, and is left with [q] to do. *)
Inductive follows : prog -> list ecall -> prog -> Prop :=
| fo_nil : forall p, follows p [] p
| fo_read : forall k t r l h q, follows (k r) h q -> follows (PRead k) (EcRead t r l :: h) q
| fo_write : forall m args last k t r h q,
    follows (k r) h q -> follows (PWrite m args last k) (EcWrite m args last t r :: h) q.

(** What a task has left to do. *)
Definition rest_of (t : task) : prog :=
  match t with TRun p => p | TRead k => PRead k | TWrite r k => k r end.

(** A scheduler for examples: each entry names the task to run next and the answer
    of the channel below, should it be asked for one.  Every such run is an
    execution (proved). *)
Definition tdo (L : lib) (TK : tkeeper) (TC : tchecker) (s : ac) (t : task) (rd : res bytes) (wr : res unit)
  : option (option ecall * ac * task) :=
  match t with
  | TRun PDone => None
  | TRun (PRead k) =>
      match ac_readq s with
      | m :: q => Some (Some (EcRead [] (Ok m) (ac_last s)), ac_set_readq q s, TRun (k (Ok m)))
      | [] => if is_empty (ec_pushback (ac_enc s)) then Some (None, s, TRead k) else None
      end
  | TRead k => let (s1, r) := ac_answer L TC s rd in
               Some (Some (EcRead [ERead rd] r (ac_last s1)), s1, TRun (k r))
  | TRun (PWrite m args last k) =>
      match ac_send L TK m args last s with
      | (s1, Ok fs) => Some (Some (EcWrite m args last [EWrite fs last wr] wr), s1, TWrite wr k)
      | (s1, Err e) => Some (Some (EcWrite m args last [] (Err e)), s1, TRun (k (Err e)))
      end
  | TWrite a k => Some (None, s, TRun (k a))
  end.

Fixpoint trun (L : lib) (TK : tkeeper) (TC : tchecker) (s : ac) (ts : list task)
  (sch : list (nat * res bytes * res unit)) : list (nat * ecall) * ac * list task :=
  match sch with
  | [] => ([], s, ts)
  | (i, rd, wr) :: r =>
      match nth_error ts i with
      | None => ([], s, ts)
      | Some t =>
          match tdo L TK TC s t rd wr with
          | None => ([], s, ts)
          | Some (o, s1, t1) =>
              let '(log, s2, ts2) := trun L TK TC s1 (firstn i ts ++ t1 :: skipn (S i) ts) r in
              (match o with Some c => (i, c) :: log | None => log end, s2, ts2)
          end
      end
  end.
