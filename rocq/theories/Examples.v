(** Model of the session programs in saltchannel/dev/simple_echo_session.py,
    simple_echo_session_a.py, example_session1.py, example_session2.py and
    example_session3.py (without the printing).  Definitions only. *)
From Coq Require Import List ZArith Bool Strings.Byte.
From Verif Require Import PyBase IO Packets Crypto Time AppChannel Session Channel Flags.
Import ListNotations.
Open Scope Z_scope.

(** [except ComException] around a loop: how the method ends when a call in it raises *)
Definition caught (e : exn) : res unit := if is_com e then Ok tt else Err e.

(** ** SimpleEchoSession, simple_echo_session.py *)

(** [server_session], lines 13-21: at most [n] rounds of the endless loop; [None] means that
    they have passed and the loop goes on. *)
Fixpoint echo_loop (n : nat) : io (option (res unit)) :=
  match n with
  | O => Ret None
  | S n => Read (fun r =>
      match r with
      | Err e => Ret (Some (caught e))
      | Ok msg =>
          if is_empty msg then Ret (Some (Ok tt))
          else Write [msg] false (fun w =>
            match w with Err e => Ret (Some (caught e)) | Ok _ => echo_loop n end)
      end)
  end.

(** [client_session], lines 23-30, with [loops] for [CLIENT_SEND_LOOPS]; [got] collects the
    responses (the code logs them).  Exceptions are not caught. *)
Fixpoint echo_sends (loops : nat) (data : bytes) (got : list bytes) : io (res (list bytes)) :=
  match loops with
  | O => Ret (Ok (rev got))
  | S n => Write [data] false (fun w =>
      match w with
      | Err e => Ret (Err e)
      | Ok _ => Read (fun r => match r with Err e => Ret (Err e) | Ok x => echo_sends n data (x :: got) end)
      end)
  end.

(** ** SimpleEchoSessionA, simple_echo_session_a.py *)

(** [client_session], lines 30-45: as above, then an empty message.  Simplified: [write_msg]
    and [drain] are taken together, as in [AsyncioChannel.write]. *)
Fixpoint echo_sends_a (loops : nat) (data : bytes) (got : list bytes) : io (res (list bytes)) :=
  match loops with
  | O => Write [[]] false (fun w => match w with Err e => Ret (Err e) | Ok _ => Ret (Ok (rev got)) end)
  | S n => Write [data] false (fun w =>
      match w with
      | Err e => Ret (Err e)
      | Ok _ => Read (fun r => match r with Err e => Ret (Err e) | Ok x => echo_sends_a n data (x :: got) end)
      end)
  end.

(** [server_session], lines 12-28, on a [SaltChannelStreamReader].  [StreamReader.at_eof()] is
    true when the end of the stream has been fed and the buffer is empty; [eofs] tells, at each
    test in line 17, whether the end has been fed by then (when the list is used up: yes).
    Returned: the bytes written, how the coroutine ends, and whether it has closed the
    connection (line 28).  The recursion is bounded by [n] rounds, as above. *)
Definition at_eof (fed : bool) (s : areader) : bool := fed && is_empty (ar_buf s) && is_empty (concat (ar_chunks s)).
Fixpoint echo_loop_a (n : nat) (eofs : list bool) (s : areader) : bytes * option (res unit) * bool :=
  match n with
  | O => ([], None, false)
  | S n =>
      if at_eof (hd true eofs) s then ([], Some (Ok tt), true)
      else match read_msg s with
           | (s', Err e) => ([], Some (Err e), false)
           | (s', Ok data) =>
               if is_empty data then ([], Some (Ok tt), true)
               else match write_msg data with
                    | Err e => ([], Some (Err e), false)
                    | Ok b => let '(out, r, closed) := echo_loop_a n (tl eofs) s' in (b ++ out, r, closed)
                    end
           end
  end.

(** ** The programs on the application channel in example_session1.py and example_session3.py *)

Definition next {A B} (r : res A) (f : A -> lio (res B)) : lio (res B) :=
  match r with Ok a => f a | Err e => LRet (Err e) end.

(** example_session1.py:43-45, the server: echo once; the result is [app_channel.last] *)
Definition example1_server : lio (res bool) :=
  LRead (fun r => next r (fun m =>
  LWrite [m] false (fun w => next w (fun _ => LLast (fun last => LRet (Ok last)))))).
(** example_session1.py:71-73, the client: one request; the result is the response *)
Definition example1_client (request : bytes) : lio (res bytes) :=
  LWrite [request] true (fun w => next w (fun _ => LRead (fun r => LRet r))).

(** example_session3.py:58-63, the server *)
Definition example3_server : lio (res bool) :=
  LRead (fun r => next r (fun m =>
  LWrite [m] false (fun w => next w (fun _ =>
  LRead (fun r => next r (fun d1 =>
  LRead (fun r => next r (fun d2 =>
  LWrite [d1; d2] true (fun w => next w (fun _ => LLast (fun last => LRet (Ok last)))))))))))).
(** example_session3.py:110-118, the client: one request, then two; the result is the three
    responses *)
Definition example3_client (request1 request2_1 request2_2 : bytes) : lio (res (list bytes)) :=
  LWrite [request1] false (fun w => next w (fun _ =>
  LRead (fun r => next r (fun a1 =>
  LWrite [request2_1; request2_2] false (fun w => next w (fun _ =>
  LRead (fun r => next r (fun a2 =>
  LRead (fun r => next r (fun a3 => LRet (Ok [a1; a2; a3]))))))))))).

(** [server_session] of both examples (example_session1.py:34-50, example_session3.py:49-68): at
    most [n] turns of the endless loop, each with a new session on the same channel whose
    application channel is used by [body]; the loop is left when [last] is true.  [start i] is
    the session object of turn [i] as configured before [handshake_sync] (the state of the time
    keeper may differ from turn to turn). *)
Fixpoint example_loop (L : lib) (TK : tkeeper) (TC : tchecker) (start : nat -> ss) (body : lio (res bool)) (n i : nat)
  : io (option (res unit)) :=
  match n with
  | O => Ret None
  | S n =>
      iobind (server_uses L TK TC (start i) body) (fun y =>
        match snd y with
        | Ok (Ok true) => Ret (Some (Ok tt))
        | Ok (Ok false) => example_loop L TK TC start body n (S i)
        | Ok (Err e) => Ret (Some (caught e))
        | Err e => Ret (Some (caught e))
        end)
  end.

(** ** ExampleSession, example_session2.py (the client of example_session2_a.py:56-80 is the same
    with coroutines; its server does not catch ComException) *)

(** Lines 40-42: the injected A2, with any P1 and P2 of ten bytes *)
Definition example2_a2 (p1 p2 : bytes) : pkt := a2_set_prots [(p1, p2)] a2_default.

(** [server_session], lines 34-53: the loop is left after the first handshake, whatever it
    was (an answer to A1 or a whole M1-M4 handshake). *)
Definition example2_server (L : lib) (TK : tkeeper) (TC : tchecker) (s : ss) : io (res unit) :=
  iobind (server_handshake L TK TC s) (fun y =>
    match snd y with Ok _ => Ret (Ok tt) | Err e => Ret (caught e) end).

(** [client_session], lines 55-70; the result is what is printed: P1 and P2 of the first
    entry.  [Prot] of an A2 without entries is an empty ctypes array: IndexError. *)
Definition example2_client (uw : Z -> bool) (key : bytes) : io (res (bytes * bytes)) :=
  iobind (do_a1a2 uw (a1_set_address key (a1_set_address_size 32 (a1_set_address_type ADDRESS_TYPE_PUBKEY a1_new))) tt) (fun y =>
    match snd y with
    | Err e => Ret (Err e)
    | Ok p => match a2_prots p with
              | Err e => Ret (Err e)
              | Ok [] => Ret (Err IndexError)
              | Ok (q :: _) => Ret (Ok q)
              end
    end).
