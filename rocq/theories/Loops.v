(** Model of the event loops that the constructors of sessions and channels choose
    (saltchannel/util/__init__.py:12-18, saltchannel/channel.py:14-17, 59-60,
    saltchannel/v2/salt_client_session.py:18, salt_server_session.py:21,
    saltchannel/a1a2/a1_client_session.py:8).  Definitions only. *)
From Coq Require Import List Bool Arith.
From Verif Require Import PyBase Sync.
Import ListNotations.

(** What asyncio's default policy keeps for a thread (Python 3.5.3 to 3.11): the loop that
    is set, whether [set_event_loop] was called, and the loop that is running; [t_next]
    names the next new loop.  Loops are numbers. *)
Record thread : Type := Thread {
  t_main : bool; t_loop : option nat; t_set : bool; t_running : option nat; t_next : nat
}.

(** A thread just started *)
Definition new_thread (main : bool) (next : nat) : thread := Thread main None false None next.

(** [asyncio.new_event_loop()] followed by [asyncio.set_event_loop] *)
Definition make_loop (t : thread) : thread * nat :=
  (Thread (t_main t) (Some (t_next t)) true (t_running t) (S (t_next t)), t_next t).

(** [asyncio.get_event_loop()]: the running loop; else the one that is set; else, in the
    main thread only, a new one; else RuntimeError *)
Definition get_event_loop (t : thread) : thread * res nat :=
  match t_running t, t_loop t with
  | Some l, _ => (t, Ok l)
  | None, Some l => (t, Ok l)
  | None, None => if (t_main t && negb (t_set t))%bool then (let (t, l) := make_loop t in (t, Ok l)) else (t, Err RuntimeError)
  end.

(** [force_event_loop], util/__init__.py:12-18 *)
Definition force_event_loop (t : thread) (loop : option nat) : thread * res nat :=
  match loop with
  | Some l => (t, Ok l)
  | None => match get_event_loop t with
            | (t, Ok l) => (t, Ok l)
            | (t, Err _) => let (t, l) := make_loop t in (t, Ok l)
            end
  end.

(** [loop or asyncio.get_event_loop()], salt_client_session.py:18 and a1_client_session.py:8 *)
Definition or_event_loop (t : thread) (loop : option nat) : thread * res nat :=
  match loop with Some l => (t, Ok l) | None => get_event_loop t end.

(** Objects a thread can construct, with the argument [loop]. *)
Inductive obj : Type :=
| NewAsyncioChannel (loop : option nat)   (* channel.py:37-44 *)
| NewSocketChannel                        (* channel.py:59-60: ByteChannel.__init__ is not called *)
| NewMitmChannel (loop : option nat)      (* mitm_channel.py:24-25 *)
| NewEncChannel (loop : option nat)       (* encrypted_channel_v2.py:42-43 *)
| NewAppChannel (loop : option nat)       (* app_channel_v2.py:13-14 *)
| NewServerSession (loop : option nat)    (* salt_server_session.py:21 *)
| NewClientSession (loop : option nat)    (* salt_client_session.py:18 *)
| NewA1Session (loop : option nat).       (* a1_client_session.py:8 *)

(** The constructor as far as the loop is concerned: the attribute [loop] of the object
    (None: it has none), or the exception. *)
Definition construct (t : thread) (o : obj) : thread * res (option nat) :=
  let some (x : thread * res nat) := (fst x, match snd x with Ok l => Ok (Some l) | Err e => Err e end) in
  match o with
  | NewSocketChannel => (t, Ok None)
  | NewAsyncioChannel l | NewMitmChannel l | NewEncChannel l | NewAppChannel l | NewServerSession l => some (force_event_loop t l)
  | NewClientSession l | NewA1Session l => some (or_event_loop t l)
  end.

(** What a thread does: it constructs objects, sets its loop (or sets it to None), starts
    and stops running a loop. *)
Inductive top : Type := TNew (o : obj) | TSet (l : option nat) | TStart (l : nat) | TStop.
Definition tdo (t : thread) (o : top) : thread * list (obj * res (option nat)) :=
  match o with
  | TNew o => let (t, r) := construct t o in (t, [(o, r)])
  | TSet l => (Thread (t_main t) l true (t_running t) (t_next t), [])
  | TStart l => (Thread (t_main t) (t_loop t) (t_set t) (Some l) (t_next t), [])
  | TStop => (Thread (t_main t) (t_loop t) (t_set t) None (t_next t), [])
  end.
Fixpoint trun (t : thread) (os : list top) : thread * list (obj * res (option nat)) :=
  match os with
  | [] => (t, [])
  | o :: os => let (t, r) := tdo t o in let (t, rs) := trun t os in (t, r ++ rs)
  end.
