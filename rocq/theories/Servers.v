(** Model of the two servers in saltchannel/dev/client_server.py and client_server_a.py: how
    connections are closed, and how several connections share one server.  Definitions only. *)
From Coq Require Import List ZArith Bool Strings.Byte.
From Verif Require Import PyBase IO Crypto Time AppChannel Session Channel Flags Examples.
Import ListNotations.
Open Scope Z_scope.

(** ** One TCP connection *)

(** The two programs with the frames in flight (client on the left), whether each end has been
    closed, and whether the connection has been reset: an end was closed with data unread, or
    something was sent to a closed end.  Simplified: whole frames travel (C62, C63 relate frames
    to bytes). *)
Record link (A B : Type) : Type := Link {
  lk_sys : sys A B;
  lk_cl : bool;      (* the client's end is closed *)
  lk_sv : bool;      (* the server's end is closed *)
  lk_reset : bool
}.
Arguments Link {A B} _ _ _ _.
Arguments lk_sys {A B} _.
Arguments lk_cl {A B} _.
Arguments lk_sv {A B} _.
Arguments lk_reset {A B} _.

Definition nonempty {X} (l : list X) : bool := match l with [] => false | _ => true end.

Section Closing.
  (** When the client's end is closed after the program has ended, when the server's end is, and
      the exceptions of channel calls on a broken connection. *)
  Context {A B : Type}.
  Variable ec : A -> bool.
  Variable es : B -> bool.
  Variable broken : exn -> Prop.

  (** A step of the client.  TCP: what is sent to a closed end is lost, or the call fails; a
      read fails if the other end is closed and nothing is left to be read, and after a reset
      perhaps before that. *)
  Inductive cl_step : link A B -> link A B -> Prop :=
  | cl_write : forall ms l k q a b c v r,
      cl_step (Link (Sys (Write ms l k) q a b) c v r)
              (Link (Sys (k (Ok tt)) q (if v then a else a ++ ms) b) c v (r || (v && nonempty ms)))
  | cl_write_fails : forall ms l k q a b c r e, broken e -> ms <> [] ->
      cl_step (Link (Sys (Write ms l k) q a b) c true r) (Link (Sys (k (Err e)) q a b) c true r)
  | cl_read : forall k q a m b c v r,
      cl_step (Link (Sys (Read k) q a (m :: b)) c v r) (Link (Sys (k (Ok m)) q a b) c v r)
  | cl_read_fails : forall k q a b c r e, broken e -> b = [] \/ r = true ->
      cl_step (Link (Sys (Read k) q a b) c true r) (Link (Sys (k (Err e)) q a b) c true r)
  | cl_close : forall x q a b v r, ec x = true ->
      cl_step (Link (Sys (Ret x) q a b) false v r) (Link (Sys (Ret x) q a b) true v (r || nonempty b)).

  (** A step of the server *)
  Inductive sv_step : link A B -> link A B -> Prop :=
  | sv_write : forall ms l k p a b c v r,
      sv_step (Link (Sys p (Write ms l k) a b) c v r)
              (Link (Sys p (k (Ok tt)) a (if c then b else b ++ ms)) c v (r || (c && nonempty ms)))
  | sv_write_fails : forall ms l k p a b v r e, broken e -> ms <> [] ->
      sv_step (Link (Sys p (Write ms l k) a b) true v r) (Link (Sys p (k (Err e)) a b) true v r)
  | sv_read : forall k p m a b c v r,
      sv_step (Link (Sys p (Read k) (m :: a) b) c v r) (Link (Sys p (k (Ok m)) a b) c v r)
  | sv_read_fails : forall k p a b v r e, broken e -> a = [] \/ r = true ->
      sv_step (Link (Sys p (Read k) a b) true v r) (Link (Sys p (k (Err e)) a b) true v r)
  | sv_close : forall y p a b c r, es y = true ->
      sv_step (Link (Sys p (Ret y) a b) c false r) (Link (Sys p (Ret y) a b) c true (r || nonempty a)).

  Inductive lk_step (s t : link A B) : Prop := lk_c (H : cl_step s t) | lk_s (H : sv_step s t).

  (** ** Several connections, in the order in which the server accepts them *)

  (** [socketserver.TCPServer] (client_server.py:60-61, 66-72): [serve_forever] runs the handler
      of a connection to its end and closes the connection before it accepts the next one, so the
      server works on the first connection that it has not closed.  The clients are threads of
      their own (lines 74-85); they can connect and send before their connection is accepted.
      Simplified: the length of the queue of connections not yet accepted is not limited. *)
  Inductive one_by_one : list (link A B) -> list (link A B) -> Prop :=
  | ob_client : forall pre c c' post, cl_step c c' -> one_by_one (pre ++ c :: post) (pre ++ c' :: post)
  | ob_server : forall pre c c' post, Forall (fun d => lk_sv d = true) pre -> sv_step c c' ->
      one_by_one (pre ++ c :: post) (pre ++ c' :: post).

  (** [connection_made] (client_server_a.py:23-32): a task of its own for every connection. *)
  Inductive by_tasks : list (link A B) -> list (link A B) -> Prop :=
  | bt_step : forall pre c c' post, lk_step c c' -> by_tasks (pre ++ c :: post) (pre ++ c' :: post).
End Closing.

(** [n] steps of a relation *)
Inductive path {X} (R : X -> X -> Prop) : nat -> X -> X -> Prop :=
| path_O : forall s, path R 0 s s
| path_S : forall n s t u, R s t -> path R n t u -> path R (S n) s u.

(** All schedules from [s] end in [F]: none has more than [n] steps, and wherever one has got to,
    it goes on to [F] with exactly the steps that are left. *)
Definition always {X} (R : X -> X -> Prop) (s F : X) : Prop :=
  exists n, forall k b, path R k s b -> (k <= n)%nat /\ path R (n - k) b F.

(** ** When the ends are closed *)

(** [TCPServer] closes the connection of a request when its handler has returned and when it has
    raised; [None] is a loop of the model that was cut short. *)
Definition socket_closes {X} (r : option X) : bool := match r with Some _ => true | None => false end.
(** [_run_session], client_server.py:87-101: [finally: sock.close()] *)
Definition always_closes {X} (_ : X) : bool := true.
(** Every channel call on a broken socket raises ComException (channel.py:69-97). *)
Definition socket_broken (e : exn) : Prop := e = ComException.

(** The asyncio sessions call [channel.close()] in their last line (example_session1_a.py:56 and
    103, example_session2_a.py:53 and 87, example_session3_a.py:73 and 158); if they raise, nobody
    closes: the task made in client_server_a.py:32 ends with the exception, and the transport
    stays with the loop.  What a call on a broken stream raises depends on asyncio: [err] is any
    exception. *)
Definition task_broken (err e : exn) : Prop := e = err.
Definition task_closes {X} (r : res X) : bool := match r with Ok _ => true | Err _ => false end.
Definition task_closes_c {Y X} (r : Y * res (res X)) : bool := match snd r with Ok (Ok _) => true | _ => false end.

(** ** The servers of the asyncio examples *)

(** [server_session] of example_session1_a.py:39-56 ([body] = [example1_server]) and
    example_session3_a.py:52-73 ([body] = [example3_server]): one session, no loop, no
    [except]. *)
Definition example_server_a (L : lib) (TK : tkeeper) (TC : tchecker) (s : ss) (body : lio (res bool)) : io (res unit) :=
  iobind (server_uses L TK TC s body) (fun y =>
    match snd y with
    | Ok (Ok _) => Ret (Ok tt)
    | Ok (Err e) => Ret (Err e)
    | Err e => Ret (Err e)
    end).
