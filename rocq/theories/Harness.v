(** Model of how saltchannel/dev/client_server.py and client_server_a.py run several client
    sessions: threads that share [is_session_active], and processes awaited by a loop.
    Definitions only. *)
From Coq Require Import List Bool Arith Sorting.Permutation.
From Verif Require Import PyBase.
Import ListNotations.

(** ** [MpClientServerPair.run_sessions], client_server.py:74-101 *)

(** What happens to one client: no socket could be made (line 89), [connect] raised (line 91), or
    the session was run, with its result (line 94).  Simplified: exceptions are those derived from
    [Exception], and [close] does not raise. *)
Inductive fate : Type :=
| NoSocket (e : exn)
| NoConnection (e : exn)
| Session (r : res unit).

(** What a client's thread does that can be seen from outside *)
Inductive act : Type :=
| Open                (* line 89: [socket.socket(...)] *)
| Flag (b : bool)     (* lines 93 and 101: [self.is_session_active = b] *)
| Enter               (* line 94: [client_session] is called *)
| Leave               (*          and has returned or raised *)
| Log (e : exn)       (* lines 96-97: [except Exception as e: logging.exception(e)] *)
| Close.              (* lines 98-99: [finally: sock.close()] *)

(** [_run_session], client_server.py:87-101, as the actions of a client with this fate.  The call
    of [socket.socket] is before the [try]: if it raises, the thread ends there. *)
Definition run_session (f : fate) : list act :=
  match f with
  | NoSocket _ => []
  | NoConnection e => [Open; Log e; Close; Flag false]
  | Session (Ok _) => [Open; Flag true; Enter; Leave; Close; Flag false]
  | Session (Err e) => [Open; Flag true; Enter; Leave; Log e; Close; Flag false]
  end.

(** [run_sessions], client_server.py:74-85: start all threads, then join them one after another.
    Simplified: the pauses ([jitter]) are steps of other threads in between. *)
Inductive mact : Type := Start (i : nat) | Join (i : nat).
Definition run_sessions (n : nat) : list mact := map Start (seq 0 n) ++ map Join (seq 0 n).

(** What is left to do of [run_sessions] and of every thread ([None]: not started), the shared
    attribute [is_session_active], and what was logged *)
Record harness : Type := Harness {
  h_main : list mact;
  h_threads : list (option (list act));
  h_flag : bool;
  h_log : list exn
}.

(** Item [i] of a list replaced: a list of threads (client_server.py:75-78) or futures
    (client_server_a.py:96-98) in which one has moved. *)
Definition set_at {X} (i : nat) (x : X) (l : list X) : list X := firstn i l ++ x :: skipn (S i) l.

(** The effect of an action on the shared attribute (lines 93 and 101) and on the log (line 97) *)
Definition act_flag (a : act) (b : bool) : bool := match a with Flag b' => b' | _ => b end.
Definition act_log (a : act) (l : list exn) : list exn := match a with Log e => l ++ [e] | _ => l end.

(** A step of [run_sessions] (client_server.py:74-85) or of any thread that was started (lines
    87-101), in any order.  The [fs] are the fates of the clients. *)
Inductive hstep (fs : list fate) : harness -> harness -> Prop :=
| hs_start : forall i f m ts b l, nth_error fs i = Some f -> nth_error ts i = Some None ->
    hstep fs (Harness (Start i :: m) ts b l) (Harness m (set_at i (Some (run_session f)) ts) b l)
| hs_join : forall i m ts b l, nth_error ts i = Some (Some []) ->
    hstep fs (Harness (Join i :: m) ts b l) (Harness m ts b l)
| hs_act : forall i a p m ts b l, nth_error ts i = Some (Some (a :: p)) ->
    hstep fs (Harness m ts b l) (Harness m (set_at i (Some p) ts) (act_flag a b) (act_log a l)).

(** A call of [run_sessions(len(fs))] begins; [is_session_active] is False (client_server.py:29). *)
Definition hinit (fs : list fate) : harness := Harness (run_sessions (length fs)) (map (fun _ => None) fs) false [].

(** ** [ClientServerPairA.run_sessions], client_server_a.py:95-117 *)

(** Where the coroutine [spawn_clients_and_wait] (lines 95-102) is: before line 96; at the head of
    the [while] with the futures that are left; in the [for] with those still to be awaited; or it
    is over and [run_sessions] has returned or raised. *)
Inductive where_a : Type :=
| AtBegin
| AtWhile (futures : list nat)
| AtFor (done pending : list nat)
| Over (r : res unit).

Record harness_a : Type := HarnessA {
  a_main : where_a;
  a_futures : list (option (res unit));   (* [None]: the client's process is still at work *)
  a_flag : bool                           (* [is_session_active] *)
}.

(** The steps: [run_sessions] sets the attribute (line 113) and makes one future per client (lines
    96-98); the process of a client ends, as [fs] tells (lines 89-93); [asyncio.wait] with
    ALL_COMPLETED (line 100) returns when all futures are done, in a set, that is in any order, and
    none is pending; the [for] awaits one after the other, and the first exception leaves both
    methods (lines 101-102, 114-117).  Simplified: KeyboardInterrupt is not modelled; the processes
    can end only after [run_sessions] has begun, which is when they are made. *)
Inductive astep (fs : list (res unit)) : harness_a -> harness_a -> Prop :=
| as_begin : forall b, astep fs (HarnessA AtBegin [] b) (HarnessA (AtWhile (seq 0 (length fs))) (map (fun _ => None) fs) true)
| as_ends : forall i r m ts b, nth_error fs i = Some r -> nth_error ts i = Some None ->
    astep fs (HarnessA m ts b) (HarnessA m (set_at i (Some r) ts) b)
| as_wait : forall i is ds ts b, Permutation ds (i :: is) -> (forall j, In j (i :: is) -> exists r, nth_error ts j = Some (Some r)) ->
    astep fs (HarnessA (AtWhile (i :: is)) ts b) (HarnessA (AtFor ds []) ts b)
| as_await : forall i ds ps ts b, nth_error ts i = Some (Some (Ok tt)) ->
    astep fs (HarnessA (AtFor (i :: ds) ps) ts b) (HarnessA (AtFor ds ps) ts b)
| as_raise : forall i ds ps ts b e, nth_error ts i = Some (Some (Err e)) ->
    astep fs (HarnessA (AtFor (i :: ds) ps) ts b) (HarnessA (Over (Err e)) ts b)
| as_again : forall ps ts b, astep fs (HarnessA (AtFor [] ps) ts b) (HarnessA (AtWhile ps) ts b)
| as_over : forall ts b, astep fs (HarnessA (AtWhile []) ts b) (HarnessA (Over (Ok tt)) ts b).

(** A new [ClientServerPairA] on which [run_sessions] is called (client_server_a.py:78-82, 111) *)
Definition ainit : harness_a := HarnessA AtBegin [] false.

(** ** Specification *)

(** The exceptions of the clients that got a socket and failed *)
Definition failure (f : fate) : list exn :=
  match f with NoConnection e | Session (Err e) => [e] | _ => [] end.

(** [client_session] of client [i] is running *)
Definition in_session (h : harness) (i : nat) : Prop :=
  exists p, nth_error (h_threads h) i = Some (Some p) /\ In Leave p /\ ~ In Enter p.

(** Client [i] has made a socket and has not closed it: of what its thread does (with this fate)
    the first part is done, and it has opened but not closed. *)
Definition has_socket (fs : list fate) (h : harness) (i : nat) : Prop :=
  exists f dn p, nth_error fs i = Some f /\ nth_error (h_threads h) i = Some (Some p) /\ run_session f = dn ++ p /\ In Open dn /\ ~ In Close dn.

(** Client [i] has set [is_session_active] and has not reset it yet. *)
Definition holding (fs : list fate) (h : harness) (i : nat) : Prop :=
  exists r p, nth_error fs i = Some (Session r) /\ nth_error (h_threads h) i = Some (Some p) /\ In (Flag false) p /\ ~ In (Flag true) p.
