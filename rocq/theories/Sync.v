(** Model of the synchronous API: the metaclass [Syncizer]
    (saltchannel/util/__init__.py:37-62), the class statements that use it or not, and the
    synchronous methods of the channels.  Definitions only. *)
From Coq Require Import List ZArith Bool String.
From Verif Require Import PyBase.
Import ListNotations.
Open Scope Z_scope.

(** An attribute of a class body: [async def], [def], or a closure [sync_func] made by
    [Syncizer.sync_maker] for a name (util/__init__.py:57-61).  [B] is the code of a body;
    a property counts as a [def].  Simplified: attributes that are no functions are left out. *)
Inductive attr (B : Type) : Type :=
| Coro (b : B)
| Plain (b : B)
| SyncOf (name : string).
Arguments Coro {B} b.
Arguments Plain {B} b.
Arguments SyncOf {B} name.

Section Classes.
  Context {B : Type}.

  (** A class body as a dictionary: the first entry of a name counts. *)
  Definition dict := list (string * attr B).
  Fixpoint dget (d : dict) (n : string) : option (attr B) :=
    match d with
    | [] => None
    | (m, a) :: d => if String.eqb n m then Some a else dget d n
    end.

  (** ['{}_sync'.format(name)], util/__init__.py:50 *)
  Definition sync_name (n : string) : string := append n "_sync".

  (** [new_dct], util/__init__.py:45-53: an entry for every coroutine function of the body *)
  Fixpoint new_dct (d : dict) : dict :=
    match d with
    | [] => []
    | (n, Coro _) :: d => (sync_name n, SyncOf n) :: new_dct d
    | _ :: d => new_dct d
    end.

  (** [dct.update(new_dct)], util/__init__.py:54: the new entries win *)
  Definition syncize (d : dict) : dict := new_dct d ++ d.

  (** A class: the dictionaries of its method resolution order, and whether its metaclass
      is [Syncizer] (otherwise ABCMeta or type).  Single inheritance only. *)
  Record klass : Type := Klass { k_mro : list dict; k_syncizer : bool }.

  (** A class statement: [metaclass=util.Syncizer] or not, and the body as written. *)
  Record stmt : Type := Stmt { st_meta : bool; st_body : dict }.

  (** [class X(base, metaclass=...)]: the metaclass is the given one or inherited;
      util/__init__.py:44-55 run if it is [Syncizer]. *)
  Definition define (s : stmt) (base : klass) : klass :=
    let sy := (st_meta s || k_syncizer base)%bool in
    Klass ((if sy then syncize (st_body s) else st_body s) :: k_mro base) sy.

  (** A hierarchy, most derived class first. *)
  Definition class_of (ss : list stmt) : klass := fold_right define (Klass [] false) ss.

  (** [getattr(self, n)] *)
  Fixpoint lookup (mro : list dict) (n : string) : option (attr B) :=
    match mro with
    | [] => None
    | d :: mro => match dget d n with Some a => Some a | None => lookup mro n end
    end.
  Definition getattr (k : klass) (n : string) : option (attr B) := lookup (k_mro k) n.
End Classes.
Arguments dict : clear implicits.
Arguments klass : clear implicits.
Arguments stmt : clear implicits.

(** RuntimeError, raised by [run_until_complete] in a running loop. *)
Definition RuntimeError : exn := OtherExn 1001.

Section Calls.
  (** Code [B], argument lists [A], results [V], states of the world [W]: what running a
      body to its end does. *)
  Context {B A V W : Type}.
  Variable sem : B -> A -> W -> W * res V.

  (** The value of a call is no coroutine: [await] and [run_until_complete] raise TypeError. *)
  Definition no_coroutine (x : W * res V) : W * res V :=
    (fst x, match snd x with Ok _ => Err TypeError | Err e => Err e end).

  (** [x.n(args)] of an attribute found to be [a], for a function of plain code; [running]:
      the call is made from a running event loop.  [sync_func] (util/__init__.py:58-60)
      gets the attribute [name] of the object and runs the coroutine to its end. *)
  Fixpoint call_attr (fuel : nat) (k : klass B) (running : bool) (a : option (attr B)) (args : A) (w : W) : W * res V :=
    match fuel, a with
    | _, None => (w, Err AttributeError)
    | _, Some (Plain b) => sem b args w
    | S fuel, Some (SyncOf n) =>
        match getattr k n with
        | Some (Coro b) => if running then (w, Err RuntimeError) else sem b args w
        | a' => no_coroutine (call_attr fuel k running a' args w)
        end
    | _, _ => (w, Err TypeError)
    end.

  (** [x.n(args)] from plain code.  A closure for [name] is found under [name_sync], so the
      names get shorter and the fuel suffices.  Called and not awaited, a coroutine
      function does nothing; its result is not modelled (TypeError). *)
  Definition call (k : klass B) (running : bool) (n : string) (args : A) (w : W) : W * res V :=
    call_attr (S (String.length n)) k running (getattr k n) args w.

  (** [await x.n(args)] in a coroutine run to its end *)
  Definition await_call (k : klass B) (n : string) (args : A) (w : W) : W * res V :=
    match getattr k n with
    | Some (Coro b) => sem b args w
    | a => no_coroutine (call_attr (String.length (sync_name n)) k false a args w)
    end.
End Calls.

(** The classes of the library: methods as written.  A body is named by its class and method. *)
Record body : Type := Body { b_class : string; b_method : string }.
Definition defs (c : string) (l : list string) : dict body := map (fun m => (m, Plain (Body c m))) l.
Definition coros (c : string) (l : list string) : dict body := map (fun m => (m, Coro (Body c m))) l.

Open Scope string_scope.
(** saltchannel/channel.py:12-33 *)
Definition ByteChannel_stmt : stmt body :=
  Stmt false (defs "ByteChannel" ["__init__"; "read_sync"; "write_sync"] ++ coros "ByteChannel" ["read"; "write"])%list.
(** saltchannel/channel.py:36-55 *)
Definition AsyncioChannel_stmts : list (stmt body) :=
  [Stmt true (defs "AsyncioChannel" ["__init__"; "close"] ++ coros "AsyncioChannel" ["read"; "write"])%list; ByteChannel_stmt].
(** saltchannel/channel.py:58-97 *)
Definition SocketChannel_stmts : list (stmt body) :=
  [Stmt false (defs "SocketChannel" ["__init__"; "read_sync"; "write_sync"; "recvall"] ++ coros "SocketChannel" ["read"; "write"])%list;
   ByteChannel_stmt].
(** saltchannel/v2/encrypted_channel_v2.py:35-97 *)
Definition EncryptedChannelV2_stmts : list (stmt body) :=
  [Stmt false (defs "EncryptedChannelV2" ["__init__"; "encrypt"; "decrypt"; "wrap"; "unwrap"]
               ++ coros "EncryptedChannelV2" ["read"; "write"])%list; ByteChannel_stmt].
(** saltchannel/v2/app_channel_v2.py:8-64 *)
Definition AppChannelV2_stmts : list (stmt body) :=
  [Stmt true (defs "AppChannelV2" ["__init__"; "last"] ++ coros "AppChannelV2" ["read"; "write"])%list; ByteChannel_stmt].
(** saltchannel/dev/mitm_channel.py:18-90 *)
Definition MitmChannel_stmts : list (stmt body) :=
  [Stmt false (defs "MitmChannel" ["__init__"; "flush_log_buffer"; "_log_event"; "read_sync"; "write_sync"; "close"]
               ++ coros "MitmChannel" ["read"; "write"])%list; ByteChannel_stmt].
(** saltchannel/dev/tunnel.py:16-22 and 34-39: [read] and [write] are no coroutines *)
Definition TunnelChannel_stmts : list (stmt body) :=
  [Stmt false (defs "_Channel" ["read"; "write"]); ByteChannel_stmt].
(** saltchannel/v2/salt_client_session.py:13-118 *)
Definition SaltClientSession_stmts : list (stmt body) :=
  [Stmt true (defs "SaltClientSession" ["__init__"; "validate_signature1"; "create_encrypted_channel"; "validate"]
              ++ coros "SaltClientSession" ["handshake"; "do_m1"; "do_m2"; "do_m3"; "do_m4"])%list].
(** saltchannel/v2/salt_server_session.py:15-154 *)
Definition SaltServerSession_stmts : list (stmt body) :=
  [Stmt true (defs "SaltServerSession" ["__init__"; "create_encrypted_channel"; "validate_signature2"; "validate"]
              ++ coros "SaltServerSession" ["handshake"; "do_a2"; "do_m1"; "do_m2"; "do_m3"; "do_m4"])%list].
(** saltchannel/a1a2/a1_client_session.py:5-20 *)
Definition A1ClientSession_stmts : list (stmt body) :=
  [Stmt false (defs "A1ClientSession" ["__init__"; "do_a1a2_sync"] ++ coros "A1ClientSession" ["do_a1a2"])%list].

(** ** Channel objects and what their methods do *)

(** Channels: the two transports, an encrypted or application channel over another
    channel, a MitmChannel over another, an end of a Tunnel.  The numbers name objects. *)
Inductive chan : Type :=
| ChAsyncio (i : nat)
| ChSocket (i : nat)
| ChEnc (i : nat) (c : chan)
| ChApp (i : nat) (c : chan)
| ChMitm (i : nat) (c : chan)
| ChTunnel (i : nat).

Definition stmts_of (c : chan) : list (stmt body) :=
  match c with
  | ChAsyncio _ => AsyncioChannel_stmts
  | ChSocket _ => SocketChannel_stmts
  | ChEnc _ _ => EncryptedChannelV2_stmts
  | ChApp _ _ => AppChannelV2_stmts
  | ChMitm _ _ => MitmChannel_stmts
  | ChTunnel _ => TunnelChannel_stmts
  end.

(** Calls of a channel's methods, and their values *)
Inductive cargs : Type := AReadC | AWriteC (msg : bytes) (args : list bytes) (is_last : bool).
Inductive cval : Type := VNone | VMsg (b : bytes).

Section Objects.
  (** The world: sockets, streams, attributes of the channels other than the counters of
      MitmChannel.  [lower]: what the coroutines of AsyncioChannel (channel.py:46-52), the
      blocking methods of SocketChannel (lines 68-97) and the methods of a Tunnel's channel
      do.  [upper]: what the coroutines of EncryptedChannelV2 and AppChannelV2 do, given
      what [await self.channel.read()] and [await self.channel.write(...)] do; these are
      the calls they make (encrypted_channel_v2.py:57-74, app_channel_v2.py:25-64). *)
  Context {N : Type}.
  Definition world : Type := N * (nat -> Z * Z).
  Definition meth : Type := cargs -> world -> world * res cval.
  Variable lower : chan -> meth.
  Variable upper : chan -> meth -> meth.

  (** [self.counter_read += len(data)], mitm_channel.py:54 and 72: [len(None)] is a TypeError *)
  Definition count_read (i : nat) (x : world * res cval) : world * res cval :=
    match x with
    | ((n, f), Ok (VMsg b)) => ((n, fun j => if Nat.eqb j i then ((fst (f j) + zlen b)%Z, snd (f j)) else f j), Ok (VMsg b))
    | (w, Ok VNone) => (w, Err TypeError)
    | (w, Err e) => (w, Err e)
    end.

  (** mitm_channel.py:60-63 and 78-81; None is returned *)
  Definition count_write (i : nat) (ms : list bytes) (x : world * res cval) : world * res cval :=
    match x with
    | ((n, f), Ok _) => ((n, fun j => if Nat.eqb j i then (fst (f j), fold_left (fun s m => (s + zlen m)%Z) ms (snd (f j))) else f j), Ok VNone)
    | (w, Err e) => (w, Err e)
    end.
  Definition count (i : nat) (a : cargs) (x : world * res cval) : world * res cval :=
    match a with AReadC => count_read i x | AWriteC m args _ => count_write i (m :: args) x end.

  Definition method_name (a : cargs) : string := match a with AReadC => "read" | AWriteC _ _ _ => "write" end.

  (** The bodies of a channel's class, run on the object: [aw] and [sy] are the asynchronous
      and the synchronous call of the same method on the channel below.
      ByteChannel.read_sync and write_sync (channel.py:28-33) are [pass]; the coroutines of
      SocketChannel call the blocking methods (lines 62-66); MitmChannel's methods call the
      same method of [orig] and count (mitm_channel.py:52-87; logging, which has no effect
      on channels, is left out). *)
  Definition run_body (c : chan) (aw sy : meth) (b : body) : meth := fun a w =>
    if String.eqb (b_class b) "ByteChannel" then (w, Ok VNone)
    else match c with
         | ChAsyncio _ | ChSocket _ | ChTunnel _ => lower c a w
         | ChEnc _ _ | ChApp _ _ => upper c aw a w
         | ChMitm i _ =>
             if (String.eqb (b_method b) "read_sync" || String.eqb (b_method b) "write_sync")%bool
             then count i a (sy a w) else count i a (aw a w)
         end.

  (** [await c.read()] / [await c.write(...)], and [c.read_sync()] / [c.write_sync(...)]
      outside a running loop *)
  Fixpoint both (c : chan) : meth * meth :=
    let below := match c with
                 | ChEnc _ c' | ChApp _ c' | ChMitm _ c' => both c'
                 | _ => (fun _ w => (w, Err AttributeError), fun _ w => (w, Err AttributeError))
                 end in
    let sem := run_body c (fst below) (snd below) in
    let k := class_of (stmts_of c) in
    (fun a w => await_call sem k (method_name a) a w,
     fun a w => call sem k false (sync_name (method_name a)) a w).
  Definition awaited (c : chan) : meth := fst (both c).
  Definition synced (c : chan) : meth := snd (both c).

  (** [A1ClientSession.do_a1a2] and [do_a1a2_sync] (a1a2/a1_client_session.py:14-20) on a
      channel with the given method; [parse] is the constructor of A2Packet on the value
      read. *)
  Definition do_a1a2 {P} (a1 : bytes) (parse : cval -> res P) (ch : meth) (w : world) : world * res P :=
    match ch (AWriteC a1 [] false) w with
    | (w, Err e) => (w, Err e)
    | (w, Ok _) => match ch AReadC w with
                   | (w, Err e) => (w, Err e)
                   | (w, Ok v) => (w, parse v)
                   end
    end.
End Objects.
