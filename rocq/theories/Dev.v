(** Model of saltchannel/dev/mitm_channel.py and saltchannel/dev/tunnel.py.
    Definitions only. *)
From Coq Require Import List ZArith Bool Strings.Byte.
From Verif Require Import PyBase IO.
Import ListNotations.
Open Scope Z_scope.
Open Scope m_scope.

(** [MitmEventType], mitm_channel.py:9-15, as far as used *)
Inductive mitm_event : Type := EvRead | EvWrite | EvWriteWithPrevious.

(** Attributes of a [MitmChannel], lines 24-33.  [mm_log] says whether a logger was
    supplied, [mm_logged] is what was passed to it (type and data; time stamps are
    dropped), [mm_queue] is [self.queue]. *)
Record mitm : Type := Mitm {
  mm_log : bool;
  mm_log_buffering : bool;
  mm_counter_read : Z;
  mm_counter_write : Z;
  mm_queue : list (mitm_event * bytes);
  mm_logged : list (mitm_event * bytes)
}.

(** [MitmChannel(orig, log)] *)
Definition mitm_init (log : bool) : mitm := Mitm log false 0 0 [] [].

(** [_log_event], lines 40-50 *)
Definition log_event (rec : mitm_event * bytes) (force : bool) (s : mitm) : mitm :=
  if force || negb (mm_log_buffering s) then
    if mm_log s then
      Mitm (mm_log s) (mm_log_buffering s) (mm_counter_read s) (mm_counter_write s)
           (mm_queue s) (mm_logged s ++ [rec])
    else
      Mitm (mm_log s) (mm_log_buffering s) (mm_counter_read s) (mm_counter_write s)
           (mm_queue s ++ [rec]) (mm_logged s)
  else s.

(** [flush_log_buffer], lines 35-38 *)
Definition flush_log_buffer (s : mitm) : mitm :=
  let s1 := fold_left (fun s r => log_event r true s) (mm_queue s) s in
  Mitm (mm_log s1) (mm_log_buffering s1) (mm_counter_read s1) (mm_counter_write s1) [] (mm_logged s1).

Definition set_log_buffering (v : bool) (s : mitm) : mitm :=
  Mitm (mm_log s) v (mm_counter_read s) (mm_counter_write s) (mm_queue s) (mm_logged s).

Definition add_read (n : Z) (s : mitm) : mitm :=
  Mitm (mm_log s) (mm_log_buffering s) (mm_counter_read s + n) (mm_counter_write s) (mm_queue s) (mm_logged s).
Definition add_write (n : Z) (s : mitm) : mitm :=
  Mitm (mm_log s) (mm_log_buffering s) (mm_counter_read s) (mm_counter_write s + n) (mm_queue s) (mm_logged s).

(** [read]/[read_sync], lines 52-57 and 70-75 *)
Definition mitm_read : M mitm bytes :=
  data <- mread ;;
  mmod (add_read (zlen data)) ;;;
  mmod (fun s => if mm_log s then log_event (EvRead, data) false s else s) ;;;
  mret data.

(** [write]/[write_sync], lines 59-68 and 77-86 *)
Definition mitm_write (msg : bytes) (args : list bytes) (is_last : bool) : M mitm unit :=
  mwrite (msg :: args) is_last ;;;
  mmod (fun s => fold_left (fun s m => add_write (zlen m) s) (msg :: args) s) ;;;
  mmod (fun s => if mm_log s then
                   fold_left (fun s m => log_event (EvWriteWithPrevious, m) false s) args
                             (log_event (EvWrite, msg) false s)
                 else s).

(** Any user of a channel (a session, an application), given a [MitmChannel] instead
    of the channel it wraps: each read and write of the program goes through the
    methods above.  A call [write()] without a message is a TypeError of the call
    itself. *)
Fixpoint via_mitm {A} (p : io A) (s : mitm) : io (A * mitm) :=
  match p with
  | Ret a => Ret (a, s)
  | Read k => iobind (mitm_read s) (fun x => via_mitm (k (snd x)) (fst x))
  | Write [] l k => via_mitm (k (Err TypeError)) s
  | Write (m :: args) l k => iobind (mitm_write m args l s) (fun x => via_mitm (k (snd x)) (fst x))
  end.

(** ** Tunnel, tunnel.py:6-23 *)

(** The two deques. *)
Record tunnel : Type := Tunnel { tn_q1 : list bytes; tn_q2 : list bytes }.
Definition tunnel_init : tunnel := Tunnel [] [].

(** Which end is used. *)
Inductive tend : Type := End1 | End2.

(** Python's [+] between a message and the tuple of further messages: bytes and
    tuple do not add (tunnel.py:21); two tuples do. *)
Inductive tval : Type := TBytes (b : bytes) | TTuple (l : list bytes).
Definition py_add (a b : tval) : res tval :=
  match a, b with
  | TBytes x, TBytes y => Ok (TBytes (x ++ y))
  | TTuple x, TTuple y => Ok (TTuple (x ++ y))
  | _, _ => Err TypeError
  end.

(** [_Channel.write], tunnel.py:20-22; [msg] as the caller passes it, bytes or a tuple *)
Definition tunnel_write (e : tend) (msg : tval) (args : list bytes) (t : tunnel) : tunnel * res unit :=
  match py_add msg (TTuple args) with
  | Err x => (t, Err x)
  | Ok (TTuple l) => (match e with
                      | End1 => Tunnel (tn_q1 t) (tn_q2 t ++ l)
                      | End2 => Tunnel (tn_q1 t ++ l) (tn_q2 t)
                      end, Ok tt)
  | Ok (TBytes _) => (t, Err TypeError)
  end.

(** [_Channel.read], tunnel.py:17-18: popleft of an empty deque is an IndexError *)
Definition tunnel_read (e : tend) (t : tunnel) : tunnel * res bytes :=
  match e with
  | End1 => match tn_q1 t with m :: q => (Tunnel q (tn_q2 t), Ok m) | [] => (t, Err IndexError) end
  | End2 => match tn_q2 t with m :: q => (Tunnel (tn_q1 t) q, Ok m) | [] => (t, Err IndexError) end
  end.
