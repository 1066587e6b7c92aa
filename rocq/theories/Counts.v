(** The clients of saltchannel/dev/example_session1.py and example_session3.py with the byte
    counts they print, and the specification of these counts.  Definitions only. *)
From Coq Require Import List ZArith Bool Strings.Byte.
From Verif Require Import PyBase IO Packets Crypto Time EncChannel AppChannel AppUse Session Dev Props_Sizes Flags.
Import ListNotations.
Open Scope Z_scope.

(** What a client prints: [cnt_write0], [cnt_read0], [cnt_write], [cnt_read]. *)
Record printed : Type := Printed { pr_write0 : Z; pr_read0 : Z; pr_write : Z; pr_read : Z }.

(** [client_session] (example_session1.py:65-92, example_session3.py:103-141): the handshake
    over the MitmChannel that [MpClientServerPair] hands to it (client_server.py:93-95), the
    counters, the program [p] on the application channel, the counters again.  The result is
    what is printed and the value of [p]; an exception of the handshake or of [p] leaves the
    method before anything is printed.  Simplified: of the output only the four counts are
    modelled. *)
Definition client_counts (L : lib) (TK : tkeeper) (TC : tchecker) {A} (s : cs) (p : lio (res A)) (m0 : mitm) : io (res (printed * A)) :=
  iobind (via_mitm (client_handshake L TK TC s) m0) (fun x =>
    match snd (fst x), cs_app (fst (fst x)) with
    | Ok _, Some a =>
        iobind (via_mitm (over_flags L TK TC p a) (snd x)) (fun y =>
          Ret (match snd (fst y) with
               | Ok v => Ok (Printed (mm_counter_write (snd x)) (mm_counter_read (snd x))
                                     (mm_counter_write (snd y)) (mm_counter_read (snd y)), v)
               | Err e => Err e
               end))
    | Err e, _ => Ret (Err e)
    | Ok _, None => Ret (Err AttributeError)
    end).

(** ** Specification *)

(** Bytes on the wire for one write call with these messages *)
Definition wire_cost (ms : list bytes) : Z := total_len (batch_sizes false (map (fun m => Z.of_nat (length m)) ms)).

(** The same program, returning also what its write calls cost; [None] if one failed *)
Fixpoint counted {A} (p : lio A) (c : option Z) : lio (A * option Z) :=
  match p with
  | LRet a => LRet (a, c)
  | LRead k => LRead (fun r => counted (k r) c)
  | LWrite ms l k => LWrite ms l (fun r => counted (k r)
      match r, c with Ok _, Some n => Some (n + wire_cost ms) | _, _ => None end)
  | LLast k => LLast (fun f => counted (k f) c)
  end.
