(** Arbitrary use of packet objects: sequences of API calls in which the caller
    catches exceptions and goes on.  Definitions only. *)
From Coq Require Import List ZArith Bool Strings.Byte.
From Verif Require Import PyBase Packets.
Import ListNotations.
Open Scope Z_scope.

(** A setter that raises leaves the object as it was
    (saltchannel/util/packets.py:84-88, v2/packets.py:67-71). *)
Definition keep {A} (old : A) (r : res A) : A := match r with Ok x => x | Err _ => old end.

(** Calls on an M1Packet, saltchannel/v2/packets.py:7-71. *)
Inductive m1_op : Type :=
| M1SetFlag (b : bool) | M1CreateOpt | M1SetTime (t : Z)
| M1SetClientEncKey (k : bytes) | M1SetServerSigKey (k : bytes) | M1FromBytes (src : bytes).
Definition m1_apply (p : m1pkt) (o : m1_op) : m1pkt :=
  match o with
  | M1SetFlag b => m1_set_flag b p
  | M1CreateOpt => m1_create_opt_fields p
  | M1SetTime t => m1_set_time t p
  | M1SetClientEncKey k => keep p (m1_set_client_enc_key k p)
  | M1SetServerSigKey k => keep p (m1_set_server_sig_key k p)
  | M1FromBytes src => fst (m1_from_bytes p src)
  end.
Definition m1_use (l : list m1_op) : m1pkt := fold_left m1_apply l m1_new.

(** Calls on an M2Packet, saltchannel/v2/packets.py:74-106. *)
Inductive m2_op : Type :=
| M2SetNoSuchServer (b : bool) | M2SetLast (b : bool) | M2SetTime (t : Z)
| M2SetServerEncKey (k : bytes) | M2FromBytes (src : bytes)
| M2Bytes. (* bytes(m2), lines 99-102, which sets LastFlag of a NoSuchServer packet *)
Definition m2_apply (d : bytes) (o : m2_op) : bytes :=
  match o with
  | M2SetNoSuchServer b => m2_set_no_such_server b d
  | M2SetLast b => m2_set_last_flag b d
  | M2SetTime t => m2_set_time t d
  | M2SetServerEncKey k => keep d (m2_set_server_enc_key k d)
  | M2FromBytes src => fst (m2_from_bytes d src)
  | M2Bytes => m2_bytes d
  end.
Definition m2_use (l : list m2_op) : bytes := fold_left m2_apply l m2_new.

(** Calls on an M3Packet or M4Packet, saltchannel/v2/packets.py:109-156. *)
Inductive m34_op : Type :=
| M34SetTime (t : Z) | M34SetSigKey (k : bytes) | M34SetSignature (s : bytes)
| M34FromBytes (src : bytes).
Definition m34_apply (ty : Z) (d : bytes) (o : m34_op) : bytes :=
  match o with
  | M34SetTime t => m34_set_time t d
  | M34SetSigKey k => keep d (m34_set_sig_key k d)
  | M34SetSignature s => keep d (m34_set_signature s d)
  | M34FromBytes src => fst (fixed_from_bytes ty d src)
  end.
Definition m3_use (l : list m34_op) : bytes := fold_left (m34_apply TYPE_M3) l m3_new.
Definition m4_use (l : list m34_op) : bytes := fold_left (m34_apply TYPE_M4) l m4_new.
