(** Python values used by the model: byte strings, exceptions, little-endian
    integers and ctypes buffers.  Definitions only; lemmas are in
    [PyBase_proofs]. *)
From Coq Require Import List ZArith Bool Strings.Byte.
Import ListNotations.
Open Scope Z_scope.

(** A Python [bytes] object. *)
Definition bytes := list byte.

(** Exceptions that can leave the modelled code.
    saltchannel/exceptions.py:2-18 (ComException, BadPeer, NoSuchServerException,
    TimeException); saltchannel/saltlib/exceptions.py:4-17 (NoSuchLib,
    BadSignature, BadEncryptedData); the others are Python built-ins, asyncio's
    IncompleteReadError and struct.error.  Simplified: exception arguments are
    dropped.  [OtherExn n] stands for every further exception a transport may
    raise (including asyncio.CancelledError). *)
Inductive exn : Type :=
| ComException | BadPeer | NoSuchServerException | TimeException
| NoSuchLibException | BadSignatureException | BadEncryptedDataException
| ValueError | TypeError | AttributeError | AssertionError | OverflowError
| IndexError | KeyError | NameError | UnicodeDecodeError | StructError
| IncompleteReadError | OSError | OtherExn (n : nat).

(** [isinstance(e, ComException)]: saltchannel/exceptions.py:6-18. *)
Definition is_com (e : exn) : bool :=
  match e with
  | ComException | BadPeer | NoSuchServerException | TimeException => true
  | _ => false
  end.

(** Result of evaluating a Python expression: a value or a raised exception. *)
Inductive res (A : Type) : Type :=
| Ok (a : A)
| Err (e : exn).
Arguments Ok {A} _.
Arguments Err {A} _.

(** Sequencing of Python statements: the first exception wins. *)
Definition rbind {A B} (r : res A) (f : A -> res B) : res B :=
  match r with Ok a => f a | Err e => Err e end.

(** Byte/integer conversions; [z2b] reduces modulo 256 (ctypes [c_uint8]). *)
Definition b2z (b : byte) : Z := Z.of_N (Byte.to_N b).
Definition z2b (z : Z) : byte :=
  match Byte.of_N (Z.to_N (z mod 256)) with Some b => b | None => x00 end.

(** Little-endian encoding on [n] bytes, modulo [256^n]: ctypes
    [LittleEndianStructure] integers and [int.to_bytes(n, 'little')]. *)
Fixpoint le_enc (n : nat) (z : Z) : bytes :=
  match n with
  | O => []
  | S n' => z2b z :: le_enc n' (z / 256)
  end.

(** Little-endian decoding of an unsigned integer. *)
Fixpoint le_dec (b : bytes) : Z :=
  match b with
  | [] => 0
  | x :: r => b2z x + 256 * le_dec r
  end.

(** Little-endian decoding of a signed two's complement integer on [n] bytes. *)
Definition le_dec_signed (n : nat) (b : bytes) : Z :=
  let v := le_dec b in
  if v <? 2 ^ (8 * Z.of_nat n - 1) then v else v - 2 ^ (8 * Z.of_nat n).

(** [bytes(n)]: n zero bytes. *)
Definition zeros (n : nat) : bytes := repeat x00 n.

(** [len(x)] as a Python int. *)
Definition zlen {A} (l : list A) : Z := Z.of_nat (length l).

(** Python slice [b[i:i+n]] for non-negative [i], [n]. *)
Definition slice (i n : nat) (b : bytes) : bytes := firstn n (skipn i b).

(** Truth value of a byte string. *)
Definition is_empty {A} (b : list A) : bool := match b with [] => true | _ => false end.

Definition byte_eqb (a b : byte) : bool := Byte.eqb a b.

(** [==] on byte strings. *)
Fixpoint bytes_eqb (a b : bytes) : bool :=
  match a, b with
  | [], [] => true
  | x :: a', y :: b' => Byte.eqb x y && bytes_eqb a' b'
  | _, _ => false
  end.

(** ctypes structures.  A [SmartStructure] instance (saltchannel/util/packets.py:22-45,
    [_pack_ = 1]) is its memory: a byte buffer of fixed length. *)

(** [SmartStructure.from_bytes], saltchannel/util/packets.py:35-37: memmove of
    [min(len(src), sizeof(self))] bytes; nothing for an empty source. *)
Definition struct_from_bytes (buf src : bytes) : bytes :=
  if is_empty src then buf
  else
    let n := Nat.min (length src) (length buf) in
    firstn n src ++ skipn n buf.

(** Reading [n] bytes of a structure at an offset (ctypes field access). *)
Definition fget (off n : nat) (buf : bytes) : bytes := slice off n buf.

(** Overwriting the bytes of a field in place. *)
Definition fput (off : nat) (v buf : bytes) : bytes :=
  firstn off buf ++ v ++ skipn (off + length v) buf.

(** Unsigned integer fields ([c_uint8], [c_uint16], [c_uint32]). *)
Definition fget_int (off n : nat) (buf : bytes) : Z := le_dec (fget off n buf).
Definition fput_int (off n : nat) (z : Z) (buf : bytes) : bytes := fput off (le_enc n z) buf.

(** One-bit [c_uint8] bit fields: bit [i] of the byte at [off]. *)
Definition fget_bit (off : nat) (i : Z) (buf : bytes) : bool :=
  Z.testbit (fget_int off 1 buf) i.
Definition fput_bit (off : nat) (i : Z) (v : bool) (buf : bytes) : bytes :=
  let x := fget_int off 1 buf in
  fput_int off 1 (if v then Z.setbit x i else Z.clearbit x i) buf.

(** [Packet.__setattr__] for a fixed-size array field,
    saltchannel/util/packets.py:84-88: the value is converted with
    [util.cbytes] (saltchannel/util/__init__.py:7-10) and assigned; ctypes raises
    TypeError when the array types (lengths) differ. *)
Definition fset_array (off n : nat) (v buf : bytes) : res bytes :=
  if Nat.eqb (length v) n then Ok (fput off v buf) else Err TypeError.
