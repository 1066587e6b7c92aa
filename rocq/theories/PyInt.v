(** The typed integers of saltlib/pure_pynacl/__init__.py: C-like integer types made of
    Python ints, with their own promotion rules. *)
From Coq Require Import List ZArith Bool Strings.Byte.
From Verif Require Import PyBase.
Import ListNotations.
Open Scope Z_scope.

(** pure_pynacl/__init__.py:15-24 (TypeEnum), :27-34 (Int), tweetnacl.py:12-53 (u8, u32,
    u64, i64).  [TPlain] is Python's own int.  On 64-bit Linux, array('L') has 8-byte
    items, so u32 is 64 bits wide there. *)
Inductive ity : Type := TU8 | TU32 | TU64 | TInt | TI64 | TPlain.

(** pure_pynacl/__init__.py:19-24, :61 (a value that is no Int counts as [integer]). *)
Definition order (t : ity) : Z :=
  match t with TU8 => 1 | TU32 => 2 | TU64 => 3 | TInt => 5 | TI64 => 7 | TPlain => 11 end.
(** pure_pynacl/__init__.py:31-33, tweetnacl.py:14-16, :25-27, :36-38, :47-49. *)
Definition mask (t : ity) : Z :=
  match t with
  | TU8 => 2 ^ 8 - 1 | TU32 => 2 ^ 64 - 1 | TU64 => 2 ^ 64 - 1
  | TInt => 2 ^ 31 - 1 | TI64 => 2 ^ 63 - 1 | TPlain => 0
  end.
Definition signed (t : ity) : bool :=
  match t with TInt | TI64 => true | _ => false end.

Record pint : Type := PI { pt : ity; pv : Z }.
Definition plain (v : Z) : pint := PI TPlain v.

(** pure_pynacl/__init__.py:42-52 (Int.__new__); [mk TPlain] is int(). *)
Definition mk (t : ity) (v : Z) : pint :=
  match t with
  | TPlain => PI TPlain v
  | _ => PI t (if v <? 0
               then let r := Z.land (- v) (mask t) in if signed t then - r else r
               else Z.land v (mask t))
  end.
(** t(x) for a value [x] of any of the types. *)
Definition cast (t : ity) (x : pint) : pint := mk t (pv x).

(** pure_pynacl/__init__.py:54-65 (__promote_type).  Python tries the reflected method of
    the right operand first when its class derives from that of the left one; the rule is
    symmetric, so the outcome is the same. *)
Definition promote (a b : ity) (result : Z) : ity :=
  if (result <? 0) && (order a <? 5) && (order b <? 5) then TInt
  else if order a >? order b then a else b.

(** pure_pynacl/__init__.py:79-93 (__typed), :126-131, :142-149. *)
Definition typed (op : Z -> Z -> Z) (a b : pint) : pint :=
  let r := op (pv a) (pv b) in mk (promote (pt a) (pt b) r) r.
Definition padd := typed Z.add.
Definition psub := typed Z.sub.
Definition pmul := typed Z.mul.
Definition pand := typed Z.land.
Definition por := typed Z.lor.
Definition pxor := typed Z.lxor.
(** pure_pynacl/__init__.py:95-105 (__shift), :122, :124; shift counts are plain ints. *)
Definition pshl (a : pint) (n : Z) : pint := mk (pt a) (Z.shiftl (pv a) n).
Definition pshr (a : pint) (n : Z) : pint := mk (pt a) (Z.shiftr (pv a) n).
(** pure_pynacl/__init__.py:107-119, :132 (__invert__). *)
Definition pinv (a : pint) : pint :=
  match pt a with
  | TPlain => plain (Z.lnot (pv a))
  | t => if signed t then mk t (Z.lnot (pv a)) else mk t (Z.lxor (pv a) (mask t))
  end.
(** pure_pynacl/__init__.py:67-77, :141 (__neg__). *)
Definition pneg (a : pint) : pint := mk (pt a) (- pv a).

(** Lists of integers (pure_pynacl/__init__.py:159-179, IntArray, a list; also bytes and
    bytearray arguments, whose items are plain ints).  Reading or writing outside a list,
    for which Python raises IndexError, yields 0 and changes nothing here: a
    simplification; the entry points check lengths, and [ChkPy] lifts it (C112-C114). *)
Definition geti (l : list pint) (i : nat) : pint := nth i l (plain 0).
Fixpoint seti (l : list pint) (i : nat) (v : pint) : list pint :=
  match l, i with
  | [], _ => []
  | _ :: r, O => v :: r
  | x :: r, S j => x :: seti r j v
  end.
(** IntArray(typ, size=n) (pure_pynacl/__init__.py:172-175). *)
Definition int_array (t : ity) (n : nat) : list pint := repeat (mk t 0) n.
(** IntArray(typ, init=l). *)
Definition int_array_of (t : ity) (l : list Z) : list pint := map (mk t) l.
(** [for i in range(n): st = body i st]. *)
Definition for_range {A} (n : nat) (body : A -> nat -> A) (st : A) : A :=
  fold_left body (seq 0 n) st.
(** bytes and bytearray items are plain ints; bytes(l) of a list of small ints. *)
Definition of_bytes (b : bytes) : list pint := map (fun x => plain (b2z x)) b.
Definition to_bytes (l : list pint) : bytes := map (fun x => z2b (pv x)) l.
(** [x[off:] = f(x[off:])]. *)
Definition on_tail (off : nat) (f : list pint -> list pint) (x : list pint) : list pint :=
  firstn off x ++ f (skipn off x).
