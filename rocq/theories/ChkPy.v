(** Python lists and bytearrays that raise: reading or writing outside a list raises
    IndexError, storing what is no byte in a bytearray raises ValueError, and so does
    bytes() of a list with such an item.  [TwHash] to [TwSign] leave these out; the files
    [Chk*] follow the same code once more with them. *)
From Coq Require Import List ZArith Bool Strings.Byte.
From Verif Require Import PyBase PyInt.
Import ListNotations.
Open Scope Z_scope.

Declare Scope chk_scope.
Delimit Scope chk_scope with chk.
Notation "x <- e ;; k" := (rbind e (fun x => k)) (at level 100, e at next level, right associativity) : chk_scope.
Notation "' p <- e ;; k" := (rbind e (fun x => let p := x in k)) (at level 100, p strict pattern, e at next level, right associativity) : chk_scope.
Open Scope chk_scope.

(** [l[i]] (list.__getitem__; pure_pynacl/__init__.py:159, IntArray is a list), i >= 0 *)
Definition rget (l : list pint) (i : nat) : res pint :=
  if (i <? length l)%nat then Ok (geti l i) else Err IndexError.
(** [l[i] = v]: a list keeps v itself, a bytearray its value, if that is a byte *)
Definition store := list pint -> nat -> pint -> res (list pint).
Definition lput : store := fun l i v => if (i <? length l)%nat then Ok (seti l i v) else Err IndexError.
Definition is_byte (v : pint) : bool := (0 <=? pv v) && (pv v <? 256).
Definition bput : store := fun l i v =>
  if (i <? length l)%nat then (if is_byte v then Ok (seti l i (plain (pv v))) else Err ValueError) else Err IndexError.
(** [l[i] = e]: e is evaluated first *)
Definition sput (put : store) (l : list pint) (i : nat) (e : res pint) : res (list pint) := v <- e ;; put l i v.
Definition lset := sput lput.
(** [bytes(l)] *)
Definition rbytes (l : list pint) : res bytes := if forallb is_byte l then Ok (to_bytes l) else Err ValueError.

(** The operators of [PyInt] on expressions that may raise *)
Definition lift (f : pint -> pint) (a : res pint) : res pint := x <- a ;; Ok (f x).
Definition lift2 (f : pint -> pint -> pint) (a b : res pint) : res pint := x <- a ;; y <- b ;; Ok (f x y).
Definition ladd := lift2 padd.
Definition lsub := lift2 psub.
Definition lmul := lift2 pmul.
Definition land := lift2 pand.
Definition lor := lift2 por.
Definition lxor := lift2 pxor.
Definition lshl (a : res pint) (n : Z) := lift (fun x => pshl x n) a.
Definition lshr (a : res pint) (n : Z) := lift (fun x => pshr x n) a.
Definition lcast (t : ity) := lift (cast t).
Definition num (v : Z) : res pint := Ok (plain v).

(** [for i in range(n): body] *)
Definition for_c {A} (n : nat) (body : A -> nat -> res A) (st : A) : res A :=
  fold_left (fun r i => s <- r ;; body s i) (seq 0 n) (Ok st).
(** [x[off:] = f(x[off:])] *)
Definition tail_c (off : nat) (f : list pint -> res (list pint)) (x : list pint) : res (list pint) :=
  r <- f (skipn off x) ;; Ok (firstn off x ++ r).
