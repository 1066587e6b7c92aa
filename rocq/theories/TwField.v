(** Arithmetic modulo 2^255 - 19 and X25519 of saltlib/pure_pynacl/tweetnacl.py.  A list
    that Python changes in place is an argument and the result here. *)
From Coq Require Import List ZArith Bool Strings.Byte.
From Verif Require Import PyBase PyInt TwSalsa TwPoly.
Import ListNotations.
Open Scope Z_scope.

(** tweetnacl.py:56-58 (gf()); :72 ([init] is shorter than 16 items) *)
Definition gf_new : list pint := int_array TI64 16.
Definition gf_of (init : list Z) : list pint :=
  int_array_of TI64 init ++ int_array TI64 (16 - length init).
(** tweetnacl.py:71-75 *)
Definition b9 : list pint := int_array_of TU8 [9] ++ int_array TU8 31.
Definition b0 : list pint := int_array TU8 16.
Definition gf0 : list pint := gf_of [].
Definition gf1 : list pint := gf_of [1].
Definition gf_121665 : list pint := gf_of [0xDB41; 1].

(** tweetnacl.py:339-341 *)
Definition set25519 (r a : list pint) : list pint := for_range 16 (fun r i => seti r i (geti a i)) r.

(** tweetnacl.py:344-351; the truth values i < 15 and i == 15 count as 0 or 1 *)
Definition car_step (o : list pint) (i : nat) : list pint :=
  let o := seti o i (padd (geti o i) (pshl (mk TI64 1) 16)) in
  let c := pshr (geti o i) 16 in
  let k := ((i + 1) * (if i <? 15 then 1 else 0))%nat in
  let o := seti o k (padd (geti o k)
    (padd (psub c (plain 1)) (pmul (pmul (plain 37) (psub c (plain 1))) (plain (if (i =? 15)%nat then 1 else 0))))) in
  seti o i (psub (geti o i) (pshl c 16)).
Definition car25519 (o : list pint) : list pint := for_range 16 car_step o.

(** tweetnacl.py:354-362 *)
Definition sel25519 (p q : list pint) (b : pint) : list pint * list pint :=
  let c := cast TI64 (pinv (psub b (plain 1))) in
  for_range 16 (fun (st : list pint * list pint) i =>
    let (p, q) := st in
    let t := pand c (pxor (geti p i) (geti q i)) in
    (seti p i (pxor (geti p i) t), seti q i (pxor (geti q i) t))) (p, q).

(** tweetnacl.py:376-384; the body of [for j in range(2)] *)
Definition sub_step (t m : list pint) (i : nat) : list pint :=
  let m := seti m i (psub (psub (geti t i) (plain 0xffff)) (pand (pshr (geti m (i - 1)) 16) (plain 1))) in
  seti m (i - 1) (pand (geti m (i - 1)) (plain 0xffff)).
Definition pack_round (st : list pint * list pint) : list pint * list pint :=
  let (t, m) := st in
  let m := seti m 0 (psub (geti t 0) (plain 0xffed)) in
  let m := for_range 14 (fun m i => sub_step t m (S i)) m in
  let m := seti m 15 (psub (psub (geti t 15) (plain 0x7fff)) (pand (pshr (geti m 14) 16) (plain 1))) in
  let b := pand (pshr (geti m 15) 16) (plain 1) in
  let m := seti m 14 (pand (geti m 14) (plain 0xffff)) in
  sel25519 t m (psub (plain 1) b).
(** tweetnacl.py:365-388 *)
Definition pack25519 (o n : list pint) : list pint :=
  let t := for_range 16 (fun t i => seti t i (geti n i)) gf_new in
  let t := car25519 (car25519 (car25519 t)) in
  let (t, _) := pack_round (pack_round (t, gf_new)) in
  for_range 16 (fun o i =>
    let o := seti o (2 * i) (pand (geti t i) (plain 0xff)) in
    seti o (2 * i + 1) (pshr (geti t i) 8)) o.

(** tweetnacl.py:391-397 *)
Definition neq25519 (a b : list pint) : pint :=
  crypto_verify_32 (pack25519 (int_array TU8 32) a) (pack25519 (int_array TU8 32) b).
(** tweetnacl.py:400-404 *)
Definition par25519 (a : list pint) : pint := pand (geti (pack25519 (int_array TU8 32) a) 0) (plain 1).

(** tweetnacl.py:407-410 *)
Definition unpack25519 (o n : list pint) : list pint :=
  let o := for_range 16 (fun o i =>
    seti o i (padd (geti n (2 * i)) (pshl (cast TI64 (geti n (2 * i + 1))) 8))) o in
  seti o 15 (pand (geti o 15) (plain 0x7fff)).

(** tweetnacl.py:413-415 *)
Definition fA (o a b : list pint) : list pint := for_range 16 (fun o i => seti o i (padd (geti a i) (geti b i))) o.
(** tweetnacl.py:418-420; [fA a a c] with one list as target and operand is right too: item
    i is read before it is written *)
Definition fZ (o a b : list pint) : list pint := for_range 16 (fun o i => seti o i (psub (geti a i) (geti b i))) o.
(** tweetnacl.py:423-434 *)
Definition fM (o a b : list pint) : list pint :=
  let t := int_array TI64 31 in
  let t := for_range 16 (fun t i => for_range 16 (fun t j =>
    seti t (i + j) (padd (geti t (i + j)) (pmul (geti a i) (geti b j)))) t) t in
  let t := for_range 15 (fun t i => seti t i (padd (geti t i) (pmul (plain 38) (geti t (i + 16))))) t in
  let o := for_range 16 (fun o i => seti o i (geti t i)) o in
  car25519 (car25519 o).
(** tweetnacl.py:437-439 *)
Definition fS (o a : list pint) : list pint := fM o a a.

(** tweetnacl.py:442-452; pass k of the loop has a = 253 - k *)
Definition inv25519 (o i : list pint) : list pint :=
  let c := for_range 16 (fun c a => seti c a (geti i a)) gf_new in
  let c := for_range 254 (fun c k =>
    let a := (253 - k)%nat in
    let c := fS c c in
    if negb (a =? 2)%nat && negb (a =? 4)%nat then fM c c i else c) c in
  for_range 16 (fun o a => seti o a (geti c a)) o.
(** tweetnacl.py:455-463; pass k of the loop has a = 250 - k *)
Definition pow2523 (o i : list pint) : list pint :=
  let c := for_range 16 (fun c a => seti c a (geti i a)) gf_new in
  let c := for_range 251 (fun c k =>
    let a := (250 - k)%nat in
    let c := fS c c in
    if negb (a =? 1)%nat then fM c c i else c) c in
  for_range 16 (fun o a => seti o a (geti c a)) o.

(** tweetnacl.py:479-481 *)
Definition clamp_z (n : list pint) : list pint :=
  let z := int_array TU8 32 in
  let z := for_range 31 (fun z i => seti z i (geti n i)) z in
  let z := seti z 31 (por (pand (geti n 31) (plain 127)) (plain 64)) in
  seti z 0 (pand (geti z 0) (plain 248)).
(** The lists a to f of tweetnacl.py:472-477 *)
Record ladder : Type := Ladder { la : list pint; lb : list pint; lc : list pint; ld : list pint; le : list pint; lf : list pint }.
(** tweetnacl.py:491-513, one pass *)
Definition ladder_step (x z : list pint) (s : ladder) (i : nat) : ladder :=
  let r := pand (pshr (geti z (i / 8)) (Z.of_nat (i mod 8))) (plain 1) in
  let (a, b) := sel25519 (la s) (lb s) r in
  let (c, d) := sel25519 (lc s) (ld s) r in
  let e := fA (le s) a c in
  let a := fZ a a c in
  let c := fA c b d in
  let b := fZ b b d in
  let d := fS d e in
  let f := fS (lf s) a in
  let a := fM a c a in
  let c := fM c b e in
  let e := fA e a c in
  let a := fZ a a c in
  let b := fS b a in
  let c := fZ c d f in
  let a := fM a c gf_121665 in
  let a := fA a a d in
  let c := fM c c a in
  let a := fM a d f in
  let d := fM d b x in
  let b := fS b e in
  let (a, b) := sel25519 a b r in
  let (c, d) := sel25519 c d r in
  Ladder a b c d e f.
(** tweetnacl.py:485-489 *)
Definition ladder_init (x : list pint) : ladder :=
  let b := for_range 16 (fun b i => seti b i (geti x i)) gf_new in
  let zeros := for_range 16 (fun d i => seti d i (plain 0)) gf_new in
  Ladder (seti zeros 0 (plain 1)) b zeros (seti zeros 0 (plain 1)) gf_new gf_new.
(** tweetnacl.py:515-523 *)
Definition ladder_end (q x : list pint) (s : ladder) : list pint :=
  let x := for_range 16 (fun x i =>
    let x := seti x (i + 16) (geti (la s) i) in
    let x := seti x (i + 32) (geti (lc s) i) in
    let x := seti x (i + 48) (geti (lb s) i) in
    seti x (i + 64) (geti (ld s) i)) x in
  let x := firstn 32 x ++ inv25519 (skipn 32 x) (skipn 32 x) in
  let x := firstn 16 x ++ fM (skipn 16 x) (skipn 16 x) (skipn 32 x) in
  pack25519 q (skipn 16 x).
(** tweetnacl.py:466-524; returns q.  Pass k of the loop has i = 254 - k. *)
Definition crypto_scalarmult (q n p : list pint) : list pint :=
  let z := clamp_z n in
  let x := unpack25519 (int_array TI64 80) p in
  ladder_end q x (for_range 255 (fun s k => ladder_step x z s (254 - k)) (ladder_init x)).
(** tweetnacl.py:527-529 *)
Definition crypto_scalarmult_base (q n : list pint) : list pint := crypto_scalarmult q n b9.
(** tweetnacl.py:538-542; returns k *)
Definition crypto_box_beforenm (k y x : list pint) : list pint :=
  crypto_core_hsalsa20 k b0 (crypto_scalarmult (int_array TU8 32) x y) sigma.
