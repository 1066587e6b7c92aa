(** Salsa20, HSalsa20 and the XSalsa20 stream of saltlib/pure_pynacl/tweetnacl.py. *)
From Coq Require Import List ZArith Bool Strings.Byte.
From Verif Require Import PyBase PyInt.
Import ListNotations.
Open Scope Z_scope.

(** tweetnacl.py:84-86 *)
Definition L32 (x : pint) (c : Z) : pint :=
  por (pshl (cast TU32 x) c) (pshr (pand (cast TU32 x) (plain 0xffffffff)) (32 - c)).

(** tweetnacl.py:89-94 *)
Definition ld32 (x : list pint) : pint :=
  let u := cast TU32 (geti x 3) in
  let u := por (pshl u 8) (cast TU32 (geti x 2)) in
  let u := por (pshl u 8) (cast TU32 (geti x 1)) in
  por (pshl u 8) (cast TU32 (geti x 0)).

(** tweetnacl.py:104-107 *)
Definition st32 (x : list pint) (u : pint) : list pint :=
  fst (for_range 4 (fun st i => (seti (fst st) i (cast TU8 (snd st)), pshr (snd st) 8)) (x, u)).

(** tweetnacl.py:151-154 *)
Definition quarter (t : list pint) : list pint :=
  let t := seti t 1 (pxor (geti t 1) (L32 (padd (geti t 0) (geti t 3)) 7)) in
  let t := seti t 2 (pxor (geti t 2) (L32 (padd (geti t 1) (geti t 0)) 9)) in
  let t := seti t 3 (pxor (geti t 3) (L32 (padd (geti t 2) (geti t 1)) 13)) in
  seti t 0 (pxor (geti t 0) (L32 (padd (geti t 3) (geti t 2)) 18)).

(** tweetnacl.py:150-155, one pass of the loop over j; the state is (t, w) *)
Definition core_column (x : list pint) (st : list pint * list pint) (j : nat) : list pint * list pint :=
  let (t, w) := st in
  let t := for_range 4 (fun t m => seti t m (geti x ((5 * j + 4 * m) mod 16))) t in
  let t := quarter t in
  (t, for_range 4 (fun w m => seti w (4 * j + (j + m) mod 4) (geti t m)) w).

(** tweetnacl.py:149-156, one pass of the loop over i; the state is (x, t, w) *)
Definition core_round (st : list pint * (list pint * list pint)) (_ : nat) : list pint * (list pint * list pint) :=
  let (x, tw) := st in
  let tw := for_range 4 (core_column x) tw in
  (for_range 16 (fun x m => seti x m (geti (snd tw) m)) x, tw).

(** tweetnacl.py:140-144 *)
Definition core_load (in_ k c x : list pint) : list pint :=
  for_range 4 (fun x i =>
    let x := seti x (5 * i) (ld32 (skipn (4 * i) c)) in
    let x := seti x (1 + i) (ld32 (skipn (4 * i) k)) in
    let x := seti x (6 + i) (ld32 (skipn (4 * i) in_)) in
    seti x (11 + i) (ld32 (skipn (16 + 4 * i) k))) x.

(** tweetnacl.py:133-168; returns out *)
Definition core (out in_ k c : list pint) (h : bool) : list pint :=
  let w := int_array TU32 16 in
  let y := int_array TU32 16 in
  let t := int_array TU32 4 in
  let x := core_load in_ k c (int_array TU32 16) in
  let y := for_range 16 (fun y i => seti y i (geti x i)) y in
  let x := fst (for_range 20 core_round (x, (t, w))) in
  if h then
    let x := for_range 16 (fun x i => seti x i (padd (geti x i) (geti y i))) x in
    let x := for_range 4 (fun x i =>
      let x := seti x (5 * i) (psub (geti x (5 * i)) (ld32 (skipn (4 * i) c))) in
      seti x (6 + i) (psub (geti x (6 + i)) (ld32 (skipn (4 * i) in_)))) x in
    for_range 4 (fun out i =>
      let out := on_tail (4 * i) (fun o => st32 o (geti x (5 * i))) out in
      on_tail (16 + 4 * i) (fun o => st32 o (geti x (6 + i))) out) out
  else
    for_range 16 (fun out i => on_tail (4 * i) (fun o => st32 o (padd (geti x i) (geti y i))) out) out.

(** tweetnacl.py:171-180 *)
Definition crypto_core_salsa20 (out in_ k c : list pint) : list pint := core out in_ k c false.
Definition crypto_core_hsalsa20 (out in_ k c : list pint) : list pint := core out in_ k c true.

(** tweetnacl.py:183 *)
Definition sigma : list pint := int_array_of TU8
  [101; 120; 112; 97; 110; 100; 32; 51; 50; 45; 98; 121; 116; 101; 32; 107].

(** tweetnacl.py:199-203: the block counter *)
Definition bump (z : list pint) : list pint :=
  snd (for_range 8 (fun st i => let (u, z) := st : pint * list pint in
        let u := padd u (cast TU32 (geti z (8 + i))) in (pshr u 8, seti z (8 + i) u)) (mk TU32 1, z)).

(** tweetnacl.py:198, :210 *)
Definition xor_block (n : nat) (c m x : list pint) (c_off m_off : nat) : list pint :=
  for_range n (fun c i =>
    seti c (i + c_off) (pxor (if is_empty m then plain 0 else geti m (i + m_off)) (geti x i))) c.

(** tweetnacl.py:196-210; [fuel] bounds the passes of the while loop *)
Fixpoint stream_loop (fuel : nat) (c m z x k : list pint) (c_off m_off : nat) (b : Z) : list pint :=
  match fuel with
  | O => c
  | S f =>
    if b >=? 64 then
      let x := crypto_core_salsa20 x z k sigma in
      let c := xor_block 64 c m x c_off m_off in
      stream_loop f c m (bump z) x k (c_off + 64) (if is_empty m then m_off else m_off + 64)%nat (b - 64)
    else if b =? 0 then c
    else xor_block (Z.to_nat b) c m (crypto_core_salsa20 x z k sigma) c_off m_off
  end.

(** tweetnacl.py:186-212; returns c.  Every pass lowers b, so b + 1 passes suffice. *)
Definition crypto_stream_salsa20_xor (c m : list pint) (b : Z) (n k : list pint) : list pint :=
  let z := int_array TU8 16 in
  let x := int_array TU8 64 in
  if b =? 0 then c else
  let z := for_range 8 (fun z i => seti z i (geti n i)) z in
  stream_loop (S (Z.to_nat b)) c m z x k 0 0 b.

(** tweetnacl.py:215-217 *)
Definition crypto_stream_salsa20 (c : list pint) (d : Z) (n k : list pint) : list pint :=
  crypto_stream_salsa20_xor c [] d n k.

(** tweetnacl.py:220-224 *)
Definition crypto_stream_xsalsa20 (c : list pint) (d : Z) (n k : list pint) : list pint :=
  let s := crypto_core_hsalsa20 (int_array TU8 32) n k sigma in
  crypto_stream_salsa20 c d (skipn 16 n) s.

(** tweetnacl.py:227-231 *)
Definition crypto_stream_xsalsa20_xor (c m : list pint) (d : Z) (n k : list pint) : list pint :=
  let s := crypto_core_hsalsa20 (int_array TU8 32) n k sigma in
  crypto_stream_salsa20_xor c m d (skipn 16 n) s.
