(** Poly1305 and secretbox of saltlib/pure_pynacl/tweetnacl.py. *)
From Coq Require Import List ZArith Bool Strings.Byte.
From Verif Require Import PyBase PyInt TwSalsa.
Import ListNotations.
Open Scope Z_scope.

(** tweetnacl.py:234-240; returns h *)
Definition add1305 (h c : list pint) : list pint :=
  snd (for_range 17 (fun (st : pint * list pint) j =>
    let (u, h) := st in
    let u := padd u (cast TU32 (padd (geti h j) (geti c j))) in
    (pshr u 8, seti h j (pand u (plain 255)))) (mk TU32 0, h)).

(** tweetnacl.py:243 *)
Definition minusp : list pint :=
  int_array_of TU32 [5; 0; 0; 0; 0; 0; 0; 0; 0; 0; 0; 0; 0; 0; 0; 0; 252].

(** tweetnacl.py:250, :256-263 *)
Definition poly_r (k : list pint) : list pint :=
  let r := for_range 16 (fun r j => seti r j (geti k j)) (int_array TU32 17) in
  let mask r i v := seti r i (pand (geti r i) (plain v)) in
  let r := mask r 3%nat 15 in
  let r := mask r 4%nat 252 in
  let r := mask r 7%nat 15 in
  let r := mask r 8%nat 252 in
  let r := mask r 11%nat 15 in
  let r := mask r 12%nat 252 in
  mask r 15%nat 15.

(** tweetnacl.py:266-271; [n] > 0 bytes are left.  The loop stops at j = n if n < 16; as
    j >= n stays true from there on, the passes after the break are written as doing
    nothing.  Afterwards j is min(n, 16). *)
Definition poly_block (m : list pint) (n : Z) : list pint :=
  let c := int_array TU32 17 in
  let c := for_range 16 (fun c j => if Z.of_nat j >=? n then c else seti c j (geti m j)) c in
  seti c (Z.to_nat (Z.min n 16)) (plain 1).

(** tweetnacl.py:275-277 *)
Definition poly_mul (h r x : list pint) : list pint :=
  for_range 17 (fun x i =>
    let x := seti x i (plain 0) in
    for_range 17 (fun x j =>
      seti x i (padd (geti x i)
        (pmul (geti h j)
              (if (j <=? i)%nat then geti r (i - j) else pmul (plain 320) (geti r (i + 17 - j)))))) x) x.

(** tweetnacl.py:282-285, :290-293; the state is (u, h) *)
Definition poly_carry (st : pint * list pint) : pint * list pint :=
  for_range 16 (fun st j => let (u, h) := st : pint * list pint in
    let u := padd u (geti h j) in (pshr u 8, seti h j (pand u (plain 255)))) st.

(** tweetnacl.py:280-295 *)
Definition poly_reduce (h : list pint) : list pint :=
  let (u, h) := poly_carry (plain 0, h) in
  let u := padd u (geti h 16) in
  let h := seti h 16 (pand u (plain 3)) in
  let u := pmul (plain 5) (pshr u 2) in
  let (u, h) := poly_carry (u, h) in
  let u := padd u (geti h 16) in
  seti h 16 u.

(** tweetnacl.py:265-295; [fuel] bounds the passes; returns (x, h) *)
Fixpoint poly_loop (fuel : nat) (m r x h : list pint) (n : Z) : list pint :=
  match fuel with
  | O => h
  | S f =>
    if n >? 0 then
      let c := poly_block m n in
      let j := Z.min n 16 in
      let h := add1305 h c in
      let x := poly_mul h r x in
      let h := for_range 17 (fun h i => seti h i (geti x i)) h in
      poly_loop f (skipn (Z.to_nat j) m) r x (poly_reduce h) (n - j)
    else h
  end.

(** tweetnacl.py:297-305; returns out *)
Definition poly_finish (out h k : list pint) : list pint :=
  let g := for_range 17 (fun g j => seti g j (geti h j)) (int_array TU32 17) in
  let h := add1305 h minusp in
  let s := pneg (pshr (geti h 16) 7) in
  let h := for_range 17 (fun h j => seti h j (pxor (geti h j) (pand s (pxor (geti g j) (geti h j))))) h in
  let c := for_range 16 (fun c j => seti c j (geti k (j + 16))) (int_array TU32 17) in
  let c := seti c 16 (plain 0) in
  let h := add1305 h c in
  for_range 16 (fun out j => seti out j (geti h j)) out.

(** tweetnacl.py:246-307; returns out.  Every pass of the while loop lowers n, so n passes
    suffice.  (c, whose first 17 items poly_finish sets anew, is a fresh list here.) *)
Definition crypto_onetimeauth (out m : list pint) (n : Z) (k : list pint) : list pint :=
  poly_finish out (poly_loop (Z.to_nat n) m (poly_r k) (int_array TU32 17) (int_array TU32 17) n) k.

(** tweetnacl.py:116-120 *)
Definition vn (x y : list pint) (n : nat) : pint :=
  let d := for_range n (fun d i => por d (pxor (geti x i) (geti y i))) (mk TU32 0) in
  psub (pand (plain 1) (pshr (psub d (plain 1)) 8)) (plain 1).
(** tweetnacl.py:123-130 *)
Definition crypto_verify_16 (x y : list pint) : pint := vn x y 16.
Definition crypto_verify_32 (x y : list pint) : pint := vn x y 32.

(** tweetnacl.py:310-314 *)
Definition crypto_onetimeauth_verify (h m : list pint) (n : Z) (k : list pint) : pint :=
  crypto_verify_16 h (crypto_onetimeauth (int_array TU8 16) m n k).

(** tweetnacl.py:317-325; the result code and c *)
Definition crypto_secretbox (c m : list pint) (d : Z) (n k : list pint) : Z * list pint :=
  if d <? 32 then (-1, c) else
  let c := crypto_stream_xsalsa20_xor c m d n k in
  let c_out := crypto_onetimeauth (skipn 16 c) (skipn 32 c) (d - 32) c in
  let c := firstn 16 c ++ c_out in
  (0, repeat (mk TU8 0) 16 ++ skipn 16 c).

(** tweetnacl.py:328-336; the result code and m *)
Definition crypto_secretbox_open (m c : list pint) (d : Z) (n k : list pint) : Z * list pint :=
  if d <? 32 then (-1, m) else
  let x := crypto_stream_xsalsa20 (int_array TU8 32) 32 n k in
  if negb (pv (crypto_onetimeauth_verify (skipn 16 c) (skipn 32 c) (d - 32) x) =? 0) then (-1, m) else
  let m := crypto_stream_xsalsa20_xor m c d n k in
  (0, repeat (mk TU8 0) 32).
