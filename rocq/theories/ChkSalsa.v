(** Salsa20, Poly1305 and secretbox of saltlib/pure_pynacl/tweetnacl.py, with the exceptions
    of lists. *)
From Coq Require Import List ZArith Bool Strings.Byte.
From Verif Require Import PyBase PyInt ChkPy TwSalsa TwPoly.
Import ListNotations.
Open Scope Z_scope.

(** tweetnacl.py:89-94 *)
Definition ld32_c (x : list pint) : res pint :=
  u <- lcast TU32 (rget x 3) ;;
  u <- lor (lshl (Ok u) 8) (lcast TU32 (rget x 2)) ;;
  u <- lor (lshl (Ok u) 8) (lcast TU32 (rget x 1)) ;;
  lor (lshl (Ok u) 8) (lcast TU32 (rget x 0)).
(** tweetnacl.py:104-107 *)
Definition st32_c (x : list pint) (u : pint) : res (list pint) :=
  '(x, _) <- for_c 4 (fun '(x, u) i => x <- lset x i (lcast TU8 (Ok u)) ;; Ok (x, pshr u 8)) (x, u) ;; Ok x.
(** tweetnacl.py:84-86 on an expression that may raise *)
Definition lL32 (a : res pint) (c : Z) : res pint := lift (fun x => L32 x c) a.
(** tweetnacl.py:151-154 *)
Definition quarter_c (t : list pint) : res (list pint) :=
  t <- lset t 1 (lxor (rget t 1) (lL32 (ladd (rget t 0) (rget t 3)) 7)) ;;
  t <- lset t 2 (lxor (rget t 2) (lL32 (ladd (rget t 1) (rget t 0)) 9)) ;;
  t <- lset t 3 (lxor (rget t 3) (lL32 (ladd (rget t 2) (rget t 1)) 13)) ;;
  lset t 0 (lxor (rget t 0) (lL32 (ladd (rget t 3) (rget t 2)) 18)).
(** tweetnacl.py:150-155, one pass of the loop over j; the state is (t, w) *)
Definition core_column_c (x : list pint) (st : list pint * list pint) (j : nat) : res (list pint * list pint) :=
  let (t, w) := st in
  t <- for_c 4 (fun t m => lset t m (rget x ((5 * j + 4 * m) mod 16))) t ;;
  t <- quarter_c t ;;
  w <- for_c 4 (fun w m => lset w (4 * j + (j + m) mod 4) (rget t m)) w ;;
  Ok (t, w).
(** tweetnacl.py:149-156, one pass of the loop over i; the state is (x, t, w) *)
Definition core_round_c (st : list pint * (list pint * list pint)) (_ : nat) : res (list pint * (list pint * list pint)) :=
  let (x, tw) := st in
  tw <- for_c 4 (core_column_c x) tw ;;
  x <- for_c 16 (fun x m => lset x m (rget (snd tw) m)) x ;;
  Ok (x, tw).
(** tweetnacl.py:140-144 *)
Definition core_load_c (in_ k c x : list pint) : res (list pint) :=
  for_c 4 (fun x i =>
    x <- lset x (5 * i) (ld32_c (skipn (4 * i) c)) ;;
    x <- lset x (1 + i) (ld32_c (skipn (4 * i) k)) ;;
    x <- lset x (6 + i) (ld32_c (skipn (4 * i) in_)) ;;
    lset x (11 + i) (ld32_c (skipn (16 + 4 * i) k))) x.
(** tweetnacl.py:133-168; returns out *)
Definition core_c (out in_ k c : list pint) (h : bool) : res (list pint) :=
  let w := int_array TU32 16 in
  let y := int_array TU32 16 in
  let t := int_array TU32 4 in
  x <- core_load_c in_ k c (int_array TU32 16) ;;
  y <- for_c 16 (fun y i => lset y i (rget x i)) y ;;
  '(x, _) <- for_c 20 core_round_c (x, (t, w)) ;;
  if h then
    x <- for_c 16 (fun x i => lset x i (ladd (rget x i) (rget y i))) x ;;
    x <- for_c 4 (fun x i =>
      x <- lset x (5 * i) (lsub (rget x (5 * i)) (ld32_c (skipn (4 * i) c))) ;;
      lset x (6 + i) (lsub (rget x (6 + i)) (ld32_c (skipn (4 * i) in_)))) x ;;
    for_c 4 (fun out i =>
      v <- rget x (5 * i) ;; out <- tail_c (4 * i) (fun o => st32_c o v) out ;;
      v <- rget x (6 + i) ;; tail_c (16 + 4 * i) (fun o => st32_c o v) out) out
  else
    for_c 16 (fun out i => v <- ladd (rget x i) (rget y i) ;; tail_c (4 * i) (fun o => st32_c o v) out) out.

(** tweetnacl.py:199-203: the block counter *)
Definition bump_c (z : list pint) : res (list pint) :=
  '(_, z) <- for_c 8 (fun '(u, z) i =>
        u <- ladd (Ok u) (lcast TU32 (rget z (8 + i))) ;; z <- lset z (8 + i) (Ok u) ;; Ok (pshr u 8, z)) (mk TU32 1, z) ;; Ok z.
(** tweetnacl.py:198, :210 *)
Definition xor_block_c (n : nat) (c m x : list pint) (c_off m_off : nat) : res (list pint) :=
  for_c n (fun c i => lset c (i + c_off) (lxor (if is_empty m then num 0 else rget m (i + m_off)) (rget x i))) c.
(** tweetnacl.py:196-210; [fuel] bounds the passes of the while loop *)
Fixpoint stream_loop_c (fuel : nat) (c m z x k : list pint) (c_off m_off : nat) (b : Z) : res (list pint) :=
  match fuel with
  | O => Ok c
  | S f =>
    if b >=? 64 then
      x <- core_c x z k sigma false ;;
      c <- xor_block_c 64 c m x c_off m_off ;;
      z <- bump_c z ;;
      stream_loop_c f c m z x k (c_off + 64) (if is_empty m then m_off else m_off + 64)%nat (b - 64)
    else if b =? 0 then Ok c
    else x <- core_c x z k sigma false ;; xor_block_c (Z.to_nat b) c m x c_off m_off
  end.
(** tweetnacl.py:186-212; returns c.  Every pass lowers b, so b + 1 passes suffice. *)
Definition stream_salsa20_xor_c (c m : list pint) (b : Z) (n k : list pint) : res (list pint) :=
  let z := int_array TU8 16 in
  let x := int_array TU8 64 in
  if b =? 0 then Ok c else
  z <- for_c 8 (fun z i => lset z i (rget n i)) z ;;
  stream_loop_c (S (Z.to_nat b)) c m z x k 0 0 b.
(** tweetnacl.py:220-224, :215-217 *)
Definition stream_c (c : list pint) (d : Z) (n k : list pint) : res (list pint) :=
  s <- core_c (int_array TU8 32) n k sigma true ;; stream_salsa20_xor_c c [] d (skipn 16 n) s.
(** tweetnacl.py:227-231 *)
Definition stream_xor_c (c m : list pint) (d : Z) (n k : list pint) : res (list pint) :=
  s <- core_c (int_array TU8 32) n k sigma true ;; stream_salsa20_xor_c c m d (skipn 16 n) s.

(** tweetnacl.py:234-240; returns h *)
Definition add1305_c (h c : list pint) : res (list pint) :=
  '(_, h) <- for_c 17 (fun '(u, h) j =>
    u <- ladd (Ok u) (lcast TU32 (ladd (rget h j) (rget c j))) ;;
    h <- lset h j (Ok (pand u (plain 255))) ;; Ok (pshr u 8, h)) (mk TU32 0, h) ;; Ok h.
(** tweetnacl.py:250, :256-263 *)
Definition poly_r_c (k : list pint) : res (list pint) :=
  r <- for_c 16 (fun r j => lset r j (rget k j)) (int_array TU32 17) ;;
  let mask r i v := lset r i (land (rget r i) (num v)) in
  r <- mask r 3%nat 15 ;;
  r <- mask r 4%nat 252 ;;
  r <- mask r 7%nat 15 ;;
  r <- mask r 8%nat 252 ;;
  r <- mask r 11%nat 15 ;;
  r <- mask r 12%nat 252 ;;
  mask r 15%nat 15.
(** tweetnacl.py:266-271; see [poly_block] for the loop's break *)
Definition poly_block_c (m : list pint) (n : Z) : res (list pint) :=
  c <- for_c 16 (fun c j => if Z.of_nat j >=? n then Ok c else lset c j (rget m j)) (int_array TU32 17) ;;
  lset c (Z.to_nat (Z.min n 16)) (num 1).
(** tweetnacl.py:275-277 *)
Definition poly_mul_c (h r x : list pint) : res (list pint) :=
  for_c 17 (fun x i =>
    x <- lset x i (num 0) ;;
    for_c 17 (fun x j =>
      lset x i (ladd (rget x i)
        (lmul (rget h j)
              (if (j <=? i)%nat then rget r (i - j) else lmul (num 320) (rget r (i + 17 - j)))))) x) x.
(** tweetnacl.py:282-285, :290-293; the state is (u, h) *)
Definition poly_carry_c (st : pint * list pint) : res (pint * list pint) :=
  for_c 16 (fun '(u, h) j =>
    u <- ladd (Ok u) (rget h j) ;; h <- lset h j (Ok (pand u (plain 255))) ;; Ok (pshr u 8, h)) st.
(** tweetnacl.py:280-295 *)
Definition poly_reduce_c (h : list pint) : res (list pint) :=
  '(u, h) <- poly_carry_c (plain 0, h) ;;
  u <- ladd (Ok u) (rget h 16) ;;
  h <- lset h 16 (Ok (pand u (plain 3))) ;;
  let u := pmul (plain 5) (pshr u 2) in
  '(u, h) <- poly_carry_c (u, h) ;;
  u <- ladd (Ok u) (rget h 16) ;;
  lset h 16 (Ok u).
(** tweetnacl.py:265-295; [fuel] bounds the passes *)
Fixpoint poly_loop_c (fuel : nat) (m r x h : list pint) (n : Z) : res (list pint) :=
  match fuel with
  | O => Ok h
  | S f =>
    if n >? 0 then
      c <- poly_block_c m n ;;
      let j := Z.min n 16 in
      h <- add1305_c h c ;;
      x <- poly_mul_c h r x ;;
      h <- for_c 17 (fun h i => lset h i (rget x i)) h ;;
      h <- poly_reduce_c h ;;
      poly_loop_c f (skipn (Z.to_nat j) m) r x h (n - j)
    else Ok h
  end.
(** tweetnacl.py:297-305; returns out *)
Definition poly_finish_c (out h k : list pint) : res (list pint) :=
  g <- for_c 17 (fun g j => lset g j (rget h j)) (int_array TU32 17) ;;
  h <- add1305_c h minusp ;;
  s <- lift pneg (lshr (rget h 16) 7) ;;
  h <- for_c 17 (fun h j => lset h j (lxor (rget h j) (land (Ok s) (lxor (rget g j) (rget h j))))) h ;;
  c <- for_c 16 (fun c j => lset c j (rget k (j + 16))) (int_array TU32 17) ;;
  c <- lset c 16 (num 0) ;;
  h <- add1305_c h c ;;
  for_c 16 (fun out j => lset out j (rget h j)) out.
(** tweetnacl.py:246-307; returns out *)
Definition onetimeauth_c (out m : list pint) (n : Z) (k : list pint) : res (list pint) :=
  r <- poly_r_c k ;;
  h <- poly_loop_c (Z.to_nat n) m r (int_array TU32 17) (int_array TU32 17) n ;;
  poly_finish_c out h k.
(** tweetnacl.py:116-130 *)
Definition vn_c (x y : list pint) (n : nat) : res pint :=
  d <- for_c n (fun d i => lor (Ok d) (lxor (rget x i) (rget y i))) (mk TU32 0) ;;
  Ok (psub (pand (plain 1) (pshr (psub d (plain 1)) 8)) (plain 1)).
(** tweetnacl.py:310-314 *)
Definition onetimeauth_verify_c (h m : list pint) (n : Z) (k : list pint) : res pint :=
  x <- onetimeauth_c (int_array TU8 16) m n k ;; vn_c h x 16.
(** tweetnacl.py:317-325; the result code and c *)
Definition secretbox_c (c m : list pint) (d : Z) (n k : list pint) : res (Z * list pint) :=
  if d <? 32 then Ok (-1, c) else
  c <- stream_xor_c c m d n k ;;
  c_out <- onetimeauth_c (skipn 16 c) (skipn 32 c) (d - 32) c ;;
  let c := firstn 16 c ++ c_out in
  Ok (0, repeat (mk TU8 0) 16 ++ skipn 16 c).
(** tweetnacl.py:328-336; the result code and m *)
Definition secretbox_open_c (m c : list pint) (d : Z) (n k : list pint) : res (Z * list pint) :=
  if d <? 32 then Ok (-1, m) else
  x <- stream_c (int_array TU8 32) 32 n k ;;
  v <- onetimeauth_verify_c (skipn 16 c) (skipn 32 c) (d - 32) x ;;
  if negb (pv v =? 0) then Ok (-1, m) else
  m <- stream_xor_c m c d n k ;;
  Ok (0, repeat (mk TU8 0) 32).
