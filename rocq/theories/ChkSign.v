(** Ed25519 of saltlib/pure_pynacl/tweetnacl.py, and the methods of saltlib_pure.py, with the
    exceptions of lists and bytearrays. *)
From Coq Require Import List ZArith Bool Strings.Byte.
From Verif Require Import PyBase PyInt ChkPy TwHash TwSalsa TwPoly TwField TwSign ChkHash ChkSalsa ChkField.
Import ListNotations.
Open Scope Z_scope.

(** tweetnacl.py:705-735; p and q may be one list (the last four lines alone write) *)
Definition add4_c (p q : gf4) : res gf4 :=
  a <- fZ_c gf_new (g1 p) (g0 p) ;;
  t <- fZ_c gf_new (g1 q) (g0 q) ;;
  a <- fM_c a a t ;;
  b <- fA_c gf_new (g0 p) (g1 p) ;;
  t <- fA_c t (g0 q) (g1 q) ;;
  b <- fM_c b b t ;;
  c <- fM_c gf_new (g3 p) (g3 q) ;;
  c <- fM_c c c cD2 ;;
  d <- fM_c gf_new (g2 p) (g2 q) ;;
  d <- fA_c d d d ;;
  e <- fZ_c gf_new b a ;;
  f <- fZ_c gf_new d c ;;
  g <- fA_c gf_new d c ;;
  h <- fA_c gf_new b a ;;
  p0 <- fM_c (g0 p) e f ;;
  p1 <- fM_c (g1 p) h g ;;
  p2 <- fM_c (g2 p) g f ;;
  p3 <- fM_c (g3 p) e h ;;
  Ok (G4 p0 p1 p2 p3).
(** tweetnacl.py:738-741 *)
Definition cswap4_c (p q : gf4) (b : pint) : res (gf4 * gf4) :=
  '(p0, q0) <- sel25519_c (g0 p) (g0 q) b ;;
  '(p1, q1) <- sel25519_c (g1 p) (g1 q) b ;;
  '(p2, q2) <- sel25519_c (g2 p) (g2 q) b ;;
  '(p3, q3) <- sel25519_c (g3 p) (g3 q) b ;;
  Ok (G4 p0 p1 p2 p3, G4 q0 q1 q2 q3).
(** tweetnacl.py:744-753; returns r *)
Definition pack_point_c (put : store) (r : list pint) (p : gf4) : res (list pint) :=
  zi <- inv25519_c gf_new (g2 p) ;;
  tx <- fM_c gf_new (g0 p) zi ;;
  ty <- fM_c gf_new (g1 p) zi ;;
  r <- pack25519_c put r ty ;;
  sput put r 31 (lxor (rget r 31) (lshl (par25519_c tx) 7)).
(** tweetnacl.py:762-767, one pass *)
Definition mult_step_c (s : list pint) (st : gf4 * gf4) (i : nat) : res (gf4 * gf4) :=
  let (p, q) := st in
  b <- lcast TU8 (land (lshr (rget s (i / 8)) (Z.of_nat (i mod 8))) (num 1)) ;;
  '(p, q) <- cswap4_c p q b ;;
  q <- add4_c q p ;;
  p <- add4_c p p ;;
  cswap4_c p q b.
(** tweetnacl.py:756-767; returns p.  Pass k of the loop has i = 255 - k. *)
Definition scalarmult4_c (p q : gf4) (s : list pint) : res gf4 :=
  p0 <- set25519_c (g0 p) gf0 ;;
  p1 <- set25519_c (g1 p) gf1 ;;
  p2 <- set25519_c (g2 p) gf1 ;;
  p3 <- set25519_c (g3 p) gf0 ;;
  '(p, _) <- for_c 256 (fun st k => mult_step_c s st (255 - k)) (G4 p0 p1 p2 p3, q) ;;
  Ok p.
(** tweetnacl.py:770-777; returns p *)
Definition scalarbase4_c (p : gf4) (s : list pint) : res gf4 :=
  q0 <- set25519_c gf_new cX ;;
  q1 <- set25519_c gf_new cY ;;
  q2 <- set25519_c gf_new gf1 ;;
  q3 <- fM_c gf_new cX cY ;;
  scalarmult4_c p (G4 q0 q1 q2 q3) s.

(** tweetnacl.py:808-811, one pass with j = i - 32 + k *)
Definition modL_cell_c (i : nat) (st : list pint * pint) (k : nat) : res (list pint * pint) :=
  let (x, carry) := st in
  let j := (i - 32 + k)%nat in
  x <- lset x j (ladd (rget x j) (lsub (Ok carry) (lmul (lmul (num 16) (rget x i)) (rget cL k)))) ;;
  carry <- lshr (ladd (rget x j) (num 128)) 8 ;;
  x <- lset x j (lsub (rget x j) (Ok (pshl carry 8))) ;;
  Ok (x, carry).
(** tweetnacl.py:806-814, one pass; after the inner loop j is i - 12 *)
Definition modL_row_c (x : list pint) (i : nat) : res (list pint) :=
  '(x, carry) <- for_c 20 (modL_cell_c i) (x, plain 0) ;;
  x <- lset x (i - 12) (ladd (rget x (i - 12)) (Ok carry)) ;;
  lset x i (num 0).
(** tweetnacl.py:817-820, one pass *)
Definition modL_top_c (st : list pint * pint) (j : nat) : res (list pint * pint) :=
  let (x, carry) := st in
  x <- lset x j (ladd (rget x j) (lsub (Ok carry) (lmul (lshr (rget x 31) 4) (rget cL j)))) ;;
  carry <- lshr (rget x j) 8 ;;
  x <- lset x j (land (rget x j) (num 255)) ;;
  Ok (x, carry).
(** tweetnacl.py:823-825, one pass *)
Definition modL_out_c (put : store) (st : list pint * list pint) (i : nat) : res (list pint * list pint) :=
  let (x, r) := st in
  x <- lset x (i + 1) (ladd (rget x (i + 1)) (lshr (rget x i) 8)) ;;
  r <- sput put r i (land (rget x i) (num 255)) ;;
  Ok (x, r).
(** tweetnacl.py:803-827; returns r.  Pass k of the first loop has i = 63 - k. *)
Definition modL_c (put : store) (r x : list pint) : res (list pint) :=
  x <- for_c 32 (fun x k => modL_row_c x (63 - k)) x ;;
  '(x, carry) <- for_c 32 modL_top_c (x, plain 0) ;;
  x <- for_c 32 (fun x j => lset x j (lsub (rget x j) (lmul (Ok carry) (rget cL j)))) x ;;
  '(_, r) <- for_c 32 (modL_out_c put) (x, r) ;;
  Ok r.
(** tweetnacl.py:830-835; returns r *)
Definition reduce_c (r : list pint) : res (list pint) :=
  x <- for_c 64 (fun x i => lset x i (lcast TU64 (rget r i))) (int_array TI64 64) ;;
  modL_c lput (repeat (mk TU8 0) 64) x.
(** tweetnacl.py:847-849; also saltlib_pure.py:27-29 *)
Definition clamp_d_c (d : list pint) : res (list pint) :=
  d <- lset d 0 (land (rget d 0) (num 248)) ;;
  d <- lset d 31 (land (rget d 31) (num 127)) ;;
  lset d 31 (lor (rget d 31) (num 64)).
(** tweetnacl.py:868-871 *)
Definition sign_x_c (r h d : list pint) : res (list pint) :=
  x <- for_c 64 (fun x i => lset x i (num 0)) (int_array TI64 64) ;;
  x <- for_c 32 (fun x i => lset x i (lcast TU64 (rget r i))) x ;;
  for_c 32 (fun x i => for_c 32 (fun x j =>
    lset x (i + j) (ladd (rget x (i + j)) (lmul (rget h i) (lcast TU64 (rget d j))))) x) x.
(** tweetnacl.py:856-857 *)
Definition sign_fill_c (sm m : list pint) (n : nat) (d : list pint) : res (list pint) :=
  sm <- for_c n (fun sm i => sput bput sm (64 + i) (rget m i)) sm ;;
  for_c 32 (fun sm i => sput bput sm (32 + i) (rget d (32 + i))) sm.
(** tweetnacl.py:862-864 *)
Definition sign_key_c (sm sk : list pint) (p : gf4) : res (list pint) :=
  sm <- pack_point_c bput sm p ;;
  for_c 32 (fun sm i => sput bput sm (i + 32) (rget sk (i + 32))) sm.
(** tweetnacl.py:838-874; sm is a bytearray of n + 64 items; returns sm *)
Definition sign_c (sm m : list pint) (n : nat) (sk : list pint) : res (list pint) :=
  d <- hash_c (int_array TU8 64) sk 32 ;;
  d <- clamp_d_c d ;;
  sm <- sign_fill_c sm m n d ;;
  r <- hash_c (int_array TU8 64) (skipn 32 sm) (Z.of_nat n + 32) ;;
  r <- reduce_c r ;;
  p <- scalarbase4_c gf4_new r ;;
  sm <- sign_key_c sm sk p ;;
  h <- hash_c (int_array TU8 64) sm (Z.of_nat n + 64) ;;
  h <- reduce_c h ;;
  x <- sign_x_c r h d ;;
  tail_c 32 (fun t => modL_c bput t x) sm.

(** tweetnacl.py:877-917; [None] for the result -1, [Some r] for 0 *)
Definition unpackneg_c (r : gf4) (p : list pint) : res (option gf4) :=
  r2 <- set25519_c (g2 r) gf1 ;;
  r1 <- unpack25519_c (g1 r) p ;;
  num <- fS_c gf_new r1 ;;
  den <- fM_c gf_new num cD ;;
  num <- fZ_c num num r2 ;;
  den <- fA_c den r2 den ;;
  den2 <- fS_c gf_new den ;;
  den4 <- fS_c gf_new den2 ;;
  den6 <- fM_c gf_new den4 den2 ;;
  t <- fM_c gf_new den6 num ;;
  t <- fM_c t t den ;;
  t <- pow2523_c t t ;;
  t <- fM_c t t num ;;
  t <- fM_c t t den ;;
  t <- fM_c t t den ;;
  r0 <- fM_c (g0 r) t den ;;
  chk <- fS_c gf_new r0 ;;
  chk <- fM_c chk chk den ;;
  v <- neq25519_c chk num ;;
  r0 <- (if negb (pv v =? 0) then fM_c r0 r0 cI else Ok r0) ;;
  chk <- fS_c chk r0 ;;
  chk <- fM_c chk chk den ;;
  v <- neq25519_c chk num ;;
  if negb (pv v =? 0) then Ok None else
  v <- par25519_c r0 ;;
  w <- lshr (rget p 31) 7 ;;
  r0 <- (if pv v =? pv w then fZ_c r0 gf0 r0 else Ok r0) ;;
  r3 <- fM_c (g3 r) r0 r1 ;;
  Ok (Some (G4 r0 r1 r2 r3)).
(** tweetnacl.py:920-954; m is a bytearray of n items; the result code and m *)
Definition sign_open_c (m sm : list pint) (n : nat) (pk : list pint) : res (Z * list pint) :=
  if (n <? 64)%nat then Ok (-1, m) else
  u <- unpackneg_c gf4_new pk ;;
  match u with
  | None => Ok (-1, m)
  | Some q =>
    m <- for_c n (fun m i => sput bput m i (rget sm i)) m ;;
    m <- for_c 32 (fun m i => sput bput m (i + 32) (rget pk i)) m ;;
    h <- hash_c (int_array TU8 64) m (Z.of_nat n) ;;
    h <- reduce_c h ;;
    p <- scalarmult4_c gf4_new q h ;;
    q <- scalarbase4_c q (skipn 32 sm) ;;
    p <- add4_c p q ;;
    t <- pack_point_c lput (int_array TU8 32) p ;;
    v <- vn_c sm t 32 ;;
    if negb (pv v =? 0) then m <- for_c (n - 64) (fun m i => sput bput m i (num 0)) m ;; Ok (-1, m)
    else m <- for_c (n - 64) (fun m i => sput bput m i (rget sm (i + 64))) m ;; Ok (0, m)
  end.

(** saltlib_pure.py:19-32 (crypto_sign_keypair_not_random) *)
Definition method_sign_keypair (seed : bytes) : res (bytes * bytes) :=
  if negb (length seed =? 32)%nat then Err ValueError else
  d <- hash_c (int_array TU8 64) (of_bytes seed) 32 ;;
  d <- clamp_d_c d ;;
  p <- scalarbase4_c gf4_new d ;;
  pk <- pack_point_c lput (int_array TU8 32) p ;;
  pk <- rbytes pk ;;
  Ok (pk, seed ++ pk).
(** saltlib_pure.py:36-40 (crypto_sign) *)
Definition method_sign (m sk : bytes) : res bytes :=
  sm <- sign_c (of_bytes (repeat x00 (length m + 64))) (of_bytes m) (length m) (of_bytes sk) ;; rbytes sm.
(** saltlib_pure.py:44-50 (crypto_sign_open).  The module does not import
    BadSignatureException, so its [raise] is a NameError. *)
Definition method_sign_open (sm pk : bytes) : res bytes :=
  '(r, m) <- sign_open_c (of_bytes (repeat x00 (length sm))) (of_bytes sm) (length sm) (of_bytes pk) ;;
  if negb (r =? 0) then Err NameError else rbytes (firstn (length sm - 64) m).
(** saltlib_pure.py:53-58 (crypto_box_keypair_not_random), tweetnacl.py:527-529 *)
Definition method_box_keypair (sk : bytes) : res (bytes * bytes) :=
  if negb (length sk =? 32)%nat then Err ValueError else
  pk <- scalarmult_c (int_array TU8 32) (of_bytes sk) b9 ;; pk <- rbytes pk ;; Ok (pk, sk).
(** saltlib_pure.py:62-65 (crypto_box_beforenm) *)
Definition method_beforenm (pk sk : bytes) : res bytes :=
  k <- beforenm_c (int_array TU8 32) (of_bytes pk) (of_bytes sk) ;; rbytes k.
(** saltlib_pure.py:69-73 (crypto_box_afternm), tweetnacl.py:547-549 *)
Definition method_afternm (m n k : bytes) : res bytes :=
  let padded := repeat x00 32 ++ m in
  '(_, c) <- secretbox_c (int_array TU8 (length padded)) (of_bytes padded) (Z.of_nat (length padded)) (of_bytes n) (of_bytes k) ;;
  c <- rbytes c ;; Ok (skipn 16 c).
(** saltlib_pure.py:77-86 (crypto_box_open_afternm), tweetnacl.py:552-554.  The handler
    catches every exception; BadEncryptedDataException is not imported, so that its [raise]
    is a NameError. *)
Definition method_open_afternm (c n k : bytes) : res bytes :=
  let padded := repeat x00 16 ++ c in
  match ('(r, m) <- secretbox_open_c (int_array TU8 (length padded)) (of_bytes padded) (Z.of_nat (length padded)) (of_bytes n) (of_bytes k) ;;
         if negb (r =? 0) then Err NameError else b <- rbytes m ;; Ok (skipn 32 b)) with
  | Ok m => Ok m
  | Err _ => Err NameError
  end.
(** saltlib_pure.py:90-95 (crypto_hash), for a bytes argument *)
Definition method_hash (m : bytes) : res bytes :=
  h <- hash_c (int_array TU8 64) (of_bytes m) (Z.of_nat (length m)) ;; rbytes h.
