(** Arithmetic modulo 2^255 - 19 and X25519 of saltlib/pure_pynacl/tweetnacl.py, with the
    exceptions of lists.  A list that Python changes in place is an argument and the result
    here.  [put] says how items of the result are stored (a list or a bytearray). *)
From Coq Require Import List ZArith Bool Strings.Byte.
From Verif Require Import PyBase PyInt ChkPy TwSalsa TwPoly TwField ChkSalsa.
Import ListNotations.
Open Scope Z_scope.

(** tweetnacl.py:339-341 *)
Definition set25519_c (r a : list pint) : res (list pint) := for_c 16 (fun r i => lset r i (rget a i)) r.
(** tweetnacl.py:344-351 *)
Definition car_step_c (o : list pint) (i : nat) : res (list pint) :=
  o <- lset o i (ladd (rget o i) (Ok (pshl (mk TI64 1) 16))) ;;
  c <- lshr (rget o i) 16 ;;
  let k := ((i + 1) * (if i <? 15 then 1 else 0))%nat in
  o <- lset o k (ladd (rget o k)
    (Ok (padd (psub c (plain 1)) (pmul (pmul (plain 37) (psub c (plain 1))) (plain (if (i =? 15)%nat then 1 else 0)))))) ;;
  lset o i (lsub (rget o i) (Ok (pshl c 16))).
Definition car25519_c (o : list pint) : res (list pint) := for_c 16 car_step_c o.
(** tweetnacl.py:354-362 *)
Definition sel25519_c (p q : list pint) (b : pint) : res (list pint * list pint) :=
  let c := cast TI64 (pinv (psub b (plain 1))) in
  for_c 16 (fun '(p, q) i =>
    t <- land (Ok c) (lxor (rget p i) (rget q i)) ;;
    p <- lset p i (lxor (rget p i) (Ok t)) ;;
    q <- lset q i (lxor (rget q i) (Ok t)) ;; Ok (p, q)) (p, q).
(** tweetnacl.py:376-384; the body of [for j in range(2)] *)
Definition sub_step_c (t m : list pint) (i : nat) : res (list pint) :=
  m <- lset m i (lsub (lsub (rget t i) (num 0xffff)) (land (lshr (rget m (i - 1)) 16) (num 1))) ;;
  lset m (i - 1) (land (rget m (i - 1)) (num 0xffff)).
Definition pack_round_c (st : list pint * list pint) : res (list pint * list pint) :=
  let (t, m) := st in
  m <- lset m 0 (lsub (rget t 0) (num 0xffed)) ;;
  m <- for_c 14 (fun m i => sub_step_c t m (S i)) m ;;
  m <- lset m 15 (lsub (lsub (rget t 15) (num 0x7fff)) (land (lshr (rget m 14) 16) (num 1))) ;;
  b <- land (lshr (rget m 15) 16) (num 1) ;;
  m <- lset m 14 (land (rget m 14) (num 0xffff)) ;;
  sel25519_c t m (psub (plain 1) b).
(** tweetnacl.py:365-388 *)
Definition pack25519_c (put : store) (o n : list pint) : res (list pint) :=
  t <- for_c 16 (fun t i => lset t i (rget n i)) gf_new ;;
  t <- car25519_c t ;;
  t <- car25519_c t ;;
  t <- car25519_c t ;;
  tm <- pack_round_c (t, gf_new) ;;
  '(t, _) <- pack_round_c tm ;;
  for_c 16 (fun o i =>
    o <- sput put o (2 * i) (land (rget t i) (num 0xff)) ;;
    sput put o (2 * i + 1) (lshr (rget t i) 8)) o.
(** tweetnacl.py:391-397 *)
Definition neq25519_c (a b : list pint) : res pint :=
  c <- pack25519_c lput (int_array TU8 32) a ;;
  d <- pack25519_c lput (int_array TU8 32) b ;;
  vn_c c d 32.
(** tweetnacl.py:400-404 *)
Definition par25519_c (a : list pint) : res pint :=
  d <- pack25519_c lput (int_array TU8 32) a ;; land (rget d 0) (num 1).
(** tweetnacl.py:407-410 *)
Definition unpack25519_c (o n : list pint) : res (list pint) :=
  o <- for_c 16 (fun o i =>
    lset o i (ladd (rget n (2 * i)) (lshl (lcast TI64 (rget n (2 * i + 1))) 8))) o ;;
  lset o 15 (land (rget o 15) (num 0x7fff)).
(** tweetnacl.py:413-420 *)
Definition fA_c (o a b : list pint) : res (list pint) := for_c 16 (fun o i => lset o i (ladd (rget a i) (rget b i))) o.
Definition fZ_c (o a b : list pint) : res (list pint) := for_c 16 (fun o i => lset o i (lsub (rget a i) (rget b i))) o.
(** tweetnacl.py:423-434 *)
Definition fM_c (o a b : list pint) : res (list pint) :=
  t <- for_c 16 (fun t i => for_c 16 (fun t j =>
    lset t (i + j) (ladd (rget t (i + j)) (lmul (rget a i) (rget b j)))) t) (int_array TI64 31) ;;
  t <- for_c 15 (fun t i => lset t i (ladd (rget t i) (lmul (num 38) (rget t (i + 16))))) t ;;
  o <- for_c 16 (fun o i => lset o i (rget t i)) o ;;
  o <- car25519_c o ;;
  car25519_c o.
(** tweetnacl.py:437-439 *)
Definition fS_c (o a : list pint) : res (list pint) := fM_c o a a.
(** tweetnacl.py:442-452; pass k of the loop has a = 253 - k *)
Definition inv25519_c (o i : list pint) : res (list pint) :=
  c <- for_c 16 (fun c a => lset c a (rget i a)) gf_new ;;
  c <- for_c 254 (fun c k =>
    let a := (253 - k)%nat in
    c <- fS_c c c ;;
    if negb (a =? 2)%nat && negb (a =? 4)%nat then fM_c c c i else Ok c) c ;;
  for_c 16 (fun o a => lset o a (rget c a)) o.
(** tweetnacl.py:455-463; pass k of the loop has a = 250 - k *)
Definition pow2523_c (o i : list pint) : res (list pint) :=
  c <- for_c 16 (fun c a => lset c a (rget i a)) gf_new ;;
  c <- for_c 251 (fun c k =>
    let a := (250 - k)%nat in
    c <- fS_c c c ;;
    if negb (a =? 1)%nat then fM_c c c i else Ok c) c ;;
  for_c 16 (fun o a => lset o a (rget c a)) o.
(** tweetnacl.py:479-481 *)
Definition clamp_z_c (n : list pint) : res (list pint) :=
  z <- for_c 31 (fun z i => lset z i (rget n i)) (int_array TU8 32) ;;
  z <- lset z 31 (lor (land (rget n 31) (num 127)) (num 64)) ;;
  lset z 0 (land (rget z 0) (num 248)).
(** tweetnacl.py:491-513, one pass *)
Definition ladder_step_c (x z : list pint) (s : ladder) (i : nat) : res ladder :=
  r <- land (lshr (rget z (i / 8)) (Z.of_nat (i mod 8))) (num 1) ;;
  '(a, b) <- sel25519_c (la s) (lb s) r ;;
  '(c, d) <- sel25519_c (lc s) (ld s) r ;;
  e <- fA_c (le s) a c ;;
  a <- fZ_c a a c ;;
  c <- fA_c c b d ;;
  b <- fZ_c b b d ;;
  d <- fS_c d e ;;
  f <- fS_c (lf s) a ;;
  a <- fM_c a c a ;;
  c <- fM_c c b e ;;
  e <- fA_c e a c ;;
  a <- fZ_c a a c ;;
  b <- fS_c b a ;;
  c <- fZ_c c d f ;;
  a <- fM_c a c gf_121665 ;;
  a <- fA_c a a d ;;
  c <- fM_c c c a ;;
  a <- fM_c a d f ;;
  d <- fM_c d b x ;;
  b <- fS_c b e ;;
  '(a, b) <- sel25519_c a b r ;;
  '(c, d) <- sel25519_c c d r ;;
  Ok (Ladder a b c d e f).
(** tweetnacl.py:485-489 *)
Definition ladder_init_c (x : list pint) : res ladder :=
  b <- for_c 16 (fun b i => lset b i (rget x i)) gf_new ;;
  zeros <- for_c 16 (fun d i => lset d i (num 0)) gf_new ;;
  one <- lset zeros 0 (num 1) ;;
  Ok (Ladder one b zeros one gf_new gf_new).
(** tweetnacl.py:515-523 *)
Definition ladder_end_c (q x : list pint) (s : ladder) : res (list pint) :=
  x <- for_c 16 (fun x i =>
    x <- lset x (i + 16) (rget (la s) i) ;;
    x <- lset x (i + 32) (rget (lc s) i) ;;
    x <- lset x (i + 48) (rget (lb s) i) ;;
    lset x (i + 64) (rget (ld s) i)) x ;;
  x <- tail_c 32 (fun t => inv25519_c t (skipn 32 x)) x ;;
  x <- tail_c 16 (fun t => fM_c t (skipn 16 x) (skipn 32 x)) x ;;
  pack25519_c lput q (skipn 16 x).
(** tweetnacl.py:466-524; returns q.  Pass k of the loop has i = 254 - k. *)
Definition scalarmult_c (q n p : list pint) : res (list pint) :=
  z <- clamp_z_c n ;;
  x <- unpack25519_c (int_array TI64 80) p ;;
  s <- ladder_init_c x ;;
  s <- for_c 255 (fun s k => ladder_step_c x z s (254 - k)) s ;;
  ladder_end_c q x s.
(** tweetnacl.py:538-542; returns k *)
Definition beforenm_c (k y x : list pint) : res (list pint) :=
  s <- scalarmult_c (int_array TU8 32) x y ;; core_c k b0 s sigma true.
