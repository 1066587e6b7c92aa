(** SHA-512 of saltlib/pure_pynacl/tweetnacl.py, with the exceptions of lists. *)
From Coq Require Import List ZArith Bool Strings.Byte.
From Verif Require Import PyBase PyInt ChkPy TwHash.
Import ListNotations.
Open Scope Z_scope.

(** tweetnacl.py:97-101 *)
Definition dl64_c (x : list pint) : res pint :=
  for_c 8 (fun u i => lor (lshl (Ok u) 8) (lcast TU8 (rget x i))) (mk TU64 0).
(** tweetnacl.py:110-113; the loop runs i = 7, 6, ..., 0 *)
Definition ts64_c (x : list pint) (u : pint) : res (list pint) :=
  '(x, _) <- for_c 8 (fun '(x, u) i => x <- lset x (7 - i) (lcast TU8 (Ok u)) ;; Ok (x, pshr u 8)) (x, u) ;; Ok x.
(** tweetnacl.py:653 *)
Definition schedule_step_c (w : list pint) (j : nat) : res (list pint) :=
  lset w j (ladd (rget w j)
    (ladd (ladd (rget w ((j + 9) mod 16)) (lift sigma0 (rget w ((j + 1) mod 16))))
          (lift sigma1 (rget w ((j + 14) mod 16))))).
(** tweetnacl.py:576-583 (Ch, Maj) on expressions that may raise *)
Definition lift3 (f : pint -> pint -> pint -> pint) (a b c : res pint) : res pint :=
  x <- a ;; y <- b ;; z <- c ;; Ok (f x y z).
(** tweetnacl.py:645-653, one pass of the loop; the state is (a, w).  (b, whose items are
    all set anew in every pass, is a fresh list here.) *)
Definition round_c (st : list pint * list pint) (i : nat) : res (list pint * list pint) :=
  let (a, w) := st in
  b <- for_c 8 (fun b j => lset b j (rget a j)) (int_array TU64 8) ;;
  t <- ladd (ladd (ladd (ladd (rget a 7) (lift Sigma1 (rget a 4))) (lift3 Ch (rget a 4) (rget a 5) (rget a 6)))
                  (rget K i)) (rget w (i mod 16)) ;;
  b <- lset b 7 (ladd (ladd (Ok t) (lift Sigma0 (rget a 0))) (lift3 Maj (rget a 0) (rget a 1) (rget a 2))) ;;
  b <- lset b 3 (ladd (rget b 3) (Ok t)) ;;
  a <- for_c 8 (fun a j => lset a ((j + 1) mod 8) (rget b j)) a ;;
  w <- (if Nat.eqb (i mod 16) 15 then for_c 16 schedule_step_c w else Ok w) ;;
  Ok (a, w).
(** tweetnacl.py:642-656, one pass of the while loop; the state is (a, z) *)
Definition hash_block_c (m : list pint) (m_off : nat) (st : list pint * list pint) : res (list pint * list pint) :=
  let (a, z) := st in
  w <- for_c 16 (fun w i => lset w i (dl64_c (skipn (8 * i + m_off) m))) (int_array TU64 16) ;;
  '(a, w) <- for_c 80 round_c (a, w) ;;
  for_c 8 (fun '(a, z) i => a <- lset a i (ladd (rget a i) (rget z i)) ;; z <- lset z i (rget a i) ;; Ok (a, z)) (a, z).
(** tweetnacl.py:640-659; [fuel] bounds the passes of the while loop *)
Fixpoint hash_loop_c (fuel : nat) (m : list pint) (m_off : nat) (n : Z) (st : list pint * list pint) : res (list pint * list pint) :=
  match fuel with
  | O => Ok st
  | S f => if n >=? 128 then st <- hash_block_c m m_off st ;; hash_loop_c f m (m_off + 128) (n - 128) st else Ok st
  end.
(** tweetnacl.py:630-663; returns x; the unused result n is left out.  Every pass of the
    while loop lowers n, so n passes suffice. *)
Definition hashblocks_c (x m : list pint) (n : Z) : res (list pint) :=
  '(z, a) <- for_c 8 (fun '(z, a) i => v <- dl64_c (skipn (8 * i) x) ;; a <- lset a i (Ok v) ;; z <- lset z i (Ok v) ;; Ok (z, a))
                   (int_array TU64 8, int_array TU64 8) ;;
  '(a, z) <- hash_loop_c (Z.to_nat n) m 0 n (a, z) ;;
  for_c 8 (fun x i => v <- rget z i ;; tail_c (8 * i) (fun y => ts64_c y v) x) x.
(** tweetnacl.py:678-702; returns out.  [n] is a plain int, as everywhere in the package. *)
Definition hash_c (out m : list pint) (n : Z) : res (list pint) :=
  let b := mk TU64 n in
  h <- for_c 64 (fun h i => lset h i (rget iv i)) (int_array TU8 64) ;;
  h <- hashblocks_c h m n ;;
  let r := Z.land n 127 in
  let m_off := n - r in
  let x := repeat (mk TU8 0) 256 in
  x <- for_c (Z.to_nat r) (fun x i => lset x i (rget m (i + Z.to_nat m_off))) x ;;
  x <- lset x (Z.to_nat r) (num 128) ;;
  let n := 256 - 128 * (if r <? 112 then 1 else 0) in
  x <- lset x (Z.to_nat (n - 9)) (Ok (pshr b 61)) ;;
  x <- tail_c (Z.to_nat (n - 8)) (fun y => ts64_c y (pshl b 3)) x ;;
  h <- hashblocks_c h x n ;;
  for_c 64 (fun out i => lset out i (rget h i)) out.
