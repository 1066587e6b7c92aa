(** SHA-512 as FIPS 180-4 defines it, written from the standard and independently of the
    Python code. *)
From Coq Require Import List ZArith Bool Strings.Byte.
Import ListNotations.
Open Scope Z_scope.

(** FIPS 180-4, 2.2.2 and 3.2: words of 64 bits *)
Definition wadd (x y : Z) : Z := (x + y) mod 2 ^ 64.
Definition wnot (x : Z) : Z := 2 ^ 64 - 1 - x.
Definition shr (n x : Z) : Z := x / 2 ^ n.
Definition rotr (n x : Z) : Z := Z.lor (shr n x) ((x * 2 ^ (64 - n)) mod 2 ^ 64).

(** FIPS 180-4, 4.1.3 *)
Definition ch (x y z : Z) : Z := Z.lxor (Z.land x y) (Z.land (wnot x) z).
Definition maj (x y z : Z) : Z := Z.lxor (Z.lxor (Z.land x y) (Z.land x z)) (Z.land y z).
Definition bsig0 (x : Z) : Z := Z.lxor (Z.lxor (rotr 28 x) (rotr 34 x)) (rotr 39 x).
Definition bsig1 (x : Z) : Z := Z.lxor (Z.lxor (rotr 14 x) (rotr 18 x)) (rotr 41 x).
Definition ssig0 (x : Z) : Z := Z.lxor (Z.lxor (rotr 1 x) (rotr 8 x)) (shr 7 x).
Definition ssig1 (x : Z) : Z := Z.lxor (Z.lxor (rotr 19 x) (rotr 61 x)) (shr 6 x).

(** The first 80 prime numbers. *)
Definition is_prime (n : Z) : bool :=
  (2 <=? n) && forallb (fun d => negb (n mod Z.of_nat d =? 0)) (seq 2 (Z.to_nat n - 2)).
Definition primes : list Z := filter is_prime (map Z.of_nat (seq 0 410)).

(** Largest r < 2^n with r^3 <= x. *)
Fixpoint cbrt_bits (n : nat) (x r : Z) : Z :=
  match n with
  | O => r
  | S k => let r' := r + 2 ^ Z.of_nat k in
           cbrt_bits k x (if r' * r' * r' <=? x then r' else r)
  end.

(** FIPS 180-4, 4.2.3: the first 64 bits of the fractional parts of the cube roots of the
    first eighty prime numbers. *)
Definition k512 : list Z := map (fun p => cbrt_bits 68 (p * 2 ^ 192) 0 mod 2 ^ 64) primes.
(** FIPS 180-4, 5.3.5: the first 64 bits of the fractional parts of the square roots of
    the first eight prime numbers. *)
Definition h0 : list Z := map (fun p => Z.sqrt (p * 2 ^ 128) mod 2 ^ 64) (firstn 8 primes).

(** Big-endian words. *)
Definition bval (b : byte) : Z := Z.of_N (Byte.to_N b).
Fixpoint be_val (b : list byte) : Z :=
  match b with [] => 0 | x :: r => bval x * 256 ^ Z.of_nat (length r) + be_val r end.
Definition byte_of_z (z : Z) : byte :=
  match Byte.of_N (Z.to_N (z mod 256)) with Some b => b | None => x00 end.
Fixpoint be_bytes (n : nat) (z : Z) : list byte :=
  match n with O => [] | S k => byte_of_z (z / 256 ^ Z.of_nat k) :: be_bytes k z end.

(** FIPS 180-4, 5.1.2: a one bit, the least number of zero bits, the length in bits as
    a 128-bit big-endian number. *)
Definition pad (m : list byte) : list byte :=
  let l := Z.of_nat (length m) in
  m ++ [x80] ++ repeat x00 (Z.to_nat ((111 - l) mod 128)) ++ be_bytes 16 (8 * l).

(** FIPS 180-4, 6.4.2 step 1: the message schedule, latest word first. *)
Fixpoint expand (n : nat) (w : list Z) : list Z :=
  match n with
  | O => w
  | S k => let w := expand k w in
           wadd (wadd (wadd (ssig1 (nth 1 w 0)) (nth 6 w 0)) (ssig0 (nth 14 w 0))) (nth 15 w 0) :: w
  end.
Definition schedule (block : list Z) : list Z := rev (expand 64 (rev block)).

(** Steps 2 to 4. *)
Definition working : Type := (Z * Z * Z * Z * Z * Z * Z * Z)%type.
Definition sha_round (st : working) (kw : Z * Z) : working :=
  let '(a, b, c, d, e, f, g, h) := st in
  let t1 := wadd (wadd (wadd (wadd h (bsig1 e)) (ch e f g)) (fst kw)) (snd kw) in
  let t2 := wadd (bsig0 a) (maj a b c) in
  (wadd t1 t2, a, b, c, wadd d t1, e, f, g).
Definition words8 (st : working) : list Z := let '(a, b, c, d, e, f, g, h) := st in [a; b; c; d; e; f; g; h].
Definition of_words (l : list Z) : working :=
  (nth 0 l 0, nth 1 l 0, nth 2 l 0, nth 3 l 0, nth 4 l 0, nth 5 l 0, nth 6 l 0, nth 7 l 0).
Definition compress (h : list Z) (block : list Z) : list Z :=
  map (fun p => wadd (fst p) (snd p))
      (combine (words8 (fold_left sha_round (combine k512 (schedule block)) (of_words h))) h).

Fixpoint chunks {A} (n : nat) (count : nat) (l : list A) : list (list A) :=
  match count with O => [] | S k => firstn n l :: chunks n k (skipn n l) end.
(** The words of the blocks of a padded message. *)
Definition block_words (b : list byte) : list Z := map be_val (chunks 8 16 b).
Definition blocks (m : list byte) : list (list Z) :=
  map block_words (chunks 128 (length m / 128) m).

Definition sha512 (m : list byte) : list byte :=
  concat (map (be_bytes 8) (fold_left compress (blocks (pad m)) h0)).
