(** Salsa20, HSalsa20 and XSalsa20 as specified by Bernstein ("Salsa20 specification",
    2005; "Extending the Salsa20 nonce", 2008), independently of the Python code. *)
From Coq Require Import List ZArith Bool Strings.Byte.
From Verif Require Import ShaSpec.
Import ListNotations.
Open Scope Z_scope.

(** Salsa20 specification, section 2: words *)
Definition add32 (x y : Z) : Z := (x + y) mod 2 ^ 32.
Definition rotl32 (n x : Z) : Z := (x * 2 ^ n) mod 2 ^ 32 + x / 2 ^ (32 - n).
(** Section 7 *)
Fixpoint le_word (b : list byte) : Z := match b with [] => 0 | x :: r => bval x + 256 * le_word r end.
Fixpoint le_bytes (n : nat) (z : Z) : list byte :=
  match n with O => [] | S k => byte_of_z z :: le_bytes k (z / 256) end.

(** Section 3 *)
Definition quarterround (y : Z * Z * Z * Z) : Z * Z * Z * Z :=
  let '(y0, y1, y2, y3) := y in
  let z1 := Z.lxor y1 (rotl32 7 (add32 y0 y3)) in
  let z2 := Z.lxor y2 (rotl32 9 (add32 z1 y0)) in
  let z3 := Z.lxor y3 (rotl32 13 (add32 z2 z1)) in
  let z0 := Z.lxor y0 (rotl32 18 (add32 z3 z2)) in
  (z0, z1, z2, z3).
(** Section 4 *)
Definition rowround (y : list Z) : list Z :=
  match y with
  | [y0; y1; y2; y3; y4; y5; y6; y7; y8; y9; y10; y11; y12; y13; y14; y15] =>
      let '(z0, z1, z2, z3) := quarterround (y0, y1, y2, y3) in
      let '(z5, z6, z7, z4) := quarterround (y5, y6, y7, y4) in
      let '(z10, z11, z8, z9) := quarterround (y10, y11, y8, y9) in
      let '(z15, z12, z13, z14) := quarterround (y15, y12, y13, y14) in
      [z0; z1; z2; z3; z4; z5; z6; z7; z8; z9; z10; z11; z12; z13; z14; z15]
  | _ => y
  end.
(** Section 5 *)
Definition columnround (x : list Z) : list Z :=
  match x with
  | [a0; a1; a2; a3; a4; a5; a6; a7; a8; a9; a10; a11; a12; a13; a14; a15] =>
      let '(y0, y4, y8, y12) := quarterround (a0, a4, a8, a12) in
      let '(y5, y9, y13, y1) := quarterround (a5, a9, a13, a1) in
      let '(y10, y14, y2, y6) := quarterround (a10, a14, a2, a6) in
      let '(y15, y3, y7, y11) := quarterround (a15, a3, a7, a11) in
      [y0; y1; y2; y3; y4; y5; y6; y7; y8; y9; y10; y11; y12; y13; y14; y15]
  | _ => x
  end.
(** Section 6 *)
Definition doubleround (x : list Z) : list Z := rowround (columnround x).
Definition rounds20 (x : list Z) : list Z := Nat.iter 10 doubleround x.

(** Section 9: the 64 input bytes of the Salsa20 function for a 32-byte key and a
    16-byte nonce-and-counter *)
Definition tau : list byte := [x65; x78; x70; x61; x6e; x64; x20; x33; x32; x2d; x62; x79; x74; x65; x20; x6b].
Definition expansion (k n : list byte) : list byte :=
  firstn 4 tau ++ firstn 16 k ++ firstn 4 (skipn 4 tau) ++ n ++ firstn 4 (skipn 8 tau) ++ skipn 16 k ++ skipn 12 tau.
(** Section 8 *)
Definition words_of (b : list byte) : list Z := map le_word (chunks 4 16 b).
Definition salsa_words (x : list Z) : list byte :=
  concat (map (fun p => le_bytes 4 (add32 (fst p) (snd p))) (combine x (rounds20 x))).
Definition salsa20 (k n : list byte) : list byte := salsa_words (words_of (expansion k n)).
(** Extending the Salsa20 nonce, section 2 *)
Definition hsalsa_words (x : list Z) : list byte :=
  let z := rounds20 x in concat (map (fun i => le_bytes 4 (nth i z 0)) [0; 5; 10; 15; 6; 7; 8; 9]%nat).
Definition hsalsa20 (k n : list byte) : list byte := hsalsa_words (words_of (expansion k n)).

(** Section 10 and "Extending the Salsa20 nonce": the stream of a key and 8-byte nonce,
    block [i] under the 8-byte counter [i]; XSalsa20 derives the key first. *)
Definition salsa20_block (k n : list byte) (i : nat) : list byte := salsa20 k (n ++ le_bytes 8 (Z.of_nat i)).
Definition salsa20_stream (k n : list byte) (len : nat) : list byte :=
  firstn len (concat (map (salsa20_block k n) (seq 0 (len / 64 + 1)))).
Definition xsalsa20_stream (k n : list byte) (len : nat) : list byte :=
  salsa20_stream (hsalsa20 k (firstn 16 n)) (skipn 16 n) len.
Definition xor_bytes (a b : list byte) : list byte :=
  map (fun p => byte_of_z (Z.lxor (bval (fst p)) (bval (snd p)))) (combine a b).
