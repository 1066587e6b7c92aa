(** X25519 as published (RFC 7748, section 5), independently of the Python code. *)
From Coq Require Import List ZArith Bool Strings.Byte.
From Verif Require Import ShaSpec SalsaSpec.
Import ListNotations.
Open Scope Z_scope.

Definition p25519 : Z := 2 ^ 255 - 19.
Definition fadd (a b : Z) : Z := (a + b) mod p25519.
Definition fsub (a b : Z) : Z := (a - b) mod p25519.
Definition fmul (a b : Z) : Z := (a * b) mod p25519.
Definition finv (a : Z) : Z := (a ^ (p25519 - 2)) mod p25519.

(** decodeScalar25519: clear bits 0, 1, 2 and 255, set bit 254 *)
Definition decode_scalar (k : list byte) : Z :=
  Z.lor (Z.land (le_word k) (2 ^ 255 - 8)) (2 ^ 254).
(** decodeUCoordinate: mask the most significant bit *)
Definition decode_u (u : list byte) : Z := le_word u mod 2 ^ 255.
(** encodeUCoordinate *)
Definition encode_u (u : Z) : list byte := le_bytes 32 (u mod p25519).

Definition a24 : Z := 121665.
Definition cswap {A} (swap : bool) (x y : A) : A * A := if swap then (y, x) else (x, y).
(** x_2, z_2, x_3, z_3, swap *)
Definition mladder : Type := (Z * Z * Z * Z * bool)%type.
Definition x25519_step (k x_1 : Z) (s : mladder) (t : Z) : mladder :=
  let '(x_2, z_2, x_3, z_3, swap) := s in
  let k_t := Z.testbit k t in
  let swap := xorb swap k_t in
  let (x_2, x_3) := cswap swap x_2 x_3 in
  let (z_2, z_3) := cswap swap z_2 z_3 in
  let swap := k_t in
  let A := fadd x_2 z_2 in
  let AA := fmul A A in
  let B := fsub x_2 z_2 in
  let BB := fmul B B in
  let E := fsub AA BB in
  let C := fadd x_3 z_3 in
  let D := fsub x_3 z_3 in
  let DA := fmul D A in
  let CB := fmul C B in
  let x_3 := fmul (fadd DA CB) (fadd DA CB) in
  let z_3 := fmul x_1 (fmul (fsub DA CB) (fsub DA CB)) in
  let x_2 := fmul AA BB in
  let z_2 := fmul E (fadd AA (fmul a24 E)) in
  (x_2, z_2, x_3, z_3, swap).
Definition x25519_num (k u : Z) : Z :=
  let '(x_2, z_2, x_3, z_3, swap) :=
    fold_left (x25519_step k u) (map (fun i => 254 - Z.of_nat i) (seq 0 255)) (1, 0, u, 1, false) in
  let (x_2, x_3) := cswap swap x_2 x_3 in
  let (z_2, z_3) := cswap swap z_2 z_3 in
  fmul x_2 (finv z_2).
Definition x25519 (k u : list byte) : list byte := encode_u (x25519_num (decode_scalar k) (decode_u u)).

(** NaCl: the public key of a secret key and the key of a box (Cryptography in NaCl,
    sections 2 and 8) *)
Definition base_point : list byte := x09 :: repeat x00 31.
Definition box_public (sk : list byte) : list byte := x25519 sk base_point.
Definition box_key (pk sk : list byte) : list byte := hsalsa20 (x25519 sk pk) (repeat x00 16).
