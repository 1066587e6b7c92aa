(** Ed25519 as published (RFC 8032, section 5.1), independently of the Python code. *)
From Coq Require Import List ZArith Bool Strings.Byte.
From Verif Require Import ShaSpec SalsaSpec CurveSpec.
Import ListNotations.
Open Scope Z_scope.

(** Table 1 of section 5.1: d, B, L *)
Definition rfc_d : Z := 37095705934669439343138083508754565189542113879843219016388785533085940283555.
Definition rfc_B : Z * Z :=
  (15112221349535400772501151409588531511454012693041857206046113283949847762202,
   46316835694926478169428394003475163141307993866256225615783033603165251855960).
Definition rfc_L : Z := 2 ^ 252 + 27742317777372353535851937790883648493.

(** Points of -x^2 + y^2 = 1 + d x^2 y^2, coordinates in 0..p-1 *)
Definition ed_on (P : Z * Z) : Prop :=
  let (x, y) := P in
  0 <= x < p25519 /\ 0 <= y < p25519 /\
  fsub (fmul y y) (fmul x x) = fadd 1 (fmul rfc_d (fmul (fmul x x) (fmul y y))).
(** Section 5.1.4, in affine coordinates *)
Definition ed_add (P Q : Z * Z) : Z * Z :=
  let (x1, y1) := P in let (x2, y2) := Q in
  let e := fmul rfc_d (fmul (fmul x1 x2) (fmul y1 y2)) in
  (fmul (fadd (fmul x1 y2) (fmul x2 y1)) (finv (fadd 1 e)),
   fmul (fadd (fmul y1 y2) (fmul x1 x2)) (finv (fsub 1 e))).
Definition ed_O : Z * Z := (0, 1).
(** [n]P: n additions *)
Definition ed_mul (n : Z) (P : Z * Z) : Z * Z := N.iter (Z.to_N n) (ed_add P) ed_O.

(** Section 5.1.2: y in 255 bits, then the lowest bit of x *)
Definition encode_point (P : Z * Z) : list byte := let (x, y) := P in le_bytes 32 (y + 2 ^ 255 * (x mod 2)).

(** Section 5.1.5; pruning the buffer is decodeScalar25519 of RFC 7748 *)
Definition secret_scalar (seed : list byte) : Z := decode_scalar (firstn 32 (sha512 seed)).
Definition ed_public (seed : list byte) : list byte := encode_point (ed_mul (secret_scalar seed) rfc_B).

(** A hash as a number modulo L (sections 5.1.6 and 5.1.7) *)
Definition hash_L (b : list byte) : Z := le_word (sha512 b) mod rfc_L.
(** Section 5.1.6, with the public key as an argument *)
Definition ed_sign (seed pk m : list byte) : list byte :=
  let a := secret_scalar seed in
  let prefix := skipn 32 (sha512 seed) in
  let r := hash_L (prefix ++ m) in
  let R := encode_point (ed_mul r rfc_B) in
  let k := hash_L (R ++ pk ++ m) in
  R ++ le_bytes 32 ((r + k * a) mod rfc_L).

(** Section 5.1.3, decoding: the point whose encoding is b *)
Definition strict_key (b : list byte) (A : Z * Z) : Prop := ed_on A /\ encode_point A = b.
(** The same without the two checks of steps 1 and 4: y may be given as y + p, and the bit
    for x may be set for x = 0 *)
Definition loose_key (b : list byte) (A : Z * Z) : Prop :=
  ed_on A /\ snd A = decode_u b mod p25519 /\ (fst A = 0 \/ fst A mod 2 = le_word b / 2 ^ 255).
(** Section 5.1.7 with the equation without the cofactor, [S]B = R + [k]A *)
Definition sig_equation (pk sig m : list byte) (A : Z * Z) : Prop :=
  let R := firstn 32 sig in let S := le_word (skipn 32 sig) in
  exists RP, ed_on RP /\ encode_point RP = R /\
    ed_mul S rfc_B = ed_add RP (ed_mul (hash_L (R ++ pk ++ m)) A).
(** RFC 8032: the key is decoded strictly and S is in 0..L-1 *)
Definition rfc_valid (pk sig m : list byte) : Prop :=
  length sig = 64%nat /\ le_word (skipn 32 sig) < rfc_L /\ exists A, strict_key pk A /\ sig_equation pk sig m A.
(** Without these checks *)
Definition loose_valid (pk sig m : list byte) : Prop :=
  length sig = 64%nat /\ exists A, loose_key pk A /\ sig_equation pk sig m A.
