(** Poly1305 and XSalsa20-Poly1305 as published (RFC 8439, section 2.5; Bernstein,
    "Cryptography in NaCl"), independently of the Python code. *)
From Coq Require Import List ZArith Bool Strings.Byte.
From Verif Require Import ShaSpec SalsaSpec.
Import ListNotations.
Open Scope Z_scope.

(** RFC 8439, 2.5.1: clamp(r) *)
Definition clamp (r : Z) : Z := Z.land r 0x0ffffffc0ffffffc0ffffffc0fffffff.
Definition p1305 : Z := 2 ^ 130 - 5.
(** 16-byte blocks, the last one possibly shorter *)
Definition blocks16 (m : list byte) : list (list byte) :=
  map (fun i => firstn 16 (skipn (16 * i) m)) (seq 0 ((length m + 15) / 16)).
Definition poly_step (r a : Z) (block : list byte) : Z := ((a + le_word (block ++ [x01])) * r) mod p1305.
Definition poly1305 (key m : list byte) : list byte :=
  let r := clamp (le_word (firstn 16 key)) in
  let s := le_word (skipn 16 key) in
  le_bytes 16 (fold_left (poly_step r) (blocks16 m) 0 + s).

(** Cryptography in NaCl, sections 9 and 10: the first 32 bytes of the stream are the
    Poly1305 key, the rest encrypts the message; the tag precedes the ciphertext. *)
Definition secretbox (k n m : list byte) : list byte :=
  let stream := xsalsa20_stream k n (32 + length m) in
  let c := xor_bytes m (skipn 32 stream) in
  poly1305 (firstn 32 stream) c ++ c.
