(** The methods of class SaltLibPure (saltlib_pure.py) over the functions of tweetnacl.py.
    The class itself cannot be instantiated (C61); its methods and the functions can be
    called all the same. *)
From Coq Require Import List ZArith Bool Strings.Byte.
From Verif Require Import PyBase PyInt TwHash TwSalsa TwPoly TwField.
Import ListNotations.
Open Scope Z_scope.

(** saltlib_pure.py:90-95 (crypto_hash), for a bytes argument *)
Definition pure_crypto_hash (m : bytes) : bytes :=
  to_bytes (crypto_hash_sha512 (int_array TU8 64) (of_bytes m) (Z.of_nat (length m))).

(** tweetnacl.py:171-180 with lists for the result as SaltLibPure makes them *)
Definition core_salsa20_bytes (in_ k : bytes) : bytes :=
  to_bytes (crypto_core_salsa20 (int_array TU8 64) (of_bytes in_) (of_bytes k) sigma).
Definition core_hsalsa20_bytes (in_ k : bytes) : bytes :=
  to_bytes (crypto_core_hsalsa20 (int_array TU8 32) (of_bytes in_) (of_bytes k) sigma).
(** tweetnacl.py:227-231 *)
Definition stream_xor_bytes (m n k : bytes) : bytes :=
  to_bytes (crypto_stream_xsalsa20_xor (int_array TU8 (length m)) (of_bytes m) (Z.of_nat (length m)) (of_bytes n) (of_bytes k)).

(** tweetnacl.py:246-307 with a 16-item list for the result *)
Definition onetimeauth_bytes (m k : bytes) : bytes :=
  to_bytes (crypto_onetimeauth (int_array TU8 16) (of_bytes m) (Z.of_nat (length m)) (of_bytes k)).
(** tweetnacl.py:310-314 *)
Definition onetimeauth_verify_bytes (h m k : bytes) : Z :=
  pv (crypto_onetimeauth_verify (of_bytes h) (of_bytes m) (Z.of_nat (length m)) (of_bytes k)).

(** saltlib_pure.py:69-73 (crypto_box_afternm), tweetnacl.py:547-549 *)
Definition pure_box_afternm (m n k : bytes) : bytes :=
  let padded := repeat x00 32 ++ m in
  let c := int_array TU8 (length padded) in
  let (_, c) := crypto_secretbox c (of_bytes padded) (Z.of_nat (length padded)) (of_bytes n) (of_bytes k) in
  skipn 16 (to_bytes c).

(** saltlib_pure.py:77-86 (crypto_box_open_afternm), tweetnacl.py:552-554.  Neither [raise]
    finds BadEncryptedDataException, which the module does not import: the first one raises
    NameError, which the handler catches, and the second one raises NameError again. *)
Definition pure_box_open_afternm (c n k : bytes) : res bytes :=
  let padded := repeat x00 16 ++ c in
  let m := int_array TU8 (length padded) in
  let (res, m) := crypto_secretbox_open m (of_bytes padded) (Z.of_nat (length padded)) (of_bytes n) (of_bytes k) in
  if negb (res =? 0) then Err NameError else Ok (skipn 32 (to_bytes m)).

(** tweetnacl.py:466-524 with a 32-item list for the result; n[31] and p[2*i+1] need 32 items *)
Definition scalarmult_bytes (n p : bytes) : res bytes :=
  if (length n <? 32)%nat || (length p <? 32)%nat then Err IndexError
  else Ok (to_bytes (crypto_scalarmult (int_array TU8 32) (of_bytes n) (of_bytes p))).
(** saltlib_pure.py:53-58 (crypto_box_keypair_not_random) *)
Definition pure_box_keypair_not_random (sk : bytes) : res (bytes * bytes) :=
  if negb (length sk =? 32)%nat then Err ValueError
  else Ok (to_bytes (crypto_scalarmult_base (int_array TU8 32) (of_bytes sk)), sk).
(** saltlib_pure.py:62-65 (crypto_box_beforenm); no check of lengths, so a short key is an
    IndexError of the lists *)
Definition pure_box_beforenm (pk sk : bytes) : res bytes :=
  if (length sk <? 32)%nat || (length pk <? 32)%nat then Err IndexError
  else Ok (to_bytes (crypto_box_beforenm (int_array TU8 32) (of_bytes pk) (of_bytes sk))).
