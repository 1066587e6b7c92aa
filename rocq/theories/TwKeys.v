(** The functions of tweetnacl.py that SaltLibPure does not call: key pairs from the random
    bytes of the operating system, and boxes in one step.  As in [ChkSign], with every exception
    of a list.  The arguments that are written to are lists (IntArray).  What os.urandom returned
    is an argument, [rnd]. *)
From Coq Require Import List ZArith Bool Strings.Byte.
From Verif Require Import PyBase PyInt ChkPy TwSalsa TwField TwSign ChkHash ChkSalsa ChkField ChkSign.
Import ListNotations.
Open Scope Z_scope.
Open Scope chk_scope.

(** tweetnacl.py:61-68 (randombytes), Python 3: [c[:s] = os.urandom(s)] puts the s bytes in the
    place of the first s items, or of all if there are fewer; returns c *)
Definition randombytes_c (c : list pint) (s : nat) (rnd : bytes) : list pint := of_bytes rnd ++ skipn s c.

(** tweetnacl.py:534-537 (crypto_box_curve25519xsalsa20poly1305_tweet_keypair), 527-529; returns y
    and x *)
Definition box_keypair_c (y x : list pint) (rnd : bytes) : res (list pint * list pint) :=
  let x := randombytes_c x 32 rnd in
  y <- scalarmult_c y x b9 ;; Ok (y, x).

(** tweetnacl.py:557-561 (crypto_box_curve25519xsalsa20poly1305_tweet), 547-549; the result code
    and c *)
Definition box_c (c m : list pint) (d : Z) (n y x : list pint) : res (Z * list pint) :=
  k <- beforenm_c (int_array TU8 32) y x ;; secretbox_c c m d n k.

(** tweetnacl.py:564-568 (crypto_box_curve25519xsalsa20poly1305_tweet_open), 552-554; the result
    code and m *)
Definition box_open_c (m c : list pint) (d : Z) (n y x : list pint) : res (Z * list pint) :=
  k <- beforenm_c (int_array TU8 32) y x ;; secretbox_open_c m c d n k.

(** tweetnacl.py:780-795 (crypto_sign_ed25519_tweet_keypair); returns pk and sk *)
Definition sign_keypair_c (pk sk : list pint) (rnd : bytes) : res (list pint * list pint) :=
  let sk := randombytes_c sk 32 rnd in
  d <- hash_c (int_array TU8 64) sk 32 ;;
  d <- clamp_d_c d ;;
  p <- scalarbase4_c gf4_new d ;;
  pk <- pack_point_c lput pk p ;;
  sk <- for_c 32 (fun sk i => lset sk (32 + i) (rget pk i)) sk ;;
  Ok (pk, sk).
