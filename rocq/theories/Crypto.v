(** The crypto library seen through saltchannel/saltlib/saltlib.py.  The C code
    behind the three back ends is outside the repository; it appears as a record
    of functions and, where a theorem needs them, NaCl's functional laws as an
    explicit hypothesis.  Definitions only. *)
From Coq Require Import List ZArith Bool Strings.Byte.
From Verif Require Import PyBase.
Import ListNotations.
Open Scope Z_scope.

(** [SaltLib] methods used by the protocol, saltchannel/saltlib/saltlib.py:67-87;
    argument order as in the Python code. *)
Record lib : Type := Lib {
  l_sha512 : bytes -> bytes;                       (* sha512(msg), 73-74 *)
  l_sign : bytes -> bytes -> res bytes;            (* sign(msg, sec), 67-68 *)
  l_sign_open : bytes -> bytes -> res bytes;       (* sign_open(smsg, pub), 70-71 *)
  l_beforenm : bytes -> bytes -> res bytes;        (* crypto_box_beforenm(pk, sk), 81 *)
  l_afternm : bytes -> bytes -> bytes -> res bytes;       (* crypto_box_afternm(m, n, k) *)
  l_open_afternm : bytes -> bytes -> bytes -> res bytes   (* crypto_box_open_afternm(c, n, k) *)
}.

(** [crypto_box_SECRETKEYBYTES] etc., saltchannel/saltlib/saltlib_base.py:9-24 *)
Definition BOX_SECRETKEYBYTES : Z := 32.
Definition BOX_PUBLICKEYBYTES : Z := 32.
Definition SIGN_BYTES : nat := 64.

(** [SaltLib.compute_shared_key], saltchannel/saltlib/saltlib.py:76-81 *)
Definition compute_shared_key (L : lib) (my_sk peer_pk : bytes) : res bytes :=
  if negb (zlen my_sk =? BOX_SECRETKEYBYTES) then Err ValueError
  else if negb (zlen peer_pk =? BOX_PUBLICKEYBYTES) then Err ValueError
  else l_beforenm L peer_pk my_sk.

(** Functional laws of NaCl for a library [L]; [sigpair sk pk] and
    [encpair sk pk] say that the keys were generated together. *)
Record nacl_laws (L : lib) (sigpair encpair : bytes -> bytes -> Prop) : Prop := NaclLaws {
  law_sha_len : forall m, zlen (l_sha512 L m) = 64;
  law_sigpk_len : forall sk pk, sigpair sk pk -> length pk = 32%nat;
  law_sign : forall sk pk m, sigpair sk pk ->
      exists s, length s = 64%nat /\ l_sign L m sk = Ok (s ++ m) /\
                l_sign_open L (s ++ m) pk = Ok m;
  law_encsk_len : forall sk pk, encpair sk pk -> length sk = 32%nat;
  law_encpk_len : forall sk pk, encpair sk pk -> length pk = 32%nat;
  law_dh : forall ska pka skb pkb, encpair ska pka -> encpair skb pkb ->
      exists k, length k = 32%nat /\ l_beforenm L pkb ska = Ok k /\ l_beforenm L pka skb = Ok k;
  law_box : forall m n k, length n = 24%nat -> length k = 32%nat ->
      exists c, l_afternm L m n k = Ok c /\ length c = (length m + 16)%nat /\
                l_open_afternm L c n k = Ok m
}.

(** Laws about failing and forging calls, used by the theorems about hostile
    peers.  [law_open_exn] and [law_sign_open_exn] describe the wrappers
    saltlib_native.py:61-79, 134-155, saltlib_pynacl.py:38-56,
    saltlib_tweetnaclext.py:25-44 (every failure becomes the library's own
    exception).  [law_open_unique]: NaCl's secretbox ciphertext of a message under
    a key and nonce is unique. *)
Record nacl_fail_laws (L : lib) : Prop := NaclFailLaws {
  law_open_exn : forall c n k e, l_open_afternm L c n k = Err e -> e = BadEncryptedDataException;
  law_sign_open_exn : forall sm pk e, l_sign_open L sm pk = Err e -> e = BadSignatureException;
  law_open_unique : forall c n k m, l_open_afternm L c n k = Ok m -> l_afternm L m n k = Ok c
}.

(** A toy library satisfying the laws, to show that they are not contradictory
    and to run the examples.  Secret and public keys coincide, the "signature" is
    the key twice, the "ciphertext" is a tag made of nonce and key followed by the
    clear text, the shared key of two keys is their byte-wise sum.  Not part of
    the repository. *)
Definition toy_hash (m : bytes) : bytes := firstn 64 (m ++ zeros 64).
Definition toy_tag (n k : bytes) : bytes := firstn 16 (firstn 8 n ++ firstn 8 k ++ zeros 16).
Definition toy_sig (sk : bytes) : bytes := firstn 64 (sk ++ sk ++ zeros 64).
Fixpoint add_bytes (a b : bytes) : bytes :=
  match a, b with
  | x :: a', y :: b' => z2b (b2z x + b2z y) :: add_bytes a' b'
  | _, _ => []
  end.

Definition toy_lib : lib := Lib
  toy_hash
  (fun m sk => Ok (toy_sig sk ++ m))
  (fun sm pk => if bytes_eqb (firstn 64 sm) (toy_sig pk) then Ok (skipn 64 sm)
                else Err BadSignatureException)
  (fun pk sk => Ok (add_bytes pk sk))
  (fun m n k => Ok (toy_tag n k ++ m))
  (fun c n k => if bytes_eqb (firstn 16 c) (toy_tag n k) then Ok (skipn 16 c)
                else Err BadEncryptedDataException).

Definition toy_pair (sk pk : bytes) : Prop := sk = pk /\ length sk = 32%nat.
