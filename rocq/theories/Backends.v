(** Model of the three usable back ends: saltchannel/saltlib/saltlib_native.py,
    saltlib_pynacl.py and saltlib_tweetnaclext.py, over the C functions they call.
    Definitions only. *)
From Coq Require Import List ZArith Bool Strings.Byte Strings.String.
From Verif Require Import PyBase Crypto SaltLib.
Import ListNotations.
Open Scope Z_scope.

(** ** libsodium through ctypes, saltlib_native.py *)

(** What the C functions leave behind: the return code and the contents of the output
    buffers, as functions of the byte strings passed.  The buffers have the sizes the
    wrapper allocates.  Simplified: a C function given a key or nonce shorter than it
    reads would read past the Python object; here it is a function of the bytes given.
    [crypto_hash] (157-171) lets C write into an immutable bytes object; the object is
    fresh and the result is what C wrote. *)
Record sodium : Type := Sodium {
  so_seed_keypair : bytes -> Z * bytes * bytes;       (* crypto_sign_seed_keypair(pk, sk, seed) *)
  so_sign : bytes -> bytes -> Z * bytes;              (* crypto_sign(sm, &smlen, m, len, sk) *)
  so_sign_open : bytes -> bytes -> Z * bytes * Z;     (* crypto_sign_open(m, &mlen, sm, len, pk) *)
  so_scalarmult_base : bytes -> Z * bytes;            (* crypto_scalarmult_base(pk, sk) *)
  so_beforenm : bytes -> bytes -> Z * bytes;          (* crypto_box_beforenm(k, pk, sk) *)
  so_afternm : bytes -> bytes -> bytes -> Z * bytes;       (* crypto_box_afternm(c, m, len, n, k) *)
  so_open_afternm : bytes -> bytes -> bytes -> Z * bytes;  (* crypto_box_open_afternm(m, c, len, n, k) *)
  so_hash : bytes -> Z * bytes                        (* crypto_hash_sha512(h, m, len) *)
}.

(** crypto_box_ZEROBYTES and crypto_box_BOXZEROBYTES, saltlib_base.py:20-21 *)
Definition ZEROBYTES : nat := 32.
Definition BOXZEROBYTES : nat := 16.

(** [wrap], saltlib_native.py:11-13 *)
Definition wrap {A} (code : Z) (v : A) : res A := if code =? 0 then Ok v else Err ValueError.

Section Native.
  Variable C : sodium.

  (** [crypto_sign_keypair_not_random] after its length check, 38-42 *)
  Definition native_seed_keypair (seed : bytes) : res (bytes * bytes) :=
    match so_seed_keypair C seed with (rc, pk, sk) => wrap rc (pk, sk) end.

  (** [crypto_sign], 44-59 *)
  Definition native_sign (m sk : bytes) : res bytes :=
    match so_sign C m sk with (rc, sm) => wrap rc sm end.

  (** [crypto_sign_open], 61-79 *)
  Definition native_sign_open (sm pk : bytes) : res bytes :=
    match so_sign_open C sm pk with
    | (rc, m, mlen) => if rc =? 0 then Ok (firstn (Z.to_nat mlen) m) else Err BadSignatureException
    end.

  (** [crypto_box_keypair_not_random] after its length check, 94-96 *)
  Definition native_scalarmult_base (sk : bytes) : res bytes :=
    match so_scalarmult_base C sk with (rc, pk) => wrap rc pk end.

  (** [crypto_box_beforenm], 98-113 *)
  Definition native_beforenm (pk sk : bytes) : res bytes :=
    match so_beforenm C pk sk with (rc, k) => wrap rc k end.

  (** [crypto_box_afternm], 115-132 *)
  Definition native_afternm (m n k : bytes) : res bytes :=
    match so_afternm C (zeros ZEROBYTES ++ m) n k with
    | (rc, c) => wrap rc (skipn BOXZEROBYTES c)
    end.

  (** [crypto_box_open_afternm], 134-155 *)
  Definition native_open_afternm (c n k : bytes) : res bytes :=
    match so_open_afternm C (zeros BOXZEROBYTES ++ c) n k with
    | (rc, m) => if rc =? 0 then Ok (skipn ZEROBYTES m) else Err BadEncryptedDataException
    end.

  (** [crypto_hash], 157-171 (the argument is never None here) *)
  Definition native_hash (m : bytes) : res bytes :=
    match so_hash C m with (rc, h) => wrap rc h end.

  (** The back end as the rest of the model sees it.  Simplified there: [sha512] never
      raises ([so_hash] of libsodium always returns 0, see [sodium_laws]). *)
  Definition native_lib : lib :=
    Lib (fun m => match native_hash m with Ok h => h | Err _ => [] end)
        native_sign native_sign_open native_beforenm native_afternm native_open_afternm.
  Definition native_api : api := Api native_lib native_seed_keypair native_scalarmult_base.
End Native.

(** ** Bindings that return byte strings and raise their own exceptions:
    nacl.bindings (saltlib_pynacl.py) and tweetnacl.raw (saltlib_tweetnaclext.py). *)
Record bindings : Type := Bindings {
  bi_seed_keypair : bytes -> res (bytes * bytes);
  bi_sign : bytes -> bytes -> res bytes;
  bi_sign_open : bytes -> bytes -> res bytes;
  bi_scalarmult_base : bytes -> res bytes;
  bi_beforenm : bytes -> bytes -> res bytes;
  bi_afternm : bytes -> bytes -> bytes -> res bytes;
  bi_open_afternm : bytes -> bytes -> bytes -> res bytes;
  bi_hash : bytes -> bytes
}.

(** saltlib_pynacl.py:32-68 and saltlib_tweetnaclext.py:20-56: the two classes wrap
    alike; [try ... except Exception as e: raise BadXException(e)].  Simplified:
    exceptions that do not derive from Exception (KeyboardInterrupt) are not modelled. *)
Definition except_all {A} (r : res A) (e : exn) : res A :=
  match r with Ok v => Ok v | Err _ => Err e end.

Definition wrapped_lib (B : bindings) : lib :=
  Lib (bi_hash B)
      (bi_sign B)
      (fun sm pk => except_all (bi_sign_open B sm pk) BadSignatureException)
      (bi_beforenm B)
      (bi_afternm B)
      (fun c n k => except_all (bi_open_afternm B c n k) BadEncryptedDataException).
Definition wrapped_api (B : bindings) : api := Api (wrapped_lib B) (bi_seed_keypair B) (bi_scalarmult_base B).

(** The back ends by name. *)
Definition backends (C : sodium) (pynacl ext : bindings) (b : backend) : api :=
  match b with
  | Native => native_api C
  | PyNaCl => wrapped_api pynacl
  | TweetNaClExt => wrapped_api ext
  end.

(** ** Which back end classes can be instantiated *)

(** The methods [SaltLibBase] declares abstract, saltlib_base.py:33-58. *)
Open Scope string_scope.
Definition abstract_methods : list string :=
  ["crypto_sign_keypair_not_random"; "crypto_sign"; "crypto_sign_open";
   "crypto_box_keypair_not_random"; "crypto_box_beforenm"; "crypto_box_afternm";
   "crypto_box_open_afternm"; "crypto_hash"; "randombytes"].

(** The methods the classes define: saltlib_native.py:26-174, saltlib_pynacl.py:19-68,
    saltlib_tweetnaclext.py:15-56, saltlib_pure.py:20-94. *)
Inductive backend_class : Type := CNative | CPyNaCl | CTweetNaClExt | CPure.
Definition methods (c : backend_class) : list string :=
  match c with
  | CPure => ["isAvailable"; "crypto_sign_keypair_not_random"; "crypto_sign"; "crypto_sign_open";
              "crypto_box_keypair_not_random"; "crypto_box_beforenm"; "crypto_box_afternm";
              "crypto_box_open_afternm"; "crypto_hash"]
  | CNative => ["_getSodium"; "isAvailable"; "crypto_sign_keypair_not_random"; "crypto_sign"; "crypto_sign_open";
              "crypto_box_keypair_not_random"; "crypto_box_beforenm"; "crypto_box_afternm";
              "crypto_box_open_afternm"; "crypto_hash"; "randombytes"]
  | _ => ["isAvailable"; "crypto_sign_keypair_not_random"; "crypto_sign"; "crypto_sign_open";
              "crypto_box_keypair_not_random"; "crypto_box_beforenm"; "crypto_box_afternm";
              "crypto_box_open_afternm"; "crypto_hash"; "randombytes"]
  end.
Close Scope string_scope.

(** [ABCMeta] instantiation (object.__new__): TypeError while an abstract method is not
    overridden. *)
Definition abc_init (c : backend_class) : res unit :=
  if forallb (fun n => existsb (String.eqb n) (methods c)) abstract_methods then Ok tt else Err TypeError.
