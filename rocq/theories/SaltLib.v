(** Model of [SaltLib] (saltchannel/saltlib/saltlib.py:13-87) and of the singleton
    metaclasses (saltchannel/util/__init__.py:21-34).  Definitions only. *)
From Coq Require Import List ZArith Bool.
From Verif Require Import PyBase Crypto.
Import ListNotations.
Open Scope Z_scope.

(** [LibType], saltlib.py:13-18 *)
Inductive lib_type : Type := LIB_BEST | LIB_NATIVE | LIB_PYNACL | LIB_TWEETNACL_EXT.

(** The back ends of [SaltLib.lib_map], saltlib.py:26-31, in key order. *)
Inductive backend : Type := Native | PyNaCl | TweetNaClExt.
Definition lib_map : list backend := [Native; PyNaCl; TweetNaClExt].

(** [SaltLib.getLib], saltlib.py:37-47.  The [raise] is inside the loop and the
    [else] belongs to the [for]; for any explicit type the function falls off its
    end and returns None. *)
Definition get_lib (available : backend -> bool) (t : lib_type) : res (option backend) :=
  match t with
  | LIB_BEST =>
      match lib_map with
      | [] => Err KeyError
      | b :: _ => if available b then Ok (Some b) else Err NoSuchLibException
      end
  | _ => Ok None
  end.

(** What a back end offers beyond [lib]: the key generation functions of the C
    library, which return (public, secret).  saltlib_native.py:26-42 and 81-96,
    saltlib_pynacl.py:19-30 and 59-62, saltlib_tweetnaclext.py:15-18 and 47-50. *)
Record api : Type := Api {
  a_lib : lib;
  a_seed_keypair : bytes -> res (bytes * bytes);    (* crypto_sign_seed_keypair *)
  a_scalarmult_base : bytes -> res bytes            (* crypto_scalarmult_base *)
}.

(** [crypto_sign_keypair_not_random]: all three back ends check the length first. *)
Definition sign_keypair (a : api) (seed : bytes) : res (bytes * bytes) :=
  if negb (zlen seed =? 32) then Err ValueError else a_seed_keypair a seed.

(** [crypto_box_keypair_not_random], same lines *)
Definition box_keypair (a : api) (sk : bytes) : res (bytes * bytes) :=
  if negb (zlen sk =? 32) then Err ValueError
  else match a_scalarmult_base a sk with Ok pk => Ok (pk, sk) | Err e => Err e end.

(** [RngType], saltlib.py:20-22, and [SaltLib._rand], line 35 *)
Inductive rng : Type := RNG_URANDOM | RNG_IMPL.

(** A [SaltLib] object: its attribute [api].  Simplified: the class attributes
    [_rand] and [lib_type] are not kept; the random bytes are arguments of the
    functions that draw them. *)
Definition saltlib := option backend.

(** [SaltLib.__init__], saltlib.py:33-35: with [RNG_IMPL] the attribute
    [self.api.randombytes] is read, which None does not have. *)
Definition salt_init (available : backend -> bool) (t : lib_type) (r : rng) : res saltlib :=
  match get_lib available t with
  | Err e => Err e
  | Ok a => match r, a with
            | RNG_IMPL, None => Err AttributeError
            | _, _ => Ok a
            end
  end.

(** Calls through [self.api], saltlib.py:53-87: every method starts by reading an
    attribute of it. *)
Definition with_api {A} (b : backend -> api) (s : saltlib) (f : api -> res A) : res A :=
  match s with None => Err AttributeError | Some x => f (b x) end.

(** The methods of [SaltLib] that use the crypto library, as requests.
    [QEncKeys] and [QSigKeys] draw random bytes (given as [r]). *)
Inductive request : Type :=
| QEncKeys (r : bytes)                  (* create_enc_keys, 53-54 *)
| QEncKeysFrom (sec : bytes)            (* create_enc_keys_from_sec, 56-58 *)
| QSigKeys (r : bytes)                  (* create_sig_keys, 60-61 *)
| QSigKeysFrom (sec : bytes)            (* create_sig_keys_from_sec, 63-65 *)
| QSign (m sec : bytes)                 (* sign, 67-68 *)
| QSignOpen (sm pk : bytes)             (* sign_open, 70-71 *)
| QSha512 (m : bytes)                   (* sha512, 73-74 *)
| QShared (sk pk : bytes)               (* compute_shared_key, 76-81 *)
| QEncrypt (key nonce m : bytes)        (* encrypt, 83-84 *)
| QDecrypt (key nonce c : bytes).       (* decrypt, 86-87 *)

Inductive answer : Type := AKeys (sec pub : bytes) | ABytes (b : bytes).

Definition keys_of (r : res (bytes * bytes)) : res answer :=
  match r with Ok (pk, sk) => Ok (AKeys sk pk) | Err e => Err e end.
Definition bytes_of (r : res bytes) : res answer :=
  match r with Ok b => Ok (ABytes b) | Err e => Err e end.

(** create_enc_keys_from_sec, 56-58; create_sig_keys_from_sec, 63-65 *)
Definition enc_keys_from (sec : bytes) (a : api) : res answer := keys_of (box_keypair a sec).
Definition sig_keys_from (sec : bytes) (a : api) : res answer := keys_of (sign_keypair a (firstn 32 sec)).

Definition salt_call (b : backend -> api) (s : saltlib) (q : request) : res answer :=
  with_api b s (fun a =>
    match q with
    | QEncKeys r | QEncKeysFrom r => enc_keys_from r a
    | QSigKeys r | QSigKeysFrom r => sig_keys_from r a
    | QSign m sec => bytes_of (l_sign (a_lib a) m sec)
    | QSignOpen sm pk => bytes_of (l_sign_open (a_lib a) sm pk)
    | QSha512 m => Ok (ABytes (l_sha512 (a_lib a) m))
    | QShared sk pk => bytes_of (compute_shared_key (a_lib a) sk pk)
    | QEncrypt key nonce m => bytes_of (l_afternm (a_lib a) m nonce key)
    | QDecrypt key nonce c => bytes_of (l_open_afternm (a_lib a) c nonce key)
    end).

(** ** Singletons *)

(** Objects with identity.  [i_args] are the constructor arguments the object was
    really built with. *)
Record inst (A : Type) : Type := Inst { i_id : nat; i_class : nat; i_args : A }.
Arguments Inst {A} _ _ _.
Arguments i_id {A} _.
Arguments i_class {A} _.
Arguments i_args {A} _.

(** The interpreter's state: the next fresh identity and the dictionary
    [_instances].  The two metaclasses have a dictionary each; as the keys are
    classes, one dictionary is enough. *)
Record pystate (A : Type) : Type := PyState { p_next : nat; p_instances : list (nat * inst A) }.
Arguments PyState {A} _ _.
Arguments p_next {A} _.
Arguments p_instances {A} _.

Fixpoint reg_find {A} (c : nat) (r : list (nat * inst A)) : option (inst A) :=
  match r with
  | [] => None
  | (c', i) :: t => if Nat.eqb c c' then Some i else reg_find c t
  end.

(** The expression [cls( *args )]: class, arguments, and what running the class's
    own [__init__] would give at that moment (chosen by the environment, used only
    if it is run). *)
Record construction (A : Type) : Type := Construction { k_class : nat; k_args : A; k_init : res unit }.
Arguments Construction {A} _ _ _.
Arguments k_class {A} _.
Arguments k_args {A} _.
Arguments k_init {A} _.

(** [Singleton.__call__] and [SingletonABCMeta.__call__], util/__init__.py:23-26 and
    31-34 *)
Definition construct {A} (p : pystate A) (k : construction A) : pystate A * res (inst A) :=
  match reg_find (k_class k) (p_instances p) with
  | Some i => (p, Ok i)
  | None => match k_init k with
            | Ok _ => let i := Inst (p_next p) (k_class k) (k_args k) in
                      (PyState (S (p_next p)) ((k_class k, i) :: p_instances p), Ok i)
            | Err e => (PyState (S (p_next p)) (p_instances p), Err e)
            end
  end.

(** A history of constructions, from a fresh interpreter. *)
Fixpoint construct_all {A} (p : pystate A) (ks : list (construction A)) : pystate A * list (res (inst A)) :=
  match ks with
  | [] => (p, [])
  | k :: t =>
      let (p1, x) := construct p k in
      let (p2, xs) := construct_all p1 t in
      (p2, x :: xs)
  end.
Definition py_start {A} : pystate A := PyState 0 [].
