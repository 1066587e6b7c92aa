(** Model of saltchannel/v2/encrypted_channel_v2.py.  Definitions only. *)
From Coq Require Import List ZArith Bool Strings.Byte.
From Verif Require Import PyBase IO Packets Crypto.
Import ListNotations.
Open Scope Z_scope.
Open Scope m_scope.

(** [Role], lines 10-13 *)
Inductive role : Type := CLIENT | SERVER.

(** The attributes of an [EncryptedChannelV2] (lines 42-55).  [ec_pushback] is
    b'' or None (both falsy) when empty.  A [Nonce] object (lines 22-32) is its
    value; the two share [session_nonce]. *)
Record ec : Type := EC {
  ec_key : bytes;
  ec_pushback : bytes;
  ec_last_flag : bool;
  ec_read_nonce : Z;
  ec_write_nonce : Z;
  ec_session_nonce : bytes
}.

Definition ec_set_pushback (v : bytes) (s : ec) : ec :=
  EC (ec_key s) v (ec_last_flag s) (ec_read_nonce s) (ec_write_nonce s) (ec_session_nonce s).
Definition ec_set_last_flag (v : bool) (s : ec) : ec :=
  EC (ec_key s) (ec_pushback s) v (ec_read_nonce s) (ec_write_nonce s) (ec_session_nonce s).
Definition ec_advance_read (s : ec) : ec :=
  EC (ec_key s) (ec_pushback s) (ec_last_flag s) (ec_read_nonce s + 2) (ec_write_nonce s) (ec_session_nonce s).
Definition ec_advance_write (s : ec) : ec :=
  EC (ec_key s) (ec_pushback s) (ec_last_flag s) (ec_read_nonce s) (ec_write_nonce s + 2) (ec_session_nonce s).

(** [EncryptedChannelV2.__init__], lines 42-55.  Line 47 concatenates str and
    int, so a bad key size surfaces as TypeError.  The default session nonce is
    8 zero bytes (TTPacket.SESSION_NONCE_SIZE, v2/packets.py:345). *)
Definition ec_init (key : bytes) (r : role) (session_nonce : bytes) : res ec :=
  if negb (zlen key =? BOX_SECRETKEYBYTES) then Err TypeError
  else Ok (EC key [] false
              (match r with CLIENT => 2 | SERVER => 1 end)
              (match r with CLIENT => 1 | SERVER => 2 end)
              session_nonce).

(** [Nonce.__bytes__], lines 31-32: [int.to_bytes(8, 'little')] raises
    OverflowError outside [0, 2^64). *)
Definition nonce_bytes (value : Z) (session_nonce : bytes) : res bytes :=
  if (0 <=? value) && (value <? 2 ^ 64)
  then Ok (le_enc 8 value ++ session_nonce ++ zeros 8)
  else Err OverflowError.

Section WithLib.
  Variable L : lib.

  (** [encrypt], lines 76-77 *)
  Definition ec_encrypt (s : ec) (clear : bytes) : res bytes :=
    match nonce_bytes (ec_write_nonce s) (ec_session_nonce s) with
    | Ok n => l_afternm L clear n (ec_key s)
    | Err e => Err e
    end.

  (** [decrypt], lines 79-83 *)
  Definition ec_decrypt (s : ec) (encrypted : bytes) : res bytes :=
    match nonce_bytes (ec_read_nonce s) (ec_session_nonce s) with
    | Ok n => match l_open_afternm L encrypted n (ec_key s) with
              | Ok m => Ok m
              | Err BadEncryptedDataException => Err BadPeer
              | Err e => Err e
              end
    | Err e => Err e
    end.

  (** [wrap], lines 85-90 *)
  Definition ec_wrap (src : bytes) (is_last : bool) : bytes :=
    pkt_bytes (ep_set_body src (ep_set_last_flag is_last ep_new)).

  (** [unwrap], lines 92-96: [last_flag] is stored before the body is returned. *)
  Definition ec_unwrap (s : ec) (raw : bytes) : ec * res bytes :=
    match ep_ctor raw with
    | Ok ep => (ec_set_last_flag (ep_last_flag ep) s, ep_body ep)
    | Err e => (s, Err e)
    end.

  (** lines 64-66: decrypt(unwrap(raw)), then advance the read nonce *)
  Definition ec_process (s : ec) (raw : bytes) : ec * res bytes :=
    match ec_unwrap s raw with
    | (s1, Ok body) =>
        match ec_decrypt s1 body with
        | Ok clear => (ec_advance_read s1, Ok clear)
        | Err e => (s1, Err e)
        end
    | (s1, Err e) => (s1, Err e)
    end.

  (** [read], lines 57-66 *)
  Definition ec_read : M ec bytes := fun s =>
    if is_empty (ec_pushback s)
    then Read (fun r => match r with
                        | Ok raw => Ret (ec_process s raw)
                        | Err e => Ret (s, Err e)
                        end)
    else Ret (ec_process (ec_set_pushback [] s) (ec_pushback s)).

  (** the loop of [write], lines 71-73 *)
  Fixpoint ec_wrap_all (s : ec) (is_last : bool) (msgs : list bytes) : ec * res (list bytes) :=
    match msgs with
    | [] => (s, Ok [])
    | m :: r =>
        match ec_encrypt s m with
        | Err e => (s, Err e)
        | Ok c =>
            let f := ec_wrap c (is_last && is_empty r) in
            match ec_wrap_all (ec_advance_write s) is_last r with
            | (s', Ok fs) => (s', Ok (f :: fs))
            | (s', Err e) => (s', Err e)
            end
        end
    end.

  (** [write], lines 68-74 *)
  Definition ec_write (message : bytes) (args : list bytes) (is_last : bool) : M ec unit := fun s =>
    match ec_wrap_all s is_last (message :: args) with
    | (s', Ok fs) => mwrite fs is_last s'
    | (s', Err e) => Ret (s', Err e)
    end.
End WithLib.
