(** Model of saltchannel/v2/salt_client_session.py,
    saltchannel/v2/salt_server_session.py and
    saltchannel/a1a2/a1_client_session.py.  Definitions only. *)
From Coq Require Import List ZArith Bool Strings.Byte.
From Verif Require Import PyBase IO Packets Crypto Time EncChannel AppChannel.
Import ListNotations.
Open Scope Z_scope.
Open Scope m_scope.

(** [KeyPair], saltchannel/util/key_pair.py:4-7 *)
Record keypair : Type := KeyPair { kp_sec : bytes; kp_pub : bytes }.

(** Default session nonce, encrypted_channel_v2.py:42. *)
Definition SESSION_NONCE : bytes := zeros 8.

(** ** Client *)

(** Attributes of [SaltClientSession] (salt_client_session.py:17-41).
    [cs_wanted_server_sig_key] is line 32.  Simplified: [enc_channel] is the
    [ac_enc] of the application channel ([app_channel.channel] is the same
    object); a packet attribute is recorded only once the packet is completely
    built (a half-built packet left behind by an exception is not recorded); [cs_tk] is the time keeper's state until the application channel
    takes it over. *)
Record cs : Type := CS {
  cs_sig : keypair;
  cs_enc : option keypair;
  cs_buffer_M4 : bool;
  cs_wanted_server_sig_key : bytes;
  cs_tk : Z;
  cs_session_key : bytes;
  cs_m1 : option m1pkt;
  cs_m1_hash : bytes;
  cs_m2 : option bytes;
  cs_m2_hash : bytes;
  cs_m3 : option bytes;
  cs_m4 : option bytes;
  cs_app : option ac
}.

(** [SaltClientSession.__init__] followed by the user's attribute assignments *)
Definition cs_init (sig : keypair) (enc : option keypair) (buffer : bool) (wanted : bytes) (tk : Z) : cs :=
  CS sig enc buffer wanted tk [] None [] None [] None None None.

Definition cs_set_tk v s := CS (cs_sig s) (cs_enc s) (cs_buffer_M4 s) (cs_wanted_server_sig_key s) v (cs_session_key s) (cs_m1 s) (cs_m1_hash s) (cs_m2 s) (cs_m2_hash s) (cs_m3 s) (cs_m4 s) (cs_app s).
Definition cs_set_session_key v s := CS (cs_sig s) (cs_enc s) (cs_buffer_M4 s) (cs_wanted_server_sig_key s) (cs_tk s) v (cs_m1 s) (cs_m1_hash s) (cs_m2 s) (cs_m2_hash s) (cs_m3 s) (cs_m4 s) (cs_app s).
Definition cs_set_m1 v s := CS (cs_sig s) (cs_enc s) (cs_buffer_M4 s) (cs_wanted_server_sig_key s) (cs_tk s) (cs_session_key s) v (cs_m1_hash s) (cs_m2 s) (cs_m2_hash s) (cs_m3 s) (cs_m4 s) (cs_app s).
Definition cs_set_m1_hash v s := CS (cs_sig s) (cs_enc s) (cs_buffer_M4 s) (cs_wanted_server_sig_key s) (cs_tk s) (cs_session_key s) (cs_m1 s) v (cs_m2 s) (cs_m2_hash s) (cs_m3 s) (cs_m4 s) (cs_app s).
Definition cs_set_m2 v s := CS (cs_sig s) (cs_enc s) (cs_buffer_M4 s) (cs_wanted_server_sig_key s) (cs_tk s) (cs_session_key s) (cs_m1 s) (cs_m1_hash s) v (cs_m2_hash s) (cs_m3 s) (cs_m4 s) (cs_app s).
Definition cs_set_m2_hash v s := CS (cs_sig s) (cs_enc s) (cs_buffer_M4 s) (cs_wanted_server_sig_key s) (cs_tk s) (cs_session_key s) (cs_m1 s) (cs_m1_hash s) (cs_m2 s) v (cs_m3 s) (cs_m4 s) (cs_app s).
Definition cs_set_m3 v s := CS (cs_sig s) (cs_enc s) (cs_buffer_M4 s) (cs_wanted_server_sig_key s) (cs_tk s) (cs_session_key s) (cs_m1 s) (cs_m1_hash s) (cs_m2 s) (cs_m2_hash s) v (cs_m4 s) (cs_app s).
Definition cs_set_m4 v s := CS (cs_sig s) (cs_enc s) (cs_buffer_M4 s) (cs_wanted_server_sig_key s) (cs_tk s) (cs_session_key s) (cs_m1 s) (cs_m1_hash s) (cs_m2 s) (cs_m2_hash s) (cs_m3 s) v (cs_app s).
Definition cs_set_app v s := CS (cs_sig s) (cs_enc s) (cs_buffer_M4 s) (cs_wanted_server_sig_key s) (cs_tk s) (cs_session_key s) (cs_m1 s) (cs_m1_hash s) (cs_m2 s) (cs_m2_hash s) (cs_m3 s) (cs_m4 s) v.

(** An attribute that is None where an object is needed: AttributeError. *)
Definition need {S A} (o : option A) : M S A :=
  match o with Some a => mret a | None => mraise AttributeError end.

(** Access to the encrypted channel inside the application channel. *)
Definition app_enc_put (e : ec) (o : option ac) : option ac :=
  match o with Some a => Some (ac_set_enc e a) | None => None end.

Section Sessions.
  Variable L : lib.
  Variable TK : tkeeper.
  Variable TC : tchecker.

  (** [validate], salt_client_session.py:116-119 *)
  Definition c_validate : M cs unit :=
    s <- mget ;;
    match cs_enc s with None => mraise ValueError | Some _ => mret tt end.

  (** [do_m1], lines 56-66 *)
  Definition c_do_m1 : M cs unit :=
    s <- mget ;;
    let (t, tk') := tk_first TK (cs_tk s) in
    mmod (cs_set_tk tk') ;;;
    e <- need (cs_enc s) ;;
    m1 <- mlift (m1_set_client_enc_key (kp_pub e) (m1_set_time t (m1_create_opt_fields m1_new))) ;;
    mmod (cs_set_m1 (Some m1)) ;;;
    mmod (cs_set_m1_hash (l_sha512 L (m1_bytes m1))) ;;;
    mwrite [m1_bytes m1] false.

  (** [do_m2], lines 69-83.  [M2Packet] raises BadPeer for a foreign type, so the
      fall-back branch (lines 73-75) needs a parsed packet of another type. *)
  Definition c_do_m2 : M cs bool :=
    chunk <- mread ;;
    m2 <- mlift (m2_ctor chunk) ;;
    if negb (fget_int 0 1 m2 =? TYPE_M2) then mmod (cs_set_m2 None) ;;; mret false
    else
      mmod (cs_set_m2 (Some m2)) ;;;
      mlift (tc_first TC (m2_time m2)) ;;;
      mmod (cs_set_m2_hash (l_sha512 L chunk)) ;;;
      if m2_no_such_server m2 then mraise NoSuchServerException else mret true.

  (** [create_encrypted_channel], lines 111-114 *)
  Definition c_create_encrypted_channel : M cs unit :=
    s <- mget ;;
    e <- need (cs_enc s) ;;
    m2 <- need (cs_m2 s) ;;
    key <- mlift (compute_shared_key L (kp_sec e) (m2_server_enc_key m2)) ;;
    mmod (cs_set_session_key key) ;;;
    ch <- mlift (ec_init key CLIENT SESSION_NONCE) ;;
    mmod (cs_set_app (Some (ac_init ch (cs_tk s)))).

  (** reading from / writing to [self.enc_channel] *)
  Definition c_enc_read : M cs bytes :=
    s <- mget ;;
    a <- need (cs_app s) ;;
    mzoom (fun _ => ac_enc a) (fun e s => cs_set_app (app_enc_put e (cs_app s)) s) (ec_read L).
  Definition c_enc_write (m : bytes) : M cs unit :=
    s <- mget ;;
    a <- need (cs_app s) ;;
    mzoom (fun _ => ac_enc a) (fun e s => cs_set_app (app_enc_put e (cs_app s)) s)
          (ec_write L m [] false).

  (** [do_m3], lines 85-89 *)
  Definition c_do_m3 : M cs unit :=
    chunk <- c_enc_read ;;
    (if zlen chunk =? 2 + 4 + 32 + 64 then mret tt else mraise AssertionError) ;;;
    m3 <- mlift (m3_ctor chunk) ;;
    mmod (cs_set_m3 (Some m3)) ;;;
    mlift (tc_check TC (m34_time m3)).

  (** [validate_signature1], lines 103-109 *)
  Definition c_validate_signature1 : M cs unit :=
    s <- mget ;;
    m3 <- need (cs_m3 s) ;;
    match l_sign_open L (m34_signature m3 ++ SIG1_PREFIX ++ cs_m1_hash s ++ cs_m2_hash s) (m34_sig_key m3) with
    | Ok _ => mret tt
    | Err BadSignatureException => mraise BadPeer
    | Err e => mraise e
    end.

  (** [self.time_keeper.get_time()]: the keeper is shared with the application
      channel. *)
  Definition c_get_time : M cs Z :=
    s <- mget ;;
    a <- need (cs_app s) ;;
    let (t, tk') := tk_get TK (ac_tk a) in
    mmod (cs_set_app (Some (AC (ac_enc a) tk' (ac_buffered_m4 a) (ac_readq a)))) ;;;
    mret t.

  (** [do_m4], lines 91-101 *)
  Definition c_do_m4 : M cs unit :=
    t <- c_get_time ;;
    s <- mget ;;
    m4a <- mlift (m34_set_sig_key (kp_pub (cs_sig s)) (m34_set_time t m4_new)) ;;
    sm <- mlift (l_sign L (SIG2_PREFIX ++ cs_m1_hash s ++ cs_m2_hash s) (kp_sec (cs_sig s))) ;;
    m4 <- mlift (m34_set_signature (firstn SIGN_BYTES sm) m4a) ;;
    mmod (cs_set_m4 (Some m4)) ;;;
    if cs_buffer_M4 s then
      a <- need (cs_app s) ;;
      mmod (cs_set_app (Some (AC (ac_enc a) (ac_tk a) (Some m4) (ac_readq a))))
    else c_enc_write (pkt_bytes (Pkt m4 None)).

  (** [handshake], lines 43-54 *)
  Definition client_handshake : M cs unit :=
    c_validate ;;;
    c_do_m1 ;;;
    success <- c_do_m2 ;;
    if negb success then mret tt
    else
      c_create_encrypted_channel ;;;
      c_do_m3 ;;;
      c_validate_signature1 ;;;
      c_do_m4.

  (** ** Server *)

  (** Attributes of [SaltServerSession] (salt_server_session.py:20-45). *)
  Record ss : Type := SS {
    ss_sig : keypair;
    ss_enc : option keypair;
    ss_buffer_m2 : bool;
    ss_a2 : option pkt;
    ss_tk : Z;
    ss_session_key : bytes;
    ss_m1 : option m1pkt;
    ss_m1_hash : bytes;
    ss_m2 : option bytes;
    ss_m2_hash : bytes;
    ss_m4 : option bytes;
    ss_client_sig_key : option bytes;
    ss_is_done : bool;
    ss_app : option ac
  }.

  (** [SaltServerSession.__init__] followed by the user's attribute assignments *)
  Definition ss_init (sig : keypair) (enc : option keypair) (buffer : bool) (a2 : option pkt) (tk : Z) : ss :=
    SS sig enc buffer a2 tk [] None [] None [] None None false None.

  Definition ss_set_tk v s := SS (ss_sig s) (ss_enc s) (ss_buffer_m2 s) (ss_a2 s) v (ss_session_key s) (ss_m1 s) (ss_m1_hash s) (ss_m2 s) (ss_m2_hash s) (ss_m4 s) (ss_client_sig_key s) (ss_is_done s) (ss_app s).
  Definition ss_set_session_key v s := SS (ss_sig s) (ss_enc s) (ss_buffer_m2 s) (ss_a2 s) (ss_tk s) v (ss_m1 s) (ss_m1_hash s) (ss_m2 s) (ss_m2_hash s) (ss_m4 s) (ss_client_sig_key s) (ss_is_done s) (ss_app s).
  Definition ss_set_m1 v s := SS (ss_sig s) (ss_enc s) (ss_buffer_m2 s) (ss_a2 s) (ss_tk s) (ss_session_key s) v (ss_m1_hash s) (ss_m2 s) (ss_m2_hash s) (ss_m4 s) (ss_client_sig_key s) (ss_is_done s) (ss_app s).
  Definition ss_set_m1_hash v s := SS (ss_sig s) (ss_enc s) (ss_buffer_m2 s) (ss_a2 s) (ss_tk s) (ss_session_key s) (ss_m1 s) v (ss_m2 s) (ss_m2_hash s) (ss_m4 s) (ss_client_sig_key s) (ss_is_done s) (ss_app s).
  Definition ss_set_m2 v s := SS (ss_sig s) (ss_enc s) (ss_buffer_m2 s) (ss_a2 s) (ss_tk s) (ss_session_key s) (ss_m1 s) (ss_m1_hash s) v (ss_m2_hash s) (ss_m4 s) (ss_client_sig_key s) (ss_is_done s) (ss_app s).
  Definition ss_set_m2_hash v s := SS (ss_sig s) (ss_enc s) (ss_buffer_m2 s) (ss_a2 s) (ss_tk s) (ss_session_key s) (ss_m1 s) (ss_m1_hash s) (ss_m2 s) v (ss_m4 s) (ss_client_sig_key s) (ss_is_done s) (ss_app s).
  Definition ss_set_m4 v s := SS (ss_sig s) (ss_enc s) (ss_buffer_m2 s) (ss_a2 s) (ss_tk s) (ss_session_key s) (ss_m1 s) (ss_m1_hash s) (ss_m2 s) (ss_m2_hash s) v (ss_client_sig_key s) (ss_is_done s) (ss_app s).
  Definition ss_set_client_sig_key v s := SS (ss_sig s) (ss_enc s) (ss_buffer_m2 s) (ss_a2 s) (ss_tk s) (ss_session_key s) (ss_m1 s) (ss_m1_hash s) (ss_m2 s) (ss_m2_hash s) (ss_m4 s) v (ss_is_done s) (ss_app s).
  Definition ss_set_is_done v s := SS (ss_sig s) (ss_enc s) (ss_buffer_m2 s) (ss_a2 s) (ss_tk s) (ss_session_key s) (ss_m1 s) (ss_m1_hash s) (ss_m2 s) (ss_m2_hash s) (ss_m4 s) (ss_client_sig_key s) v (ss_app s).
  Definition ss_set_app v s := SS (ss_sig s) (ss_enc s) (ss_buffer_m2 s) (ss_a2 s) (ss_tk s) (ss_session_key s) (ss_m1 s) (ss_m1_hash s) (ss_m2 s) (ss_m2_hash s) (ss_m4 s) (ss_client_sig_key s) (ss_is_done s) v.

  (** [validate], salt_server_session.py:151-154 *)
  Definition s_validate : M ss unit :=
    s <- mget ;;
    match ss_enc s with None => mraise ValueError | Some _ => mret tt end.

  (** Python values of two kinds and [==] between them (bytes never equal an int). *)
  Inductive pyval : Type := PInt (z : Z) | PBytes (b : bytes).
  Definition py_eq (a b : pyval) : bool :=
    match a, b with
    | PInt x, PInt y => x =? y
    | PBytes x, PBytes y => bytes_eqb x y
    | _, _ => false
    end.

  (** [a1.AddressType] goes through [Packet.__getattr__]
      (saltchannel/util/packets.py:78-80), which returns [bytes(n)]: n zero bytes. *)
  Definition a1_address_type_attr (p : pkt) : pyval := PBytes (zeros (Z.to_nat (a1_address_type p))).

  (** [do_a2], lines 68-77 *)
  Definition s_do_a2 (chunk : bytes) : M ss unit :=
    s <- mget ;;
    a1 <- mlift (a1_ctor chunk) ;;
    foreign <- (if py_eq (a1_address_type_attr a1) (PInt ADDRESS_TYPE_PUBKEY)
                then (addr <- mlift (a1_address a1) ;; mret (negb (bytes_eqb addr (kp_pub (ss_sig s)))))
                else mret false) ;;
    let a2 := if (foreign : bool) then a2_no_such_server
              else match ss_a2 s with Some p => p | None => a2_default end in
    mwrite [pkt_bytes a2] true.

  (** [do_m1], lines 79-99; the boolean is [valid_m1], the bytes the chunk read *)
  Definition s_do_m1 : M ss (bool * bytes) :=
    chunk <- mread ;;
    s <- mget ;;
    match m1_ctor chunk with
    | Err BadPeer => mmod (ss_set_m1 None) ;;; mret (false, chunk)
    | Err e => mraise e
    | Ok m1 =>
        mmod (ss_set_m1 (Some m1)) ;;;
        mlift (tc_first TC (m1_time m1)) ;;;
        mmod (ss_set_m1_hash (l_sha512 L chunk)) ;;;
        foreign <- (if m1_flag m1
                    then (k <- mlift (m1_server_sig_key m1) ;; mret (negb (bytes_eqb (kp_pub (ss_sig s)) k)))
                    else mret false) ;;
        if (foreign : bool) then
          let (t, tk') := tk_first TK (ss_tk s) in
          mmod (ss_set_tk tk') ;;;
          mwrite [m2_bytes (m2_set_no_such_server true (m2_set_time t m2_new))] true ;;;
          mraise NoSuchServerException
        else mret (true, chunk)
    end.

  (** [do_m2], lines 101-108 *)
  Definition s_do_m2 : M ss unit :=
    s <- mget ;;
    let (t, tk') := tk_first TK (ss_tk s) in
    mmod (ss_set_tk tk') ;;;
    e <- need (ss_enc s) ;;
    m2 <- mlift (m2_set_server_enc_key (kp_pub e) (m2_set_time t m2_new)) ;;
    mmod (ss_set_m2 (Some m2)) ;;;
    if ss_buffer_m2 s then mret tt
    else
      mwrite [m2_bytes m2] false ;;;
      mmod (ss_set_m2_hash (l_sha512 L (m2_bytes m2))).

  (** [create_encrypted_channel], lines 138-141 *)
  Definition s_create_encrypted_channel : M ss unit :=
    s <- mget ;;
    e <- need (ss_enc s) ;;
    m1 <- need (ss_m1 s) ;;
    key <- mlift (compute_shared_key L (kp_sec e) (m1_client_enc_key m1)) ;;
    mmod (ss_set_session_key key) ;;;
    ch <- mlift (ec_init key SERVER SESSION_NONCE) ;;
    mmod (ss_set_app (Some (ac_init ch (ss_tk s)))).

  (** [do_m3], lines 110-131.  The keeper's state now lives in the application
      channel. *)
  Definition s_do_m3 : M ss unit :=
    s <- mget ;;
    a <- need (ss_app s) ;;
    x <- (if ss_buffer_m2 s then
            let (t, tk') := tk_first TK (ac_tk a) in
            m2 <- need (ss_m2 s) ;;
            let m2' := m2_set_time t m2 in
            mmod (ss_set_m2 (Some m2')) ;;;
            mmod (ss_set_m2_hash (l_sha512 L (m2_bytes m2'))) ;;;
            mret (t, tk', [m2_bytes m2'])
          else
            let (t, tk') := tk_get TK (ac_tk a) in
            mret (t, tk', [])) ;;
    let '(t, tk', pre) := x in
    mmod (ss_set_app (Some (AC (ac_enc a) tk' (ac_buffered_m4 a) (ac_readq a)))) ;;;
    p1 <- mlift (m34_set_sig_key (kp_pub (ss_sig s)) (m34_set_time t m3_new)) ;;
    s' <- mget ;;
    sm <- mlift (l_sign L (SIG1_PREFIX ++ ss_m1_hash s' ++ ss_m2_hash s') (kp_sec (ss_sig s))) ;;
    p <- mlift (m34_set_signature (firstn SIGN_BYTES sm) p1) ;;
    c <- mlift (ec_encrypt L (ac_enc a) (pkt_bytes (Pkt p None))) ;;
    mmod (ss_set_app (Some (AC (ec_advance_write (ac_enc a)) tk' (ac_buffered_m4 a) (ac_readq a)))) ;;;
    mwrite (pre ++ [ec_wrap c false]) false.

  (** reading from [self.enc_channel] *)
  Definition s_enc_read : M ss bytes :=
    s <- mget ;;
    a <- need (ss_app s) ;;
    mzoom (fun _ => ac_enc a) (fun e s => ss_set_app (app_enc_put e (ss_app s)) s) (ec_read L).

  (** [do_m4], lines 133-136 *)
  Definition s_do_m4 : M ss unit :=
    chunk <- s_enc_read ;;
    m4 <- mlift (m4_ctor chunk) ;;
    mmod (ss_set_m4 (Some m4)) ;;;
    mlift (tc_check TC (m34_time m4)) ;;;
    mmod (ss_set_client_sig_key (Some (m34_sig_key m4))).

  (** [validate_signature2], lines 143-149 *)
  Definition s_validate_signature2 : M ss unit :=
    s <- mget ;;
    m4 <- need (ss_m4 s) ;;
    match l_sign_open L (m34_signature m4 ++ SIG2_PREFIX ++ ss_m1_hash s ++ ss_m2_hash s) (m34_sig_key m4) with
    | Ok _ => mret tt
    | Err BadSignatureException => mraise BadPeer
    | Err e => mraise e
    end.

  (** [handshake], lines 47-66 *)
  Definition server_handshake : M ss unit :=
    s_validate ;;;
    x <- s_do_m1 ;;
    if negb (fst x) then
      s_do_a2 (snd x) ;;;
      mmod (ss_set_is_done true)
    else
      s_validate ;;;
      s_do_m2 ;;;
      s_create_encrypted_channel ;;;
      s_do_m3 ;;;
      s_do_m4 ;;;
      s_validate_signature2.

  (** [A1ClientSession.do_a1a2], a1_client_session.py:14-16; the result is the
      parsed A2 ([self.a2]). *)
  Definition do_a1a2 (uw : Z -> bool) (a1 : pkt) : M unit pkt :=
    mwrite [pkt_bytes a1] false ;;;
    raw <- mread ;;
    mlift (a2_ctor uw raw).
End Sessions.
