(** Model of saltchannel/util/packets.py, saltchannel/v2/packets.py and
    saltchannel/a1a2/packets.py.  Definitions only. *)
From Coq Require Import List ZArith Bool Strings.Byte.
From Verif Require Import PyBase.
Import ListNotations.
Open Scope Z_scope.

(** [PacketType], saltchannel/util/packets.py:9-19. *)
Definition TYPE_M1 : Z := 1.
Definition TYPE_M2 : Z := 2.
Definition TYPE_M3 : Z := 3.
Definition TYPE_M4 : Z := 4.
Definition TYPE_APP_PACKET : Z := 5.
Definition TYPE_ENCRYPTED_PACKET : Z := 6.
Definition TYPE_A1 : Z := 8.
Definition TYPE_A2 : Z := 9.
Definition TYPE_MULTIAPP_PACKET : Z := 11.

(** A [Packet] object (saltchannel/util/packets.py:48-92): the fixed structure
    [data] and the variable structure [opt]; [None] is the field-less
    [_EmptyBodyOpt] (lines 51-55). *)
Record pkt : Type := Pkt { p_data : bytes; p_opt : option bytes }.

(** [bytes(self.opt)] *)
Definition opt_bytes (o : option bytes) : bytes := match o with Some b => b | None => [] end.

(** [self.opt.X] for the single array field of a variable part: AttributeError
    on [_EmptyBodyOpt] (the property lookup falls back to [__getattr__],
    saltchannel/util/packets.py:78-82, which raises AttributeError again). *)
Definition opt_field (o : option bytes) : res bytes :=
  match o with Some b => Ok b | None => Err AttributeError end.

(** [Packet.__bytes__], saltchannel/util/packets.py:63-64 (M1, M3, M4,
    EncryptedPacket, AppPacket, A1, A2). *)
Definition pkt_bytes (p : pkt) : bytes := p_data p ++ opt_bytes (p_opt p).

(** [Packet.validate], saltchannel/util/packets.py:66-69; [off] is the offset of
    the type byte of the header. *)
Definition validate_type (off : nat) (ty : Z) (data : bytes) : res unit :=
  if fget_int off 1 data =? ty then Ok tt else Err BadPeer.

(** Conversion of the parse-in-place functions to constructors: an exception
    leaves the constructor. *)
Definition finish {A} (x : A * res unit) : res A :=
  match snd x with Ok _ => Ok (fst x) | Err e => Err e end.

(** ** M1Packet, saltchannel/v2/packets.py:7-71.
    Layout (lines 12-22): ProtocolIndicator 0..3, PacketType 4, flags 5
    (ServerSigKeyIncluded = bit 0), Time 6..9, ClientEncKey 10..41.
    [m1_shadow] is the plain Python attribute created when ServerSigKey is
    assigned on the field-less [_EmptyBodyOpt] (line 71 before
    [create_opt_fields]). *)
Record m1pkt : Type := M1 { m1_data : bytes; m1_opt : option bytes; m1_shadow : option bytes }.

(** b'SCv2', lines 25-27 *)
Definition SCv2 : bytes := [x53; x43; x76; x32].

(** [M1Packet.__init__] without source, lines 38-41. *)
Definition m1_new : m1pkt :=
  M1 (SCv2 ++ le_enc 1 TYPE_M1 ++ zeros 37) None None.

(** [Header.ServerSigKeyIncluded], line 16. *)
Definition m1_flag (p : m1pkt) : bool := fget_bit 5 0 (m1_data p).
Definition m1_set_flag (v : bool) (p : m1pkt) : m1pkt :=
  M1 (fput_bit 5 0 v (m1_data p)) (m1_opt p) (m1_shadow p).

(** [_opt_factory(body=self.data)], lines 29-36. *)
Definition m1_opt_factory (data : bytes) : option bytes :=
  Some (zeros (if fget_bit 5 0 data then 32 else 0)).

(** [create_opt_fields()], saltchannel/util/packets.py:57-58: a new [opt] object
    (losing any shadow attribute). *)
Definition m1_create_opt_fields (p : m1pkt) : m1pkt :=
  M1 (m1_data p) (m1_opt_factory (m1_data p)) None.

(** [data.Time], line 21 *)
Definition m1_time (p : m1pkt) : Z := fget_int 6 4 (m1_data p).
Definition m1_set_time (t : Z) (p : m1pkt) : m1pkt :=
  M1 (fput_int 6 4 t (m1_data p)) (m1_opt p) (m1_shadow p).

(** [ClientEncKey] through [Packet.__getattr__]/[__setattr__] *)
Definition m1_client_enc_key (p : m1pkt) : bytes := fget 10 32 (m1_data p).
Definition m1_set_client_enc_key (k : bytes) (p : m1pkt) : res m1pkt :=
  match fset_array 10 32 k (m1_data p) with
  | Ok d => Ok (M1 d (m1_opt p) (m1_shadow p))
  | Err e => Err e
  end.

(** [ServerSigKey] getter, lines 63-65. *)
Definition m1_server_sig_key (p : m1pkt) : res bytes :=
  match m1_opt p, m1_shadow p with
  | Some b, _ => Ok b
  | None, Some s => Ok s
  | None, None => Err AttributeError
  end.

(** [ServerSigKey] setter, lines 67-71: AttributeError unless the flag is set;
    on the real optional structure a wrong length is a TypeError; on
    [_EmptyBodyOpt] the value becomes a plain attribute. *)
Definition m1_set_server_sig_key (k : bytes) (p : m1pkt) : res m1pkt :=
  if m1_flag p then
    match m1_opt p with
    | Some b => if Nat.eqb (length k) (length b)
                then Ok (M1 (m1_data p) (Some k) (m1_shadow p)) else Err TypeError
    | None => Ok (M1 (m1_data p) None (Some k))
    end
  else Err AttributeError.

(** [M1Packet.__bytes__], lines 45-46 *)
Definition m1_bytes (p : m1pkt) : bytes := m1_data p ++ opt_bytes (m1_opt p).

(** [M1Packet.validate], lines 52-56 *)
Definition m1_validate (p : m1pkt) : res unit :=
  match validate_type 4 TYPE_M1 (m1_data p) with
  | Ok _ => if bytes_eqb (fget 0 4 (m1_data p)) SCv2 then Ok tt else Err BadPeer
  | Err e => Err e
  end.

(** [M1Packet.from_bytes], lines 48-50, with [Packet.from_bytes],
    saltchannel/util/packets.py:71-76. *)
Definition m1_from_bytes (p : m1pkt) (src : bytes) : m1pkt * res unit :=
  let d := struct_from_bytes (m1_data p) src in
  let o := match m1_opt_factory d with
           | Some b => Some (struct_from_bytes b (skipn (length d) src))
           | None => None
           end in
  let p' := M1 d o None in
  (p', m1_validate p').

(** [M1Packet(src_buf)], lines 38-43: an empty source is not parsed. *)
Definition m1_ctor (src : bytes) : res m1pkt :=
  if is_empty src then Ok m1_new else finish (m1_from_bytes m1_new src).

(** ** M2Packet, saltchannel/v2/packets.py:74-106.
    Layout (79-90): PacketType 0, flags 1 (NoSuchServer bit 0, LastFlag bit 7),
    Time 2..5, ServerEncKey 6..37.  The optional part stays the field-less
    [_EmptyBodyOpt] (Packet._opt_factory), so only [data] matters. *)
Definition m2_new : bytes := le_enc 1 TYPE_M2 ++ zeros 37.
Definition m2_time (d : bytes) : Z := fget_int 2 4 d.
Definition m2_set_time (t : Z) (d : bytes) : bytes := fput_int 2 4 t d.
Definition m2_no_such_server (d : bytes) : bool := fget_bit 1 0 d.
Definition m2_set_no_such_server (v : bool) (d : bytes) : bytes := fput_bit 1 0 v d.
Definition m2_last_flag (d : bytes) : bool := fget_bit 1 7 d.
Definition m2_set_last_flag (v : bool) (d : bytes) : bytes := fput_bit 1 7 v d.
Definition m2_server_enc_key (d : bytes) : bytes := fget 6 32 d.
Definition m2_set_server_enc_key (k d : bytes) : res bytes := fset_array 6 32 k d.

(** [M2Packet.__bytes__], lines 99-102: the bytes returned, which are also the
    [data] of the object afterwards (LastFlag is assigned, line 101). *)
Definition m2_bytes (d : bytes) : bytes :=
  if m2_no_such_server d then m2_set_last_flag true d else d.

(** [Packet.from_bytes] with [Packet.validate], saltchannel/util/packets.py:66-76
    (M2: v2/packets.py:92-106; M3: 126-131; M4: 151-156). *)
Definition fixed_from_bytes (ty : Z) (d src : bytes) : bytes * res unit :=
  let d' := struct_from_bytes d src in (d', validate_type 0 ty d').
Definition fixed_ctor (ty : Z) (new src : bytes) : res bytes :=
  if is_empty src then Ok new else finish (fixed_from_bytes ty new src).

(** [M2Packet(src_buf)], lines 92-97 *)
Definition m2_from_bytes (d src : bytes) : bytes * res unit := fixed_from_bytes TYPE_M2 d src.
Definition m2_ctor (src : bytes) : res bytes := fixed_ctor TYPE_M2 m2_new src.

(** ** M3Packet / M4Packet, saltchannel/v2/packets.py:109-156.
    Layout: PacketType 0, reserved 1, Time 2..5, SigKey 6..37, Signature 38..101. *)
Definition SIG1_PREFIX : bytes := [x53; x43; x2d; x53; x49; x47; x30; x31]. (* line 113: b'SC-SIG01' *)
Definition SIG2_PREFIX : bytes := [x53; x43; x2d; x53; x49; x47; x30; x32]. (* line 138: b'SC-SIG02' *)

Definition m3_new : bytes := le_enc 1 TYPE_M3 ++ zeros 101.
Definition m4_new : bytes := le_enc 1 TYPE_M4 ++ zeros 101.
Definition m34_time (d : bytes) : Z := fget_int 2 4 d.
Definition m34_set_time (t : Z) (d : bytes) : bytes := fput_int 2 4 t d.
Definition m34_sig_key (d : bytes) : bytes := fget 6 32 d.
Definition m34_set_sig_key (k d : bytes) : res bytes := fset_array 6 32 k d.
Definition m34_signature (d : bytes) : bytes := fget 38 64 d.
Definition m34_set_signature (s d : bytes) : res bytes := fset_array 38 64 s d.

Definition m3_ctor (src : bytes) : res bytes := fixed_ctor TYPE_M3 m3_new src.
Definition m4_ctor (src : bytes) : res bytes := fixed_ctor TYPE_M4 m4_new src.

(** ** EncryptedPacket, saltchannel/v2/packets.py:159-212.
    Layout: PacketType 0, flags 1 (LastFlag bit 7), Body from 2. *)
Definition ep_new : pkt := Pkt (le_enc 1 TYPE_ENCRYPTED_PACKET ++ zeros 1) None.
Definition ep_last_flag (p : pkt) : bool := fget_bit 1 7 (p_data p).
Definition ep_set_last_flag (v : bool) (p : pkt) : pkt := Pkt (fput_bit 1 7 v (p_data p)) (p_opt p).

(** Body getter/setter, lines 205-212 *)
Definition ep_body (p : pkt) : res bytes := opt_field (p_opt p).
Definition ep_set_body (v : bytes) (p : pkt) : pkt := Pkt (p_data p) (Some v).

(** [validate], lines 200-203 *)
Definition ep_validate (p : pkt) : res unit :=
  match validate_type 0 TYPE_ENCRYPTED_PACKET (p_data p) with
  | Ok _ => match ep_body p with
            | Ok b => if zlen b <? 16 then Err BadPeer else Ok tt
            | Err e => Err e
            end
  | Err e => Err e
  end.

(** [from_bytes], lines 193-198, with [_opt_factory], lines 174-184: a negative
    body length is BadPeer (raised after [data] was overwritten). *)
Definition ep_from_bytes (p : pkt) (src : bytes) : pkt * res unit :=
  let d := struct_from_bytes (p_data p) src in
  if zlen src - 2 <? 0 then (Pkt d (p_opt p), Err BadPeer)
  else
    let o := struct_from_bytes (zeros (length src - 2)) (skipn (length d) src) in
    let p' := Pkt d (Some o) in
    (p', ep_validate p').

(** [EncryptedPacket(src_buf)], lines 186-191 *)
Definition ep_ctor (src : bytes) : res pkt :=
  if is_empty src then Ok ep_new else finish (ep_from_bytes ep_new src).

(** ** AppPacket, saltchannel/v2/packets.py:215-260.
    Layout: PacketType 0, reserved 1, Time 2..5, Data from 6. *)
Definition app_new : pkt := Pkt (le_enc 1 TYPE_APP_PACKET ++ zeros 5) None.
Definition app_type (p : pkt) : Z := fget_int 0 1 (p_data p).
Definition app_time (p : pkt) : Z := fget_int 2 4 (p_data p).
Definition app_set_time (t : Z) (p : pkt) : pkt := Pkt (fput_int 2 4 t (p_data p)) (p_opt p).

(** Data getter/setter, lines 253-260 *)
Definition app_data (p : pkt) : res bytes := opt_field (p_opt p).
Definition app_set_data (v : bytes) (p : pkt) : pkt := Pkt (p_data p) (Some v).

(** [validate]: inherited, saltchannel/util/packets.py:66-69 *)
Definition app_validate (p : pkt) : res unit := validate_type 0 TYPE_APP_PACKET (p_data p).

(** [from_bytes], lines 246-251, with [_opt_factory], lines 227-237 *)
Definition app_from_bytes (p : pkt) (src : bytes) (validate : bool) : pkt * res unit :=
  let d := struct_from_bytes (p_data p) src in
  if zlen src - 6 <? 0 then (Pkt d (p_opt p), Err BadPeer)
  else
    let o := struct_from_bytes (zeros (length src - 6)) (skipn (length d) src) in
    let p' := Pkt d (Some o) in
    (p', if validate then app_validate p' else Ok tt).

(** [AppPacket(src_buf, validate)], lines 239-244 *)
Definition app_ctor (src : bytes) (validate : bool) : res pkt :=
  if is_empty src then Ok app_new else finish (app_from_bytes app_new src validate).

(** ** MultiAppPacket, saltchannel/v2/packets.py:263-341.
    Layout: PacketType 0, reserved 1, Time 2..5, Count 6..7, then messages.
    [mp_msgs = None] is [_EmptyBodyOpt]. *)
Record mpkt : Type := MPkt { mp_data : bytes; mp_msgs : option (list bytes) }.

Definition MAX_SIZE : Z := 65535. (* line 265 *)

Definition multi_new : mpkt := MPkt (le_enc 1 TYPE_MULTIAPP_PACKET ++ zeros 7) None.
Definition multi_time (p : mpkt) : Z := fget_int 2 4 (mp_data p).
Definition multi_set_time (t : Z) (p : mpkt) : mpkt := MPkt (fput_int 2 4 t (mp_data p)) (mp_msgs p).
Definition multi_count (p : mpkt) : Z := fget_int 6 2 (mp_data p).
Definition multi_set_count (c : Z) (p : mpkt) : mpkt := MPkt (fput_int 6 2 c (mp_data p)) (mp_msgs p).

(** [create_opt_fields(msgs=msgs)], util/packets.py:57-58 and v2/packets.py:278-288, 315 *)
Definition multi_create_opt_fields (msgs : list bytes) (p : mpkt) : mpkt :=
  MPkt (mp_data p) (Some msgs).

(** [_MultiAppPacketBodyOpt.__bytes__], lines 303-307: [c_uint16(len(msg))]
    wraps modulo 65536. *)
Fixpoint multi_opt_bytes (msgs : list bytes) : bytes :=
  match msgs with
  | [] => []
  | m :: r => le_enc 2 (zlen m) ++ m ++ multi_opt_bytes r
  end.

(** [Packet.__bytes__] *)
Definition multi_bytes (p : mpkt) : bytes :=
  mp_data p ++ match mp_msgs p with Some ms => multi_opt_bytes ms | None => [] end.

(** The loop of [_MultiAppPacketBodyOpt.from_bytes], lines 295-301.
    [c_uint16.from_buffer_copy] raises ValueError when fewer than two bytes
    remain; the slice silently truncates. *)
Fixpoint multi_loop (count : nat) (offset : nat) (src : bytes) : res (list bytes) :=
  match count with
  | O => Ok []
  | S c =>
      let hdr := slice offset 2 src in
      if Nat.ltb (length hdr) 2 then Err ValueError
      else
        let n := Z.to_nat (le_dec hdr) in
        match multi_loop c (offset + 2 + n) src with
        | Ok ms => Ok (slice (offset + 2) n src :: ms)
        | Err e => Err e
        end
  end.

(** [validate], lines 332-337 *)
Definition multi_validate (p : mpkt) : res unit :=
  match validate_type 0 TYPE_MULTIAPP_PACKET (mp_data p) with
  | Ok _ =>
      if multi_count p <? 1 then Err BadPeer
      else match mp_msgs p with
           | Some ms => if zlen ms =? multi_count p then Ok tt else Err BadPeer
           | None => Err AttributeError
           end
  | Err e => Err e
  end.

(** [from_bytes], lines 325-330 and 290-301.  An empty source gives an
    [_EmptyBodyOpt] (lines 279-280), whose [from_bytes] takes no [count]: TypeError.
    Simplified: when the loop raises, the partially filled message list of the
    (unreachable) object is dropped. *)
Definition multi_from_bytes (p : mpkt) (src : bytes) (validate : bool) : mpkt * res unit :=
  let d := struct_from_bytes (mp_data p) src in
  if is_empty src then (MPkt d None, Err TypeError) else
  match multi_loop (Z.to_nat (fget_int 6 2 d)) 0 (skipn (length d) src) with
  | Ok ms => let p' := MPkt d (Some ms) in
             (p', if validate then multi_validate p' else Ok tt)
  | Err e => (MPkt d (Some []), Err e)
  end.

(** [MultiAppPacket(src_buf, validate)], lines 318-323 *)
Definition multi_ctor (src : bytes) (validate : bool) : res mpkt :=
  if is_empty src then Ok multi_new else finish (multi_from_bytes multi_new src validate).

(** [should_use], lines 339-341 *)
Definition should_use (msgs : list bytes) : bool :=
  if (zlen msgs <? 2) || existsb (fun m => MAX_SIZE <? zlen m) msgs then false else true.

(** ** A1Packet, saltchannel/a1a2/packets.py:7-73.
    Layout: PacketType 0, reserved 1, AddressType 2, AddressSize 3..4, Address from 5. *)
Definition ADDRESS_TYPE_ANY : Z := 0.
Definition ADDRESS_TYPE_PUBKEY : Z := 1.
Definition MAX_ADDRESS_LENGTH : Z := 65535.

(** [A1Packet()], lines 32-37 *)
Definition a1_new : pkt := Pkt (le_enc 1 TYPE_A1 ++ zeros 4) None.
Definition a1_address_type (p : pkt) : Z := fget_int 2 1 (p_data p).
Definition a1_set_address_type (z : Z) (p : pkt) : pkt := Pkt (fput_int 2 1 z (p_data p)) (p_opt p).
Definition a1_address_size (p : pkt) : Z := fget_int 3 2 (p_data p).
Definition a1_set_address_size (z : Z) (p : pkt) : pkt := Pkt (fput_int 3 2 z (p_data p)) (p_opt p).

(** Address getter/setter, lines 66-73 *)
Definition a1_address (p : pkt) : res bytes := opt_field (p_opt p).
Definition a1_set_address (v : bytes) (p : pkt) : pkt := Pkt (p_data p) (Some v).

(** [validate], lines 48-64 *)
Definition a1_validate (p : pkt) : res unit :=
  match validate_type 0 TYPE_A1 (p_data p) with
  | Err e => Err e
  | Ok _ =>
      match a1_address p with
      | Err e => Err e
      | Ok addr =>
          if negb (a1_address_size p =? zlen addr) then Err BadPeer
          else if MAX_ADDRESS_LENGTH <? a1_address_size p then Err BadPeer
          else if a1_address_type p =? ADDRESS_TYPE_ANY then
            if negb (a1_address_size p =? 0) then Err BadPeer else Ok tt
          else if a1_address_type p =? ADDRESS_TYPE_PUBKEY then
            if negb (a1_address_size p =? 32) then Err BadPeer else Ok tt
          else Err BadPeer
      end
  end.

(** [from_bytes], lines 41-46, with [_opt_factory], lines 23-30:
    [c_uint8 * negative] raises ValueError. *)
Definition a1_from_bytes (p : pkt) (src : bytes) : pkt * res unit :=
  let d := struct_from_bytes (p_data p) src in
  if zlen src - 5 <? 0 then (Pkt d (p_opt p), Err ValueError)
  else
    let o := struct_from_bytes (zeros (length src - 5)) (skipn (length d) src) in
    let p' := Pkt d (Some o) in
    (p', a1_validate p').

(** [A1Packet(src_buf)], lines 32-39 *)
Definition a1_ctor (src : bytes) : res pkt :=
  if is_empty src then Ok a1_new else finish (a1_from_bytes a1_new src).

(** ** A2Packet, saltchannel/a1a2/packets.py:76-173.
    Layout: PacketType 0, flags 1 (NoSuchServer bit 0, LastFlag bit 7), Count 2
    (signed), then entries of P1 (10 bytes) and P2 (10 bytes). *)
Definition P_SIZE : nat := 10.
Definition SC2_PROT_STRING : bytes := [x53; x43; x76; x32; x2d; x2d; x2d; x2d; x2d; x2d]. (* line 84 *)
Definition UNSPECIFIED_PROT_STRING : bytes := repeat x2d 10. (* line 85 *)

Definition a2_no_such_server_flag (p : pkt) : bool := fget_bit 1 0 (p_data p).
Definition a2_set_no_such_server (v : bool) (p : pkt) : pkt := Pkt (fput_bit 1 0 v (p_data p)) (p_opt p).
Definition a2_last_flag (p : pkt) : bool := fget_bit 1 7 (p_data p).
Definition a2_set_last_flag (v : bool) (p : pkt) : pkt := Pkt (fput_bit 1 7 v (p_data p)) (p_opt p).
Definition a2_count (p : pkt) : Z := le_dec_signed 1 (fget 2 1 (p_data p)).
Definition a2_set_count (c : Z) (p : pkt) : pkt := Pkt (fput_int 2 1 c (p_data p)) (p_opt p).

(** [A2Packet()], lines 120-125 *)
Definition a2_new : pkt :=
  a2_set_last_flag true (Pkt (le_enc 1 TYPE_A2 ++ zeros 2) None).

(** [A2Packet(case=A2_NO_SUCH_SERVER)], lines 126-128 *)
Definition a2_no_such_server : pkt := a2_set_no_such_server true a2_new.

(** [A2Packet(case=A2_DEFAUT)], lines 129-134 *)
Definition a2_default : pkt :=
  let p := a2_set_count 1 a2_new in
  Pkt (p_data p) (Some (SC2_PROT_STRING ++ UNSPECIFIED_PROT_STRING)).

(** The elements of the [Prot] array: consecutive 20-byte structures
    (lines 103-105, 116). *)
Fixpoint prots (n : nat) (b : bytes) : list (bytes * bytes) :=
  match n with
  | O => []
  | S n' => (slice 0 10 b, slice 10 10 b) :: prots n' (skipn 20 b)
  end.
Definition a2_nprots (o : bytes) : nat := Nat.div (length o) 20.

(** [self.opt.Prot] (lines 166-168) *)
Definition a2_prots (p : pkt) : res (list (bytes * bytes)) :=
  match p_opt p with
  | Some o => Ok (prots (a2_nprots o) o)
  | None => Err AttributeError
  end.

(** Setting [Prot] (lines 170-173); Count is set separately by the caller. *)
Definition a2_set_prots (l : list (bytes * bytes)) (p : pkt) : pkt :=
  Pkt (p_data p) (Some (concat (map (fun q => fst q ++ snd q) l))).

(** Strict UTF-8 decoding, [bytes.decode()] at lines 111-112 (RFC 3629 as
    implemented by CPython: no overlong forms, no surrogates, at most U+10FFFF).
    Written with one look-ahead step per code point. *)
Definition cont (b : Z) : bool := (128 <=? b) && (b <? 192).

Fixpoint utf8_decode (fuel : nat) (b : bytes) : option (list Z) :=
  match fuel with
  | O => match b with [] => Some [] | _ => None end
  | S fuel' =>
    match b with
    | [] => Some []
    | b0 :: r0 =>
        let z0 := b2z b0 in
        let more (cp : Z) (r : bytes) :=
          match utf8_decode fuel' r with Some l => Some (cp :: l) | None => None end in
        if z0 <? 128 then more z0 r0
        else if z0 <? 194 then None
        else if z0 <? 224 then
          match r0 with
          | b1 :: r1 => if cont (b2z b1) then more ((z0 - 192) * 64 + (b2z b1 - 128)) r1 else None
          | _ => None
          end
        else if z0 <? 240 then
          match r0 with
          | b1 :: b2 :: r2 =>
              let cp := (z0 - 224) * 4096 + (b2z b1 - 128) * 64 + (b2z b2 - 128) in
              if cont (b2z b1) && cont (b2z b2) && (2048 <=? cp)
                 && negb ((55296 <=? cp) && (cp <=? 57343))
              then more cp r2 else None
          | _ => None
          end
        else if z0 <? 245 then
          match r0 with
          | b1 :: b2 :: b3 :: r3 =>
              let cp := (z0 - 240) * 262144 + (b2z b1 - 128) * 4096
                        + (b2z b2 - 128) * 64 + (b2z b3 - 128) in
              if cont (b2z b1) && cont (b2z b2) && cont (b2z b3)
                 && (65536 <=? cp) && (cp <=? 1114111)
              then more cp r3 else None
          | _ => None
          end
        else None
    end
  end.

Section Regex.
  (** Python's Unicode [\w] outside ASCII is a table of the Python runtime; it is
      a parameter of the model ([str.isalnum]). *)
  Variable unicode_word : Z -> bool.

  (** the character class [-./\w], line 106 *)
  Definition word_char (c : Z) : bool :=
    if c <? 128 then
      ((48 <=? c) && (c <=? 57)) || ((65 <=? c) && (c <=? 90)) || (c =? 95)
      || ((97 <=? c) && (c <=? 122))
    else unicode_word c.
  Definition proto_char (c : Z) : bool :=
    (c =? 45) || (c =? 46) || (c =? 47) || word_char c.

  (** [re.match(r'^[-./\w]+$', s)], line 106: a non-empty run of class characters
      followed by the end of the string or by a final newline. *)
  Fixpoint class_rest (s : list Z) : list Z :=
    match s with
    | c :: r => if proto_char c then class_rest r else s
    | [] => []
    end.
  Definition proto_match (s : list Z) : bool :=
    match s with
    | c :: r => proto_char c &&
                match class_rest r with [] => true | [c'] => c' =? 10 | _ => false end
    | [] => false
    end.

  (** decode then match; UnicodeDecodeError escapes *)
  Definition p_check (p : bytes) : res bool :=
    match utf8_decode (length p) p with
    | Some s => Ok (proto_match s)
    | None => Err UnicodeDecodeError
    end.

  (** [_A2Prot.validate], lines 108-112 ([and] short-circuits; the length test
      cannot fail on the ctypes arrays). *)
  Definition prot_validate (q : bytes * bytes) : res bool :=
    match p_check (fst q) with
    | Err e => Err e
    | Ok false => Ok false
    | Ok true => p_check (snd q)
    end.

  (** lines 162-164 *)
  Fixpoint prots_validate (l : list (bytes * bytes)) : res unit :=
    match l with
    | [] => Ok tt
    | q :: r => match prot_validate q with
                | Err e => Err e
                | Ok false => Err BadPeer
                | Ok true => prots_validate r
                end
    end.

  (** [A2Packet.validate], lines 145-164.  Simplified: [self.opt.Prot] is looked up
      once, first; it can only fail on a packet that was never parsed. *)
  Definition a2_validate (p : pkt) : res unit :=
    match validate_type 0 TYPE_A2 (p_data p) with
    | Err e => Err e
    | Ok _ =>
        match a2_prots p with
        | Err e => Err e
        | Ok l =>
            if a2_no_such_server_flag p && (negb (a2_count p =? 0) || negb (is_empty l))
            then Err BadPeer
            else if negb (a2_last_flag p) then Err BadPeer
            else if negb ((0 <=? a2_count p) && (a2_count p <=? 127)) then Err BadPeer
            else if negb (zlen l =? a2_count p) then Err BadPeer
            else prots_validate l
        end
    end.

  (** [from_bytes], lines 138-143: [(len(src)-3)//20] is negative for fewer than
      three bytes and [_A2Prot * negative] raises ValueError. *)
  Definition a2_from_bytes (p : pkt) (src : bytes) : pkt * res unit :=
    let d := struct_from_bytes (p_data p) src in
    let n := (zlen src - 3) / 20 in
    if n <? 0 then (Pkt d (p_opt p), Err ValueError)
    else
      let o := struct_from_bytes (zeros (20 * Z.to_nat n)) (skipn (length d) src) in
      let p' := Pkt d (Some o) in
      (p', a2_validate p').

  (** [A2Packet(src_buf)], lines 120-125, 135-136 *)
  Definition a2_ctor (src : bytes) : res pkt :=
    if is_empty src then Ok a2_new else finish (a2_from_bytes a2_new src).
End Regex.

(** ** Building packets *)

(** The call sequence that builds an M1: [M1Packet()], flag, [create_opt_fields()],
    [data.Time = ...], [ClientEncKey = ...], [ServerSigKey = ...]
    (tests/v2/test_packets.py:76-83; saltchannel/v2/salt_client_session.py:57-62
    without the server key). *)
Definition m1_build (t : Z) (ck : bytes) (sk : option bytes) : res m1pkt :=
  let p0 := m1_create_opt_fields
              (m1_set_flag (match sk with Some _ => true | None => false end) m1_new) in
  rbind (m1_set_client_enc_key ck (m1_set_time t p0)) (fun p =>
  match sk with Some k => m1_set_server_sig_key k p | None => Ok p end).

(** The call sequence that builds an M2
    (tests/v2/test_packets.py:143-148, saltchannel/v2/salt_server_session.py:92-108). *)
Definition m2_build (nss last : bool) (t : Z) (k : bytes) : res bytes :=
  m2_set_server_enc_key k
    (m2_set_time t (m2_set_last_flag last (m2_set_no_such_server nss m2_new))).

(** The call sequence that builds an M3 or M4 from a fresh packet
    (saltchannel/v2/salt_server_session.py:121-131, salt_client_session.py:91-99). *)
Definition m34_build (new : bytes) (t : Z) (k s : bytes) : res bytes :=
  rbind (m34_set_sig_key k (m34_set_time t new)) (m34_set_signature s).

(** The call sequences that build the other packets: EncryptedPacket
    (saltchannel/v2/encrypted_channel_v2.py:68-73), AppPacket and MultiAppPacket
    (saltchannel/v2/app_channel_v2.py:40-58). *)
Definition ep_build (last : bool) (body : bytes) : pkt :=
  ep_set_body body (ep_set_last_flag last ep_new).
Definition app_build (t : Z) (data : bytes) : pkt := app_set_data data (app_set_time t app_new).
Definition multi_build (t : Z) (msgs : list bytes) : mpkt :=
  multi_create_opt_fields msgs (multi_set_count (zlen msgs) (multi_set_time t multi_new)).

(** The call sequences for A1 and A2 (tests/a1a2/test_packets.py:28-36, 92-101,
    140-150, 164-176). *)
Definition a1_build (ty : Z) (addr : bytes) : pkt :=
  a1_set_address addr (a1_set_address_size (zlen addr) (a1_set_address_type ty a1_new)).
Definition a2_build (l : list (bytes * bytes)) : pkt :=
  a2_set_prots l (a2_set_count (zlen l) a2_new).
