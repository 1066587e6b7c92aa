(** Independent specifications: the Salt Channel v2 wire formats and the sets of
    acceptable frames, written directly on byte strings.  Nothing here refers to
    the model of the Python code. *)
From Coq Require Import List ZArith Bool Strings.Byte.
Import ListNotations.
Open Scope Z_scope.

(** The byte with value [z] modulo 256, and back. *)
Definition byte_of (z : Z) : byte :=
  match Byte.of_N (Z.to_N (z mod 256)) with Some b => b | None => x00 end.
Definition val (b : byte) : Z := Z.of_N (Byte.to_N b).

(** Little-endian 16, 32 and 64 bit integers. *)
Definition u16le (z : Z) : list byte := [byte_of z; byte_of (z / 256)].
Definition u32le (z : Z) : list byte :=
  [byte_of z; byte_of (z / 2 ^ 8); byte_of (z / 2 ^ 16); byte_of (z / 2 ^ 24)].
Definition u64le (z : Z) : list byte :=
  [byte_of z; byte_of (z / 2 ^ 8); byte_of (z / 2 ^ 16); byte_of (z / 2 ^ 24);
   byte_of (z / 2 ^ 32); byte_of (z / 2 ^ 40); byte_of (z / 2 ^ 48); byte_of (z / 2 ^ 56)].

Definition prefix_of {A} (p l : list A) : Prop := exists r, l = p ++ r.

(** "SCv2" *)
Definition indicator : list byte := [x53; x43; x76; x32].

(** M1: "SCv2", type 1, flags, time, client encryption key, optional server
    signing key. *)
Definition M1_wire (time : Z) (client_key : list byte) (server_key : option (list byte)) : list byte :=
  indicator ++ [x01; match server_key with Some _ => x01 | None => x00 end]
  ++ u32le time ++ client_key ++ match server_key with Some k => k | None => [] end.

(** M2: type 2, flags (bit 0 no-such-server, bit 7 last), time, server encryption key. *)
Definition M2_flags (no_such_server last : bool) : byte :=
  match no_such_server, last with
  | false, false => x00 | true, false => x01 | false, true => x80 | true, true => x81
  end.
Definition M2_wire (no_such_server last : bool) (time : Z) (server_key : list byte) : list byte :=
  [x02; M2_flags no_such_server last] ++ u32le time ++ server_key.

(** M3 and M4: type, zero, time, signing key, signature. *)
Definition M3_wire (time : Z) (key signature : list byte) : list byte :=
  [x03; x00] ++ u32le time ++ key ++ signature.
Definition M4_wire (time : Z) (key signature : list byte) : list byte :=
  [x04; x00] ++ u32le time ++ key ++ signature.

(** EncryptedPacket: type 6, last flag in bit 7, body. *)
Definition Enc_wire (last : bool) (body : list byte) : list byte :=
  [x06; if last then x80 else x00] ++ body.

(** AppPacket: type 5, zero, time, data. *)
Definition App_wire (time : Z) (data : list byte) : list byte :=
  [x05; x00] ++ u32le time ++ data.

(** MultiAppPacket: type 11, zero, time, count, then length-prefixed messages. *)
Definition Multi_payload (msgs : list (list byte)) : list byte :=
  concat (map (fun m => u16le (Z.of_nat (length m)) ++ m) msgs).
Definition Multi_wire (time : Z) (msgs : list (list byte)) : list byte :=
  [x0b; x00] ++ u32le time ++ u16le (Z.of_nat (length msgs)) ++ Multi_payload msgs.

(** A1: type 8, zero, address type, address size, address. *)
Definition A1_any : list byte := [x08; x00; x00; x00; x00].
Definition A1_pubkey (key : list byte) : list byte := [x08; x00; x01; x20; x00] ++ key.

(** A2: type 9, flags (bit 0 no-such-server, bit 7 last = 1), count, then pairs of
    10-byte protocol strings. *)
Definition A2_wire (prots : list (list byte * list byte)) : list byte :=
  [x09; x80; byte_of (Z.of_nat (length prots))]
  ++ concat (map (fun q => fst q ++ snd q) prots).
Definition A2_no_such_server_wire : list byte := [x09; x81; x00].

(** "SCv2------" and "----------" *)
Definition A2_default_prots : list (list byte * list byte) :=
  [([x53; x43; x76; x32; x2d; x2d; x2d; x2d; x2d; x2d], repeat x2d 10)].

(** "SC-SIG01" and "SC-SIG02" *)
Definition sig1_prefix : list byte := [x53; x43; x2d; x53; x49; x47; x30; x31].
Definition sig2_prefix : list byte := [x53; x43; x2d; x53; x49; x47; x30; x32].

(** The 24-byte nonce with counter [n] and an all-zero session nonce. *)
Definition nonce_wire (n : Z) : list byte := u64le n ++ repeat x00 16.

(** Bit [i] of a byte. *)
Definition bit (b : byte) (i : Z) : bool := Z.testbit (val b) i.

(** The value of a little-endian byte string. *)
Fixpoint le_val (b : list byte) : Z :=
  match b with [] => 0 | x :: r => val x + 256 * le_val r end.

(** Transport frame: 4-byte little-endian length, then the message. *)
Definition frame (m : list byte) : list byte := u32le (Z.of_nat (length m)) ++ m.
Definition frames (ms : list (list byte)) : list byte := concat (map frame ms).

(** UTF-8 (RFC 3629): encoding of a Unicode scalar value. *)
Definition scalar (c : Z) : Prop := 0 <= c <= 1114111 /\ ~ (55296 <= c <= 57343).
Definition utf8 (c : Z) : list byte :=
  if c <? 128 then [byte_of c]
  else if c <? 2048 then [byte_of (192 + c / 64); byte_of (128 + c mod 64)]
  else if c <? 65536 then
    [byte_of (224 + c / 4096); byte_of (128 + c / 64 mod 64); byte_of (128 + c mod 64)]
  else
    [byte_of (240 + c / 262144); byte_of (128 + c / 4096 mod 64);
     byte_of (128 + c / 64 mod 64); byte_of (128 + c mod 64)].
Definition utf8_text (b : list byte) (text : list Z) : Prop :=
  Forall scalar text /\ b = concat (map utf8 text).

(** ASCII letters, digits, '_', '-', '.', '/'. *)
Definition documented_char (c : Z) : Prop :=
  48 <= c <= 57 \/ 65 <= c <= 90 \/ 97 <= c <= 122 \/ c = 95 \/ c = 45 \/ c = 46 \/ c = 47.

(** What Python's regular expression accepts as a protocol string: characters of
    the documented alphabet or, beyond ASCII, whatever the Unicode tables call a
    word character; at least one; an optional final newline. *)
Definition accepted_pstring (unicode_word : Z -> bool) (p : list byte) : Prop :=
  exists body tail, utf8_text p (body ++ tail) /\ body <> [] /\
    Forall (fun c => documented_char c \/ (128 <= c /\ unicode_word c = true)) body /\
    (tail = [] \/ tail = [10]).

(** The frames acceptable as A2, with the protocols they announce. *)
Definition A2_frame (unicode_word : Z -> bool) (src : list byte) (prots : list (list byte * list byte)) : Prop :=
  exists flags extra,
    src = [x09; flags; byte_of (Z.of_nat (length prots))]
          ++ concat (map (fun q => fst q ++ snd q) prots) ++ extra /\
    (length extra < 20)%nat /\ (length prots <= 127)%nat /\
    bit flags 7 = true /\ (bit flags 0 = true -> prots = []) /\
    Forall (fun q => length (fst q) = 10%nat /\ length (snd q) = 10%nat /\
                     accepted_pstring unicode_word (fst q) /\
                     accepted_pstring unicode_word (snd q)) prots.

(** The frames acceptable as MultiAppPacket, with the messages they carry: an
    8-byte header of type 11 whose last two bytes count the messages, then the
    length-prefixed messages; the last message may be shorter than announced, but
    then nothing follows it. *)
Definition Multi_frame (src : list byte) (msgs : list (list byte)) : Prop :=
  exists r t0 t1 t2 t3 c0 c1 init last announced rest,
    src = [x0b; r; t0; t1; t2; t3; c0; c1]
          ++ Multi_payload init ++ u16le announced ++ last ++ rest /\
    msgs = init ++ [last] /\
    le_val [c0; c1] = Z.of_nat (length msgs) /\
    Forall (fun m => Z.of_nat (length m) <= 65535) init /\
    0 <= announced <= 65535 /\
    Z.of_nat (length last) <= announced /\
    (Z.of_nat (length last) < announced -> rest = []).

(** A 4-byte little-endian two's complement integer. *)
Definition s32 (h : list byte) : Z :=
  if le_val h <? 2 ^ 31 then le_val h else le_val h - 2 ^ 32.

(** The 24-byte nonce with counter [n] and session nonce [sn] (8 bytes). *)
Definition nonce24 (n : Z) (sn : list byte) : list byte := u64le n ++ sn ++ repeat x00 8.

(** The [n] bytes at offset [off] of a byte string continued with zeros. *)
Definition field (off n : nat) (src : list byte) : list byte :=
  firstn n (skipn off (src ++ repeat x00 (off + n))).
