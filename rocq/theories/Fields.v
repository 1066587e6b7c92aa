(** Packet objects as collections of named fields: what can be read from and
    assigned to an object of each packet class.  Definitions only. *)
From Coq Require Import List ZArith Bool Strings.Byte.
From Verif Require Import PyBase Packets PacketOps.
Import ListNotations.
Open Scope Z_scope.

(** Values of fields: flags, integers, byte arrays, and for the variable parts
    either what is there or the exception raised by reading them. *)
Inductive fval : Type :=
| VFlag (b : bool) | VInt (z : Z) | VArr (b : bytes)
| VRes (r : res bytes) | VMsgs (o : option (list bytes)) | VProts (r : res (list (bytes * bytes))).

(** Specification of assignment, independent of any packet: the kinds of fields
    and what a field of each kind holds after it was given a value ([None]:
    the assignment is refused).  Fixed parts of a packet have no assignment. *)
Inductive kind : Type :=
| Flag | Unsigned (bits : Z) | Signed (bits : Z) | Array (n : nat) | Sized | Messages | Entries | Fixed.

Definition held (k : kind) (v : fval) : option fval :=
  match k, v with
  | Flag, VFlag b => Some (VFlag b)
  | Unsigned w, VInt z => Some (VInt (z mod 2 ^ w))
  | Signed w, VInt z => Some (VInt ((z + 2 ^ (w - 1)) mod 2 ^ w - 2 ^ (w - 1)))
  | Array n, VArr b => if Nat.eqb (length b) n then Some (VArr b) else None
  | Sized, VArr b => Some (VRes (Ok b))
  | Messages, VMsgs (Some l) => Some (VMsgs (Some l))
  | Entries, VProts (Ok l) =>
      if forallb (fun e => Nat.eqb (length (fst e)) 10 && Nat.eqb (length (snd e)) 10) l
      then Some (VProts (Ok l)) else None
  | _, _ => None
  end.

(** A packet class seen from outside: its objects, how fields are read and
    assigned. *)
Record class : Type := Class {
  obj : Type;
  field : Type;
  kind_of : field -> kind;
  get : field -> obj -> fval;
  put : field -> fval -> obj -> option obj
}.

(** An assignment statement whose exceptions are caught. *)
Definition assign (c : class) (o : obj c) (a : field c * fval) : obj c :=
  match put c (fst a) (snd a) o with Some o' => o' | None => o end.
Definition assigns (c : class) (o : obj c) (l : list (field c * fval)) : obj c :=
  fold_left (assign c) l o.

(** Specification: what field [f] holds after a list of assignments, when it held
    [v] before: the last accepted value given to it. *)
Fixpoint latest (c : class) (dec : forall a b : field c, {a = b} + {a <> b}) (f : field c)
    (l : list (field c * fval)) (v : fval) : fval :=
  match l with
  | [] => v
  | (g, w) :: r =>
      latest c dec f r
        (if dec g f then match held (kind_of c f) w with Some x => x | None => v end else v)
  end.

Definition ok_opt {A} (r : res A) : option A := match r with Ok x => Some x | Err _ => None end.

(** Bits of a byte of the packet that belong to no field of the API. *)
Definition raw_bit (off : nat) (i : nat) (d : bytes) : bool :=
  Z.testbit (b2z (nth off d x00)) (Z.of_nat i).

(** ** M1Packet, saltchannel/v2/packets.py:12-27.  [ServerSigKey] (63-71) is read
    here and assigned in property C50. *)
Inductive m1_field : Type :=
| M1Indicator | M1Type | M1Included | M1Reserved (i : nat) | M1Time | M1Key | M1ServerKey.
Definition m1_kind (f : m1_field) : kind :=
  match f with M1Included => Flag | M1Time => Unsigned 32 | M1Key => Array 32 | _ => Fixed end.
Definition m1_get (f : m1_field) (p : m1pkt) : fval :=
  match f with
  | M1Indicator => VArr (firstn 4 (m1_data p))
  | M1Type => VInt (fget_int 4 1 (m1_data p))
  | M1Included => VFlag (m1_flag p)
  | M1Reserved i => VFlag (raw_bit 5 (1 + Nat.min i 6) (m1_data p))
  | M1Time => VInt (m1_time p)
  | M1Key => VArr (m1_client_enc_key p)
  | M1ServerKey => VRes (m1_server_sig_key p)
  end.
Definition m1_put (f : m1_field) (v : fval) (p : m1pkt) : option m1pkt :=
  match f, v with
  | M1Included, VFlag b => Some (m1_set_flag b p)
  | M1Time, VInt z => Some (m1_set_time z p)
  | M1Key, VArr b => ok_opt (m1_set_client_enc_key b p)
  | _, _ => None
  end.
Definition M1Class : class := Class m1pkt m1_field m1_kind m1_get m1_put.

(** ** M2Packet, saltchannel/v2/packets.py:79-90 *)
Inductive m2_field : Type := M2Type | M2NoSuch | M2Last | M2Reserved (i : nat) | M2Time | M2Key.
Definition m2_kind (f : m2_field) : kind :=
  match f with
  | M2NoSuch | M2Last => Flag | M2Time => Unsigned 32 | M2Key => Array 32 | _ => Fixed end.
Definition m2_get (f : m2_field) (d : bytes) : fval :=
  match f with
  | M2Type => VInt (fget_int 0 1 d)
  | M2NoSuch => VFlag (m2_no_such_server d)
  | M2Last => VFlag (m2_last_flag d)
  | M2Reserved i => VFlag (raw_bit 1 (1 + Nat.min i 5) d)
  | M2Time => VInt (m2_time d)
  | M2Key => VArr (m2_server_enc_key d)
  end.
Definition m2_put (f : m2_field) (v : fval) (d : bytes) : option bytes :=
  match f, v with
  | M2NoSuch, VFlag b => Some (m2_set_no_such_server b d)
  | M2Last, VFlag b => Some (m2_set_last_flag b d)
  | M2Time, VInt z => Some (m2_set_time z d)
  | M2Key, VArr b => ok_opt (m2_set_server_enc_key b d)
  | _, _ => None
  end.
Definition M2Class : class := Class bytes m2_field m2_kind m2_get m2_put.

(** Calls on an M2Packet without the serialisations among them. *)
Definition unserialised (l : list m2_op) : list m2_op :=
  filter (fun o => match o with M2Bytes => false | _ => true end) l.

(** ** M3Packet and M4Packet, saltchannel/v2/packets.py:115-124, 140-149 *)
Inductive m34_field : Type := M34Type | M34Reserved | M34Time | M34Key | M34Sig.
Definition m34_kind (f : m34_field) : kind :=
  match f with M34Time => Unsigned 32 | M34Key => Array 32 | M34Sig => Array 64 | _ => Fixed end.
Definition m34_get (f : m34_field) (d : bytes) : fval :=
  match f with
  | M34Type => VInt (fget_int 0 1 d)
  | M34Reserved => VInt (fget_int 1 1 d)
  | M34Time => VInt (m34_time d)
  | M34Key => VArr (m34_sig_key d)
  | M34Sig => VArr (m34_signature d)
  end.
Definition m34_put (f : m34_field) (v : fval) (d : bytes) : option bytes :=
  match f, v with
  | M34Time, VInt z => Some (m34_set_time z d)
  | M34Key, VArr b => ok_opt (m34_set_sig_key b d)
  | M34Sig, VArr b => ok_opt (m34_set_signature b d)
  | _, _ => None
  end.
Definition M34Class : class := Class bytes m34_field m34_kind m34_get m34_put.

(** ** EncryptedPacket, saltchannel/v2/packets.py:164-172, 205-212 *)
Inductive ep_field : Type := EPType | EPLast | EPReserved (i : nat) | EPBody.
Definition ep_kind (f : ep_field) : kind :=
  match f with EPLast => Flag | EPBody => Sized | _ => Fixed end.
Definition ep_get (f : ep_field) (p : pkt) : fval :=
  match f with
  | EPType => VInt (fget_int 0 1 (p_data p))
  | EPLast => VFlag (ep_last_flag p)
  | EPReserved i => VFlag (raw_bit 1 (Nat.min i 6) (p_data p))
  | EPBody => VRes (ep_body p)
  end.
Definition ep_put (f : ep_field) (v : fval) (p : pkt) : option pkt :=
  match f, v with
  | EPLast, VFlag b => Some (ep_set_last_flag b p)
  | EPBody, VArr b => Some (ep_set_body b p)
  | _, _ => None
  end.
Definition EPClass : class := Class pkt ep_field ep_kind ep_get ep_put.

(** ** AppPacket, saltchannel/v2/packets.py:218-225, 253-260 *)
Inductive app_field : Type := APType | APReserved | APTime | APData.
Definition app_kind (f : app_field) : kind :=
  match f with APTime => Unsigned 32 | APData => Sized | _ => Fixed end.
Definition app_get (f : app_field) (p : pkt) : fval :=
  match f with
  | APType => VInt (app_type p)
  | APReserved => VInt (fget_int 1 1 (p_data p))
  | APTime => VInt (app_time p)
  | APData => VRes (app_data p)
  end.
Definition app_put (f : app_field) (v : fval) (p : pkt) : option pkt :=
  match f, v with
  | APTime, VInt z => Some (app_set_time z p)
  | APData, VArr b => Some (app_set_data b p)
  | _, _ => None
  end.
Definition APClass : class := Class pkt app_field app_kind app_get app_put.

(** ** MultiAppPacket, saltchannel/v2/packets.py:267-276, 278-315 *)
Inductive multi_field : Type := MPType | MPReserved | MPTime | MPCount | MPMsgs.
Definition multi_kind (f : multi_field) : kind :=
  match f with MPTime => Unsigned 32 | MPCount => Unsigned 16 | MPMsgs => Messages | _ => Fixed end.
Definition multi_get (f : multi_field) (p : mpkt) : fval :=
  match f with
  | MPType => VInt (fget_int 0 1 (mp_data p))
  | MPReserved => VInt (fget_int 1 1 (mp_data p))
  | MPTime => VInt (multi_time p)
  | MPCount => VInt (multi_count p)
  | MPMsgs => VMsgs (mp_msgs p)
  end.
Definition multi_put (f : multi_field) (v : fval) (p : mpkt) : option mpkt :=
  match f, v with
  | MPTime, VInt z => Some (multi_set_time z p)
  | MPCount, VInt z => Some (multi_set_count z p)
  | MPMsgs, VMsgs (Some l) => Some (multi_create_opt_fields l p)
  | _, _ => None
  end.
Definition MPClass : class := Class mpkt multi_field multi_kind multi_get multi_put.

(** ** A1Packet, saltchannel/a1a2/packets.py:13-21, 66-73 *)
Inductive a1_field : Type := A1Type | A1Reserved | A1AddrType | A1AddrSize | A1Addr.
Definition a1_kind (f : a1_field) : kind :=
  match f with A1AddrType => Unsigned 8 | A1AddrSize => Unsigned 16 | A1Addr => Sized | _ => Fixed end.
Definition a1_get (f : a1_field) (p : pkt) : fval :=
  match f with
  | A1Type => VInt (fget_int 0 1 (p_data p))
  | A1Reserved => VInt (fget_int 1 1 (p_data p))
  | A1AddrType => VInt (a1_address_type p)
  | A1AddrSize => VInt (a1_address_size p)
  | A1Addr => VRes (a1_address p)
  end.
Definition a1_put (f : a1_field) (v : fval) (p : pkt) : option pkt :=
  match f, v with
  | A1AddrType, VInt z => Some (a1_set_address_type z p)
  | A1AddrSize, VInt z => Some (a1_set_address_size z p)
  | A1Addr, VArr b => Some (a1_set_address b p)
  | _, _ => None
  end.
Definition A1Class : class := Class pkt a1_field a1_kind a1_get a1_put.

(** ** A2Packet, saltchannel/a1a2/packets.py:87-97, 166-173.  The entries of an
    assigned [Prot] array are [_A2Prot] structures (103-105), whose [P1] and [P2]
    are ten bytes each. *)
Inductive a2_field : Type := A2Type | A2NoSuch | A2Last | A2Reserved (i : nat) | A2Count | A2Prots.
Definition a2_kind (f : a2_field) : kind :=
  match f with
  | A2NoSuch | A2Last => Flag | A2Count => Signed 8 | A2Prots => Entries | _ => Fixed end.
Definition a2_get (f : a2_field) (p : pkt) : fval :=
  match f with
  | A2Type => VInt (fget_int 0 1 (p_data p))
  | A2NoSuch => VFlag (a2_no_such_server_flag p)
  | A2Last => VFlag (a2_last_flag p)
  | A2Reserved i => VFlag (raw_bit 1 (1 + Nat.min i 5) (p_data p))
  | A2Count => VInt (a2_count p)
  | A2Prots => VProts (a2_prots p)
  end.
Definition a2_put (f : a2_field) (v : fval) (p : pkt) : option pkt :=
  match f, v with
  | A2NoSuch, VFlag b => Some (a2_set_no_such_server b p)
  | A2Last, VFlag b => Some (a2_set_last_flag b p)
  | A2Count, VInt z => Some (a2_set_count z p)
  | A2Prots, VProts (Ok l) =>
      if forallb (fun e => Nat.eqb (length (fst e)) P_SIZE && Nat.eqb (length (snd e)) P_SIZE) l
      then Some (a2_set_prots l p) else None
  | _, _ => None
  end.
Definition A2Class : class := Class pkt a2_field a2_kind a2_get a2_put.
