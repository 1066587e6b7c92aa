(** Reading and assigning attributes of packet objects by name:
    [Packet.__getattr__] and [Packet.__setattr__], saltchannel/util/packets.py:78-88,
    with [util.cbytes], saltchannel/util/__init__.py:7-10.  Definitions only. *)
From Coq Require Import Strings.String List ZArith Bool Strings.Byte.
From Verif Require Import PyBase Packets.
Import ListNotations.
Open Scope Z_scope.

(** Python values given to or obtained from an attribute. *)
Inductive pyval : Type := PInt (z : Z) | PBytes (b : bytes).

(** The types of the fields of the fixed structure ([self.data]) of a packet:
    byte arrays, integers, the nested header structure. *)
Inductive ftype : Type := TArray | TNumber | TStruct.
Record fdesc : Type := FD { fd_name : string; fd_type : ftype; fd_off : nat; fd_len : nat }.

(** [_fields_] of the packet bodies.  Flags and types are inside [Header] and are no
    fields of the body. *)
Local Open Scope string_scope.
(** saltchannel/v2/packets.py:19-22 *)
Definition M1_fields : list fdesc :=
  [FD "ProtocolIndicator" TArray 0 4; FD "Header" TStruct 4 2; FD "Time" TNumber 6 4; FD "ClientEncKey" TArray 10 32].
(** saltchannel/v2/packets.py:88-90 *)
Definition M2_fields : list fdesc :=
  [FD "Header" TStruct 0 2; FD "Time" TNumber 2 4; FD "ServerEncKey" TArray 6 32].
(** saltchannel/v2/packets.py:121-124 *)
Definition M3_fields : list fdesc :=
  [FD "Header" TStruct 0 2; FD "Time" TNumber 2 4; FD "ServerSigKey" TArray 6 32; FD "Signature1" TArray 38 64].
(** saltchannel/v2/packets.py:146-149 *)
Definition M4_fields : list fdesc :=
  [FD "Header" TStruct 0 2; FD "Time" TNumber 2 4; FD "ClientSigKey" TArray 6 32; FD "Signature2" TArray 38 64].
(** saltchannel/v2/packets.py:172 *)
Definition EP_fields : list fdesc := [FD "Header" TStruct 0 2].
(** saltchannel/v2/packets.py:224-225 *)
Definition AP_fields : list fdesc := [FD "Header" TStruct 0 2; FD "Time" TNumber 2 4].
(** saltchannel/v2/packets.py:274-276 *)
Definition MP_fields : list fdesc :=
  [FD "Header" TStruct 0 2; FD "Time" TNumber 2 4; FD "Count" TNumber 6 2].
(** saltchannel/a1a2/packets.py:19-21 *)
Definition A1_fields : list fdesc :=
  [FD "Header" TStruct 0 2; FD "AddressType" TNumber 2 1; FD "AddressSize" TNumber 3 2].
Local Close Scope string_scope.

(** A packet object as far as plain attributes are concerned: the memory of
    [self.data] and the attributes that were stored in the instance dictionary of
    [self.data] because they are no fields.  Names found by ordinary lookup
    ([data], [opt], properties, class attributes, methods) do not come here and are
    not modelled; see [ordinary]. *)
Record pobj : Type := PO { po_data : bytes; po_extra : list (string * bytes) }.

(** [cbytes(v)]: [bytes(v)] of a negative integer is a ValueError; of another
    integer it is that many zeros, but [from_buffer_copy] refuses the integer. *)
Definition cbytes (v : pyval) : res bytes :=
  match v with
  | PBytes b => Ok b
  | PInt z => if z <? 0 then Err ValueError else Err TypeError
  end.

(** Lookup in an association list; later assignments are in front. *)
Fixpoint assoc {A} (n : string) (l : list (string * A)) : option A :=
  match l with
  | [] => None
  | (m, a) :: r => if String.eqb n m then Some a else assoc n r
  end.
Fixpoint find_field (n : string) (t : list fdesc) : option fdesc :=
  match t with
  | [] => None
  | f :: r => if String.eqb n (fd_name f) then Some f else find_field n r
  end.

(** [bytes(getattr(self.data, name))], line 80: [bytes] of an array or structure is
    its memory; [bytes] of an integer is that many zeros. *)
Definition attr_get (t : list fdesc) (o : pobj) (n : string) : res bytes :=
  match find_field n t with
  | Some f =>
      match fd_type f with
      | TNumber => Ok (zeros (Z.to_nat (fget_int (fd_off f) (fd_len f) (po_data o))))
      | _ => Ok (fget (fd_off f) (fd_len f) (po_data o))
      end
  | None => match assoc n (po_extra o) with Some b => Ok b | None => Err AttributeError end
  end.

(** [setattr(self.data, name, util.cbytes(value))], line 88: ctypes refuses an array
    for an integer or structure field and an array of another length; a name that
    is no field goes to the instance dictionary. *)
Definition attr_set (t : list fdesc) (o : pobj) (n : string) (v : pyval) : res pobj :=
  match cbytes v with
  | Err e => Err e
  | Ok b =>
      match find_field n t with
      | Some f =>
          match fd_type f with
          | TArray => match fset_array (fd_off f) (fd_len f) b (po_data o) with
                      | Ok d => Ok (PO d (po_extra o))
                      | Err e => Err e
                      end
          | _ => Err TypeError
          end
      | None => Ok (PO (po_data o) ((n, b) :: po_extra o))
      end
  end.

(** A program that only assigns attributes and goes on after exceptions. *)
Definition attr_do (t : list fdesc) (o : pobj) (a : string * pyval) : pobj :=
  match attr_set t o (fst a) (snd a) with Ok o' => o' | Err _ => o end.
Definition attr_all (t : list fdesc) (o : pobj) (l : list (string * pyval)) : pobj :=
  fold_left (attr_do t) l o.

(** Attributes that ordinary lookup finds before [__getattr__] is asked, in some
    packet class: saltchannel/util/packets.py:48-93 and the class bodies of
    saltchannel/v2/packets.py and saltchannel/a1a2/packets.py. *)
Definition ordinary : list string :=
  ["data"; "opt"; "TYPE"; "size"; "validate"; "from_bytes"; "create_opt_fields"; "ServerSigKey"; "Body"; "Data";
   "Address"; "Prot"; "MAX_SIZE"; "should_use"; "SIG1_PREFIX"; "SIG2_PREFIX"; "ADDRESS_TYPE_ANY";
   "ADDRESS_TYPE_PUBKEY"; "MAX_ADDRESS_LENGTH"; "P_SIZE"; "SC2_PROT_STRING"; "UNSPECIFIED_PROT_STRING"; "Case"]%string.
