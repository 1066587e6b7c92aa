(** What the statements about programs over byte streams say.  Definitions only. *)
From Coq Require Import List ZArith Bool Strings.Byte.
From Verif Require Import PyBase IO Packets Channel Stack Spec.
Import ListNotations.
Open Scope Z_scope.

(** ** What a trace says *)

(** The messages received before the first failed read. *)
Fixpoint received (t : list ev) : list bytes :=
  match t with
  | [] => []
  | ERead (Ok m) :: t => m :: received t
  | ERead (Err _) :: _ => []
  | EWrite _ _ _ :: t => received t
  end.
(** No read failed. *)
Fixpoint reads_ok (t : list ev) : bool :=
  match t with
  | [] => true
  | ERead (Ok _) :: t => reads_ok t
  | ERead (Err _) :: _ => false
  | EWrite _ _ _ :: t => reads_ok t
  end.

Definition small (m : bytes) : Prop := zlen m < 2 ^ 31.
Definition small_b (m : bytes) : bool := zlen m <? 2 ^ 31.

(** The bytes that the writes of a trace put on a socket. *)
Fixpoint sock_bytes (t : list ev) : bytes :=
  match t with
  | [] => []
  | ERead _ :: t => sock_bytes t
  | EWrite ms _ _ :: t => (if forallb small_b ms then frames ms else []) ++ sock_bytes t
  end.

(** The channel's answers. *)
Definition sock_answer (e : ev) : Prop :=
  match e with
  | ERead (Ok m) => zlen m < 2 ^ 31
  | ERead (Err e) => e = ComException
  | EWrite ms _ (Ok _) => forallb small_b ms = true
  | EWrite ms _ (Err e) => e = ComException
  end.

(** the messages before the first one that is too long *)
Fixpoint small_prefix (ms : list bytes) : list bytes :=
  match ms with
  | [] => []
  | m :: r => if small_b m then m :: small_prefix r else []
  end.
Fixpoint async_bytes (t : list ev) : bytes :=
  match t with
  | [] => []
  | ERead _ :: t => async_bytes t
  | EWrite ms _ _ :: t => frames (small_prefix ms) ++ async_bytes t
  end.
Definition async_answer (drains : list (res unit)) (e : ev) : Prop :=
  match e with
  | ERead (Ok m) => zlen m < 2 ^ 31
  | ERead (Err e) => e = IncompleteReadError \/ e = ValueError
  | EWrite ms _ r => if forallb small_b ms then r = Ok tt \/ In r drains else r = Err StructError
  end.

(** Every write of a program, whatever the answers, has only frames that fit the length
    prefix (of the messages read, only the size is known). *)
Inductive writes_fit {A} : io A -> Prop :=
| wf_ret : forall a, writes_fit (Ret a)
| wf_read : forall k, (forall r, (forall m, r = Ok m -> small m) -> writes_fit (k r)) -> writes_fit (Read k)
| wf_write : forall ms l k, Forall small ms -> (forall r, writes_fit (k r)) -> writes_fit (Write ms l k).

Record transport_ok (T : transport) : Prop := TransportOk {
  to_write : forall ms, Forall small ms -> t_write T ms = (frames ms, Ok tt);
  to_read : forall m rest, small m -> t_read T (frame m ++ rest) = (rest, Ok m);
  to_take : forall buf, t_ready buf = false -> t_take T true buf 1 = true
}.

(** The connection [c] carries the frames of [f]. *)
Record carries {A B} (c : conn A B) (f : sys A B) : Prop := Carries {
  ca_left : c_left c = s_left f;
  ca_right : c_right c = s_right f;
  ca_lr : c_rbuf c ++ c_lr c = frames (s_lr f);
  ca_rl : c_lbuf c ++ c_rl c = frames (s_rl f);
  ca_slr : Forall small (s_lr f);
  ca_srl : Forall small (s_rl f);
  ca_wl : writes_fit (s_left f);
  ca_wr : writes_fit (s_right f)
}.

(** One batch of messages that one write call can put on the wire: a single message,
    with 24 bytes of AppPacket header, MAC and EncryptedPacket header, or several, with
    2 bytes each and 26 in all. *)
Definition bulk (msgs : list bytes) : Prop :=
  match msgs with
  | [m] => Z.of_nat (length m) + 24 < 2 ^ 31
  | _ => Z.of_nat (length (concat msgs)) + 2 * Z.of_nat (length msgs) + 26 < 2 ^ 31
  end.

(** an injected A2 that fits *)
Definition a2_fits (a2 : option pkt) : Prop := match a2 with Some p => small (pkt_bytes p) | None => True end.

