(** What the statements about sessions say, in terms of frames, keys and the crypto
    library (Salt Channel v2; saltchannel/v2/salt_client_session.py,
    salt_server_session.py).  Definitions only. *)
From Coq Require Import List ZArith Bool Strings.Byte.
From Verif Require Import PyBase Crypto Spec.
Import ListNotations.
Open Scope Z_scope.

(** [f] is an encrypted packet that opens, under [key] and counter [n], to [clear]. *)
Definition opens (L : lib) (key : bytes) (n : Z) (f clear : bytes) : Prop :=
  exists fl body, f = x06 :: fl :: body /\ (16 <= length body)%nat /\
    l_open_afternm L body (nonce24 n (repeat x00 8)) key = Ok clear.

(** [f] is the encrypted packet, without last flag, made from [clear]. *)
Definition seals (L : lib) (key : bytes) (n : Z) (clear f : bytes) : Prop :=
  exists c, l_afternm L clear (nonce24 n (repeat x00 8)) key = Ok c /\ f = Enc_wire false c.

(** What server and client sign: a prefix and the hashes of the first two messages. *)
Definition server_text (L : lib) (m1 m2 : bytes) : bytes :=
  sig1_prefix ++ l_sha512 L m1 ++ l_sha512 L m2.
Definition client_text (L : lib) (m1 m2 : bytes) : bytes :=
  sig2_prefix ++ l_sha512 L m1 ++ l_sha512 L m2.

(** [sg] is accepted as a signature of [text] under [pk]. *)
Definition accepted (L : lib) (pk sg text : bytes) : Prop :=
  exists m, l_sign_open L (sg ++ text) pk = Ok m.

(** [sg] is the signature that signing [text] with [sk] produces (its first 64
    bytes). *)
Definition signed (L : lib) (sk text sg : bytes) : Prop :=
  exists sm, l_sign L text sk = Ok sm /\ sg = firstn 64 sm.

(** [m1], [m2] are different inputs with the same hash. *)
Definition collision (L : lib) : Prop :=
  exists a b, a <> b /\ l_sha512 L a = l_sha512 L b.

(** Runs of sessions, for statements about several of them at once. *)
From Verif Require Import IO Time EncUse Packets AppChannel Session.

Record srun : Type := SRun {
  sr_TK : tkeeper; sr_TC : tchecker; sr_sig : keypair; sr_enc : keypair; sr_buf : bool;
  sr_a2 : option pkt; sr_tk : Z; sr_t : list ev; sr_o : option (ss * res unit)
}.
Definition srun_ok (L : lib) (r : srun) : Prop :=
  exec (server_handshake L (sr_TK r) (sr_TC r) (ss_init (sr_sig r) (Some (sr_enc r)) (sr_buf r) (sr_a2 r) (sr_tk r)))
       (sr_t r) (sr_o r).

Record crun : Type := CRun {
  cr_TK : tkeeper; cr_TC : tchecker; cr_sig : keypair; cr_enc : keypair; cr_buf : bool;
  cr_wanted : bytes; cr_tk : Z; cr_t : list ev; cr_o : option (cs * res unit)
}.
Definition crun_ok (L : lib) (r : crun) : Prop :=
  exec (client_handshake L (cr_TK r) (cr_TC r) (cs_init (cr_sig r) (Some (cr_enc r)) (cr_buf r) (cr_wanted r) (cr_tk r)))
       (cr_t r) (cr_o r).

(** The M1 a server read and the M2 it wrote, if it went on to write its signed M3
    (its second frame). *)
Definition server_said (t : list ev) : option (bytes * bytes) :=
  match t with
  | ERead (Ok m1) :: rest =>
      match concat (map ev_out rest) with m2 :: _ :: _ => Some (m1, m2) | _ => None end
  | _ => None
  end.

(** The M1 a client wrote and the M2 it read, if it went on to release its signed M4:
    it wrote a second time, or it finished (with M4 buffered). *)
Definition client_said (t : list ev) (o : option (cs * res unit)) : option (bytes * bytes) :=
  match t with
  | EWrite [m1] _ _ :: ERead (Ok m2) :: _ :: rest =>
      match rest, o with
      | EWrite _ _ _ :: _, _ => Some (m1, m2)
      | [], Some (_, Ok _) => Some (m1, m2)
      | _, _ => None
      end
  | _ => None
  end.

(** Two coroutines joined by FIFO queues, run for at most [n] steps by one particular
    scheduler: their traces and results.  Used for the examples. *)
Fixpoint run2 {A B} (n : nat) (p : io A) (q : io B) (ab ba : list bytes)
  : (list ev * option A) * (list ev * option B) :=
  match n with
  | O => (([], None), ([], None))
  | S n =>
      match p, ba with
      | Write ms l k, _ =>
          let '((t, a), x) := run2 n (k (Ok tt)) q (ab ++ ms) ba in ((EWrite ms l (Ok tt) :: t, a), x)
      | Read k, m :: ba' =>
          let '((t, a), x) := run2 n (k (Ok m)) q ab ba' in ((ERead (Ok m) :: t, a), x)
      | _, _ =>
          let ret := match p with Ret a => Some a | _ => None end in
          match q, ab with
          | Write ms l k, _ =>
              let '(x, (t, b)) := run2 n p (k (Ok tt)) ab (ba ++ ms) in (x, (EWrite ms l (Ok tt) :: t, b))
          | Read k, m :: ab' =>
              let '(x, (t, b)) := run2 n p (k (Ok m)) ab' ba in (x, (ERead (Ok m) :: t, b))
          | Ret b, _ => (([], ret), ([], Some b))
          | _, _ => (([], ret), ([], None))
          end
      end
  end.

(** Programs of the two users, for the statement about complete conversations: after
    the handshake the client writes one batch and reads [n] messages, the server
    reads [n] messages and writes one batch. *)
Section Programs.
  Variable L : lib.
  Variable TK : tkeeper.
  Variable TC : tchecker.

  Fixpoint read_n (n : nat) (a : ac) : io (ac * res (list bytes)) :=
    match n with
    | O => Ret (a, Ok [])
    | S n =>
        iobind (ac_read L TC a) (fun x =>
          match snd x with
          | Err e => Ret (fst x, Err e)
          | Ok m => iobind (read_n n (fst x)) (fun y =>
                      Ret (fst y, match snd y with Ok l => Ok (m :: l) | Err e => Err e end))
          end)
    end.

  Definition client_asks (s : cs) (m : bytes) (args : list bytes) (last : bool) (n : nat)
    : io (cs * option ac * res (list bytes)) :=
    iobind (client_handshake L TK TC s) (fun x =>
      match snd x, cs_app (fst x) with
      | Ok _, Some a =>
          iobind (ac_write L TK m args last a) (fun y =>
            match snd y with
            | Err e => Ret (fst x, Some (fst y), Err e)
            | Ok _ => iobind (read_n n (fst y)) (fun z => Ret (fst x, Some (fst z), snd z))
            end)
      | Err e, a => Ret (fst x, a, Err e)
      | Ok _, None => Ret (fst x, None, Err AttributeError)
      end).

  Definition server_answers (s : ss) (n : nat) (m : bytes) (args : list bytes) (last : bool)
    : io (ss * option ac * res (list bytes)) :=
    iobind (server_handshake L TK TC s) (fun x =>
      match snd x, ss_app (fst x) with
      | Ok _, Some a =>
          iobind (read_n n a) (fun y =>
            match snd y with
            | Err e => Ret (fst x, Some (fst y), Err e)
            | Ok l => iobind (ac_write L TK m args last (fst y)) (fun z =>
                        Ret (fst x, Some (fst z), match snd z with Ok _ => Ok l | Err e => Err e end))
            end)
      | Err e, a => Ret (fst x, a, Err e)
      | Ok _, None => Ret (fst x, None, Err AttributeError)
      end).
End Programs.
