(** Histories of calls on one [AppChannelV2] (v2/app_channel_v2.py:25-64), in the
    style of [EncUse]; the records and counting functions are shared with it.
    Definitions only. *)
From Coq Require Import List ZArith Bool Strings.Byte.
From Verif Require Import PyBase IO Packets Crypto Time EncChannel EncUse AppChannel Spec.
Import ListNotations.
Open Scope Z_scope.

Inductive ac_hist (L : lib) (TK : tkeeper) (TC : tchecker) : ac -> list ecall -> ac -> Prop :=
| ah_nil : forall s, ac_hist L TK TC s [] s
| ah_read : forall s t s1 r h s2,
    exec (ac_read L TC s) t (Some (s1, r)) -> ac_hist L TK TC s1 h s2 ->
    ac_hist L TK TC s (EcRead t r (ac_last s1) :: h) s2
| ah_write : forall s m args last t s1 r h s2,
    exec (ac_write L TK m args last s) t (Some (s1, r)) -> ac_hist L TK TC s1 h s2 ->
    ac_hist L TK TC s (EcWrite m args last t r :: h) s2.

Fixpoint ac_run (L : lib) (TK : tkeeper) (TC : tchecker) (s : ac) (ops : list eop) : list ecall * ac :=
  match ops with
  | [] => ([], s)
  | OpRead ans :: r =>
      let '(t, (s1, x)) := io_run (ac_read L TC s) ans (Ok tt) in
      let (h, s2) := ac_run L TK TC s1 r in (EcRead t x (ac_last s1) :: h, s2)
  | OpWrite m args last ans :: r =>
      let '(t, (s1, x)) := io_run (ac_write L TK m args last s) (Ok []) ans in
      let (h, s2) := ac_run L TK TC s1 r in (EcWrite m args last t x :: h, s2)
  end.

(** Specification of the packets of one write at time [t]: one MultiAppPacket for
    two or more messages none of which exceeds 65535 bytes, else one AppPacket
    per message. *)
Definition short (m : bytes) : bool := Z.of_nat (length m) <=? 65535.
Definition packets (t : Z) (msgs : list bytes) : list bytes :=
  if (1 <? Z.of_nat (length msgs)) && forallb short msgs then [Multi_wire t msgs]
  else map (App_wire t) msgs.

(** The clear texts (with last flags) that a list of calls sends: [tk] is the
    keeper's state and [m4] the key and signature of a buffered M4, if any. *)
Fixpoint clear_texts (TK : tkeeper) (tk : Z) (m4 : option (bytes * bytes)) (h : list ecall)
  : list (bytes * bool) :=
  match h with
  | [] => []
  | EcRead _ _ _ :: r => clear_texts TK tk m4 r
  | EcWrite m args last t _ :: r =>
      let (now, tk') := tk_get TK tk in
      (if is_empty t then []
       else mark last (match m4 with Some (k, s) => [M4_wire now k s] | None => [] end
                       ++ packets now (m :: args)))
      ++ clear_texts TK tk' None r
  end.

(** Two encrypted channels, [r] in step with what [s] writes: same key and session
    nonce, and the next counter [r] expects is the next one [s] uses. *)
Definition linked (s r : ec) : Prop :=
  length (ec_key s) = 32%nat /\ length (ec_session_nonce s) = 8%nat /\
  ec_key r = ec_key s /\ ec_session_nonce r = ec_session_nonce s /\
  ec_pushback r = [] /\ 0 <= ec_write_nonce s /\ ec_read_nonce r = ec_write_nonce s.

(** A batch that one write call can carry. *)
Definition fits (msgs : list bytes) : Prop :=
  Z.of_nat (length msgs) <= 65535 \/ exists m, In m msgs /\ 65535 < Z.of_nat (length m).
