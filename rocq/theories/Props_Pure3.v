(** Properties C75-C78: X25519 of the pure Python port. *)
From Coq Require Import List ZArith Bool Strings.Byte Lia ZifyBool ZifyNat ZifyN.
From Verif Require Import PyBase PyBase_proofs PyInt PyInt_proofs ShaSpec TwHash_proofs SalsaSpec TwSalsa TwSalsa_proofs CurveSpec TwField TwCurve_proofs Fast25519 TwPure.
Import ListNotations.
Open Scope Z_scope.

(** * C75 X25519 *)
(** For every scalar and every coordinate the code computes the function of RFC 7748; what
    follows the first 32 bytes is ignored, and shorter arguments raise. *)
Theorem C75_x25519 : forall n p,
  scalarmult_bytes n p =
  if (length n <? 32)%nat || (length p <? 32)%nat then Err IndexError else Ok (x25519 (firstn 32 n) (firstn 32 p)).
Proof.
  intros n p. unfold scalarmult_bytes. destruct ((length n <? 32)%nat || (length p <? 32)%nat) eqn:E; [reflexivity|].
  apply (f_equal (@Ok bytes)). apply holds_to_bytes. apply scalarmult_any; try apply holds_of_bytes; try reflexivity; lia.
Qed.
Print Assumptions C75_x25519.
(** RFC 7748, section 5.2, first test vector *)
Definition rfc7748_k : bytes := map z2b
  [0xa5; 0x46; 0xe3; 0x6b; 0xf0; 0x52; 0x7c; 0x9d; 0x3b; 0x16; 0x15; 0x4b; 0x82; 0x46; 0x5e; 0xdd;
   0x62; 0x14; 0x4c; 0x0a; 0xc1; 0xfc; 0x5a; 0x18; 0x50; 0x6a; 0x22; 0x44; 0xba; 0x44; 0x9a; 0xc4].
Definition rfc7748_u : bytes := map z2b
  [0xe6; 0xdb; 0x68; 0x67; 0x58; 0x30; 0x30; 0xdb; 0x35; 0x94; 0xc1; 0xa4; 0x24; 0xb1; 0x5f; 0x7c;
   0x72; 0x66; 0x24; 0xec; 0x26; 0xb3; 0x35; 0x3b; 0x10; 0xa9; 0x03; 0xa6; 0xd0; 0xab; 0x1c; 0x4c].
Definition rfc7748_r : bytes := map z2b
  [0xc3; 0xda; 0x55; 0x37; 0x9d; 0xe9; 0xc6; 0x90; 0x8e; 0x94; 0xea; 0x4d; 0xf2; 0x8d; 0x08; 0x4f;
   0x32; 0xec; 0xcf; 0x03; 0x49; 0x1c; 0x71; 0xf7; 0x54; 0xb4; 0x07; 0x55; 0x77; 0xa2; 0x85; 0x52].
Example C75_example : scalarmult_bytes rfc7748_k rfc7748_u = Ok rfc7748_r.
Proof.
  rewrite C75_x25519. change ((length rfc7748_k <? 32)%nat || (length rfc7748_u <? 32)%nat) with false. cbv iota. apply (f_equal (@Ok bytes)).
  rewrite !firstn_all2 by (cbn; lia). unfold x25519, encode_u. rewrite <- x25519_fast_spec, <- redx_spec. vm_compute. reflexivity.
Qed.

(** * C76 Key pairs *)
Theorem C76_keypair : forall sk,
  pure_box_keypair_not_random sk = if (length sk =? 32)%nat then Ok (box_public sk, sk) else Err ValueError.
Proof.
  intros sk. unfold pure_box_keypair_not_random. destruct (Nat.eqb_spec (length sk) 32) as [L|L]; [|reflexivity]. cbn [negb].
  apply (f_equal (fun pk => @Ok (bytes * bytes) (pk, sk))). apply holds_to_bytes. unfold crypto_scalarmult_base, box_public.
  pose proof (scalarmult_any (int_array TU8 32) (of_bytes sk) sk b9 base_point eq_refl (holds_of_bytes sk) ltac:(lia) b9_holds ltac:(cbn; lia)) as H.
  rewrite !firstn_all2 in H by (cbn; lia). exact H.
Qed.
Print Assumptions C76_keypair.
Example C76_example : pure_box_keypair_not_random (repeat x00 31) = Err ValueError /\
  exists pk, pure_box_keypair_not_random (repeat x01 32) = Ok (pk, repeat x01 32) /\ length pk = 32%nat.
Proof.
  rewrite !C76_keypair. split; [reflexivity|]. exists (box_public (repeat x01 32)).
  change (length (repeat x01 32) =? 32)%nat with true. cbv iota. split; [|apply x25519_length].
  generalize (box_public (repeat x01 32)). intros pk. reflexivity.
Qed.

(** * C77 The shared key *)
Theorem C77_beforenm : forall pk sk,
  pure_box_beforenm pk sk =
  if (length sk <? 32)%nat || (length pk <? 32)%nat then Err IndexError else Ok (box_key (firstn 32 pk) (firstn 32 sk)).
Proof.
  intros pk sk. unfold pure_box_beforenm. destruct ((length sk <? 32)%nat || (length pk <? 32)%nat) eqn:E; [reflexivity|].
  apply (f_equal (@Ok bytes)). apply holds_to_bytes. apply beforenm_w; try apply holds_of_bytes; try reflexivity; lia.
Qed.
Print Assumptions C77_beforenm.

(** * C78 (expected: the shared key depends on the secret key) is false of the code *)
Lemma box_key_zero : forall sk, box_key (repeat x00 32) sk = hsalsa20 (repeat x00 32) (repeat x00 16).
Proof.
  intros sk. unfold box_key, x25519. change (decode_u (repeat x00 32)) with 0. rewrite x25519_zero. reflexivity.
Qed.
(** A peer whose public key is 32 zero bytes gets the same key from every secret key. *)
Theorem C78_low_order_refuted : forall sk, (32 <= length sk)%nat ->
  pure_box_beforenm (repeat x00 32) sk = Ok (hsalsa20 (repeat x00 32) (repeat x00 16)).
Proof.
  intros sk L. rewrite C77_beforenm. replace (length sk <? 32)%nat with false by lia. rewrite repeat_length. change (32 <? 32)%nat with false. cbn [orb].
  rewrite (firstn_all2 (repeat x00 32)) by (rewrite repeat_length; lia). rewrite box_key_zero. reflexivity.
Qed.
Print Assumptions C78_low_order_refuted.
Example C77_example : pure_box_beforenm (repeat x00 32) (repeat x05 32) = pure_box_beforenm (repeat x00 32) (repeat x06 33) /\
  pure_box_beforenm (repeat x00 32) (repeat x05 31) = Err IndexError.
Proof. split; [rewrite !C78_low_order_refuted by (cbn; lia); reflexivity|reflexivity]. Qed.
