(** Property C79: the two sides of a box compute the same key. *)
From Coq Require Import List ZArith Bool Strings.Byte Lia ZifyBool ZifyNat ZifyN.
From Verif Require Import PyBase PyBase_proofs PyInt PyInt_proofs ShaSpec SalsaSpec TwSalsa_proofs CurveSpec TwCurve_proofs Fast25519 Curve25519 TwPure Props_Pure3.
Import ListNotations.
Open Scope Z_scope.

Lemma le_word_le_bytes : forall n z, 0 <= z < 256 ^ Z.of_nat n -> le_word (le_bytes n z) = z.
Proof.
  induction n as [|n IH]; intros z H; [cbn in H |- *; lia|]. cbn [le_bytes le_word].
  rewrite Nat2Z.inj_succ, Z.pow_succ_r in H by lia. rewrite IH.
  - change (bval (byte_of_z z)) with (b2z (z2b z)). rewrite b2z_z2b. pose proof (Z.div_mod z 256 ltac:(lia)). lia.
  - split; [apply Z.div_pos; lia|apply Z.div_lt_upper_bound; lia].
Qed.
Lemma decode_encode : forall u, u mod p25519 = u -> decode_u (encode_u u) = u.
Proof.
  intros u H. unfold decode_u, encode_u. rewrite H.
  assert (B : 0 <= u < p25519) by (rewrite <- H; apply Z.mod_pos_bound; reflexivity).
  assert (C : 0 <= u < 256 ^ Z.of_nat 32).
  { split; [apply B|]. eapply Z.lt_trans; [apply B|]. reflexivity. }
  rewrite le_word_le_bytes by exact C. apply Z.mod_small. split; [apply B|]. eapply Z.lt_trans; [apply B|]. reflexivity.
Qed.
Lemma decode_base : decode_u base_point = 9.
Proof. vm_compute. reflexivity. Qed.
Lemma x25519_agree : forall a b, x25519 a (box_public b) = x25519 b (box_public a).
Proof.
  intros a b. unfold box_public, x25519. rewrite decode_base, !decode_encode by apply num_mod.
  rewrite (dh _ _ (scalar_range a) (scalar_range b)). reflexivity.
Qed.

(** * C79 Key agreement *)
(** Whatever the two secret keys are, each side gets the same key from its own secret key
    and the other's public key. *)
Theorem C79_agreement : forall skA pkA skB pkB,
  pure_box_keypair_not_random skA = Ok (pkA, skA) -> pure_box_keypair_not_random skB = Ok (pkB, skB) ->
  pure_box_beforenm pkB skA = pure_box_beforenm pkA skB /\ exists k, pure_box_beforenm pkB skA = Ok k /\ length k = 32%nat.
Proof.
  intros skA pkA skB pkB HA HB. rewrite C76_keypair in HA, HB.
  destruct (Nat.eqb_spec (length skA) 32) as [LA|LA]; [|discriminate]. destruct (Nat.eqb_spec (length skB) 32) as [LB|LB]; [|discriminate].
  assert (EA : pkA = box_public skA) by congruence. assert (EB : pkB = box_public skB) by congruence. clear HA HB.
  pose proof (x25519_length skA base_point) as PA. pose proof (x25519_length skB base_point) as PB. fold (box_public skA) in PA. fold (box_public skB) in PB.
  rewrite <- EA in PA. rewrite <- EB in PB.
  rewrite !C77_beforenm, LA, LB, PA, PB. change ((32 <? 32)%nat || (32 <? 32)%nat) with false. cbv iota.
  rewrite (firstn_all2 pkA), (firstn_all2 pkB), (firstn_all2 skA), (firstn_all2 skB) by lia.
  assert (EK : box_key pkB skA = box_key pkA skB).
  { unfold box_key. rewrite EA, EB, x25519_agree. generalize (x25519 skB (box_public skA)). intros s. reflexivity. }
  rewrite EK. split; [reflexivity|]. exists (box_key pkA skB). split; [generalize (box_key pkA skB); intros k; reflexivity|].
  unfold box_key. apply hsalsa20_length.
Qed.
Print Assumptions C79_agreement.
Example C79_example : exists pkA pkB k,
  pure_box_keypair_not_random (repeat x01 32) = Ok (pkA, repeat x01 32) /\
  pure_box_keypair_not_random (repeat x02 32) = Ok (pkB, repeat x02 32) /\
  pure_box_beforenm pkB (repeat x01 32) = Ok k /\ pure_box_beforenm pkA (repeat x02 32) = Ok k /\ length k = 32%nat.
Proof.
  assert (W : forall b, pure_box_keypair_not_random (repeat b 32) = Ok (box_public (repeat b 32), repeat b 32)).
  { intros b. rewrite C76_keypair. change (length (repeat b 32) =? 32)%nat with true. generalize (box_public (repeat b 32)). intros pk. reflexivity. }
  destruct (C79_agreement _ _ _ _ (W x01) (W x02)) as (E & k & K & L).
  exists (box_public (repeat x01 32)), (box_public (repeat x02 32)), k. rewrite E in K.
  split; [apply W|]. split; [apply W|]. rewrite E. split; [exact K|]. split; [exact K|exact L].
Qed.
