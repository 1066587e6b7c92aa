(** Properties C67-C69: the pure Python port of NaCl against the published standards. *)
From Coq Require Import List ZArith Bool Strings.Byte Lia ZifyBool ZifyNat ZifyN.
From Verif Require Import PyBase PyBase_proofs PyInt PyInt_proofs ShaSpec TwHash TwHash_proofs SalsaSpec TwSalsa TwSalsa_proofs TwPure.
Import ListNotations.
Open Scope Z_scope.
Ltac Zify.zify_post_hook ::= Z.div_mod_to_equations.

(** * C67 SHA-512 *)
Theorem C67_sha512 : forall m, Z.of_nat (length m) < 2 ^ 64 -> pure_crypto_hash m = sha512 m.
Proof.
  intros m H. unfold pure_crypto_hash. apply holds_to_bytes.
  pose proof (hash_w (int_array TU8 64) (of_bytes m) m (Z.of_nat (length m)) (holds_of_bytes m)) as W.
  rewrite Nat2Z.id in W. rewrite firstn_all in W. apply W; try reflexivity; lia.
Qed.
Print Assumptions C67_sha512.
Definition abc : bytes := [x61; x62; x63].
Definition abc_digest : bytes :=
  [xdd; xaf; x35; xa1; x93; x61; x7a; xba; xcc; x41; x73; x49; xae; x20; x41; x31;
   x12; xe6; xfa; x4e; x89; xa9; x7e; xa2; x0a; x9e; xee; xe6; x4b; x55; xd3; x9a;
   x21; x92; x99; x2a; x27; x4f; xc1; xa8; x36; xba; x3c; x23; xa3; xfe; xeb; xbd;
   x45; x4d; x44; x23; x64; x3c; xe8; x0e; x2a; x9a; xc9; x4f; xa5; x4c; xa4; x9f].
Example C67_example : pure_crypto_hash abc = abc_digest /\ sha512 abc = abc_digest.
Proof.
  rewrite C67_sha512 by reflexivity. assert (E : sha512 abc = abc_digest) by (vm_compute; reflexivity).
  split; exact E.
Qed.

(** * C68 The Salsa20 and HSalsa20 functions *)
Theorem C68_salsa20_core : forall in_ k, length in_ = 16%nat -> length k = 32%nat ->
  core_salsa20_bytes in_ k = salsa20 k in_ /\ core_hsalsa20_bytes in_ k = hsalsa20 k in_.
Proof.
  intros in_ k Hi Hk. split; apply holds_to_bytes.
  - apply salsa20_core_w; try assumption; try reflexivity; apply holds_of_bytes.
  - pose proof (hsalsa20_core_w (int_array TU8 32) (of_bytes in_) in_ (of_bytes k) k (holds_of_bytes _) ltac:(lia)
      (holds_of_bytes _) Hk eq_refl) as H. rewrite (firstn_all2 (n := 16) in_) in H by lia. exact H.
Qed.
Print Assumptions C68_salsa20_core.
(** The first test of section 9 of the Salsa20 specification: key bytes 1..16, 201..216
    and nonce bytes 101..116. *)
Definition bytes_from (a n : nat) : bytes := map (fun i => z2b (Z.of_nat i)) (seq a n).
Example C68_example : firstn 8 (core_salsa20_bytes (bytes_from 101 16) (bytes_from 1 16 ++ bytes_from 201 16)) =
  map z2b [69; 37; 68; 39; 41; 15; 107; 193].
Proof. rewrite (proj1 (C68_salsa20_core (bytes_from 101 16) (bytes_from 1 16 ++ bytes_from 201 16) eq_refl eq_refl)). vm_compute. reflexivity. Qed.

(** * C69 The XSalsa20 stream *)
(** Up to 257 blocks of 64 bytes the code computes the standard's stream. *)
Theorem C69_xsalsa20_partial : forall m n k, length n = 24%nat -> length k = 32%nat -> (length m <= 64 * 257)%nat ->
  stream_xor_bytes m n k = xor_bytes m (xsalsa20_stream k n (length m)).
Proof.
  intros m n k Hn Hk Hm. unfold stream_xor_bytes. apply holds_to_bytes.
  assert (M : msg (of_bytes m) m).
  { destruct m as [|x m]; [right; split; reflexivity|]. left. split; [discriminate|apply holds_of_bytes]. }
  destruct (xsalsa_xor_spec (int_array TU8 (length m)) (of_bytes m) m (of_bytes n) n (of_bytes k) k (length m) M
     (holds_of_bytes _) Hn (holds_of_bytes _) Hk ltac:(lia) ltac:(unfold int_array; rewrite repeat_length; lia) Hm) as (t & E & H).
  rewrite E. rewrite skipn_all2 by (unfold int_array; rewrite repeat_length; lia). rewrite app_nil_r.
  rewrite firstn_all in H. exact H.
Qed.
Print Assumptions C69_xsalsa20_partial.
Example C69_example : let n := bytes_from 1 24 in let k := bytes_from 50 32 in
  stream_xor_bytes [] n k = [] /\
  firstn 1 (stream_xor_bytes (map z2b [104; 105]) n k) <> map z2b [104].
Proof.
  cbv zeta. rewrite !C69_xsalsa20_partial by first [reflexivity|apply Nat.leb_le; reflexivity]. split; [reflexivity|].
  vm_compute. discriminate.
Qed.

(** Block 257 (bytes 16448 to 16511) is encrypted under the block number 769. *)
Lemma code_block_257 : forall k n, code_block k n 257 = salsa20_block k n 769.
Proof. intros k n. unfold code_block, salsa20_block. replace (cidx (Z.of_nat 257)) with (Z.of_nat 769) by reflexivity. reflexivity. Qed.
Theorem C69_block_257 : forall m n k j, length n = 24%nat -> length k = 32%nat ->
  (j < 64)%nat -> (64 * 257 + j < length m)%nat -> (length m <= 64 * 258)%nat ->
  nth (64 * 257 + j) (stream_xor_bytes m n k) x00 =
  byte_of_z (Z.lxor (bval (nth (64 * 257 + j) m x00))
                    (bval (nth j (salsa20_block (hsalsa20 k (firstn 16 n)) (skipn 16 n) 769) x00))).
Proof.
  intros m n k j Hn Hk Hj Hm HX.
  assert (M : msg (of_bytes m) m).
  { left. split; [destruct m; [cbn [length] in Hm; lia|discriminate]|apply holds_of_bytes]. }
  destruct (xsalsa_xor_w (int_array TU8 (length m)) (of_bytes m) m (of_bytes n) n (of_bytes k) k (length m) M
     (holds_of_bytes _) Hn (holds_of_bytes _) Hk ltac:(lia) ltac:(unfold int_array; rewrite repeat_length; lia) HX) as (t & E & H).
  unfold stream_xor_bytes. rewrite E. rewrite skipn_all2 by (unfold int_array; rewrite repeat_length; lia). rewrite app_nil_r.
  rewrite (holds_to_bytes _ _ H). rewrite firstn_all.
  rewrite nth_xor_bytes by (rewrite ?keystream_length; exact Hm).
  rewrite keystream_nth by (exact Hj || exact Hm). rewrite code_block_257. reflexivity.
Qed.
Print Assumptions C69_block_257.

Lemma xor_zero_inj : forall a b, byte_of_z (Z.lxor (bval x00) (bval a)) = byte_of_z (Z.lxor (bval x00) (bval b)) -> a = b.
Proof.
  intros a b E. change (bval x00) with 0 in E. rewrite !Z.lxor_0_l in E.
  change byte_of_z with z2b in E. change bval with b2z in E. rewrite !z2b_b2z in E. exact E.
Qed.
Lemma zero_blocks_differ :
  nth 0 (salsa20_block (hsalsa20 (repeat x00 32) (firstn 16 (repeat x00 24))) (skipn 16 (repeat x00 24)) 769) x00 <>
  nth 0 (salsa20_block (hsalsa20 (repeat x00 32) (firstn 16 (repeat x00 24))) (skipn 16 (repeat x00 24)) 257) x00.
Proof. vm_compute. discriminate. Qed.
(** So a message of 16449 bytes is encrypted wrongly. *)
Lemma refuted_at : forall n, n = (64 * 257)%nat -> forall m k nn, m = repeat x00 (S n) -> length nn = 24%nat -> length k = 32%nat ->
  nth 0 (salsa20_block (hsalsa20 k (firstn 16 nn)) (skipn 16 nn) 769) x00 <>
  nth 0 (salsa20_block (hsalsa20 k (firstn 16 nn)) (skipn 16 nn) 257) x00 ->
  stream_xor_bytes m nn k <> xor_bytes m (xsalsa20_stream k nn (length m)).
Proof.
  intros n Hn m k nn Hm Ln Lk F E.
  assert (LM : length m = S n) by (rewrite Hm; apply repeat_length).
  apply (f_equal (fun l => nth (64 * 257 + 0) l x00)) in E.
  rewrite (C69_block_257 m nn k 0 Ln Lk) in E by lia.
  rewrite nth_xor_bytes in E by (unfold xsalsa20_stream; rewrite ?stream_length; lia).
  unfold xsalsa20_stream in E. rewrite stream_nth in E by lia.
  rewrite Hm, nth_repeat0 in E. apply xor_zero_inj in E. exact (F E).
Qed.
Theorem C69_xsalsa20_refuted : exists m n k, length n = 24%nat /\ length k = 32%nat /\ length m = S (64 * 257) /\
  stream_xor_bytes m n k <> xor_bytes m (xsalsa20_stream k n (length m)).
Proof.
  exists (repeat x00 (S (64 * 257))), (repeat x00 24), (repeat x00 32).
  split; [apply repeat_length|]. split; [apply repeat_length|]. split; [apply repeat_length|].
  eapply refuted_at; [reflexivity|reflexivity|apply repeat_length|apply repeat_length|exact zero_blocks_differ].
Qed.
Print Assumptions C69_xsalsa20_refuted.
