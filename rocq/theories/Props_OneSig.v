(** Properties C85 and C84, continued: under a key that was made as RFC 8032 says, a signature is
    good for one message only, unless SHA-512 collides modulo L; and what is accepted beyond
    RFC 8032 for a key that can be decoded is S + L, S + 2L, ... in place of S. *)
From Coq Require Import List ZArith Znumtheory Bool Strings.Byte Lia ZifyBool ZifyNat ZifyN.
From Verif Require Import PyBase PyBase_proofs PyInt ShaSpec SalsaSpec CurveSpec EdSpec Fast25519 PrimeL EdPoint TwSalsa_proofs TwField_proofs TwCurve_proofs TwSign TwSign_proofs TwModL_proofs TwEd_proofs EdSig_proofs Props_Pure5.
Import ListNotations.
Open Scope Z_scope.

(** The base point is not the neutral element, so its order is L itself. *)
Lemma cG_not_O : cG <> cO.
Proof.
  rewrite <- toP_B, <- toP_O. intros E. apply toP_inj in E.
  - vm_compute in E. discriminate.
  - apply ed_on_ok, ed_on_B.
  - apply ed_on_ok, ed_on_O.
Qed.

Lemma order_exact : forall n, 0 <= n -> cmul (Z.to_N n) cG = cO -> (rfc_L | n).
Proof.
  intros n N0 E. assert (LP : 0 < rfc_L) by reflexivity.
  destruct (Zdivide_dec rfc_L n) as [|ND]; [assumption|]. exfalso. apply cG_not_O.
  destruct (rel_prime_bezout _ _ (prime_rel_prime _ prime_L _ ND)) as [u v UV].
  pose proof (Z.mod_pos_bound v rfc_L LP) as V. set (x := v mod rfc_L) in *.
  assert (M : (x * n) mod rfc_L = 1).
  { unfold x. rewrite Z.mul_mod_idemp_l by (intro Q; rewrite Q in LP; discriminate).
    replace (v * n) with (1 + (- u) * rfc_L) by lia. rewrite Z.mod_add by (intro Q; rewrite Q in LP; discriminate).
    reflexivity. }
  pose proof (cmul_mod (x * n) ltac:(apply Z.mul_nonneg_nonneg; lia)) as Q. rewrite M in Q.
  rewrite Z2N.inj_mul, cmul_times, E, cmul_O in Q by (try lia; apply con_G).
  change (Z.to_N 1) with 1%N in Q. rewrite <- Q. symmetry. apply Curve25519.pmul_1.
Qed.

(** No secret scalar is a multiple of L: it is a multiple of 8 between 2^254 and 2^255. *)
Lemma scalar_parts : forall b, decode_scalar b mod 8 = 0 /\ 2 ^ 254 <= decode_scalar b < 2 ^ 255.
Proof.
  intros b. pose proof (decode_scalar_pos b) as P. unfold decode_scalar in *. generalize dependent (le_word b). intros w P.
  set (a := Z.lor (Z.land w (2 ^ 255 - 8)) (2 ^ 254)) in *. split; [|split].
  - change 8 with (2 ^ 3). rewrite <- Z.land_ones by lia. unfold a. rewrite Z.land_lor_distr_l, <- Z.land_assoc.
    change (Z.land (2 ^ 255 - 8) (Z.ones 3)) with 0. change (Z.land (2 ^ 254) (Z.ones 3)) with 0. rewrite Z.land_0_r. reflexivity.
  - assert (T : Z.testbit a 254 = true). { unfold a. rewrite Z.lor_spec. apply orb_true_iff. right. reflexivity. }
    destruct (Z_lt_le_dec a (2 ^ 254)) as [Q|Q]; [|exact Q]. exfalso.
    apply Z.testbit_true in T; [|lia]. rewrite Z.div_small in T by lia. discriminate.
  - assert (S : Z.shiftr a 255 = 0).
    { unfold a. rewrite Z.shiftr_lor, Z.shiftr_land. change (Z.shiftr (2 ^ 255 - 8) 255) with 0. rewrite Z.land_0_r. reflexivity. }
    rewrite Z.shiftr_div_pow2 in S by lia. apply Z.div_small_iff in S; [|discriminate].
    change (2 ^ 255) with (2 ^ 255) in *. destruct S as [S|S]; [apply S|]. exfalso. lia.
Qed.
Lemma scalar_not_L : forall seed, ~ (rfc_L | secret_scalar seed).
Proof.
  intros seed [c E]. unfold secret_scalar in E. destruct (scalar_parts (firstn 32 (sha512 seed))) as (A & B & C).
  rewrite E in *. clear E.
  assert (C1 : 0 < c). { destruct (Z_lt_le_dec 0 c) as [Q|Q]; [exact Q|exfalso]. assert (0 < rfc_L) by reflexivity. assert (0 < 2 ^ 254) by reflexivity. nia. }
  assert (C2 : c < 8).
  { destruct (Z_lt_le_dec c 8) as [Q|Q]; [exact Q|exfalso]. assert (2 ^ 255 <= 8 * rfc_L) by (vm_compute; discriminate). nia. }
  assert (K : c = 1 \/ c = 2 \/ c = 3 \/ c = 4 \/ c = 5 \/ c = 6 \/ c = 7) by lia.
  destruct K as [->|[->|[->|[->|[->|[->| ->]]]]]]; vm_compute in A; discriminate.
Qed.

Lemma one_message : forall seed sig m m', loose_valid (ed_public seed) sig m -> loose_valid (ed_public seed) sig m' ->
  hash_L (firstn 32 sig ++ ed_public seed ++ m) = hash_L (firstn 32 sig ++ ed_public seed ++ m').
Proof.
  intros seed sig m m' (_ & A & HA & R & R1 & R2 & R3) (_ & A' & HA' & R' & R1' & R2' & R3').
  assert (P : loose_key (ed_public seed) (ed_mul (secret_scalar seed) rfc_B)) by (apply strict_loose, public_key).
  rewrite (loose_unique _ _ _ HA P) in R3. rewrite (loose_unique _ _ _ HA' P) in R3'. clear HA HA' A A' P.
  assert (R' = R) as -> by (apply encode_inj; [assumption|assumption|congruence]).
  pose proof (hash_L_range (firstn 32 sig ++ ed_public seed ++ m)) as K1.
  pose proof (hash_L_range (firstn 32 sig ++ ed_public seed ++ m')) as K2.
  remember (hash_L (firstn 32 sig ++ ed_public seed ++ m)) as k eqn:Ek. remember (hash_L (firstn 32 sig ++ ed_public seed ++ m')) as k' eqn:Ek'.
  clear Ek Ek'. rewrite R3 in R3'. apply (f_equal toP) in R3'. rewrite !toP_add, !toP_mul, toP_B in R3'.
  pose proof (secret_scalar_pos seed) as SP. pose proof (scalar_not_L seed) as SN.
  remember (secret_scalar seed) as a eqn:Ea. clear Ea.
  assert (CR : con (toP R)) by (apply con_ed; [apply (ed_on_ok _ R1)|exact R1]).
  assert (CA : con (cmul (Z.to_N a) cG)) by (apply con_mul, con_G).
  assert (CC : forall X Y, con X -> con Y -> cadd (toP R) X = cadd (toP R) Y -> X = Y).
  { intros X Y HX HY E. apply (f_equal (cadd (cneg (toP R)))) in E.
    assert (CN : con (cneg (toP R))) by (apply con_neg; exact CR).
    rewrite <- !cadd_assoc in E by assumption.
    assert (Z0 : cadd (cneg (toP R)) (toP R) = cO). { unfold cadd. rewrite Curve25519.padd_comm. apply cadd_neg. exact CR. }
    rewrite Z0, !cO_add in E. exact E. }
  apply CC in R3'; [|apply con_mul; exact CA|apply con_mul; exact CA]. clear CC.
  assert (W : forall i j, 0 <= i < rfc_L -> 0 <= j < rfc_L -> i <= j ->
    cmul (Z.to_N i) (cmul (Z.to_N a) cG) = cmul (Z.to_N j) (cmul (Z.to_N a) cG) -> i = j).
  { intros i j Hi Hj Hle E. replace (Z.to_N j) with (Z.to_N i + Z.to_N (j - i))%N in E by lia. rewrite cmul_plus in E by exact CA.
    set (X := cmul (Z.to_N i) (cmul (Z.to_N a) cG)) in *. set (Y := cmul (Z.to_N (j - i)) (cmul (Z.to_N a) cG)) in *.
    assert (CX : con X) by (apply con_mul; exact CA). assert (CY : con Y) by (apply con_mul; exact CA).
    assert (Y0 : Y = cO).
    { apply (f_equal (cadd (cneg X))) in E. rewrite <- cadd_assoc in E by (try assumption; apply con_neg; assumption).
      assert (Z0 : cadd (cneg X) X = cO). { unfold cadd. rewrite Curve25519.padd_comm. apply cadd_neg. exact CX. }
      rewrite Z0, cO_add in E. symmetry. exact E. }
    unfold Y in Y0. rewrite <- cmul_times, <- Z2N.inj_mul in Y0 by (try lia; apply con_G).
    apply order_exact in Y0; [|apply Z.mul_nonneg_nonneg; lia].
    apply prime_mult in Y0; [|exact prime_L]. destruct Y0 as [Y0|Y0]; [|contradiction].
    destruct (Z.eq_dec (j - i) 0) as [|NZ]; [lia|]. apply Z.divide_pos_le in Y0; lia. }
  destruct (Z_le_gt_dec k k') as [Q|Q].
  - apply W; assumption.
  - symmetry. apply W; [assumption|assumption|lia|symmetry; exact R3'].
Qed.

(** *** C85, what does hold: if the public key comes from a seed (any seed), one signature
    opens two messages only if their hashes, with the signature's first half and the key
    in front, are equal modulo L. *)
Theorem C85_own_key_partial : forall seed sig m m', length sig = 64%nat ->
  Z.of_nat (length m) + 64 < 2 ^ 64 -> Z.of_nat (length m') + 64 < 2 ^ 64 ->
  pure_crypto_sign_open (sig ++ m) (ed_public seed) = Ok m ->
  pure_crypto_sign_open (sig ++ m') (ed_public seed) = Ok m' ->
  le_word (sha512 (firstn 32 sig ++ ed_public seed ++ m)) mod rfc_L =
  le_word (sha512 (firstn 32 sig ++ ed_public seed ++ m')) mod rfc_L.
Proof.
  intros seed sig m m' HS B B' O O'.
  assert (LP : length (ed_public seed) = 32%nat) by (apply encode_length).
  assert (V : forall x, Z.of_nat (length x) + 64 < 2 ^ 64 -> pure_crypto_sign_open (sig ++ x) (ed_public seed) = Ok x -> loose_valid (ed_public seed) sig x).
  { intros x Bx Ox. destruct (C83_open_exact (sig ++ x) (ed_public seed)) as [H _]; [lia|rewrite app_length, HS; lia|].
    apply H in Ox. destruct Ox as (s & E & Hv). rewrite firstn_all2 in Hv by lia. apply app_inv_tail in E. subst s. exact Hv. }
  exact (one_message seed sig m m' (V m B O) (V m' B' O')).
Qed.
Print Assumptions C85_own_key_partial.

(** Beside it: every seed has such signatures (those it makes), for every message, so the
    hypotheses are met with m' = m; the weak key of C85_weak_key_refuted is the key of no
    seed. *)
Example C85_own_key_example :
  (forall m, Z.of_nat (length m) + 64 < 2 ^ 64 -> pure_crypto_sign_open (ed_sign rfc_seed (ed_public rfc_seed) m ++ m) (ed_public rfc_seed) = Ok m) /\
  forall seed, ed_public seed <> le_bytes 32 1.
Proof.
  split.
  - intros m B. apply C84_valid_accepted_partial; [apply encode_length|exact B|apply sign_valid].
  - intros seed E. apply (scalar_not_L seed). apply order_exact; [apply secret_scalar_pos|].
    rewrite <- toP_B, <- toP_mul, <- toP_O. f_equal. apply encode_inj; [apply ed_on_mul; exact ed_on_B|exact ed_on_O|exact E].
Qed.

(** ** C84, what does hold: for a key that RFC 8032 can decode, a signature is accepted
    exactly if it is valid by RFC 8032 once S is taken modulo L. *)
Lemma open_sig : forall pk sig m, length pk = 32%nat -> length sig = 64%nat -> Z.of_nat (length m) + 64 < 2 ^ 64 ->
  (pure_crypto_sign_open (sig ++ m) pk = Ok m <-> loose_valid pk sig m).
Proof.
  intros pk sig m LK HS B. destruct (C83_open_exact (sig ++ m) pk) as [H _]; [lia|rewrite app_length, HS; lia|].
  rewrite H. rewrite firstn_all2 by lia. split.
  - intros (s & E & V). apply app_inv_tail in E. subst s. exact V.
  - intros V. exists sig. split; [reflexivity|exact V].
Qed.
Lemma reduced_parts : forall sig, length sig = 64%nat ->
  let sig' := firstn 32 sig ++ le_bytes 32 (le_word (skipn 32 sig) mod rfc_L) in
  length sig' = 64%nat /\ firstn 32 sig' = firstn 32 sig /\ le_word (skipn 32 sig') = le_word (skipn 32 sig) mod rfc_L.
Proof.
  intros sig HS. cbv zeta. assert (L1 : length (firstn 32 sig) = 32%nat) by (rewrite firstn_length, HS; reflexivity).
  split; [rewrite app_length, le_bytes_length, L1; reflexivity|]. split.
  - rewrite firstn_app, L1, Nat.sub_diag, firstn_O, app_nil_r. apply firstn_all2. lia.
  - rewrite skipn_app, L1, Nat.sub_diag, skipn_all2 by lia. rewrite skipn_O, app_nil_l. apply le_word_bytes. apply mod_L_256.
Qed.
Theorem C84_modulo_partial : forall pk sig m, (exists A, strict_key pk A) -> length sig = 64%nat ->
  Z.of_nat (length m) + 64 < 2 ^ 64 ->
  (pure_crypto_sign_open (sig ++ m) pk = Ok m <->
   rfc_valid pk (firstn 32 sig ++ le_bytes 32 (le_word (skipn 32 sig) mod rfc_L)) m).
Proof.
  intros pk sig m [A KA] HS B. assert (LK : length pk = 32%nat) by (destruct KA as [_ <-]; apply encode_length).
  rewrite (open_sig pk sig m LK HS B). destruct (reduced_parts sig HS) as (P1 & P2 & P3).
  remember (firstn 32 sig ++ le_bytes 32 (le_word (skipn 32 sig) mod rfc_L)) as sig' eqn:E. clear E.
  assert (Q : ed_mul (le_word (skipn 32 sig')) rfc_B = ed_mul (le_word (skipn 32 sig)) rfc_B) by (rewrite P3; apply ed_mul_mod; apply le_word_range).
  assert (EQ : forall X, sig_equation pk sig' m X <-> sig_equation pk sig m X) by (intros X; unfold sig_equation; cbv zeta; rewrite Q, P2; reflexivity).
  split.
  - intros (_ & X & KX & EX). split; [exact P1|]. split; [rewrite P3; apply Z.mod_pos_bound; reflexivity|].
    exists A. split; [exact KA|]. apply EQ. rewrite (loose_unique _ _ _ (strict_loose _ _ KA) KX). exact EX.
  - intros (_ & _ & X & KX & EX). split; [exact HS|]. exists X. split; [apply strict_loose; exact KX|apply EQ; exact EX].
Qed.
Print Assumptions C84_modulo_partial.

(** Whatever the key: two accepted signatures of one message that begin with the same 32
    bytes differ only by a multiple of L in S. *)
Theorem C84_same_nonce_partial : forall pk sig sig' m, length pk = 32%nat -> length sig = 64%nat -> length sig' = 64%nat ->
  Z.of_nat (length m) + 64 < 2 ^ 64 -> firstn 32 sig = firstn 32 sig' ->
  pure_crypto_sign_open (sig ++ m) pk = Ok m -> pure_crypto_sign_open (sig' ++ m) pk = Ok m ->
  le_word (skipn 32 sig) mod rfc_L = le_word (skipn 32 sig') mod rfc_L.
Proof.
  intros pk sig sig' m LK HS HS' B F O O'. apply open_sig in O; [|assumption..]. apply open_sig in O'; [|assumption..].
  destruct O as (_ & A & HA & R & R1 & R2 & R3), O' as (_ & A' & HA' & R' & R1' & R2' & R3'). rewrite <- F in *.
  rewrite (loose_unique _ _ _ HA' HA) in R3'. assert (R' = R) as -> by (apply encode_inj; [assumption|assumption|congruence]).
  rewrite <- R3 in R3'. apply (f_equal toP) in R3'. rewrite !toP_mul, toP_B in R3'.
  pose proof (le_word_range (skipn 32 sig)) as W. pose proof (le_word_range (skipn 32 sig')) as W'.
  revert R3' W W'. generalize (le_word (skipn 32 sig)) (le_word (skipn 32 sig')). intros i j E W W'.
  assert (K : forall i j, 0 <= i -> 0 <= j -> i <= j -> cmul (Z.to_N i) cG = cmul (Z.to_N j) cG -> i mod rfc_L = j mod rfc_L).
  { clear. intros i j Hi Hj Hle E. replace (Z.to_N j) with (Z.to_N i + Z.to_N (j - i))%N in E by lia. rewrite cmul_plus in E by apply con_G.
    set (X := cmul (Z.to_N i) cG) in *. set (Y := cmul (Z.to_N (j - i)) cG) in *.
    assert (CX : con X) by (apply con_mul, con_G). assert (CY : con Y) by (apply con_mul, con_G).
    assert (Y0 : Y = cO).
    { apply (f_equal (cadd (cneg X))) in E. rewrite <- cadd_assoc in E by (try assumption; apply con_neg; assumption).
      assert (Z0 : cadd (cneg X) X = cO). { unfold cadd. rewrite Curve25519.padd_comm. apply cadd_neg. exact CX. }
      rewrite Z0, cO_add in E. symmetry. exact E. }
    apply order_exact in Y0; [|lia]. destruct Y0 as [q Q]. replace j with (i + q * rfc_L) by lia. symmetry. apply Z.mod_add. discriminate. }
  destruct (Z_le_gt_dec i j) as [Q|Q].
  - apply K; [lia|lia|exact Q|congruence].
  - symmetry. apply K; [lia|lia|lia|congruence].
Qed.
Print Assumptions C84_same_nonce_partial.
(** Beside them: the signature of RFC 8032's first test with L added to S is taken, and its
    reduction is the one of the RFC. *)
Example C84_modulo_example : exists sig', length sig' = 64%nat /\ sig' <> rfc_sig /\
  pure_crypto_sign_open (sig' ++ []) rfc_public = Ok [] /\
  firstn 32 sig' ++ le_bytes 32 (le_word (skipn 32 sig') mod rfc_L) = rfc_sig.
Proof.
  destruct (C84_malleable_refuted rfc_seed [] eq_refl ltac:(vm_compute; reflexivity)) as (D & _ & _ & O). rewrite rfc_public_eq, rfc_sig_eq in *.
  eexists. split; [|split; [exact D|split; [exact O|]]]; vm_compute; reflexivity.
Qed.
