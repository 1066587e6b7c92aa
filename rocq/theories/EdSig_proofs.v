(** Ed25519 as specified in EdSpec: what is signed is valid, and what else is accepted. *)
From Coq Require Import List ZArith Bool Strings.Byte Lia ZifyBool ZifyNat ZifyN.
From Verif Require Import PyBase PyBase_proofs PyInt PyInt_proofs ShaSpec SalsaSpec CurveSpec EdSpec TwHash TwHash_proofs TwSalsa TwSalsa_proofs
  TwField TwField_proofs TwCurve_proofs EdPoint TwSign TwSign_proofs TwModL_proofs TwEd_proofs.
Import ListNotations.
Open Scope Z_scope.
Ltac Zify.zify_post_hook ::= Z.div_mod_to_equations.

Lemma p_255 : p25519 < 2 ^ 255. Proof. vm_compute. reflexivity. Qed.
Lemma encode_word : forall A, ed_on A -> le_word (encode_point A) = snd A + 2 ^ 255 * (fst A mod 2) /\ 0 <= snd A < 2 ^ 255 /\ snd A mod p25519 = snd A.
Proof.
  intros [x y] H. destruct (ed_on_ok _ H) as [_ O]. cbn [fst snd] in *. unfold okz in O. pose proof p_255 as P. pose proof (Z.mod_pos_bound x 2 ltac:(lia)) as X.
  split; [|split; [lia|apply Z.mod_small; exact O]]. unfold encode_point. rewrite le_word_bytes; [reflexivity|].
  change (256 ^ Z.of_nat 32) with (2 * 2 ^ 255). revert O P X. generalize (x mod 2) p25519 (2 ^ 255). intros. nia.
Qed.
Lemma strict_loose : forall b A, strict_key b A -> loose_key b A.
Proof.
  intros b A [H <-]. destruct (encode_word A H) as (E & Y & M). split; [exact H|]. unfold decode_u. rewrite E. pose proof (Z.mod_pos_bound (fst A) 2 ltac:(lia)) as X.
  split; [|right].
  - rewrite <- M at 1. f_equal. symmetry. rewrite Z.mul_comm, Z.mod_add by discriminate. apply Z.mod_small. exact Y.
  - symmetry. rewrite Z.mul_comm, Z.div_add by discriminate. rewrite Z.div_small by exact Y. reflexivity.
Qed.
Lemma encode_inj : forall A B, ed_on A -> ed_on B -> encode_point A = encode_point B -> A = B.
Proof. intros A B HA HB E. apply (loose_unique (encode_point B)); apply strict_loose; split; auto. Qed.
Lemma rfc_loose : forall pk sig m, rfc_valid pk sig m -> loose_valid pk sig m.
Proof. intros pk sig m (L & _ & A & K & E). split; [exact L|]. exists A. split; [apply strict_loose; exact K|exact E]. Qed.

Lemma ed_on_mul : forall n P, ed_on P -> ed_on (ed_mul n P).
Proof.
  intros n P H. apply con_ed; [apply mul_ok|]. rewrite toP_mul. apply con_mul. apply con_ed; [apply ed_on_ok|]; exact H.
Qed.
Lemma ed_mul_mod : forall n, 0 <= n -> ed_mul (n mod rfc_L) rfc_B = ed_mul n rfc_B.
Proof.
  intros n H. apply toP_inj; [apply mul_ok|apply mul_ok|]. rewrite !toP_mul, toP_B. exact (cmul_mod n H).
Qed.
Lemma ed_mul_lin : forall r k a, 0 <= r -> 0 <= k -> 0 <= a -> ed_mul (r + k * a) rfc_B = ed_add (ed_mul r rfc_B) (ed_mul k (ed_mul a rfc_B)).
Proof.
  intros r k a Hr Hk Ha. apply toP_inj; [apply mul_ok|apply add_ok|]. rewrite toP_add, !toP_mul, toP_B.
  rewrite <- (cmul_times (Z.to_N k) (Z.to_N a) cG con_G), <- (cmul_plus (Z.to_N r) (Z.to_N k * Z.to_N a) cG con_G). f_equal. nia.
Qed.
Lemma hash_L_range : forall b, 0 <= hash_L b < rfc_L.
Proof. intros b. apply Z.mod_pos_bound. apply rfc_L_pos. Qed.
Lemma secret_scalar_pos : forall seed, 0 <= secret_scalar seed. Proof. intros. apply decode_scalar_pos. Qed.

(** A signature with S replaced by any S' that is the same modulo L *)
Lemma sign_equation : forall seed m s, length s = 32%nat ->
  let pk := ed_public seed in let sig := ed_sign seed pk m in
  le_word s mod rfc_L = le_word (skipn 32 sig) ->
  sig_equation pk (firstn 32 sig ++ s) m (ed_mul (secret_scalar seed) rfc_B).
Proof.
  intros seed m s Ls pk sig. subst sig. unfold ed_sign. cbv zeta. set (r := hash_L (skipn 32 (sha512 seed) ++ m)). set (R := encode_point (ed_mul r rfc_B)).
  assert (LR : length R = 32%nat) by apply encode_length.
  set (k := hash_L (R ++ pk ++ m)). set (a := secret_scalar seed).
  rewrite firstn_app, LR, Nat.sub_diag, firstn_O, app_nil_r, firstn_all2 by lia. rewrite skipn_app, LR, Nat.sub_diag, skipn_all2 by lia.
  rewrite (skipn_O (le_bytes 32 ((r + k * a) mod rfc_L))). rewrite app_nil_l.
  rewrite le_word_bytes by apply mod_L_256. intros E. unfold sig_equation. rewrite firstn_app, LR, Nat.sub_diag, firstn_O, app_nil_r, firstn_all2 by lia.
  rewrite skipn_app, LR, Nat.sub_diag, skipn_all2 by lia. rewrite (skipn_O s), app_nil_l. fold k.
  pose proof (hash_L_range (skipn 32 (sha512 seed) ++ m)) as Hr. fold r in Hr. pose proof (hash_L_range (R ++ pk ++ m)) as Hk. fold k in Hk.
  pose proof (secret_scalar_pos seed) as Ha. fold a in Ha.
  exists (ed_mul r rfc_B). split; [apply ed_on_mul; exact ed_on_B|]. split; [reflexivity|].
  rewrite <- (ed_mul_mod (le_word s)) by apply le_word_range. rewrite E, ed_mul_mod by nia. apply ed_mul_lin; tauto.
Qed.
Lemma public_key : forall seed, strict_key (ed_public seed) (ed_mul (secret_scalar seed) rfc_B).
Proof. intros seed. split; [apply ed_on_mul; exact ed_on_B|reflexivity]. Qed.
Lemma sign_parts : forall seed pk m, length (ed_sign seed pk m) = 64%nat /\ 0 <= le_word (skipn 32 (ed_sign seed pk m)) < rfc_L.
Proof.
  intros seed pk m. unfold ed_sign. cbv zeta. set (R := encode_point _). assert (LR : length R = 32%nat) by apply encode_length. split.
  - rewrite app_length, le_bytes_length. lia.
  - rewrite skipn_app, LR, Nat.sub_diag, skipn_all2 by lia. rewrite skipn_O, app_nil_l. rewrite le_word_bytes by apply mod_L_256. apply Z.mod_pos_bound. apply rfc_L_pos.
Qed.
Lemma sign_valid : forall seed m, rfc_valid (ed_public seed) (ed_sign seed (ed_public seed) m) m.
Proof.
  intros seed m. destruct (sign_parts seed (ed_public seed) m) as [L S]. split; [exact L|]. split; [apply S|]. exists (ed_mul (secret_scalar seed) rfc_B). split; [apply public_key|].
  pose proof (sign_equation seed m (skipn 32 (ed_sign seed (ed_public seed) m))) as H. cbv zeta in H. rewrite firstn_skipn in H. apply H; [rewrite skipn_length, L; reflexivity|].
  apply Z.mod_small. exact S.
Qed.
Lemma two_L : 2 * rfc_L < 256 ^ Z.of_nat 32. Proof. vm_compute. reflexivity. Qed.
Lemma sign_other : forall seed m, let pk := ed_public seed in let sig := ed_sign seed pk m in
  let sig' := firstn 32 sig ++ le_bytes 32 (le_word (skipn 32 sig) + rfc_L) in
  loose_valid pk sig' m /\ ~ rfc_valid pk sig' m.
Proof.
  intros seed m pk sig sig'. subst sig'. pose proof (sign_parts seed pk m) as P. fold sig in P. destruct P as [L S]. pose proof two_L as T.
  assert (W : le_word (le_bytes 32 (le_word (skipn 32 sig) + rfc_L)) = le_word (skipn 32 sig) + rfc_L).
  { apply le_word_bytes. revert S T. generalize (le_word (skipn 32 sig)) rfc_L (256 ^ Z.of_nat 32). intros. lia. }
  assert (L1 : length (firstn 32 sig) = 32%nat) by (rewrite firstn_length, L; reflexivity).
  split.
  - split; [rewrite app_length, le_bytes_length, L1; reflexivity|]. exists (ed_mul (secret_scalar seed) rfc_B). split; [apply strict_loose; apply public_key|].
    apply sign_equation; [apply le_bytes_length|]. fold pk. fold sig. rewrite W. rewrite <- (Z.mul_1_l rfc_L) at 1. rewrite Z.mod_add by discriminate. apply Z.mod_small. exact S.
  - intros (_ & B & _). rewrite skipn_app, L1, Nat.sub_diag, skipn_all2 in B by lia. rewrite skipn_O, app_nil_l, W in B. revert S B. generalize (le_word (skipn 32 sig)) rfc_L. intros. lia.
Qed.

(** The neutral element as a key *)
Lemma ed_on_O : ed_on ed_O. Proof. vm_compute. intuition discriminate. Qed.
Lemma ed_mul_O : forall n, ed_mul n ed_O = ed_O.
Proof. intros n. apply toP_inj; [apply mul_ok|exact O_ok|]. rewrite toP_mul, toP_O. apply cmul_O. Qed.
Lemma weak_equation : forall pk m, sig_equation pk (le_bytes 32 1 ++ le_bytes 32 0) m ed_O.
Proof.
  intros pk m. unfold sig_equation. exists ed_O. split; [exact ed_on_O|]. split; [reflexivity|]. rewrite ed_mul_O.
  change (le_word (skipn 32 (le_bytes 32 1 ++ le_bytes 32 0))) with 0. apply toP_inj; [apply mul_ok|apply add_ok|].
  rewrite toP_mul, toP_add, toP_O, cadd_O. reflexivity.
Qed.
Lemma weak_valid : forall m, rfc_valid (le_bytes 32 1) (le_bytes 32 1 ++ le_bytes 32 0) m.
Proof.
  intros m. split; [reflexivity|]. split; [vm_compute; reflexivity|]. exists ed_O. split; [split; [exact ed_on_O|reflexivity]|apply weak_equation].
Qed.
(** ... and the same key with y given as y + p *)
Definition wide_one : list byte := le_bytes 32 (p25519 + 1).
Lemma wide_loose : forall m, loose_valid wide_one (le_bytes 32 1 ++ le_bytes 32 0) m.
Proof.
  intros m. split; [reflexivity|]. exists ed_O. split; [|apply weak_equation]. split; [exact ed_on_O|]. split; [vm_compute; reflexivity|left; reflexivity].
Qed.
Lemma wide_no_key : forall A, ~ strict_key wide_one A.
Proof.
  intros A [H E]. destruct (encode_word A H) as (W & Y & _). rewrite E in W. destruct (ed_on_ok _ H) as [_ O]. unfold okz in O.
  assert (X : le_word wide_one = p25519 + 1) by (vm_compute; reflexivity). rewrite X in W. pose proof (Z.mod_pos_bound (fst A) 2 ltac:(lia)) as M. pose proof p_255 as P.
  revert W Y O M P. generalize (fst A mod 2) (snd A). intros x y W Y O M P. assert (x = 0 \/ x = 1) as [-> | ->] by lia; [lia|]. assert (p25519 + 1 < 2 ^ 255) by (vm_compute; reflexivity). lia.
Qed.

Lemma open_cases : forall sm pk, (64 <= length sm)%nat -> (32 <= length pk)%nat -> Z.of_nat (length sm) < 2 ^ 64 ->
  pure_crypto_sign_open sm pk = Ok (skipn 64 sm) /\ open_ok sm pk \/ pure_crypto_sign_open sm pk = Err NameError /\ ~ open_ok sm pk.
Proof.
  intros sm pk H Lp B. unfold pure_crypto_sign_open, crypto_sign_ed25519_open.
  replace (length sm <? 64)%nat with false by lia. replace (length pk <? 32)%nat with false by lia. cbn [andb negb].
  assert (HP : holds (firstn 32 (of_bytes pk)) (firstn 32 pk)) by (apply holds_firstn; apply holds_of_bytes).
  pose proof (unpackneg_w gf4_new (of_bytes pk) (firstn 32 pk) new_lens HP ltac:(rewrite firstn_length; lia)) as U.
  pose proof (open_with_w (unpackneg gf4_new (of_bytes pk)) sm pk (of_bytes (repeat x00 (length sm))) H Lp B ltac:(rewrite of_bytes_length, repeat_length; reflexivity) U) as W.
  destruct (open_with (unpackneg gf4_new (of_bytes pk)) (of_bytes (repeat x00 (length sm))) (of_bytes sm) (length sm) (of_bytes pk)) as [c m'].
  destruct W as [O1 O2]. destruct (Z.eqb_spec c 0) as [Q|Q]; cbn [negb] in *; [left|right].
  - split; [rewrite (O2 Q); reflexivity|apply O1; exact Q].
  - split; [reflexivity|]. intros K. exact (Q (proj2 O1 K)).
Qed.
