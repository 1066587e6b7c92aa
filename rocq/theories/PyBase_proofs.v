(** Lemmas about [PyBase]. *)
From Coq Require Import List ZArith Bool Strings.Byte Lia ZifyBool ZifyNat ZifyN.
From Verif Require Import PyBase.
Import ListNotations.
Open Scope Z_scope.
Ltac Zify.zify_post_hook ::= Z.div_mod_to_equations.

Lemma b2z_range : forall b, 0 <= b2z b < 256.
Proof.
  intro b. unfold b2z. pose proof (Byte.to_N_bounded b). lia.
Qed.

Lemma z2b_b2z : forall b, z2b (b2z b) = b.
Proof.
  intro b. unfold z2b. rewrite Z.mod_small by apply b2z_range.
  unfold b2z. rewrite N2Z.id. rewrite Byte.of_to_N. reflexivity.
Qed.

Lemma b2z_z2b : forall z, b2z (z2b z) = z mod 256.
Proof.
  intro z. unfold z2b.
  destruct (Byte.of_N (Z.to_N (z mod 256))) eqn:E.
  - apply Byte.to_of_N in E. unfold b2z. rewrite E. lia.
  - apply Byte.of_N_None_iff in E. lia.
Qed.

Lemma b2z_inj : forall a b, b2z a = b2z b -> a = b.
Proof. intros a b H. rewrite <- (z2b_b2z a), <- (z2b_b2z b), H. reflexivity. Qed.

Lemma z2b_mod : forall z, z2b (z mod 256) = z2b z.
Proof. intro z. unfold z2b. rewrite Z.mod_mod by lia. reflexivity. Qed.

Lemma le_enc_length : forall n z, length (le_enc n z) = n.
Proof. induction n; intros; cbn [le_enc length]; auto. Qed.

Lemma le_dec_range : forall b, 0 <= le_dec b < 256 ^ zlen b.
Proof.
  unfold zlen. induction b as [|x b IH]; cbn [le_dec length].
  - cbn. lia.
  - rewrite Nat2Z.inj_succ, Z.pow_succ_r by lia.
    pose proof (b2z_range x). lia.
Qed.

Lemma le_dec_enc : forall n z, le_dec (le_enc n z) = z mod 256 ^ (Z.of_nat n).
Proof.
  induction n; intros z; cbn [le_enc le_dec].
  - cbn. rewrite Z.mod_1_r. reflexivity.
  - rewrite IHn, b2z_z2b, Nat2Z.inj_succ, Z.pow_succ_r by lia.
    rewrite Z.rem_mul_r; lia.
Qed.

Lemma le_enc_dec : forall b, le_enc (length b) (le_dec b) = b.
Proof.
  induction b as [|x b IH]; cbn [length le_enc le_dec]; auto.
  pose proof (b2z_range x).
  f_equal.
  - rewrite <- z2b_mod.
    replace ((b2z x + 256 * le_dec b) mod 256) with (b2z x).
    + apply z2b_b2z.
    + rewrite Z.mul_comm, Z_mod_plus_full, Z.mod_small; lia.
  - replace ((b2z x + 256 * le_dec b) / 256) with (le_dec b); auto.
    rewrite Z.mul_comm, Z_div_plus_full, Z.div_small; lia.
Qed.

Lemma le_dec_inj : forall a b, length a = length b -> le_dec a = le_dec b -> a = b.
Proof.
  intros a b HL HD. rewrite <- (le_enc_dec a), <- (le_enc_dec b), HL, HD. reflexivity.
Qed.

Lemma le_enc_mod : forall n z, le_enc n (z mod 256 ^ Z.of_nat n) = le_enc n z.
Proof.
  intros n z. apply le_dec_inj.
  - rewrite !le_enc_length. reflexivity.
  - rewrite !le_dec_enc. apply Z.mod_mod. apply Z.pow_nonzero; lia.
Qed.

Lemma le_enc_inj : forall n a b,
  0 <= a < 256 ^ Z.of_nat n -> 0 <= b < 256 ^ Z.of_nat n ->
  le_enc n a = le_enc n b -> a = b.
Proof.
  intros n a b Ha Hb H. apply (f_equal le_dec) in H.
  rewrite !le_dec_enc, !Z.mod_small in H; lia.
Qed.

Lemma le_dec_enc_small : forall n z, 0 <= z < 256 ^ Z.of_nat n -> le_dec (le_enc n z) = z.
Proof. intros. rewrite le_dec_enc. apply Z.mod_small; auto. Qed.

Lemma le_dec_signed_enc : forall n z, (0 < n)%nat ->
  - 2 ^ (8 * Z.of_nat n - 1) <= z < 2 ^ (8 * Z.of_nat n - 1) ->
  le_dec_signed n (le_enc n z) = z.
Proof.
  intros n z Hn Hz. unfold le_dec_signed. rewrite le_dec_enc.
  replace (256 ^ Z.of_nat n) with (2 ^ (8 * Z.of_nat n)).
  2:{ rewrite Z.pow_mul_r by lia. reflexivity. }
  assert (HP : 2 ^ (8 * Z.of_nat n) = 2 * 2 ^ (8 * Z.of_nat n - 1)).
  { rewrite <- Z.pow_succ_r by lia. f_equal. lia. }
  rewrite HP. set (P := 2 ^ (8 * Z.of_nat n - 1)) in *.
  assert (0 < P) by (apply Z.pow_pos_nonneg; lia).
  destruct (Z_lt_ge_dec z 0).
  - rewrite <- (Z.mod_add z 1) by lia. rewrite Z.mod_small by lia.
    destruct (Z.ltb_spec (z + 1 * (2 * P)) P); lia.
  - rewrite Z.mod_small by lia. destruct (Z.ltb_spec z P); lia.
Qed.

Lemma zeros_length : forall n, length (zeros n) = n.
Proof. intro. apply repeat_length. Qed.

Lemma byte_eqb_eq : forall a b, Byte.eqb a b = true <-> a = b.
Proof.
  intros a b. split.
  - apply Byte.byte_dec_bl.
  - apply Byte.byte_dec_lb.
Qed.

Lemma bytes_eqb_eq : forall a b, bytes_eqb a b = true <-> a = b.
Proof.
  induction a as [|x a IH]; destruct b as [|y b]; cbn [bytes_eqb]; split; intro H;
    try reflexivity; try discriminate.
  - apply andb_prop in H. destruct H as [H1 H2].
    apply byte_eqb_eq in H1. apply IH in H2. congruence.
  - injection H as -> ->. apply andb_true_intro. split.
    + apply byte_eqb_eq; auto.
    + apply IH; auto.
Qed.

Lemma bytes_eqb_refl : forall a, bytes_eqb a a = true.
Proof. intro; apply bytes_eqb_eq; auto. Qed.

Lemma bytes_eqb_neq : forall a b, bytes_eqb a b = false <-> a <> b.
Proof.
  intros a b. destruct (bytes_eqb a b) eqn:E; split; intro H; try discriminate; auto.
  - apply bytes_eqb_eq in E. congruence.
  - intro F. apply bytes_eqb_eq in F. congruence.
Qed.

Lemma bytes_eq_dec : forall a b : bytes, {a = b} + {a <> b}.
Proof.
  intros a b. destruct (bytes_eqb a b) eqn:E; [left|right].
  - apply bytes_eqb_eq; auto.
  - apply bytes_eqb_neq; auto.
Defined.

Lemma struct_from_bytes_length : forall buf src, length (struct_from_bytes buf src) = length buf.
Proof.
  intros buf src. unfold struct_from_bytes. destruct src as [|x src]; cbn [is_empty]; auto.
  rewrite app_length, firstn_length, skipn_length. lia.
Qed.

Lemma struct_from_bytes_full : forall buf src, (length buf <= length src)%nat ->
  struct_from_bytes buf src = firstn (length buf) src.
Proof.
  intros buf src H. unfold struct_from_bytes. destruct src as [|x src]; cbn [is_empty].
  - destruct buf; [reflexivity | cbn in H; lia].
  - rewrite Nat.min_r by auto. rewrite skipn_all, app_nil_r. reflexivity.
Qed.

Lemma struct_from_bytes_short : forall buf src, (length src <= length buf)%nat ->
  struct_from_bytes buf src = src ++ skipn (length src) buf.
Proof.
  intros buf src H. unfold struct_from_bytes. destruct src as [|x src]; cbn [is_empty].
  - reflexivity.
  - rewrite Nat.min_l by auto. rewrite firstn_all. reflexivity.
Qed.

Lemma fput_length : forall off v buf, (off + length v <= length buf)%nat ->
  length (fput off v buf) = length buf.
Proof.
  intros. unfold fput. rewrite !app_length, firstn_length, skipn_length. lia.
Qed.

Lemma fget_fput_same : forall off v buf, (off + length v <= length buf)%nat ->
  fget off (length v) (fput off v buf) = v.
Proof.
  intros. unfold fget, slice, fput.
  rewrite skipn_app, firstn_length, Nat.min_l by lia.
  rewrite skipn_all2 by (rewrite firstn_length; lia).
  rewrite Nat.sub_diag. cbn [skipn app].
  rewrite firstn_app, Nat.sub_diag, firstn_all. cbn. apply app_nil_r.
Qed.

Lemma fget_length : forall off n buf, (off + n <= length buf)%nat -> length (fget off n buf) = n.
Proof. intros. unfold fget, slice. rewrite firstn_length, skipn_length. lia. Qed.

Lemma app_inj_len : forall A (a b c d : list A), length a = length c ->
  a ++ b = c ++ d -> a = c /\ b = d.
Proof.
  induction a as [|x a IH]; destruct c as [|y c]; cbn [length app]; intros d HL H; try lia; auto.
  injection H as -> H. apply IH in H; [|lia]. destruct H; subst; auto.
Qed.

Lemma firstn_app_exact : forall A n (a b : list A), length a = n -> firstn n (a ++ b) = a.
Proof.
  intros A n a b <-. rewrite firstn_app, Nat.sub_diag, firstn_all. cbn. apply app_nil_r.
Qed.

Lemma skipn_app_exact : forall A n (a b : list A), length a = n -> skipn n (a ++ b) = b.
Proof.
  intros A n a b <-. rewrite skipn_app, Nat.sub_diag, skipn_all. reflexivity.
Qed.

Lemma split_at : forall A n (l : list A), (n <= length l)%nat ->
  exists a b, l = a ++ b /\ length a = n.
Proof.
  intros A n l H. exists (firstn n l), (skipn n l). split.
  - symmetry; apply firstn_skipn.
  - rewrite firstn_length. lia.
Qed.

Lemma is_empty_true : forall A (l : list A), is_empty l = true <-> l = [].
Proof. destruct l; cbn; split; congruence. Qed.

Lemma is_empty_false : forall A (l : list A), is_empty l = false <-> l <> [].
Proof. destruct l; cbn; split; congruence. Qed.

Lemma skipn_skipn : forall A n m (l : list A), skipn n (skipn m l) = skipn (n + m) l.
Proof.
  intros A n m. revert n. induction m; intros n l.
  - rewrite Nat.add_0_r. reflexivity.
  - destruct l; cbn [skipn].
    + rewrite !skipn_nil. reflexivity.
    + rewrite Nat.add_succ_r. cbn [skipn]. apply IHm.
Qed.
