(** Lemmas about the library made of the published algorithms. *)
From Coq Require Import List ZArith Bool Strings.Byte Lia ZifyBool ZifyNat ZifyN.
From Verif Require Import PyBase PyBase_proofs Crypto SaltLib Backends ShaSpec SalsaSpec PolySpec CurveSpec EdSpec StdLib TwSalsa_proofs TwBox_proofs TwCurve_proofs Fast25519 EdPoint TwPure Props_Pure3 Props_Pure4
  TwSign_proofs TwModL_proofs TwEd_proofs EdSig_proofs.
From Verif Require Curve25519.
Import ListNotations.
Open Scope Z_scope.
Ltac Zify.zify_post_hook ::= Z.div_mod_to_equations.

(** ** Decoding points *)
Lemma sqrt_m1_eq : sqrt_m1 = Curve25519.ed_i.
Proof.
  unfold sqrt_m1. change ((p25519 - 1) / 4) with (Zpos (Z.to_pos ((p25519 - 1) / 4))). rewrite <- powx_spec. vm_compute. reflexivity.
Qed.
Lemma recover_eq : forall y, recover_x y =
  let x := zroot y (zbase y ^ k58) in let x := if zchk y x =? znum y then x else fmul x Curve25519.ed_i in
  if zchk y x =? znum y then Some x else None.
Proof. intros y. rewrite <- sqrt_m1_eq. unfold recover_x, zchk, zroot, zbase, znum, zden, k58. cbv zeta. reflexivity. Qed.
Lemma recover_w : forall y, match recover_x y with
  | Some x => okz x /\ con (phi x, phi y)
  | None => forall x, ~ con (x, phi y)
  end.
Proof.
  intros y. rewrite recover_eq. cbv zeta. pose proof (fun x => zroot_w y x) as W. cbv zeta in W.
  assert (O : okz (zroot y (zbase y ^ k58))) by apply okz_mod. revert W O. generalize (zroot y (zbase y ^ k58)). intros r W O.
  destruct (Z.eqb_spec (zchk y r) (znum y)) as [Q|Q].
  - destruct (Z.eqb_spec (zchk y r) (znum y)) as [_|N]; [|elim (N Q)]. split; [exact O|]. apply zchk_on. exact Q.
  - destruct (Z.eqb_spec (zchk y (fmul r Curve25519.ed_i)) (znum y)) as [E|E].
    + split; [apply okz_mod|]. apply zchk_on. exact E.
    + intros x H. destruct (W x H) as [K|[_ K]]; [exact (Q K)|exact (E K)].
Qed.
Lemma le_bytes_word : forall b, le_bytes (length b) (le_word b) = b.
Proof.
  induction b as [|x b IH]; [reflexivity|]. cbn [length le_bytes le_word]. pose proof (b2z_range x) as R. change (b2z x) with (bval x) in R.
  f_equal.
  - change (z2b (bval x + 256 * le_word b) = x). apply b2z_inj. rewrite b2z_z2b. change (b2z x) with (bval x). rewrite Z.mul_comm, Z.mod_add by lia. apply Z.mod_small. exact R.
  - replace ((bval x + 256 * le_word b) / 256) with (le_word b) by lia. exact IH.
Qed.

Lemma top_word : forall b, length b = 32%nat -> 0 <= decode_u b < 2 ^ 255 /\ 0 <= le_word b / 2 ^ 255 < 2 /\ le_word b = decode_u b + 2 ^ 255 * (le_word b / 2 ^ 255).
Proof.
  intros b L. pose proof (proj2 (top_bit b L)) as T. unfold decode_u. split; [apply Z.mod_pos_bound; reflexivity|]. split; [exact T|].
  pose proof (Z.div_mod (le_word b) (2 ^ 255) ltac:(discriminate)). lia.
Qed.
Lemma decode_sound : forall b A, length b = 32%nat -> ed_decode b = Some A -> strict_key b A.
Proof.
  intros b A L. unfold ed_decode. change (le_word b mod 2 ^ 255) with (decode_u b). destruct (top_word b L) as (Y & T & W).
  destruct (Z.leb_spec p25519 (decode_u b)) as [P|P]; [discriminate|]. pose proof (recover_w (decode_u b)) as R. destruct (recover_x (decode_u b)) as [x|]; [|discriminate].
  destruct R as [O C]. assert (YM : decode_u b mod p25519 = decode_u b) by (apply Z.mod_small; lia).
  assert (K : forall x', okz x' -> con (phi x', phi (decode_u b)) -> x' mod 2 = le_word b / 2 ^ 255 -> strict_key b (x', decode_u b)).
  { intros x' O' C' E. destruct (key_loose b x' O' C' (or_intror E)) as [H _]. unfold key_point in H. rewrite YM in H. split; [exact H|].
    unfold encode_point. rewrite E, <- W, <- L. apply le_bytes_word. }
  destruct ((x =? 0) && (le_word b / 2 ^ 255 =? 1)) eqn:Z0; [discriminate|]. intros E. assert (SI : forall (X : Type) (a c : X), Some a = Some c -> a = c) by congruence. apply SI in E. subst A.
  destruct (Z.eqb_spec (x mod 2) (le_word b / 2 ^ 255)) as [Q|Q]; [apply K; [exact O|exact C|exact Q]|].
  apply K; [apply okz_mod|rewrite phi_neg; exact (con_neg _ C)|]. destruct (neg_parity x (le_word b / 2 ^ 255) O T Q) as [N|N]; [|exact N].
  exfalso. assert (X : x = 0). { unfold fsub in N. unfold okz in O. revert O N. generalize p25519. intros p O N. destruct (Z.eq_dec x 0) as [X|X]; [exact X|]. replace ((0 - x) mod p) with (p - x) in N by (apply (Z.mod_unique_pos _ _ (-1)); lia). lia. }
  subst x. change (0 mod 2) with 0 in Q. rewrite Z.eqb_refl in Z0. cbn [andb] in Z0. apply Z.eqb_neq in Z0. revert T Q Z0. generalize (le_word b / 2 ^ 255). intros t. lia.
Qed.
Lemma decode_complete : forall b A, length b = 32%nat -> strict_key b A -> ed_decode b = Some A.
Proof.
  intros b A L S. pose proof (strict_loose b A S) as K. destruct (ed_decode b) as [A'|] eqn:E.
  - f_equal. apply (loose_unique b); [|exact K]. apply strict_loose. apply decode_sound; assumption.
  - exfalso. revert E. unfold ed_decode. change (le_word b mod 2 ^ 255) with (decode_u b). destruct (top_word b L) as (Y & T & W).
    destruct S as [O E]. destruct (encode_word A O) as (W' & Y' & M). rewrite E in W'. destruct (ed_on_ok _ O) as [OX OY].
    assert (EY : decode_u b = snd A). { rewrite <- E. unfold decode_u. rewrite E, W'. rewrite Z.mul_comm, Z.mod_add by discriminate. apply Z.mod_small. exact Y'. }
    assert (ES : le_word b / 2 ^ 255 = fst A mod 2). { rewrite W'. rewrite Z.mul_comm, Z.div_add by discriminate. rewrite Z.div_small by exact Y'. reflexivity. }
    destruct (Z.leb_spec p25519 (decode_u b)) as [P|P]; [rewrite EY in P; unfold okz in OY; lia|].
    pose proof (recover_w (decode_u b)) as R. destruct (recover_x (decode_u b)) as [x|].
    + destruct ((x =? 0) && (le_word b / 2 ^ 255 =? 1)) eqn:Z0; [|discriminate]. intros _. apply andb_true_iff in Z0. destruct Z0 as [X S1]. apply Z.eqb_eq in X. apply Z.eqb_eq in S1. subst x.
      destruct R as [O0 C0]. pose proof (loose_unique b A (key_point b 0) K (key_loose b 0 O0 C0 (or_introl eq_refl))) as EA. rewrite EA in ES. cbn [key_point fst] in ES. rewrite ES in S1. discriminate.
    + intros _. destruct (key_on b A K) as [z Hz]. exact (R z Hz).
Qed.
Theorem ed_verify_w : forall pk sig m, ed_verify pk sig m = true <-> length pk = 32%nat /\ rfc_valid pk sig m.
Proof.
  intros pk sig m. unfold ed_verify, rfc_valid, sig_equation. cbv zeta. rewrite !andb_true_iff, !Nat.eqb_eq, Z.ltb_lt. split.
  - intros [[[Lp Ls] B] D]. destruct (ed_decode pk) as [A|] eqn:EA; [|discriminate]. destruct (ed_decode (firstn 32 sig)) as [RP|] eqn:ER; [|discriminate].
    split; [exact Lp|]. split; [exact Ls|]. split; [exact B|]. exists A. split; [apply decode_sound; assumption|].
    apply decode_sound in ER; [|rewrite firstn_length; lia]. destruct ER as [O E]. exists RP. split; [exact O|]. split; [exact E|].
    apply andb_true_iff in D. destruct D as [D1 D2]. apply Z.eqb_eq in D1. apply Z.eqb_eq in D2. apply injective_projections; assumption.
  - intros (Lp & Ls & B & A & K & RP & O & E & Q). split; [auto|]. rewrite (decode_complete pk A Lp K).
    rewrite (decode_complete (firstn 32 sig) RP); [|rewrite firstn_length; lia|split; assumption]. rewrite Q. rewrite !Z.eqb_refl. reflexivity.
Qed.

(** ** Boxes *)
Lemma xor_xor : forall a b, (length a <= length b)%nat -> xor_bytes (xor_bytes a b) b = a.
Proof.
  induction a as [|x a IH]; intros b H; [reflexivity|]. destruct b as [|y b]; [cbn in H; lia|]. unfold xor_bytes in *. cbn [combine map fst snd]. f_equal; [|apply IH; cbn in H; lia].
  change (byte_of_z (Z.lxor (bval (byte_of_z (Z.lxor (bval x) (bval y)))) (bval y))) with (z2b (Z.lxor (b2z (z2b (Z.lxor (b2z x) (b2z y)))) (b2z y))).
  assert (R : 0 <= Z.lxor (b2z x) (b2z y) < 256).
  { exact (byte_lxor x y). }
  rewrite b2z_z2b, Z.mod_small by exact R. rewrite Z.lxor_assoc, Z.lxor_nilpotent, Z.lxor_0_r. apply z2b_b2z.
Qed.
Lemma box_stream : forall k n len, length (skipn 32 (xsalsa20_stream k n (32 + len))) = len.
Proof. intros k n len. rewrite skipn_length. unfold xsalsa20_stream. rewrite stream_length. lia. Qed.
Lemma secretbox_length : forall k n m, length (secretbox k n m) = (16 + length m)%nat.
Proof. intros k n m. unfold secretbox. cbv zeta. rewrite app_length, poly1305_length, xor_bytes_length, box_stream. lia. Qed.
Lemma unbox_box : forall k n m, std_unbox k n (secretbox k n m) = Some m.
Proof.
  intros k n m. unfold std_unbox. cbv zeta. rewrite secretbox_length. replace (16 + length m - 16)%nat with (length m) by lia.
  assert (E : skipn 16 (secretbox k n m) = xor_bytes m (skipn 32 (xsalsa20_stream k n (32 + length m)))).
  { unfold secretbox. cbv zeta. remember (skipn 32 (xsalsa20_stream k n (32 + length m))) as t eqn:Q. clear Q. rewrite skipn_app, poly1305_length, Nat.sub_diag, skipn_all2 by (rewrite poly1305_length; lia). rewrite skipn_O. reflexivity. }
  rewrite E, xor_xor by (rewrite box_stream; lia). rewrite bytes_eqb_refl. replace (16 <=? 16 + length m)%nat with true by lia. reflexivity.
Qed.
Lemma unbox_sound : forall k n c m, std_unbox k n c = Some m -> secretbox k n m = c.
Proof.
  intros k n c m. unfold std_unbox. cbv zeta. generalize (xor_bytes (skipn 16 c) (skipn 32 (xsalsa20_stream k n (32 + (length c - 16))))). intros m'.
  destruct ((16 <=? length c)%nat && bytes_eqb c (secretbox k n m')) eqn:E; [|discriminate]. intros Q. injection Q as <-. apply andb_true_iff in E. destruct E as [_ E].
  apply bytes_eqb_eq in E. symmetry. exact E.
Qed.

(** ** The laws *)
Lemma std_sign_parts : forall sk pk m, std_sigpair sk pk -> exists s, length s = 64%nat /\ std_sign m sk = s ++ m /\ std_open (s ++ m) pk = Some m.
Proof.
  intros sk pk m (seed & L & -> & ->). assert (Lk : length (ed_public seed) = 32%nat) by apply encode_length.
  exists (ed_sign seed (ed_public seed) m). destruct (sign_parts seed (ed_public seed) m) as [Ls _]. split; [exact Ls|]. pose proof (sign_valid seed m) as V.
  unfold std_sign, std_open. revert V Ls Lk. generalize (ed_public seed). intros pk V Ls Lk. split.
  - rewrite skipn_app, L, Nat.sub_diag, skipn_all2, skipn_O, app_nil_l by lia. rewrite firstn_app, L, Nat.sub_diag, firstn_O, app_nil_r, !firstn_all2 by lia. reflexivity.
  - revert V Ls. generalize (ed_sign seed pk m). intros sig V Ls. rewrite firstn_app, skipn_app, Ls, Nat.sub_diag, firstn_O, skipn_O, app_nil_r, firstn_all2, skipn_all2 by lia.
    rewrite app_nil_l. rewrite (proj2 (ed_verify_w pk sig m)) by (split; assumption). reflexivity.
Qed.
Lemma std_dh : forall ska pka skb pkb, std_encpair ska pka -> std_encpair skb pkb ->
  length (box_key pkb ska) = 32%nat /\ box_key pkb ska = box_key pka skb.
Proof.
  intros ska pka skb pkb [_ ->] [_ ->]. split; [apply hsalsa20_length|]. unfold box_key. rewrite (x25519_agree ska skb). generalize (x25519 skb (box_public ska)). intros s. reflexivity.
Qed.
Lemma std_encpub : forall sk pk, std_encpair sk pk -> length pk = 32%nat.
Proof. intros sk pk [_ ->]. unfold box_public. apply x25519_length. Qed.
Lemma std_sigpub : forall sk pk, std_sigpair sk pk -> length pk = 32%nat.
Proof. intros sk pk (seed & _ & -> & _). apply encode_length. Qed.
