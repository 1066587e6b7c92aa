(** C80-C85: signatures of the pure Python port. *)
From Coq Require Import List ZArith Bool Strings.Byte Lia ZifyBool ZifyNat ZifyN.
From Verif Require Import PyBase PyBase_proofs PyInt ShaSpec SalsaSpec CurveSpec EdSpec Fast25519 EdPoint TwCurve_proofs TwSign TwSign_proofs TwModL_proofs TwEd_proofs EdSig_proofs.
Import ListNotations.
Open Scope Z_scope.
Ltac Zify.zify_post_hook ::= Z.div_mod_to_equations.

(** Multiples of the base point, computed fast, for the examples. *)
Definition fast_point (n : positive) : Z * Z :=
  let '(X, Y, Z, T) := mulp n Bp in let i := invx Z in (mulx X i, mulx Y i).
Lemma fast_point_w : forall n, ed_mul (Zpos n) rfc_B = fast_point n.
Proof.
  intros n. rewrite <- fromP_mul by (apply Pos2Z.is_nonneg). unfold fast_point. pose proof (mulp_w n Bp cG con_G Bp_w) as P.
  change (Z.to_N (Zpos n)) with (Npos n). destruct (mulp n Bp) as [[[X Y] Z] T]. cbv zeta. rewrite !mulx_spec, invx_spec.
  rewrite (zext_x _ _ _ _ _ P), (zext_y _ _ _ _ _ P). destruct (fromP (cmul (Npos n) cG)). reflexivity.
Qed.

(** ** C80: key pairs *)
Theorem C80_sign_keypair : forall seed,
  (length seed = 32%nat -> pure_sign_keypair_not_random seed = Ok (ed_public seed, seed ++ ed_public seed)) /\
  (length seed <> 32%nat -> pure_sign_keypair_not_random seed = Err ValueError).
Proof.
  intros seed. split; [apply keypair_w|]. intros H. unfold pure_sign_keypair_not_random. replace (length seed =? 32)%nat with false by lia. reflexivity.
Qed.
Print Assumptions C80_sign_keypair.
(** RFC 8032, section 7.1, test 1 *)
Definition rfc_seed : list byte := le_bytes 32 0x607fae1c03ac3b701969327b69c54944c42cec92f44a84ba605afdef9db1619d.
Definition rfc_public : list byte := le_bytes 32 0x1a5107f7681a02af2523a6daf372e10e3a0764c9d3fe4bd5b70ab18201985ad7.
Lemma rfc_scalar : secret_scalar rfc_seed = 36144925721603087658594284515452164870581325872720374094707712194495455132720.
Proof. vm_compute. reflexivity. Qed.
Lemma rfc_public_eq : ed_public rfc_seed = rfc_public.
Proof. unfold ed_public. rewrite rfc_scalar, fast_point_w. vm_compute. reflexivity. Qed.
Example C80_example : pure_sign_keypair_not_random rfc_seed = Ok (rfc_public, rfc_seed ++ rfc_public).
Proof. rewrite (proj1 (C80_sign_keypair rfc_seed)) by reflexivity. rewrite rfc_public_eq. reflexivity. Qed.

(** ** C81: signing *)
Theorem C81_sign : forall m sk,
  ((64 <= length sk)%nat -> Z.of_nat (length m) + 64 < 2 ^ 64 ->
   pure_crypto_sign m sk = Ok (ed_sign (firstn 32 sk) (firstn 32 (skipn 32 sk)) m ++ m)) /\
  ((length sk < 64)%nat -> pure_crypto_sign m sk = Err IndexError).
Proof.
  intros m sk. split; [apply sign_w|]. intros H. unfold pure_crypto_sign. replace (length sk <? 64)%nat with true by lia. reflexivity.
Qed.
Print Assumptions C81_sign.
(** RFC 8032, section 7.1, test 1: the empty message *)
Definition rfc_sig : list byte :=
  le_bytes 32 0x5501492265e073d874d9e5b81e7f87848a826e80cce2869072ac60c3004356e5 ++
  le_bytes 32 0x0b107a8e4341516524be5b59f0f55bd26bb4f91c70391ec6ac3ba3901582b85f.
Lemma rfc_sig_eq : ed_sign rfc_seed rfc_public [] = rfc_sig.
Proof.
  unfold ed_sign. cbv zeta. rewrite rfc_scalar.
  assert (R : hash_L (skipn 32 (sha512 rfc_seed) ++ []) = 2015312323900227545039973048451112962192803170366412514267238242679089760755) by (vm_compute; reflexivity).
  rewrite R, fast_point_w.
  assert (P : encode_point (fast_point 2015312323900227545039973048451112962192803170366412514267238242679089760755) = firstn 32 rfc_sig) by (vm_compute; reflexivity).
  rewrite P. vm_compute. reflexivity.
Qed.
Example C81_example : pure_crypto_sign [] (rfc_seed ++ rfc_public) = Ok rfc_sig.
Proof.
  rewrite (proj1 (C81_sign [] (rfc_seed ++ rfc_public))) by (vm_compute; first [reflexivity | lia]).
  change (firstn 32 (rfc_seed ++ rfc_public)) with rfc_seed. change (firstn 32 (skipn 32 (rfc_seed ++ rfc_public))) with rfc_public.
  rewrite rfc_sig_eq. apply f_equal. apply app_nil_r.
Qed.

(** ** C83: opening *)
Lemma valid_open : forall sm pk, (64 <= length sm)%nat -> (32 <= length pk)%nat ->
  (open_ok sm pk <-> loose_valid (firstn 32 pk) (firstn 64 sm) (skipn 64 sm)).
Proof.
  intros sm pk L Lp. unfold open_ok, loose_valid. split; [intros H; split; [rewrite firstn_length; lia|exact H]|tauto].
Qed.
Lemma open_short : forall sm pk, (length sm < 64)%nat -> pure_crypto_sign_open sm pk = Err NameError.
Proof.
  intros sm pk H. unfold pure_crypto_sign_open, crypto_sign_ed25519_open. replace (length sm <? 64)%nat with true by lia. rewrite andb_false_r. reflexivity.
Qed.
Theorem C83_open_exact : forall sm pk, (32 <= length pk)%nat -> Z.of_nat (length sm) < 2 ^ 64 ->
  (forall m, pure_crypto_sign_open sm pk = Ok m <-> exists sig, sm = sig ++ m /\ loose_valid (firstn 32 pk) sig m) /\
  (forall e, pure_crypto_sign_open sm pk = Err e -> e = NameError).
Proof.
  intros sm pk Lp B. destruct (Nat.ltb_spec (length sm) 64) as [H|H].
  - rewrite (open_short sm pk H). split; [|intros e E; injection E as <-; reflexivity]. intros m. split; [discriminate|].
    intros (sig & -> & L & _). rewrite app_length in H. lia.
  - pose proof (valid_open sm pk H Lp) as V.
    assert (D : forall sig m, sm = sig ++ m -> length sig = 64%nat -> sig = firstn 64 sm /\ m = skipn 64 sm).
    { intros sig m -> L. rewrite firstn_app, skipn_app, L, Nat.sub_diag, firstn_O, skipn_O, app_nil_r, firstn_all2, skipn_all2 by lia. split; reflexivity. }
    destruct (open_cases sm pk H Lp B) as [[E O]|[E O]]; rewrite E.
    + split; [|discriminate]. intros m. split.
      * intros Q. injection Q as <-. exists (firstn 64 sm). split; [symmetry; apply firstn_skipn|apply V; exact O].
      * intros (sig & S & Q). destruct (D sig m S (proj1 Q)) as [_ ->]. reflexivity.
    + split; [|intros e Q; injection Q as <-; reflexivity]. intros m. split; [discriminate|].
      intros (sig & S & Q). elim O. apply V. destruct (D sig m S (proj1 Q)) as [<- <-]. exact Q.
Qed.
Print Assumptions C83_open_exact.
(** RFC 8032, test 1, and the key and message of C85 *)
Example C83_example : pure_crypto_sign_open rfc_sig rfc_public = Ok [].
Proof.
  apply (proj1 (C83_open_exact rfc_sig rfc_public ltac:(vm_compute; lia) ltac:(vm_compute; reflexivity))).
  exists rfc_sig. split; [symmetry; apply app_nil_r|]. change (firstn 32 rfc_public) with rfc_public. rewrite <- rfc_sig_eq, <- rfc_public_eq. apply rfc_loose. apply sign_valid.
Qed.

(** ** C82: what was signed opens to what was signed *)
Theorem C82_sign_open : forall seed m, length seed = 32%nat -> Z.of_nat (length m) + 64 < 2 ^ 64 ->
  exists pk sk sm, pure_sign_keypair_not_random seed = Ok (pk, sk) /\ pure_crypto_sign m sk = Ok sm /\
    length sm = (length m + 64)%nat /\ rfc_valid pk (firstn 64 sm) m /\ pure_crypto_sign_open sm pk = Ok m.
Proof.
  intros seed m L B. set (pk := ed_public seed). assert (Lk : length pk = 32%nat) by apply encode_length. exists pk, (seed ++ pk), (ed_sign seed pk m ++ m).
  destruct (sign_parts seed pk m) as [Ls _]. split; [apply (proj1 (C80_sign_keypair seed) L)|]. split; [|split; [|split]].
  - rewrite (proj1 (C81_sign m (seed ++ pk))); [|rewrite app_length; lia|exact B]. rewrite skipn_app, L, Nat.sub_diag, skipn_all2, skipn_O, app_nil_l by lia.
    rewrite firstn_app, L, Nat.sub_diag, firstn_O, app_nil_r, !firstn_all2 by lia. reflexivity.
  - rewrite app_length. lia.
  - rewrite firstn_app, Ls, Nat.sub_diag, firstn_O, app_nil_r, firstn_all2 by lia. apply sign_valid.
  - apply (proj1 (C83_open_exact (ed_sign seed pk m ++ m) pk ltac:(lia) ltac:(rewrite app_length; lia))). exists (ed_sign seed pk m). split; [reflexivity|].
    rewrite firstn_all2 by lia. apply rfc_loose. apply sign_valid.
Qed.
Print Assumptions C82_sign_open.
Example C82_example : exists sm, pure_crypto_sign [x68; x69] (rfc_seed ++ rfc_public) = Ok sm /\ pure_crypto_sign_open sm rfc_public = Ok [x68; x69].
Proof.
  destruct (C82_sign_open rfc_seed [x68; x69] eq_refl ltac:(vm_compute; reflexivity)) as (pk & sk & sm & K & S & _ & _ & O).
  rewrite C80_example in K. injection K as <- <-. exists sm. split; [exact S|exact O].
Qed.
(** The claim that a bad signature is reported as BadSignatureException is false: there is
    no such name in the module, and NameError is raised instead. *)
Theorem C86_bad_signature_refuted :
  ~ (forall sm pk, length pk = 32%nat -> (forall m, pure_crypto_sign_open sm pk <> Ok m) -> pure_crypto_sign_open sm pk = Err BadSignatureException).
Proof.
  intros H. specialize (H [] rfc_public eq_refl). rewrite (open_short [] rfc_public) in H by (cbn; lia). discriminate H. intros m Q. discriminate Q.
Qed.
Print Assumptions C86_bad_signature_refuted.

(** ** C84: valid signatures are accepted, but not only those *)
Theorem C84_valid_accepted_partial : forall pk sig m, length pk = 32%nat -> Z.of_nat (length m) + 64 < 2 ^ 64 ->
  rfc_valid pk sig m -> pure_crypto_sign_open (sig ++ m) pk = Ok m.
Proof.
  intros pk sig m L B V. pose proof V as [Ls _].
  apply (proj1 (C83_open_exact (sig ++ m) pk ltac:(lia) ltac:(rewrite app_length; lia))). exists sig. split; [reflexivity|]. rewrite firstn_all2 by lia. apply rfc_loose. exact V.
Qed.
Print Assumptions C84_valid_accepted_partial.
(** Anybody can turn a signature into another one of the same message: add L to S. *)
Theorem C84_malleable_refuted : forall seed m, length seed = 32%nat -> Z.of_nat (length m) + 64 < 2 ^ 64 ->
  let pk := ed_public seed in let sig := ed_sign seed pk m in
  let sig' := firstn 32 sig ++ le_bytes 32 (le_word (skipn 32 sig) + rfc_L) in
  sig' <> sig /\ ~ rfc_valid pk sig' m /\
  pure_crypto_sign_open (sig ++ m) pk = Ok m /\ pure_crypto_sign_open (sig' ++ m) pk = Ok m.
Proof.
  intros seed m L B pk sig sig'. destruct (sign_other seed m) as [V N]. fold pk in V, N. fold sig in V, N. fold sig' in V, N. assert (Lk : length pk = 32%nat) by apply encode_length.
  pose proof (sign_valid seed m) as S. fold pk in S. fold sig in S. split; [intros E; apply N; rewrite E; exact S|]. split; [exact N|].
  split; [apply C84_valid_accepted_partial; assumption|].
  pose proof V as [Ls _]. apply (proj1 (C83_open_exact (sig' ++ m) pk ltac:(lia) ltac:(rewrite app_length; lia))). exists sig'. split; [reflexivity|]. rewrite firstn_all2 by lia. exact V.
Qed.
Print Assumptions C84_malleable_refuted.
(** A key that is the encoding of no point is used all the same: p + 1 stands for y = 1. *)
Theorem C84_wide_key_refuted : forall m, Z.of_nat (length m) + 64 < 2 ^ 64 ->
  (forall A, ~ strict_key (le_bytes 32 (p25519 + 1)) A) /\
  pure_crypto_sign_open ((le_bytes 32 1 ++ le_bytes 32 0) ++ m) (le_bytes 32 (p25519 + 1)) = Ok m.
Proof.
  intros m B. split; [exact wide_no_key|]. pose proof (wide_loose m) as V. unfold wide_one in V. assert (Lk : length (le_bytes 32 (p25519 + 1)) = 32%nat) by (vm_compute; reflexivity).
  remember (le_bytes 32 (p25519 + 1)) as pk. remember (le_bytes 32 1 ++ le_bytes 32 0) as sig. pose proof V as [Ls _].
  apply (proj1 (C83_open_exact (sig ++ m) pk ltac:(lia) ltac:(rewrite app_length; lia))). exists sig. split; [reflexivity|]. rewrite firstn_all2 by lia. exact V.
Qed.
Print Assumptions C84_wide_key_refuted.
Example C84_example : exists sig', sig' <> rfc_sig /\ pure_crypto_sign_open sig' rfc_public = Ok [].
Proof.
  destruct (C84_malleable_refuted rfc_seed [] eq_refl ltac:(vm_compute; reflexivity)) as (D & _ & _ & O). rewrite app_nil_r in O. rewrite rfc_public_eq, rfc_sig_eq in *.
  eexists. split; [exact D|exact O].
Qed.

(** ** C85: a key under which one signature is good for every message *)
Theorem C85_weak_key_refuted : exists pk sig, length pk = 32%nat /\ length sig = 64%nat /\
  forall m, Z.of_nat (length m) + 64 < 2 ^ 64 -> pure_crypto_sign_open (sig ++ m) pk = Ok m.
Proof.
  exists (le_bytes 32 1), (le_bytes 32 1 ++ le_bytes 32 0). split; [reflexivity|]. split; [reflexivity|]. intros m B.
  apply C84_valid_accepted_partial; [reflexivity|exact B|apply weak_valid].
Qed.
Print Assumptions C85_weak_key_refuted.
