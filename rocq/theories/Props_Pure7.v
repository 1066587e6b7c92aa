(** C123 and C124: the functions of the pure Python port that make key pairs of random bytes and
    boxes in one step. *)
From Coq Require Import List ZArith Bool Strings.Byte Lia ZifyBool ZifyNat ZifyN.
From Verif Require Import PyBase PyBase_proofs PyInt PyInt_proofs ChkPy TwHash TwSalsa TwPoly TwField TwSign TwPure ShaSpec SalsaSpec PolySpec CurveSpec EdSpec
  TwHash_proofs TwSalsa_proofs TwBox_proofs TwField_proofs TwCurve_proofs TwSign_proofs TwEd_proofs
  ChkHash ChkSalsa ChkField ChkSign ChkHash_proofs ChkSalsa_proofs ChkField_proofs ChkSign_proofs ChkSig_proofs ChkBox_proofs TwKeys
  Props_Pure Props_Pure2 Props_Pure3 Props_Pure4 Props_Pure5 Props_Pure6.
Import ListNotations.
Open Scope Z_scope.
Ltac Zify.zify_post_hook ::= Z.div_mod_to_equations.

(** * C123 Random key pairs *)
(** The 32 random bytes are the secret key, and the public key is that of X25519. *)
Theorem C123_box : forall y x rnd, length y = 32%nat -> length rnd = 32%nat ->
  exists y', box_keypair_c y x rnd = Ok (y', of_bytes rnd ++ skipn 32 x) /\ holds y' (box_public rnd).
Proof.
  intros y x rnd Ly Lr. unfold box_keypair_c. cbv zeta. unfold randombytes_c.
  assert (Lb : length b9 = 32%nat) by reflexivity.
  destruct (scalarmult_ok y (of_bytes rnd ++ skipn 32 x) b9) as [E _]; [lia|rewrite app_length, of_bytes_length; lia|lia|].
  rewrite E. rb. eexists. split; [reflexivity|].
  assert (HB : holds b9 (to_bytes b9)) by (apply byt_holds; repeat (constructor; [apply byt_mk; lia|]); constructor).
  assert (EX : crypto_scalarmult y (of_bytes rnd ++ skipn 32 x) b9 = crypto_scalarmult y (of_bytes rnd) b9).
  { unfold crypto_scalarmult. rewrite (clamp_firstn (of_bytes rnd ++ skipn 32 x)), firstn_app, of_bytes_length, Lr, Nat.sub_diag, firstn_O.
    rewrite app_nil_r, firstn_all2 by (rewrite of_bytes_length; lia). reflexivity. }
  rewrite EX. pose proof (scalarmult_any y (of_bytes rnd) rnd b9 _ Ly (holds_of_bytes rnd) ltac:(lia) HB ltac:(rewrite to_bytes_length; lia)) as W.
  assert (B : firstn 32 (to_bytes b9) = base_point) by (vm_compute; reflexivity). rewrite B, firstn_all2 in W by lia. exact W.
Qed.
Print Assumptions C123_box.

(** A signing key pair: the public key of RFC 8032, and the 32 bytes followed by it. *)
Lemma copy_items : forall pk sk n, (n <= length pk)%nat -> (32 + n <= length sk)%nat ->
  for_c n (fun sk i => lset sk (32 + i) (rget pk i)) sk = Ok (firstn 32 sk ++ firstn n pk ++ skipn (32 + n) sk).
Proof.
  intros pk sk n. induction n as [|n IH]; intros Lp Ls.
  - rewrite Nat.add_0_r, firstn_O. cbn [app]. rewrite firstn_skipn. reflexivity.
  - rewrite for_c_S, IH by lia. rb. unfold lset, sput. rewrite rget_ok by lia. rb. rewrite lput_ok by (rewrite !app_length, !firstn_length, skipn_length; lia).
    f_equal. assert (E : exists a r, skipn (32 + n) sk = a :: r /\ skipn (32 + S n) sk = r).
    { destruct (skipn (32 + n) sk) as [|a r] eqn:Q; [apply (f_equal (@length pint)) in Q; rewrite skipn_length in Q; cbn [length] in Q; lia|].
      exists a, r. split; [reflexivity|]. replace (32 + S n)%nat with (1 + (32 + n))%nat by lia. rewrite <- skipn_skipn, Q. reflexivity. }
    destruct E as (a & r & -> & ->). rewrite app_assoc. replace (32 + n)%nat with (length (firstn 32 sk ++ firstn n pk)) by (rewrite app_length, !firstn_length; lia).
    rewrite (seti_mid _ a r _ _ eq_refl), (TwHash_proofs.firstn_S_nth _ pk n (plain 0)) by lia. rewrite <- !app_assoc. reflexivity.
Qed.

Theorem C123_sign : forall pk sk rnd, (32 <= length pk)%nat -> (64 <= length sk)%nat -> length rnd = 32%nat ->
  exists p, sign_keypair_c pk sk rnd = Ok (p ++ skipn 32 pk, of_bytes rnd ++ p ++ skipn 64 sk) /\ holds p (ed_public rnd).
Proof.
  intros pk sk rnd Lp Ls Lr. unfold sign_keypair_c. cbv zeta. unfold randombytes_c.
  assert (F : firstn 32 (of_bytes rnd ++ skipn 32 sk) = of_bytes rnd).
  { rewrite firstn_app, of_bytes_length, Lr, Nat.sub_diag, firstn_O, app_nil_r. apply firstn_all2. rewrite of_bytes_length. lia. }
  rewrite hash32_app by (rewrite of_bytes_length; lia).
  pose proof (hash_w (int_array TU8 64) (of_bytes rnd) rnd 32 (holds_of_bytes rnd) ltac:(lia) ltac:(change (Z.to_nat 32) with 32%nat; lia) ltac:(lia) eq_refl) as W.
  change (Z.to_nat 32) with 32%nat in W. rewrite (firstn_all2 rnd) in W by lia.
  destruct (hash_ok (int_array TU8 64) (of_bytes rnd) 32) as [E LD0]; [cbn; lia|rewrite of_bytes_length; lia|]. rewrite E. clear E. rb.
  remember (crypto_hash_sha512 (int_array TU8 64) (of_bytes rnd) 32) as d eqn:Q; clear Q.
  destruct (clamp_d_num _ _ W (sha512_length _)) as (N & R & LD).
  destruct (clampd_ok d) as [E _]; [rewrite LD0; cbn; lia|]. rewrite E. clear E. rb.
  pose proof (scalarbase4_w gf4_new _ _ new_lens (sbits_num _ _ R N)) as SB.
  destruct (scalarbase4_ok gf4_new (clamp_d d) new_l4) as [E LP]; [lia|]. rewrite E. clear E. rb. remember (scalarbase4 gf4_new (clamp_d d)) as p eqn:Q; clear Q.
  destruct (point_ok pk p Lp LP) as [E LK]. rewrite E. clear E. rb.
  destruct (pack_point_w pk p _ Lp SB) as (s & E & HS). rewrite E in LK |- *. clear E.
  pose proof (holds_length _ _ HS) as L. rewrite encode_length in L.
  rewrite copy_items by (rewrite !app_length, ?of_bytes_length, !skipn_length; lia). rb.
  exists s. split; [|rewrite fromP_mul in HS by apply decode_scalar_pos; exact HS].
  rewrite F. do 3 f_equal. rewrite firstn_app, L, Nat.sub_diag, firstn_O, app_nil_r, firstn_all2 by lia. f_equal.
  rewrite skipn_app, of_bytes_length, Lr, skipn_all2 by (rewrite of_bytes_length; lia). cbn [app].
  rewrite skipn_skipn. f_equal.
Qed.
Print Assumptions C123_sign.

(** Lists of the documented sizes become the key pairs that SaltLibPure makes of the same 32 bytes,
    whatever they held before. *)
Theorem C123_as_seed : forall rnd pk sk y x, length rnd = 32%nat -> length pk = 32%nat -> length sk = 64%nat -> length y = 32%nat -> length x = 32%nat ->
  (exists p s bp bs, sign_keypair_c pk sk rnd = Ok (p, s) /\ rbytes p = Ok bp /\ rbytes s = Ok bs /\ method_sign_keypair rnd = Ok (bp, bs)) /\
  (exists p s bp bs, box_keypair_c y x rnd = Ok (p, s) /\ rbytes p = Ok bp /\ rbytes s = Ok bs /\ method_box_keypair rnd = Ok (bp, bs)).
Proof.
  intros rnd pk sk y x Lr Lp Ls Ly Lx. split.
  - destruct (C123_sign pk sk rnd) as (p & E & H); [lia..|]. rewrite !skipn_all2, !app_nil_r in E by lia.
    exists p, (of_bytes rnd ++ p), (ed_public rnd), (rnd ++ ed_public rnd). split; [exact E|]. split; [apply rbytes_holds; exact H|].
    split; [apply rbytes_holds, holds_app; [apply holds_of_bytes|exact H]|apply C112_sign_keypair; exact Lr].
  - destruct (C123_box y x rnd Ly Lr) as (p & E & H). rewrite skipn_all2, app_nil_r in E by lia.
    exists p, (of_bytes rnd), (box_public rnd), rnd. split; [exact E|]. split; [apply rbytes_holds; exact H|].
    split; [apply rbytes_holds, holds_of_bytes|apply C113_box_keypair; exact Lr].
Qed.
Print Assumptions C123_as_seed.

(** A list that is too short for the secret key makes the call raise. *)
Lemma copy_short : forall pk sk, (32 <= length pk)%nat -> (32 <= length sk < 64)%nat -> for_c 32 (fun sk i => lset sk (32 + i) (rget pk i)) sk = Err IndexError.
Proof.
  intros pk sk Lp Ls. apply (for_fails _ 32 _ sk (length sk - 32) (firstn 32 sk ++ firstn (length sk - 32) pk ++ skipn (32 + (length sk - 32)) sk)); [apply copy_items; lia| |lia].
  unfold lset, sput. rewrite rget_ok by lia. rb. unfold lput.
  replace (32 + (length sk - 32) <? length _)%nat with false; [reflexivity|]. symmetry. apply Nat.ltb_ge. rewrite !app_length, !firstn_length, skipn_length. lia.
Qed.
Theorem C123_short : forall pk sk rnd, (32 <= length pk)%nat -> (length sk < 64)%nat -> length rnd = 32%nat ->
  sign_keypair_c pk sk rnd = Err IndexError.
Proof.
  intros pk sk rnd Lp Ls Lr. destruct (C123_sign pk (repeat (plain 0) 64) rnd) as (p & E & H); [exact Lp|rewrite repeat_length; lia|exact Lr|].
  unfold sign_keypair_c in E |- *. cbv zeta in E |- *. unfold randombytes_c in *. rewrite hash32_app in E |- * by (rewrite of_bytes_length; lia).
  apply bind_inv in E. destruct E as (d & -> & E). rb. apply bind_inv in E. destruct E as (d2 & -> & E). rb. apply bind_inv in E. destruct E as (q & EQ & E). rewrite EQ. rb.
  apply bind_inv in E. destruct E as (pk2 & EP & E). rewrite EP. rb. apply bind_inv in E. destruct E as (s2 & _ & E). injection E as E _.
  rewrite copy_short; [reflexivity| |rewrite app_length, of_bytes_length, skipn_length; lia].
  rewrite E, app_length, (holds_length _ _ H). unfold ed_public. rewrite encode_length. lia.
Qed.
Print Assumptions C123_short.

(** * C124 Boxes in one step *)
Lemma box_keystream : forall c m n pk sk, length c = (32 + length m)%nat -> length n = 24%nat -> length pk = 32%nat -> length sk = 32%nat ->
  (32 + length m <= 64 * 258)%nat ->
  exists c', box_c c (of_bytes (repeat x00 32 ++ m)) (Z.of_nat (32 + length m)) (of_bytes n) (of_bytes pk) (of_bytes sk) = Ok (0, c') /\
    holds c' (repeat x00 16 ++ pure_box_afternm m n (box_key pk sk)).
Proof.
  intros c m n pk sk Lc Ln Lp Ls HX. unfold box_c.
  destruct (beforenm_ok (int_array TU8 32) (of_bytes pk) (of_bytes sk)) as [E LK]; [cbn; lia|rewrite of_bytes_length; lia..|]. rewrite E. clear E. rb.
  pose proof (beforenm_w (int_array TU8 32) (of_bytes pk) pk (of_bytes sk) sk eq_refl (holds_of_bytes sk) ltac:(lia) (holds_of_bytes pk) ltac:(lia)) as W.
  rewrite !firstn_all2 in W by lia. remember (crypto_box_beforenm _ _ _) as k eqn:Q. clear Q. change (length (int_array TU8 32)) with 32%nat in LK.
  rewrite secretbox_ok by (rewrite ?of_bytes_length, ?app_length, ?repeat_length; lia).
  pose proof (holds_length _ _ W) as LB. rewrite LK in LB. symmetry in LB.
  destruct (secretbox_keystream c (of_bytes (repeat x00 32 ++ m)) m (of_bytes n) n k (box_key pk sk) (holds_of_bytes _) (holds_of_bytes n) Ln W LB Lc HX) as (c' & E & H).
  rewrite E. exists c'. split; [reflexivity|]. rewrite (box_afternm_keystream m n _ Ln LB HX). exact H.
Qed.
(** NaCl's box for messages of up to 16416 bytes (C69, C71) ... *)
Theorem C124_box_partial : forall c m n pk sk, length c = (32 + length m)%nat -> length n = 24%nat -> length pk = 32%nat -> length sk = 32%nat ->
  (32 + length m <= 64 * 257)%nat ->
  exists c', box_c c (of_bytes (repeat x00 32 ++ m)) (Z.of_nat (32 + length m)) (of_bytes n) (of_bytes pk) (of_bytes sk) = Ok (0, c') /\
    holds c' (repeat x00 16 ++ secretbox (box_key pk sk) n m).
Proof.
  intros c m n pk sk Lc Ln Lp Ls HX. destruct (box_keystream c m n pk sk Lc Ln Lp Ls) as (c' & E & H); [lia|]. exists c'. split; [exact E|].
  rewrite C71_box_partial in H; [exact H|exact Ln| |exact HX].
  pose proof (holds_length _ _ (beforenm_w (int_array TU8 32) (of_bytes pk) pk (of_bytes sk) sk eq_refl (holds_of_bytes sk) ltac:(lia) (holds_of_bytes pk) ltac:(lia))) as L.
  rewrite !firstn_all2 in L by lia. rewrite <- L. apply (beforenm_ok (int_array TU8 32)); [cbn; lia|rewrite of_bytes_length; lia..].
Qed.
Print Assumptions C124_box_partial.

(** ... and not beyond: a longer message may give another box. *)
Definition zero_key : bytes := hsalsa20 (repeat x00 32) (repeat x00 16).
Lemma zero_key_blocks_differ :
  nth 0 (salsa20_block (hsalsa20 zero_key (firstn 16 (repeat x00 24))) (skipn 16 (repeat x00 24)) 769) x00 <>
  nth 0 (salsa20_block (hsalsa20 zero_key (firstn 16 (repeat x00 24))) (skipn 16 (repeat x00 24)) 257) x00.
Proof. vm_compute. discriminate. Qed.
Theorem C124_box_refuted : exists c m n pk sk, length c = (32 + length m)%nat /\ length n = 24%nat /\ length pk = 32%nat /\ length sk = 32%nat /\
  ~ exists c', box_c c (of_bytes (repeat x00 32 ++ m)) (Z.of_nat (32 + length m)) (of_bytes n) (of_bytes pk) (of_bytes sk) = Ok (0, c') /\
      holds c' (repeat x00 16 ++ secretbox (box_key pk sk) n m).
Proof.
  assert (G : forall l m sk, (32 + l)%nat = (64 * 257)%nat -> m = repeat x00 (S l) -> length sk = 32%nat ->
    ~ exists c', box_c (int_array TU8 (32 + length m)) (of_bytes (repeat x00 32 ++ m)) (Z.of_nat (32 + length m)) (of_bytes (repeat x00 24)) (of_bytes (repeat x00 32)) (of_bytes sk) = Ok (0, c') /\
      holds c' (repeat x00 16 ++ secretbox (box_key (repeat x00 32) sk) (repeat x00 24) m)).
  { intros l m sk Hl Hm Ls (c' & E & H). assert (LM : length m = S l) by (rewrite Hm; apply repeat_length).
    destruct (box_keystream (int_array TU8 (32 + length m)) m (repeat x00 24) (repeat x00 32) sk) as (c2 & E2 & H2); try assumption; try apply repeat_length; [lia|].
    rewrite E in E2. injection E2 as <-. pose proof (eq_trans (eq_sym (holds_to_bytes _ _ H2)) (holds_to_bytes _ _ H)) as X. apply app_inv_head in X.
    rewrite box_key_zero in X. revert X. apply (refuted_box l Hl m (hsalsa20 (repeat x00 32) (repeat x00 16)) (repeat x00 24) Hm); [apply repeat_length| |exact zero_key_blocks_differ]. reflexivity. }
  exists (int_array TU8 (32 + length (repeat x00 (S (64 * 257 - 32))))), (repeat x00 (S (64 * 257 - 32))), (repeat x00 24), (repeat x00 32), (repeat x05 32).
  split; [apply repeat_length|]. split; [apply repeat_length|]. split; [apply repeat_length|]. split; [apply repeat_length|].
  apply (G (64 * 257 - 32)%nat); [lia|reflexivity|apply repeat_length].
Qed.
Print Assumptions C124_box_refuted.

(** Opening: the result code says whether the box carries its tag; the list given for the message
    is replaced by 32 zeros in the first case and left alone in the second. *)
Theorem C124_open : forall m c n pk sk, (16 + length c <= length m)%nat -> length n = 24%nat -> length pk = 32%nat -> length sk = 32%nat ->
  let r := box_open_c m (of_bytes (repeat x00 16 ++ c)) (Z.of_nat (16 + length c)) (of_bytes n) (of_bytes pk) (of_bytes sk) in
  (tag_ok c n (box_key pk sk) -> exists z, r = Ok (0, z) /\ holds z (repeat x00 32)) /\
  (~ tag_ok c n (box_key pk sk) -> r = Ok (-1, m)).
Proof.
  intros m c n pk sk Lm Ln Lp Ls r. subst r. unfold box_open_c.
  destruct (beforenm_ok (int_array TU8 32) (of_bytes pk) (of_bytes sk)) as [E LK]; [cbn; lia|rewrite of_bytes_length; lia..|]. rewrite E. clear E. rb.
  pose proof (beforenm_w (int_array TU8 32) (of_bytes pk) pk (of_bytes sk) sk eq_refl (holds_of_bytes sk) ltac:(lia) (holds_of_bytes pk) ltac:(lia)) as W.
  rewrite !firstn_all2 in W by lia. remember (crypto_box_beforenm _ _ _) as k eqn:Q. clear Q. change (length (int_array TU8 32)) with 32%nat in LK.
  pose proof (holds_length _ _ W) as LB. rewrite LK in LB. symmetry in LB. remember (box_key pk sk) as kb eqn:Q. clear Q.
  rewrite secretbox_open_ok by (rewrite ?of_bytes_length, ?app_length, ?repeat_length; lia).
  rewrite (secretbox_open_w m _ c _ n k kb (holds_of_bytes _) (holds_of_bytes n) Ln W LB). unfold tag_ok.
  destruct (Nat.leb_spec 16 (length c)) as [Q|Q]; cbn [andb].
  - destruct (list_eq_dec _ _ _) as [e|e].
    + split; [intros _; eexists; split; [reflexivity|reflexivity]|intros N; destruct N; split; assumption].
    + split; [intros [_ T]; destruct (e T)|reflexivity].
  - split; [intros [T _]; lia|reflexivity].
Qed.
Print Assumptions C124_open.

Lemma ok_inj : forall A (a b : A), Ok a = Ok b -> a = b.
Proof. intros A a b E. injection E as E. exact E. Qed.
Lemma shared : forall rA rB, length rA = 32%nat -> length rB = 32%nat -> exists k, box_key (box_public rB) rA = k /\ box_key (box_public rA) rB = k /\ length k = 32%nat.
Proof.
  intros rA rB LA LB. destruct (C113_shared_key rA rB LA LB) as (pA & pB & k & E1 & E2 & E3 & E4 & L). exists k.
  assert (PA : length (box_public rA) = 32%nat) by (unfold box_public; apply x25519_length). assert (PB : length (box_public rB) = 32%nat) by (unfold box_public; apply x25519_length).
  rewrite C113_box_keypair in E1, E2 by assumption. apply ok_inj in E1. apply ok_inj in E2. apply (f_equal fst) in E1. apply (f_equal fst) in E2. cbn [fst] in E1, E2. subst pA pB.
  rewrite C113_beforenm in E3, E4 by lia. rewrite !firstn_all2 in E3, E4 by lia. apply ok_inj in E3. apply ok_inj in E4. repeat split; assumption.
Qed.
Lemma accepted_gen : forall pA pB rA rB k m n c buf, length pA = 32%nat -> length pB = 32%nat -> length rA = 32%nat -> length rB = 32%nat -> length k = 32%nat ->
  box_key pB rA = k -> box_key pA rB = k -> length n = 24%nat -> (32 + length m <= 64 * 257)%nat -> length c = (32 + length m)%nat -> (32 + length m <= length buf)%nat ->
  exists c' b z,
    box_c c (of_bytes (repeat x00 32 ++ m)) (Z.of_nat (32 + length m)) (of_bytes n) (of_bytes pB) (of_bytes rA) = Ok (0, c') /\
    rbytes c' = Ok (repeat x00 16 ++ b) /\ length b = (16 + length m)%nat /\
    box_open_c buf (of_bytes (repeat x00 16 ++ b)) (Z.of_nat (16 + length b)) (of_bytes n) (of_bytes pA) (of_bytes rB) = Ok (0, z) /\
    holds z (repeat x00 32).
Proof.
  intros pA pB rA rB k m n c buf PA PB LA LB LK KA KB Ln HX Lc Lbuf.
  destruct (C124_box_partial c m n pB rA Lc Ln PB LA HX) as (c' & E & H). rewrite KA in H.
  assert (T : tag_ok (secretbox k n m) n k) by (rewrite <- (C71_box_partial m n k Ln LK HX); apply sealed_tag_ok; assumption).
  assert (LS : length (secretbox k n m) = (16 + length m)%nat) by (rewrite <- (C71_box_partial m n k Ln LK HX); apply afternm_length; lia).
  remember (secretbox k n m) as b eqn:Q. clear Q.
  destruct (C124_open buf b n pA rB ltac:(lia) Ln PA LB) as [O _].
  rewrite KB in O. destruct (O T) as (z & EZ & HZ).
  exists c', b, z. split; [exact E|]. split; [apply rbytes_holds; exact H|]. split; [exact LS|]. split; assumption.
Qed.
(** Between two fresh key pairs: what one side boxes the other side accepts ... *)
Theorem C124_accepted_partial : forall rA rB m n c buf, length rA = 32%nat -> length rB = 32%nat -> length n = 24%nat -> (32 + length m <= 64 * 257)%nat ->
  length c = (32 + length m)%nat -> (32 + length m <= length buf)%nat ->
  exists c' b z,
    box_c c (of_bytes (repeat x00 32 ++ m)) (Z.of_nat (32 + length m)) (of_bytes n) (of_bytes (box_public rB)) (of_bytes rA) = Ok (0, c') /\
    rbytes c' = Ok (repeat x00 16 ++ b) /\ length b = (16 + length m)%nat /\
    box_open_c buf (of_bytes (repeat x00 16 ++ b)) (Z.of_nat (16 + length b)) (of_bytes n) (of_bytes (box_public rA)) (of_bytes rB) = Ok (0, z) /\
    holds z (repeat x00 32).
Proof.
  intros rA rB m n c buf LA LB Ln HX Lc Lbuf. destruct (shared rA rB LA LB) as (k & KA & KB & LK).
  refine (accepted_gen _ _ rA rB k m n c buf _ _ LA LB LK KA KB Ln HX Lc Lbuf); unfold box_public; apply x25519_length.
Qed.
Print Assumptions C124_accepted_partial.

(** ... but the message is never there. *)
Theorem C124_message_refuted : forall buf c n pk sk z m, (16 + length c <= length buf)%nat -> length n = 24%nat -> length pk = 32%nat -> length sk = 32%nat ->
  box_open_c buf (of_bytes (repeat x00 16 ++ c)) (Z.of_nat (16 + length c)) (of_bytes n) (of_bytes pk) (of_bytes sk) = Ok (0, z) ->
  m <> [] -> ~ holds z (repeat x00 32 ++ m).
Proof.
  intros buf c n pk sk z m Lb Ln Lp Ls E N H. destruct (C124_open buf c n pk sk Lb Ln Lp Ls) as [O1 O2].
  assert (D : tag_ok c n (box_key pk sk) \/ ~ tag_ok c n (box_key pk sk)).
  { unfold tag_ok. destruct (Nat.le_gt_cases 16 (length c)) as [Q|Q]; [|right; intros [T _]; lia].
    destruct (list_eq_dec Byte.byte_eq_dec (firstn 16 c) (poly1305 (xsalsa20_stream (box_key pk sk) n 32) (skipn 16 c))) as [e|e]; [left; split; assumption|right; intros [_ T]; exact (e T)]. }
  destruct D as [T|T].
  - destruct (O1 T) as (z2 & E2 & HZ). rewrite E in E2. injection E2 as <-. pose proof (holds_length _ _ HZ) as L1. pose proof (holds_length _ _ H) as L2.
    rewrite app_length, repeat_length in L2. rewrite repeat_length in L1. destruct m; [apply N; reflexivity|cbn [length] in L2; lia].
  - rewrite (O2 T) in E. discriminate E.
Qed.
Print Assumptions C124_message_refuted.

(** Arguments that are too short raise. *)
Theorem C124_short : forall c m d n pk sk, (length pk < 32)%nat \/ (length sk < 32)%nat \/ ((length n < 24)%nat /\ 32 <= d) ->
  box_c c m d n pk sk = Err IndexError /\ box_open_c c m d n pk sk = Err IndexError.
Proof.
  intros c m d n pk sk H. unfold box_c, box_open_c. destruct (Nat.lt_ge_cases (length pk) 32) as [L|L].
  { unfold beforenm_c. rewrite scalarmult_short by lia. split; reflexivity. }
  destruct (Nat.lt_ge_cases (length sk) 32) as [L2|L2]. { unfold beforenm_c. rewrite scalarmult_short by lia. split; reflexivity. }
  destruct H as [H|[H|[H D]]]; [lia|lia|]. destruct (beforenm_ok (int_array TU8 32) pk sk) as [-> _]; [cbn; lia|exact L|exact L2|]. rb.
  split; [|apply box_open_short; [exact D|left; exact H]]. unfold secretbox_c. replace (d <? 32) with false by lia. rewrite stream_xor_short by lia. reflexivity.
Qed.
Print Assumptions C124_short.

(** The message "hi" between two key pairs: accepted, and not there. *)
Definition draw_a : bytes := repeat x05 32.
Definition draw_b : bytes := repeat x06 32.
Example C123_example : exists p s, sign_keypair_c (int_array TU8 32) (int_array TU8 64) draw_a = Ok (p, s) /\ rbytes s = Ok (draw_a ++ ed_public draw_a) /\
  sign_keypair_c (int_array TU8 32) (int_array TU8 63) draw_a = Err IndexError.
Proof.
  destruct (C123_sign (int_array TU8 32) (int_array TU8 64) draw_a) as (p & E & H); [cbn; lia..|reflexivity|]. change (skipn 64 (int_array TU8 64)) with (@nil pint) in E. rewrite !app_nil_r in E.
  exists p, (of_bytes draw_a ++ p). split; [exact E|]. split; [apply rbytes_holds, holds_app; [apply holds_of_bytes|exact H]|].
  apply C123_short; [cbn; lia|cbn; lia|reflexivity].
Qed.
Example C124_example : exists c b z,
  box_c (int_array TU8 34) (of_bytes (repeat x00 32 ++ hi)) 34 (of_bytes box_n) (of_bytes (box_public draw_b)) (of_bytes draw_a) = Ok (0, c) /\
  rbytes c = Ok (repeat x00 16 ++ b) /\
  box_open_c (int_array TU8 34) (of_bytes (repeat x00 16 ++ b)) 34 (of_bytes box_n) (of_bytes (box_public draw_a)) (of_bytes draw_b) = Ok (0, z) /\
  ~ holds z (repeat x00 32 ++ hi).
Proof.
  destruct (C124_accepted_partial draw_a draw_b hi box_n (int_array TU8 34) (int_array TU8 34) eq_refl eq_refl eq_refl) as (c & b & z & E & R & L & O & H);
    [apply Nat.leb_le; reflexivity|reflexivity|cbn; lia|].
  exists c, b, z. rewrite L in O. split; [exact E|]. split; [exact R|]. split; [exact O|].
  intros H2. pose proof (holds_length _ _ H) as L1. rewrite (holds_length _ _ H2) in L1. discriminate L1.
Qed.
