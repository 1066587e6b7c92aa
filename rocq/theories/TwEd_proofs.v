(** Lemmas about TwSign: keys, signing and opening. *)
From Coq Require Import List ZArith Bool Strings.Byte Lia ZifyBool ZifyNat ZifyN.
From Verif Require Import PyBase PyBase_proofs PyInt PyInt_proofs ShaSpec SalsaSpec CurveSpec EdSpec TwHash TwHash_proofs TwSalsa TwSalsa_proofs
  TwPoly TwPoly_proofs TwBox_proofs TwField Radix_proofs TwField_proofs TwPack_proofs TwCurve_proofs EdPoint TwSign TwSign_proofs TwModL_proofs.
From Verif Require Curve25519.
Import ListNotations.
Open Scope Z_scope.
Ltac Zify.zify_post_hook ::= Z.div_mod_to_equations.

Lemma sha512_length : forall m, length (sha512 m) = 64%nat.
Proof.
  intros m. unfold sha512. pose proof (fold_compress_length (blocks (pad m)) h0 eq_refl) as E. revert E.
  generalize (fold_left compress (blocks (pad m)) h0). intros l E. do 8 (destruct l as [|? l]; [discriminate|]). destruct l; [reflexivity|discriminate].
Qed.
Lemma rfc_L_pos : 0 < rfc_L < 256 ^ 32. Proof. vm_compute. split; reflexivity. Qed.
Lemma mod_L_256 : forall z, 0 <= z mod rfc_L < 256 ^ Z.of_nat 32.
Proof.
  intros z. change (256 ^ Z.of_nat 32) with (256 ^ 32). pose proof rfc_L_pos as P. revert P. generalize rfc_L (256 ^ 32). intros l k P.
  pose proof (Z.mod_pos_bound z l). lia.
Qed.

(** ** Reducing a hash *)
Lemma reduce_w : forall r b, holds r b -> length b = 64%nat ->
  reduce r = of_bytes (le_bytes 32 (le_word b mod rfc_L)) ++ repeat (mk TU8 0) 32.
Proof.
  intros r b H L. unfold reduce. rewrite for_range_fill by (cbn; lia). change (skipn 64 (int_array TI64 64)) with (@nil pint). rewrite app_nil_r.
  assert (LX : length (map (fun i => cast TU64 (geti r i)) (seq 0 64)) = 64%nat) by reflexivity.
  assert (P : forall j, (j < 64)%nat -> px (map (fun i => cast TU64 (geti r i)) (seq 0 64)) j = bval (nth j b x00)).
  { intros j Hj. unfold px, geti at 1. rewrite (nth_indep _ _ (cast TU64 (geti r 0))) by (rewrite LX; exact Hj).
    rewrite (map_nth (fun i => cast TU64 (geti r i)) (seq 0 64) 0%nat j), seq_nth by exact Hj. cbn [Nat.add].
    unfold cast. rewrite (holds_geti r b j H) by lia. change b2z with bval. pose proof (byte_range b j) as B.
rewrite mk_small by exact B. reflexivity. }
  rewrite modL_w; [| exact LX | | cbn; lia].
  - rewrite (num_ext 256 64 _ (fun i => bval (nth i b x00))) by exact P. rewrite num_bytes by lia. reflexivity.
  - intros j. destruct (Nat.lt_ge_cases j 64) as [Q|Q]; [rewrite P by exact Q; pose proof (byte_range b j); lia|rewrite px_out by (rewrite LX; exact Q); lia].
Qed.
Lemma hash_reduce : forall out m b n, holds m b -> (n <= length b)%nat -> Z.of_nat n < 2 ^ 64 -> length out = 64%nat ->
  reduce (crypto_hash_sha512 out m (Z.of_nat n)) = of_bytes (le_bytes 32 (hash_L (firstn n b))) ++ repeat (mk TU8 0) 32.
Proof.
  intros out m b n H L B O. pose proof (hash_w out m b (Z.of_nat n) H ltac:(lia) ltac:(rewrite Nat2Z.id; exact L) B O) as W. rewrite Nat2Z.id in W.
  rewrite (reduce_w _ _ W (sha512_length _)). reflexivity.
Qed.

(** ** Scalars *)
Lemma sbits_num : forall s k, (forall i, (i < 32)%nat -> 0 <= px s i < 256) -> num 256 32 (px s) = k -> sbits s k.
Proof.
  intros s k R <-. split.
  - change (2 ^ 256) with (256 ^ Z.of_nat 32). apply num_range; [lia|exact R].
  - intros i Hi. assert (Hq : (i / 8 < 32)%nat) by (apply Nat.div_lt_upper_bound; lia). split; [apply R; exact Hq|].
    rewrite (num_ext 256 32 (px s) (fun j => if (j <? 32)%nat then px s j else 0)).
    2: { intros j Hj. replace (j <? 32)%nat with true by lia. reflexivity. }
    rewrite num_testbit; [replace (i / 8 <? 32)%nat with true by lia; reflexivity| |lia].
    intros j. destruct (Nat.ltb_spec j 32); [apply R; assumption|lia].
Qed.
Lemma num_zf : forall b, length b = 32%nat -> num 256 32 (zf b) = decode_scalar b.
Proof.
  intros b L. apply Z.bits_inj'. intros n Hn. destruct (Z.lt_ge_cases n 255) as [Q|Q].
  - replace n with (Z.of_nat (Z.to_nat n)) by lia. rewrite <- scalar_bit by (try exact L; lia). apply num_testbit; [intros; apply zf_range|lia].
  - assert (D : Z.testbit (decode_scalar b) n = false).
    { unfold decode_scalar. rewrite Z.lor_spec, Z.land_spec, (high_bits 255 (2 ^ 255 - 8)), (high_bits 255 (2 ^ 254)) by lia. rewrite andb_false_r. reflexivity. }
    rewrite D. apply (high_bits 255); [|lia]. change 32%nat with (S 31). rewrite num_S.
    pose proof (num_range 256 31 (zf b) ltac:(lia) (fun i _ => zf_range b i)) as R.
    assert (T : 0 <= zf b 31 < 128).
    { change (zf b 31) with (Z.lor (Z.land (bval (nth 31 b x00)) 127) 64). change 128 with (2 ^ 7). apply lor_bound; [lia| |lia].
      change 127 with (2 ^ 7 - 1). rewrite land_ones by lia. lia. }
    change (256 ^ Z.of_nat 31) with (2 ^ 248) in *. revert R T. generalize (num 256 31 (zf b)) (zf b 31). intros. lia.
Qed.
Lemma clamp_d_w : forall d b k, holds d b -> length b = 64%nat -> (k < 64)%nat ->
  px (clamp_d d) k = if (k <? 32)%nat then zf (firstn 32 b) k else bval (nth k b x00).
Proof.
  intros d b k H L Hk. assert (LD : length d = 64%nat) by (rewrite (holds_length _ _ H); exact L).
  unfold clamp_d. cbv zeta. rewrite !px_seti by (rewrite ?seti_length; lia).
  rewrite !(seti_geti_chain (seti d 0 _)) by (rewrite ?seti_length; lia).
  rewrite !(seti_geti_chain d) by lia. change (31 =? 31)%nat with true. change (0 =? 31)%nat with false. cbv iota.
  unfold pand, por. rewrite !typed_plain_r. cbn [plain pv]. rewrite !(holds_geti d b _ H) by lia. change b2z with bval.
  unfold zf. destruct (Nat.eqb_spec 31 k) as [<-|Q1]; [cbn [Nat.ltb Nat.leb Nat.eqb]; rewrite nth_firstn_lt by lia; reflexivity|]. destruct (Nat.eqb_spec 0 k) as [<-|Q0].
  - change (0 <? 32)%nat with true. change (0 =? 0)%nat with true. cbv iota. rewrite nth_firstn_lt by lia. reflexivity.
  - unfold px. rewrite (holds_geti d b _ H) by lia. change b2z with bval. replace (k =? 0)%nat with false by lia. replace (k =? 31)%nat with false by lia.
    destruct (Nat.ltb_spec k 32) as [Q|Q]; [rewrite nth_firstn_lt by exact Q|]; reflexivity.
Qed.
Lemma clamp_d_num : forall d b, holds d b -> length b = 64%nat ->
  num 256 32 (px (clamp_d d)) = decode_scalar (firstn 32 b) /\ (forall i, (i < 32)%nat -> 0 <= px (clamp_d d) i < 256) /\ length (clamp_d d) = 64%nat.
Proof.
  intros d b H L. assert (LD : length d = 64%nat) by (rewrite (holds_length _ _ H); exact L).
  assert (E : forall i, (i < 32)%nat -> px (clamp_d d) i = zf (firstn 32 b) i).
  { intros i Hi. rewrite (clamp_d_w d b) by (assumption || lia). replace (i <? 32)%nat with true by lia. reflexivity. }
  split; [rewrite (num_ext 256 32 _ (zf (firstn 32 b))) by exact E; apply num_zf; rewrite firstn_length; lia|].
  split; [intros i Hi; rewrite E by exact Hi; apply zf_range|]. unfold clamp_d. cbv zeta. rewrite !seti_length. exact LD.
Qed.

(** ** The product of signing *)
Definition prow (x0 : list pint) (r : Z) (hv : Z) (d : list pint) (i k : nat) (x : list pint) : Prop :=
  length x = 64%nat /\ (forall j, 0 <= px x j <= 255 + (Z.of_nat i + 1) * 65025) /\
  (forall j, (i + k <= j)%nat -> px x j <= 255 + Z.of_nat i * 65025) /\
  num 256 64 (px x) = r + hv * 256 ^ Z.of_nat i * num 256 k (px d).
Lemma sign_row : forall x0 h d r i, (i < 32)%nat -> length x0 = 64%nat -> (forall j, 0 <= px x0 j <= 255 + Z.of_nat i * 65025) -> num 256 64 (px x0) = r ->
  isp h i -> 0 <= px h i < 256 -> (forall j, (j < 32)%nat -> 0 <= px d j < 256) ->
  let x := for_range 32 (fun x j => seti x (i + j) (padd (geti x (i + j)) (pmul (geti h i) (cast TU64 (geti d j))))) x0 in
  length x = 64%nat /\ (forall j, 0 <= px x j <= 255 + (Z.of_nat i + 1) * 65025) /\ num 256 64 (px x) = r + px h i * 256 ^ Z.of_nat i * num 256 32 (px d).
Proof.
  intros x0 h d r i Hi L0 B0 V0 Ih Hh Hd x.
  assert (P : prow x0 r (px h i) d i 32 x).
  { unfold x. apply (for_range_inv _ (prow x0 r (px h i) d i)).
    - split; [exact L0|]. split; [intros j; specialize (B0 j); lia|]. split; [intros j _; apply B0|].
      change (num 256 0 (px d)) with 0. rewrite V0, Z.mul_0_r, Z.add_0_r. reflexivity.
    - intros k y Hk (L & B & B2 & V). rewrite Ih. unfold pmul. rewrite typed_plain_l. unfold padd. rewrite typed_plain_r.
      specialize (Hd k Hk). unfold cast. rewrite mk_small by exact Hd. cbn [plain pv]. change (pv (geti d k)) with (px d k). change (pv (geti y (i + k))) with (px y (i + k)).
      assert (M : 0 <= px h i * px d k <= 65025) by (clear - Hh Hd; nia).
      split; [rewrite seti_length; exact L|]. split; [|split].
      + intros j. rewrite px_seti by lia. destruct (Nat.eqb_spec (i + k) j) as [Q|Q]; [|apply B]. cbn [plain pv].
        specialize (B (i + k)%nat). specialize (B2 (i + k)%nat ltac:(lia)). clear - M B B2. lia.
      + intros j Hj. rewrite px_seti by lia. replace (i + k =? j)%nat with false by lia. apply B2. lia.
      + rewrite num_seti by lia. cbn [plain pv]. rewrite V, (num_S 256 k (px d)), Nat2Z.inj_add, Z.pow_add_r by lia.
        clear. generalize (num 256 k (px d)) (256 ^ Z.of_nat i) (256 ^ Z.of_nat k) (px h i) (px d k) (px y (i + k)). intros. ring. }
  destruct P as (L & B & _ & V). split; [exact L|]. split; [exact B|exact V].
Qed.
Lemma sign_x_w : forall r h d, (forall i, (i < 32)%nat -> 0 <= px r i < 256) -> (forall i, (i < 32)%nat -> isp h i /\ 0 <= px h i < 256) ->
  (forall i, (i < 32)%nat -> 0 <= px d i < 256) ->
  length (sign_x r h d) = 64%nat /\ (forall j, - 2 ^ 22 <= px (sign_x r h d) j <= 2 ^ 22) /\
  num 256 64 (px (sign_x r h d)) = num 256 32 (px r) + num 256 32 (px h) * num 256 32 (px d).
Proof.
  intros r h d Hr Hh Hd. unfold sign_x.
  rewrite (for_range_fill 64) by (cbn; lia). rewrite (for_range_fill 32) by (rewrite app_length, map_length, seq_length; lia).
  assert (E : map (fun i => cast TU64 (geti r i)) (seq 0 32) ++ skipn 32 (map (fun _ : nat => plain 0) (seq 0 64) ++ skipn 64 (int_array TI64 64)) =
              map (fun i => cast TU64 (geti r i)) (seq 0 32) ++ repeat (plain 0) 32) by reflexivity.
  rewrite E. clear E. remember (map (fun i => cast TU64 (geti r i)) (seq 0 32) ++ repeat (plain 0) 32) as x0 eqn:EX.
  assert (L0 : length x0 = 64%nat) by (subst x0; reflexivity).
  assert (P0 : forall j, (j < 32)%nat -> px x0 j = px r j).
  { intros j Hj. subst x0. unfold px, geti at 1. rewrite app_nth1 by (rewrite map_length, seq_length; exact Hj).
    rewrite (nth_indep _ _ (cast TU64 (geti r 0))) by (rewrite map_length, seq_length; exact Hj).
    rewrite (map_nth (fun i => cast TU64 (geti r i)) (seq 0 32) 0%nat j), seq_nth by exact Hj. cbn [Nat.add]. unfold cast. rewrite mk_small by (apply Hr; exact Hj). reflexivity. }
  assert (P1 : forall j, (32 <= j)%nat -> px x0 j = 0).
  { intros j Hj. subst x0. unfold px, geti. rewrite app_nth2 by (rewrite map_length, seq_length; exact Hj). rewrite map_length, seq_length.
    destruct (Nat.lt_ge_cases (j - 32) 32) as [Q|Q]; [rewrite nth_repeat; reflexivity|rewrite nth_overflow by (rewrite repeat_length; exact Q); reflexivity]. }
  clear EX.
  assert (V0 : num 256 64 (px x0) = num 256 32 (px r)) by (rewrite num_64 by exact P1; apply num_ext; exact P0).
  match goal with |- context [for_range 32 ?f x0] =>
    assert (P : length (for_range 32 f x0) = 64%nat /\ (forall j, 0 <= px (for_range 32 f x0) j <= 255 + Z.of_nat 32 * 65025) /\
      num 256 64 (px (for_range 32 f x0)) = num 256 32 (px r) + num 256 32 (px h) * num 256 32 (px d)) end.
  { apply (for_range_inv _ (fun i x => length x = 64%nat /\ (forall j, 0 <= px x j <= 255 + Z.of_nat i * 65025) /\
      num 256 64 (px x) = num 256 32 (px r) + num 256 i (px h) * num 256 32 (px d))).
    - split; [exact L0|]. split; [|change (num 256 0 (px h)) with 0; rewrite V0, Z.mul_0_l, Z.add_0_r; reflexivity].
      intros j. destruct (Nat.lt_ge_cases j 32) as [Q|Q]; [rewrite P0 by exact Q; specialize (Hr j Q); lia|rewrite P1 by exact Q; lia].
    - intros i x Hi (L & B & V). destruct (Hh i Hi) as [Ih Bh]. destruct (sign_row x h d _ i Hi L B V Ih Bh Hd) as (L' & B' & V').
      split; [exact L'|]. split; [intros j; specialize (B' j); lia|]. rewrite V', (num_S 256 i (px h)).
      clear. generalize (num 256 32 (px r)) (num 256 i (px h)) (num 256 32 (px d)) (px h i) (256 ^ Z.of_nat i). intros. ring. }
  destruct P as (L & B & V). split; [exact L|]. split; [intros j; specialize (B j); lia|exact V].
Qed.

(** ** Key pairs *)
Lemma fromP_mul : forall k, 0 <= k -> fromP (cmul (Z.to_N k) cG) = ed_mul k rfc_B.
Proof. intros k _. rewrite <- toP_B, <- toP_mul. apply from_to. apply mul_ok. Qed.
Lemma decode_scalar_pos : forall b, 0 <= decode_scalar b.
Proof. intros b. unfold decode_scalar. apply Z.lor_nonneg. split; [apply Z.land_nonneg; right|]; lia. Qed.
Lemma encode_length : forall P, length (encode_point P) = 32%nat.
Proof. intros [x y]. apply le_bytes_length. Qed.
Lemma keypair_w : forall seed, length seed = 32%nat -> pure_sign_keypair_not_random seed = Ok (ed_public seed, seed ++ ed_public seed).
Proof.
  intros seed L. unfold pure_sign_keypair_not_random. rewrite L. cbn [Nat.eqb negb].
  pose proof (hash_w (int_array TU8 64) (of_bytes seed) seed 32 (holds_of_bytes seed) ltac:(lia) ltac:(change (Z.to_nat 32) with 32%nat; lia) ltac:(lia) eq_refl) as W.
  change (Z.to_nat 32) with 32%nat in W. rewrite (firstn_all2 seed) in W by lia.
  destruct (clamp_d_num _ _ W (sha512_length _)) as (N & R & _).
  pose proof (scalarbase4_w gf4_new _ _ new_lens (sbits_num _ _ R N)) as SB.
  destruct (pack_point_w (int_array TU8 32) _ _ ltac:(cbn; lia) SB) as (s & E & HS). rewrite E.
  change (skipn 32 (int_array TU8 32)) with (@nil pint). rewrite app_nil_r. rewrite (holds_to_bytes _ _ HS).
  rewrite fromP_mul by apply decode_scalar_pos. reflexivity.
Qed.

(** ** Signing *)
Lemma bare_holds : forall l b, holds l b -> bare l = of_bytes b.
Proof. intros l b H. unfold bare, of_bytes. rewrite <- (map_map pv plain l), <- (map_map b2z plain b). f_equal. exact H. Qed.
Lemma of_bytes_app : forall a b, of_bytes (a ++ b) = of_bytes a ++ of_bytes b.
Proof. intros a b. apply map_app. Qed.
Lemma of_bytes_length : forall b, length (of_bytes b) = length b.
Proof. intros b. apply map_length. Qed.
Lemma px_bytes : forall b t i, (i < length b)%nat -> isp (of_bytes b ++ t) i /\ px (of_bytes b ++ t) i = bval (nth i b x00).
Proof.
  intros b t i H. unfold isp, px, geti. rewrite app_nth1 by (rewrite of_bytes_length; exact H). unfold of_bytes.
  rewrite (nth_indep _ _ (plain (b2z x00))) by (rewrite map_length; exact H). rewrite (map_nth (fun y => plain (b2z y))). split; reflexivity.
Qed.
Lemma num_of_bytes : forall z t, 0 <= z < 256 ^ Z.of_nat 32 -> num 256 32 (px (of_bytes (le_bytes 32 z) ++ t)) = z.
Proof.
  intros z t H. rewrite (num_ext 256 32 _ (fun i => bval (nth i (le_bytes 32 z) x00))).
  - rewrite num_bytes by (rewrite le_bytes_length; lia). apply le_word_bytes. exact H.
  - intros i Hi. apply px_bytes. rewrite le_bytes_length. exact Hi.
Qed.
Lemma sbits_of_bytes : forall z t, 0 <= z < 256 ^ Z.of_nat 32 -> sbits (of_bytes (le_bytes 32 z) ++ t) z.
Proof.
  intros z t H. apply sbits_num; [|apply num_of_bytes; exact H]. intros i Hi.
  rewrite (proj2 (px_bytes (le_bytes 32 z) t i ltac:(rewrite le_bytes_length; exact Hi))). apply byte_range.
Qed.
Lemma holds_map_geti : forall off n l b, holds l b -> (off + n <= length b)%nat -> holds (map (fun i => geti l (i + off)) (seq 0 n)) (firstn n (skipn off b)).
Proof.
  intros off n l b H L. apply holds_map_seq; [rewrite firstn_length, skipn_length; lia|].
  intros i Hi. rewrite (holds_geti l b) by (assumption || lia). rewrite nth_firstn_lt by exact Hi. rewrite nth_skipn, Nat.add_comm. reflexivity.
Qed.
Lemma clamp_d_tail : forall d b, holds d b -> length b = 64%nat -> holds (map (fun i => geti (clamp_d d) (i + 32)) (seq 0 32)) (skipn 32 b).
Proof.
  intros d b H L. apply holds_map_seq; [rewrite skipn_length; lia|]. intros i Hi. change (pv (geti (clamp_d d) (i + 32))) with (px (clamp_d d) (i + 32)).
  rewrite (clamp_d_w d b) by (assumption || lia). replace (i + 32 <? 32)%nat with false by lia. rewrite nth_skipn, Nat.add_comm. reflexivity.
Qed.
Lemma sign_fill_w : forall sm m d b, length sm = (length m + 64)%nat -> holds sm (repeat x00 (length m + 64)) -> holds d b -> length b = 64%nat ->
  sign_fill sm (of_bytes m) (length m) (clamp_d d) = of_bytes (repeat x00 32 ++ skipn 32 b ++ m).
Proof.
  intros sm m d b L Z H Lb. unfold sign_fill. apply bare_holds.
  rewrite (for_range_ext _ (length m) _ (fun sm i => seti sm (i + 64) (geti (of_bytes m) i))) by (intros s i Hi; rewrite Nat.add_comm; reflexivity).
  rewrite (for_range_ext _ 32 _ (fun sm i => seti sm (i + 32) (geti (clamp_d d) (i + 32)))) by (intros s i Hi; rewrite Nat.add_comm; reflexivity).
  rewrite (for_range_fill_at (length m) 64) by lia. rewrite (map_geti_seq (of_bytes m) (length m)) by (rewrite of_bytes_length; lia).
  rewrite (firstn_all2 (of_bytes m)) by (rewrite of_bytes_length; lia). rewrite (skipn_all2 sm) by lia. rewrite app_nil_r.
  assert (L64 : length (firstn 64 sm) = 64%nat) by (rewrite firstn_length; lia).
  rewrite (for_range_fill_at 32 32) by (rewrite app_length, L64; lia).
  rewrite firstn_app, L64. replace (32 - 64)%nat with 0%nat by lia. rewrite (firstn_O (of_bytes m)), app_nil_r, firstn_firstn.
  change (32 + 32)%nat with 64%nat. rewrite skipn_app, L64, (skipn_all2 (firstn 64 sm)) by lia. rewrite Nat.sub_diag. cbn [app skipn].
  apply holds_app; [|apply holds_app; [apply (clamp_d_tail d b H Lb)|apply holds_of_bytes]].
  pose proof (holds_firstn 32 _ _ Z) as F. change (Nat.min 32 64) with 32%nat.
  replace (firstn 32 (repeat x00 (length m + 64))) with (repeat x00 32) in F; [exact F|].
  replace (length m + 64)%nat with (32 + (length m + 32))%nat by lia. rewrite repeat_app. rewrite firstn_app, repeat_length, Nat.sub_diag, firstn_O, app_nil_r, firstn_all2 by (rewrite repeat_length; lia). reflexivity.
Qed.
Lemma sign_key_w : forall z t m sk p P, length z = 32%nat -> length t = 32%nat -> (64 <= length sk)%nat -> rep4 p P ->
  sign_key (of_bytes (z ++ t ++ m)) (of_bytes sk) p = of_bytes (encode_point (fromP P) ++ firstn 32 (skipn 32 sk) ++ m).
Proof.
  intros z t m sk p P Lz Lt Ls R. unfold sign_key. remember (firstn 32 (skipn 32 sk)) as pk eqn:Epk.
  destruct (pack_point_w (of_bytes (z ++ t ++ m)) p P ltac:(rewrite of_bytes_length, !app_length; lia) R) as (s & E & HS). rewrite E.
  assert (ET : skipn 32 (of_bytes (z ++ t ++ m)) = of_bytes (t ++ m)).
  { rewrite of_bytes_app, skipn_app, of_bytes_length, Lz, Nat.sub_diag, skipn_all2 by (rewrite of_bytes_length; lia). reflexivity. }
  rewrite ET. rewrite (bare_holds _ (encode_point (fromP P) ++ t ++ m)) by (apply holds_app; [exact HS|apply holds_of_bytes]).
  pose proof (encode_length (fromP P)) as LE. remember (encode_point (fromP P)) as e eqn:Ee; clear Ee.
  rewrite (for_range_fill_at 32 32) by (rewrite of_bytes_length, !app_length; lia).
  rewrite (of_bytes_app e), firstn_app, of_bytes_length, LE, Nat.sub_diag, firstn_O, app_nil_r, firstn_all2 by (rewrite of_bytes_length; lia).
  change (32 + 32)%nat with 64%nat. rewrite skipn_app, of_bytes_length, LE, skipn_all2 by (rewrite of_bytes_length; lia). cbn [app]. change (64 - 32)%nat with 32%nat.
  rewrite (of_bytes_app t), skipn_app, of_bytes_length, Lt, Nat.sub_diag, skipn_all2 by (rewrite of_bytes_length; lia). cbn [app skipn].
  rewrite !of_bytes_app. f_equal. f_equal. rewrite Epk. rewrite <- (bare_holds _ _ (holds_map_geti 32 32 _ _ (holds_of_bytes sk) ltac:(lia))).
  unfold bare. rewrite map_map. apply map_ext_in. intros i Hi. apply in_seq in Hi. rewrite <- (app_nil_r (of_bytes sk)). apply (px_bytes sk [] (i + 32)). lia.
Qed.
Lemma sign_holds : forall m sk, (64 <= length sk)%nat -> Z.of_nat (length m) + 64 < 2 ^ 64 ->
  holds (crypto_sign_ed25519 (of_bytes (repeat x00 (length m + 64))) (of_bytes m) (length m) (of_bytes sk)) (ed_sign (firstn 32 sk) (firstn 32 (skipn 32 sk)) m ++ m).
Proof.
  intros m sk L B. unfold crypto_sign_ed25519. cbv zeta.
  pose proof (hash_w (int_array TU8 64) (of_bytes sk) sk 32 (holds_of_bytes sk) ltac:(lia) ltac:(change (Z.to_nat 32) with 32%nat; lia) ltac:(lia) eq_refl) as W.
  change (Z.to_nat 32) with 32%nat in W. pose proof (sha512_length (firstn 32 sk)) as LH.
  unfold ed_sign, secret_scalar. cbv zeta. remember (sha512 (firstn 32 sk)) as H eqn:EH; clear EH.
  remember (crypto_hash_sha512 (int_array TU8 64) (of_bytes sk) 32) as d eqn:Ed; clear Ed.
  destruct (clamp_d_num d H W LH) as (DN & DR & _). pose proof (decode_scalar_pos (firstn 32 H)) as DP. remember (decode_scalar (firstn 32 H)) as a eqn:Ea; clear Ea.
  rewrite (sign_fill_w _ m d H) by (rewrite ?of_bytes_length, ?repeat_length; try apply holds_of_bytes; (reflexivity || assumption)).
  assert (LT : length (skipn 32 H) = 32%nat) by (rewrite skipn_length; lia).
  assert (E1 : skipn 32 (of_bytes (repeat x00 32 ++ skipn 32 H ++ m)) = of_bytes (skipn 32 H ++ m)) by (rewrite of_bytes_app; reflexivity).
  rewrite E1. clear E1.
  replace (Z.of_nat (length m) + 32) with (Z.of_nat (length m + 32)) by lia.
  rewrite (hash_reduce _ _ _ (length m + 32) (holds_of_bytes (skipn 32 H ++ m))) by (rewrite ?app_length; (reflexivity || lia)).
  rewrite (firstn_all2 (skipn 32 H ++ m)) by (rewrite app_length; lia).
  pose proof (mod_L_256 (le_word (sha512 (skipn 32 H ++ m)))) as RR. fold (hash_L (skipn 32 H ++ m)) in RR.
  remember (hash_L (skipn 32 H ++ m)) as r eqn:Er; clear Er.
  pose proof (scalarbase4_w gf4_new _ r new_lens (sbits_of_bytes r (repeat (mk TU8 0) 32) RR)) as SB.
  rewrite (sign_key_w (repeat x00 32) (skipn 32 H) m sk _ _ eq_refl LT L SB). rewrite fromP_mul by lia.
  pose proof (encode_length (ed_mul r rfc_B)) as LR. remember (encode_point (ed_mul r rfc_B)) as R eqn:ER; clear ER SB.
  assert (LP : length (firstn 32 (skipn 32 sk)) = 32%nat) by (rewrite firstn_length, skipn_length; lia).
  remember (firstn 32 (skipn 32 sk)) as pk eqn:Epk; clear Epk.
  replace (Z.of_nat (length m) + 64) with (Z.of_nat (length m + 64)) by lia.
  rewrite (hash_reduce _ _ _ (length m + 64) (holds_of_bytes (R ++ pk ++ m))) by (rewrite ?app_length; (reflexivity || lia)).
  rewrite (firstn_all2 (R ++ pk ++ m)) by (rewrite !app_length; lia).
  pose proof (mod_L_256 (le_word (sha512 (R ++ pk ++ m)))) as RK. fold (hash_L (R ++ pk ++ m)) in RK.
  remember (hash_L (R ++ pk ++ m)) as k eqn:Ek; clear Ek.
  destruct (sign_x_w (of_bytes (le_bytes 32 r) ++ repeat (mk TU8 0) 32) (of_bytes (le_bytes 32 k) ++ repeat (mk TU8 0) 32) (clamp_d d)) as (LX & BX & VX).
  - intros i Hi. rewrite (proj2 (px_bytes (le_bytes 32 r) _ i ltac:(rewrite le_bytes_length; exact Hi))). apply byte_range.
  - intros i Hi. destruct (px_bytes (le_bytes 32 k) (repeat (mk TU8 0) 32) i ltac:(rewrite le_bytes_length; exact Hi)) as [I E]. split; [exact I|]. rewrite E. apply byte_range.
  - exact DR.
  - unfold on_tail. rewrite (of_bytes_app R), firstn_app, of_bytes_length, LR, Nat.sub_diag, firstn_O, app_nil_r, firstn_all2 by (rewrite of_bytes_length; lia).
    rewrite skipn_app, of_bytes_length, LR, Nat.sub_diag, skipn_all2 by (rewrite of_bytes_length; lia). cbn [app skipn].
    rewrite modL_w by (try assumption; rewrite of_bytes_length, app_length; lia).
    rewrite VX, !num_of_bytes, DN by assumption.
    rewrite (of_bytes_app pk), skipn_app, of_bytes_length, LP, Nat.sub_diag, skipn_all2 by (rewrite of_bytes_length; lia). cbn [app skipn].
    rewrite <- !of_bytes_app. rewrite (bare_holds _ _ (holds_of_bytes _)). rewrite <- app_assoc. apply holds_of_bytes.
Qed.
Lemma sign_w : forall m sk, (64 <= length sk)%nat -> Z.of_nat (length m) + 64 < 2 ^ 64 ->
  pure_crypto_sign m sk = Ok (ed_sign (firstn 32 sk) (firstn 32 (skipn 32 sk)) m ++ m).
Proof.
  intros m sk L B. unfold pure_crypto_sign. replace (length sk <? 64)%nat with false by lia. f_equal.
  apply holds_to_bytes. apply sign_holds; assumption.
Qed.

Notation phi := Curve25519.phi.
Notation fo := Curve25519.fo.

(** ** Decoding a key *)
Lemma encode_u_inj : forall u v, encode_u u = encode_u v <-> u mod p25519 = v mod p25519.
Proof.
  intros u v. unfold encode_u. split; [|intros ->; reflexivity]. intros H.
  pose proof (okz_256 _ (okz_mod u)) as A. pose proof (okz_256 _ (okz_mod v)) as B. revert H A B. generalize (u mod p25519) (v mod p25519). intros a b H A B.
  rewrite <- (le_word_bytes 32 a), <- (le_word_bytes 32 b) by (change (256 ^ Z.of_nat 32) with (2 ^ 256); lia). rewrite H. reflexivity.
Qed.
Lemma verify_32_w : forall x y a b, holds (firstn 32 x) a -> holds (firstn 32 y) b -> length a = 32%nat -> length b = 32%nat ->
  (pv (crypto_verify_32 x y) = 0 <-> a = b).
Proof.
  intros x y a b Hx Hy La Lb. unfold crypto_verify_32.
  assert (E : vn x y 32 = vn (firstn 32 x) (firstn 32 y) 32).
  { unfold vn. cbv zeta. rewrite (for_range_ext _ 32 (fun d i => por d (pxor (geti x i) (geti y i))) (fun d i => por d (pxor (geti (firstn 32 x) i) (geti (firstn 32 y) i)))); [reflexivity|].
    intros s i Hi. rewrite !geti_firstn_lt by lia. reflexivity. }
  rewrite E, (vn_w _ _ a b 32 Hx Hy) by lia. rewrite !firstn_all2 by lia. reflexivity.
Qed.
Lemma neq_w : forall a b u v, fe (2 ^ 40) a u -> fe (2 ^ 40) b v -> (pv (neq25519 a b) = 0 <-> u mod p25519 = v mod p25519).
Proof.
  intros a b u v A B. unfold neq25519.
  destruct (pack_fe (int_array TU8 32) a u ltac:(cbn; lia) A) as (ra & Ea & Ha). destruct (pack_fe (int_array TU8 32) b v ltac:(cbn; lia) B) as (rb & Eb & Hb).
  rewrite Ea, Eb. change (skipn 32 (int_array TU8 32)) with (@nil pint). rewrite !app_nil_r.
  assert (La : length (encode_u u) = 32%nat) by apply le_bytes_length. assert (Lb : length (encode_u v) = 32%nat) by apply le_bytes_length.
  rewrite (verify_32_w ra rb (encode_u u) (encode_u v)); [apply encode_u_inj| | |exact La|exact Lb].
  - rewrite firstn_all2 by (rewrite (holds_length _ _ Ha), La; lia). exact Ha.
  - rewrite firstn_all2 by (rewrite (holds_length _ _ Hb), Lb; lia). exact Hb.
Qed.

Lemma top_bit : forall b, length b = 32%nat -> bval (nth 31 b x00) / 128 = le_word b / 2 ^ 255 /\ 0 <= le_word b / 2 ^ 255 < 2.
Proof.
  intros b L. rewrite <- (num_bytes b 32) by lia. rewrite num_32. pose proof (num_range 256 31 (fun i => bval (nth i b x00)) ltac:(lia) (fun i _ => byte_range b i)) as R.
  change (256 ^ Z.of_nat 31) with (256 ^ 31) in R. pose proof (byte_range b 31) as T. revert R T. generalize (num 256 31 (fun i => bval (nth i b x00))) (bval (nth 31 b x00)). intros a t R T. lia.
Qed.
Lemma p_odd : p25519 mod 2 = 1. Proof. vm_compute. reflexivity. Qed.
Lemma neg_parity : forall r s, okz r -> 0 <= s < 2 -> r mod 2 <> s -> fsub 0 r = 0 \/ fsub 0 r mod 2 = s.
Proof.
  intros r s [A B] S N. unfold fsub. pose proof p_odd as P. revert A B P. generalize p25519. intros p A B P.
  destruct (Z.eq_dec r 0) as [->|Q]; [left; reflexivity|right]. replace ((0 - r) mod p) with (p - r) by (apply (Z.mod_unique_pos _ _ (-1)); lia). lia.
Qed.
Definition key_point (b : list byte) (x : Z) : Z * Z := (x, decode_u b mod p25519).
Lemma toP_key : forall b x, toP (key_point b x) = (phi x, phi (decode_u b)).
Proof. intros b x. unfold toP, key_point. cbn [fst snd]. f_equal. apply Curve25519.phi_eq. apply Z.mod_mod. discriminate. Qed.
Lemma key_on : forall b A, loose_key b A -> exists x, con (x, phi (decode_u b)).
Proof.
  intros b [x y] (O & Y & _). exists (phi x). cbn [snd] in Y. rewrite Y in O. rewrite <- toP_key. apply con_ed; [|exact O]. apply (ed_on_ok _ O).
Qed.
Lemma key_loose : forall b x, okz x -> con (phi x, phi (decode_u b)) -> (x = 0 \/ x mod 2 = le_word b / 2 ^ 255) -> loose_key b (key_point b x).
Proof.
  intros b x O C P. split; [|split; [reflexivity|exact P]]. apply con_ed; [split; [exact O|apply okz_mod]|]. rewrite toP_key. exact C.
Qed.
Lemma phi_neg : forall x, phi (fsub 0 x) = fo (phi x).
Proof. intros x. rewrite Curve25519.phi_sub. rewrite (Curve25519.phi_fs 0 x). rewrite Curve25519.phi_fo. reflexivity. Qed.
Lemma fo_fo : forall x, fo (fo (phi x)) = phi x.
Proof. intros x. rewrite !Curve25519.phi_fo. f_equal. lia. Qed.
Lemma cneg_pair : forall x y, cneg (x, y) = (fo x, y). Proof. reflexivity. Qed.
Definition sign_pick (r0 : list pint) (p : list pint) : list pint :=
  if pv (par25519 r0) =? pv (pshr (geti p 31) 7) then fZ r0 gf0 r0 else r0.
Lemma sign_pick_w : forall b p r0 x, holds (firstn 32 p) b -> length b = 32%nat -> fe (2 ^ 17) r0 x -> okz x -> con (phi x, phi (decode_u b)) ->
  exists xA x', loose_key b (key_point b xA) /\ fe (2 ^ 17) (sign_pick r0 p) x' /\ cneg (toP (key_point b xA)) = (phi x', phi (decode_u b)).
Proof.
  intros b p r0 x H L F O C. unfold sign_pick. rewrite (par_w r0 x F O). cbn [plain pv].
  assert (ES : pv (pshr (geti p 31) 7) = le_word b / 2 ^ 255).
  { rewrite <- (proj1 (top_bit b L)). rewrite <- (geti_firstn_lt p 32) by lia. unfold pshr.
    assert (G : pv (geti (firstn 32 p) 31) = bval (nth 31 b x00)) by (apply holds_geti; [exact H|lia]). rewrite G. pose proof (byte_range b 31) as R.
    rewrite Z.shiftr_div_pow2 by lia. change (2 ^ 7) with 128. rewrite mk_small by lia. reflexivity. }
  rewrite ES. pose proof (proj2 (top_bit b L)) as S.
  destruct (Z.eqb_spec (x mod 2) (le_word b / 2 ^ 255)) as [Q|Q].
  - exists x, (fsub 0 x). split; [apply key_loose; [exact O|exact C|right; exact Q]|]. split.
    + assert (F0 : fe 0 gf0 0) by gfconst.
      exact (proj1 (fZ_fe 0 (2 ^ 17) r0 gf0 r0 0 x (fe_len _ _ _ F) ltac:(lia) le17_60 F0 F)).
    + rewrite toP_key, cneg_pair, phi_neg. reflexivity.
  - exists (fsub 0 x), x. split; [|split; [exact F|rewrite toP_key, cneg_pair, phi_neg, fo_fo; reflexivity]].
    apply key_loose; [apply okz_mod| |apply neg_parity; [exact O|exact S|exact Q]]. rewrite phi_neg. exact (con_neg _ C).
Qed.
Definition up_num (r : gf4) (p : list pint) : list pint :=
  let r2 := set25519 (g2 r) gf1 in let num := fS gf_new (unpack25519 (g1 r) p) in fZ num num r2.
Definition up_den (r : gf4) (p : list pint) : list pint :=
  let r2 := set25519 (g2 r) gf1 in let num := fS gf_new (unpack25519 (g1 r) p) in let den := fM gf_new num cD in fA den r2 den.
Definition up_root (o num den : list pint) : list pint :=
  let den2 := fS gf_new den in
  let den4 := fS gf_new den2 in
  let den6 := fM gf_new den4 den2 in
  let t := fM gf_new den6 num in
  let t := fM t t den in
  let t := pow2523 t t in
  let t := fM t t num in
  let t := fM t t den in
  let t := fM t t den in
  fM o t den.
Definition up_last (r : gf4) (p num den r0 chk : list pint) : option gf4 :=
  let r0 := if negb (pv (neq25519 chk num) =? 0) then fM r0 r0 cI else r0 in
  let chk := fS chk r0 in
  let chk := fM chk chk den in
  if negb (pv (neq25519 chk num) =? 0) then None else
  let r0 := sign_pick r0 p in
  Some (G4 r0 (unpack25519 (g1 r) p) (set25519 (g2 r) gf1) (fM (g3 r) r0 (unpack25519 (g1 r) p))).
Definition up_chk (r0 den : list pint) : list pint := let chk := fS gf_new r0 in fM chk chk den.
Lemma unpackneg_eq : forall r p, unpackneg r p = up_last r p (up_num r p) (up_den r p) (up_root (g0 r) (up_num r p) (up_den r p)) (up_chk (up_root (g0 r) (up_num r p) (up_den r p)) (up_den r p)).
Proof. intros r p. unfold unpackneg, up_last, up_num, up_den, up_root, up_chk, sign_pick. reflexivity. Qed.

Lemma up_num_w : forall r p b, lens r -> holds (firstn 32 p) b -> length b = 32%nat -> fe (2 ^ 18) (up_num r p) (znum (decode_u b)).
Proof.
  intros r p b (_ & L1 & L2 & _) H L. unfold up_num. cbv zeta. rewrite unpack_firstn. destruct (unpack_fe (g1 r) _ _ L1 H L) as [U _].
  remember (unpack25519 (g1 r) (firstn 32 p)) as r1 eqn:Q; clear Q. pose proof (rM gf_new r1 r1 _ _ gf_new_len (up19 _ _ U) (up19 _ _ U)) as N. unfold fS.
  exact (rZ _ _ _ _ _ (fe_len _ _ _ N) N (set_fe _ _ _ _ L2 gf1_fe)).
Qed.
Lemma up_den_w : forall r p b, lens r -> holds (firstn 32 p) b -> length b = 32%nat -> fe (2 ^ 18) (up_den r p) (zden (decode_u b)).
Proof.
  intros r p b (_ & L1 & L2 & _) H L. unfold up_den. cbv zeta. rewrite unpack_firstn. destruct (unpack_fe (g1 r) _ _ L1 H L) as [U _].
  remember (unpack25519 (g1 r) (firstn 32 p)) as r1 eqn:Q; clear Q. pose proof (rM gf_new r1 r1 _ _ gf_new_len (up19 _ _ U) (up19 _ _ U)) as N. unfold fS.
  pose proof (rM gf_new _ cD _ _ gf_new_len (up19 _ _ N) (up19 _ _ cD_fe)) as D.
  exact (rA _ _ _ _ _ (fe_len _ _ _ D) (set_fe _ _ _ _ L2 gf1_fe) D).
Qed.
Lemma up_root_w : forall o num den y, (16 <= length o)%nat -> fe (2 ^ 18) num (znum y) -> fe (2 ^ 18) den (zden y) ->
  fe (2 ^ 17) (up_root o num den) (zroot y (zbase y ^ k58)).
Proof.
  intros o num den y L N D. unfold up_root, fS. cbv zeta. unfold zroot, zbase. cbv zeta.
  remember (znum y) as n eqn:Q; clear Q. remember (zden y) as e eqn:Q; clear Q. apply up18 in N. apply up18 in D.
  pose proof (rM gf_new den den _ _ gf_new_len D D) as D2. remember (fM gf_new den den) as den2 eqn:Q; clear Q.
  pose proof (rM gf_new den2 den2 _ _ gf_new_len (up19 _ _ D2) (up19 _ _ D2)) as D4. remember (fM gf_new den2 den2) as den4 eqn:Q; clear Q.
  pose proof (rM gf_new den4 den2 _ _ gf_new_len (up19 _ _ D4) (up19 _ _ D2)) as D6. remember (fM gf_new den4 den2) as den6 eqn:Q; clear Q.
  pose proof (rM gf_new den6 num _ _ gf_new_len (up19 _ _ D6) N) as T0. remember (fM gf_new den6 num) as t0 eqn:Q; clear Q.
  pose proof (rM t0 t0 den _ _ (fe_len _ _ _ T0) (up19 _ _ T0) D) as T1. remember (fM t0 t0 den) as t1 eqn:Q; clear Q.
  pose proof (proj1 (pow2523_fe t1 t1 _ (fe_len _ _ _ T1) T1)) as T2. remember (pow2523 t1 t1) as t2 eqn:Q; clear Q. fold k58 in T2.
  remember (fmul (fmul (fmul (fmul (fmul e e) (fmul e e)) (fmul e e)) n) e ^ k58) as w eqn:Q; clear Q.
  pose proof (rM t2 t2 num _ _ (fe_len _ _ _ T2) (up19 _ _ T2) N) as T3. remember (fM t2 t2 num) as t3 eqn:Q; clear Q.
  pose proof (rM t3 t3 den _ _ (fe_len _ _ _ T3) (up19 _ _ T3) D) as T4. remember (fM t3 t3 den) as t4 eqn:Q; clear Q.
  pose proof (rM t4 t4 den _ _ (fe_len _ _ _ T4) (up19 _ _ T4) D) as T5. remember (fM t4 t4 den) as t5 eqn:Q; clear Q.
  exact (rM o t5 den _ _ L (up19 _ _ T5) D).
Qed.
Lemma chk_w : forall o r0 den x y, (16 <= length o)%nat -> fe (2 ^ 17) r0 x -> fe (2 ^ 18) den (zden y) -> fe (2 ^ 17) (fM (fS o r0) (fS o r0) den) (zchk y x).
Proof.
  intros o r0 den x y L R D. unfold fS, zchk. pose proof (rM o r0 r0 _ _ L (up19 _ _ R) (up19 _ _ R)) as C.
  exact (rM _ _ den _ _ (fe_len _ _ _ C) (up19 _ _ C) (up18 _ _ D)).
Qed.
Lemma eq_bool : forall a b u v, fe (2 ^ 17) a u -> fe (2 ^ 18) b v -> okz u -> okz v -> negb (pv (neq25519 a b) =? 0) = negb (u =? v).
Proof.
  intros a b u v A B OU OV. f_equal. pose proof (neq_w a b u v (up40 _ _ A) (fe_weak _ (2 ^ 40) _ _ B ltac:(lia))) as W.
  assert (M : u mod p25519 = v mod p25519 <-> u = v). { revert OU OV. unfold okz. generalize p25519. intros q OU OV. rewrite !Z.mod_small by assumption. reflexivity. }
  rewrite M in W. destruct (Z.eqb_spec (pv (neq25519 a b)) 0) as [Q|Q]; destruct (Z.eqb_spec u v) as [Q2|Q2]; try reflexivity; exfalso; tauto.
Qed.
Definition up_post (b : list byte) (o : option gf4) : Prop :=
  match o with Some q => exists A, loose_key b A /\ rep4 q (cneg (toP A)) | None => forall A, ~ loose_key b A end.
Lemma up_last_w : forall r p b num den r0 chk x, lens r -> holds (firstn 32 p) b -> length b = 32%nat ->
  fe (2 ^ 18) num (znum (decode_u b)) -> fe (2 ^ 18) den (zden (decode_u b)) -> fe (2 ^ 17) r0 x -> fe (2 ^ 17) chk (zchk (decode_u b) x) -> okz x ->
  x = zroot (decode_u b) (zbase (decode_u b) ^ k58) -> up_post b (up_last r p num den r0 chk).
Proof.
  intros r p b num den r0 chk x LR H L N D R C O EX. unfold up_last. cbv zeta.
  assert (ON : okz (znum (decode_u b))) by apply okz_mod.
  rewrite (eq_bool _ _ _ _ C N (okz_mod _) ON).
  assert (S : exists x', let r0' := if negb (zchk (decode_u b) x =? znum (decode_u b)) then fM r0 r0 cI else r0 in
    fe (2 ^ 17) r0' x' /\ okz x' /\ (forall z, con (z, phi (decode_u b)) -> zchk (decode_u b) x' = znum (decode_u b))).
  { pose proof (fun z => zroot_w (decode_u b) z) as ZW. cbv zeta in ZW. rewrite <- EX in ZW. clear EX.
    destruct (Z.eqb_spec (zchk (decode_u b) x) (znum (decode_u b))) as [Q|Q]; cbn [negb].
    - exists x. split; [exact R|]. split; [exact O|]. intros z Hz. exact Q.
    - exists (fmul x Curve25519.ed_i). split; [exact (rM r0 r0 cI _ _ (fe_len _ _ _ R) (up19 _ _ R) (up19 _ _ cI_fe))|]. split; [apply okz_mod|].
      intros z Hz. destruct (ZW z Hz) as [W|[_ W]]; [elim (Q W)|exact W]. }
  clear EX. destruct S as (x' & R' & O' & W). cbv zeta in R'. remember (if negb (zchk (decode_u b) x =? znum (decode_u b)) then fM r0 r0 cI else r0) as r0' eqn:Q; clear Q.
  pose proof (chk_w chk r0' den x' (decode_u b) (fe_len _ _ _ C) R' D) as C'. rewrite (eq_bool _ _ _ _ C' N (okz_mod _) ON).
  destruct (Z.eqb_spec (zchk (decode_u b) x') (znum (decode_u b))) as [Q|Q]; cbn [negb up_post].
  - apply zchk_on in Q. destruct (sign_pick_w b p r0' x' H L R' O' Q) as (xA & xq & K & F & E). exists (key_point b xA). split; [exact K|].
    rewrite E. destruct LR as (_ & L1 & L2 & L3). exists xq, (decode_u b), 1, (fmul xq (decode_u b)). split; [|apply zext_point].
    rewrite unpack_firstn. destruct (unpack_fe (g1 r) _ _ L1 H L) as [U _]. unfold coords. cbn [g0 g1 g2 g3].
    split; [exact F|]. split; [exact U|]. split; [apply set_fe; [exact L2|exact gf1_fe]|]. exact (rM _ _ _ _ _ L3 (up19 _ _ F) (up19 _ _ U)).
  - intros A K. destruct (key_on b A K) as [z Hz]. exact (Q (W z Hz)).
Qed.
Lemma unpackneg_w : forall r p b, lens r -> holds (firstn 32 p) b -> length b = 32%nat -> up_post b (unpackneg r p).
Proof.
  intros r p b LR H L. rewrite unpackneg_eq.
  pose proof (up_num_w r p b LR H L) as N. pose proof (up_den_w r p b LR H L) as D. pose proof (up_root_w (g0 r) _ _ _ (proj1 LR) N D) as R.
  exact (up_last_w r p b _ _ _ _ _ LR H L N D R (chk_w gf_new _ _ _ _ gf_new_len R D) (okz_mod _) eq_refl).
Qed.
Lemma loose_unique : forall b A A', loose_key b A -> loose_key b A' -> A = A'.
Proof.
  intros b [x y] [x' y'] (O & Y & P) (O' & Y' & P'). cbn [fst snd] in *. destruct (ed_on_ok _ O) as [X _]. destruct (ed_on_ok _ O') as [X' _]. cbn [fst] in X, X'.
  subst y y'. f_equal. apply con_ed in O; [|apply (ed_on_ok _ O)]. apply con_ed in O'; [|apply (ed_on_ok _ O')].
  destruct (on_same_y _ _ _ O O') as [E|E].
  - apply phi_ok; assumption.
  - rewrite <- phi_neg in E. apply phi_ok in E; [|exact X|apply okz_mod]. clear O O'. cbn [fst] in E. revert X X' P P' E. unfold okz, fsub. pose proof p_odd as PO. revert PO. generalize p25519 (le_word b / 2 ^ 255).
    intros p s PO X X' P P' E. destruct (Z.eq_dec x' 0) as [Q|Q]; [rewrite Q in E; rewrite E, Q; apply Z.mod_0_l; clear - X; lia|].
    replace ((0 - x') mod p) with (p - x') in E by (apply (Z.mod_unique_pos _ _ (-1)); lia). lia.
Qed.

(** ** Opening *)
Lemma cadd_assoc : forall P Q R, con P -> con Q -> con R -> cadd (cadd P Q) R = cadd P (cadd Q R). Proof. exact Curve25519.padd_assoc. Qed.
Lemma cadd_comm : forall P Q, cadd P Q = cadd Q P. Proof. exact Curve25519.padd_comm. Qed.
Lemma move_term : forall X H S, con X -> con H -> con S -> (X = cadd (cneg H) S <-> S = cadd X H).
Proof.
  intros X H S CX CH CS. pose proof (con_neg H CH) as CN. split; intros ->.
  - rewrite (cadd_comm (cneg H)), cadd_assoc by assumption. rewrite (cadd_comm (cneg H)), cadd_neg by exact CH. rewrite cadd_O. reflexivity.
  - rewrite (cadd_comm X), <- cadd_assoc by assumption. rewrite (cadd_comm (cneg H) H), cadd_neg by exact CH. rewrite cO_add. reflexivity.
Qed.
Lemma sig_eq_w : forall pk R s m A h, ed_on A -> length R = 32%nat -> h = hash_L (R ++ pk ++ m) ->
  (R = encode_point (fromP (cadd (cmul (Z.to_N h) (cneg (toP A))) (cmul (Z.to_N (le_word s)) cG))) <-> sig_equation pk (R ++ s) m A).
Proof.
  intros pk R s m A h OA LR Eh. unfold sig_equation. rewrite firstn_app, LR, Nat.sub_diag, firstn_O, app_nil_r, firstn_all2 by lia.
  rewrite skipn_app, LR, Nat.sub_diag, skipn_all2 by lia. cbn [app skipn]. rewrite <- Eh.
  assert (CA : con (toP A)) by (apply con_ed; [apply ed_on_ok|]; exact OA).
  assert (CH : con (cmul (Z.to_N h) (toP A))) by (apply con_mul; exact CA). rewrite cmul_neg.
  assert (CS : con (cmul (Z.to_N (le_word s)) cG)) by (apply con_mul; exact con_G).
  assert (M : forall RP, ed_on RP -> (toP RP = cadd (cneg (cmul (Z.to_N h) (toP A))) (cmul (Z.to_N (le_word s)) cG) <->
     ed_mul (le_word s) rfc_B = ed_add RP (ed_mul h A))).
  { intros RP OR. rewrite move_term by (first [assumption | apply con_ed; [apply ed_on_ok|]; exact OR]).
    rewrite <- toP_B, <- !toP_mul, <- toP_add. split; [intros E; apply toP_inj; [apply mul_ok|apply add_ok|exact E]|intros ->; reflexivity]. }
  assert (CC : con (cadd (cneg (cmul (Z.to_N h) (toP A))) (cmul (Z.to_N (le_word s)) cG))) by (apply con_add; [apply con_neg; exact CH|exact CS]).
  revert M CC. generalize (cadd (cneg (cmul (Z.to_N h) (toP A))) (cmul (Z.to_N (le_word s)) cG)). intros X M CC. split.
  - intros E. exists (fromP X). split; [apply ed_on_from; exact CC|]. split; [symmetry; exact E|]. apply M; [apply ed_on_from; exact CC|apply to_from].
  - intros (RP & OR & E & Q). apply (M RP OR) in Q. rewrite <- Q, from_to by (apply ed_on_ok; exact OR). symmetry. exact E.
Qed.
Definition open_ok (sm pk : list byte) : Prop :=
  exists A, loose_key (firstn 32 pk) A /\ sig_equation (firstn 32 pk) (firstn 64 sm) (skipn 64 sm) A.
Lemma split_sm : forall sm : list byte, (64 <= length sm)%nat -> exists R s m, sm = R ++ s ++ m /\ length R = 32%nat /\ length s = 32%nat /\ firstn 64 sm = R ++ s /\ skipn 64 sm = m.
Proof.
  intros sm H. exists (firstn 32 sm), (firstn 32 (skipn 32 sm)), (skipn 64 sm).
  assert (E : skipn 64 sm = skipn 32 (skipn 32 sm)) by (rewrite skipn_skipn; reflexivity).
  split; [rewrite E, firstn_skipn, firstn_skipn; reflexivity|]. split; [rewrite firstn_length; lia|]. split; [rewrite firstn_length, skipn_length; lia|].
  split; [|reflexivity]. rewrite <- (firstn_skipn 32 sm) at 1. rewrite firstn_app, firstn_length, (firstn_all2 (firstn 32 sm)) by (rewrite firstn_length; lia).
  replace (64 - Nat.min 32 (length sm))%nat with 32%nat by lia. reflexivity.
Qed.
Lemma open_with_w : forall u sm pk m0, (64 <= length sm)%nat -> (32 <= length pk)%nat -> Z.of_nat (length sm) < 2 ^ 64 -> length m0 = length sm ->
  up_post (firstn 32 pk) u ->
  let (c, m') := open_with u m0 (of_bytes sm) (length sm) (of_bytes pk) in
  (c = 0 <-> open_ok sm pk) /\ (c = 0 -> firstn (length sm - 64) (to_bytes m') = skipn 64 sm).
Proof.
  intros u sm pk m0 L64 Lp HB L0 U. unfold open_ok. destruct (split_sm sm L64) as (R & s & m & ES & LR & LS & E64 & Em). rewrite E64, Em. clear E64 Em L64.
  assert (LPK : length (firstn 32 pk) = 32%nat) by (rewrite firstn_length; lia).
  assert (LSM : length sm = (length m + 64)%nat) by (rewrite ES, !app_length; lia).
  destruct u as [q|]; cbn [up_post] in U; unfold open_with.
  2: { split; [split; [discriminate|]; intros (A & K & _); elim (U A K)|discriminate]. }
  destruct U as (A & K & RQ). pose proof (proj1 K) as OA. assert (CA : con (toP A)) by (apply con_ed; [apply ed_on_ok|]; exact OA).
  rewrite (for_range_copy (length sm) m0 (of_bytes sm)) by (rewrite ?of_bytes_length; lia).
  rewrite (firstn_all2 (of_bytes sm)) by (rewrite of_bytes_length; lia). rewrite (skipn_all2 m0) by lia. rewrite app_nil_r.
  rewrite (for_range_fill_at 32 32) by (rewrite of_bytes_length; lia). rewrite (map_geti_seq (of_bytes pk) 32) by (rewrite of_bytes_length; exact Lp).
  assert (EM : firstn 32 (of_bytes sm) ++ firstn 32 (of_bytes pk) ++ skipn (32 + 32) (of_bytes sm) = of_bytes (R ++ firstn 32 pk ++ m)).
  { rewrite ES, !of_bytes_app. rewrite firstn_app, of_bytes_length, LR, Nat.sub_diag, firstn_O, app_nil_r, firstn_all2 by (rewrite of_bytes_length; lia).
    f_equal. f_equal; [unfold of_bytes; rewrite firstn_map; reflexivity|]. change (32 + 32)%nat with 64%nat. rewrite app_assoc, skipn_app, skipn_all2 by (rewrite app_length, !of_bytes_length; lia).
    rewrite app_length, !of_bytes_length, LR, LS. reflexivity. }
  rewrite EM. clear EM. rewrite (hash_reduce _ _ _ (length sm) (holds_of_bytes (R ++ firstn 32 pk ++ m))) by (rewrite ?app_length; (reflexivity || lia)).
  rewrite (firstn_all2 (R ++ firstn 32 pk ++ m)) by (rewrite !app_length; lia).
  pose proof (mod_L_256 (le_word (sha512 (R ++ firstn 32 pk ++ m)))) as RK. fold (hash_L (R ++ firstn 32 pk ++ m)) in RK.
  remember (hash_L (R ++ firstn 32 pk ++ m)) as h eqn:Eh.
  pose proof (scalarmult4_w gf4_new q _ h _ new_lens (con_neg _ CA) RQ (sbits_of_bytes h (repeat (mk TU8 0) 32) RK)) as P1.
  assert (HS : holds (firstn 32 (skipn 32 (of_bytes sm))) s).
  { rewrite ES, !of_bytes_app. rewrite skipn_app, of_bytes_length, LR, Nat.sub_diag, skipn_all2 by (rewrite of_bytes_length; lia). cbn [app skipn].
    rewrite firstn_app, of_bytes_length, LS, Nat.sub_diag, firstn_O, app_nil_r, firstn_all2 by (rewrite of_bytes_length; lia). apply holds_of_bytes. }
  pose proof (scalarbase4_w q _ (le_word s) (rep4_lens _ _ RQ) (sbits_holds _ _ HS LS)) as P2.
  pose proof (add4_w _ _ _ _ (con_mul _ _ (con_neg _ CA)) (con_mul _ _ con_G) P1 P2) as P3.
  destruct (pack_point_w (int_array TU8 32) _ _ ltac:(cbn; lia) P3) as (t & Et & HT). rewrite Et. change (skipn 32 (int_array TU8 32)) with (@nil pint). rewrite app_nil_r.
  assert (HR : holds (firstn 32 (of_bytes sm)) R).
  { rewrite ES, of_bytes_app. rewrite firstn_app, of_bytes_length, LR, Nat.sub_diag, firstn_O, app_nil_r, firstn_all2 by (rewrite of_bytes_length; lia). apply holds_of_bytes. }
  pose proof (encode_length (fromP (cadd (cmul (Z.to_N h) (cneg (toP A))) (cmul (Z.to_N (le_word s)) cG)))) as LE.
  assert (HT' : holds (firstn 32 t) (encode_point (fromP (cadd (cmul (Z.to_N h) (cneg (toP A))) (cmul (Z.to_N (le_word s)) cG))))).
  { rewrite firstn_all2 by (rewrite (holds_length _ _ HT), LE; lia). exact HT. }
  pose proof (verify_32_w _ _ _ _ HR HT' LR LE) as V. rewrite (sig_eq_w (firstn 32 pk) R s m A h OA LR Eh) in V.
  clear P1 P2 P3 HT HT' LE Et HR HS RQ.
  assert (VA : pv (crypto_verify_32 (of_bytes sm) t) = 0 <-> exists A0, loose_key (firstn 32 pk) A0 /\ sig_equation (firstn 32 pk) (R ++ s) m A0).
  { rewrite V. split; [intros Q; exists A; split; [exact K|exact Q]|]. intros (A' & K' & Q). rewrite (loose_unique _ _ _ K K'). exact Q. }
  destruct (Z.eqb_spec (pv (crypto_verify_32 (of_bytes sm) t)) 0) as [Q|Q]; cbn [negb].
  - split; [split; [intros _; apply VA; exact Q|reflexivity]|]. intros _.
    rewrite for_range_fill by (rewrite of_bytes_length, !app_length; lia). unfold to_bytes. rewrite map_app, firstn_app.
    rewrite firstn_all2 by (rewrite !map_length, seq_length; lia). rewrite !map_length, seq_length, Nat.sub_diag, firstn_O, app_nil_r.
    pose proof (holds_map_geti 64 (length sm - 64) _ _ (holds_of_bytes sm) ltac:(lia)) as HM. apply holds_to_bytes in HM. unfold to_bytes in HM. rewrite HM.
    rewrite ES at 2. rewrite app_assoc, skipn_app, skipn_all2 by (rewrite app_length; lia). rewrite app_length, LR, LS. cbn [app skipn Nat.add Nat.sub]. apply firstn_all2. lia.
  - split; [split; [discriminate|]; intros E; elim (Q (proj2 VA E))|discriminate].
Qed.
Lemma open_w : forall sm pk, (64 <= length sm)%nat -> (32 <= length pk)%nat -> Z.of_nat (length sm) < 2 ^ 64 ->
  (open_ok sm pk -> pure_crypto_sign_open sm pk = Ok (skipn 64 sm)) /\ (~ open_ok sm pk -> pure_crypto_sign_open sm pk = Err NameError).
Proof.
  intros sm pk L Lp HB. unfold pure_crypto_sign_open, crypto_sign_ed25519_open. replace (length pk <? 32)%nat with false by lia. replace (length sm <? 64)%nat with false by lia. cbn [andb].
  assert (HP : holds (firstn 32 (of_bytes pk)) (firstn 32 pk)) by (apply holds_firstn; apply holds_of_bytes).
  pose proof (unpackneg_w gf4_new (of_bytes pk) (firstn 32 pk) new_lens HP ltac:(rewrite firstn_length; lia)) as U.
  pose proof (open_with_w (unpackneg gf4_new (of_bytes pk)) sm pk (of_bytes (repeat x00 (length sm))) L Lp HB ltac:(rewrite of_bytes_length, repeat_length; reflexivity) U) as W.
  destruct (open_with (unpackneg gf4_new (of_bytes pk)) (of_bytes (repeat x00 (length sm))) (of_bytes sm) (length sm) (of_bytes pk)) as [c m'].
  destruct W as [W1 W2]. destruct (Z.eqb_spec c 0) as [Q|Q]; cbn [negb]; split; intros H.
  - rewrite (W2 Q). reflexivity.
  - elim (H (proj1 W1 Q)).
  - elim (Q (proj2 W1 H)).
  - reflexivity.
Qed.
