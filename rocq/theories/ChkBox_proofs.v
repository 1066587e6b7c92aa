(** Boxes, hashes and shared keys with the exceptions of lists: which arguments raise. *)
From Coq Require Import List ZArith Bool Strings.Byte Lia ZifyBool ZifyNat ZifyN.
From Verif Require Import PyBase PyBase_proofs PyInt PyInt_proofs ChkPy TwHash TwSalsa TwPoly TwField TwSign TwPure ShaSpec TwHash_proofs TwBox_proofs TwCurve_proofs EdSpec TwEd_proofs
  ChkHash ChkSalsa ChkField ChkSign ChkHash_proofs ChkSalsa_proofs ChkField_proofs ChkSign_proofs ChkSig_proofs.
Import ListNotations.
Open Scope Z_scope.
Ltac Zify.zify_post_hook ::= Z.div_mod_to_equations.

(** ** Items that are bytes *)
Definition byt (v : pint) : Prop := 0 <= pv v < 256.
Lemma byt_is : forall v, byt v -> is_byte v = true.
Proof. intros v H. unfold byt in H. unfold is_byte. lia. Qed.
Lemma byt_seti : forall l i v, Forall byt l -> byt v -> Forall byt (seti l i v).
Proof. induction l as [|a l IH]; intros i v H B; [constructor|]. inversion H; subst. destruct i; cbn [seti]; constructor; auto. Qed.
Lemma byt_geti : forall l i, Forall byt l -> byt (geti l i).
Proof.
  intros l i H. unfold geti. destruct (Nat.lt_ge_cases i (length l)) as [L|L].
  - apply (proj1 (Forall_forall byt l) H). apply nth_In. exact L.
  - rewrite nth_overflow by exact L. unfold byt. cbn. lia.
Qed.
Lemma byt_u8 : forall v, byt (mk TU8 v).
Proof.
  intros v. unfold byt, mk. cbn [pv signed]. change (mask TU8) with (Z.ones 8).
  destruct (v <? 0); rewrite Z.land_ones by lia; change (2 ^ 8) with 256; lia.
Qed.
Lemma byt_mk : forall t v, 0 <= v < 256 -> byt (mk t v).
Proof.
  intros t v H. unfold byt. assert (M : forall k, 8 <= k -> Z.land v (Z.ones k) = v).
  { intros k Hk. rewrite Z.land_ones by lia. apply Z.mod_small. split; [lia|]. apply Z.lt_le_trans with (2 ^ 8); [lia|]. apply Z.pow_le_mono_r; lia. }
  destruct t; cbn [mk pv]; replace (v <? 0) with false by lia; cbn [mask];
    try (match goal with |- context [Z.land v ?m] => first [change m with (Z.ones 8) | change m with (Z.ones 64) | change m with (Z.ones 31) | change m with (Z.ones 63)] end; rewrite M by lia); lia.
Qed.
Lemma byt_xor : forall a b, byt a -> byt b -> byt (pxor a b).
Proof.
  intros a b Ha Hb. unfold byt in *. unfold pxor, typed. cbv zeta. apply byt_mk. split; [apply Z.lxor_nonneg; lia|].
  destruct (Z.eq_dec (Z.lxor (pv a) (pv b)) 0) as [E|E]; [lia|]. change 256 with (2 ^ 8). apply Z.log2_lt_pow2; [pose proof (proj2 (Z.lxor_nonneg (pv a) (pv b))); lia|].
  eapply Z.le_lt_trans; [apply Z.log2_lxor; lia|]. apply Z.max_lub_lt.
  - destruct (Z.eq_dec (pv a) 0) as [->|]; [cbn; lia|]. apply Z.log2_lt_pow2; lia.
  - destruct (Z.eq_dec (pv b) 0) as [->|]; [cbn; lia|]. apply Z.log2_lt_pow2; lia.
Qed.
Lemma byt_of_bytes : forall b, Forall byt (of_bytes b).
Proof. intros b. unfold of_bytes. apply Forall_forall. intros v H. apply in_map_iff in H. destruct H as (x & <- & _). unfold byt. cbn [pv plain]. pose proof (b2z_range x). lia. Qed.
Lemma byt_zeros : forall n, Forall byt (int_array TU8 n).
Proof. intros n. apply Forall_forall. intros v H. apply repeat_spec in H. subst. apply byt_u8. Qed.
Lemma byt_firstn : forall n l, Forall byt l -> Forall byt (firstn n l).
Proof. induction n as [|n IH]; intros l H; [constructor|]. destruct l; [constructor|]. inversion H; subst. cbn. constructor; auto. Qed.
Lemma byt_skipn : forall n l, Forall byt l -> Forall byt (skipn n l).
Proof. induction n as [|n IH]; intros l H; [exact H|]. destruct l; [constructor|]. inversion H; subst. cbn. auto. Qed.
Lemma byt_app : forall a b, Forall byt a -> Forall byt b -> Forall byt (a ++ b).
Proof. intros a b A B. apply Forall_app. split; assumption. Qed.
Lemma byt_for : forall A (I : A -> Prop) n f st, I st -> (forall s i, (i < n)%nat -> I s -> I (f s i)) -> I (for_range n f st).
Proof. intros A I n f st H0 HS. induction n as [|n IH]; [exact H0|]. rewrite for_range_S. apply HS; [lia|]. apply IH. intros. apply HS; [lia|assumption]. Qed.
Lemma byt_tail : forall o f l, (forall t, Forall byt t -> Forall byt (f t)) -> Forall byt l -> Forall byt (on_tail o f l).
Proof. intros o f l F H. apply byt_app; [apply byt_firstn; exact H|apply F, byt_skipn, H]. Qed.
Lemma byt_st32 : forall u l, Forall byt l -> Forall byt (st32 l u).
Proof.
  intros u l H. unfold st32. apply (byt_for _ (fun st : list pint * pint => Forall byt (fst st))); [exact H|].
  intros [y v] i Hi Hy. cbn [fst] in *. apply byt_seti; [exact Hy|apply byt_u8].
Qed.
Lemma byt_core : forall out in_ k c h, Forall byt out -> Forall byt (core out in_ k c h).
Proof.
  intros out in_ k c h H. unfold core. cbv zeta. destruct h; apply byt_for; try exact H; intros s i Hi Hs; repeat (apply byt_tail; [apply byt_st32|]); exact Hs.
Qed.
Lemma byt_xor_block : forall n c m x co mo, Forall byt c -> Forall byt m -> Forall byt x -> Forall byt (xor_block n c m x co mo).
Proof.
  intros n c m x co mo Hc Hm Hx. unfold xor_block. apply byt_for; [exact Hc|]. intros s i Hi Hs. apply byt_seti; [exact Hs|]. apply byt_xor; [|apply byt_geti; exact Hx].
  destruct (is_empty m); [unfold byt; cbn; lia|apply byt_geti; exact Hm].
Qed.
Lemma byt_sloop : forall fuel c m z x k co mo b, Forall byt c -> Forall byt m -> Forall byt x -> Forall byt (stream_loop fuel c m z x k co mo b).
Proof.
  induction fuel as [|f IH]; intros c m z x k co mo b Hc Hm Hx; cbn [stream_loop]; [exact Hc|]. unfold crypto_core_salsa20.
  assert (HX : Forall byt (core x z k sigma false)) by (apply byt_core; exact Hx). remember (core x z k sigma false) as x2 eqn:Q. clear Q.
  destruct (b >=? 64); [apply IH; try assumption; apply byt_xor_block; assumption|]. destruct (b =? 0); [exact Hc|]. apply byt_xor_block; assumption.
Qed.
Lemma byt_stream : forall c m d n k, Forall byt c -> Forall byt m -> Forall byt (crypto_stream_xsalsa20_xor c m d n k).
Proof.
  intros c m d n k Hc Hm. unfold crypto_stream_xsalsa20_xor, crypto_stream_salsa20_xor. cbv zeta. destruct (d =? 0); [exact Hc|].
  apply byt_sloop; try assumption. apply byt_zeros.
Qed.
Lemma to_bytes_length : forall l, length (to_bytes l) = length l.
Proof. intros l. apply map_length. Qed.
Lemma byt_holds : forall l, Forall byt l -> holds l (to_bytes l).
Proof.
  intros l H. unfold holds, to_bytes. rewrite map_map. apply map_ext_in. intros v I. pose proof (proj1 (Forall_forall byt l) H v I) as B. unfold byt in B. rewrite b2z_z2b. lia.
Qed.
Lemma byt_rbytes : forall l, Forall byt l -> rbytes l = Ok (to_bytes l).
Proof.
  intros l H. unfold rbytes. replace (forallb is_byte l) with true; [reflexivity|]. symmetry. apply forallb_forall. intros v I. apply byt_is. apply (proj1 (Forall_forall byt l) H v I).
Qed.
Lemma holds_byt : forall l b, holds l b -> Forall byt l.
Proof.
  intros l b H. apply Forall_forall. intros v I. unfold holds in H. assert (J : In (pv v) (map pv l)) by (apply in_map; exact I). rewrite H in J. apply in_map_iff in J.
  destruct J as (y & E & _). unfold byt. pose proof (b2z_range y). lia.
Qed.
Lemma byt_secretbox : forall c m d n k, d = Z.of_nat (length c) -> 32 <= d -> d <= Z.of_nat (length m) -> (24 <= length n)%nat -> (32 <= length k)%nat -> Forall byt c -> Forall byt m ->
  Forall byt (snd (crypto_secretbox c m d n k)).
Proof.
  intros c m d n k D D32 Lm Ln Lk Hc Hm. unfold crypto_secretbox. replace (d <? 32) with false by lia. cbv zeta. cbn [snd].
  pose proof (byt_stream c m d n k Hc Hm) as B. destruct (stream_xor_ok c m d n k) as [_ L]; try lia. remember (crypto_stream_xsalsa20_xor c m d n k) as c2 eqn:Q. clear Q.
  assert (N : d - 32 = Z.of_nat (length c2 - 32)) by lia. rewrite N.
  destruct (onetimeauth_w (skipn 16 c2) (skipn 32 c2) _ (length c2 - 32) c2 (to_bytes c2) (byt_holds _ (byt_skipn 32 _ B))) as (t & E & HT).
  { rewrite to_bytes_length, skipn_length. lia. } { apply byt_holds. exact B. } { rewrite to_bytes_length. lia. } { rewrite skipn_length. lia. }
  rewrite E. apply byt_app; [exact (byt_zeros 16)|]. apply byt_skipn. apply byt_app; [apply byt_firstn; exact B|]. apply byt_app; [apply (holds_byt _ _ HT)|]. apply byt_skipn, byt_skipn. exact B.
Qed.

(** ** Only IndexError *)
Definition ie {A} (r : res A) : Prop := match r with Ok _ => True | Err e => e = IndexError end.
Lemma ie_bind : forall A B (a : res A) (k : A -> res B), ie a -> (forall x, ie (k x)) -> ie (rbind a k).
Proof. intros A B a k H K. destruct a as [x|e]; cbn [rbind]; [apply K|exact H]. Qed.
Lemma ie_for : forall A n (g : A -> nat -> res A) st, (forall s i, ie (g s i)) -> ie (for_c n g st).
Proof. intros A n g st H. induction n as [|n IH]; [exact I|]. rewrite for_c_S. apply ie_bind; [exact IH|]. intros x. apply H. Qed.
Lemma ie_get : forall l i, ie (rget l i).
Proof. intros l i. unfold rget. destruct (i <? length l)%nat; [exact I|reflexivity]. Qed.
Lemma ie_put : forall l i v, ie (lput l i v).
Proof. intros l i v. unfold lput. destruct (i <? length l)%nat; [exact I|reflexivity]. Qed.
Ltac ies := unfold lset, sput, ladd, lsub, lmul, land, lor, lxor, lshl, lshr, lcast, ChkPy.num, lift2, lift;
  repeat lazymatch goal with |- ie (rget _ _) => apply ie_get | |- ie (lput _ _ _) => apply ie_put | |- ie (Ok _) => exact I
  | |- ie (for_c _ _ _) => apply ie_for; intros | |- ie (rbind _ _) => apply ie_bind; intros end.
Lemma ie_err : forall A (r : res A), ie r -> (forall a, r <> Ok a) -> r = Err IndexError.
Proof. intros A [a|e] H N; [destruct (N a eq_refl)|]. cbn in H. subst. reflexivity. Qed.
Lemma bind_inv : forall A B (a : res A) (k : A -> res B) b, rbind a k = Ok b -> exists x, a = Ok x /\ k x = Ok b.
Proof. intros A B [x|e] k b H; [exists x; split; [reflexivity|exact H]|discriminate]. Qed.
Lemma get_inv : forall l i v, rget l i = Ok v -> (i < length l)%nat.
Proof. intros l i v. unfold rget. destruct (Nat.ltb_spec i (length l)) as [L|L]; [intros _; exact L|discriminate]. Qed.
Lemma for_inv : forall A n (g : A -> nat -> res A) st r, for_c n g st = Ok r -> forall i, (i < n)%nat -> exists s s', g s i = Ok s'.
Proof.
  intros A n g st. induction n as [|n IH]; intros r H i L; [lia|]. rewrite for_c_S in H. apply bind_inv in H. destruct H as (s & E & H).
  destruct (Nat.eq_dec i n) as [->|N]; [exists s, r; exact H|]. apply (IH s E). lia.
Qed.
Lemma lift2_inv : forall f a b v, lift2 f a b = Ok v -> exists x y, a = Ok x /\ b = Ok y.
Proof. intros f a b v H. apply bind_inv in H. destruct H as (x & E & H). apply bind_inv in H. destruct H as (y & E2 & _). exists x, y. split; assumption. Qed.
Lemma lift_inv : forall f a v, lift f a = Ok v -> exists x, a = Ok x.
Proof. intros f a v H. apply bind_inv in H. destruct H as (x & E & _). exists x. exact E. Qed.
Lemma lset_inv : forall l i e r, lset l i e = Ok r -> exists v, e = Ok v.
Proof. intros l i e r H. apply bind_inv in H. destruct H as (v & E & _). exists v. exact E. Qed.

Lemma ld32_ie : forall x, ie (ld32_c x).
Proof. intros x. unfold ld32_c. ies. Qed.
Lemma ld32_inv : forall x v, ld32_c x = Ok v -> (4 <= length x)%nat.
Proof. intros x v H. unfold ld32_c in H. apply bind_inv in H. destruct H as (u & E & _). apply lift_inv in E. destruct E as (y & E). apply get_inv in E. lia. Qed.
Lemma load_ie : forall in_ k c x, ie (core_load_c in_ k c x).
Proof. intros in_ k c x. unfold core_load_c. apply ie_for. intros s i. repeat (apply ie_bind; [apply ie_bind; [apply ld32_ie|intros; apply ie_put]|intros]). apply ie_bind; [apply ld32_ie|intros; apply ie_put]. Qed.
Lemma load_inv : forall in_ k c x r, core_load_c in_ k c x = Ok r -> (16 <= length in_)%nat /\ (32 <= length k)%nat.
Proof.
  intros in_ k c x r H. destruct (for_inv _ _ _ _ _ H 3%nat ltac:(lia)) as (s & s' & E). cbv beta in E.
  apply bind_inv in E. destruct E as (s1 & _ & E). apply bind_inv in E. destruct E as (s2 & _ & E). apply bind_inv in E. destruct E as (s3 & E3 & E).
  apply lset_inv in E3. destruct E3 as (v3 & E3). apply ld32_inv in E3. rewrite skipn_length in E3.
  apply lset_inv in E. destruct E as (v4 & E4). apply ld32_inv in E4. rewrite skipn_length in E4. lia.
Qed.
Lemma core_short : forall out in_ k c h, (length in_ < 16)%nat \/ (length k < 32)%nat -> core_c out in_ k c h = Err IndexError.
Proof.
  intros out in_ k c h L. unfold core_c. cbv zeta. pose proof (load_ie in_ k c (int_array TU32 16)) as J. rewrite (ie_err _ _ J); [reflexivity|].
  intros a E. apply load_inv in E. lia.
Qed.
Lemma xor_short : forall c m b n k, b <> 0 -> (length n < 8)%nat -> stream_salsa20_xor_c c m b n k = Err IndexError.
Proof.
  intros c m b n k B L. unfold stream_salsa20_xor_c. replace (b =? 0) with false by lia. cbv zeta.
  assert (J : ie (for_c 8 (fun z i => lset z i (rget n i)) (int_array TU8 16))) by ies. rewrite (ie_err _ _ J); [reflexivity|].
  intros a E. destruct (for_inv _ _ _ _ _ E 7%nat ltac:(lia)) as (s & s' & E2). apply lset_inv in E2. destruct E2 as (v & E2). apply get_inv in E2. lia.
Qed.
Lemma stream_xor_short : forall c m d n k, d <> 0 -> (length n < 24)%nat \/ (length k < 32)%nat -> stream_xor_c c m d n k = Err IndexError.
Proof.
  intros c m d n k D L. unfold stream_xor_c. destruct (Nat.lt_ge_cases (length n) 16) as [L1|L1]; [rewrite core_short by lia; reflexivity|].
  destruct (Nat.lt_ge_cases (length k) 32) as [L2|L2]; [rewrite core_short by lia; reflexivity|]. pose proof sigma_length as Ls.
  destruct (core_ok (int_array TU8 32) n k sigma true) as [E _]; try lia. { reflexivity. } rewrite E. rb. apply xor_short; [exact D|]. rewrite skipn_length. lia.
Qed.
Lemma stream_short : forall c d n k, d <> 0 -> (length n < 24)%nat \/ (length k < 32)%nat -> stream_c c d n k = Err IndexError.
Proof. intros c d n k D L. exact (stream_xor_short c [] d n k D L). Qed.

Lemma clamp_short : forall n, (length n < 32)%nat -> clamp_z_c n = Err IndexError.
Proof.
  intros n L. apply ie_err; [unfold clamp_z_c; ies|]. intros a E. unfold clamp_z_c in E. apply bind_inv in E. destruct E as (z & _ & E). apply bind_inv in E. destruct E as (z2 & E & _).
  apply lset_inv in E. destruct E as (v & E). apply lift2_inv in E. destruct E as (x & y & E & _). apply lift2_inv in E. destruct E as (x2 & y2 & E & _). apply get_inv in E. lia.
Qed.
Lemma unpack_short : forall o p, (length p < 32)%nat -> unpack25519_c o p = Err IndexError.
Proof.
  intros o p L. apply ie_err; [unfold unpack25519_c; ies|]. intros a E. unfold unpack25519_c in E. apply bind_inv in E. destruct E as (z & E & _).
  destruct (for_inv _ _ _ _ _ E 15%nat ltac:(lia)) as (s & s' & E2). apply lset_inv in E2. destruct E2 as (v & E2). apply lift2_inv in E2. destruct E2 as (x & y & _ & E2).
  apply lift_inv in E2. destruct E2 as (w & E2). apply lift_inv in E2. destruct E2 as (u & E2). apply get_inv in E2. lia.
Qed.
Lemma scalarmult_short : forall q n p, (length n < 32)%nat \/ (length p < 32)%nat -> scalarmult_c q n p = Err IndexError.
Proof.
  intros q n p L. unfold scalarmult_c. destruct (Nat.lt_ge_cases (length n) 32) as [L1|L1]; [rewrite clamp_short by exact L1; reflexivity|].
  destruct (clamp_ok n L1) as [-> _]. rb. rewrite unpack_short by lia. reflexivity.
Qed.

(** ** The methods *)
Lemma method_hash_ok : forall m, Z.of_nat (length m) < 2 ^ 64 -> method_hash m = Ok (sha512 m).
Proof.
  intros m B. unfold method_hash. destruct (hash_ok (int_array TU8 64) (of_bytes m) (Z.of_nat (length m))) as [-> _]; [cbn; lia|rewrite of_bytes_length; lia|]. rb.
  pose proof (hash_w (int_array TU8 64) (of_bytes m) m (Z.of_nat (length m)) (holds_of_bytes m) ltac:(lia) ltac:(lia) B eq_refl) as W.
  rewrite Nat2Z.id, firstn_all in W. apply rbytes_holds. exact W.
Qed.
Lemma method_box_keypair_eq : forall sk, method_box_keypair sk = pure_box_keypair_not_random sk.
Proof.
  intros sk. unfold method_box_keypair, pure_box_keypair_not_random, crypto_scalarmult_base. destruct (Nat.eqb_spec (length sk) 32) as [L|L]; [|reflexivity]. cbn [negb].
  assert (Lb : length b9 = 32%nat) by reflexivity.
  destruct (scalarmult_ok (int_array TU8 32) (of_bytes sk) b9) as [-> _]; [cbn; lia|rewrite of_bytes_length; lia|lia|]. rb.
  pose proof (scalarmult_any (int_array TU8 32) (of_bytes sk) sk b9 _ eq_refl (holds_of_bytes sk) ltac:(lia) (byt_holds b9 ltac:(repeat (constructor; [apply byt_mk; lia|]); constructor))) as W.
  rewrite (rbytes_holds _ _ (W ltac:(rewrite to_bytes_length; lia))), (holds_to_bytes _ _ (W ltac:(rewrite to_bytes_length; lia))). reflexivity.
Qed.
Lemma method_beforenm_eq : forall pk sk, method_beforenm pk sk = pure_box_beforenm pk sk.
Proof.
  intros pk sk. unfold method_beforenm, pure_box_beforenm, beforenm_c. destruct (Nat.ltb_spec (length sk) 32) as [L|L]; cbn [orb].
  { rewrite scalarmult_short by (rewrite of_bytes_length; lia). reflexivity. } destruct (Nat.ltb_spec (length pk) 32) as [L2|L2].
  { rewrite scalarmult_short by (rewrite !of_bytes_length; lia). reflexivity. }
  destruct (beforenm_ok (int_array TU8 32) (of_bytes pk) (of_bytes sk)) as [E _]; [cbn; lia|rewrite of_bytes_length; lia..|]. unfold beforenm_c in E. rewrite E. rb.
  pose proof (beforenm_w (int_array TU8 32) (of_bytes pk) pk (of_bytes sk) sk eq_refl (holds_of_bytes sk) L (holds_of_bytes pk) L2) as W.
  rewrite (rbytes_holds _ _ W), (holds_to_bytes _ _ W). reflexivity.
Qed.
Lemma method_afternm_eq : forall m n k, method_afternm m n k = if (length n <? 24)%nat || (length k <? 32)%nat then Err IndexError else Ok (pure_box_afternm m n k).
Proof.
  intros m n k. unfold method_afternm, pure_box_afternm. cbv zeta. rewrite app_length, repeat_length. destruct ((length n <? 24)%nat || (length k <? 32)%nat) eqn:L.
  - unfold secretbox_c. replace (Z.of_nat (32 + length m) <? 32) with false by lia. rewrite stream_xor_short by (rewrite ?of_bytes_length; lia). reflexivity.
  - rewrite secretbox_ok by (unfold int_array; rewrite ?of_bytes_length, ?app_length, ?repeat_length; lia). rb.
    pose proof (byt_secretbox (int_array TU8 (32 + length m)) (of_bytes (repeat x00 32 ++ m)) (Z.of_nat (32 + length m)) (of_bytes n) (of_bytes k)) as B.
    destruct (crypto_secretbox _ _ _ _ _) as [r c]. cbn [snd] in B. rewrite byt_rbytes; [reflexivity|].
    apply B; try (unfold int_array; rewrite ?of_bytes_length, ?app_length, ?repeat_length; lia). { apply byt_zeros. } { apply byt_of_bytes. }
Qed.
Lemma box_open_short : forall m c d n k, 32 <= d -> (length n < 24)%nat \/ (length k < 32)%nat -> secretbox_open_c m c d n k = Err IndexError.
Proof. intros m c d n k D L. unfold secretbox_open_c. replace (d <? 32) with false by lia. rewrite stream_short by (lia || exact L). reflexivity. Qed.
Lemma method_open_afternm_eq : forall c n k,
  method_open_afternm c n k = if (length n <? 24)%nat || (length k <? 32)%nat then Err NameError else pure_box_open_afternm c n k.
Proof.
  intros c n k. unfold method_open_afternm, pure_box_open_afternm. cbv zeta. rewrite app_length, repeat_length. destruct ((length n <? 24)%nat || (length k <? 32)%nat) eqn:L.
  - destruct (Z.ltb_spec (Z.of_nat (16 + length c)) 32) as [D|D].
    + unfold secretbox_open_c. replace (Z.of_nat (16 + length c) <? 32) with true by lia. reflexivity.
    + rewrite box_open_short by (rewrite ?of_bytes_length; lia). reflexivity.
  - rewrite secretbox_open_ok by (unfold int_array; rewrite ?of_bytes_length, ?app_length, ?repeat_length; lia). rb.
    assert (S : forall m cc d nn kk, fst (crypto_secretbox_open m cc d nn kk) = -1 \/ crypto_secretbox_open m cc d nn kk = (0, repeat (mk TU8 0) 32)).
    { intros. unfold crypto_secretbox_open. destruct (d <? 32); [left; reflexivity|]. cbv zeta. destruct (negb _); [left; reflexivity|right; reflexivity]. }
    match goal with |- context [crypto_secretbox_open ?m ?cc ?d ?nn ?kk] => destruct (S m cc d nn kk) as [E|E]; [destruct (crypto_secretbox_open m cc d nn kk) as [r m2]; cbn [fst] in E; subst r; reflexivity|rewrite E] end.
    cbn [Z.eqb negb]. rewrite byt_rbytes by (apply (byt_zeros 32)). reflexivity.
Qed.

(** ** Signing with a short key *)
Lemma for_ext_c : forall A n (f g : A -> nat -> res A) st, (forall s i, (i < n)%nat -> f s i = g s i) -> for_c n f st = for_c n g st.
Proof. intros A n f g st H. induction n as [|n IH]; [reflexivity|]. rewrite !for_c_S, IH by (intros; apply H; lia). destruct (for_c n g st); [|reflexivity]. cbn [rbind]. apply H. lia. Qed.
Lemma for_prefix : forall A n (g : A -> nat -> res A) st r k, for_c n g st = Ok r -> (k <= n)%nat -> exists s, for_c k g st = Ok s.
Proof.
  intros A n g st. induction n as [|n IH]; intros r k H L; [exists st; replace k with 0%nat by lia; reflexivity|].
  destruct (Nat.eq_dec k (S n)) as [->|N]; [exists r; exact H|]. rewrite for_c_S in H. apply bind_inv in H. destruct H as (s & E & _). apply (IH s k E). lia.
Qed.
Lemma for_fails : forall A n (g : A -> nat -> res A) st k s e, for_c k g st = Ok s -> g s k = Err e -> (k < n)%nat -> for_c n g st = Err e.
Proof.
  intros A n g st k s e E F. induction n as [|n IH]; intros L; [lia|]. rewrite for_c_S. destruct (Nat.eq_dec k n) as [->|N]; [rewrite E; exact F|]. rewrite IH by lia. reflexivity.
Qed.
Lemma rget_app : forall a b i, (i < length a)%nat -> rget (a ++ b) i = rget a i.
Proof. intros a b i L. rewrite !rget_ok by (rewrite ?app_length; lia). unfold geti. rewrite app_nth1 by exact L. reflexivity. Qed.
Lemma hash32_eq : forall out m, hash_c out m 32 =
  rbind (for_c 64 (fun h i => lset h i (rget iv i)) (int_array TU8 64)) (fun h => rbind (hashblocks_c h [] 32) (fun h =>
  rbind (for_c 32 (fun x i => lset x i (rget m (i + 0))) (repeat (mk TU8 0) 256)) (fun x =>
  rbind (lset x 32 (ChkPy.num 128)) (fun x => rbind (lset x 119 (Ok (pshr (mk TU64 32) 61))) (fun x =>
  rbind (tail_c 120 (fun y => ts64_c y (pshl (mk TU64 32) 3)) x) (fun x => rbind (hashblocks_c h x 128) (fun h => for_c 64 (fun out i => lset out i (rget h i)) out))))))).
Proof. reflexivity. Qed.
Lemma hash32_app : forall out a b, (32 <= length a)%nat -> hash_c out (a ++ b) 32 = hash_c out a 32.
Proof.
  intros out a b L. rewrite !hash32_eq.
  rewrite (for_ext_c _ 32 (fun x i => lset x i (rget (a ++ b) (i + 0))) (fun x i => lset x i (rget a (i + 0)))) by (intros; rewrite rget_app by lia; reflexivity). reflexivity.
Qed.
Lemma hash32_short : forall m, (length m < 32)%nat -> hash_c (int_array TU8 64) m 32 = Err IndexError.
Proof.
  intros m L. rewrite hash32_eq. destruct (hash_ok (int_array TU8 64) (repeat (plain 0) 32) 32) as [E _]; [cbn; lia|cbn; lia|]. rewrite hash32_eq in E.
  apply bind_inv in E. destruct E as (h & -> & E). rb. apply bind_inv in E. destruct E as (h2 & -> & _). rb.
  assert (J : ie (for_c 32 (fun x i => lset x i (rget m (i + 0))) (repeat (mk TU8 0) 256))) by ies. rewrite (ie_err _ _ J); [reflexivity|].
  intros a E. destruct (for_inv _ _ _ _ _ E 31%nat ltac:(lia)) as (s & s' & E2). apply lset_inv in E2. destruct E2 as (v & E2). apply get_inv in E2. lia.
Qed.
Lemma sign_key_eq : forall sm sk p, sign_key_c sm sk p = rbind (pack_point_c bput sm p) (fun sm => for_c 32 (fun sm i => sput bput sm (i + 32) (rget sk (i + 32))) sm).
Proof. reflexivity. Qed.
Lemma sign_key_short : forall sm a b p r, (32 <= length a < 64)%nat -> sign_key_c sm (a ++ b) p = Ok r -> sign_key_c sm a p = Err IndexError.
Proof.
  intros sm a b p r L H. rewrite sign_key_eq in H |- *. apply bind_inv in H. destruct H as (s & -> & H). rb.
  destruct (for_prefix _ _ _ _ _ (length a - 32)%nat H ltac:(lia)) as (s2 & E).
  apply (for_fails _ 32 _ s (length a - 32) s2); [|unfold sput, rget; replace (length a - 32 + 32 <? length a)%nat with false by lia; reflexivity|lia].
  rewrite <- E. apply for_ext_c. intros t i Hi. rewrite rget_app by lia. reflexivity.
Qed.
Lemma sign_short : forall sm m n a b r, (32 <= length a < 64)%nat -> sign_c sm m n (a ++ b) = Ok r -> sign_c sm m n a = Err IndexError.
Proof.
  intros sm m n a b r L H. rewrite sign_c_eq in H |- *. rewrite hash32_app in H by lia.
  apply bind_inv in H. destruct H as (d & -> & H). rb. apply bind_inv in H. destruct H as (d2 & -> & H). rb. apply bind_inv in H. destruct H as (s & -> & H). rb.
  apply bind_inv in H. destruct H as (h & -> & H). rb. apply bind_inv in H. destruct H as (h2 & -> & H). rb. apply bind_inv in H. destruct H as (p & -> & H). rb.
  apply bind_inv in H. destruct H as (s2 & E & _). rewrite (sign_key_short _ _ _ _ _ L E). reflexivity.
Qed.
Lemma method_sign_eq : forall m sk, Z.of_nat (length m) + 64 < 2 ^ 64 ->
  method_sign m sk = if (length sk <? 64)%nat then Err IndexError else Ok (ed_sign (firstn 32 sk) (firstn 32 (skipn 32 sk)) m ++ m).
Proof.
  intros m sk B. destruct (Nat.ltb_spec (length sk) 64) as [L|L]; [|apply method_sign_ok; assumption]. unfold method_sign.
  destruct (Nat.lt_ge_cases (length sk) 32) as [L1|L1].
  - rewrite sign_c_eq, hash32_short by (rewrite of_bytes_length; lia). reflexivity.
  - destruct (sign_ok m (sk ++ repeat x00 32)) as (s & E & _); [rewrite app_length, repeat_length; lia|exact B|].
    unfold of_bytes at 3 in E. rewrite map_app in E. fold (of_bytes sk) in E. assert (La : (32 <= length (of_bytes sk) < 64)%nat) by (rewrite of_bytes_length; lia). rewrite (sign_short _ _ _ _ _ _ La E). reflexivity.
Qed.
Lemma unpackneg_short : forall r p, l4 r -> (length p < 32)%nat -> unpackneg_c r p = Err IndexError.
Proof.
  intros r p (_ & _ & L2 & _) L. rewrite unpackneg_c_eq. destruct const_lengths as (_ & _ & _ & _ & _ & _ & L1). destruct (set25519_ok (g2 r) gf1) as [-> _]; [lia|lia|]. rb.
  rewrite unpack_short by exact L. reflexivity.
Qed.
Lemma method_open_eq : forall sm pk, method_sign_open sm pk = pure_crypto_sign_open sm pk.
Proof.
  intros sm pk. destruct (Nat.lt_ge_cases (length sm) 64) as [L1|L1]; [apply method_open_ok; lia|].
  destruct (Nat.lt_ge_cases (length pk) 32) as [L2|L2]; [|apply method_open_ok; lia].
  unfold pure_crypto_sign_open. replace ((length pk <? 32)%nat && negb (length sm <? 64)%nat) with true by lia.
  unfold method_sign_open. rewrite open_c_eq. replace (length sm <? 64)%nat with false by lia. rewrite (unpackneg_short _ _ new_l4) by (rewrite of_bytes_length; lia). reflexivity.
Qed.
Lemma method_keypair_eq : forall seed, method_sign_keypair seed = if (length seed =? 32)%nat then Ok (ed_public seed, seed ++ ed_public seed) else Err ValueError.
Proof. intros seed. destruct (Nat.eqb_spec (length seed) 32) as [L|L]; [apply method_keypair_ok; exact L|]. unfold method_sign_keypair. replace (length seed =? 32)%nat with false by lia. reflexivity. Qed.
Lemma afternm_length : forall m n k, (24 <= length n)%nat -> (32 <= length k)%nat -> length (pure_box_afternm m n k) = (16 + length m)%nat.
Proof.
  intros m n k Ln Lk. unfold pure_box_afternm, crypto_secretbox. cbv zeta. rewrite app_length, repeat_length. replace (Z.of_nat (32 + length m) <? 32) with false by lia.
  destruct (stream_xor_ok (int_array TU8 (32 + length m)) (of_bytes (repeat x00 32 ++ m)) (Z.of_nat (32 + length m)) (of_bytes n) (of_bytes k)) as [_ L];
    try (unfold int_array; rewrite ?of_bytes_length, ?app_length, ?repeat_length; lia).
  remember (crypto_stream_xsalsa20_xor _ _ _ _ _) as c eqn:Q. clear Q. unfold int_array in L. rewrite repeat_length in L.
  destruct (onetimeauth_ok (skipn 16 c) (skipn 32 c) (Z.of_nat (32 + length m) - 32) c) as [_ L2]; try (rewrite ?skipn_length; lia).
  rewrite skipn_length, to_bytes_length, app_length, repeat_length, skipn_length, app_length, L2, firstn_length, skipn_length. lia.
Qed.
