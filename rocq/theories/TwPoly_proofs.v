(** The Poly1305 code computes Poly1305. *)
From Coq Require Import List ZArith Bool Strings.Byte Lia ZifyBool ZifyNat ZifyN.
From Verif Require Import PyBase PyBase_proofs PyInt PyInt_proofs ShaSpec TwHash_proofs SalsaSpec TwSalsa TwSalsa_proofs Radix_proofs PolySpec TwPoly.
Import ListNotations.
Open Scope Z_scope.
Ltac Zify.zify_post_hook ::= Z.div_mod_to_equations.

(** ** Exact operations *)
Lemma typed_plain_l : forall op a b, pt a = TPlain -> typed op a b = plain (op (pv a) (pv b)).
Proof.
  intros op [t v] b E. cbn in E. subst t. unfold typed, promote. cbn [pt pv]. change (order TPlain <? 5) with false.
  rewrite andb_false_r, andb_false_l. destruct (order TPlain >? order (pt b)) eqn:G; [reflexivity|].
  destruct b as [[] w]; cbn in G; try discriminate. reflexivity.
Qed.
Lemma typed_plain_r : forall op a b, pt b = TPlain -> typed op a b = plain (op (pv a) (pv b)).
Proof.
  intros op a [t v] E. cbn in E. subst t. unfold typed, promote. cbn [pt pv]. change (order TPlain <? 5) with false.
  rewrite andb_false_r. destruct (order (pt a) >? order TPlain) eqn:G; [|reflexivity].
  destruct a as [[] w]; cbn in G; discriminate.
Qed.
Lemma pshr_plain : forall v n, 0 <= n -> pshr (plain v) n = plain (v / 2 ^ n).
Proof. intros v n H. unfold pshr, plain. cbn [pt pv mk]. rewrite Z.shiftr_div_pow2 by exact H. reflexivity. Qed.
Lemma mk_wide : forall t v, t <> TU8 -> 0 <= v < 2 ^ 31 -> pv (mk t v) = v.
Proof.
  intros t v T H. assert (N : (v <? 0) = false) by lia.
  destruct t; [congruence| | | | |reflexivity]; unfold mk; cbn [pv mask]; rewrite N, land_ones by lia; apply Z.mod_small; lia.
Qed.
Lemma typed_wide : forall op a b, pt a <> TU8 -> 0 <= op (pv a) (pv b) < 2 ^ 31 -> pv (typed op a b) = op (pv a) (pv b).
Proof.
  intros op a b T H. unfold typed. apply mk_wide; [|exact H]. unfold promote.
  replace (op (pv a) (pv b) <? 0) with false by lia. cbn [andb].
  destruct (order (pt a) >? order (pt b)) eqn:G; [exact T|]. intros E. rewrite E in G. destruct (pt a); cbn in G; congruence.
Qed.

Definition dig (l : list pint) (j : nat) : Z := pv (geti l j).
Definition pl (n : nat) (d : nat -> Z) : list pint := map (fun i => plain (d i)) (seq 0 n).
Lemma pl_length : forall n d, length (pl n d) = n.
Proof. intros. unfold pl. rewrite map_length, seq_length. reflexivity. Qed.
Lemma pl_geti : forall n d j, (j < n)%nat -> geti (pl n d) j = plain (d j).
Proof.
  intros n d j H. unfold pl, geti. rewrite (nth_indep _ _ (plain (d O))) by (rewrite map_length, seq_length; exact H).
  rewrite (map_nth (fun i => plain (d i))), seq_nth by exact H. reflexivity.
Qed.
Lemma pl_ext : forall n l, length l = n -> (forall j, (j < n)%nat -> pt (geti l j) = TPlain) -> l = pl n (dig l).
Proof.
  intros n l L H. apply list_ext; [rewrite pl_length; exact L|]. intros j Hj. rewrite pl_geti by lia.
  specialize (H j ltac:(lia)). unfold dig. destruct (geti l j) as [t v]. cbn in *. subst. reflexivity.
Qed.

Lemma land_255 : forall v, Z.land v 255 = v mod 256.
Proof. intros v. change 255 with (2 ^ 8 - 1). rewrite land_ones by lia. reflexivity. Qed.

(** A loop that carries: the digits below [k] are done, the others untouched. *)
Definition carried (h : list pint) (f : nat -> Z) (u0 : Z) (k : nat) (u : Z) (s : list pint) : Prop :=
  length s = length h /\
  (forall j, (j < k)%nat -> pt (geti s j) = TPlain /\ 0 <= dig s j < 256) /\
  (forall j, (k <= j)%nat -> geti s j = geti h j) /\
  num 256 k (dig s) + 256 ^ Z.of_nat k * u = u0 + num 256 k f.
Lemma carried_start : forall h f u0, carried h f u0 0 u0 h.
Proof. intros h f u0. split; [reflexivity|]. split; [intros; lia|]. split; [reflexivity|]. change (num 256 0 (dig h)) with 0. change (num 256 0 f) with 0. change (256 ^ Z.of_nat 0) with 1. lia. Qed.
Lemma carried_step : forall h f u0 k u s v, carried h f u0 k u s -> (k < length h)%nat -> v = u + f k ->
  carried h f u0 (S k) (v / 256) (seti s k (plain (v mod 256))).
Proof.
  intros h f u0 k u s v (L & D & N & E) Hk ->. split; [rewrite seti_length; exact L|]. split; [|split].
  - intros j Hj. unfold dig. destruct (Nat.eq_dec k j) as [<-|Q].
    + rewrite geti_seti_eq by lia. cbn [plain pt pv]. split; [reflexivity|lia].
    + rewrite geti_seti_ne by exact Q. apply D. lia.
  - intros j Hj. rewrite geti_seti_ne by lia. apply N. lia.
  - rewrite !num_S. rewrite (num_ext 256 k (dig (seti s k (plain ((u + f k) mod 256)))) (dig s)).
    + unfold dig at 2. rewrite geti_seti_eq by lia. cbn [plain pv].
      rewrite Nat2Z.inj_succ, Z.pow_succ_r by lia.
      pose proof (Z.div_mod (u + f k) 256 ltac:(lia)) as Q. nia.
    + intros j Hj. unfold dig. rewrite geti_seti_ne by lia. reflexivity.
Qed.

Definition small (l : list pint) (b : Z) : Prop := forall j, (j < 17)%nat -> 0 <= dig l j <= b.
Lemma add1305_w : forall h c, length h = 17%nat -> (forall j, (j < 17)%nat -> pt (geti h j) <> TU8) ->
  small h (2 ^ 20) -> small c (2 ^ 20) ->
  exists d, add1305 h c = pl 17 d /\ (forall j, (j < 17)%nat -> 0 <= d j < 256) /\
    num 256 17 d = (num 256 17 (dig h) + num 256 17 (dig c)) mod 2 ^ 136.
Proof.
  intros h c L T Sh Sc. unfold add1305.
  match goal with |- context [for_range 17 ?ff ?s0] =>
    pose proof (for_range_inv _ (fun k st => exists u, fst st = v32 u /\ 0 <= u <= 2 ^ 20 /\
      carried h (fun j => dig h j + dig c j) 0 k u (snd st)) 17 ff s0) as P end.
  cbn beta in P. destruct P as (u & _ & Hu & L' & D & _ & E).
  - exists 0. split; [reflexivity|]. split; [lia|]. apply carried_start.
  - intros k [u' s] Hk (u & Eu & Hu & C). cbn [fst snd] in *. subst u'.
    assert (G : geti s k = geti h k) by (apply C; lia). rewrite G.
    specialize (Sh k Hk). specialize (Sc k Hk). unfold dig in Sh, Sc.
    assert (W : cast TU32 (padd (geti h k) (geti c k)) = v32 (dig h k + dig c k)).
    { apply cast_byte; [|unfold dig; lia]. unfold padd. rewrite typed_wide; [reflexivity|apply T, Hk|lia]. }
    assert (PA : padd (v32 u) (v32 (dig h k + dig c k)) = v32 (u + (dig h k + dig c k))).
    { rewrite padd_v32 by (unfold dig; lia). rewrite Z.mod_small by (unfold dig; lia). reflexivity. }
    rewrite W, !PA. rewrite pshr_v32 by (unfold dig; lia).
    change (2 ^ 8) with 256. exists ((u + (dig h k + dig c k)) / 256). unfold pand. rewrite typed_plain_r by reflexivity.
    cbn [v32 plain pv]. rewrite land_255. split; [reflexivity|]. split; [unfold dig; lia|].
    apply (carried_step h _ 0 k u s (u + (dig h k + dig c k)) C); [lia|reflexivity].
  - match goal with |- context [snd ?x] => remember (snd x) as s eqn:Es; clear Es end.
    exists (dig s). split; [apply pl_ext; [lia|intros j Hj; apply D, Hj]|]. split; [intros j Hj; apply D, Hj|].
    assert (Q : num 256 17 (fun j => dig h j + dig c j) = num 256 17 (dig h) + num 256 17 (dig c)).
    { unfold num. rewrite <- sumz_add. apply sumz_ext. intros. ring. }
    rewrite Q in E. apply (Z.mod_unique_pos _ _ u).
    + change (2 ^ 136) with (256 ^ Z.of_nat 17). apply num_range; [lia|]. intros j Hj. apply D, Hj.
    + change (256 ^ Z.of_nat 17) with (2 ^ 136) in E. lia.
Qed.

Lemma seti_seti : forall l i v w, seti (seti l i v) i w = seti l i w.
Proof. induction l as [|x l IH]; intros [|i] v w; cbn; auto. f_equal. apply IH. Qed.
Lemma accumulate : forall n i (e : nat -> Z) (E : nat -> pint) x a, (i < length x)%nat -> (forall j, (j < n)%nat -> E j = plain (e j)) ->
  for_range n (fun x j => seti x i (padd (geti x i) (E j))) (seti x i (plain a)) = seti x i (plain (a + sumz n e)).
Proof.
  intros n i e E x a Hi. induction n as [|n IH]; intros H; [cbn; rewrite Z.add_0_r; reflexivity|].
  rewrite for_range_S, IH by (intros; apply H; lia). rewrite geti_seti_eq, seti_seti, H by lia.
  unfold padd. rewrite typed_plain_l by reflexivity. cbn [plain pv sumz]. rewrite Z.add_assoc. reflexivity.
Qed.
Lemma seti_app_mid : forall a y t v, seti (a ++ y :: t) (length a) v = a ++ [v] ++ t.
Proof. induction a as [|z a IH]; intros y t v; [reflexivity|]. cbn [app seti length]. f_equal. apply IH. Qed.
Lemma poly_mul_w : forall h r x, length x = 17%nat ->
  poly_mul (pl 17 h) r x = pl 17 (conv 17 320 h (dig r)).
Proof.
  intros h r x L. unfold poly_mul.
  assert (CE : forall k, sumz 17 (fun j => h j * (if (j <=? k)%nat then dig r (k - j) else 320 * dig r (k + 17 - j))) = conv 17 320 h (dig r) k)
    by (intros k; unfold conv; reflexivity).
  match goal with |- for_range 17 ?ff ?s0 = _ =>
    pose proof (for_range_inv _ (fun k s => length s = 17%nat /\ s = map (fun i => plain (conv 17 320 h (dig r) i)) (seq 0 k) ++ skipn k x) 17 ff s0) as P end.
  destruct P as [_ P]; [| |rewrite P, (skipn_all2 x) by lia; apply app_nil_r].
  - split; [exact L|reflexivity].
  - intros k s Hk [Ls Es]. cbv zeta.
    erewrite (accumulate 17 k (fun j => h j * (if (j <=? k)%nat then dig r (k - j) else 320 * dig r (k + 17 - j)))).
    + split; [rewrite seti_length; exact Ls|]. rewrite Z.add_0_l.
      rewrite CE.
      rewrite Es at 1. rewrite seq_S, map_app. cbn [map Nat.add]. rewrite <- app_assoc.
      assert (Lm : length (map (fun i => plain (conv 17 320 h (dig r) i)) (seq 0 k)) = k) by (rewrite map_length, seq_length; reflexivity).
      destruct (skipn k x) as [|y t] eqn:Et; [apply (f_equal (@length _)) in Et; rewrite skipn_length in Et; cbn in Et; lia|].
      replace (skipn (S k) x) with t by (rewrite <- (firstn_skipn k x) at 1; rewrite Et;
         rewrite skipn_app, firstn_length, Nat.min_l by lia; rewrite skipn_all2 by (rewrite firstn_length; lia);
         replace (S k - k)%nat with 1%nat by lia; reflexivity).
      rewrite <- Lm at 2. rewrite seti_app_mid. reflexivity.
    + lia.
    + intros j Hj. rewrite pl_geti by exact Hj. unfold pmul at 1. rewrite typed_plain_l by reflexivity. cbn [plain pv].
      f_equal. f_equal. destruct (j <=? k)%nat; [reflexivity|]. unfold pmul. rewrite typed_plain_l by reflexivity. reflexivity.
Qed.

Lemma poly_carry_w : forall u h, (17 <= length h)%nat -> (forall j, (j < 17)%nat -> pt (geti h j) = TPlain) ->
  exists u' s, poly_carry (plain u, h) = (plain u', s) /\ carried h (dig h) u 16 u' s.
Proof.
  intros u h L T. unfold poly_carry.
  match goal with |- context [for_range 16 ?ff ?s0] =>
    pose proof (for_range_inv _ (fun k (st : pint * list pint) => exists u', fst st = plain u' /\ carried h (dig h) u k u' (snd st)) 16 ff s0) as P end.
  destruct P as (u' & E & C).
  - exists u. split; [reflexivity|]. apply carried_start.
  - intros k [w s] Hk (u' & E & C). cbn [fst snd] in *. subst w.
    assert (G : geti s k = geti h k) by (apply C; lia). rewrite G. unfold padd, pand.
    rewrite (typed_plain_l _ (plain u')) by reflexivity. rewrite pshr_plain by lia. rewrite (typed_plain_l Z.land) by reflexivity.
    cbn [plain pv]. change (2 ^ 8) with 256. rewrite land_255. eexists. split; [reflexivity|].
    apply carried_step with (u := u'); [exact C|lia|reflexivity].
  - match type of E with fst ?x = _ => destruct x as [w s] end. cbn [fst snd] in *. subst w. exists u', s. split; [reflexivity|exact C].
Qed.

(** What [poly_reduce] does to a number *)
Lemma poly_reduce_w : forall x, (forall j, (j < 17)%nat -> 0 <= x j <= 2 ^ 36) ->
  exists d, poly_reduce (pl 17 x) = pl 17 d /\ (forall j, (j < 16)%nat -> 0 <= d j < 256) /\ 0 <= d 16%nat <= 4 /\
    num 256 17 d mod p1305 = num 256 17 x mod p1305.
Proof.
  intros x B. unfold poly_reduce.
  destruct (poly_carry_w 0 (pl 17 x)) as (u1 & s1 & E1 & L1 & D1 & N1 & V1);
    [rewrite pl_length; lia|intros; rewrite pl_geti by assumption; reflexivity|]. rewrite E1. cbv zeta.
  rewrite pl_length in L1. assert (G16 : geti s1 16 = plain (x 16%nat)) by (rewrite N1 by lia; apply pl_geti; lia).
  rewrite G16. unfold padd at 1 2, pand. rewrite !(typed_plain_l _ (plain u1)) by reflexivity. cbn [plain pv].
  change {| pt := TPlain; pv := u1 + x 16%nat |} with (plain (u1 + x 16%nat)).
  rewrite (typed_plain_l Z.land) by reflexivity. rewrite pshr_plain by lia. unfold pmul. rewrite (typed_plain_l Z.mul) by reflexivity.
  cbn [plain pv]. change (2 ^ 2) with 4.
  set (v := u1 + x 16%nat) in *. replace (Z.land v 3) with (v mod 4) by (change 3 with (2 ^ 2 - 1); rewrite land_ones by lia; reflexivity).
  fold (plain (v mod 4)). fold (plain (5 * (v / 4))).
  assert (R1 : 0 <= num 256 16 (dig s1) < 256 ^ Z.of_nat 16) by (apply num_range; [lia|]; intros j Hj; apply D1, Hj).
  assert (X1 : num 256 16 (dig (pl 17 x)) = num 256 16 x).
  { apply num_ext. intros j Hj. unfold dig. rewrite pl_geti by lia. reflexivity. }
  assert (X2 : 0 <= num 256 16 x <= 2 ^ 40 * 256 ^ Z.of_nat 16).
  { unfold num. pose proof (sumz_bound 16 (fun i => x i * 256 ^ Z.of_nat i) (2 ^ 36 * 256 ^ Z.of_nat 16)) as Q.
    assert (W : 0 <= sumz 16 (fun i => x i * 256 ^ Z.of_nat i) <= Z.of_nat 16 * (2 ^ 36 * 256 ^ Z.of_nat 16)).
    { apply Q. intros i Hi. specialize (B i ltac:(lia)). assert (0 < 256 ^ Z.of_nat i <= 256 ^ Z.of_nat 16).
      { split; [apply Z.pow_pos_nonneg; lia|apply Z.pow_le_mono_r; lia]. } nia. }
    lia. }
  rewrite X1 in V1. change (256 ^ Z.of_nat 16) with (2 ^ 128) in *.
  assert (U1 : 0 <= u1 <= 2 ^ 40) by lia.
  assert (B16 : 0 <= x 16%nat <= 2 ^ 36) by (apply B; lia).
  assert (V0 : 0 <= v <= 2 ^ 41) by (unfold v; lia).
  destruct (poly_carry_w (5 * (v / 4)) (seti s1 16 (plain (v mod 4)))) as (u2 & s2 & E2 & L2 & D2 & N2 & V2).
  - rewrite seti_length. lia.
  - intros j Hj. destruct (Nat.eq_dec 16 j) as [<-|Q]; [rewrite geti_seti_eq by lia; reflexivity|].
    rewrite geti_seti_ne by exact Q. apply D1. lia.
  - rewrite E2. rewrite seti_length in L2.
    assert (H16 : geti s2 16 = plain (v mod 4)) by (rewrite N2, geti_seti_eq by lia; reflexivity). rewrite H16.
    unfold padd. rewrite (typed_plain_l _ (plain u2)) by reflexivity. cbn [plain pv]. fold (plain (u2 + v mod 4)).
    assert (X3 : num 256 16 (dig (seti s1 16 (plain (v mod 4)))) = num 256 16 (dig s1)).
    { apply num_ext. intros j Hj. unfold dig. rewrite geti_seti_ne by lia. reflexivity. }
    rewrite X3 in V2.
    assert (R2 : 0 <= num 256 16 (dig s2) < 256 ^ Z.of_nat 16) by (apply num_range; [lia|]; intros j Hj; apply D2, Hj).
    change (256 ^ Z.of_nat 16) with (2 ^ 128) in *.
    assert (U2 : 0 <= u2 <= 1) by lia.
    set (h := seti s2 16 (plain (u2 + v mod 4))).
    assert (PH : forall j, (j < 17)%nat -> pt (geti h j) = TPlain).
    { intros j Hj. unfold h. destruct (Nat.eq_dec 16 j) as [<-|Q]; [rewrite geti_seti_eq by lia; reflexivity|].
      rewrite geti_seti_ne by exact Q. apply D2. lia. }
    assert (DH : forall j, (j < 16)%nat -> dig h j = dig s2 j) by (intros j Hj; unfold dig, h; rewrite geti_seti_ne by lia; reflexivity).
    assert (D16 : dig h 16 = u2 + v mod 4) by (unfold dig, h; rewrite geti_seti_eq by lia; reflexivity).
    exists (dig h). split; [apply pl_ext; [unfold h; rewrite seti_length; lia|exact PH]|].
    split; [intros j Hj; rewrite DH by exact Hj; apply D2, Hj|]. rewrite D16. split; [lia|].
    rewrite (num_S 256 16 (dig h)), (num_S 256 16 x). rewrite (num_ext 256 16 (dig h) (dig s2)) by exact DH. rewrite D16.
    change (256 ^ Z.of_nat 16) with (2 ^ 128).
    replace (num 256 16 x + x 16%nat * 2 ^ 128) with (num 256 16 (dig s2) + (u2 + v mod 4) * 2 ^ 128 + (v / 4) * p1305).
    + rewrite Z.mod_add by (unfold p1305; lia). reflexivity.
    + unfold p1305, v in *. lia.
Qed.

(** ** Numbers, bytes and bits *)
Lemma num_front : forall B n f, num B (S n) f = f O + B * num B n (fun i => f (S i)).
Proof.
  intros B n f. induction n as [|n IH]; [rewrite num_S; cbn; ring|].
  rewrite num_S, IH, num_S, (Nat2Z.inj_succ n), Z.pow_succ_r by lia. ring.
Qed.
Lemma num_bytes : forall l n, (length l <= n)%nat -> num 256 n (fun i => bval (nth i l x00)) = le_word l.
Proof.
  induction l as [|x l IH]; intros n H.
  - unfold num. rewrite (sumz_ext _ _ (fun _ => 0 * 0)) by (intros; destruct i; reflexivity). rewrite sumz_scal. reflexivity.
  - destruct n as [|n]; [cbn in H; lia|]. rewrite num_front. cbn [nth le_word]. rewrite IH by (cbn in H; lia). reflexivity.
Qed.
Lemma holds_le_bytes : forall n d z, (forall i, (i < n)%nat -> 0 <= d i < 256) -> num 256 n d = z mod 256 ^ Z.of_nat n ->
  holds (pl n d) (le_bytes n z).
Proof.
  induction n as [|n IH]; intros d z R E; [reflexivity|]. unfold pl. cbn [seq map le_bytes].
  rewrite <- seq_shift, map_map. rewrite num_front, Nat2Z.inj_succ, Z.pow_succ_r in E by lia.
  assert (0 < 256 ^ Z.of_nat n) by (apply Z.pow_pos_nonneg; lia). rewrite Z.rem_mul_r in E by lia.
  pose proof (R O ltac:(lia)) as R0. pose proof (Z.mod_pos_bound z 256 ltac:(lia)).
  apply holds_cons.
  - cbn [plain pv]. change byte_of_z with z2b. rewrite b2z_z2b. nia.
  - apply (IH (fun i => d (S i))); [intros; apply R; lia|nia].
Qed.
Lemma testbit_cat : forall a b k i, 0 <= a < 2 ^ k -> 0 <= k -> 0 <= i ->
  Z.testbit (a + b * 2 ^ k) i = if i <? k then Z.testbit a i else Z.testbit b (i - k).
Proof.
  intros a b k i Ha Hk Hi. destruct (i <? k) eqn:E.
  - rewrite <- (Z.mod_pow2_bits_low (a + b * 2 ^ k) k i) by lia. rewrite Z.mod_add by lia. rewrite Z.mod_small by lia. reflexivity.
  - replace i with ((i - k) + k) at 1 by lia. rewrite <- Z.div_pow2_bits by lia. rewrite Z.div_add by lia. rewrite Z.div_small by lia. reflexivity.
Qed.
Lemma land_cat : forall a b c d k, 0 <= a < 2 ^ k -> 0 <= c < 2 ^ k -> 0 <= k ->
  Z.land (a + b * 2 ^ k) (c + d * 2 ^ k) = Z.land a c + Z.land b d * 2 ^ k.
Proof.
  intros a b c d k Ha Hc Hk. apply Z.bits_inj'. intros i Hi.
  assert (L : 0 <= Z.land a c < 2 ^ k).
  { assert (Z.land a c = Z.land a c mod 2 ^ k).
    { apply Z.bits_inj'. intros j Hj. destruct (Z.ltb_spec j k) as [Q|Q].
      - rewrite Z.mod_pow2_bits_low by lia. reflexivity.
      - rewrite Z.mod_pow2_bits_high by lia. rewrite Z.land_spec. replace a with (a mod 2 ^ k) by (apply Z.mod_small; lia).
        rewrite Z.mod_pow2_bits_high by lia. reflexivity. }
    rewrite H. apply Z.mod_pos_bound. lia. }
  rewrite Z.land_spec, !testbit_cat by assumption. destruct (i <? k); rewrite Z.land_spec; reflexivity.
Qed.
Lemma num_land : forall n f g, (forall i, (i < n)%nat -> 0 <= f i < 256 /\ 0 <= g i < 256) ->
  Z.land (num 256 n f) (num 256 n g) = num 256 n (fun i => Z.land (f i) (g i)).
Proof.
  induction n as [|n IH]; intros f g H; [reflexivity|]. rewrite !num_S.
  assert (P : 256 ^ Z.of_nat n = 2 ^ (8 * Z.of_nat n)) by (rewrite (Z.pow_mul_r 2 8) by lia; reflexivity).
  rewrite P, land_cat; [rewrite IH by (intros; apply H; lia); reflexivity| | |lia]; rewrite <- P; apply num_range; try lia; intros; apply H; lia.
Qed.

(** ** The clamped key *)
Definition clamp_digit (j : nat) : Z :=
  nth j [255; 255; 255; 15; 252; 255; 255; 15; 252; 255; 255; 15; 252; 255; 255; 15; 0] 0.
Lemma seti_geti_chain : forall l i v j, (i < length l)%nat -> geti (seti l i v) j = if (i =? j)%nat then v else geti l j.
Proof.
  intros l i v j H. destruct (Nat.eqb_spec i j) as [<-|Q]; [apply geti_seti_eq, H|apply geti_seti_ne, Q].
Qed.
Lemma mask_step : forall l i v f g, (i < length l)%nat -> (forall j, (j < length l)%nat -> dig l j = f j) ->
  (forall j, (j < length l)%nat -> g j = if (i =? j)%nat then Z.land (f j) v else f j) ->
  length (seti l i (pand (geti l i) (plain v))) = length l /\ forall j, (j < length l)%nat -> dig (seti l i (pand (geti l i) (plain v))) j = g j.
Proof.
  intros l i v f g Hi H G. split; [apply seti_length|]. intros j Hj. rewrite G by exact Hj. unfold dig.
  rewrite seti_geti_chain by exact Hi. destruct (Nat.eqb_spec i j) as [<-|Q]; [|apply H, Hj].
  unfold pand. rewrite typed_plain_r by reflexivity. cbn [plain pv]. f_equal. apply H, Hi.
Qed.
Lemma poly_r_w : forall k kb, holds k kb -> (16 <= length kb)%nat ->
  (forall j, (j < 17)%nat -> 0 <= dig (poly_r k) j < 256) /\
  num 256 17 (dig (poly_r k)) = clamp (le_word (firstn 16 kb)).
Proof.
  intros k kb H L.
  set (f := fun j => if (j <? 16)%nat then bval (nth j kb x00) else 0).
  assert (R : forall j, 0 <= f j < 256).
  { intros j. unfold f. destruct (j <? 16)%nat; [|lia]. exact (b2z_byte (nth j kb x00)). }
  assert (D : forall j, (j < 17)%nat -> dig (poly_r k) j = Z.land (f j) (clamp_digit j)).
  { unfold poly_r. rewrite for_range_fill by (unfold int_array; rewrite repeat_length; lia).
    set (l0 := map (geti k) (seq 0 16) ++ skipn 16 (int_array TU32 17)).
    assert (L0 : length l0 = 17%nat) by (unfold l0; rewrite app_length, map_length, seq_length, skipn_length; reflexivity).
    assert (D0 : forall j, (j < length l0)%nat -> dig l0 j = f j).
    { intros j Hj. rewrite L0 in Hj. unfold dig, l0, f, geti. destruct (Nat.ltb_spec j 16) as [Q|Q].
      - rewrite app_nth1 by (rewrite map_length, seq_length; exact Q).
        rewrite (nth_indep _ _ (geti k 0)) by (rewrite map_length, seq_length; exact Q).
        rewrite (map_nth (geti k)), seq_nth by exact Q. apply (holds_geti k kb); [exact H|lia].
      - replace j with 16%nat by lia. rewrite app_nth2 by (rewrite map_length, seq_length; lia).
        rewrite map_length, seq_length. reflexivity. }
    clearbody l0. cbv zeta.
    pose proof (fun i v l f => mask_step l i v f (fun j => if (i =? j)%nat then Z.land (f j) v else f j)) as MS.
    repeat match goal with |- context [seti ?l ?i (pand (geti ?l ?i) (plain ?v))] => is_var l;
      match goal with Hd : forall j, (j < length l)%nat -> dig l j = @?g j |- _ =>
        let L1 := fresh "L" in let D1 := fresh "D" in let l1 := fresh "l" in
        destruct (MS i v l g ltac:(lia) Hd ltac:(reflexivity)) as [L1 D1];
        remember (seti l i (pand (geti l i) (plain v))) as l1 eqn:Q; clear Q;
        rewrite <- L1 in D1 end end.
    intros j Hj.
    match goal with |- dig ?l j = _ => match goal with Hd : forall j, (j < length l)%nat -> _ |- _ => rewrite Hd by lia end end.
    assert (LF : Z.land (f j) 255 = f j) by (rewrite land_255; apply Z.mod_small, R).
    assert (F16 : f 16%nat = 0) by reflexivity.
    do 17 (destruct j as [|j]; [cbn [Nat.eqb clamp_digit nth]; rewrite ?LF, ?F16; reflexivity|]). lia. }
  assert (R2 : forall j, (j < 17)%nat -> 0 <= clamp_digit j < 256).
  { intros j Hj. do 17 (destruct j as [|j]; [cbn; lia|]). lia. }
  split.
  - intros j Hj. rewrite D by exact Hj. assert (LF : Z.land (Z.land (f j) (clamp_digit j)) 255 = Z.land (f j) (clamp_digit j)).
    { rewrite <- Z.land_assoc. f_equal. rewrite land_255. apply Z.mod_small. apply R2, Hj. }
    rewrite <- LF, land_255. apply Z.mod_pos_bound. lia.
  - rewrite (num_ext _ _ _ _ D). rewrite <- num_land by (intros; split; [apply R|apply R2; assumption]).
    unfold clamp. f_equal.
    rewrite (num_S 256 16 f). change (f 16%nat) with 0. rewrite Z.mul_0_l, Z.add_0_r.
    rewrite <- (num_bytes (firstn 16 kb) 16) by (rewrite firstn_length; lia).
    apply num_ext. intros i Hi. unfold f. replace (i <? 16)%nat with true by lia. rewrite nth_firstn' by exact Hi. reflexivity.
Qed.

(** ** A block *)
Lemma byte_range : forall l i, 0 <= bval (nth i l x00) < 256.
Proof. intros l i. exact (b2z_byte (nth i l x00)). Qed.
Lemma poly_block_w : forall m mb n, holds m mb -> (0 < n <= length mb)%nat ->
  let b := firstn 16 (firstn n mb) ++ [x01] in
  small (poly_block m (Z.of_nat n)) 255 /\ num 256 17 (dig (poly_block m (Z.of_nat n))) = le_word b.
Proof.
  intros m mb n H L b. set (q := Nat.min n 16).
  assert (Eb : b = firstn q mb ++ [x01]) by (unfold b; rewrite firstn_firstn, Nat.min_comm; reflexivity).
  assert (Lb : length b = S q) by (rewrite Eb, app_length, firstn_length; cbn [length]; unfold q; lia).
  assert (D : forall j, (j < 17)%nat -> dig (poly_block m (Z.of_nat n)) j = bval (nth j b x00)).
  { unfold poly_block.
    match goal with |- context [for_range 16 ?ff ?s0] =>
      pose proof (for_range_inv _ (fun k s => length s = 17%nat /\ forall j, (j < 17)%nat ->
         dig s j = if ((j <? k) && (j <? q))%nat then bval (nth j mb x00) else 0) 16 ff s0) as P end.
    destruct P as [Ls Ds].
    - split; [reflexivity|]. intros j Hj. cbn [Nat.ltb Nat.leb andb]. unfold dig, geti, int_array.
      do 17 (destruct j as [|j]; [reflexivity|]). lia.
    - intros k s Hk [Ls Ds]. destruct (Z.of_nat k >=? Z.of_nat n) eqn:E.
      + split; [exact Ls|]. intros j Hj. rewrite Ds by exact Hj.
        replace ((j <? S k) && (j <? q))%nat with ((j <? k) && (j <? q))%nat by (unfold q; lia). reflexivity.
      + split; [rewrite seti_length; exact Ls|]. intros j Hj. unfold dig. rewrite seti_geti_chain by lia.
        destruct (Nat.eqb_spec k j) as [<-|Q].
        * replace ((k <? S k) && (k <? q))%nat with true by (unfold q; lia). apply (holds_geti m mb); [exact H|lia].
        * fold (dig s j). rewrite Ds by exact Hj.
          replace ((j <? S k) && (j <? q))%nat with ((j <? k) && (j <? q))%nat by (unfold q; lia). reflexivity.
    - match goal with |- context [for_range 16 ?ff ?s0] => remember (for_range 16 ff s0) as s eqn:Es; clear Es end.
      intros j Hj. replace (Z.to_nat (Z.min (Z.of_nat n) 16)) with q by (unfold q; lia).
      unfold dig. rewrite seti_geti_chain by (unfold q; lia). rewrite Eb.
      assert (Lq : length (firstn q mb) = q) by (rewrite firstn_length; unfold q; lia).
      destruct (Nat.eqb_spec q j) as [<-|Q].
      + rewrite app_nth2 by lia. rewrite Lq, Nat.sub_diag. reflexivity.
      + fold (dig s j). rewrite Ds by exact Hj. destruct (Nat.ltb_spec j q) as [G|G].
        * rewrite app_nth1 by lia. rewrite nth_firstn' by exact G. replace (j <? 16)%nat with true by (unfold q in G; lia). reflexivity.
        * rewrite andb_false_r. rewrite nth_overflow by (rewrite app_length, Lq; cbn [length]; lia). reflexivity. }
  split.
  - intros j Hj. rewrite D by exact Hj. pose proof (byte_range b j). lia.
  - rewrite (num_ext _ _ _ _ D). apply num_bytes. unfold q in Lb. lia.
Qed.

(** ** The loop *)
Lemma blocks16_cons : forall m, m <> [] -> blocks16 m = firstn 16 m :: blocks16 (skipn 16 m).
Proof.
  intros m H. unfold blocks16. rewrite skipn_length.
  assert (L : (0 < length m)%nat) by (destruct m; [congruence|cbn; lia]).
  replace ((length m + 15) / 16)%nat with (S ((length m - 16 + 15) / 16)).
  - cbn [seq map]. f_equal. rewrite <- seq_shift, map_map. apply map_ext. intros i. rewrite skipn_skipn. f_equal. f_equal. lia.
  - destruct (Nat.leb_spec (length m) 16) as [Q|Q].
    + replace (length m - 16 + 15)%nat with 15%nat by lia. replace (length m + 15)%nat with (length m - 1 + 1 * 16)%nat by lia.
      rewrite Nat.div_add by lia. rewrite (Nat.div_small (length m - 1)) by lia. reflexivity.
    + replace (length m + 15)%nat with (length m - 16 + 15 + 1 * 16)%nat by lia. rewrite Nat.div_add by lia. lia.
Qed.
Definition good (h : list pint) : Prop :=
  length h = 17%nat /\ (forall j, (j < 17)%nat -> pt (geti h j) <> TU8) /\
  (forall j, (j < 16)%nat -> 0 <= dig h j < 256) /\ 0 <= dig h 16 <= 4.
Lemma good_small : forall h, good h -> small h (2 ^ 20).
Proof.
  intros h (_ & _ & A & B) j Hj. destruct (Nat.eq_dec j 16) as [->|Q]; [lia|]. specialize (A j ltac:(lia)). lia.
Qed.
Lemma good_num : forall h, good h -> 0 <= num 256 17 (dig h) < 5 * 2 ^ 128.
Proof.
  intros h (_ & _ & A & B). rewrite (num_S 256 16). pose proof (num_range 256 16 (dig h) ltac:(lia) A) as R.
  change (256 ^ Z.of_nat 16) with (2 ^ 128) in *. nia.
Qed.
Lemma good_pl : forall d, (forall j, (j < 16)%nat -> 0 <= d j < 256) -> 0 <= d 16%nat <= 4 -> good (pl 17 d).
Proof.
  intros d A B. assert (E : forall j, (j < 17)%nat -> dig (pl 17 d) j = d j) by (intros j Hj; unfold dig; rewrite pl_geti by exact Hj; reflexivity).
  split; [apply pl_length|]. split; [intros j Hj; rewrite pl_geti by exact Hj; discriminate|].
  split; [intros j Hj; rewrite E by lia; apply A, Hj|rewrite E by lia; exact B].
Qed.
Lemma dig_pl : forall n d j, (j < n)%nat -> dig (pl n d) j = d j.
Proof. intros n d j H. unfold dig. rewrite pl_geti by exact H. reflexivity. Qed.

Lemma w320 : 256 ^ Z.of_nat 17 mod p1305 = 320 mod p1305.
Proof. vm_compute. reflexivity. Qed.
Lemma poly_round_w : forall m mb r R n h x a, holds m mb -> (0 < n <= length mb)%nat ->
  (forall j, (j < 17)%nat -> 0 <= dig r j < 256) -> num 256 17 (dig r) = R ->
  good h -> num 256 17 (dig h) mod p1305 = a mod p1305 -> length x = 17%nat ->
  let h1 := add1305 h (poly_block m (Z.of_nat n)) in
  let x1 := poly_mul h1 r x in
  let h2 := poly_reduce (for_range 17 (fun h i => seti h i (geti x1 i)) h1) in
  length x1 = 17%nat /\ good h2 /\ num 256 17 (dig h2) mod p1305 = poly_step R a (firstn 16 (firstn n mb)).
Proof.
  intros m mb r R n h x a H L Rr ER Gh Ea Lx.
  destruct (poly_block_w m mb n H L) as [Sb Nb].
  remember (poly_block m (Z.of_nat n)) as c eqn:Ec. clear Ec.
  assert (Sc : small c (2 ^ 20)) by (intros j Hj; specialize (Sb j Hj); lia).
  destruct (add1305_w h c) as (d & E1 & Rd & Nd); try apply Gh; [apply good_small, Gh|exact Sc|].
  rewrite E1. cbv zeta. rewrite poly_mul_w by exact Lx. split; [apply pl_length|].
  rewrite for_range_fill by (rewrite pl_length; lia). rewrite skipn_all2 by (rewrite pl_length; lia). rewrite app_nil_r.
  assert (EM : map (geti (pl 17 (conv 17 320 d (dig r)))) (seq 0 17) = pl 17 (conv 17 320 d (dig r))).
  { unfold pl at 2. apply map_ext_in. intros j Hj. apply in_seq in Hj. apply pl_geti. lia. }
  rewrite EM. destruct (poly_reduce_w (conv 17 320 d (dig r))) as (e & E2 & Re & R16 & Ne).
  - intros i Hi. unfold conv.
    pose proof (sumz_bound 17 (fun j => d j * (if (j <=? i)%nat then dig r (i - j) else 320 * dig r (i + 17 - j))) (256 * (320 * 256))) as B.
    assert (W : 0 <= sumz 17 (fun j => d j * (if (j <=? i)%nat then dig r (i - j) else 320 * dig r (i + 17 - j))) <= Z.of_nat 17 * (256 * (320 * 256))).
    { apply B. intros j Hj. specialize (Rd j Hj). destruct (Nat.leb_spec j i) as [Q|Q].
      - specialize (Rr (i - j)%nat ltac:(lia)). nia.
      - specialize (Rr (i + 17 - j)%nat ltac:(lia)). nia. }
    lia.
  - rewrite E2. split; [apply good_pl; assumption|].
    rewrite (num_ext 256 17 (dig (pl 17 e)) e) by (intros; apply dig_pl; assumption).
    rewrite Ne. rewrite (num_conv_mod 256 17 320 p1305 _ _ ltac:(lia) ltac:(unfold p1305; lia) w320).
    rewrite ER, Nd, Nb. unfold poly_step.
    assert (P : p1305 <> 0) by (unfold p1305; lia).
    assert (B : 0 <= le_word (firstn 16 (firstn n mb) ++ [x01]) < 256 ^ Z.of_nat 17).
    { rewrite <- Nb. apply num_range; [lia|]. intros j Hj. specialize (Sb j Hj). lia. }
    assert (B2 : 0 <= le_word (firstn 16 (firstn n mb) ++ [x01]) <= 2 ^ 129).
    { pose proof (le_word_range (firstn 16 (firstn n mb) ++ [x01])) as Q. split; [lia|].
      assert (W : le_word (firstn 16 (firstn n mb) ++ [x01]) = le_word (firstn 16 (firstn n mb)) + 1 * 256 ^ Z.of_nat (length (firstn 16 (firstn n mb)))).
      { generalize (firstn 16 (firstn n mb)) as l. induction l as [|y l IH]; [reflexivity|]. cbn [app le_word length].
        rewrite IH, Nat2Z.inj_succ, Z.pow_succ_r by lia. lia. }
      rewrite W. pose proof (le_word_range (firstn 16 (firstn n mb))) as Q2.
      assert (256 ^ Z.of_nat (length (firstn 16 (firstn n mb))) <= 256 ^ Z.of_nat 16).
      { apply Z.pow_le_mono_r; [lia|]. rewrite firstn_length. lia. }
      change (256 ^ Z.of_nat 16) with (2 ^ 128) in *. lia. }
    pose proof (good_num h Gh) as GN. rewrite (Z.mod_small _ (2 ^ 136)) by lia.
    rewrite Z.mul_mod, (Z.add_mod (num 256 17 (dig h))), Ea, <- Z.add_mod, <- Z.mul_mod by exact P. reflexivity.
Qed.

Lemma min16 : forall n, Z.to_nat (Z.min (Z.of_nat n) 16) = Nat.min n 16 /\ Z.of_nat n - Z.min (Z.of_nat n) 16 = Z.of_nat (n - Nat.min n 16).
Proof. intros n. lia. Qed.
Lemma poly_loop_w : forall fuel m mb r R n h x a, holds m mb -> (n <= length mb)%nat -> (n <= fuel)%nat ->
  (forall j, (j < 17)%nat -> 0 <= dig r j < 256) -> num 256 17 (dig r) = R ->
  good h -> num 256 17 (dig h) mod p1305 = a mod p1305 -> length x = 17%nat ->
  good (poly_loop fuel m r x h (Z.of_nat n)) /\
  num 256 17 (dig (poly_loop fuel m r x h (Z.of_nat n))) mod p1305 = fold_left (poly_step R) (blocks16 (firstn n mb)) a mod p1305.
Proof.
  induction fuel as [|f IH]; intros m mb r R n h x a H L F Rr ER Gh Ea Lx.
  - replace n with O by lia. cbn [poly_loop firstn]. split; [exact Gh|exact Ea].
  - cbn [poly_loop]. destruct (Z.of_nat n >? 0) eqn:En.
    + assert (Hn : (0 < n)%nat) by lia.
      assert (Hk : (n - Nat.min n 16 <= f)%nat) by (clear - F Hn; lia).
      assert (Hl : (n - Nat.min n 16 <= length mb - Nat.min n 16)%nat) by (clear - L; lia).
      destruct (poly_round_w m mb r R n h x a H ltac:(lia) Rr ER Gh Ea Lx) as (L1 & G2 & N2).
      rewrite (proj1 (min16 n)), (proj2 (min16 n)).
      assert (NE : firstn n mb <> []) by (destruct n as [|n]; [lia|]; destruct mb; [cbn in L; lia|discriminate]).
      rewrite (blocks16_cons _ NE). cbn [fold_left].
      destruct (IH (skipn (Nat.min n 16) m) (skipn (Nat.min n 16) mb) r R (n - Nat.min n 16)%nat
        (poly_reduce (for_range 17 (fun h0 i => seti h0 i (geti (poly_mul (add1305 h (poly_block m (Z.of_nat n))) r x) i)) (add1305 h (poly_block m (Z.of_nat n)))))
        (poly_mul (add1305 h (poly_block m (Z.of_nat n))) r x) (poly_step R a (firstn 16 (firstn n mb)))) as [G N];
        [apply holds_skipn, H|rewrite skipn_length; exact Hl|exact Hk|exact Rr|exact ER|exact G2| |exact L1|].
      * cbv zeta in N2. rewrite N2. unfold poly_step. rewrite Z.mod_mod by (unfold p1305; lia). reflexivity.
      * split; [exact G|]. rewrite N. do 2 f_equal. rewrite skipn_firstn_comm.
        destruct (Nat.leb_spec 16 n) as [Q|Q].
        { rewrite Nat.min_r by exact Q. reflexivity. }
        { rewrite Nat.min_l by (clear - Q; lia). rewrite Nat.sub_diag. replace (n - 16)%nat with O by (clear - Q; lia). reflexivity. }
    + replace n with O by lia. cbn [firstn]. split; [exact Gh|exact Ea].
Qed.
