(** crypto_scalarmult of tweetnacl.py is X25519. *)
From Coq Require Import List ZArith Bool Strings.Byte Lia ZifyBool ZifyNat ZifyN.
From Verif Require Import PyBase PyBase_proofs PyInt PyInt_proofs ShaSpec TwHash_proofs SalsaSpec TwSalsa TwSalsa_proofs Radix_proofs TwPoly_proofs CurveSpec TwField TwField_proofs TwPack_proofs.
Import ListNotations.
Open Scope Z_scope.
Ltac Zify.zify_post_hook ::= Z.div_mod_to_equations.

(** ** Reading a coordinate *)
Lemma mk_small : forall t v, 0 <= v < 256 -> mk t v = PI t v.
Proof.
  intros t v H. assert (E : (v <? 0) = false) by lia. unfold mk. rewrite E.
  destruct t; cbn [mask]; rewrite ?land_ones by lia; rewrite ?Z.mod_small by lia; reflexivity.
Qed.
Lemma byte_range : forall b k, 0 <= bval (nth k b x00) < 256.
Proof. intros b k. change bval with b2z. apply b2z_range. Qed.
Lemma is_pair : forall a b, 0 <= pv a < 256 -> 0 <= pv b < 256 -> is (padd a (pshl (cast TI64 b) 8)) (pv a + 256 * pv b).
Proof.
  intros a b Ha Hb. unfold cast. rewrite mk_small by exact Hb.
  assert (E : pshl (PI TI64 (pv b)) 8 = PI TI64 (256 * pv b)).
  { unfold pshl. cbn [pt pv]. rewrite Z.shiftl_mul_pow2 by lia. rewrite mk_i64 by (unfold fits; lia). f_equal. lia. }
  rewrite E. unfold padd, typed. cbn [pt pv]. set (r := pv a + 256 * pv b).
  assert (P : promote (pt a) TI64 r = TI64 \/ promote (pt a) TI64 r = TPlain).
  { unfold promote. change (order TI64 <? 5) with false. rewrite andb_false_r. destruct (pt a); cbn; auto. }
  apply mk_exact; [exact P|unfold fits, r; lia].
Qed.
Definition pairf (b : bytes) (i : nat) : Z := bval (nth (2 * i) b x00) + 256 * bval (nth (2 * i + 1) b x00).
Definition unpf (b : bytes) (i : nat) : Z := if (i =? 15)%nat then pairf b i mod 32768 else pairf b i.
Lemma pairf_digit : forall b i, digit (pairf b i).
Proof. intros b i. unfold digit, pairf. pose proof (byte_range b (2 * i)). pose proof (byte_range b (2 * i + 1)). lia. Qed.
Lemma top_mod : forall N T f M, 0 <= N < T -> M = T * 32768 -> N + f mod 32768 * T = (N + f * T) mod M.
Proof.
  intros N T f M H ->. rewrite Z.rem_mul_r by lia. rewrite Z.mod_add by lia. rewrite Z.div_add by lia.
  rewrite (Z.mod_small N T), (Z.div_small N T) by lia. rewrite Z.add_0_l. ring.
Qed.
Lemma unpf_val : forall b, length b = 32%nat -> val (unpf b) = decode_u b.
Proof.
  intros b L. unfold val, decode_u. rewrite <- (num_bytes b 32) by lia. change 32%nat with (2 * 16)%nat. rewrite num_pairs.
  rewrite (num_S 65536 15), (num_S 65536 15).
  rewrite (num_ext 65536 15 (unpf b) (fun i => bval (nth (2 * i) b x00) + 256 * bval (nth (2 * i + 1) b x00))).
  2:{ intros i Hi. unfold unpf. replace (i =? 15)%nat with false by lia. reflexivity. }
  apply top_mod; [|vm_compute; reflexivity]. apply num_range; [lia|]. intros i _. exact (pairf_digit b i).
Qed.
Lemma land_32767 : forall x, Z.land x 32767 = x mod 32768.
Proof. intros x. change 32767 with (2 ^ 15 - 1). rewrite land_ones by lia. reflexivity. Qed.
Lemma unpack_w : forall o n b, (16 <= length o)%nat -> holds n b -> length b = 32%nat ->
  limbs (unpack25519 o n) (unpf b) /\ length (unpack25519 o n) = length o.
Proof.
  intros o n b L H Lb. unfold unpack25519. cbv zeta.
  destruct (limbs_fill o (fun i => padd (geti n (2 * i)) (pshl (cast TI64 (geti n (2 * i + 1))) 8)) (pairf b) L) as [[_ I] LL].
  - intros j Hj. pose proof (holds_geti n b (2 * j) H ltac:(lia)) as E1. pose proof (holds_geti n b (2 * j + 1) H ltac:(lia)) as E2.
    change b2z with bval in E1, E2. unfold pairf. rewrite <- E1, <- E2.
    apply is_pair; [rewrite E1|rewrite E2]; apply byte_range.
  - match type of LL with length ?x = _ => remember x as s eqn:Q; clear Q end. cbv beta in I.
    split; [|rewrite seti_length; exact LL]. split; [rewrite seti_length; lia|]. intros j Hj. rewrite seti_geti_chain by lia.
    unfold unpf. rewrite (Nat.eqb_sym j 15). destruct (Nat.eqb_spec 15 j) as [<-|Q]; [|apply I, Hj].
    rewrite <- land_32767. apply is_and_plain; [apply I, Hj|rewrite land_32767; lia].
Qed.
Lemma unpack_fe : forall o n b, (16 <= length o)%nat -> holds n b -> length b = 32%nat ->
  fe (2 ^ 17) (unpack25519 o n) (decode_u b) /\ length (unpack25519 o n) = length o.
Proof.
  intros o n b L H Lb. destruct (unpack_w o n b L H Lb) as [I LL]. split; [|exact LL].
  exists (unpf b). split; [exact I|]. split; [|rewrite (unpf_val b Lb); reflexivity].
  intros j Hj. unfold unpf. pose proof (pairf_digit b j) as D. unfold digit in D. clear - D. destruct (j =? 15)%nat; lia.
Qed.

(** ** The bits of the scalar *)
Lemma num_testbit : forall n d i, (forall j, (j < n)%nat -> 0 <= d j < 256) -> (i < 8 * n)%nat ->
  Z.testbit (num 256 n d) (Z.of_nat i) = Z.testbit (d (i / 8)%nat) (Z.of_nat (i mod 8)).
Proof.
  induction n as [|n IH]; intros d i D Hi; [lia|]. rewrite num_front, (Z.mul_comm 256).
  rewrite (testbit_cat (d O) _ 8) by (try apply D; lia). destruct (Z.ltb_spec (Z.of_nat i) 8) as [Q|Q].
  - rewrite Nat.div_small, Nat.mod_small by lia. reflexivity.
  - replace (Z.of_nat i - 8) with (Z.of_nat (i - 8)) by lia. rewrite (IH (fun j => d (S j))) by (try (intros; apply D); lia).
    replace i with (i - 8 + 1 * 8)%nat at 3 4 by lia. rewrite Nat.div_add, Nat.mod_add by lia. rewrite Nat.add_1_r. reflexivity.
Qed.
Lemma mask_bits : forall i, (i < 255)%nat -> Z.testbit (2 ^ 255 - 8) (Z.of_nat i) = (3 <=? i)%nat /\ Z.testbit (2 ^ 254) (Z.of_nat i) = (i =? 254)%nat.
Proof.
  assert (A : forallb (fun i => Bool.eqb (Z.testbit (2 ^ 255 - 8) (Z.of_nat i)) (3 <=? i)%nat && Bool.eqb (Z.testbit (2 ^ 254) (Z.of_nat i)) (i =? 254)%nat) (seq 0 255) = true)
    by (vm_compute; reflexivity).
  intros i Hi. rewrite forallb_forall in A. specialize (A i ltac:(apply in_seq; lia)). apply andb_prop in A. destruct A as [A B].
  split; apply Bool.eqb_prop; assumption.
Qed.
Definition zf (b : bytes) (k : nat) : Z :=
  let v := bval (nth k b x00) in
  if (k =? 0)%nat then Z.land v 248 else if (k =? 31)%nat then Z.lor (Z.land v 127) 64 else v.
Lemma small_bits : forall s, (s < 8)%nat -> Z.testbit 248 (Z.of_nat s) = (3 <=? s)%nat /\ Z.testbit 127 (Z.of_nat s) = (s <? 7)%nat /\ Z.testbit 64 (Z.of_nat s) = (s =? 6)%nat.
Proof. intros s H. do 8 (destruct s as [|s]; [auto|]). lia. Qed.
Lemma scalar_bit : forall b i, length b = 32%nat -> (i < 255)%nat ->
  Z.testbit (zf b (i / 8)) (Z.of_nat (i mod 8)) = Z.testbit (decode_scalar b) (Z.of_nat i).
Proof.
  intros b i L Hi. unfold decode_scalar. rewrite Z.lor_spec, Z.land_spec. destruct (mask_bits i Hi) as [-> ->].
  rewrite <- (num_bytes b 32) by lia. rewrite num_testbit by (intros; apply byte_range || lia).
  pose proof (Nat.div_mod i 8 ltac:(lia)) as DM. pose proof (Nat.mod_upper_bound i 8 ltac:(lia)) as MB.
  remember (i / 8)%nat as q. remember (i mod 8)%nat as s. clear Heqq Heqs. destruct (small_bits s MB) as (S1 & S2 & S3).
  unfold zf. destruct (Nat.eqb_spec q 0) as [->|Q0].
  - rewrite Z.land_spec, S1. replace (i =? 254)%nat with false by lia. replace (3 <=? i)%nat with (3 <=? s)%nat by lia. rewrite orb_false_r. reflexivity.
  - replace (3 <=? i)%nat with true by lia. rewrite andb_true_r. destruct (Nat.eqb_spec q 31) as [->|Q1].
    + rewrite Z.lor_spec, Z.land_spec, S2, S3. replace (i =? 254)%nat with (s =? 6)%nat by lia. replace (s <? 7)%nat with true by lia. rewrite andb_true_r. reflexivity.
    + replace (i =? 254)%nat with false by lia. rewrite orb_false_r. reflexivity.
Qed.
Lemma lor_small : forall x, 0 <= x < 128 -> 0 <= Z.lor x 64 < 256.
Proof. intros x H. assert (0 <= Z.lor x 64 < 2 ^ 8) by (apply lor_bound; lia). lia. Qed.
Lemma zf_range : forall b k, 0 <= zf b k < 256.
Proof.
  intros b k. unfold zf. pose proof (byte_range b k) as R. destruct (k =? 0)%nat.
  - assert (0 <= Z.land (bval (nth k b x00)) 248 < 2 ^ 8) by (apply land_bound; lia). lia.
  - destruct (k =? 31)%nat; [|exact R]. apply lor_small.
    change 127 with (2 ^ 7 - 1). rewrite land_ones by lia. lia.
Qed.
Lemma por_plain : forall a m, 0 <= Z.lor a m -> por (plain a) (plain m) = plain (Z.lor a m).
Proof. intros a m H. unfold por, typed, promote. cbn [pt pv plain]. change (order TPlain <? 5) with false. rewrite !andb_false_r. reflexivity. Qed.
Lemma clamp_w : forall n b k, holds n b -> length b = 32%nat -> (k < 32)%nat -> pv (geti (clamp_z n) k) = zf b k.
Proof.
  intros n b k H L Hk. unfold clamp_z. cbv zeta.
  rewrite (for_range_copy 31 (int_array TU8 32) n) by (rewrite ?(holds_length _ _ H); cbn; lia).
  assert (G31 : pv (geti n 31) = bval (nth 31 b x00)) by (apply holds_geti; [exact H|lia]).
  assert (G0 : forall j, (j < 31)%nat -> geti (firstn 31 n ++ skipn 31 (int_array TU8 32)) j = geti n j).
  { intros j Hj. unfold geti. rewrite app_nth1 by (rewrite firstn_length, (holds_length _ _ H); lia).
    apply (geti_firstn_lt n 31 j Hj). }
  assert (LZ : length (firstn 31 n ++ skipn 31 (int_array TU8 32)) = 32%nat) by (rewrite app_length, firstn_length, (holds_length _ _ H), L; reflexivity).
  remember (firstn 31 n ++ skipn 31 (int_array TU8 32)) as z eqn:Q; clear Q.
  pose proof (zf_range b 0) as R0. pose proof (zf_range b 31) as R31. unfold zf in R0, R31 |- *. cbn [Nat.eqb] in R0, R31.
  rewrite (seti_geti_chain (seti z 31 _)) by (rewrite seti_length; lia). rewrite (Nat.eqb_sym 0).
  destruct (Nat.eqb_spec k 0) as [->|Q0].
  - rewrite geti_seti_ne by lia. rewrite G0 by lia.
    assert (E : pv (geti n 0) = bval (nth 0 b x00)) by (apply holds_geti; [exact H|lia]).
    rewrite pand_plain; rewrite E; [reflexivity|lia].
  - rewrite seti_geti_chain by lia. rewrite (Nat.eqb_sym 31). destruct (Nat.eqb_spec k 31) as [->|Q1].
    + assert (P1 : 0 <= Z.land (bval (nth 31 b x00)) 127) by (apply Z.land_nonneg; right; lia).
      rewrite pand_plain by (rewrite G31; exact P1). rewrite G31, por_plain by lia. reflexivity.
    + rewrite G0 by lia. apply holds_geti; [exact H|lia].
Qed.
Lemma land_1_bit : forall x, Z.land x 1 = if Z.testbit x 0 then 1 else 0.
Proof. intros x. change 1 with (2 ^ 1 - 1) at 1. rewrite land_ones by lia. change (2 ^ 1) with 2. rewrite Zmod_odd, <- Z.bit0_odd. reflexivity. Qed.
Lemma clamp_bit : forall n b i, holds n b -> length b = 32%nat -> (i < 255)%nat ->
  pand (pshr (geti (clamp_z n) (i / 8)) (Z.of_nat (i mod 8))) (plain 1) = bitp (Z.testbit (decode_scalar b) (Z.of_nat i)).
Proof.
  intros n b i H L Hi. assert (Hq : (i / 8 < 32)%nat) by (apply Nat.div_lt_upper_bound; lia).
  pose proof (clamp_w n b (i / 8) H L Hq) as E. rewrite <- (scalar_bit b i L Hi). pose proof (zf_range b (i / 8)) as R. rewrite <- E in R |- *.
  remember (geti (clamp_z n) (i / 8)) as x. remember (Z.of_nat (i mod 8)) as s. assert (Hs : 0 <= s) by lia. clear - R Hs.
  unfold pshr. assert (RS : 0 <= Z.shiftr (pv x) s < 256).
  { rewrite Z.shiftr_div_pow2 by exact Hs. pose proof (Z.pow_pos_nonneg 2 s ltac:(lia) Hs). split; [apply Z.div_pos; lia|].
    apply Z.div_lt_upper_bound; [lia|]. nia. }
  rewrite mk_small by exact RS. rewrite pand_plain by (cbn [pv]; apply Z.land_nonneg; right; lia). cbn [pv].
  rewrite land_1_bit, Z.shiftr_spec by lia. rewrite Z.add_0_l. reflexivity.
Qed.

(** ** The ladder *)
Definition fe17 := fe (2 ^ 17).
Lemma fe_len : forall B l v, fe B l v -> (16 <= length l)%nat.
Proof. exact fe_length. Qed.
Lemma mul_c : forall p a b, (a * b) mod p = (b * a) mod p.
Proof. intros. f_equal. ring. Qed.
Lemma add_c : forall p a b, (a + b) mod p = (b + a) mod p.
Proof. intros. f_equal. ring. Qed.
Lemma sq_neg_p : forall p a b, (((a - b) mod p) * ((a - b) mod p)) mod p = (((b - a) mod p) * ((b - a) mod p)) mod p.
Proof. intros p a b. rewrite <- !Zmult_mod. f_equal. ring. Qed.
Lemma fmul_comm : forall a b, fmul a b = fmul b a.
Proof. intros a b. exact (mul_c p25519 a b). Qed.
Lemma fadd_comm : forall a b, fadd a b = fadd b a.
Proof. intros a b. exact (add_c p25519 a b). Qed.
Lemma sq_neg : forall a b, fmul (fsub a b) (fsub a b) = fmul (fsub b a) (fsub b a).
Proof. intros a b. exact (sq_neg_p p25519 a b). Qed.
(** rules with fixed bounds *)
Lemma rM : forall o a b u v, (16 <= length o)%nat -> fe (2 ^ 19) a u -> fe (2 ^ 19) b v -> fe (2 ^ 17) (fM o a b) (fmul u v).
Proof. intros o a b u v L A B. exact (proj1 (fM_fe o a b u v L A B)). Qed.
Lemma up19 : forall l v, fe (2 ^ 17) l v -> fe (2 ^ 19) l v.
Proof. intros l v H. apply (fe_weak _ _ _ _ H). lia. Qed.
Lemma up18 : forall l v, fe (2 ^ 18) l v -> fe (2 ^ 19) l v.
Proof. intros l v H. apply (fe_weak _ _ _ _ H). lia. Qed.
Lemma le17_60 : 0 <= 2 ^ 17 <= 2 ^ 60. Proof. lia. Qed.
Lemma two17 : 2 ^ 17 + 2 ^ 17 = 2 ^ 18. Proof. reflexivity. Qed.
Lemma rA : forall o a b u v, (16 <= length o)%nat -> fe (2 ^ 17) a u -> fe (2 ^ 17) b v -> fe (2 ^ 18) (fA o a b) (fadd u v).
Proof. intros o a b u v L A B. rewrite <- two17. exact (proj1 (fA_fe _ _ o a b u v L le17_60 le17_60 A B)). Qed.
Lemma rZ : forall o a b u v, (16 <= length o)%nat -> fe (2 ^ 17) a u -> fe (2 ^ 17) b v -> fe (2 ^ 18) (fZ o a b) (fsub u v).
Proof. intros o a b u v L A B. rewrite <- two17. exact (proj1 (fZ_fe _ _ o a b u v L le17_60 le17_60 A B)). Qed.
Lemma gf_121665_fe : fe (2 ^ 17) gf_121665 a24.
Proof.
  exists (fun j => pv (geti gf_121665 j)). split; [split; [cbn; lia|]|split].
  - intros j Hj. split; [|reflexivity]. do 16 (destruct j as [|j]; [left; reflexivity|]). lia.
  - intros j Hj. do 16 (destruct j as [|j]; [cbn; lia|]). lia.
  - vm_compute. reflexivity.
Qed.

(** One step without the swaps, as numbers *)
Definition mstep (x1 : Z) (s : Z * Z * Z * Z) : Z * Z * Z * Z :=
  let '(x_2, z_2, x_3, z_3) := s in
  let A := fadd x_2 z_2 in let AA := fmul A A in let B := fsub x_2 z_2 in let BB := fmul B B in let E := fsub AA BB in
  let C := fadd x_3 z_3 in let D := fsub x_3 z_3 in let DA := fmul D A in let CB := fmul C B in
  (fmul AA BB, fmul E (fadd AA (fmul a24 E)), fmul (fadd DA CB) (fadd DA CB), fmul x1 (fmul (fsub DA CB) (fsub DA CB))).
Lemma x25519_step_eq : forall k x1 x2 z2 x3 z3 sw t, x25519_step k x1 (x2, z2, x3, z3, sw) t =
  (mstep x1 (if xorb sw (Z.testbit k t) then (x3, z3, x2, z2) else (x2, z2, x3, z3)), Z.testbit k t).
Proof. intros k x1 x2 z2 x3 z3 sw t. unfold x25519_step, mstep, cswap. destruct (xorb sw (Z.testbit k t)); reflexivity. Qed.
Definition lstate (s : ladder) (m : Z * Z * Z * Z) : Prop :=
  let '(x2, z2, x3, z3) := m in
  fe (2 ^ 17) (la s) x2 /\ fe (2 ^ 17) (lc s) z2 /\ fe (2 ^ 17) (lb s) x3 /\ fe (2 ^ 17) (ld s) z3 /\
  (16 <= length (le s))%nat /\ (16 <= length (lf s))%nat.
Definition mswap (sw : bool) (m : Z * Z * Z * Z) : Z * Z * Z * Z :=
  let '(x2, z2, x3, z3) := m in if sw then (x3, z3, x2, z2) else (x2, z2, x3, z3).
Lemma ladder_step_w : forall x x1 z s m i bit, fe (2 ^ 17) x x1 -> lstate s m ->
  pand (pshr (geti z (i / 8)) (Z.of_nat (i mod 8))) (plain 1) = bitp bit ->
  lstate (ladder_step x z s i) (mswap bit (mstep x1 (mswap bit m))).
Proof.
  intros x x1 z s [[[x2 z2] x3] z3] i bit X (Ha & Hc & Hb & Hd & Le & Lf) R. unfold ladder_step. cbv zeta. rewrite R. clear R.
  destruct (sel_fe _ _ _ _ _ bit le17_60 Ha Hb) as (a & b & E1 & _ & _ & A0 & B0). rewrite E1.
  destruct (sel_fe _ _ _ _ _ bit le17_60 Hc Hd) as (c & d & E2 & _ & _ & C0 & D0). rewrite E2. clear E1 E2 Ha Hb Hc Hd.
  assert (EM : mswap bit (x2, z2, x3, z3) = (if bit then x3 else x2, if bit then z3 else z2, if bit then x2 else x3, if bit then z2 else z3)) by (destruct bit; reflexivity).
  rewrite EM. clear EM.
  remember (if bit then x3 else x2) as u2. remember (if bit then z3 else z2) as w2. remember (if bit then x2 else x3) as u3. remember (if bit then z2 else z3) as w3.
  clear Hequ2 Heqw2 Hequ3 Heqw3. unfold mstep. cbv zeta.
  assert (E1 := rA _ _ _ _ _ Le A0 C0). remember (fA (le s) a c) as e1 eqn:Q; clear Q.
  assert (A1 := rZ a a c _ _ (fe_len _ _ _ A0) A0 C0). remember (fZ a a c) as a1 eqn:Q; clear Q.
  assert (C1 := rA c b d _ _ (fe_len _ _ _ C0) B0 D0). remember (fA c b d) as c1 eqn:Q; clear Q.
  assert (B1 := rZ b b d _ _ (fe_len _ _ _ B0) B0 D0). remember (fZ b b d) as b1 eqn:Q; clear Q.
  unfold fS.
  assert (D1 := rM d e1 e1 _ _ (fe_len _ _ _ D0) (up18 _ _ E1) (up18 _ _ E1)). remember (fM d e1 e1) as d1 eqn:Q; clear Q.
  assert (F1 := rM _ a1 a1 _ _ Lf (up18 _ _ A1) (up18 _ _ A1)). remember (fM (lf s) a1 a1) as f1 eqn:Q; clear Q.
  assert (A2 := rM a1 c1 a1 _ _ (fe_len _ _ _ A1) (up18 _ _ C1) (up18 _ _ A1)). remember (fM a1 c1 a1) as a2 eqn:Q; clear Q.
  assert (C2 := rM c1 b1 e1 _ _ (fe_len _ _ _ C1) (up18 _ _ B1) (up18 _ _ E1)). remember (fM c1 b1 e1) as c2 eqn:Q; clear Q.
  assert (E2 := rA e1 a2 c2 _ _ (fe_len _ _ _ E1) A2 C2). remember (fA e1 a2 c2) as e2 eqn:Q; clear Q.
  assert (A3 := rZ a2 a2 c2 _ _ (fe_len _ _ _ A2) A2 C2). remember (fZ a2 a2 c2) as a3 eqn:Q; clear Q.
  assert (B2 := rM b1 a3 a3 _ _ (fe_len _ _ _ B1) (up18 _ _ A3) (up18 _ _ A3)). remember (fM b1 a3 a3) as b2 eqn:Q; clear Q.
  assert (C3 := rZ c2 d1 f1 _ _ (fe_len _ _ _ C2) D1 F1). remember (fZ c2 d1 f1) as c3 eqn:Q; clear Q.
  assert (A4 := rM a3 c3 gf_121665 _ _ (fe_len _ _ _ A3) (up18 _ _ C3) (up19 _ _ gf_121665_fe)). remember (fM a3 c3 gf_121665) as a4 eqn:Q; clear Q.
  assert (A5 := rA a4 a4 d1 _ _ (fe_len _ _ _ A4) A4 D1). remember (fA a4 a4 d1) as a5 eqn:Q; clear Q.
  assert (C4 := rM c3 c3 a5 _ _ (fe_len _ _ _ C3) (up18 _ _ C3) (up18 _ _ A5)). remember (fM c3 c3 a5) as c4 eqn:Q; clear Q.
  assert (A6 := rM a5 d1 f1 _ _ (fe_len _ _ _ A5) (up19 _ _ D1) (up19 _ _ F1)). remember (fM a5 d1 f1) as a6 eqn:Q; clear Q.
  assert (D2 := rM d1 b2 x _ _ (fe_len _ _ _ D1) (up19 _ _ B2) (up19 _ _ X)). remember (fM d1 b2 x) as d2 eqn:Q; clear Q.
  assert (B3 := rM b2 e2 e2 _ _ (fe_len _ _ _ B2) (up18 _ _ E2) (up18 _ _ E2)). remember (fM b2 e2 e2) as b3 eqn:Q; clear Q.
  rewrite (fadd_comm (fmul (fadd u3 w3) (fsub u2 w2))) in B3.
  rewrite (sq_neg (fmul (fadd u3 w3) (fsub u2 w2))) in D2. rewrite (fmul_comm _ x1) in D2.
  rewrite (fadd_comm _ (fmul (fadd u2 w2) (fadd u2 w2))) in C4. rewrite (fmul_comm _ a24) in C4.
  destruct (sel_fe _ _ _ _ _ bit le17_60 A6 B3) as (a7 & b7 & G1 & _ & _ & A7 & B7). rewrite G1.
  destruct (sel_fe _ _ _ _ _ bit le17_60 C4 D2) as (c7 & d7 & G2 & _ & _ & C7 & D7). rewrite G2.
  assert (LE := fe_len _ _ _ E2). assert (LF := fe_len _ _ _ F1).
  clear - A7 B7 C7 D7 LE LF. unfold lstate. destruct bit; cbn [mswap la lb lc ld le lf]; auto 10.
Qed.
Lemma for_range_rel : forall A B (R : A -> B -> Prop) n (f : A -> nat -> A) (g : B -> nat -> B) s t, R s t ->
  (forall i s t, (i < n)%nat -> R s t -> R (f s i) (g t i)) -> R (for_range n f s) (for_range n g t).
Proof.
  intros A B R n f g s t H0 HS. assert (G : forall k, (k <= n)%nat -> R (for_range k f s) (for_range k g t)).
  { induction k as [|k IH]; intros Hk; [exact H0|]. rewrite !for_range_S. apply HS; [lia|]. apply IH. lia. }
  apply G. lia.
Qed.
Lemma fold_map : forall A B C (f : A -> B -> A) (g : C -> B) l a, fold_left f (map g l) a = fold_left (fun s x => f s (g x)) l a.
Proof. intros A B C f g l. induction l as [|x l IH]; intros a; [reflexivity|]. cbn [map fold_left]. apply IH. Qed.
Definition lrel (s : ladder) (m : mladder) : Prop := let (v, sw) := m in lstate s (mswap sw v).
Lemma mswap2 : forall a b m, mswap a (mswap b m) = mswap (xorb b a) m.
Proof. intros a b [[[x2 z2] x3] z3]. destruct a, b; reflexivity. Qed.
Lemma step_rel : forall x x1 n kb i s m, fe (2 ^ 17) x x1 -> holds n kb -> length kb = 32%nat -> (i < 255)%nat -> lrel s m ->
  lrel (ladder_step x (clamp_z n) s i) (x25519_step (decode_scalar kb) x1 m (Z.of_nat i)).
Proof.
  intros x x1 n kb i s [[[[x2 z2] x3] z3] sw] X H L Hi R. rewrite x25519_step_eq.
  pose proof (ladder_step_w x x1 (clamp_z n) s _ i _ X R (clamp_bit n kb i H L Hi)) as W.
  rewrite mswap2 in W. exact W.
Qed.
Lemma geti_skipn : forall n l j, geti (skipn n l) j = geti l (n + j).
Proof.
  induction n as [|n IH]; intros l j; [reflexivity|]. destruct l as [|x l]; [cbn; unfold geti; destruct j; reflexivity|]. cbn [skipn Nat.add]. rewrite IH. reflexivity.
Qed.
Lemma fe_ext : forall B l l' v, fe B l v -> (16 <= length l')%nat -> (forall j, (j < 16)%nat -> geti l' j = geti l j) -> fe B l' v.
Proof.
  intros B l l' v (f & [_ I] & W & E) L H. exists f. split; [|split; assumption]. split; [exact L|]. intros j Hj. rewrite H by exact Hj. apply I, Hj.
Qed.
Lemma init_rel : forall x u, fe (2 ^ 17) x u -> lrel (ladder_init x) (1, 0, u, 1, false).
Proof.
  intros x u X. unfold ladder_init. cbv zeta. unfold lrel, mswap, lstate. cbn [la lb lc ld le lf].
  assert (Z0 : fe (2 ^ 17) (for_range 16 (fun d i => seti d i (plain 0)) gf_new) 0).
  { exists (fun _ => 0). split; [split; [vm_compute; lia|]|split; [intros j _; lia|vm_compute; reflexivity]].
    intros j Hj. do 16 (destruct j as [|j]; [split; [right|]; reflexivity|]). lia. }
  assert (Z1 : fe (2 ^ 17) (seti (for_range 16 (fun d i => seti d i (plain 0)) gf_new) 0 (plain 1)) 1).
  { exists (fun j => if (j =? 0)%nat then 1 else 0). split; [split; [vm_compute; lia|]|split; [intros j _; destruct (j =? 0)%nat; lia|vm_compute; reflexivity]].
    intros j Hj. do 16 (destruct j as [|j]; [split; [right|]; reflexivity|]). lia. }
  split; [exact Z1|]. split; [exact Z0|]. split; [apply copy_fe; [cbn; lia|exact X]|]. split; [exact Z1|]. split; cbn; lia.
Qed.
Lemma end_w : forall q x s x2 z2, length q = 32%nat -> length x = 80%nat -> fe (2 ^ 17) (la s) x2 -> fe (2 ^ 17) (lc s) z2 ->
  holds (ladder_end q x s) (encode_u (fmul x2 (finv z2))).
Proof.
  intros q x s x2 z2 Lq Lx A C. unfold ladder_end. cbv zeta.
  match goal with |- context [for_range 16 ?ff x] =>
    pose proof (for_range_inv _ (fun i t => length t = 80%nat /\ forall j, (j < i)%nat -> geti t (j + 16) = geti (la s) j /\ geti t (j + 32) = geti (lc s) j) 16 ff x) as P end.
  match type of P with _ -> _ -> ?cc => assert (T : cc) end.
  { apply P; clear P; [split; [exact Lx|intros; lia]|]. intros i t Hi [L I]. cbv zeta. split; [rewrite !seti_length; exact L|]. intros j Hj.
    rewrite !seti_geti_chain by (rewrite ?seti_length; lia).
    replace (i + 64 =? j + 16)%nat with false by lia. replace (i + 48 =? j + 16)%nat with false by lia. replace (i + 32 =? j + 16)%nat with false by lia.
    replace (i + 64 =? j + 32)%nat with false by lia. replace (i + 48 =? j + 32)%nat with false by lia.
    replace (i + 16 =? j + 16)%nat with (i =? j)%nat by lia. replace (i + 32 =? j + 32)%nat with (i =? j)%nat by lia. replace (i + 16 =? j + 32)%nat with false by lia.
    destruct (Nat.eqb_spec i j) as [<-|Q]; [split; reflexivity|apply I; lia]. }
  clear P. cbv beta in T. match type of T with length ?y = _ /\ _ => remember y as t eqn:Q; clear Q end. destruct T as [Lt I].
  assert (C1 : fe (2 ^ 17) (skipn 32 t) z2).
  { apply (fe_ext _ (lc s)); [exact C|rewrite skipn_length; clear - Lt; lia|]. intros j Hj. rewrite geti_skipn, Nat.add_comm. apply I, Hj. }
  destruct (inv_fe (skipn 32 t) _ _ (fe_len _ _ _ C1) C1) as [J LJ]. rewrite skipn_length, Lt in LJ.
  remember (inv25519 (skipn 32 t) (skipn 32 t)) as w eqn:Q; clear Q.
  assert (L32 : length (firstn 32 t) = 32%nat) by (rewrite firstn_length; clear - Lt; lia).
  assert (S32 : skipn 32 (firstn 32 t ++ w) = w) by (rewrite skipn_app, skipn_all2, L32 by (rewrite L32; clear; lia); reflexivity).
  assert (S16 : forall j, (j < 16)%nat -> geti (skipn 16 (firstn 32 t ++ w)) j = geti (la s) j).
  { intros j Hj. rewrite geti_skipn. unfold geti. rewrite app_nth1 by (rewrite L32; clear - Hj; lia).
    change (geti (firstn 32 t) (16 + j) = geti (la s) j). rewrite geti_firstn_lt by (clear - Hj; lia). rewrite Nat.add_comm. apply I, Hj. }
  assert (L2 : (16 <= length (skipn 16 (firstn 32 t ++ w)))%nat) by (rewrite skipn_length, app_length, L32; clear - LJ; lia).
  assert (A1 : fe (2 ^ 17) (skipn 16 (firstn 32 t ++ w)) x2) by (apply (fe_ext _ (la s)); assumption).
  rewrite S32.
  assert (M := rM _ _ _ _ _ L2 (up19 _ _ A1) (up19 _ _ J)).
  remember (fM (skipn 16 (firstn 32 t ++ w)) (skipn 16 (firstn 32 t ++ w)) w) as m eqn:Q; clear Q.
  assert (SM : skipn 16 (firstn 16 (firstn 32 t ++ w) ++ m) = m).
  { assert (L16 : length (firstn 16 (firstn 32 t ++ w)) = 16%nat) by (rewrite firstn_length, app_length, L32; clear; lia).
    rewrite skipn_app, skipn_all2, L16 by (rewrite L16; clear; lia). reflexivity. }
  rewrite SM. destruct (pack_fe q m _ ltac:(rewrite Lq; clear; lia) (fe_weak _ (2 ^ 40) _ _ M ltac:(clear; lia))) as (r & E & H).
  rewrite E. rewrite (skipn_all2 q) by (rewrite Lq; clear; lia). rewrite app_nil_r. exact H.
Qed.
Lemma scalarmult_w : forall q n kb p ub, length q = 32%nat -> holds n kb -> length kb = 32%nat -> holds p ub -> length ub = 32%nat ->
  holds (crypto_scalarmult q n p) (x25519 kb ub).
Proof.
  intros q n kb p ub Lq Hn Ln Hp Lp. unfold crypto_scalarmult. cbv zeta.
  destruct (unpack_fe (int_array TI64 80) p ub ltac:(unfold int_array; rewrite repeat_length; clear; lia) Hp Lp) as [X LX].
  unfold int_array in LX at 2. rewrite repeat_length in LX.
  remember (unpack25519 (int_array TI64 80) p) as x eqn:Q; clear Q.
  unfold x25519, x25519_num. rewrite fold_map.
  change (fold_left (fun s0 i => x25519_step (decode_scalar kb) (decode_u ub) s0 (254 - Z.of_nat i)) (seq 0 255) (1, 0, decode_u ub, 1, false))
    with (for_range 255 (fun s0 i => x25519_step (decode_scalar kb) (decode_u ub) s0 (254 - Z.of_nat i)) (1, 0, decode_u ub, 1, false)).
  pose proof (for_range_rel _ _ lrel 255 (fun s k => ladder_step x (clamp_z n) s (254 - k))
    (fun s0 i => x25519_step (decode_scalar kb) (decode_u ub) s0 (254 - Z.of_nat i)) _ _ (init_rel x _ X)) as P.
  match type of P with _ -> ?cc => assert (T : cc) end.
  { apply P; clear P. intros i s m Hi R. replace (254 - Z.of_nat i) with (Z.of_nat (254 - i)) by (clear - Hi; lia).
    apply step_rel; try assumption. clear - Hi; lia. }
  clear P. match type of T with lrel ?a ?b => remember a as s eqn:Q1; clear Q1; remember b as m eqn:Q2; clear Q2 end.
  destruct m as [[[[x2 z2] x3] z3] sw]. unfold lrel in T. unfold cswap.
  destruct sw; cbn [mswap lstate] in T; destruct T as (A & C & _); apply end_w; assumption.
Qed.

(** Only the first 32 items are read. *)
Lemma unpack_firstn : forall o p, unpack25519 o p = unpack25519 o (firstn 32 p).
Proof.
  intros o p. unfold unpack25519. cbv zeta.
  rewrite (for_range_ext _ 16 (fun o i => seti o i (padd (geti p (2 * i)) (pshl (cast TI64 (geti p (2 * i + 1))) 8)))
    (fun o i => seti o i (padd (geti (firstn 32 p) (2 * i)) (pshl (cast TI64 (geti (firstn 32 p) (2 * i + 1))) 8)))); [reflexivity|].
  intros s i Hi. rewrite !geti_firstn_lt by lia. reflexivity.
Qed.
Lemma clamp_firstn : forall n, clamp_z n = clamp_z (firstn 32 n).
Proof.
  intros n. unfold clamp_z. cbv zeta. rewrite geti_firstn_lt by lia.
  rewrite (for_range_ext _ 31 (fun z i => seti z i (geti n i)) (fun z i => seti z i (geti (firstn 32 n) i))); [reflexivity|].
  intros s i Hi. rewrite geti_firstn_lt by lia. reflexivity.
Qed.
Lemma scalarmult_any : forall q n kb p ub, length q = 32%nat -> holds n kb -> (32 <= length kb)%nat -> holds p ub -> (32 <= length ub)%nat ->
  holds (crypto_scalarmult q n p) (x25519 (firstn 32 kb) (firstn 32 ub)).
Proof.
  intros q n kb p ub Lq Hn Ln Hp Lp.
  assert (E : crypto_scalarmult q n p = crypto_scalarmult q (firstn 32 n) (firstn 32 p)).
  { unfold crypto_scalarmult. rewrite <- clamp_firstn, <- unpack_firstn. reflexivity. }
  rewrite E. apply (scalarmult_w q (firstn 32 n) _ (firstn 32 p)); try apply holds_firstn; try assumption; rewrite firstn_length; lia.
Qed.
Lemma b9_holds : holds b9 base_point.
Proof. reflexivity. Qed.
Lemma x25519_length : forall k u, length (x25519 k u) = 32%nat.
Proof. intros k u. unfold x25519, encode_u. apply le_bytes_length. Qed.
Lemma beforenm_w : forall q pk pkb sk skb, length q = 32%nat -> holds sk skb -> (32 <= length skb)%nat -> holds pk pkb -> (32 <= length pkb)%nat ->
  holds (crypto_box_beforenm q pk sk) (box_key (firstn 32 pkb) (firstn 32 skb)).
Proof.
  intros q pk pkb sk skb Lq Hs Ls Hp Lp. unfold crypto_box_beforenm, box_key.
  pose proof (scalarmult_any (int_array TU8 32) sk skb pk pkb eq_refl Hs Ls Hp Lp) as S.
  exact (hsalsa20_core_w q b0 (repeat x00 16) _ _ eq_refl ltac:(cbn; lia) S (x25519_length _ _) Lq).
Qed.

(** ** The point of order two *)
Definition zs0 (m : mladder) : Prop := let '(_, z_2, _, z_3, _) := m in z_2 = 0 /\ z_3 = 0.
Lemma ff : forall p a b c, p <> 0 -> (((a + 0) mod p * ((a + 0) mod p)) mod p - ((a - 0) mod p * ((a - 0) mod p)) mod p) mod p = 0 /\ (0 * b) mod p = 0 /\ (c * 0) mod p = 0.
Proof. intros p a b c P. rewrite Z.add_0_r, Z.sub_0_r, Z.sub_diag, Z.mul_0_r, Z.mul_0_l, Z.mod_0_l by exact P. auto. Qed.
Lemma zs0_step : forall k m t, zs0 m -> zs0 (x25519_step k 0 m t).
Proof.
  intros k [[[[x2 z2] x3] z3] sw] t [-> ->]. rewrite x25519_step_eq.
  assert (G : forall x y, zs0 (mstep 0 (x, 0, y, 0), Z.testbit k t)).
  { intros x y. unfold mstep, zs0. cbv zeta. unfold fadd, fsub, fmul. pose proof p25519_pos as P. revert P. generalize p25519 a24. intros p a P.
    destruct (ff p x 0 0 P) as (E & _). rewrite E. rewrite !Z.mul_0_l, Z.mod_0_l by exact P. auto. }
  destruct (xorb sw (Z.testbit k t)); apply G.
Qed.
Lemma zs0_first : forall k t, zs0 (x25519_step k 0 (1, 0, 0, 1, false) t).
Proof. intros k t. rewrite x25519_step_eq. destruct (xorb false (Z.testbit k t)); vm_compute; auto. Qed.
Lemma finv_0 : finv 0 = 0.
Proof.
  unfold finv. rewrite Z.pow_0_l by (vm_compute; reflexivity). apply Z.mod_0_l. exact p25519_pos.
Qed.
Lemma x25519_zero : forall k, x25519_num k 0 = 0.
Proof.
  intros k. unfold x25519_num.
  assert (Z0 : zs0 (fold_left (x25519_step k 0) (map (fun i => 254 - Z.of_nat i) (seq 0 255)) (1, 0, 0, 1, false))).
  { change (seq 0 255) with (O :: seq 1 254). cbn [map fold_left]. generalize (map (fun i => 254 - Z.of_nat i) (seq 1 254)) as l.
    generalize (zs0_first k (254 - Z.of_nat 0)). generalize (x25519_step k 0 (1, 0, 0, 1, false) (254 - Z.of_nat 0)) as m. intros m H l. revert m H.
    induction l as [|t l IH]; intros m H; [exact H|]. cbn [fold_left]. apply IH, zs0_step, H. }
  destruct (fold_left (x25519_step k 0) _ _) as [[[[x2 z2] x3] z3] sw]. destruct Z0 as [-> ->]. unfold cswap.
  assert (M : forall x, fmul x (finv 0) = 0) by (intros x; rewrite finv_0; unfold fmul; rewrite Z.mul_0_r; apply Z.mod_0_l; exact p25519_pos).
  destruct sw; apply M.
Qed.
