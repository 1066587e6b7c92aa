(** Packing, unpacking and comparing field elements of tweetnacl.py. *)
From Coq Require Import List ZArith Bool Strings.Byte Lia ZifyBool ZifyNat ZifyN.
From Verif Require Import PyBase PyBase_proofs PyInt PyInt_proofs ShaSpec TwHash_proofs SalsaSpec TwSalsa TwSalsa_proofs Radix_proofs TwPoly_proofs CurveSpec TwField TwField_proofs.
Import ListNotations.
Open Scope Z_scope.
Ltac Zify.zify_post_hook ::= Z.div_mod_to_equations.

(** ** Subtracting p with borrows *)
Definition pd (k : nat) : Z := if (k =? 0)%nat then 65517 else if (k =? 15)%nat then 32767 else 65535.
Lemma pd_range : forall k, 0 <= pd k < 65536.
Proof. intros k. unfold pd. destruct (k =? 0)%nat, (k =? 15)%nat; lia. Qed.
Lemma pd_val : val pd = p25519.
Proof. vm_compute. reflexivity. Qed.
Fixpoint bor (f : nat -> Z) (k : nat) : Z :=
  match k with O => 0 | S j => if f j - pd j - bor f j <? 0 then 1 else 0 end.
Definition mr (f : nat -> Z) (k : nat) : Z := f k - pd k - bor f k.
Lemma bor_S : forall f k, bor f (S k) = if mr f k <? 0 then 1 else 0.
Proof. reflexivity. Qed.
Lemma bor_01 : forall f k, 0 <= bor f k <= 1.
Proof. intros f [|k]; [cbn; lia|]. rewrite bor_S. destruct (mr f k <? 0); lia. Qed.
Lemma mr_range : forall f k, digit (f k) -> - 65536 <= mr f k < 65536.
Proof. intros f k D. unfold mr, digit in *. pose proof (pd_range k). pose proof (bor_01 f k). lia. Qed.
Lemma red_num : forall f n, (forall k, (k < n)%nat -> digit (f k)) ->
  num 65536 n (fun j => mr f j mod 65536) = num 65536 n f - num 65536 n pd + 65536 ^ Z.of_nat n * bor f n.
Proof.
  intros f n. induction n as [|n IH]; intros D; [reflexivity|]. rewrite !num_S, IH by (intros; apply D; lia). rewrite bor_S.
  pose proof (mr_range f n (D n ltac:(lia))) as R. rewrite Nat2Z.inj_succ, Z.pow_succ_r by lia.
  assert (E : mr f n mod 65536 = mr f n + 65536 * (if mr f n <? 0 then 1 else 0)) by (destruct (mr f n <? 0) eqn:Q; lia).
  rewrite E. unfold mr at 1. ring.
Qed.
Lemma val_range : forall f, (forall k, (k < 16)%nat -> digit (f k)) -> 0 <= val f < 65536 ^ Z.of_nat 16.
Proof. intros f D. apply num_range; [lia|exact D]. Qed.
Lemma red_arith : forall N V p T b W, N = V - p + T * b -> 0 <= N < T -> 0 <= b <= 1 -> p = W -> b = if V <? W then 1 else 0.
Proof. intros N V p T b W H R B <-. assert (Q : b = 0 \/ b = 1) by lia. destruct Q as [-> | ->]; destruct (Z.ltb_spec V p); lia. Qed.
Lemma bor_lt : forall f, (forall k, (k < 16)%nat -> digit (f k)) -> bor f 16 = if val f <? p25519 then 1 else 0.
Proof.
  intros f D. refine (red_arith _ _ _ _ _ _ (red_num f 16 D) _ (bor_01 f 16) pd_val).
  apply num_range; [clear; lia|]. intros i _. clear. lia.
Qed.
Definition subf (f : nat -> Z) (k : nat) : Z := if (k <? 15)%nat then mr f k mod 65536 else mr f k.
Lemma sub_val : forall f, (forall k, (k < 16)%nat -> digit (f k)) -> bor f 16 = 0 -> (forall k, (k < 16)%nat -> digit (subf f k)) /\ val (subf f) = val f - p25519.
Proof.
  intros f D B. assert (M : mr f 15 mod 65536 = mr f 15).
  { pose proof (mr_range f 15 (D 15%nat ltac:(clear; lia))) as R. rewrite bor_S in B. clear - R B. destruct (mr f 15 <? 0) eqn:Q; lia. }
  assert (E : forall k, (k < 16)%nat -> subf f k = mr f k mod 65536).
  { intros k Hk. unfold subf. destruct (Nat.ltb_spec k 15) as [Q|Q]; [reflexivity|]. replace k with 15%nat by (clear - Hk Q; lia). symmetry. exact M. }
  split; [intros k Hk; rewrite E by exact Hk; unfold digit; clear; lia|].
  unfold val. rewrite (num_ext 65536 16 _ _ E). rewrite (red_num f 16 D), B. rewrite Z.mul_0_r, Z.add_0_r. fold (val pd). rewrite pd_val. reflexivity.
Qed.

Lemma pand_plain : forall a m, 0 <= Z.land (pv a) m -> pand a (plain m) = plain (Z.land (pv a) m).
Proof.
  intros [t v] m H. unfold pand, typed. cbn [pt pv plain] in *. unfold promote.
  destruct (Z.ltb_spec (Z.land v m) 0) as [Q|Q]; [clear - H Q; lia|]. cbn [andb]. destruct t; reflexivity.
Qed.
Lemma is_and_plain : forall a x m, is a x -> 0 <= Z.land x m -> is (pand a (plain m)) (Z.land x m).
Proof. intros a x m [_ <-] H. rewrite pand_plain by exact H. apply is_plain. Qed.
Lemma land_65535 : forall x, Z.land x 65535 = x mod 65536.
Proof. intros x. change 65535 with (2 ^ 16 - 1). rewrite land_ones by lia. reflexivity. Qed.
Lemma borrow_bit : forall x, - 65536 <= x < 65536 -> Z.land (x / 2 ^ 16) 1 = if x <? 0 then 1 else 0.
Proof.
  intros x H. change (2 ^ 16) with 65536. destruct (x <? 0) eqn:Q; [replace (x / 65536) with (-1) by lia|replace (x / 65536) with 0 by lia]; reflexivity.
Qed.
Lemma is_borrow : forall a x, is a x -> - 65536 <= x < 65536 ->
  is (pand (pshr a 16) (plain 1)) (if x <? 0 then 1 else 0) /\ pand (pshr a 16) (plain 1) = plain (if x <? 0 then 1 else 0).
Proof.
  intros a x I R. assert (J : is (pshr a 16) (x / 2 ^ 16)) by (apply is_shr; [exact I|lia|unfold fits; lia]).
  rewrite <- borrow_bit by exact R.
  assert (P : 0 <= Z.land (x / 2 ^ 16) 1) by (rewrite borrow_bit by exact R; destruct (x <? 0); lia).
  split; [apply is_and_plain; assumption|]. destruct J as [_ J]. rewrite <- J in P |- *. apply pand_plain, P.
Qed.
(** Entries of [m] after the passes below [k] *)
Definition subbed (f : nat -> Z) (k : nat) (m : list pint) : Prop :=
  (16 <= length m)%nat /\ forall j, (j <= k)%nat -> is (geti m j) (if (j <? k)%nat then mr f j mod 65536 else mr f j).
Lemma sub_next : forall t f k m w, limbs t f -> (S k < 16)%nat -> (forall j, (j < 16)%nat -> digit (f j)) -> subbed f k m ->
  w = pd (S k) ->
  let m1 := seti m (S k) (psub (psub (geti t (S k)) (plain w)) (pand (pshr (geti m k) 16) (plain 1))) in
  subbed f (S k) (seti m1 k (pand (geti m1 k) (plain 65535))) /\ length (seti m1 k (pand (geti m1 k) (plain 65535))) = length m.
Proof.
  intros t f k m w [_ It] Hk D [L I] -> m1.
  assert (Ik : is (geti m k) (mr f k)) by (specialize (I k ltac:(clear; lia)); rewrite Nat.ltb_irrefl in I; exact I).
  pose proof (mr_range f k (D k ltac:(clear - Hk; lia))) as R.
  destruct (is_borrow _ _ Ik R) as [Ib _]. rewrite <- bor_S in Ib.
  assert (Im : is (psub (psub (geti t (S k)) (plain (pd (S k)))) (pand (pshr (geti m k) 16) (plain 1))) (mr f (S k))).
  { pose proof (D (S k) Hk) as DS. pose proof (pd_range (S k)). pose proof (bor_01 f (S k)). unfold digit in DS.
    unfold mr. apply is_sub; [apply is_sub; [apply It, Hk|apply is_plain|unfold fits; lia]|exact Ib|unfold fits; lia]. }
  unfold m1. rewrite geti_seti_ne by (clear; lia).
  split; [|rewrite !seti_length; reflexivity].
  split; [rewrite !seti_length; exact L|]. intros j Hj.
  rewrite (seti_geti_chain (seti _ _ _)) by (rewrite seti_length; clear - L Hk; lia). rewrite seti_geti_chain by (clear - L Hk; lia).
  destruct (Nat.eqb_spec k j) as [<-|Q].
  - replace (k <? S k)%nat with true by (clear; lia). rewrite <- land_65535.
    apply is_and_plain; [exact Ik|]. rewrite land_65535. clear; lia.
  - destruct (Nat.eqb_spec (S k) j) as [<-|Q2].
    + rewrite Nat.ltb_irrefl. exact Im.
    + specialize (I j ltac:(clear - Hj Q2; lia)). replace (j <? S k)%nat with true by (clear - Hj Q2; lia).
      replace (j <? k)%nat with true in I by (clear - Hj Q Q2; lia). exact I.
Qed.
Lemma psub_plain : forall a b, psub (plain a) (plain b) = plain (a - b).
Proof.
  intros a b. unfold psub, typed, promote. cbn [pt pv plain]. change (order TPlain <? 5) with false. rewrite !andb_false_r. reflexivity.
Qed.
Lemma pack_round_w : forall t m f, limbs t f -> (16 <= length m)%nat -> (forall j, (j < 16)%nat -> digit (f j)) ->
  exists t' m' g, pack_round (t, m) = (t', m') /\ limbs t' g /\ (16 <= length m')%nat /\ (forall j, (j < 16)%nat -> digit (g j)) /\
    val g = if val f <? p25519 then val f else val f - p25519.
Proof.
  intros t m f T Lm D. unfold pack_round.
  assert (S0 : subbed f 0 (seti m 0 (psub (geti t 0) (plain 65517))) /\ length (seti m 0 (psub (geti t 0) (plain 65517))) = length m).
  { split; [|apply seti_length]. split; [rewrite seti_length; exact Lm|]. intros j Hj. replace j with O by (clear - Hj; lia).
    rewrite geti_seti_eq by (clear - Lm; lia). change (0 <? 0)%nat with false. cbv iota. destruct T as [_ It].
    pose proof (D O ltac:(clear; lia)) as D0. unfold digit in D0.
    apply (is_eq _ (f O - 65517)); [apply is_sub; [apply It; clear; lia|apply is_plain|unfold fits; clear - D0; lia]|].
    unfold mr. cbn [bor]. change (pd 0) with 65517. clear; lia. }
  remember (seti m 0 (psub (geti t 0) (plain 65517))) as m0 eqn:Q; clear Q. cbv zeta. destruct S0 as [S0 L0].
  pose proof (for_range_inv _ (fun k s => subbed f k s /\ length s = length m) 14 (fun m i => sub_step t m (S i)) m0) as P.
  match type of P with _ -> _ -> ?cc => assert (S14 : cc) end.
  { apply P; clear P; [split; assumption|]. intros i s Hi [Hs Ls]. unfold sub_step. replace (S i - 1)%nat with i by (clear; lia).
    destruct (sub_next t f i s 65535 T ltac:(clear - Hi; lia) D Hs) as [A B].
    - unfold pd. replace (S i =? 0)%nat with false by (clear; lia). replace (S i =? 15)%nat with false by (clear - Hi; lia). reflexivity.
    - split; [exact A|]. cbv zeta in B |- *. congruence. }
  clear P. cbv beta in S14. destruct S14 as [S14 L14]. remember (for_range 14 (fun m i => sub_step t m (S i)) m0) as m1 eqn:Q; clear Q.
  destruct (sub_next t f 14 m1 32767 T ltac:(clear; lia) D S14 eq_refl) as [S15 L15]. cbv zeta in S15, L15.
  remember (seti m1 15 (psub (psub (geti t 15) (plain 32767)) (pand (pshr (geti m1 14) 16) (plain 1)))) as m2 eqn:E2.
  assert (G15 : geti m2 15 = geti (seti m2 14 (pand (geti m2 14) (plain 65535))) 15) by (rewrite geti_seti_ne by (clear; lia); reflexivity).
  rewrite G15. remember (seti m2 14 (pand (geti m2 14) (plain 65535))) as m3 eqn:E3.
  destruct S15 as [LL I15].
  pose proof (I15 15%nat ltac:(clear; lia)) as Ib. change (15 <? 15)%nat with false in Ib. cbv iota in Ib.
  destruct (is_borrow _ _ Ib (mr_range f 15 (D 15%nat ltac:(clear; lia)))) as [_ Eb]. rewrite <- bor_S in Eb. rewrite Eb, psub_plain.
  assert (I3 : limbs m3 (subf f)).
  { split; [exact LL|]. intros j Hj. specialize (I15 j ltac:(clear - Hj; lia)). exact I15. }
  assert (W3 : within (subf f) (2 ^ 60)).
  { intros j Hj. unfold subf. pose proof (mr_range f j (D j Hj)) as Rj. clear - Rj. destruct (j <? 15)%nat; lia. }
  assert (Wf : within f (2 ^ 60)) by (intros j Hj; specialize (D j Hj); unfold digit in D; clear - D; lia).
  clear Eb Ib G15 E2 E3. rewrite (bor_lt f D).
  replace (plain (1 - (if val f <? p25519 then 1 else 0))) with (bitp (negb (val f <? p25519))) by (destruct (val f <? p25519); reflexivity).
  destruct (sel_w t m3 f (subf f) (negb (val f <? p25519)) T I3 Wf W3) as (t' & m' & E & L1 & L2 & J1 & J2).
  exists t', m', (if negb (val f <? p25519) then subf f else f). split; [exact E|]. split; [exact J1|].
  split; [rewrite L2; exact LL|]. pose proof (bor_lt f D) as BL. pose proof (sub_val f D) as SV.
  destruct (val f <? p25519); cbn [negb]; [split; [exact D|reflexivity]|exact (SV BL)].
Qed.
Lemma twice_mod : forall p W, 38 < p -> 0 <= W < 2 * p + 38 ->
  (if (if W <? p then W else W - p) <? p then (if W <? p then W else W - p) else (if W <? p then W else W - p) - p) = W mod p.
Proof.
  intros p W Hp H. destruct (Z.ltb_spec W p) as [Q|Q].
  - destruct (Z.ltb_spec W p); [|lia]. symmetry. apply Z.mod_small. lia.
  - destruct (Z.ltb_spec (W - p) p) as [Q2|Q2]; [apply (Z.mod_unique W p 1)|apply (Z.mod_unique W p 2)]; lia.
Qed.
Lemma p25519_big : 38 < p25519.
Proof. vm_compute. reflexivity. Qed.
Lemma pack_rounds : forall t m f, limbs t f -> (16 <= length m)%nat -> (forall j, (j < 16)%nat -> digit (f j)) ->
  exists t' m' g, pack_round (pack_round (t, m)) = (t', m') /\ limbs t' g /\ (forall j, (j < 16)%nat -> digit (g j)) /\
    val g = val f mod p25519.
Proof.
  intros t m f T Lm D. destruct (pack_round_w t m f T Lm D) as (t1 & m1 & g1 & E1 & T1 & L1 & D1 & V1).
  destruct (pack_round_w t1 m1 g1 T1 L1 D1) as (t2 & m2 & g2 & E2 & T2 & _ & D2 & V2).
  exists t2, m2, g2. rewrite E1, E2. split; [reflexivity|]. split; [exact T2|]. split; [exact D2|].
  rewrite V2, V1. apply twice_mod; [exact p25519_big|]. pose proof (val_range f D) as R. rewrite pow16 in R. exact R.
Qed.

(** ** Bytes *)
Lemma num_pairs : forall n d, num 256 (2 * n) d = num 65536 n (fun i => d (2 * i)%nat + 256 * d (2 * i + 1)%nat).
Proof.
  induction n as [|n IH]; intros d; [reflexivity|]. replace (2 * S n)%nat with (S (S (2 * n))) by lia. rewrite !num_S, IH.
  replace (256 ^ Z.of_nat (2 * n)) with (65536 ^ Z.of_nat n).
  2:{ rewrite Nat2Z.inj_mul, Z.pow_mul_r by lia. reflexivity. }
  rewrite Nat2Z.inj_succ, Z.pow_succ_r by lia. replace (256 ^ Z.of_nat (2 * n)) with (65536 ^ Z.of_nat n).
  2:{ rewrite Nat2Z.inj_mul, Z.pow_mul_r by lia. reflexivity. }
  replace (2 * n + 1)%nat with (S (2 * n)) by lia. ring.
Qed.
Definition bytef (f : nat -> Z) (k : nat) : Z := if Nat.even k then f (k / 2)%nat mod 256 else f (k / 2)%nat / 256.
Lemma bytef_0 : forall f i, bytef f (2 * i) = f i mod 256.
Proof. intros f i. unfold bytef. rewrite Nat.even_mul. cbn [Nat.even orb]. rewrite (Nat.mul_comm 2), Nat.div_mul by lia. reflexivity. Qed.
Lemma bytef_1 : forall f i, bytef f (2 * i + 1) = f i / 256.
Proof.
  intros f i. unfold bytef. rewrite Nat.even_add, Nat.even_mul. cbn [Nat.even orb eqb].
  replace ((2 * i + 1) / 2)%nat with i; [reflexivity|]. apply (Nat.div_unique (2 * i + 1) 2 i 1); lia.
Qed.
Lemma bytef_range : forall f k, (k < 32)%nat -> (forall j, (j < 16)%nat -> digit (f j)) -> 0 <= bytef f k < 256.
Proof.
  intros f k Hk D. specialize (D (k / 2)%nat ltac:(apply Nat.div_lt_upper_bound; lia)). unfold digit in D. unfold bytef. destruct (Nat.even k); lia.
Qed.
Lemma bytef_num : forall f, num 256 32 (bytef f) = val f.
Proof.
  intros f. change 32%nat with (2 * 16)%nat. rewrite num_pairs. unfold val. apply num_ext. intros i _. rewrite bytef_0, bytef_1. lia.
Qed.
Lemma land_255 : forall x, Z.land x 255 = x mod 256.
Proof. intros x. change 255 with (2 ^ 8 - 1). rewrite land_ones by lia. reflexivity. Qed.
Lemma geti_firstn_lt : forall (l : list pint) n k, (k < n)%nat -> geti (firstn n l) k = geti l k.
Proof.
  induction l as [|x l IH]; intros n k H; [destruct n; reflexivity|]. destruct n as [|n]; [lia|]. destruct k as [|k]; [reflexivity|].
  cbn [firstn]. unfold geti in *. cbn [nth]. apply IH. lia.
Qed.
Lemma out_bytes : forall t f o, limbs t f -> (forall j, (j < 16)%nat -> digit (f j)) -> (32 <= length o)%nat ->
  exists r, for_range 16 (fun o i =>
    let o := seti o (2 * i) (pand (geti t i) (plain 255)) in
    seti o (2 * i + 1) (pshr (geti t i) 8)) o = r ++ skipn 32 o /\ length r = 32%nat /\ forall k, (k < 32)%nat -> pv (geti r k) = bytef f k.
Proof.
  intros t f o [_ It] D L.
  pose proof (for_range_inv _ (fun i s => length s = length o /\ skipn 32 s = skipn 32 o /\ forall k, (k < 2 * i)%nat -> pv (geti s k) = bytef f k) 16
    (fun o i => let o := seti o (2 * i) (pand (geti t i) (plain 255)) in seti o (2 * i + 1) (pshr (geti t i) 8)) o) as P.
  match type of P with _ -> _ -> ?cc => assert (T : cc) end.
  { apply P; clear P; [split; [reflexivity|split; [reflexivity|intros k Hk; lia]]|].
    intros i s Hi (L1 & L2 & I). cbv zeta. split; [rewrite !seti_length; exact L1|].
    split.
    - rewrite <- L2. assert (SK : forall l j v, (j < 32)%nat -> skipn 32 (seti l j v) = skipn 32 l).
      { clear. intros l j v. generalize 32%nat. intros n. revert l j. induction n as [|n IH]; intros [|x l] [|j] H; try lia; try reflexivity. cbn [seti skipn]. apply IH. lia. }
      rewrite !SK by lia. reflexivity.
    - intros k Hk. rewrite seti_geti_chain by (rewrite seti_length; lia). rewrite seti_geti_chain by lia.
      specialize (It i Hi). specialize (D i Hi). unfold digit in D.
      destruct (Nat.eqb_spec (2 * i + 1) k) as [<-|Q1].
      + rewrite bytef_1. destruct (is_shr _ _ 8 It ltac:(lia) ltac:(unfold fits; lia)) as [_ ->]. reflexivity.
      + destruct (Nat.eqb_spec (2 * i) k) as [<-|Q2]; [|apply I; lia].
        rewrite bytef_0, <- land_255. destruct (is_and_plain _ _ 255 It ltac:(rewrite land_255; lia)) as [_ ->]. reflexivity. }
  clear P. cbv beta in T. match type of T with length ?x = _ /\ _ => remember x as s eqn:Q; clear Q end. destruct T as (L1 & L2 & I).
  exists (firstn 32 s). split; [rewrite <- L2; symmetry; apply firstn_skipn|]. split; [rewrite firstn_length; lia|].
  intros k Hk. rewrite geti_firstn_lt by exact Hk. apply I. lia.
Qed.
Lemma holds_digits : forall r d z, length r = 32%nat -> (forall k, (k < 32)%nat -> pv (geti r k) = d k) -> (forall k, (k < 32)%nat -> 0 <= d k < 256) ->
  num 256 32 d = z mod 256 ^ Z.of_nat 32 -> holds r (le_bytes 32 z).
Proof.
  intros r d z L E R N. pose proof (holds_le_bytes 32 d z R N) as H. unfold holds in *. rewrite <- H.
  apply nth_ext with (d := 0) (d' := 0); [unfold pl; rewrite !map_length, seq_length; exact L|].
  intros k Hk. rewrite map_length, L in Hk. change 0 with (pv (plain 0)). rewrite !map_nth. fold (geti r k). rewrite E by exact Hk.
  unfold pl. rewrite (nth_indep _ _ (plain (d O))) by (rewrite map_length, seq_length; exact Hk).
  rewrite (map_nth (fun i => plain (d i))), seq_nth by exact Hk. reflexivity.
Qed.
Lemma encode_mod : forall f v, (forall j, (j < 16)%nat -> digit (f j)) -> val f = v mod p25519 -> num 256 32 (bytef f) = (v mod p25519) mod 256 ^ Z.of_nat 32.
Proof.
  intros f v D E. rewrite bytef_num. pose proof (val_range f D) as R. rewrite <- E. symmetry. apply Z.mod_small.
  replace (256 ^ Z.of_nat 32) with (65536 ^ Z.of_nat 16) by (vm_compute; reflexivity). exact R.
Qed.
Lemma pack_fe : forall o n v, (32 <= length o)%nat -> fe (2 ^ 40) n v -> exists r, pack25519 o n = r ++ skipn 32 o /\ holds r (encode_u v).
Proof.
  intros o n v Lo (f & [Ln In] & W & V). unfold pack25519. cbv zeta.
  destruct (limbs_fill gf_new (geti n) f ltac:(cbn; clear; lia) In) as [I0 L0].
  remember (for_range 16 (fun t i => seti t i (geti n i)) gf_new) as t0 eqn:Q; clear Q.
  assert (W0 : within f (2 ^ 54)) by (clear - W; intros j Hj; specialize (W j Hj); lia).
  destruct (car_w _ _ (2 ^ 54) I0 ltac:(clear; lia) W0) as [I1 L1].
  assert (W1 : within (carf f) (2 ^ 54)).
  { intros j Hj. destruct j as [|j]; [|pose proof (carf_digit f (S j) eq_refl) as Dj; unfold digit in Dj; clear - Dj; lia].
    rewrite carf_0. pose proof (cq_15 f (2 ^ 40) ltac:(clear; lia) W) as Q. clear - Q. lia. }
  destruct (car_w _ _ (2 ^ 54) I1 ltac:(clear; lia) W1) as [I2 L2].
  pose proof (carf_twice f W0) as N2.
  assert (W2 : within (carf (carf f)) (2 ^ 54)) by (pose proof (near_within _ N2) as H; clear - H; intros j Hj; specialize (H j Hj); lia).
  destruct (car_w _ _ (2 ^ 54) I2 ltac:(clear; lia) W2) as [I3 L3].
  destruct (pack_rounds _ gf_new _ I3 ltac:(cbn; clear; lia) (carf_near _ N2)) as (t' & m' & g & E & T & D & VG). rewrite E.
  destruct (out_bytes t' g o T D Lo) as (r & ER & LR & B). exists r. split; [exact ER|].
  unfold encode_u. apply (holds_digits r (bytef g)); [exact LR|exact B|intros k Hk; apply bytef_range; assumption|].
  apply encode_mod; [exact D|]. rewrite VG, !carf_val. exact V.
Qed.
