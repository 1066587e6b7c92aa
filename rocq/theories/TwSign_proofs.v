(** Lemmas about TwSign: points in limbs. *)
From Coq Require Import List ZArith Bool Strings.Byte Lia ZifyBool ZifyNat ZifyN.
From Verif Require Import PyBase PyBase_proofs PyInt PyInt_proofs ShaSpec SalsaSpec CurveSpec EdSpec TwHash TwHash_proofs TwSalsa TwSalsa_proofs
  TwPoly TwPoly_proofs TwBox_proofs TwField Radix_proofs TwField_proofs TwPack_proofs TwCurve_proofs EdPoint TwSign.
Import ListNotations.
Open Scope Z_scope.
Ltac Zify.zify_post_hook ::= Z.div_mod_to_equations.

(** ** Constants *)
Ltac gfconst := match goal with |- fe _ ?c _ => exists (fun j => pv (geti c j)) end; split; [split; [cbn; lia|]|split];
  [intros j Hj; split; [|reflexivity]; do 16 (destruct j as [|j]; [left; reflexivity|]); lia
  |intros j Hj; do 16 (destruct j as [|j]; [cbn; lia|]); lia
  |vm_compute; reflexivity].
Lemma cD_fe : fe (2 ^ 17) cD rfc_d. Proof. gfconst. Qed.
Lemma cD2_fe : fe (2 ^ 17) cD2 d2. Proof. gfconst. Qed.
Lemma cX_fe : fe (2 ^ 17) cX (fst rfc_B). Proof. gfconst. Qed.
Lemma cY_fe : fe (2 ^ 17) cY (snd rfc_B). Proof. gfconst. Qed.
Lemma cI_fe : fe (2 ^ 17) cI Curve25519.ed_i. Proof. gfconst. Qed.
Lemma gf0_fe : fe (2 ^ 17) gf0 0. Proof. gfconst. Qed.
Lemma gf1_fe : fe (2 ^ 17) gf1 1. Proof. gfconst. Qed.
Lemma gf_new_len : (16 <= length gf_new)%nat. Proof. cbn. lia. Qed.
Lemma set_fe : forall B o l v, (16 <= length o)%nat -> fe B l v -> fe B (set25519 o l) v.
Proof. intros B o l v L H. exact (proj1 (copy_fe B o l v L H)). Qed.

(** ** Addition *)
Lemma up40 : forall l v, fe (2 ^ 17) l v -> fe (2 ^ 40) l v.
Proof. intros l v H. apply (fe_weak _ _ _ _ H). lia. Qed.
Lemma rA19 : forall o a b u v, (16 <= length o)%nat -> fe (2 ^ 18) a u -> fe (2 ^ 17) b v -> fe (2 ^ 19) (fA o a b) (fadd u v).
Proof.
  intros o a b u v L A B. apply (fe_weak (2 ^ 18 + 2 ^ 17)); [|lia]. exact (proj1 (fA_fe (2 ^ 18) _ o a b u v L ltac:(lia) le17_60 A B)).
Qed.
Lemma rZ19 : forall o a b u v, (16 <= length o)%nat -> fe (2 ^ 18) a u -> fe (2 ^ 17) b v -> fe (2 ^ 19) (fZ o a b) (fsub u v).
Proof.
  intros o a b u v L A B. apply (fe_weak (2 ^ 18 + 2 ^ 17)); [|lia]. exact (proj1 (fZ_fe (2 ^ 18) _ o a b u v L ltac:(lia) le17_60 A B)).
Qed.
Definition coords (p : gf4) (X Y Z T : Z) : Prop :=
  fe (2 ^ 17) (g0 p) X /\ fe (2 ^ 17) (g1 p) Y /\ fe (2 ^ 17) (g2 p) Z /\ fe (2 ^ 17) (g3 p) T.
Definition rep4 (p : gf4) (P : cpt) : Prop := exists X Y Z T, coords p X Y Z T /\ zext X Y Z T P.
Lemma add4_coords : forall p q X1 Y1 Z1 T1 X2 Y2 Z2 T2, coords p X1 Y1 Z1 T1 -> coords q X2 Y2 Z2 T2 ->
  let A := fmul (fsub Y1 X1) (fsub Y2 X2) in let B := fmul (fadd X1 Y1) (fadd X2 Y2) in
  let C := fmul (fmul T1 T2) d2 in let D := fadd (fmul Z1 Z2) (fmul Z1 Z2) in
  let E := fsub B A in let G := fsub D C in let H := fadd D C in let K := fadd B A in
  coords (add4 p q) (fmul E G) (fmul K H) (fmul H G) (fmul E K).
Proof.
  intros [p0 p1 p2 p3] [q0 q1 q2 q3] X1 Y1 Z1 T1 X2 Y2 Z2 T2 (P0 & P1 & P2 & P3) (Q0 & Q1 & Q2 & Q3). cbn [g0 g1 g2 g3] in *. cbv zeta.
  unfold add4, coords. cbn [g0 g1 g2 g3]. pose proof gf_new_len as GL.
  assert (A1 := rZ gf_new p1 p0 _ _ GL P1 P0). remember (fZ gf_new p1 p0) as a1 eqn:Q; clear Q.
  assert (T1' := rZ gf_new q1 q0 _ _ GL Q1 Q0). remember (fZ gf_new q1 q0) as t1 eqn:Q; clear Q.
  assert (A2 := rM a1 a1 t1 _ _ (fe_len _ _ _ A1) (up18 _ _ A1) (up18 _ _ T1')). remember (fM a1 a1 t1) as a2 eqn:Q; clear Q.
  assert (B1 := rA gf_new p0 p1 _ _ GL P0 P1). remember (fA gf_new p0 p1) as b1 eqn:Q; clear Q.
  assert (T2' := rA t1 q0 q1 _ _ (fe_len _ _ _ T1') Q0 Q1). remember (fA t1 q0 q1) as t2 eqn:Q; clear Q.
  assert (B2 := rM b1 b1 t2 _ _ (fe_len _ _ _ B1) (up18 _ _ B1) (up18 _ _ T2')). remember (fM b1 b1 t2) as b2 eqn:Q; clear Q.
  assert (C1 := rM gf_new p3 q3 _ _ GL (up19 _ _ P3) (up19 _ _ Q3)). remember (fM gf_new p3 q3) as c1 eqn:Q; clear Q.
  assert (C2 := rM c1 c1 cD2 _ _ (fe_len _ _ _ C1) (up19 _ _ C1) (up19 _ _ cD2_fe)). remember (fM c1 c1 cD2) as c2 eqn:Q; clear Q.
  assert (D1 := rM gf_new p2 q2 _ _ GL (up19 _ _ P2) (up19 _ _ Q2)). remember (fM gf_new p2 q2) as e1 eqn:Q; clear Q.
  assert (D2 := rA e1 e1 e1 _ _ (fe_len _ _ _ D1) D1 D1). remember (fA e1 e1 e1) as e2 eqn:Q; clear Q.
  assert (E := rZ gf_new b2 a2 _ _ GL B2 A2). assert (H := rA gf_new b2 a2 _ _ GL B2 A2).
  assert (FF := rZ19 gf_new e2 c2 _ _ GL D2 C2). assert (GG := rA19 gf_new e2 c2 _ _ GL D2 C2).
  split; [|split; [|split]].
  - exact (rM p0 _ _ _ _ (fe_len _ _ _ P0) (up18 _ _ E) FF).
  - exact (rM p1 _ _ _ _ (fe_len _ _ _ P1) (up18 _ _ H) GG).
  - exact (rM p2 _ _ _ _ (fe_len _ _ _ P2) GG FF).
  - exact (rM p3 _ _ _ _ (fe_len _ _ _ P3) (up18 _ _ E) (up18 _ _ H)).
Qed.
Lemma add4_w : forall p q P Q, con P -> con Q -> rep4 p P -> rep4 q Q -> rep4 (add4 p q) (cadd P Q).
Proof.
  intros p q P Q HP HQ (X1 & Y1 & Z1 & T1 & C1 & E1) (X2 & Y2 & Z2 & T2 & C2 & E2).
  pose proof (add4_coords _ _ _ _ _ _ _ _ _ _ C1 C2) as C. pose proof (zext_add _ _ _ _ _ _ _ _ P Q HP HQ E1 E2) as E. cbv zeta in C, E.
  do 4 eexists. split; [exact C|exact E].
Qed.

(** ** Conditional swap *)
Definition bitu (s : bool) : pint := PI TU8 (if s then 1 else 0).
Lemma sel_u8 : forall p q s, sel25519 p q (bitu s) = sel25519 p q (bitp s).
Proof. intros p q s. unfold sel25519. replace (psub (bitu s) (plain 1)) with (psub (bitp s) (plain 1)) by (destruct s; reflexivity). reflexivity. Qed.
Lemma cswap4_w : forall p q P Q s, rep4 p P -> rep4 q Q ->
  exists p' q', cswap4 p q (bitu s) = (p', q') /\ rep4 p' (if s then Q else P) /\ rep4 q' (if s then P else Q).
Proof.
  intros [p0 p1 p2 p3] [q0 q1 q2 q3] P Q s (X1 & Y1 & Z1 & T1 & (P0 & P1 & P2 & P3) & E1) (X2 & Y2 & Z2 & T2 & (Q0 & Q1 & Q2 & Q3) & E2).
  cbn [g0 g1 g2 g3] in *. unfold cswap4. cbn [g0 g1 g2 g3]. rewrite !sel_u8.
  destruct (sel_fe _ _ _ _ _ s le17_60 P0 Q0) as (p0' & q0' & G0 & _ & _ & P0' & Q0'). rewrite G0.
  destruct (sel_fe _ _ _ _ _ s le17_60 P1 Q1) as (p1' & q1' & G1 & _ & _ & P1' & Q1'). rewrite G1.
  destruct (sel_fe _ _ _ _ _ s le17_60 P2 Q2) as (p2' & q2' & G2 & _ & _ & P2' & Q2'). rewrite G2.
  destruct (sel_fe _ _ _ _ _ s le17_60 P3 Q3) as (p3' & q3' & G3 & _ & _ & P3' & Q3'). rewrite G3.
  exists (G4 p0' p1' p2' p3'), (G4 q0' q1' q2' q3'). split; [reflexivity|].
  destruct s; split; [exists X2, Y2, Z2, T2|exists X1, Y1, Z1, T1|exists X1, Y1, Z1, T1|exists X2, Y2, Z2, T2];
    (split; [unfold coords; cbn [g0 g1 g2 g3]; auto|assumption]).
Qed.

(** ** Multiplication *)
Lemma cmul_dbl : forall n P, con P -> cadd (cmul n P) (cmul n P) = cmul (2 * n) P.
Proof. intros n P H. replace (2 * n)%N with (n + n)%N by lia. symmetry. exact (Curve25519.pmul_add n n P H). Qed.
Lemma cmul_dbl1 : forall n P, con P -> cadd (cmul (n + 1) P) (cmul n P) = cmul (2 * n + 1) P.
Proof. intros n P H. replace (2 * n + 1)%N with ((n + 1) + n)%N by lia. symmetry. exact (Curve25519.pmul_add (n + 1) n P H). Qed.
Lemma cmul_dbl1' : forall n P, con P -> cadd (cmul n P) (cmul (n + 1) P) = cmul (2 * n + 1) P.
Proof. intros n P H. replace (2 * n + 1)%N with (n + (n + 1))%N by lia. symmetry. exact (Curve25519.pmul_add n (n + 1) P H). Qed.
Definition ladp (Q : cpt) (n : N) (st : gf4 * gf4) : Prop := rep4 (fst st) (cmul n Q) /\ rep4 (snd st) (cmul (n + 1) Q).
Definition sbits (s : list pint) (k : Z) : Prop := 0 <= k < 2 ^ 256 /\
  forall i, (i < 256)%nat -> 0 <= pv (geti s (i / 8)) < 256 /\ Z.testbit (pv (geti s (i / 8))) (Z.of_nat (i mod 8)) = Z.testbit k (Z.of_nat i).
Lemma sbit_u8 : forall s k i, sbits s k -> (i < 256)%nat ->
  cast TU8 (pand (pshr (geti s (i / 8)) (Z.of_nat (i mod 8))) (plain 1)) = bitu (Z.testbit k (Z.of_nat i)).
Proof.
  intros s k i [_ H] Hi. destruct (H i Hi) as [R E]. rewrite <- E.
  remember (geti s (i / 8)) as x. remember (Z.of_nat (i mod 8)) as e. assert (He : 0 <= e) by lia. clear - R He.
  unfold pshr. assert (RS : 0 <= Z.shiftr (pv x) e < 256).
  { rewrite Z.shiftr_div_pow2 by exact He. pose proof (Z.pow_pos_nonneg 2 e ltac:(lia) He). split; [apply Z.div_pos; lia|].
    apply Z.div_lt_upper_bound; [lia|]. nia. }
  rewrite mk_small by exact RS. rewrite pand_plain by (cbn [pv]; apply Z.land_nonneg; right; lia). cbn [pv].
  rewrite land_1_bit, Z.shiftr_spec by lia. rewrite Z.add_0_l. destruct (Z.testbit (pv x) e); reflexivity.
Qed.
Lemma mult_step_w : forall s k i st Q n, sbits s k -> (i < 256)%nat -> con Q -> ladp Q n st ->
  ladp Q (2 * n + N.b2n (Z.testbit k (Z.of_nat i))) (mult_step s st i).
Proof.
  intros s k i [p q] Q n S Hi HQ [Rp Rq]. unfold mult_step. rewrite (sbit_u8 s k i S Hi). cbn [fst snd] in Rp, Rq.
  assert (Cn : con (cmul n Q)) by (apply con_mul; exact HQ). assert (Cm : con (cmul (n + 1) Q)) by (apply con_mul; exact HQ).
  destruct (cswap4_w p q _ _ (Z.testbit k (Z.of_nat i)) Rp Rq) as (p' & q' & E & P' & Q'). rewrite E.
  destruct (Z.testbit k (Z.of_nat i)); cbn [N.b2n].
  - assert (A := add4_w _ _ _ _ Cn Cm Q' P'). rewrite cmul_dbl1' in A by exact HQ.
    assert (B := add4_w _ _ _ _ Cm Cm P' P'). rewrite cmul_dbl in B by exact HQ.
    destruct (cswap4_w _ _ _ _ true B A) as (p'' & q'' & E2 & P2 & Q2). rewrite E2. unfold ladp. cbn [fst snd]. split; [exact P2|].
    replace (2 * n + 1 + 1)%N with (2 * (n + 1))%N by lia. exact Q2.
  - assert (A := add4_w _ _ _ _ Cm Cn Q' P'). rewrite cmul_dbl1 in A by exact HQ.
    assert (B := add4_w _ _ _ _ Cn Cn P' P'). rewrite cmul_dbl in B by exact HQ.
    destruct (cswap4_w _ _ _ _ false B A) as (p'' & q'' & E2 & P2 & Q2). rewrite E2. unfold ladp. cbn [fst snd]. rewrite N.add_0_r. split; [exact P2|exact Q2].
Qed.
Definition lens (p : gf4) : Prop := (16 <= length (g0 p))%nat /\ (16 <= length (g1 p))%nat /\ (16 <= length (g2 p))%nat /\ (16 <= length (g3 p))%nat.
Lemma scalarmult4_w : forall p q s k Q, lens p -> con Q -> rep4 q Q -> sbits s k -> rep4 (scalarmult4 p q s) (cmul (Z.to_N k) Q).
Proof.
  intros p q s k Q (L0 & L1 & L2 & L3) HQ Rq S. unfold scalarmult4. cbv zeta.
  assert (P0 : rep4 (G4 (set25519 (g0 p) gf0) (set25519 (g1 p) gf1) (set25519 (g2 p) gf1) (set25519 (g3 p) gf0)) cO).
  { exists 0, 1, 1, 0. split; [|exact zext_zero]. unfold coords. cbn [g0 g1 g2 g3].
    split; [apply set_fe; [exact L0|exact gf0_fe]|]. split; [apply set_fe; [exact L1|exact gf1_fe]|].
    split; [apply set_fe; [exact L2|exact gf1_fe]|]. apply set_fe; [exact L3|exact gf0_fe]. }
  remember (G4 (set25519 (g0 p) gf0) (set25519 (g1 p) gf1) (set25519 (g2 p) gf1) (set25519 (g3 p) gf0)) as p' eqn:E; clear E.
  pose proof (for_range_inv _ (fun i st => ladp Q (Z.to_N (Z.shiftr k (256 - Z.of_nat i))) st) 256 (fun st j => mult_step s st (255 - j)) (p', q)) as P.
  match type of P with _ -> _ -> ?cc => assert (T : cc) end.
  { apply P; clear P.
    - change (256 - Z.of_nat 0) with 256. destruct S as [K _]. rewrite Z.shiftr_div_pow2, Z.div_small by (exact K || lia).
      split; [exact P0|]. cbn [snd]. change (0 + 1)%N with 1%N. unfold cmul. rewrite Curve25519.pmul_1. exact Rq.
    - intros i st Hi H. replace (256 - Z.of_nat (Datatypes.S i)) with (Z.of_nat (255 - i)) by lia.
      rewrite (Curve25519.bit_split k (proj1 (proj1 S))) by lia. apply mult_step_w; [exact S|lia|exact HQ|].
      replace (Z.of_nat (255 - i) + 1) with (256 - Z.of_nat i) by lia. exact H. }
  cbv beta in T. rewrite Z.sub_diag, Z.shiftr_0_r in T. exact (proj1 T).
Qed.
Lemma scalarbase4_w : forall p s k, lens p -> sbits s k -> rep4 (scalarbase4 p s) (cmul (Z.to_N k) cG).
Proof.
  intros p s k L S. unfold scalarbase4. cbv zeta. apply scalarmult4_w; [exact L|exact con_G| |exact S].
  exists (fst rfc_B), (snd rfc_B), 1, (fmul (fst rfc_B) (snd rfc_B)). split; [|exact (zext_point (fst rfc_B) (snd rfc_B))].
  unfold coords. cbn [g0 g1 g2 g3]. pose proof gf_new_len as GL.
  split; [apply set_fe; [exact GL|exact cX_fe]|]. split; [apply set_fe; [exact GL|exact cY_fe]|].
  split; [apply set_fe; [exact GL|exact gf1_fe]|]. apply rM; [exact GL|exact (up19 _ _ cX_fe)|exact (up19 _ _ cY_fe)].
Qed.
Lemma rep4_lens : forall p P, rep4 p P -> lens p.
Proof.
  intros p P (X & Y & Z & T & (A & B & C & D) & _). unfold lens. repeat split; eapply fe_len; eassumption.
Qed.
Lemma new_lens : lens gf4_new.
Proof. unfold lens, gf4_new. cbn. lia. Qed.
(** scalars in byte lists *)
Lemma sbits_holds : forall s b, holds (firstn 32 s) b -> length b = 32%nat -> sbits s (le_word b).
Proof.
  intros s b H L. split; [change 256 with (8 * 32); pose proof (le_word_range b) as R; rewrite L in R; exact R|].
  intros i Hi. assert (Hq : (i / 8 < 32)%nat) by (apply Nat.div_lt_upper_bound; lia).
  assert (E : pv (geti s (i / 8)) = bval (nth (i / 8) b x00)).
  { rewrite <- (geti_firstn_lt s 32) by exact Hq. apply holds_geti; [exact H|lia]. }
  rewrite E. split; [apply byte_range|]. rewrite <- (num_bytes b 32) by lia. symmetry. apply num_testbit; [intros; apply byte_range|lia].
Qed.

(** ** Packing *)
Lemma holds_pv : forall l l' b, map pv l = map pv l' -> holds l' b -> holds l b.
Proof. intros l l' b E H. unfold holds in *. congruence. Qed.
Lemma map_pv_seq : forall l, map pv l = map (fun i => pv (geti l i)) (seq 0 (length l)).
Proof.
  induction l as [|x l IH]; [reflexivity|]. cbn [map length seq]. f_equal. rewrite IH, <- seq_shift, map_map. reflexivity.
Qed.
Lemma holds_num : forall l n z, length l = n -> (forall i, (i < n)%nat -> 0 <= pv (geti l i) < 256) ->
  num 256 n (fun i => pv (geti l i)) = z mod 256 ^ Z.of_nat n -> holds l (le_bytes n z).
Proof.
  intros l n z L R E. apply (holds_pv _ (pl n (fun i => pv (geti l i)))); [|apply holds_le_bytes; assumption].
  rewrite map_pv_seq, L. unfold pl. rewrite map_map. reflexivity.
Qed.
Lemma le_word_bytes : forall n z, 0 <= z < 256 ^ Z.of_nat n -> le_word (le_bytes n z) = z.
Proof.
  induction n as [|n IH]; intros z H; [cbn in H |- *; lia|]. cbn [le_bytes le_word].
  rewrite Nat2Z.inj_succ, Z.pow_succ_r in H by lia. rewrite IH.
  - change (bval (byte_of_z z)) with (b2z (z2b z)). rewrite b2z_z2b. pose proof (Z.div_mod z 256 ltac:(lia)). lia.
  - split; [apply Z.div_pos; lia|apply Z.div_lt_upper_bound; lia].
Qed.
Lemma typed_plain_r : forall op a m, typed op a (plain m) = plain (op (pv a) m).
Proof.
  intros op [t v] m. unfold typed, promote. cbn [pt pv plain]. change (order TPlain <? 5) with false. rewrite andb_false_r.
  replace (order t >? order TPlain) with false by (destruct t; reflexivity). reflexivity.
Qed.
Lemma typed_plain_l : forall op a m, typed op (plain m) a = plain (op m (pv a)).
Proof.
  intros op [t v] m. unfold typed, promote. cbn [pt pv plain]. change (order TPlain <? 5) with false. rewrite andb_false_r, andb_false_l.
  destruct t; reflexivity.
Qed.
Lemma lxor_top : forall v b, 0 <= v < 128 -> Z.lxor v (if b : bool then 128 else 0) = v + (if b then 128 else 0).
Proof.
  intros v b H. rewrite <- Z.add_nocarry_lxor; [reflexivity|]. destruct b; [|apply Z.land_0_r].
  apply Z.bits_inj'. intros i Hi. rewrite Z.land_spec, Z.bits_0. change 128 with (2 ^ 7). destruct (Z.eq_dec i 7) as [->|N].
  - rewrite (high_bits 7 v 7) by lia. reflexivity.
  - rewrite Z.pow2_bits_false by lia. apply andb_false_r.
Qed.
Lemma okz_256 : forall z, okz z -> 0 <= z < 2 ^ 255.
Proof. intros z [A B]. split; [exact A|]. eapply Z.lt_trans; [exact B|]. reflexivity. Qed.
Lemma encode_u_ok : forall x, okz x -> encode_u x = le_bytes 32 x.
Proof. intros x [A B]. unfold encode_u. revert A B. generalize p25519. intros p A B. rewrite Z.mod_small by (split; assumption). reflexivity. Qed.
Lemma par_w : forall a x, fe (2 ^ 17) a x -> okz x -> par25519 a = plain (x mod 2).
Proof.
  intros a x A X. unfold par25519.
  destruct (pack_fe (int_array TU8 32) a x ltac:(cbn; lia) (up40 _ _ A)) as (r & E & H). rewrite E. rewrite encode_u_ok in H by exact X.
  change (skipn 32 (int_array TU8 32)) with (@nil pint). rewrite app_nil_r. unfold pand. rewrite typed_plain_r. f_equal.
  rewrite (holds_geti _ _ 0 H) by (rewrite le_bytes_length; lia). cbn [le_bytes nth]. change byte_of_z with z2b. rewrite b2z_z2b.
  change 1 with (Z.ones 1). rewrite Z.land_ones by lia. change (2 ^ 1) with 2. clear. lia.
Qed.
Lemma set_top : forall r y b, holds r (le_bytes 32 y) -> 0 <= y < 2 ^ 255 ->
  holds (seti r 31 (pxor (geti r 31) (plain (if b : bool then 128 else 0)))) (le_bytes 32 (y + 2 ^ 255 * (if b then 1 else 0))).
Proof.
  intros r y b H Y. assert (L : length r = 32%nat) by (rewrite (holds_length _ _ H), le_bytes_length; reflexivity).
  assert (G : forall i, (i < 32)%nat -> pv (geti r i) = bval (nth i (le_bytes 32 y) x00)).
  { intros i Hi. apply holds_geti; [exact H|rewrite le_bytes_length; exact Hi]. }
  assert (N : num 256 32 (fun i => pv (geti r i)) = y).
  { rewrite (num_ext 256 32 _ (fun i => bval (nth i (le_bytes 32 y) x00))) by exact G.
    rewrite num_bytes by (rewrite le_bytes_length; lia). apply le_word_bytes. change (256 ^ Z.of_nat 32) with (2 ^ 256). lia. }
  assert (R : forall i, (i < 32)%nat -> 0 <= pv (geti r i) < 256) by (intros i Hi; rewrite (G i Hi); apply byte_range).
  change 32%nat with (S 31) in N. rewrite num_S in N. pose proof (num_range 256 31 (fun i => pv (geti r i)) ltac:(lia) ltac:(intros i Hi; apply R; lia)) as NR.
  change (256 ^ Z.of_nat 31) with (2 ^ 248) in *. remember (num 256 31 (fun i => pv (geti r i))) as low eqn:EL.
  assert (V : 0 <= pv (geti r 31) < 128) by (pose proof (R 31%nat ltac:(lia)); lia).
  unfold pxor. rewrite typed_plain_r, lxor_top by exact V.
  apply holds_num; [rewrite seti_length; exact L| |].
  - intros i Hi. rewrite seti_geti_chain by lia. destruct (31 =? i)%nat; [cbn [plain pv]; destruct b; lia|apply R; exact Hi].
  - change 32%nat with (S 31). rewrite num_S. rewrite (num_ext 256 31 _ (fun i => pv (geti r i))).
    + rewrite geti_seti_eq by lia. cbn [plain pv]. change (256 ^ Z.of_nat 31) with (2 ^ 248). change (256 ^ Z.of_nat (S 31)) with (2 ^ 256).
      rewrite <- EL. rewrite Z.mod_small by (destruct b; lia). destruct b; lia.
    + intros i Hi. rewrite geti_seti_ne by lia. reflexivity.
Qed.
Lemma mod2_if : forall x, x mod 2 = if Z.odd x then 1 else 0.
Proof. intros x. rewrite Zmod_odd. reflexivity. Qed.
Lemma pack_point_w : forall r p P, (32 <= length r)%nat -> rep4 p P ->
  exists s, pack_point r p = s ++ skipn 32 r /\ holds s (encode_point (fromP P)).
Proof.
  intros r p P L (X & Y & Z & T & (FX & FY & FZ & _) & E). unfold pack_point. cbv zeta. pose proof gf_new_len as GL.
  pose proof (proj1 (inv_fe gf_new (g2 p) Z GL FZ)) as FI. remember (inv25519 gf_new (g2 p)) as zi eqn:Q; clear Q.
  assert (TX := rM gf_new (g0 p) zi _ _ GL (up19 _ _ FX) (up19 _ _ FI)). assert (TY := rM gf_new (g1 p) zi _ _ GL (up19 _ _ FY) (up19 _ _ FI)).
  rewrite (zext_x _ _ _ _ _ E) in TX. rewrite (zext_y _ _ _ _ _ E) in TY.
  destruct (fromP_ok P) as [OX OY]. unfold encode_point. destruct (fromP P) as [x y]. cbn [fst snd] in *.
  rewrite (par_w _ x TX OX). destruct (pack_fe r _ y L (up40 _ _ TY)) as (s & ES & HS). rewrite ES. rewrite encode_u_ok in HS by exact OY.
  clear - L HS OY. assert (LS : length s = 32%nat) by (rewrite (holds_length _ _ HS), le_bytes_length; reflexivity).
  assert (A : forall v, seti (s ++ skipn 32 r) 31 v = seti s 31 v ++ skipn 32 r).
  { clear - LS. intros v. revert LS. generalize (skipn 32 r). intros t LS. do 32 (destruct s as [|? s]; [discriminate|]). destruct s; [reflexivity|discriminate]. }
  rewrite A. exists (seti s 31 (pxor (geti (s ++ skipn 32 r) 31) (pshl (plain (x mod 2)) 7))). split; [reflexivity|].
  assert (EG : geti (s ++ skipn 32 r) 31 = geti s 31) by (unfold geti; apply app_nth1; lia). rewrite EG.
  assert (EP : pshl (plain (x mod 2)) 7 = plain (if Z.odd x then 128 else 0)) by (rewrite mod2_if; destruct (Z.odd x); reflexivity).
  rewrite EP, mod2_if. apply set_top; [exact HS|apply okz_256; exact OY].
Qed.
