(** The curve of CurveSpec: the group law of Edwards over the integers modulo p25519, and
    what the ladder of CurveSpec computes on it. *)
From Coq Require Import List ZArith Znumtheory Bool Lia Field.
From Verif Require Import PyBase ShaSpec SalsaSpec TwSalsa_proofs TwCurve_proofs CurveSpec Fast25519 Prime25519 FieldP.
From Verif Require Edwards.
Import ListNotations.
Open Scope Z_scope.

Definition F : Type := Fp p25519.
Definition f0 : F := zeroF p25519.
Definition f1 : F := oneF p25519.
Definition fa : F -> F -> F := addF p25519.
Definition fm : F -> F -> F := mulF p25519.
Definition fs : F -> F -> F := subF p25519.
Definition fo : F -> F := oppF p25519.
Definition fd : F -> F -> F := divF p25519.
Definition fi : F -> F := invF p25519.
Definition phi (z : Z) : F := toF p25519 z.
Lemma FT : field_theory f0 f1 fa fm fs fo fd fi eq.
Proof. exact (fieldF p25519 prime_p25519). Qed.
Lemma F_dec : forall a b : F, a = b \/ a <> b.
Proof. exact (decF p25519). Qed.
Lemma phi_add : forall a b, phi (fadd a b) = fa (phi a) (phi b).
Proof. intros a b. unfold fadd, phi, fa. rewrite toF_mod. apply toF_add. Qed.
Lemma phi_sub : forall a b, phi (fsub a b) = fs (phi a) (phi b).
Proof. intros a b. unfold fsub, phi, fs. rewrite toF_mod. apply toF_sub. Qed.
Lemma phi_mul : forall a b, phi (fmul a b) = fm (phi a) (phi b).
Proof. intros a b. unfold fmul, phi, fm. rewrite toF_mod. apply toF_mul. Qed.
Lemma phi_inv : forall a, phi (finv a) = fi (phi a).
Proof. intros a. unfold finv, phi, fi. rewrite toF_mod. apply toF_inv. exact prime_p25519. Qed.
Lemma phi_eq : forall a b, phi a = phi b <-> a mod p25519 = b mod p25519.
Proof. intros a b. apply toF_eq. Qed.
Lemma phi_onto : forall a : F, exists z, a = phi z.
Proof. intros a. apply toF_onto. Qed.
Lemma phi_0 : phi 0 = f0. Proof. reflexivity. Qed.
Lemma phi_1 : phi 1 = f1. Proof. reflexivity. Qed.

(** d and a square root of -1 *)
Definition ed_d : Z := 37095705934669439343138083508754565189542113879843219016388785533085940283555.
Definition ed_i : Z := 19681161376707505956807079304988542015446066515923890162744021073123829784752.
Definition dF : F := phi ed_d.
Definition iF : F := phi ed_i.
Definition aF : F := phi a24.
Lemma phi_fm : forall a b, fm (phi a) (phi b) = phi (a * b). Proof. intros a b. symmetry. apply toF_mul. Qed.
Lemma phi_fa : forall a b, fa (phi a) (phi b) = phi (a + b). Proof. intros a b. symmetry. apply toF_add. Qed.
Lemma phi_fs : forall a b, fs (phi a) (phi b) = phi (a - b). Proof. intros a b. symmetry. apply toF_sub. Qed.
Lemma phi_fo : forall a, fo (phi a) = phi (- a). Proof. intros a. symmetry. apply toF_opp. Qed.
Lemma i_sq : fm iF iF = fo f1.
Proof. unfold iF. rewrite <- phi_1, phi_fm, phi_fo. apply phi_eq. vm_compute. reflexivity. Qed.
Lemma two_nz : fa f1 f1 <> f0.
Proof. rewrite <- phi_1, phi_fa, <- phi_0. intros E. apply phi_eq in E. revert E. vm_compute. discriminate. Qed.
Lemma a24_d : fm dF (fa aF f1) = fo aF.
Proof. unfold dF, aF. rewrite <- phi_1, phi_fa, phi_fm, phi_fo. apply phi_eq. vm_compute. reflexivity. Qed.
Lemma inv_0 : fi f0 = f0.
Proof. apply (invF_0 p25519 prime_p25519). reflexivity. Qed.
Lemma half_pos : Zpos (Z.to_pos ((p25519 - 1) / 2)) = (p25519 - 1) / 2.
Proof. vm_compute. reflexivity. Qed.
Lemma d_nonsq : forall z, fm z z <> dF.
Proof.
  apply (nonsqF p25519 prime_p25519 ed_d).
  - rewrite <- half_pos, <- powx_spec. vm_compute. discriminate.
  - exists ((p25519 - 1) / 2). vm_compute. reflexivity.
  - intros D. apply Z.mod_divide in D; [|vm_compute; discriminate]. revert D. vm_compute. discriminate.
Qed.

Definition pt : Type := (F * F)%type.
Definition on : pt -> Prop := Edwards.on F f1 fa fm fs dF.
Definition padd : pt -> pt -> pt := Edwards.padd F f1 fa fm fs fd dF.
Definition pmul : N -> pt -> pt := Edwards.pmul F f0 f1 fa fm fs fd dF.
Definition OO : pt := Edwards.O F f0 f1.
Definition urep : F -> F -> pt -> Prop := Edwards.urep F f0 f1 fa fm fs.
Definition ucoord : pt -> F := Edwards.ucoord F f1 fa fm fs fi.
Definition ext : F -> F -> F -> F -> pt -> Prop := Edwards.ext F f0 fm.
Ltac edw L := apply (L F f0 f1 fa fm fs fo fd fi FT dF iF i_sq d_nonsq two_nz F_dec).
Lemma on_O : on OO. Proof. exact (Edwards.on_O F f0 f1 fa fm fs fo fd fi FT dF). Qed.
Lemma on_add : forall P Q, on P -> on Q -> on (padd P Q). Proof. edw Edwards.on_add. Qed.
Lemma padd_assoc : forall P Q R, on P -> on Q -> on R -> padd (padd P Q) R = padd P (padd Q R). Proof. edw Edwards.padd_assoc. Qed.
Lemma padd_comm : forall P Q, padd P Q = padd Q P. Proof. exact (Edwards.padd_comm F f0 f1 fa fm fs fo fd fi FT dF). Qed.
Lemma on_pmul : forall n P, on P -> on (pmul n P). Proof. edw Edwards.on_pmul. Qed.
Lemma pmul_mul : forall m n P, on P -> pmul (m * n) P = pmul m (pmul n P). Proof. edw Edwards.pmul_mul. Qed.
Lemma pmul_add : forall m n P, on P -> pmul (m + n) P = padd (pmul m P) (pmul n P). Proof. edw Edwards.pmul_add. Qed.
Lemma pmul_1 : forall P, pmul 1 P = P. Proof. exact (Edwards.pmul_1 F f0 f1 fa fm fs fo fd fi FT dF). Qed.
Lemma pmul_0 : forall P, pmul 0 P = OO. Proof. reflexivity. Qed.
Lemma pmul_comm : forall m n P, on P -> pmul m (pmul n P) = pmul n (pmul m P).
Proof. intros m n P H. rewrite <- !pmul_mul by exact H. f_equal. apply N.mul_comm. Qed.

Lemma udbl_n : forall X Z Q n, on Q -> urep X Z (pmul n Q) ->
  let AA := fm (fa X Z) (fa X Z) in let BB := fm (fs X Z) (fs X Z) in let E := fs AA BB in
  urep (fm AA BB) (fm E (fa AA (fm aF E))) (pmul (2 * n) Q).
Proof. exact (Edwards.udbl_n F f0 f1 fa fm fs fo fd fi FT dF iF i_sq d_nonsq two_nz F_dec aF a24_d). Qed.
Lemma uadd_n : forall X2 Z2 X3 Z3 x1 Q n, on Q -> x1 <> f0 -> fm x1 (fs f1 (snd Q)) = fa f1 (snd Q) ->
  urep X2 Z2 (pmul n Q) -> urep X3 Z3 (pmul (n + 1) Q) ->
  let DA := fm (fs X3 Z3) (fa X2 Z2) in let CB := fm (fa X3 Z3) (fs X2 Z2) in
  urep (fm (fa DA CB) (fa DA CB)) (fm x1 (fm (fs DA CB) (fs DA CB))) (pmul (2 * n + 1) Q).
Proof. exact (Edwards.uadd_n F f0 f1 fa fm fs fo fd fi FT dF iF i_sq d_nonsq two_nz F_dec). Qed.
Lemma uadd_n_swap : forall X2 Z2 X3 Z3 x1 Q n, on Q -> x1 <> f0 -> fm x1 (fs f1 (snd Q)) = fa f1 (snd Q) ->
  urep X2 Z2 (pmul (n + 1) Q) -> urep X3 Z3 (pmul n Q) ->
  let DA := fm (fs X3 Z3) (fa X2 Z2) in let CB := fm (fa X3 Z3) (fs X2 Z2) in
  urep (fm (fa DA CB) (fa DA CB)) (fm x1 (fm (fs DA CB) (fs DA CB))) (pmul (2 * n + 1) Q).
Proof. exact (Edwards.uadd_n_swap F f0 f1 fa fm fs fo fd fi FT dF iF i_sq d_nonsq two_nz F_dec). Qed.
Lemma urep_u : forall X Z P, urep X Z P -> fm X (fi Z) = ucoord P.
Proof. exact (Edwards.urep_u F f0 f1 fa fm fs fo fd fi FT F_dec inv_0). Qed.
Lemma ucoord_0 : forall P, on P -> ucoord P = f0 <-> fm (snd P) (snd P) = f1.
Proof. exact (Edwards.ucoord_0 F f0 f1 fa fm fs fo fd fi FT dF F_dec inv_0). Qed.
Lemma pole_mul : forall n P, on P -> fm (snd P) (snd P) = f1 -> fm (snd (pmul n P)) (snd (pmul n P)) = f1.
Proof. exact (Edwards.pole_mul F f0 f1 fa fm fs fo fd fi FT dF iF i_sq d_nonsq F_dec). Qed.
Lemma urep_O : urep f1 f0 OO.
Proof. exact (Edwards.urep_O F f0 f1 fa fm fs fo fd fi FT two_nz). Qed.
Lemma urep_point : forall u P, fm u (fs f1 (snd P)) = fa f1 (snd P) -> urep u f1 P.
Proof. exact (Edwards.urep_point F f0 f1 fa fm fs fo fd fi FT two_nz). Qed.
Lemma ucoord_nz : forall P, ucoord P <> f0 -> fm (ucoord P) (fs f1 (snd P)) = fa f1 (snd P).
Proof. exact (Edwards.ucoord_nz F f0 f1 fa fm fs fo fd fi FT inv_0). Qed.

(** ** The ladder *)
Section Ladder.
  Variables (k u : Z) (Q : pt).
  Hypothesis K : 0 <= k.
  Hypothesis HQ : on Q.
  Hypothesis NU : phi u <> f0.
  Hypothesis HU : fm (phi u) (fs f1 (snd Q)) = fa f1 (snd Q).
  Definition lad (n : N) (s : mladder) : Prop :=
    let '(x2, z2, x3, z3, sw) := s in
    let (x2, x3) := cswap sw x2 x3 in let (z2, z3) := cswap sw z2 z3 in
    urep (phi x2) (phi z2) (pmul n Q) /\ urep (phi x3) (phi z3) (pmul (n + 1) Q).
  Lemma lad_init : lad 0 (1, 0, u, 1, false).
  Proof. cbn. split; [exact urep_O|]. change (urep (phi u) f1 (pmul 1 Q)). rewrite pmul_1. apply urep_point. exact HU. Qed.
  Lemma bit_split : forall t, 0 <= t -> Z.to_N (Z.shiftr k t) = (2 * Z.to_N (Z.shiftr k (t + 1)) + N.b2n (Z.testbit k t))%N.
  Proof.
    intros t T. assert (E : Z.shiftr k t = 2 * Z.shiftr k (t + 1) + Z.b2z (Z.testbit k t)).
    { rewrite <- Z.shiftr_shiftr by lia. rewrite <- (Z.div2_spec (Z.shiftr k t)). rewrite <- (Z.add_0_l t) at 3. rewrite <- Z.shiftr_spec, Z.bit0_odd by lia.
      apply Z.div2_odd. }
    assert (0 <= Z.shiftr k (t + 1)) by (apply Z.shiftr_nonneg; exact K).
    rewrite E. destruct (Z.testbit k t); cbn [Z.b2z N.b2n]; lia.
  Qed.
  Lemma lad_step : forall s t, 0 <= t -> lad (Z.to_N (Z.shiftr k (t + 1))) s -> lad (Z.to_N (Z.shiftr k t)) (x25519_step k u s t).
  Proof.
    intros [[[[x2 z2] x3] z3] sw] t T L. rewrite bit_split by exact T. generalize dependent (Z.to_N (Z.shiftr k (t + 1))). intros n L.
    unfold x25519_step. destruct (Z.testbit k t); cbn [N.b2n].
    - replace (2 * n + 1 + 1)%N with (2 * (n + 1))%N by lia.
      assert (W : forall a b a' b', urep (phi a) (phi b) (pmul n Q) -> urep (phi a') (phi b') (pmul (n + 1) Q) ->
        lad (2 * n + 1) (let '(x_2, z_2, x_3, z_3) := (a', b', a, b) in
          let A := fadd x_2 z_2 in let AA := fmul A A in let B := fsub x_2 z_2 in let BB := fmul B B in let E := fsub AA BB in
          let C := fadd x_3 z_3 in let D := fsub x_3 z_3 in let DA := fmul D A in let CB := fmul C B in
          (fmul AA BB, fmul E (fadd AA (fmul a24 E)), fmul (fadd DA CB) (fadd DA CB), fmul u (fmul (fsub DA CB) (fsub DA CB)), true))).
      { intros a b a' b' U1 U2. cbn [lad cswap]. repeat (rewrite phi_mul || rewrite phi_add || rewrite phi_sub). split.
        - apply (uadd_n_swap (phi a') (phi b') (phi a) (phi b) (phi u) Q n HQ NU HU U2 U1).
        - replace (2 * n + 1 + 1)%N with (2 * (n + 1))%N by lia. apply (udbl_n (phi a') (phi b') Q (n + 1) HQ U2). }
      destruct sw; cbn [lad cswap xorb] in L |- *; apply W; apply L.
    - rewrite N.add_0_r.
      assert (W : forall a b a' b', urep (phi a) (phi b) (pmul n Q) -> urep (phi a') (phi b') (pmul (n + 1) Q) ->
        lad (2 * n) (let '(x_2, z_2, x_3, z_3) := (a, b, a', b') in
          let A := fadd x_2 z_2 in let AA := fmul A A in let B := fsub x_2 z_2 in let BB := fmul B B in let E := fsub AA BB in
          let C := fadd x_3 z_3 in let D := fsub x_3 z_3 in let DA := fmul D A in let CB := fmul C B in
          (fmul AA BB, fmul E (fadd AA (fmul a24 E)), fmul (fadd DA CB) (fadd DA CB), fmul u (fmul (fsub DA CB) (fsub DA CB)), false))).
      { intros a b a' b' U1 U2. cbn [lad cswap]. repeat (rewrite phi_mul || rewrite phi_add || rewrite phi_sub). split.
        - apply (udbl_n (phi a) (phi b) Q n HQ U1).
        - apply (uadd_n (phi a) (phi b) (phi a') (phi b') (phi u) Q n HQ NU HU U1 U2). }
      destruct sw; cbn [lad cswap xorb] in L |- *; apply W; apply L.
  Qed.
End Ladder.
Lemma ladder_u : forall k u Q, 0 <= k < 2 ^ 255 -> on Q -> phi u <> f0 -> fm (phi u) (fs f1 (snd Q)) = fa f1 (snd Q) ->
  phi (x25519_num k u) = ucoord (pmul (Z.to_N k) Q).
Proof.
  intros k u Q K HQ NU HU.
  assert (L : forall m, (m <= 255)%nat ->
    lad Q (Z.to_N (Z.shiftr k (255 - Z.of_nat m))) (fold_left (x25519_step k u) (map (fun i => 254 - Z.of_nat i) (seq 0 m)) (1, 0, u, 1, false))).
  { induction m as [|m IH]; intros M.
    - cbn [seq map fold_left]. rewrite Z.shiftr_div_pow2 by lia. change (255 - Z.of_nat 0) with 255. rewrite Z.div_small by exact K. apply lad_init; assumption.
    - rewrite seq_S, map_app, fold_left_app. cbn [map fold_left]. rewrite Nat.add_0_l. replace (255 - Z.of_nat (S m)) with (254 - Z.of_nat m) by lia.
      apply lad_step; [apply K|assumption|assumption|assumption|lia|]. replace (254 - Z.of_nat m + 1) with (255 - Z.of_nat m) by lia. apply IH. lia. }
  specialize (L 255%nat ltac:(lia)). rewrite Z.sub_diag, Z.shiftr_0_r in L.
  unfold x25519_num. destruct (fold_left (x25519_step k u) _ _) as [[[[x2 z2] x3] z3] sw]. unfold lad in L.
  destruct (cswap sw x2 x3) as [a a'], (cswap sw z2 z3) as [b b']. destruct L as [L _].
  rewrite phi_mul, phi_inv. apply urep_u. exact L.
Qed.
Lemma scalar_range : forall b, 0 <= decode_scalar b < 2 ^ 255.
Proof.
  intros b. unfold decode_scalar. split.
  - apply Z.lor_nonneg. split; [apply Z.land_nonneg; right; vm_compute; discriminate|vm_compute; discriminate].
  - destruct (Z.eq_dec (Z.lor (Z.land (le_word b) (2 ^ 255 - 8)) (2 ^ 254)) 0) as [E|E]; [rewrite E; reflexivity|].
    assert (N0 : 0 <= Z.lor (Z.land (le_word b) (2 ^ 255 - 8)) (2 ^ 254)).
    { apply Z.lor_nonneg. split; [apply Z.land_nonneg; right; vm_compute; discriminate|vm_compute; discriminate]. }
    apply Z.log2_lt_pow2; [clear - E N0; lia|]. rewrite Z.log2_lor; [|apply Z.land_nonneg; right; vm_compute; discriminate|vm_compute; discriminate].
    apply Z.max_lub_lt; [|reflexivity].
    assert (NN : 0 <= le_word b) by (apply le_word_range).
    pose proof (Z.log2_land (le_word b) (2 ^ 255 - 8) NN ltac:(vm_compute; discriminate)) as W.
    eapply Z.le_lt_trans; [exact W|]. eapply Z.le_lt_trans; [apply Z.le_min_r|]. reflexivity.
Qed.
(** Nothing but u is used of the point, so the points with u = 0 are no exception. *)
Lemma num_u : forall k Q u, 0 <= k < 2 ^ 255 -> on Q -> u mod p25519 = u -> phi u = ucoord Q ->
  phi (x25519_num k u) = ucoord (pmul (Z.to_N k) Q).
Proof.
  intros k Q u K HQ UM HU. destruct (F_dec (phi u) f0) as [E|E].
  - rewrite E in HU. assert (U0 : u = 0). { rewrite <- phi_0 in E. apply phi_eq in E. rewrite UM, Zmod_0_l in E. exact E. }
    rewrite U0, x25519_zero, phi_0. symmetry. apply ucoord_0; [apply on_pmul; exact HQ|]. apply pole_mul; [exact HQ|]. apply ucoord_0; [exact HQ|]. symmetry. exact HU.
  - apply ladder_u; [exact K|exact HQ|exact E|]. rewrite HU in E |- *. apply ucoord_nz. exact E.
Qed.
Lemma num_mod : forall k u, x25519_num k u mod p25519 = x25519_num k u.
Proof.
  intros k u. unfold x25519_num. destruct (fold_left (x25519_step k u) _ _) as [[[[x2 z2] x3] z3] sw].
  destruct (cswap sw x2 x3) as [a a'], (cswap sw z2 z3) as [b b']. unfold fmul. apply Zmod_mod.
Qed.
(** The base point *)
Definition gx : Z := 15112221349535400772501151409588531511454012693041857206046113283949847762202.
Definition gy : Z := 46316835694926478169428394003475163141307993866256225615783033603165251855960.
Definition G : pt := (phi gx, phi gy).
Lemma on_G : on G.
Proof.
  unfold on, Edwards.on, G, dF. rewrite <- phi_1, !phi_fm, phi_fs, phi_fa. apply phi_eq. vm_compute. reflexivity.
Qed.
Lemma ucoord_eq : forall u P, fm u (fs f1 (snd P)) = fa f1 (snd P) -> u = ucoord P.
Proof. exact (Edwards.ucoord_eq F f0 f1 fa fm fs fo fd fi FT two_nz). Qed.
Lemma u_G : phi 9 = ucoord G.
Proof.
  apply ucoord_eq. unfold G. cbn [snd]. rewrite <- phi_1, phi_fa, phi_fs, phi_fm. apply phi_eq. vm_compute. reflexivity.
Qed.
Theorem dh : forall a b, 0 <= a < 2 ^ 255 -> 0 <= b < 2 ^ 255 -> x25519_num a (x25519_num b 9) = x25519_num b (x25519_num a 9).
Proof.
  assert (W : forall a b, 0 <= a < 2 ^ 255 -> 0 <= b < 2 ^ 255 -> phi (x25519_num a (x25519_num b 9)) = ucoord (pmul (Z.to_N a) (pmul (Z.to_N b) G))).
  { intros a b A B. apply num_u; [exact A|apply on_pmul, on_G|apply num_mod|]. apply num_u; [exact B|exact on_G|reflexivity|exact u_G]. }
  intros a b A B. rewrite <- (num_mod a), <- (num_mod b (x25519_num a 9)). apply phi_eq. rewrite (W a b A B), (W b a B A), pmul_comm by exact on_G. reflexivity.
Qed.
