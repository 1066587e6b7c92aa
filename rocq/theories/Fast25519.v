(** A faster way to compute with the numbers of CurveSpec, for concrete cases. *)
From Coq Require Import List ZArith Bool Strings.Byte Lia.
From Verif Require Import ShaSpec SalsaSpec CurveSpec.
Import ListNotations.
Open Scope Z_scope.

Definition fold255 (x : Z) : Z := Z.land x (2 ^ 255 - 1) + 19 * Z.shiftr x 255.
Definition redx (x : Z) : Z :=
  let y := fold255 (fold255 x) in
  if (0 <=? y) && (y <? p25519) then y else x mod p25519.
Lemma fold255_mod : forall x, fold255 x mod p25519 = x mod p25519.
Proof.
  intros x. unfold fold255. change (2 ^ 255 - 1) with (Z.ones 255). rewrite Z.land_ones, Z.shiftr_div_pow2 by lia.
  rewrite (Z.div_mod x (2 ^ 255)) at 3 by (vm_compute; discriminate).
  assert (E : 2 ^ 255 = 1 * p25519 + 19) by (vm_compute; reflexivity).
  assert (P : p25519 <> 0) by (vm_compute; discriminate).
  generalize (x mod 2 ^ 255), (x / 2 ^ 255). intros r q. revert E P. generalize (2 ^ 255), p25519. intros T p E P. subst T.
  replace ((1 * p + 19) * q + r) with (r + 19 * q + q * p) by ring. rewrite Z.mod_add by exact P. reflexivity.
Qed.
Lemma redx_spec : forall x, redx x = x mod p25519.
Proof.
  intros x. unfold redx. destruct ((0 <=? fold255 (fold255 x)) && (fold255 (fold255 x) <? p25519)) eqn:E; [|reflexivity].
  rewrite <- (fold255_mod x), <- fold255_mod. apply andb_prop in E. destruct E as [E1 E2]. apply Z.leb_le in E1. apply Z.ltb_lt in E2.
  revert E1 E2. generalize (fold255 (fold255 x)), p25519. intros y p H1 H2. symmetry. apply Z.mod_small. split; assumption.
Qed.
Definition mulx (a b : Z) : Z := redx (a * b).
Definition addx (a b : Z) : Z := redx (a + b).
Definition subx (a b : Z) : Z := redx (a - b).
Fixpoint powx (a : Z) (e : positive) : Z :=
  match e with
  | xH => redx a
  | xO e => let r := powx a e in mulx r r
  | xI e => let r := powx a e in mulx (mulx r r) a
  end.
Lemma mulx_spec : forall a b, mulx a b = fmul a b.
Proof. intros a b. exact (redx_spec (a * b)). Qed.
Lemma addx_spec : forall a b, addx a b = fadd a b.
Proof. intros a b. exact (redx_spec (a + b)). Qed.
Lemma subx_spec : forall a b, subx a b = fsub a b.
Proof. intros a b. exact (redx_spec (a - b)). Qed.
Lemma mul_mod2 : forall p a b, ((a mod p) * (b mod p)) mod p = (a * b) mod p.
Proof. intros p a b. rewrite <- Zmult_mod. reflexivity. Qed.
Lemma mul_mod1 : forall p a b, ((a mod p) * b) mod p = (a * b) mod p.
Proof. intros p a b. rewrite Zmult_mod, Zmod_mod, <- Zmult_mod. reflexivity. Qed.
Lemma powx_spec : forall e a, powx a e = (a ^ Zpos e) mod p25519.
Proof.
  induction e as [e IH|e IH|]; intros a; cbn [powx]; [| |rewrite redx_spec, Z.pow_1_r; reflexivity].
  - rewrite IH, !mulx_spec. unfold fmul. rewrite Pos2Z.inj_xI, Z.pow_add_r, Z.pow_1_r by lia.
    replace (2 * Zpos e) with (Zpos e + Zpos e) by lia. rewrite Z.pow_add_r by lia. generalize (a ^ Zpos e), p25519. intros x p.
    rewrite mul_mod2, mul_mod1. reflexivity.
  - rewrite IH, mulx_spec. unfold fmul. rewrite Pos2Z.inj_xO. replace (2 * Zpos e) with (Zpos e + Zpos e) by lia. rewrite Z.pow_add_r by lia.
    generalize (a ^ Zpos e), p25519. intros x p. apply mul_mod2.
Qed.
Definition invx (a : Z) : Z := powx a (Z.to_pos (p25519 - 2)).
Lemma pm2_pos : Zpos (Z.to_pos (p25519 - 2)) = p25519 - 2.
Proof. apply Z2Pos.id. vm_compute. reflexivity. Qed.
Lemma invx_spec : forall a, invx a = finv a.
Proof. intros a. unfold invx. rewrite powx_spec, pm2_pos. reflexivity. Qed.

(** [x25519_step] over the faster operations *)
Definition stepx (k x_1 : Z) (s : mladder) (t : Z) : mladder :=
  let '(x_2, z_2, x_3, z_3, swap) := s in
  let k_t := Z.testbit k t in
  let swap := xorb swap k_t in
  let (x_2, x_3) := cswap swap x_2 x_3 in
  let (z_2, z_3) := cswap swap z_2 z_3 in
  let A := addx x_2 z_2 in
  let AA := mulx A A in
  let B := subx x_2 z_2 in
  let BB := mulx B B in
  let E := subx AA BB in
  let C := addx x_3 z_3 in
  let D := subx x_3 z_3 in
  let DA := mulx D A in
  let CB := mulx C B in
  let F := addx DA CB in
  let G := subx DA CB in
  (mulx AA BB, mulx E (addx AA (mulx a24 E)), mulx F F, mulx x_1 (mulx G G), k_t).
Lemma stepx_spec : forall k x1 s t, stepx k x1 s t = x25519_step k x1 s t.
Proof.
  intros k x1 [[[[x2 z2] x3] z3] sw] t. unfold stepx, x25519_step. unfold cswap. destruct (xorb sw (Z.testbit k t)); rewrite !mulx_spec, !addx_spec, !subx_spec; reflexivity.
Qed.
Definition x25519_fast (k u : Z) : Z :=
  let '(x_2, z_2, x_3, z_3, swap) :=
    fold_left (stepx k u) (map (fun i => 254 - Z.of_nat i) (seq 0 255)) (1, 0, u, 1, false) in
  if swap then mulx x_3 (invx z_3) else mulx x_2 (invx z_2).
Lemma fold_left_eq : forall A B (f g : A -> B -> A) l a, (forall s x, f s x = g s x) -> fold_left f l a = fold_left g l a.
Proof. intros A B f g l. induction l as [|x l IH]; intros a H; [reflexivity|]. cbn [fold_left]. rewrite H. apply IH, H. Qed.
Lemma x25519_fast_spec : forall k u, x25519_fast k u = x25519_num k u.
Proof.
  intros k u. unfold x25519_fast, x25519_num. rewrite (fold_left_eq _ _ _ _ _ _ (stepx_spec k u)).
  destruct (fold_left (x25519_step k u) _ _) as [[[[x2 z2] x3] z3] sw]. unfold cswap. destruct sw; rewrite mulx_spec, invx_spec; reflexivity.
Qed.
