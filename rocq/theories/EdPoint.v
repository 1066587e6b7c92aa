(** The points of EdSpec as points of Curve25519; extended coordinates as numbers; the
    order of the base point; square roots. *)
From Coq Require Import List ZArith Znumtheory Bool Strings.Byte Lia Field.
From Verif Require Import ShaSpec SalsaSpec CurveSpec EdSpec Fast25519 Prime25519 FieldP Curve25519.
From Verif Require Edwards.
Import ListNotations.
Open Scope Z_scope.

Definition cpt : Type := Curve25519.pt.
Definition con : cpt -> Prop := Curve25519.on.
Definition cadd : cpt -> cpt -> cpt := Curve25519.padd.
Definition cmul : N -> cpt -> cpt := Curve25519.pmul.
Definition cneg : cpt -> cpt := Edwards.pneg F fo.
Definition cO : cpt := OO.
Definition cG : cpt := G.
Lemma con_neg : forall P, con P -> con (cneg P).
Proof. exact (Edwards.on_neg F f0 f1 fa fm fs fo fd fi FT dF). Qed.
Lemma con_add : forall P Q, con P -> con Q -> con (cadd P Q). Proof. exact on_add. Qed.
Lemma con_mul : forall n P, con P -> con (cmul n P). Proof. exact on_pmul. Qed.
Lemma con_O : con cO. Proof. exact on_O. Qed.
Lemma con_G : con cG. Proof. exact on_G. Qed.
Lemma cadd_O : forall P, cadd P cO = P.
Proof. exact (Edwards.padd_O F f0 f1 fa fm fs fo fd fi FT dF). Qed.
Lemma cO_add : forall P, cadd cO P = P.
Proof. exact (Edwards.O_padd F f0 f1 fa fm fs fo fd fi FT dF). Qed.
Lemma cadd_neg : forall P, con P -> cadd P (cneg P) = cO.
Proof. edw Edwards.padd_neg. Qed.
Lemma cneg_add : forall P Q, cneg (cadd P Q) = cadd (cneg P) (cneg Q).
Proof. exact (Edwards.pneg_padd F f0 f1 fa fm fs fo fd fi FT dF). Qed.
Lemma cneg_O : cneg cO = cO.
Proof.
  unfold cneg, cO, OO, Edwards.pneg, Edwards.O. apply f_equal2; [|reflexivity]. rewrite <- phi_0, phi_fo. reflexivity.
Qed.
Lemma cmul_O : forall n, cmul n cO = cO.
Proof. exact (Edwards.pmul_O F f0 f1 fa fm fs fo fd fi FT dF). Qed.
Lemma cmul_succ : forall n P, cmul (N.succ n) P = cadd P (cmul n P).
Proof. exact (Edwards.pmul_succ F f0 f1 fa fm fs fd dF). Qed.
Lemma cmul_neg : forall n P, cmul n (cneg P) = cneg (cmul n P).
Proof.
  intros n P. induction n as [|n IH] using N.peano_ind; [symmetry; exact cneg_O|]. rewrite !cmul_succ, IH, cneg_add. reflexivity.
Qed.

(** ** Points as pairs of numbers *)
Definition toP (P : Z * Z) : cpt := (phi (fst P), phi (snd P)).
Definition okz (z : Z) : Prop := 0 <= z < p25519.
Definition okp (P : Z * Z) : Prop := okz (fst P) /\ okz (snd P).
Lemma okz_mod : forall z, okz (z mod p25519).
Proof. intros z. apply Z.mod_pos_bound. reflexivity. Qed.
Lemma phi_ok : forall a b, okz a -> okz b -> phi a = phi b -> a = b.
Proof.
  intros a b A B E. apply phi_eq in E. unfold okz in A, B. revert A B E. generalize p25519. intros p A B E.
  rewrite !Z.mod_small in E by assumption. exact E.
Qed.
Lemma toP_inj : forall P Q, okp P -> okp Q -> toP P = toP Q -> P = Q.
Proof.
  intros [x y] [x' y'] [A B] [A' B'] E. unfold toP in E. cbn [fst snd] in *. apply pair_equal_spec in E. destruct E as [E1 E2].
  apply phi_ok in E1; [|assumption|assumption]. apply phi_ok in E2; [|assumption|assumption]. subst. reflexivity.
Qed.
Definition fromP (P : cpt) : Z * Z := (fv p25519 (fst P), fv p25519 (snd P)).
Lemma fv_ok : forall a : F, okz (fv p25519 a).
Proof. intros a. pose proof (fv_mod p25519 a) as E. rewrite <- E. apply okz_mod. Qed.
Lemma fromP_ok : forall P, okp (fromP P).
Proof. intros P. split; apply fv_ok. Qed.
Lemma to_from : forall P, toP (fromP P) = P.
Proof. intros [x y]. unfold toP, fromP. cbn [fst snd]. apply f_equal2; apply to_fv. Qed.
Lemma from_to : forall P, okp P -> fromP (toP P) = P.
Proof. intros P H. apply toP_inj; [apply fromP_ok|exact H|apply to_from]. Qed.
Lemma add_ok : forall P Q, okp (ed_add P Q).
Proof. intros [x1 y1] [x2 y2]. split; apply okz_mod. Qed.
Lemma O_ok : okp ed_O.
Proof. split; split; cbn; vm_compute; try reflexivity; discriminate. Qed.
Lemma mul_ok : forall n P, okp (ed_mul n P).
Proof.
  intros n P. unfold ed_mul. destruct (Z.to_N n) as [|m] using N.peano_ind; [exact O_ok|]. rewrite N.iter_succ. apply add_ok.
Qed.
Lemma fm_assoc : forall a b c, fm a (fm b c) = fm (fm a b) c.
Proof. exact (Ring_theory.Rmul_assoc (ringF p25519)). Qed.
Lemma toP_add : forall P Q, toP (ed_add P Q) = cadd (toP P) (toP Q).
Proof.
  intros [x1 y1] [x2 y2]. unfold ed_add, toP, cadd, padd, Edwards.padd. cbn [fst snd].
  change rfc_d with ed_d. fold dF. rewrite !phi_mul, !phi_inv, !phi_add, !phi_sub, !phi_mul. fold dF. rewrite fm_assoc, phi_1. reflexivity.
Qed.
Lemma toP_O : toP ed_O = cO. Proof. reflexivity. Qed.
Lemma toP_mul : forall n P, toP (ed_mul n P) = cmul (Z.to_N n) (toP P).
Proof.
  intros n P. unfold ed_mul. generalize (Z.to_N n). intros m. induction m as [|m IH] using N.peano_ind; [reflexivity|].
  rewrite N.iter_succ, toP_add, IH, cmul_succ. reflexivity.
Qed.
Lemma toP_B : toP rfc_B = cG. Proof. reflexivity. Qed.
Lemma ed_on_ok : forall P, ed_on P -> okp P.
Proof. intros [x y] (X & Y & _). split; assumption. Qed.
Lemma con_ed : forall P, okp P -> (con (toP P) <-> ed_on P).
Proof.
  intros [x y] [X Y]. cbn [fst snd] in X, Y. unfold con, on, Edwards.on, toP, ed_on. cbn [fst snd].
  assert (E : (fs (fm (phi y) (phi y)) (fm (phi x) (phi x)) = fa f1 (fm (fm dF (fm (phi x) (phi x))) (fm (phi y) (phi y)))) <->
    phi (fsub (fmul y y) (fmul x x)) = phi (fadd 1 (fmul rfc_d (fmul (fmul x x) (fmul y y))))).
  { rewrite phi_sub, phi_add, !phi_mul. change rfc_d with ed_d. fold dF. rewrite <- fm_assoc, phi_1. reflexivity. }
  rewrite E. split; intros H.
  - split; [exact X|]. split; [exact Y|]. apply phi_ok; [apply okz_mod|apply okz_mod|exact H].
  - destruct H as (_ & _ & H). rewrite H. reflexivity.
Qed.
Lemma ed_on_from : forall P, con P -> ed_on (fromP P).
Proof. intros P H. apply con_ed; [apply fromP_ok|]. rewrite to_from. exact H. Qed.
Lemma ed_on_B : ed_on rfc_B.
Proof.
  apply con_ed; [|rewrite toP_B; exact con_G]. split; split; vm_compute; try reflexivity; discriminate.
Qed.

(** ** Extended coordinates *)
Definition zext (X Y Z T : Z) (P : cpt) : Prop := ext (phi X) (phi Y) (phi Z) (phi T) P.
Lemma ext_add : forall X1 Y1 Z1 T1 X2 Y2 Z2 T2 P Q, con P -> con Q -> ext X1 Y1 Z1 T1 P -> ext X2 Y2 Z2 T2 Q ->
  let A := fm (fs Y1 X1) (fs Y2 X2) in let B := fm (fa X1 Y1) (fa X2 Y2) in
  let C := fm (fm T1 T2) (fa dF dF) in let D := fa (fm Z1 Z2) (fm Z1 Z2) in
  let E := fs B A in let G := fs D C in let H := fa D C in let K := fa B A in
  ext (fm E G) (fm K H) (fm H G) (fm E K) (cadd P Q).
Proof. edw Edwards.ext_add. Qed.
Definition d2 : Z := 2 * ed_d.
Lemma phi_d2 : forall c, phi (fmul c d2) = fm (phi c) (fa dF dF).
Proof. intros c. rewrite phi_mul. unfold dF. rewrite phi_fa. unfold d2. rewrite <- Z.add_diag. reflexivity. Qed.
Lemma zext_add : forall X1 Y1 Z1 T1 X2 Y2 Z2 T2 P Q, con P -> con Q -> zext X1 Y1 Z1 T1 P -> zext X2 Y2 Z2 T2 Q ->
  let A := fmul (fsub Y1 X1) (fsub Y2 X2) in let B := fmul (fadd X1 Y1) (fadd X2 Y2) in
  let C := fmul (fmul T1 T2) d2 in let D := fadd (fmul Z1 Z2) (fmul Z1 Z2) in
  let E := fsub B A in let G := fsub D C in let H := fadd D C in let K := fadd B A in
  zext (fmul E G) (fmul K H) (fmul H G) (fmul E K) (cadd P Q).
Proof.
  intros X1 Y1 Z1 T1 X2 Y2 Z2 T2 P Q HP HQ E1 E2. cbv zeta. unfold zext.
  repeat (rewrite phi_d2 || rewrite phi_mul || rewrite phi_add || rewrite phi_sub).
  exact (ext_add _ _ _ _ _ _ _ _ P Q HP HQ E1 E2).
Qed.
Lemma zext_mod : forall X Y Z T X' Y' Z' T' P, X mod p25519 = X' mod p25519 -> Y mod p25519 = Y' mod p25519 ->
  Z mod p25519 = Z' mod p25519 -> T mod p25519 = T' mod p25519 -> zext X Y Z T P -> zext X' Y' Z' T' P.
Proof.
  intros X Y Z T X' Y' Z' T' P EX EY EZ ET H. unfold zext in *. apply phi_eq in EX, EY, EZ, ET. rewrite <- EX, <- EY, <- EZ, <- ET. exact H.
Qed.
Lemma zext_x : forall X Y Z T P, zext X Y Z T P -> fmul X (finv Z) = fst (fromP P).
Proof.
  intros X Y Z T P H. apply phi_ok; [apply okz_mod|apply fromP_ok|]. rewrite phi_mul, phi_inv. unfold fromP. cbn [fst].
  unfold phi at 3. rewrite to_fv. exact (Edwards.ext_x F f0 f1 fa fm fs fo fd fi FT _ _ _ _ P H).
Qed.
Lemma zext_y : forall X Y Z T P, zext X Y Z T P -> fmul Y (finv Z) = snd (fromP P).
Proof.
  intros X Y Z T P H. apply phi_ok; [apply okz_mod|apply fromP_ok|]. rewrite phi_mul, phi_inv. unfold fromP. cbn [snd].
  unfold phi at 3. rewrite to_fv. exact (Edwards.ext_y F f0 f1 fa fm fs fo fd fi FT _ _ _ _ P H).
Qed.
Lemma zext_point : forall x y, zext x y 1 (fmul x y) (phi x, phi y).
Proof. intros x y. unfold zext. rewrite phi_mul, phi_1. exact (Edwards.ext_point F f0 f1 fa fm fs fo fd fi FT (phi x) (phi y)). Qed.
Lemma zext_zero : zext 0 1 1 0 cO.
Proof. unfold zext. rewrite phi_0, phi_1. exact (Edwards.ext_zero F f0 f1 fa fm fs fo fd fi FT). Qed.

(** ** The order of the base point *)
Definition p4 : Type := (Z * Z * Z * Z)%type.
Definition d2x : Z := d2 mod p25519.
Definition addp (p q : p4) : p4 :=
  let '(X1, Y1, Z1, T1) := p in let '(X2, Y2, Z2, T2) := q in
  let A := mulx (subx Y1 X1) (subx Y2 X2) in let B := mulx (addx X1 Y1) (addx X2 Y2) in
  let C := mulx (mulx T1 T2) d2x in let D := let z := mulx Z1 Z2 in addx z z in
  let E := subx B A in let G := subx D C in let H := addx D C in let K := addx B A in
  (mulx E G, mulx K H, mulx H G, mulx E K).
Fixpoint mulp (n : positive) (P : p4) : p4 :=
  match n with
  | xH => P
  | xO n => let r := mulp n P in addp r r
  | xI n => let r := mulp n P in addp (addp r r) P
  end.
Definition pext (p : p4) (P : cpt) : Prop := let '(X, Y, Z, T) := p in zext X Y Z T P.
Lemma fmul_d2x : forall c, fmul c d2x = fmul c d2.
Proof. intros c. unfold fmul, d2x. apply Zmult_mod_idemp_r. Qed.
Lemma addp_w : forall p q P Q, con P -> con Q -> pext p P -> pext q Q -> pext (addp p q) (cadd P Q).
Proof.
  intros [[[X1 Y1] Z1] T1] [[[X2 Y2] Z2] T2] P Q HP HQ E1 E2. unfold addp. cbv zeta. rewrite !mulx_spec, !subx_spec, !addx_spec, fmul_d2x.
  exact (zext_add _ _ _ _ _ _ _ _ P Q HP HQ E1 E2).
Qed.
Lemma mulp_w : forall n p P, con P -> pext p P -> pext (mulp n p) (cmul (Npos n) P).
Proof.
  induction n as [n IH|n IH|]; intros p P HP E; cbn [mulp].
  - specialize (IH p P HP E). change (Npos n~1) with (N.succ (Npos n~0)). rewrite cmul_succ.
    replace (Npos n~0) with (Npos n + Npos n)%N by lia. unfold cmul at 1. rewrite pmul_add by exact HP. change (Curve25519.padd) with cadd. change Curve25519.pmul with cmul.
    assert (CC : forall A B, cadd A B = cadd B A) by exact padd_comm. rewrite (CC P).
    assert (C1 : con (cmul (Npos n) P)) by (apply con_mul; exact HP).
    apply addp_w; [apply con_add; exact C1|exact HP|apply addp_w; assumption|exact E].
  - specialize (IH p P HP E). replace (Npos n~0) with (Npos n + Npos n)%N by lia. unfold cmul. rewrite pmul_add by exact HP.
    assert (C1 : con (cmul (Npos n) P)) by (apply con_mul; exact HP). apply addp_w; assumption.
  - unfold cmul. rewrite pmul_1. exact E.
Qed.
Definition Bp : p4 := (fst rfc_B, snd rfc_B, 1, mulx (fst rfc_B) (snd rfc_B)).
Lemma Bp_w : pext Bp cG.
Proof. unfold Bp, pext. rewrite mulx_spec. exact (zext_point gx gy). Qed.
Definition is_O (p : p4) : bool := let '(X, Y, Z, T) := p in (X =? 0) && (Y =? Z).
Lemma is_O_w : forall p P, pext p P -> is_O p = true -> P = cO.
Proof.
  intros [[[X Y] Z] T] P E H. unfold is_O in H. apply andb_prop in H. destruct H as [HX HY]. apply Z.eqb_eq in HX, HY. subst.
  unfold pext, zext in E. rewrite phi_0 in E. exact (Edwards.ext_O F f0 f1 fa fm fs fo fd fi FT _ _ _ P E eq_refl).
Qed.
Lemma order_check : is_O (mulp (Z.to_pos rfc_L) Bp) = true.
Proof. vm_compute. reflexivity. Qed.
Lemma L_pos : Npos (Z.to_pos rfc_L) = Z.to_N rfc_L.
Proof. vm_compute. reflexivity. Qed.
Theorem order_B : cmul (Z.to_N rfc_L) cG = cO.
Proof.
  rewrite <- L_pos. apply (is_O_w (mulp (Z.to_pos rfc_L) Bp)); [|exact order_check]. apply mulp_w; [exact con_G|exact Bp_w].
Qed.
Lemma cmul_plus : forall m n P, con P -> cmul (m + n) P = cadd (cmul m P) (cmul n P). Proof. exact pmul_add. Qed.
Lemma cmul_times : forall m n P, con P -> cmul (m * n) P = cmul m (cmul n P). Proof. exact pmul_mul. Qed.
Lemma cmul_period : forall q l r P, con P -> cmul l P = cO -> cmul (q * l + r) P = cmul r P.
Proof. intros q l r P H O. rewrite cmul_plus, cmul_times by exact H. rewrite O, cmul_O, cO_add. reflexivity. Qed.
Lemma cmul_mod : forall n, 0 <= n -> cmul (Z.to_N (n mod rfc_L)) cG = cmul (Z.to_N n) cG.
Proof.
  intros n N0. assert (LP : 0 < rfc_L) by reflexivity.
  assert (E : Z.to_N n = (Z.to_N (n / rfc_L) * Z.to_N rfc_L + Z.to_N (n mod rfc_L))%N).
  { rewrite <- Z2N.inj_mul, <- Z2N.inj_add; [f_equal; rewrite Z.mul_comm; apply Z.div_mod| | | |].
    - intros Q. rewrite Q in LP. discriminate.
    - apply Z.mul_nonneg_nonneg; [apply Z.div_pos; assumption|discriminate].
    - apply Z.mod_pos_bound. exact LP.
    - apply Z.div_pos; assumption.
    - discriminate. }
  rewrite E. symmetry. exact (cmul_period _ _ _ _ con_G order_B).
Qed.

(** ** Square roots *)
Lemma euler_square : forall p k z s, prime p -> p = 8 * k + 5 -> 0 <= k -> z mod p = (s * s) mod p -> ~ (p | s) ->
  ((z ^ k * z ^ k * z) * (z ^ k * z ^ k * z)) mod p = 1 mod p.
Proof.
  intros p k z s P E K Z2 D.
  assert (E1 : (z ^ k * z ^ k * z) * (z ^ k * z ^ k * z) = z ^ (4 * k + 2)).
  { replace (4 * k + 2) with (k + k + 1 + (k + k + 1)) by lia. rewrite !Z.pow_add_r, Z.pow_1_r by lia. reflexivity. }
  rewrite E1, <- pow_mod by (clear - K; lia). rewrite Z2, pow_mod by (clear - K; lia).
  assert (E2 : (s * s) ^ (4 * k + 2) = s ^ (p - 1)).
  { rewrite Z.pow_mul_l, <- Z.pow_add_r by lia. f_equal. lia. }
  rewrite E2. apply fermat; assumption.
Qed.
Definition k58 : Z := (p25519 - 5) / 8.
Lemma k58_eq : p25519 = 8 * k58 + 5.
Proof. vm_compute. reflexivity. Qed.
Lemma k58_pos : 0 <= k58.
Proof. vm_compute. discriminate. Qed.
Lemma phi_div : forall s, (p25519 | s) <-> phi s = f0.
Proof. intros s. symmetry. apply (toF_0 p25519 prime_p25519). Qed.
Lemma euler_F : forall z s, phi z = fm s s -> s <> f0 ->
  let w := phi (z ^ k58) in fm (fm (fm w w) (phi z)) (fm (fm w w) (phi z)) = f1.
Proof.
  intros z s HZ HS w. destruct (phi_onto s) as [s' ->]. rewrite phi_fm in HZ. apply phi_eq in HZ. unfold w. rewrite !phi_fm, <- phi_1. apply phi_eq.
  apply (euler_square p25519 k58 z s' prime_p25519 k58_eq k58_pos HZ). intros D. apply HS. apply phi_div. exact D.
Qed.
Lemma on_same_y : forall x x' y, con (x, y) -> con (x', y) -> x = x' \/ x = fo x'.
Proof. exact (Edwards.on_same_y F f0 f1 fa fm fs fo fd fi FT dF iF i_sq d_nonsq F_dec). Qed.
Lemma on_den : forall x y, con (x, y) <-> fm (fm x x) (fa f1 (fm (fm y y) dF)) = fs (fm y y) f1.
Proof. exact (Edwards.on_den F f0 f1 fa fm fs fo fd fi FT dF). Qed.
Lemma root_search : forall y w, let e := fa f1 (fm (fm y y) dF) in let n := fs (fm y y) f1 in
  let z := fm (fm (fm (fm (fm e e) (fm e e)) (fm e e)) n) e in
  (forall s, z = fm s s -> s <> f0 -> fm (fm (fm w w) z) (fm (fm w w) z) = f1) -> forall x, con (x, y) ->
  let r := fm (fm (fm (fm w n) e) e) e in fm (fm r r) e = n \/ fm (fm r r) e <> n /\ fm (fm (fm r iF) (fm r iF)) e = n.
Proof. exact (Edwards.root_search F f0 f1 fa fm fs fo fd fi FT dF iF i_sq d_nonsq two_nz F_dec). Qed.

(** ** The same with numbers *)
Definition zden (y : Z) : Z := fadd 1 (fmul (fmul y y) rfc_d).
Definition znum (y : Z) : Z := fsub (fmul y y) 1.
Definition zbase (y : Z) : Z :=
  let e := zden y in let e2 := fmul e e in let e4 := fmul e2 e2 in fmul (fmul (fmul e4 e2) (znum y)) e.
Definition zroot (y w : Z) : Z := let e := zden y in fmul (fmul (fmul (fmul w (znum y)) e) e) e.
Definition zchk (y r : Z) : Z := fmul (fmul r r) (zden y).
Lemma phi_zden : forall y, phi (zden y) = fa f1 (fm (fm (phi y) (phi y)) dF).
Proof. intros y. unfold zden. rewrite phi_add, !phi_mul, phi_1. reflexivity. Qed.
Lemma phi_znum : forall y, phi (znum y) = fs (fm (phi y) (phi y)) f1.
Proof. intros y. unfold znum. rewrite phi_sub, phi_mul, phi_1. reflexivity. Qed.
Lemma phi_zchk : forall y r, phi (zchk y r) = fm (fm (phi r) (phi r)) (fa f1 (fm (fm (phi y) (phi y)) dF)).
Proof. intros y r. unfold zchk. rewrite !phi_mul, phi_zden. reflexivity. Qed.
Lemma zchk_on : forall y r, zchk y r = znum y <-> con (phi r, phi y).
Proof.
  intros y r. rewrite on_den, <- phi_zchk, <- phi_znum. split; [intros ->; reflexivity|]. intros H. apply phi_ok; [apply okz_mod|apply okz_mod|exact H].
Qed.
Lemma phi_zbase : forall y, let e := fa f1 (fm (fm (phi y) (phi y)) dF) in
  phi (zbase y) = fm (fm (fm (fm (fm e e) (fm e e)) (fm e e)) (fs (fm (phi y) (phi y)) f1)) e.
Proof. intros y. cbv zeta. unfold zbase. cbv zeta. rewrite !phi_mul, phi_zden, phi_znum. reflexivity. Qed.
Lemma phi_zroot : forall y w, let e := fa f1 (fm (fm (phi y) (phi y)) dF) in
  phi (zroot y w) = fm (fm (fm (fm (phi w) (fs (fm (phi y) (phi y)) f1)) e) e) e.
Proof. intros y w. cbv zeta. unfold zroot. cbv zeta. rewrite !phi_mul, phi_zden, phi_znum. reflexivity. Qed.
Lemma zroot_w : forall y x, con (x, phi y) -> let r := zroot y (zbase y ^ k58) in
  zchk y r = znum y \/ zchk y r <> znum y /\ zchk y (fmul r ed_i) = znum y.
Proof.
  intros y x H r.
  assert (W : forall s, phi (zbase y) = fm s s -> s <> f0 -> let w := phi (zbase y ^ k58) in fm (fm (fm w w) (phi (zbase y))) (fm (fm w w) (phi (zbase y))) = f1).
  { intros s. apply euler_F. }
  pose proof (root_search (phi y) (phi (zbase y ^ k58))) as R. cbv zeta in R. pose proof (phi_zbase y) as B. cbv zeta in B. rewrite <- B in R. specialize (R W x H).
  pose proof (phi_zroot y (zbase y ^ k58)) as PR. cbv zeta in PR. rewrite <- PR in R. fold r in R.
  rewrite <- !phi_zchk, <- phi_znum in R.
  assert (E : fm (phi r) iF = phi (fmul r ed_i)) by (rewrite phi_mul; reflexivity). rewrite E, <- phi_zchk in R.
  assert (Q : forall a b, phi (zchk y a) = phi (znum b) -> zchk y a = znum b) by (intros a b; apply phi_ok; apply okz_mod).
  destruct R as [R|[R1 R2]]; [left; apply Q; exact R|right; split; [|apply Q; exact R2]]. intros C. apply R1. rewrite C. reflexivity.
Qed.
