(** The twisted Edwards curve -x^2 + y^2 = 1 + d x^2 y^2 over a field in which -1 is a
    square and d is none: its addition law is defined everywhere and is that of a
    commutative group. *)
From Coq Require Import List ZArith Bool Setoid Field Lia.
Import ListNotations.

Section Edwards.
  Variable F : Type.
  Variables (zero one : F) (add mul sub : F -> F -> F) (opp : F -> F) (div : F -> F -> F) (inv : F -> F).
  Hypothesis FT : field_theory zero one add mul sub opp div inv eq.
  Add Field FF : FT.
  Notation "0" := zero.
  Notation "1" := one.
  Infix "+" := add.
  Infix "*" := mul.
  Infix "-" := sub.
  Infix "/" := div.
  Notation "- x" := (opp x).

  Variables (d i : F).
  Hypothesis i_sq : i * i = - (1).
  Hypothesis d_nonsq : forall z, z * z <> d.
  Hypothesis two_nz : 1 + 1 <> 0.
  Hypothesis dec : forall a b : F, a = b \/ a <> b.

  Lemma one_nz : 1 <> 0. Proof. exact (F_1_neq_0 FT). Qed.
  Lemma mul_nz : forall a b, a <> 0 -> b <> 0 -> a * b <> 0.
  Proof. intros a b A B E. apply B. transitivity (inv a * (a * b)); [field; exact A|rewrite E; ring]. Qed.
  Lemma mul_zero : forall a b, a * b = 0 -> a = 0 \/ b = 0.
  Proof.
    intros a b E. destruct (dec a 0) as [|A]; [left; assumption|]. destruct (dec b 0) as [|B]; [right; assumption|]. elim (mul_nz a b A B E).
  Qed.
  Lemma sub_zero : forall a b, a - b = 0 -> a = b.
  Proof. intros a b E. transitivity ((a - b) + b); [ring|rewrite E; ring]. Qed.
  Lemma sq_zero : forall a, a * a = 0 -> a = 0.
  Proof. intros a E. destruct (mul_zero _ _ E); assumption. Qed.
  Lemma d_nz : d <> 0.
  Proof. intros E. apply (d_nonsq 0). rewrite E. ring. Qed.
  (** a^2 = d b^2 only for b = 0 *)
  Lemma nonsq : forall a b, a * a = d * (b * b) -> b = 0.
  Proof.
    intros a b E. destruct (dec b 0) as [|B]; [assumption|]. elim (d_nonsq (a / b)).
    transitivity ((a * a) / (b * b)); [field; exact B|]. rewrite E. field. exact B.
  Qed.

  Definition pt : Type := (F * F)%type.
  Definition on (P : pt) : Prop := let (x, y) := P in y * y - x * x = 1 + d * (x * x) * (y * y).
  Definition O : pt := (0, 1).
  Definition padd (P Q : pt) : pt :=
    let (x1, y1) := P in let (x2, y2) := Q in
    let e := d * (x1 * x2) * (y1 * y2) in
    ((x1 * y2 + x2 * y1) / (1 + e), (y1 * y2 + x1 * x2) / (1 - e)).
  Definition pneg (P : pt) : pt := let (x, y) := P in (- x, y).

  Lemma complete2 : forall x1 y1 x2 y2, on (x1, y1) -> on (x2, y2) ->
    (d * (x1 * x2) * (y1 * y2)) * (d * (x1 * x2) * (y1 * y2)) <> 1.
  Proof.
    unfold on. intros x1 y1 x2 y2 H1 H2 E. set (e := d * (x1 * x2) * (y1 * y2)) in *.
    (* (i x1 + s e y1)^2 = d (x1 y1 (i x2 + s y2))^2 for s = 1, -1 *)
    assert (A : d * ((x1 * x1) * (y1 * y1)) * (y2 * y2 - x2 * x2) = y1 * y1 - x1 * x1).
    { rewrite H2, H1. transitivity (d * ((x1 * x1) * (y1 * y1)) + e * e); [unfold e; ring|rewrite E; ring]. }
    assert (S1 : forall s, s * s = 1 -> x1 * y1 * (i * x2 + s * y2) = 0).
    { intros s Hs. apply (nonsq (i * x1 + s * e * y1)).
      transitivity ((i * i) * (x1 * x1) + (s * s) * (e * e) * (y1 * y1) + (1 + 1) * s * i * x1 * y1 * e); [ring|].
      transitivity (d * ((x1 * x1) * (y1 * y1)) * ((i * i) * (x2 * x2) + (s * s) * (y2 * y2)) + (1 + 1) * s * i * x1 * y1 * e); [|unfold e; ring].
      rewrite i_sq, Hs, E. transitivity (y1 * y1 - x1 * x1 + (1 + 1) * s * i * x1 * y1 * e); [ring|]. rewrite <- A. ring. }
    pose proof (S1 1 ltac:(ring)) as P1. pose proof (S1 (- (1)) ltac:(ring)) as P2.
    assert (W : (1 + 1) * (i * (x1 * y1 * x2)) = 0).
    { transitivity (x1 * y1 * (i * x2 + 1 * y2) + x1 * y1 * (i * x2 + - (1) * y2)); [ring|]. rewrite P1, P2. ring. }
    destruct (mul_zero _ _ W) as [W1|W1]; [exact (two_nz W1)|].
    assert (W2 : x1 * y1 * x2 = 0). { transitivity (- (i * (i * (x1 * y1 * x2)))); [transitivity (- (i * i) * (x1 * y1 * x2)); [rewrite i_sq; ring|ring]|rewrite W1; ring]. }
    apply one_nz. rewrite <- E. transitivity (d * (x1 * y1 * x2) * y2 * e); [unfold e at 1; ring|]. rewrite W2. ring.
  Qed.
  Lemma complete : forall x1 y1 x2 y2, on (x1, y1) -> on (x2, y2) ->
    1 + d * (x1 * x2) * (y1 * y2) <> 0 /\ 1 - d * (x1 * x2) * (y1 * y2) <> 0.
  Proof.
    intros x1 y1 x2 y2 H1 H2. pose proof (complete2 x1 y1 x2 y2 H1 H2) as C. split; intros E; apply C.
    - set (e := d * (x1 * x2) * (y1 * y2)) in *. transitivity ((1 + e) * (e - 1) + 1); [ring|rewrite E; ring].
    - set (e := d * (x1 * x2) * (y1 * y2)) in *. transitivity (1 - (1 - e) * (e + 1)); [ring|rewrite E; ring].
  Qed.

  Lemma on_O : on O. Proof. unfold on, O. ring. Qed.
  Lemma on_neg : forall P, on P -> on (pneg P).
  Proof. intros [x y] H. unfold on, pneg in *. transitivity (y * y - x * x); [ring|rewrite H; ring]. Qed.
  Lemma padd_comm : forall P Q, padd P Q = padd Q P.
  Proof.
    intros [x1 y1] [x2 y2]. unfold padd. replace (d * (x2 * x1) * (y2 * y1)) with (d * (x1 * x2) * (y1 * y2)) by ring.
    replace (x2 * y1 + x1 * y2) with (x1 * y2 + x2 * y1) by ring. replace (y2 * y1 + x2 * x1) with (y1 * y2 + x1 * x2) by ring. reflexivity.
  Qed.
  Lemma padd_O : forall P, padd P O = P.
  Proof. intros [x y]. unfold padd, O. f_equal; field; repeat split; try exact one_nz; intros E; apply one_nz; rewrite <- E; ring. Qed.
  Definition c := inv d.
  Lemma on_c : forall x y, on (x, y) -> (x * x) * (y * y) = c * (y * y - x * x - 1).
  Proof. intros x y H. unfold on in H. unfold c. rewrite H. field. exact d_nz. Qed.
  Lemma cd : c * d = 1.
  Proof. unfold c. field. exact d_nz. Qed.
  Lemma padd_neg : forall P, on P -> padd P (pneg P) = O.
  Proof.
    intros [x y] H. destruct (complete x y (- x) y H (on_neg _ H)) as [C1 C2]. unfold padd, pneg, O. unfold on in H.
    f_equal; [field; exact C1|]. 
    transitivity ((1 - d * (x * - x) * (y * y)) / (1 - d * (x * - x) * (y * y))); [|field; exact C2]. f_equal.
    transitivity (y * y - x * x); [ring|rewrite H; ring].
  Qed.
  Lemma on_add : forall P Q, on P -> on Q -> on (padd P Q).
  Proof.
    intros [x1 y1] [x2 y2] H1 H2. destruct (complete x1 y1 x2 y2 H1 H2) as [C1 C2]. pose proof (on_c _ _ H1) as R1. pose proof (on_c _ _ H2) as R2.
    unfold on, padd. apply sub_zero.
    field_simplify_eq; [|split; assumption].
    ring [R1 R2 cd].
  Qed.
  Lemma div_eq : forall a b e f, b <> 0 -> f <> 0 -> a * f = e * b -> a / b = e / f.
  Proof. intros a b e f B FF H. transitivity ((a * f) / (b * f)); [field; split; assumption|]. rewrite H. field. split; assumption. Qed.
  Lemma padd_assoc : forall P Q R, on P -> on Q -> on R -> padd (padd P Q) R = padd P (padd Q R).
  Proof.
    intros [x1 y1] [x2 y2] [x3 y3] H1 H2 H3.
    pose proof (on_add _ _ H1 H2) as H12. pose proof (on_add _ _ H2 H3) as H23. unfold padd in H12, H23.
    destruct (complete x1 y1 x2 y2 H1 H2) as [C1 C2]. destruct (complete x2 y2 x3 y3 H2 H3) as [C3 C4].
    destruct (complete _ _ _ _ H12 H3) as [C5 C6]. destruct (complete _ _ _ _ H1 H23) as [C7 C8].
    pose proof (on_c _ _ H1) as R1. pose proof (on_c _ _ H2) as R2. pose proof (on_c _ _ H3) as R3. pose proof cd as CD.
    unfold padd. f_equal; (apply div_eq; [assumption..|]); clear H1 H2 H3 H12 H23 C5 C6 C7 C8.
    - field_simplify_eq; [|repeat split; assumption]. ring [R1 R2 R3 CD].
    - field_simplify_eq; [|repeat split; assumption]. ring [R1 R2 R3 CD].
  Qed.

  (** ** Multiples *)
  Definition pmul (n : N) (P : pt) : pt := N.iter n (padd P) O.
  Lemma pmul_succ : forall n P, pmul (N.succ n) P = padd P (pmul n P).
  Proof. intros n P. unfold pmul. apply N.iter_succ. Qed.
  Lemma pmul_0 : forall P, pmul 0 P = O.
  Proof. reflexivity. Qed.
  Lemma pmul_1 : forall P, pmul 1 P = P.
  Proof. intros P. change 1%N with (N.succ 0). rewrite pmul_succ. apply padd_O. Qed.
  Lemma on_pmul : forall n P, on P -> on (pmul n P).
  Proof. intros n P H. induction n as [|n IH] using N.peano_ind; [apply on_O|]. rewrite pmul_succ. apply on_add; assumption. Qed.
  Lemma O_padd : forall P, padd O P = P.
  Proof. intros P. rewrite padd_comm. apply padd_O. Qed.
  Lemma pmul_add : forall m n P, on P -> pmul (m + n) P = padd (pmul m P) (pmul n P).
  Proof.
    intros m n P H. induction m as [|m IH] using N.peano_ind; [rewrite pmul_0, O_padd; reflexivity|].
    rewrite N.add_succ_l, !pmul_succ, IH. symmetry. apply padd_assoc; [exact H|apply on_pmul; exact H..].
  Qed.
  Lemma pmul_mul : forall m n P, on P -> pmul (m * n) P = pmul m (pmul n P).
  Proof.
    intros m n P H. induction m as [|m IH] using N.peano_ind; [reflexivity|].
    rewrite N.mul_succ_l, N.add_comm, pmul_add, pmul_succ, IH by exact H. reflexivity.
  Qed.
  Lemma pmul_O : forall n, pmul n O = O.
  Proof. intros n. induction n as [|n IH] using N.peano_ind; [reflexivity|]. rewrite pmul_succ, IH. apply padd_O. Qed.
  Lemma padd_cancel : forall P Q, on P -> on Q -> padd (padd P Q) (pneg P) = Q.
  Proof.
    intros P Q HP HQ. rewrite (padd_comm P Q), padd_assoc, padd_neg, padd_O; [reflexivity|assumption|assumption|assumption|apply on_neg; assumption].
  Qed.
  Lemma pneg_padd : forall P Q, pneg (padd P Q) = padd (pneg P) (pneg Q).
  Proof.
    intros [x1 y1] [x2 y2]. unfold pneg, padd. replace (- x1 * - x2) with (x1 * x2) by ring. f_equal.
    rewrite !(Fdiv_def FT). ring.
  Qed.

  (** ** The Montgomery coordinate u = (1 + y) / (1 - y) *)
  Hypothesis inv_0 : inv 0 = 0.
  Variable a24 : F.
  Hypothesis a24_d : d * (a24 + 1) = - a24.
  Lemma a24_nz : a24 + 1 <> 0.
  Proof. intros E. apply one_nz. transitivity ((a24 + 1) + - a24); [ring|]. rewrite <- a24_d, E. ring. Qed.
  Lemma d1_nz : 1 + d <> 0.
  Proof. intros E. apply (d_nonsq i). rewrite i_sq. transitivity (d - (1 + d)); [ring|rewrite E; ring]. Qed.
  Lemma dyy_nz : forall y, 1 + d * (y * y) <> 0.
  Proof.
    intros y E. assert (Y : y = 0). { apply (nonsq i). rewrite i_sq. transitivity (d * (y * y) - (1 + d * (y * y))); [ring|rewrite E; ring]. }
    apply one_nz. rewrite <- E, Y. ring.
  Qed.

  Definition urep (X Z : F) (P : pt) : Prop := exists l, l <> 0 /\ X = l * (1 + snd P) /\ Z = l * (1 - snd P).
  Definition ucoord (P : pt) : F := (1 + snd P) * inv (1 - snd P).
  Lemma urep_u : forall X Z P, urep X Z P -> X * inv Z = ucoord P.
  Proof.
    intros X Z [x y] (l & L & -> & ->). unfold ucoord. cbn [snd]. destruct (dec (1 - y) 0) as [E|E].
    - rewrite E. replace (l * 0) with 0 by ring. rewrite inv_0. ring.
    - field. split; assumption.
  Qed.
  Lemma urep_cross : forall X Z P, X * (1 - snd P) = Z * (1 + snd P) -> ~ (X = 0 /\ Z = 0) -> urep X Z P.
  Proof.
    intros X Z [x y] H N. cbn [snd] in H. exists ((X + Z) / (1 + 1)).
    assert (EX : X = (X + Z) / (1 + 1) * (1 + y)).
    { apply sub_zero. transitivity ((X * (1 - y) - Z * (1 + y)) / (1 + 1)); [field; exact two_nz|]. rewrite H. field. exact two_nz. }
    assert (EZ : Z = (X + Z) / (1 + 1) * (1 - y)).
    { apply sub_zero. transitivity ((Z * (1 + y) - X * (1 - y)) / (1 + 1)); [field; exact two_nz|]. rewrite H. field. exact two_nz. }
    cbn [snd]. split; [|split; assumption]. intros E. apply N. split; [rewrite EX|rewrite EZ]; rewrite E; ring.
  Qed.
  Lemma urep_O : urep 1 0 O.
  Proof. exists (inv (1 + 1)). cbn. split; [|split; field; exact two_nz]. intros E. apply one_nz. transitivity ((1 + 1) * inv (1 + 1)); [field; exact two_nz|rewrite E; ring]. Qed.
  Lemma urep_point : forall u P, u * (1 - snd P) = 1 + snd P -> urep u 1 P.
  Proof. intros u P H. apply urep_cross; [rewrite H; ring|]. intros [_ E]. exact (one_nz E). Qed.

  Lemma udbl : forall X Z P, on P -> urep X Z P ->
    let AA := (X + Z) * (X + Z) in let BB := (X - Z) * (X - Z) in let E := AA - BB in
    urep (AA * BB) (E * (AA + a24 * E)) (padd P P).
  Proof.
    intros X Z [x y] H (l & L & -> & ->) AA BB E. destruct (complete x y x y H H) as [_ C]. cbn [snd] in *.
    pose proof (on_c _ _ H) as R.
    assert (DA : d * a24 = - a24 - d). { transitivity (d * (a24 + 1) - d); [ring|rewrite a24_d; ring]. }
    assert (CA : c * a24 = - a24 - 1). { transitivity (c * (- (- a24 - d)) - c * d); [ring|]. rewrite <- DA. transitivity (- (c * d) * a24 - c * d); [ring|]. rewrite cd. ring. }
    pose proof cd as CD.
    unfold padd. cbn [snd].
    exists ((1 + 1) * (1 + 1) * (1 + 1) * (l * l) * (l * l) * (1 - d * (x * x) * (y * y)) * (1 + d * (y * y)) * (a24 + 1)).
    split; [|split].
    - repeat apply mul_nz; first [exact two_nz|exact L|exact C|apply dyy_nz|exact a24_nz].
    - unfold AA, BB, padd. cbn [snd]. field_simplify_eq; [|exact C]. ring [R CD DA CA].
    - unfold E, AA, BB, padd. cbn [snd]. field_simplify_eq; [|exact C]. ring [R CD DA CA].
  Qed.

  Lemma uadd_id : forall x2 y2 x3 y3, on (x2, y2) -> on (x3, y3) ->
    let S := snd (padd (x2, y2) (x3, y3)) in let D := snd (padd (x3, y3) (pneg (x2, y2))) in
    (y2 + y3) * (y2 + y3) * ((1 - S) * (1 - D)) = (y3 - y2) * (y3 - y2) * ((1 + S) * (1 + D)).
  Proof.
    intros x2 y2 x3 y3 H2 H3 S D. destruct (complete _ _ _ _ H2 H3) as [C1 C2]. destruct (complete _ _ _ _ H3 (on_neg _ H2)) as [C3 C4].
    pose proof (on_c _ _ H2) as R1. pose proof (on_c _ _ H3) as R2. pose proof cd as CD.
    unfold S, D, padd, pneg. cbn [snd]. field_simplify_eq; [|split; assumption]. ring [R1 R2 CD].
  Qed.
  Lemma uadd : forall X2 Z2 X3 Z3 x1 P2 P3 Q, on P2 -> on P3 -> on Q -> P3 = padd P2 Q ->
    x1 <> 0 -> x1 * (1 - snd Q) = 1 + snd Q -> urep X2 Z2 P2 -> urep X3 Z3 P3 ->
    let DA := (X3 - Z3) * (X2 + Z2) in let CB := (X3 + Z3) * (X2 - Z2) in
    urep ((DA + CB) * (DA + CB)) (x1 * ((DA - CB) * (DA - CB))) (padd P2 P3).
  Proof.
    intros X2 Z2 X3 Z3 x1 [x2 y2] [x3 y3] [x y] H2 H3 HQ EQ N1 HU (l & L & -> & ->) (m & M & -> & ->) DA CB. cbn [snd] in *.
    pose proof (uadd_id x2 y2 x3 y3 H2 H3) as ID. cbv zeta in ID.
    assert (EQ2 : padd (x3, y3) (pneg (x2, y2)) = (x, y)) by (rewrite EQ; apply padd_cancel; assumption).
    rewrite EQ2 in ID. cbn [snd] in ID.
    pose proof H3 as H3'.
    set (k := (1 + 1) * (1 + 1) * l * m).
    assert (K : k <> 0) by (unfold k; repeat apply mul_nz; first [exact two_nz|exact L|exact M]).
    assert (EDA : DA = k * y3) by (unfold DA, k; ring).
    assert (ECB : CB = k * y2) by (unfold CB, k; ring).
    assert (Y1 : 1 - y <> 0). { intros E. apply two_nz. assert (Y : y = 1) by (symmetry; apply sub_zero; exact E). rewrite Y in HU. rewrite <- HU. ring. }
    assert (Y2 : 1 + y <> 0). { rewrite <- HU. apply mul_nz; assumption. }
    apply urep_cross.
    - rewrite EDA, ECB. destruct (padd (x2, y2) (x3, y3)) as [sx sy]. cbn [snd] in *.
      assert (X1 : x1 = (1 + y) / (1 - y)) by (rewrite <- HU; field; exact Y1). rewrite X1.
      transitivity (k * k * ((y2 + y3) * (y2 + y3) * ((1 - sy) * (1 - y))) / (1 - y)); [field; exact Y1|]. rewrite ID. field. exact Y1.
    - intros [E1 E2]. rewrite EDA, ECB in E1, E2.
      assert (S1 : y2 + y3 = 0). { destruct (mul_zero k (y2 + y3)) as [Q|Q]; [|elim (K Q)|exact Q]. apply sq_zero. rewrite <- E1. ring. }
      assert (S2 : y3 - y2 = 0). { destruct (mul_zero k (y3 - y2)) as [Q|Q]; [|elim (K Q)|exact Q]. apply sq_zero.
        destruct (mul_zero _ _ E2) as [Q|Q]; [elim (N1 Q)|]. rewrite <- Q. ring. }
      assert (T3 : y3 = 0). { destruct (mul_zero (1 + 1) y3) as [Q|Q]; [|elim (two_nz Q)|exact Q]. transitivity ((y2 + y3) + (y3 - y2)); [ring|rewrite S1, S2; ring]. }
      assert (T2 : y2 = 0). { transitivity ((y2 + y3) - y3); [ring|rewrite S1, T3; ring]. }
      unfold pneg, padd in EQ2. injection EQ2 as _ EY. rewrite T2, T3 in EY.
      subst y2 y3.
      assert (X2 : x2 * x2 = - (1)). { unfold on in H2. transitivity (- (0 * 0 - x2 * x2)); [ring|rewrite H2; ring]. }
      assert (X3 : x3 * x3 = - (1)). { unfold on in H3'. transitivity (- (0 * 0 - x3 * x3)); [ring|rewrite H3'; ring]. }
      assert (Y : y = - (x3 * x2)). { rewrite <- EY. field. intros Q. apply one_nz. rewrite <- Q. ring. }
      destruct (mul_zero (1 - y) (1 + y)) as [Q|Q]; [|exact (Y1 Q)|exact (Y2 Q)].
      transitivity (1 - (x3 * x3) * (x2 * x2)); [rewrite Y; ring|]. rewrite X2, X3. ring.
  Qed.
  Lemma udbl_n : forall X Z Q n, on Q -> urep X Z (pmul n Q) ->
    let AA := (X + Z) * (X + Z) in let BB := (X - Z) * (X - Z) in let E := AA - BB in
    urep (AA * BB) (E * (AA + a24 * E)) (pmul (2 * n) Q).
  Proof.
    intros X Z Q n H U. replace (2 * n)%N with (n + n)%N by lia. rewrite pmul_add by exact H. apply udbl; [apply on_pmul; exact H|exact U].
  Qed.
  Lemma uadd_n : forall X2 Z2 X3 Z3 x1 Q n, on Q -> x1 <> 0 -> x1 * (1 - snd Q) = 1 + snd Q ->
    urep X2 Z2 (pmul n Q) -> urep X3 Z3 (pmul (n + 1) Q) ->
    let DA := (X3 - Z3) * (X2 + Z2) in let CB := (X3 + Z3) * (X2 - Z2) in
    urep ((DA + CB) * (DA + CB)) (x1 * ((DA - CB) * (DA - CB))) (pmul (2 * n + 1) Q).
  Proof.
    intros X2 Z2 X3 Z3 x1 Q n H N HU U2 U3. replace (2 * n + 1)%N with (n + (n + 1))%N by lia. rewrite (pmul_add n (n + 1)) by exact H.
    apply (uadd X2 Z2 X3 Z3 x1 (pmul n Q) (pmul (n + 1) Q) Q); try assumption; try (apply on_pmul; exact H).
    rewrite pmul_add, pmul_1 by exact H. reflexivity.
  Qed.
  Lemma uadd_n_swap : forall X2 Z2 X3 Z3 x1 Q n, on Q -> x1 <> 0 -> x1 * (1 - snd Q) = 1 + snd Q ->
    urep X2 Z2 (pmul (n + 1) Q) -> urep X3 Z3 (pmul n Q) ->
    let DA := (X3 - Z3) * (X2 + Z2) in let CB := (X3 + Z3) * (X2 - Z2) in
    urep ((DA + CB) * (DA + CB)) (x1 * ((DA - CB) * (DA - CB))) (pmul (2 * n + 1) Q).
  Proof.
    intros X2 Z2 X3 Z3 x1 Q n H N HU U2 U3 DA CB. pose proof (uadd_n X3 Z3 X2 Z2 x1 Q n H N HU U3 U2) as W. cbv zeta in W.
    replace ((DA + CB) * (DA + CB)) with
      (((X2 - Z2) * (X3 + Z3) + (X2 + Z2) * (X3 - Z3)) * ((X2 - Z2) * (X3 + Z3) + (X2 + Z2) * (X3 - Z3))) by (unfold DA, CB; ring).
    replace ((DA - CB) * (DA - CB)) with
      (((X2 - Z2) * (X3 + Z3) - (X2 + Z2) * (X3 - Z3)) * ((X2 - Z2) * (X3 + Z3) - (X2 + Z2) * (X3 - Z3))) by (unfold DA, CB; ring).
    exact W.
  Qed.
  Lemma pole_x : forall x y, on (x, y) -> y * y = 1 -> x = 0.
  Proof.
    intros x y H E. unfold on in H. rewrite E in H. apply sq_zero. destruct (mul_zero (1 + d) (x * x)) as [Q|Q]; [|elim (d1_nz Q)|exact Q].
    transitivity ((1 + d * (x * x) * 1) - (1 - x * x)); [ring|]. rewrite <- H. ring.
  Qed.
  Lemma ucoord_0 : forall P, on P -> ucoord P = 0 <-> snd P * snd P = 1.
  Proof.
    intros [x y] H. unfold ucoord. cbn [snd]. split.
    - intros E. destruct (mul_zero _ _ E) as [Q|Q].
      + transitivity (1 - (1 + y) * (1 - y)); [ring|rewrite Q; ring].
      + destruct (dec (1 - y) 0) as [W|W]; [transitivity (1 - (1 + y) * (1 - y)); [ring|rewrite W; ring]|].
        elim one_nz. transitivity ((1 - y) * inv (1 - y)); [field; exact W|rewrite Q; ring].
    - intros E. assert (W : (1 + y) * (1 - y) = 0) by (transitivity (1 - y * y); [ring|rewrite E; ring]).
      destruct (mul_zero _ _ W) as [Q|Q]; rewrite Q; [ring|]. rewrite inv_0. ring.
  Qed.
  Lemma ucoord_eq : forall u P, u * (1 - snd P) = 1 + snd P -> u = ucoord P.
  Proof.
    intros u [x y] H. unfold ucoord. cbn [snd] in *. rewrite <- H. field. intros E. apply two_nz.
    assert (Y : 1 = y) by (apply sub_zero; exact E). transitivity (1 + y); [rewrite <- Y; reflexivity|]. rewrite <- H, E. ring.
  Qed.
  Lemma ucoord_nz : forall P, ucoord P <> 0 -> ucoord P * (1 - snd P) = 1 + snd P.
  Proof. intros [x y] N. unfold ucoord in *. cbn [snd] in *. field. intros E. apply N. rewrite E, inv_0. ring. Qed.
  Lemma pole_mul : forall n P, on P -> snd P * snd P = 1 -> snd (pmul n P) * snd (pmul n P) = 1.
  Proof.
    intros n [x y] H E. pose proof (pole_x x y H E) as X. cbn [snd] in E. subst x.
    enough (fst (pmul n (0, y)) = 0 /\ snd (pmul n (0, y)) * snd (pmul n (0, y)) = 1) by tauto.
    induction n as [|n IH] using N.peano_ind; [cbn; split; ring|]. rewrite pmul_succ. destruct (pmul n (0, y)) as [a b]. cbn [fst snd] in IH. destruct IH as [-> B].
    unfold padd. cbn [fst snd]. split.
    - field. intros Q. apply one_nz. rewrite <- Q. ring.
    - transitivity ((y * y) * (b * b)); [field; intros Q; apply one_nz; rewrite <- Q; ring|]. rewrite E, B. ring.
  Qed.

  (** ** Extended coordinates *)
  Definition ext (X Y Z T : F) (P : pt) : Prop :=
    Z <> 0 /\ X = fst P * Z /\ Y = snd P * Z /\ T = fst P * snd P * Z.
  Lemma ext_add : forall X1 Y1 Z1 T1 X2 Y2 Z2 T2 P Q, on P -> on Q -> ext X1 Y1 Z1 T1 P -> ext X2 Y2 Z2 T2 Q ->
    let A := (Y1 - X1) * (Y2 - X2) in let B := (X1 + Y1) * (X2 + Y2) in
    let C := T1 * T2 * (d + d) in let D := Z1 * Z2 + Z1 * Z2 in
    let E := B - A in let G := D - C in let H := D + C in let K := B + A in
    ext (E * G) (K * H) (H * G) (E * K) (padd P Q).
  Proof.
    intros X1 Y1 Z1 T1 X2 Y2 Z2 T2 [x1 y1] [x2 y2] HP HQ (N1 & -> & -> & ->) (N2 & -> & -> & ->) A B C D E G H K. cbn [fst snd] in *.
    destruct (complete _ _ _ _ HP HQ) as [C1 C2].
    assert (EG : G = (1 + 1) * (Z1 * Z2) * (1 - d * (x1 * x2) * (y1 * y2))) by (unfold G, D, C; ring).
    assert (EH : H = (1 + 1) * (Z1 * Z2) * (1 + d * (x1 * x2) * (y1 * y2))) by (unfold H, D, C; ring).
    unfold ext, padd. cbn [fst snd]. rewrite EG, EH. split; [|split; [|split]].
    - repeat apply mul_nz; try assumption; exact two_nz.
    - unfold E, A, B. field. exact C1.
    - unfold K, A, B. field. exact C2.
    - unfold E, K, A, B. field. split; assumption.
  Qed.
  Lemma ext_x : forall X Y Z T P, ext X Y Z T P -> X * inv Z = fst P.
  Proof. intros X Y Z T [x y] (N & -> & -> & ->). cbn [fst snd]. field. exact N. Qed.
  Lemma ext_y : forall X Y Z T P, ext X Y Z T P -> Y * inv Z = snd P.
  Proof. intros X Y Z T [x y] (N & -> & -> & ->). cbn [fst snd]. field. exact N. Qed.
  Lemma ext_point : forall x y, ext x y 1 (x * y) (x, y).
  Proof. intros x y. unfold ext. cbn [fst snd]. split; [exact one_nz|]. repeat split; ring. Qed.
  Lemma ext_zero : ext 0 1 1 0 O.
  Proof. unfold ext, O. cbn [fst snd]. split; [exact one_nz|]. repeat split; ring. Qed.
  Lemma ext_O : forall Y Z T P, ext 0 Y Z T P -> Y = Z -> P = O.
  Proof.
    intros Y Z T [x y] (N & E1 & E2 & _) E. cbn [fst snd] in *. rewrite E in E2.
    assert (x = 0). { transitivity ((x * Z) / Z); [field; exact N|rewrite <- E1; field; exact N]. }
    assert (y = 1). { transitivity ((y * Z) / Z); [field; exact N|rewrite <- E2; field; exact N]. }
    subst. reflexivity.
  Qed.

  (** ** Square roots: x from y *)
  Lemma on_root : forall x y, on (x, y) <-> (x * x) * (1 + d * (y * y)) = y * y - 1.
  Proof.
    intros x y. unfold on. split; intros H.
    - transitivity (x * x + (1 + d * (x * x) * (y * y)) - 1); [ring|]. rewrite <- H. ring.
    - transitivity (1 + (y * y - 1) - x * x); [ring|]. rewrite <- H. ring.
  Qed.
  Lemma sq_eq : forall a b, a * a = b * b -> a = b \/ a = - b.
  Proof.
    intros a b H. destruct (mul_zero (a - b) (a + b)) as [E|E].
    - transitivity (a * a - b * b); [ring|rewrite H; ring].
    - left. apply sub_zero. exact E.
    - right. apply sub_zero. transitivity (a + b); [ring|exact E].
  Qed.
  Lemma on_same_y : forall x x' y, on (x, y) -> on (x', y) -> x = x' \/ x = - x'.
  Proof.
    intros x x' y H H'. apply on_root in H. apply on_root in H'. apply sq_eq.
    transitivity ((x * x) * (1 + d * (y * y)) / (1 + d * (y * y))); [field; apply dyy_nz|]. rewrite H, <- H'. field. apply dyy_nz.
  Qed.
  (** w is meant to be (n e^7)^((p - 5) / 8) *)
  Lemma sqrt_pick : forall x n e w, e <> 0 -> (x * x) * e = n ->
    (n <> 0 -> forall z, z = n * (e * e * e * e * e * e * e) -> (w * w * z) * (w * w * z) = 1) ->
    let r := w * n * e * e * e in
    r * r * e = n \/ r * r * e <> n /\ (r * i) * (r * i) * e = n.
  Proof.
    intros x n e w E HX W r. destruct (dec n 0) as [N|N]; [left; unfold r; rewrite N; ring|].
    specialize (W N _ eq_refl). set (u := w * w * (n * (e * e * e * e * e * e * e))) in *.
    assert (R : r * r * e = u * n) by (unfold r, u; ring).
    destruct (sq_eq u 1) as [U|U]; [rewrite W; ring| |]; rewrite U in R.
    - left. rewrite R. ring.
    - right. split.
      + intros Q. apply N. assert (Q2 : (1 + 1) * n = 0) by (transitivity (n - - (1) * n); [ring|rewrite <- R, Q; ring]).
        destruct (mul_zero _ _ Q2) as [Q3|Q3]; [elim (two_nz Q3)|exact Q3].
      + transitivity ((i * i) * (r * r * e)); [ring|]. rewrite i_sq, R. ring.
  Qed.
  Lemma on_den : forall x y, on (x, y) <-> (x * x) * (1 + (y * y) * d) = y * y - 1.
  Proof. intros x y. rewrite on_root. split; intros H; rewrite <- H; ring. Qed.
  Lemma root_search : forall y w, let e := 1 + (y * y) * d in let n := y * y - 1 in
    let z := (e * e) * (e * e) * (e * e) * n * e in
    (forall s, z = s * s -> s <> 0 -> (w * w * z) * (w * w * z) = 1) -> forall x, on (x, y) ->
    let r := w * n * e * e * e in r * r * e = n \/ r * r * e <> n /\ (r * i) * (r * i) * e = n.
  Proof.
    intros y w e n z W x H r. assert (E : e <> 0). { unfold e. replace (y * y * d) with (d * (y * y)) by ring. apply dyy_nz. }
    apply on_den in H. fold e n in H. apply (sqrt_pick x n e w E H). intros N z' Ez.
    assert (EZ : z' = z) by (rewrite Ez; unfold z; ring). rewrite EZ. apply (W (x * (e * e * e * e))).
    - unfold z. rewrite <- H. ring.
    - apply mul_nz; [|repeat apply mul_nz; exact E]. intros X. apply N. rewrite <- H, X. ring.
  Qed.
  Lemma pneg_x : forall x y, pneg (x, y) = (- x, y).
  Proof. reflexivity. Qed.
End Edwards.
