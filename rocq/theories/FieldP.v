(** The integers modulo a prime p, as a field. *)
From Coq Require Import ZArith Znumtheory Bool Eqdep_dec Field Lia.
From Verif Require Import Fast25519 Prime25519.
Open Scope Z_scope.

Section FieldP.
  Variable p : Z.
  Hypothesis P : prime p.
  Record Fp : Type := mkFp { fv : Z; fok : (fv mod p =? fv) = true }.
  Lemma Fp_eq : forall a b : Fp, fv a = fv b -> a = b.
  Proof. intros [a Ha] [b Hb] E. cbn in E. subst b. f_equal. apply UIP_dec. apply bool_dec. Qed.
  Lemma to_ok : forall z, ((z mod p) mod p =? z mod p) = true.
  Proof. intros z. rewrite Zmod_mod. apply Z.eqb_refl. Qed.
  Definition toF (z : Z) : Fp := mkFp (z mod p) (to_ok z).
  Lemma fv_to : forall z, fv (toF z) = z mod p. Proof. reflexivity. Qed.
  Lemma fv_mod : forall a, fv a mod p = fv a.
  Proof. intros [a Ha]. apply Z.eqb_eq. exact Ha. Qed.
  Lemma to_fv : forall a, toF (fv a) = a.
  Proof. intros a. apply Fp_eq. rewrite fv_to. apply fv_mod. Qed.
  Lemma toF_eq : forall a b, toF a = toF b <-> a mod p = b mod p.
  Proof. intros a b. split; [intros E; exact (f_equal fv E)|]. intros E. apply Fp_eq. exact E. Qed.
  Definition zeroF := toF 0.
  Definition oneF := toF 1.
  Definition addF a b := toF (fv a + fv b).
  Definition mulF a b := toF (fv a * fv b).
  Definition subF a b := toF (fv a - fv b).
  Definition oppF a := toF (- fv a).
  Definition invF a := toF (fv a ^ (p - 2)).
  Definition divF a b := mulF a (invF b).
  Lemma toF_mod : forall a, toF (a mod p) = toF a.
  Proof. intros a. apply toF_eq. apply Zmod_mod. Qed.
  Lemma toF_add : forall a b, toF (a + b) = addF (toF a) (toF b).
  Proof. intros a b. apply toF_eq. rewrite !fv_to. apply Zplus_mod. Qed.
  Lemma toF_mul : forall a b, toF (a * b) = mulF (toF a) (toF b).
  Proof. intros a b. apply toF_eq. rewrite !fv_to. apply Zmult_mod. Qed.
  Lemma toF_sub : forall a b, toF (a - b) = subF (toF a) (toF b).
  Proof. intros a b. apply toF_eq. rewrite !fv_to. apply Zminus_mod. Qed.
  Lemma toF_opp : forall a, toF (- a) = oppF (toF a).
  Proof. intros a. apply toF_eq. rewrite fv_to. rewrite <- !Z.sub_0_l. rewrite Zminus_mod, (Zminus_mod 0 (a mod p)), Zmod_mod. reflexivity. Qed.
  Lemma toF_inv : forall a, toF (a ^ (p - 2)) = invF (toF a).
  Proof. intros a. apply toF_eq. rewrite fv_to. symmetry. apply pow_mod. pose proof (prime_ge_2 p P). lia. Qed.
  Lemma toF_0 : forall a, toF a = zeroF <-> (p | a).
  Proof.
    intros a. unfold zeroF. rewrite toF_eq, Zmod_0_l. pose proof (prime_ge_2 p P). split; intros H'.
    - apply mod_div; [lia|exact H'].
    - apply Z.mod_divide; [lia|exact H'].
  Qed.
  Lemma toF_onto : forall a, exists z, a = toF z.
  Proof. intros a. exists (fv a). symmetry. apply to_fv. Qed.
  Lemma decF : forall a b : Fp, a = b \/ a <> b.
  Proof. intros a b. destruct (Z.eq_dec (fv a) (fv b)) as [E|E]; [left; apply Fp_eq; exact E|right; intros ->; apply E; reflexivity]. Qed.
  Ltac lift := intros; repeat match goal with a : Fp |- _ => let z := fresh "z" in destruct (toF_onto a) as [z ->] end; unfold zeroF, oneF, divF;
    rewrite <- ?toF_inv, <- ?toF_opp, <- ?toF_mul, <- ?toF_add, <- ?toF_sub; rewrite <- ?toF_mul, <- ?toF_add, <- ?toF_sub.
  Lemma ringF : ring_theory zeroF oneF addF mulF subF oppF eq.
  Proof. split; lift; f_equal; ring. Qed.
  Lemma invF_l : forall a, a <> zeroF -> mulF (invF a) a = oneF.
  Proof.
    intros a H. destruct (toF_onto a) as [z ->]. rewrite <- toF_inv, <- toF_mul. unfold oneF. apply toF_eq.
    pose proof (prime_ge_2 p P). rewrite Z.mul_comm, <- Z.pow_succ_r by lia. replace (Z.succ (p - 2)) with (p - 1) by lia.
    apply fermat; [exact P|]. intros D. apply H. apply toF_0. exact D.
  Qed.
  Lemma one_neq_zero : oneF <> zeroF.
  Proof. intros H. apply toF_0 in H. pose proof (prime_ge_2 p P). apply Z.divide_1_r_nonneg in H; lia. Qed.
  Lemma fieldF : field_theory zeroF oneF addF mulF subF oppF divF invF eq.
  Proof. split; [exact ringF|exact one_neq_zero|reflexivity|exact invF_l]. Qed.
  Lemma invF_0 : 2 < p -> invF zeroF = zeroF.
  Proof. intros H. unfold zeroF. rewrite <- toF_inv. rewrite Z.pow_0_l by lia. reflexivity. Qed.
  (** Euler's criterion, the direction used *)
  Lemma nonsqF : forall z, (z ^ ((p - 1) / 2)) mod p <> 1 mod p -> Z.Odd p -> ~ (p | z) -> forall a, mulF a a <> toF z.
  Proof.
    intros z H [k K] N a E. destruct (toF_onto a) as [x ->]. rewrite <- toF_mul in E. apply toF_eq in E. pose proof (prime_ge_2 p P).
    apply H. rewrite <- pow_mod, <- E, pow_mod by (apply Z.div_pos; lia).
    replace (x * x) with (x ^ 2) by ring. rewrite <- Z.pow_mul_r by (try apply Z.div_pos; lia).
    replace (2 * ((p - 1) / 2)) with (p - 1). 2: { rewrite K. replace (2 * k + 1 - 1) with (k * 2) by ring. rewrite Z.div_mul by lia. ring. }
    apply fermat; [exact P|]. intros D. apply N. apply mod_div; [lia|]. rewrite <- E. apply Z.mod_divide; [lia|]. apply Z.divide_mul_l. exact D.
  Qed.
End FieldP.
