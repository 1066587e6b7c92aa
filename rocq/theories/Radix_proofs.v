(** Sums and numbers in radix B. *)
From Coq Require Import List ZArith Bool Lia ZifyBool ZifyNat ZifyN.
Import ListNotations.
Open Scope Z_scope.
Ltac Zify.zify_post_hook ::= Z.div_mod_to_equations.

(** ** Sums in radix B *)
Fixpoint sumz (n : nat) (f : nat -> Z) : Z := match n with O => 0 | S k => sumz k f + f k end.
Lemma sumz_ext : forall n f g, (forall i, (i < n)%nat -> f i = g i) -> sumz n f = sumz n g.
Proof. induction n as [|n IH]; intros f g H; [reflexivity|]. cbn. rewrite (IH f g), H by (intros; try apply H; lia). reflexivity. Qed.
Lemma sumz_add : forall n f g, sumz n (fun i => f i + g i) = sumz n f + sumz n g.
Proof. induction n as [|n IH]; intros f g; [reflexivity|]. cbn. rewrite IH. lia. Qed.
Lemma sumz_scal : forall n c f, sumz n (fun i => c * f i) = c * sumz n f.
Proof. induction n as [|n IH]; intros c f; cbn; [lia|]. rewrite IH. lia. Qed.
Lemma sumz_swap : forall n m f, sumz n (fun i => sumz m (fun j => f i j)) = sumz m (fun j => sumz n (fun i => f i j)).
Proof.
  intros n m f. induction n as [|n IH]; cbn.
  - induction m as [|m IHm]; cbn; lia.
  - rewrite IH, <- sumz_add. reflexivity.
Qed.
Lemma sumz_split : forall a b f, sumz (a + b) f = sumz a f + sumz b (fun i => f (a + i)%nat).
Proof.
  induction b as [|b IH]; intros f; cbn; [rewrite Nat.add_0_r; lia|]. rewrite Nat.add_succ_r. cbn. rewrite IH. lia.
Qed.
Lemma sumz_cut : forall n a f, (a <= n)%nat -> sumz n f = sumz a f + sumz (n - a) (fun i => f (a + i)%nat).
Proof. intros n a f H. rewrite <- sumz_split. f_equal. lia. Qed.
Lemma sumz_bound : forall n f c, (forall i, (i < n)%nat -> 0 <= f i <= c) -> 0 <= sumz n f <= Z.of_nat n * c.
Proof.
  induction n as [|n IH]; intros f c H; cbn [sumz]; [lia|]. specialize (IH f c ltac:(intros; apply H; lia)).
  specialize (H n ltac:(lia)). lia.
Qed.

(** The number with digits [f] *)
Definition num (B : Z) (n : nat) (f : nat -> Z) : Z := sumz n (fun i => f i * B ^ Z.of_nat i).
Lemma num_S : forall B n f, num B (S n) f = num B n f + f n * B ^ Z.of_nat n.
Proof. reflexivity. Qed.
Lemma num_ext : forall B n f g, (forall i, (i < n)%nat -> f i = g i) -> num B n f = num B n g.
Proof. intros B n f g H. apply sumz_ext. intros i Hi. rewrite H by exact Hi. reflexivity. Qed.
Lemma num_range : forall B n f, 1 <= B -> (forall i, (i < n)%nat -> 0 <= f i < B) -> 0 <= num B n f < B ^ Z.of_nat n.
Proof.
  intros B n f HB. induction n as [|n IH]; intros H; [cbn; lia|]. rewrite num_S, Nat2Z.inj_succ, Z.pow_succ_r by lia.
  specialize (IH ltac:(intros; apply H; lia)). specialize (H n ltac:(lia)).
  assert (0 < B ^ Z.of_nat n) by (apply Z.pow_pos_nonneg; lia). nia.
Qed.

(** Multiplication of two numbers of [n] digits, wrapped at B^n *)
Definition conv (n : nat) (w : Z) (h r : nat -> Z) (i : nat) : Z :=
  sumz n (fun j => h j * (if (j <=? i)%nat then r (i - j)%nat else w * r (i + n - j)%nat)).
Lemma rotate : forall B n r j, 0 <= B -> (j < n)%nat ->
  sumz n (fun i => (if (j <=? i)%nat then r (i - j)%nat else B ^ Z.of_nat n * r (i + n - j)%nat) * B ^ Z.of_nat i) =
  B ^ Z.of_nat j * num B n r.
Proof.
  intros B n r j HB Hj. unfold num.
  rewrite (sumz_cut n j) by lia. rewrite (sumz_cut n (n - j) (fun i => r i * B ^ Z.of_nat i)) by lia.
  replace (n - (n - j))%nat with j by lia. rewrite Z.mul_add_distr_l, Z.add_comm.
  rewrite <- !sumz_scal. f_equal; apply sumz_ext; intros i Hi.
  - replace (j <=? j + i)%nat with true by lia. replace (j + i - j)%nat with i by lia.
    rewrite Nat2Z.inj_add, Z.pow_add_r by lia. ring.
  - replace (j <=? i)%nat with false by lia. replace (i + n - j)%nat with (n - j + i)%nat by lia.
    replace (B ^ Z.of_nat n) with (B ^ Z.of_nat j * B ^ Z.of_nat (n - j)).
    + rewrite Nat2Z.inj_add, (Z.pow_add_r B (Z.of_nat (n - j))) by lia. ring.
    + rewrite <- Z.pow_add_r by lia. f_equal. lia.
Qed.
Lemma num_conv : forall B n h r, 0 <= B -> num B n (conv n (B ^ Z.of_nat n) h r) = num B n h * num B n r.
Proof.
  intros B n h r HB. unfold num at 1, conv.
  erewrite sumz_ext by (intros i Hi; rewrite Z.mul_comm, <- sumz_scal; reflexivity).
  rewrite sumz_swap.
  erewrite sumz_ext with (g := fun j => num B n r * (h j * B ^ Z.of_nat j)).
  - rewrite sumz_scal. unfold num. ring.
  - intros j Hj. cbv beta.
    erewrite sumz_ext with (g := fun i => h j * ((if (j <=? i)%nat then r (i - j)%nat else B ^ Z.of_nat n * r (i + n - j)%nat) * B ^ Z.of_nat i)).
    + rewrite sumz_scal, rotate by assumption. ring.
    + intros i Hi. ring.
Qed.
Lemma num_conv_mod : forall B n w p h r, 0 <= B -> p <> 0 -> B ^ Z.of_nat n mod p = w mod p ->
  num B n (conv n w h r) mod p = (num B n h * num B n r) mod p.
Proof.
  intros B n w p h r HB Hp E. rewrite <- num_conv by exact HB.
  assert (D : (p | B ^ Z.of_nat n - w)).
  { apply Z.mod_divide; [exact Hp|]. rewrite Zminus_mod, E, Z.sub_diag. apply Z.mod_0_l. exact Hp. }
  assert (G : (p | num B n (conv n (B ^ Z.of_nat n) h r) - num B n (conv n w h r))).
  { unfold num. rewrite <- (Z.mul_1_l (sumz n (fun i => conv n w h r i * _))), <- Z.add_opp_r.
    replace (- (1 * sumz n (fun i => conv n w h r i * B ^ Z.of_nat i))) with ((-1) * sumz n (fun i => conv n w h r i * B ^ Z.of_nat i)) by lia.
    rewrite <- sumz_scal, <- sumz_add.
    assert (DS : forall m f, (forall i, (i < m)%nat -> (p | f i)) -> (p | sumz m f)).
    { induction m as [|m IH]; intros f H; [apply Z.divide_0_r|]. cbn. apply Z.divide_add_r; [apply IH; intros; apply H; lia|apply H; lia]. }
    apply DS. intros i Hi. replace (conv n (B ^ Z.of_nat n) h r i * B ^ Z.of_nat i + -1 * (conv n w h r i * B ^ Z.of_nat i))
      with ((conv n (B ^ Z.of_nat n) h r i - conv n w h r i) * B ^ Z.of_nat i) by ring.
    apply Z.divide_mul_l. unfold conv.
    replace (sumz n _ - sumz n _) with (sumz n (fun j => h j * (if (j <=? i)%nat then r (i - j)%nat else B ^ Z.of_nat n * r (i + n - j)%nat) +
        (-1) * (h j * (if (j <=? i)%nat then r (i - j)%nat else w * r (i + n - j)%nat)))) by (rewrite sumz_add, sumz_scal; lia).
    apply DS. intros j Hj. destruct (j <=? i)%nat.
    - replace (_ + _) with 0 by ring. apply Z.divide_0_r.
    - replace (_ + _) with ((B ^ Z.of_nat n - w) * (h j * r (i + n - j)%nat)) by ring. apply Z.divide_mul_l. exact D. }
  destruct G as [q G]. replace (num B n (conv n (B ^ Z.of_nat n) h r)) with (num B n (conv n w h r) + q * p) by lia.
  rewrite Z.mod_add by exact Hp. reflexivity.
Qed.
