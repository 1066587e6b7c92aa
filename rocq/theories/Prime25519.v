(** 2^255 - 19 is a prime number: Fermat's theorem, Pocklington's criterion and a
    certificate. *)
From Coq Require Import List ZArith Znumtheory Bool Permutation Lia.
From Verif Require Import CurveSpec Fast25519.
Import ListNotations.
Open Scope Z_scope.

Fixpoint prod (l : list Z) : Z := match l with [] => 1 | x :: r => x * prod r end.
Lemma prod_perm : forall l l', Permutation l l' -> prod l = prod l'.
Proof. intros l l' H. induction H; cbn [prod]; [reflexivity|rewrite IHPermutation; reflexivity|ring|congruence]. Qed.
Lemma prod_scale : forall r b l, prod (map (fun x => (b * x) mod r) l) mod r = (b ^ Z.of_nat (length l) * prod l) mod r.
Proof.
  intros r b l. induction l as [|x l IH]; [reflexivity|]. cbn [map length prod].
  rewrite <- mul_mod2, Zmod_mod, IH, mul_mod2. f_equal. rewrite Nat2Z.inj_succ, Z.pow_succ_r by lia. ring.
Qed.
Definition upto (n : nat) : list Z := map Z.of_nat (seq 1 n).
Lemma in_upto : forall n x, In x (upto n) <-> 1 <= x <= Z.of_nat n.
Proof.
  intros n x. unfold upto. rewrite in_map_iff. split.
  - intros (k & <- & H). apply in_seq in H. lia.
  - intros H. exists (Z.to_nat x). split; [lia|]. apply in_seq. lia.
Qed.
Lemma nodup_upto : forall n, NoDup (upto n).
Proof. intros n. unfold upto. apply FinFun.Injective_map_NoDup; [|apply seq_NoDup]. intros a b H. lia. Qed.
Lemma nodup_map_on : forall A B (f : A -> B) l, NoDup l -> (forall x y, In x l -> In y l -> f x = f y -> x = y) -> NoDup (map f l).
Proof.
  intros A B f l H. induction H as [|x l H1 H2 IH]; intros F; [constructor|]. cbn [map]. constructor.
  - intros I. apply in_map_iff in I. destruct I as (y & E & I). apply H1. rewrite (F x y); [exact I|left; reflexivity|right; exact I|symmetry; exact E].
  - apply IH. intros a b Ha Hb. apply F; right; assumption.
Qed.
Lemma prime_prod : forall r l, prime r -> (forall x, In x l -> ~ (r | x)) -> ~ (r | prod l).
Proof.
  intros r l P. induction l as [|x l IH]; intros H D; cbn in D.
  - destruct P as [P _]. apply Z.divide_1_r_nonneg in D; lia.
  - apply prime_mult in D; [|exact P]. destruct D as [D|D]; [exact (H x (or_introl eq_refl) D)|].
    apply IH; [|exact D]. intros y I. apply H. right. exact I.
Qed.
Lemma not_div_small : forall r x, 1 <= x < r -> ~ (r | x).
Proof. intros r x H D. apply Z.divide_pos_le in D; lia. Qed.
Lemma mod_div : forall r a, 0 < r -> a mod r = 0 -> (r | a).
Proof. intros r a H E. apply Z.mod_divide; [lia|exact E]. Qed.
Lemma fermat : forall r b, prime r -> ~ (r | b) -> (b ^ (r - 1)) mod r = 1 mod r.
Proof.
  intros r b P N. pose proof (prime_ge_2 r P) as R.
  set (n := Z.to_nat (r - 1)). set (l := upto n). set (f := fun x => (b * x) mod r).
  assert (IN : forall x, In x l <-> 1 <= x < r). { intros x. unfold l. rewrite in_upto. unfold n. lia. }
  assert (ND : NoDup (map f l)).
  { apply nodup_map_on; [apply nodup_upto|]. intros x y Hx Hy E. apply IN in Hx, Hy. unfold f in E.
    assert (D : (r | b * (x - y))).
    { apply mod_div; [lia|]. replace (b * (x - y)) with (b * x - b * y) by ring. rewrite Zminus_mod, E, Z.sub_diag. apply Zmod_0_l. }
    apply prime_mult in D; [|exact P]. destruct D as [D|D]; [elim (N D)|].
    destruct (Z.eq_dec x y) as [|NE]; [assumption|].
    destruct (Z_lt_le_dec y x) as [L|L].
    - elim (not_div_small r (x - y)); [lia|exact D].
    - elim (not_div_small r (y - x)); [lia|]. replace (y - x) with (- (x - y)) by ring. apply Z.divide_opp_r. exact D. }
  assert (INC : incl (map f l) l).
  { intros y I. apply in_map_iff in I. destruct I as (x & <- & I). apply IN. apply IN in I. unfold f.
    pose proof (Z.mod_pos_bound (b * x) r ltac:(lia)) as B. enough ((b * x) mod r <> 0) by lia. intros E.
    apply mod_div in E; [|lia]. apply prime_mult in E; [|exact P]. destruct E as [D|D]; [exact (N D)|]. exact (not_div_small r x I D). }
  assert (PM : Permutation (map f l) l).
  { apply NoDup_Permutation_bis; [exact ND| |exact INC]. rewrite map_length. reflexivity. }
  pose proof (prod_scale r b l) as S1. fold f in S1. rewrite (prod_perm _ _ PM) in S1.
  assert (LEN : Z.of_nat (length l) = r - 1). { unfold l, upto. rewrite map_length, seq_length. unfold n. lia. }
  rewrite LEN in S1.
  assert (D : (r | (b ^ (r - 1) - 1) * prod l)).
  { apply mod_div; [lia|]. replace ((b ^ (r - 1) - 1) * prod l) with (b ^ (r - 1) * prod l - prod l) by ring.
    rewrite Zminus_mod, <- S1, Z.sub_diag. apply Zmod_0_l. }
  apply prime_mult in D; [|exact P]. destruct D as [D|D].
  - destruct D as [k D]. replace (b ^ (r - 1)) with (1 + k * r) by lia. apply Z.mod_add. lia.
  - elim (prime_prod r l P); [|exact D]. intros x I. apply not_div_small, IN, I.
Qed.

(** Barrett reduction modulo n, and powers modulo n *)
Definition redm (n mu k x : Z) : Z :=
  let y := x - Z.shiftr (Z.shiftr x (k - 1) * mu) (k + 1) * n in
  if (0 <=? y) && (y <? n) then y else if (n <=? y) && (y <? n + n) then y - n else x mod n.
Lemma redm_spec : forall n mu k x, redm n mu k x = x mod n.
Proof.
  intros n mu k x. unfold redm. generalize (Z.shiftr (Z.shiftr x (k - 1) * mu) (k + 1)). intros q. cbv zeta.
  destruct ((0 <=? x - q * n) && (x - q * n <? n)) eqn:E.
  { apply andb_prop in E. destruct E as [E1 E2].
    apply Z.leb_le in E1. apply Z.ltb_lt in E2. apply (Z.mod_unique x n q); [left; split; assumption|]. ring. }
  clear E. destruct ((n <=? x - q * n) && (x - q * n <? n + n)) eqn:E; [|reflexivity].
  apply andb_prop in E. destruct E as [E1 E2].
  apply Z.leb_le in E1. apply Z.ltb_lt in E2. apply (Z.mod_unique x n (q + 1)); [left; lia|]. ring.
Qed.
Fixpoint powr (n mu k a : Z) (e : positive) : Z :=
  match e with
  | xH => redm n mu k a
  | xO e => let r := powr n mu k a e in redm n mu k (r * r)
  | xI e => let r := powr n mu k a e in redm n mu k (redm n mu k (r * r) * a)
  end.
Lemma powr_spec : forall n mu k a e, powr n mu k a e = (a ^ Zpos e) mod n.
Proof.
  intros n mu k a. induction e as [e IH|e IH|]; cbn [powr]; rewrite ?redm_spec; [| |rewrite Z.pow_1_r; reflexivity].
  - rewrite IH, mul_mod2, mul_mod1, Pos2Z.inj_xI, Z.pow_add_r, Z.pow_1_r by lia.
    replace (2 * Zpos e) with (Zpos e + Zpos e) by lia. rewrite Z.pow_add_r by lia. reflexivity.
  - rewrite IH, mul_mod2, Pos2Z.inj_xO. replace (2 * Zpos e) with (Zpos e + Zpos e) by lia. rewrite Z.pow_add_r by lia. reflexivity.
Qed.
Definition powm (n a : Z) (e : positive) : Z := let k := Z.log2 n + 1 in powr n (2 ^ (2 * k) / n) k a e.
Lemma powm_spec : forall n a e, powm n a e = (a ^ Zpos e) mod n.
Proof. intros n a e. apply powr_spec. Qed.

Lemma pow_mod : forall a n k, 0 <= k -> ((a mod n) ^ k) mod n = (a ^ k) mod n.
Proof.
  intros a n k K. pattern k. apply natlike_ind; [reflexivity| |exact K].
  intros x Hx IH. rewrite !Z.pow_succ_r by exact Hx. rewrite Zmult_mod, IH, Zmod_mod, <- Zmult_mod. reflexivity.
Qed.
Lemma pow_one : forall r b k, 0 <= k -> b mod r = 1 mod r -> (b ^ k) mod r = 1 mod r.
Proof.
  intros r b k K H. pattern k. apply natlike_ind; [reflexivity| |exact K].
  intros x Hx IH. rewrite Z.pow_succ_r by exact Hx. rewrite Zmult_mod, IH, H, <- Zmult_mod. reflexivity.
Qed.
(** One factor of Pocklington's criterion *)
Lemma pocklington_factor : forall n f m a r, prime f -> 1 < n -> n - 1 = f * m -> 0 < m ->
  (a ^ (n - 1)) mod n = 1 -> Z.gcd (a ^ m - 1) n = 1 -> prime r -> (r | n) -> (f | r - 1).
Proof.
  intros n f m a r Pf N1 E M H1 H2 Pr D. pose proof (prime_ge_2 r Pr) as R. pose proof (prime_ge_2 f Pf) as Fg.
  set (b := a ^ m).
  assert (Bf : (b ^ f) mod r = 1 mod r).
  { unfold b. rewrite <- Z.pow_mul_r by lia. rewrite (Z.mul_comm m f), <- E.
    destruct D as [k D].     assert (DD : (n | a ^ (n - 1) - 1)). { apply mod_div; [lia|]. rewrite Zminus_mod, H1, (Z.mod_small 1 n), Z.sub_diag by lia. apply Zmod_0_l. }
    destruct DD as [j DD]. replace (a ^ (n - 1)) with (1 + (j * k) * r) by lia. apply Z.mod_add. lia. }
  assert (Bn : ~ (r | b - 1)).
  { intros DD. assert (Q : (r | 1)). { rewrite <- H2. apply Z.gcd_greatest; assumption. } apply Z.divide_1_r_nonneg in Q; lia. }
  assert (B0 : ~ (r | b)).
  { intros DD. assert (Q : (b ^ f) mod r = 0).
    { apply Z.mod_divide; [lia|]. replace f with (Z.succ (f - 1)) by lia. rewrite Z.pow_succ_r by lia. apply Z.divide_mul_l. exact DD. }
    rewrite Q, Z.mod_small in Bf by lia. lia. }
  pose proof (fermat r b Pr B0) as Br.
  destruct (Zdivide_dec f (r - 1)) as [|ND]; [assumption|]. exfalso.
  assert (RP : rel_prime f (r - 1)) by (apply prime_rel_prime; assumption).
  destruct (rel_prime_bezout _ _ RP) as [u v UV].
  (* make the coefficient of f non-negative *)
  apply Bn. apply mod_div; [lia|].
  set (t := Z.abs u + Z.abs v). set (u' := u + t * (r - 1)). set (v' := t * f - v).
  assert (T0 : 0 <= t) by (unfold t; lia).
  assert (U : 0 <= u'). { pose proof (Z.mul_le_mono_nonneg_l 1 (r - 1) t T0 ltac:(lia)). unfold u'. unfold t in *. lia. }
  assert (V : 0 <= v'). { pose proof (Z.mul_le_mono_nonneg_l 1 f t T0 ltac:(lia)). unfold v'. unfold t in *. lia. }
  assert (EQ : f * u' = 1 + (r - 1) * v').
  { unfold u', v'. transitivity (u * f + f * (t * (r - 1))); [ring|]. replace (u * f) with (1 - v * (r - 1)) by lia. ring. }
  assert (X1 : (b ^ (f * u')) mod r = 1 mod r). { rewrite Z.pow_mul_r by lia. apply pow_one; assumption. }
  assert (X2 : (b ^ (1 + (r - 1) * v')) mod r = b mod r).
  { rewrite Z.pow_add_r, Z.pow_1_r by (try apply Z.mul_nonneg_nonneg; lia). rewrite Z.pow_mul_r by lia.
    rewrite Zmult_mod, (pow_one r _ v' V Br), <- Zmult_mod, Z.mul_1_r. reflexivity. }
  rewrite EQ, X2 in X1. rewrite Zminus_mod, X1, Z.sub_diag. apply Zmod_0_l.
Qed.
Lemma prime_divisor : forall n, 1 < n -> exists r, prime r /\ (r | n).
Proof.
  intros n H. assert (K : forall k x, 1 < x < Z.of_nat k -> exists r, prime r /\ (r | x)).
  { induction k as [|k IH]; intros x Hx; [lia|]. destruct (prime_dec x) as [P|NP].
    - exists x. split; [exact P|apply Z.divide_refl].
    - destruct (not_prime_divide x) as (d & B & D); [lia|exact NP|]. destruct (IH d) as (r & P & Q); [lia|].
      exists r. split; [exact P|]. exact (Z.divide_trans _ _ _ Q D). }
  apply (K (Z.to_nat (n + 1))). lia.
Qed.
Lemma prime_by_divisors : forall n F, 1 < n -> 0 < F -> n < (F + 1) * (F + 1) ->
  (forall r, prime r -> (r | n) -> (F | r - 1)) -> prime n.
Proof.
  intros n F N HF B H. destruct (prime_dec n) as [P|NP]; [exact P|]. exfalso.
  destruct (not_prime_divide n) as (d & Bd & D); [lia|exact NP|].
  assert (G : forall x, 1 < x -> (x | n) -> F + 1 <= x).
  { intros x Hx Dx. destruct (prime_divisor x Hx) as (r & P & Q).
    pose proof (H r P (Z.divide_trans _ _ _ Q Dx)) as W. pose proof (prime_ge_2 r P). apply Z.divide_pos_le in W; [|lia].
    apply Z.divide_pos_le in Q; [|lia]. lia. }
  pose proof (G d ltac:(lia) D) as G1. destruct D as [e D].
  assert (E1 : 1 < e) by nia. assert (De : (e | n)) by (exists d; lia). pose proof (G e E1 De) as G2. nia.
Qed.
(** Two prime factors f, g of n - 1 with f g > sqrt n *)
Lemma pocklington2 : forall n f g a, prime f -> prime g -> f <> g -> 1 < n -> n < (f * g + 1) * (f * g + 1) ->
  (f | n - 1) -> (g | n - 1) -> (a ^ (n - 1)) mod n = 1 ->
  Z.gcd (a ^ ((n - 1) / f) - 1) n = 1 -> Z.gcd (a ^ ((n - 1) / g) - 1) n = 1 -> prime n.
Proof.
  intros n f g a Pf Pg NE N B Df Dg H1 H2 H3. pose proof (prime_ge_2 f Pf). pose proof (prime_ge_2 g Pg).
  apply (prime_by_divisors n (f * g)); [exact N|nia|exact B|]. intros r Pr D.
  assert (E : forall q, 2 <= q -> (q | n - 1) -> n - 1 = q * ((n - 1) / q) /\ 0 < (n - 1) / q).
  { intros q Q [k K]. rewrite K, Z.div_mul by lia. split; [lia|nia]. }
  destruct (E f) as [Ef Mf]; [assumption..|]. destruct (E g) as [Eg Mg]; [assumption..|].
  pose proof (pocklington_factor n f _ a r Pf N Ef Mf H1 H2 Pr D) as [x X].
  pose proof (pocklington_factor n g _ a r Pg N Eg Mg H1 H3 Pr D) as Y. rewrite X in Y.
  assert (RP : rel_prime g f).
  { apply prime_rel_prime; [exact Pg|]. intros D2. apply prime_div_prime in D2; [|assumption..]. apply NE. symmetry. exact D2. }
  rewrite Z.mul_comm in Y. apply Gauss in Y; [|exact RP]. destruct Y as [y Y]. exists y. rewrite X, Y. ring.
Qed.
(** Trial division *)
Fixpoint no_divisor (n : Z) (k : nat) : bool :=
  match k with
  | S (S _ as j) => negb (n mod Z.of_nat k =? 0) && no_divisor n j
  | _ => true
  end.
Lemma no_divisor_spec : forall n k, no_divisor n k = true -> forall d, 1 < d <= Z.of_nat k -> ~ (d | n).
Proof.
  induction k as [|[|k] IH]; intros H d Hd; [lia|lia|]. cbn [no_divisor] in H. apply andb_prop in H. destruct H as [H1 H2].
  intros D. destruct (Z.eq_dec d (Z.of_nat (S (S k)))) as [->|NE].
  - apply Z.mod_divide in D; [|lia]. rewrite D in H1. discriminate.
  - apply (IH H2 d); [lia|exact D].
Qed.
Lemma prime_trial : forall n k, 1 < n -> n < (Z.of_nat k + 1) * (Z.of_nat k + 1) -> no_divisor n k = true -> prime n.
Proof.
  intros n k N B H. destruct (prime_dec n) as [P|NP]; [exact P|]. exfalso.
  destruct (not_prime_divide n) as (d & Bd & [e E]); [lia|exact NP|].
  destruct (Z_le_gt_dec d (Z.of_nat k)) as [L|L].
  - apply (no_divisor_spec n k H d); [lia|]. exists e. exact E.
  - apply (no_divisor_spec n k H e); [nia|]. exists d. lia.
Qed.

Definition cert_ok (pw : Z -> positive -> Z) (n f g a : Z) : bool :=
  (1 <? n) && negb (f =? g) && (n <? (f * g + 1) * (f * g + 1)) && ((n - 1) mod f =? 0) && ((n - 1) mod g =? 0) &&
  (let b := pw a (Z.to_pos ((n - 1) / g)) in
   (pw b (Z.to_pos g) =? 1) && (Z.gcd (b - 1) n =? 1)) &&
  (Z.gcd (pw a (Z.to_pos ((n - 1) / f)) - 1) n =? 1).
Lemma gcd_mod_sub : forall x n, 0 < n -> Z.gcd (x mod n - 1) n = Z.gcd (x - 1) n.
Proof.
  intros x n N. rewrite (Z.div_mod x n) at 2 by lia.
  replace (n * (x / n) + x mod n - 1) with ((x mod n - 1) + (x / n) * n) by ring. rewrite Z.gcd_comm, (Z.gcd_comm (_ + _)).
  symmetry. rewrite Z.gcd_add_mult_diag_r. reflexivity.
Qed.
Lemma cert_prime : forall pw n f g a, (forall x e, pw x e = (x ^ Zpos e) mod n) ->
  prime f -> prime g -> cert_ok pw n f g a = true -> prime n.
Proof.
  intros pw n f g a PW Pf Pg H. unfold cert_ok in H. repeat (apply andb_prop in H; let T := fresh in destruct H as [H T]).
  pose proof (prime_ge_2 f Pf). pose proof (prime_ge_2 g Pg). cbv zeta in H1. apply andb_prop in H1. destruct H1 as [H1 H1'].
  apply Z.ltb_lt in H. apply Z.eqb_eq in H0, H1, H1', H2, H3. apply Z.ltb_lt in H4. apply negb_true_iff, Z.eqb_neq in H5.
  assert (M : forall q, 2 <= q -> (n - 1) mod q = 0 -> 0 < (n - 1) / q /\ (n - 1) / q * q = n - 1).
  { intros q Q E. apply Z.mod_divide in E; [|lia]. destruct E as [k K]. rewrite K, Z.div_mul by lia. split; [nia|reflexivity]. }
  destruct (M f) as [Mf Ef]; [assumption..|]. destruct (M g) as [Mg Eg]; [assumption..|].
  rewrite !PW in H1. rewrite PW in H0, H1'. rewrite Z2Pos.id in H0, H1' by assumption.
  rewrite !Z2Pos.id in H1 by lia. rewrite pow_mod, <- Z.pow_mul_r, Eg in H1 by lia.
  rewrite gcd_mod_sub in H0, H1' by lia.
  apply (pocklington2 n f g a); try assumption; apply Z.mod_divide; try assumption; lia.
Qed.

Lemma prime_353 : prime 353. Proof. apply (prime_trial _ 18); [lia|lia|vm_compute; reflexivity]. Qed.
Lemma prime_127 : prime 127. Proof. apply (prime_trial _ 11); [lia|lia|vm_compute; reflexivity]. Qed.
Lemma prime_103 : prime 103. Proof. apply (prime_trial _ 10); [lia|lia|vm_compute; reflexivity]. Qed.
Lemma prime_991 : prime 991. Proof. apply (prime_trial _ 31); [lia|lia|vm_compute; reflexivity]. Qed.
Lemma prime_75707 : prime 75707. Proof. apply (prime_trial _ 276); [lia|lia|vm_compute; reflexivity]. Qed.
Lemma prime_23 : prime 8574133.
Proof. apply (cert_prime (powm _) _ 991 103 2 (powm_spec _) prime_991 prime_103). vm_compute. reflexivity. Qed.
Lemma prime_51 : prime 1919519569386763.
Proof. apply (cert_prime (powm _) _ 8574133 127 2 (powm_spec _) prime_23 prime_127). vm_compute. reflexivity. Qed.
Lemma prime_116 : prime 75445702479781427272750846543864801.
Proof. apply (cert_prime (powm _) _ 1919519569386763 75707 7 (powm_spec _) prime_51 prime_75707). vm_compute. reflexivity. Qed.
Lemma prime_236 : prime 74058212732561358302231226437062788676166966415465897661863160754340907.
Proof. apply (cert_prime (powm _) _ 75445702479781427272750846543864801 353 2 (powm_spec _) prime_116 prime_353). vm_compute. reflexivity. Qed.
Theorem prime_p25519 : prime p25519.
Proof.
  apply (cert_prime powx _ 74058212732561358302231226437062788676166966415465897661863160754340907 3 2);
  [intros x e; apply powx_spec|exact prime_236|exact prime_3|]. vm_compute. reflexivity.
Qed.
