(** The field arithmetic of tweetnacl.py computes modulo 2^255 - 19. *)
From Coq Require Import List ZArith Bool Strings.Byte Lia ZifyBool ZifyNat ZifyN.
From Verif Require Import PyBase PyBase_proofs PyInt PyInt_proofs ShaSpec TwHash_proofs SalsaSpec TwSalsa TwSalsa_proofs Radix_proofs TwPoly_proofs CurveSpec TwField.
Import ListNotations.
Open Scope Z_scope.
Ltac Zify.zify_post_hook ::= Z.div_mod_to_equations.

(** ** Signed 64-bit and plain integers: exact as long as nothing overflows *)
Definition wid (x : pint) : Prop := pt x = TI64 \/ pt x = TPlain.
Definition fits (v : Z) : Prop := - 2 ^ 63 < v < 2 ^ 63.
Lemma mk_i64 : forall v, fits v -> mk TI64 v = PI TI64 v.
Proof.
  intros v H. unfold fits in H. unfold mk. cbn [mask signed]. destruct (v <? 0) eqn:E; rewrite land_ones by lia; rewrite Z.mod_small by lia; f_equal. lia.
Qed.
Lemma mk_exact : forall t v, t = TI64 \/ t = TPlain -> fits v -> wid (mk t v) /\ pv (mk t v) = v.
Proof.
  intros t v [->| ->] H; [rewrite mk_i64 by exact H|]; (split; [|reflexivity]); [left|right]; reflexivity.
Qed.
Lemma typed_exact : forall op a b, wid a -> wid b -> fits (op (pv a) (pv b)) ->
  wid (typed op a b) /\ pv (typed op a b) = op (pv a) (pv b).
Proof.
  intros op [ta a] [tb b] Ha Hb H. unfold wid in Ha, Hb. cbn [pt pv] in *. unfold typed. cbn [pt pv].
  apply mk_exact; [|exact H]. unfold promote.
  destruct Ha as [->| ->], Hb as [->| ->]; cbn; rewrite ?andb_false_r; auto.
Qed.
Lemma pshr_exact : forall a n, wid a -> 0 <= n -> fits (pv a) -> wid (pshr a n) /\ pv (pshr a n) = pv a / 2 ^ n.
Proof.
  intros a n Ha Hn H. unfold pshr. rewrite Z.shiftr_div_pow2 by exact Hn. apply mk_exact; [exact Ha|].
  assert (1 <= 2 ^ n) by (pose proof (Z.pow_pos_nonneg 2 n); lia). unfold fits in *. split.
  - assert (- 2 ^ 63 + 1 <= pv a / 2 ^ n); [|lia].
    apply Z.div_le_lower_bound; [lia|]. nia.
  - apply Z.div_lt_upper_bound; [lia|]. nia.
Qed.
Lemma pshl_exact : forall a n, wid a -> 0 <= n -> fits (pv a * 2 ^ n) -> wid (pshl a n) /\ pv (pshl a n) = pv a * 2 ^ n.
Proof. intros a n Ha Hn H. unfold pshl. rewrite Z.shiftl_mul_pow2 by exact Hn. apply mk_exact; [exact Ha|exact H]. Qed.
Definition is (a : pint) (v : Z) : Prop := wid a /\ pv a = v.
Lemma is_plain : forall v, is (plain v) v.
Proof. intros v. split; [right; reflexivity|reflexivity]. Qed.
Lemma is_typed : forall op a b x y, is a x -> is b y -> fits (op x y) -> is (typed op a b) (op x y).
Proof. intros op a b x y [Wa Ea] [Wb Eb] H. subst. apply typed_exact; assumption. Qed.
Lemma is_add : forall a b x y, is a x -> is b y -> fits (x + y) -> is (padd a b) (x + y).
Proof. intros. apply (is_typed Z.add); assumption. Qed.
Lemma is_sub : forall a b x y, is a x -> is b y -> fits (x - y) -> is (psub a b) (x - y).
Proof. intros. apply (is_typed Z.sub); assumption. Qed.
Lemma is_mul : forall a b x y, is a x -> is b y -> fits (x * y) -> is (pmul a b) (x * y).
Proof. intros. apply (is_typed Z.mul); assumption. Qed.
Lemma is_and : forall a b x y, is a x -> is b y -> fits (Z.land x y) -> is (pand a b) (Z.land x y).
Proof. intros. apply (is_typed Z.land); assumption. Qed.
Lemma is_xor : forall a b x y, is a x -> is b y -> fits (Z.lxor x y) -> is (pxor a b) (Z.lxor x y).
Proof. intros. apply (is_typed Z.lxor); assumption. Qed.
Lemma is_shr : forall a x n, is a x -> 0 <= n -> fits x -> is (pshr a n) (x / 2 ^ n).
Proof. intros a x n [W E] Hn H. subst. apply pshr_exact; assumption. Qed.
Lemma is_shl : forall a x n, is a x -> 0 <= n -> fits (x * 2 ^ n) -> is (pshl a n) (x * 2 ^ n).
Proof. intros a x n [W E] Hn H. subst. apply pshl_exact; assumption. Qed.
Lemma is_eq : forall a x y, is a x -> x = y -> is a y.
Proof. intros a x y H <-. exact H. Qed.

(** ** Carrying *)
Fixpoint cq (o : nat -> Z) (k : nat) : Z :=
  match k with O => o O / 65536 | S j => (o k + cq o j) / 65536 end.
(** limb [k] with the carry into it *)
Definition cin (o : nat -> Z) (k : nat) : Z := match k with O => o O | S j => o k + cq o j end.
Lemma cq_cin : forall o k, cq o k = cin o k / 65536.
Proof. intros o [|k]; reflexivity. Qed.
Definition carf (o : nat -> Z) (k : nat) : Z := cin o k mod 65536 + (if (k =? 0)%nat then 38 * cq o 15 else 0).
Definition limbs (l : list pint) (f : nat -> Z) : Prop :=
  (16 <= length l)%nat /\ forall j, (j < 16)%nat -> is (geti l j) (f j).
Definition within (f : nat -> Z) (B : Z) : Prop := forall j, (j < 16)%nat -> - B <= f j <= B.
Lemma cq_bound : forall o B k, 0 <= B -> (k < 16)%nat -> within o B -> - B - 1 <= cq o k <= B + 1.
Proof.
  intros o B k HB. induction k as [|k IH]; intros Hk H; cbn [cq]; [specialize (H O ltac:(lia)); lia|].
  specialize (IH ltac:(lia) H). specialize (H (S k) ltac:(lia)). lia.
Qed.
Lemma cin_bound : forall o B k, 0 <= B -> (k < 16)%nat -> within o B -> - 2 * B - 1 <= cin o k <= 2 * B + 1.
Proof.
  intros o B k HB Hk H. destruct k as [|k]; cbn [cin]; [specialize (H O ltac:(lia)); lia|].
  pose proof (cq_bound o B k HB ltac:(lia) H). specialize (H (S k) Hk). lia.
Qed.

(** What a step writes: [w] is the number added to the next limb. *)
Lemma car_step_eq : forall l k v n w kn, (k < 16)%nat -> (16 <= length l)%nat -> kn = (if (k <? 15) then S k else 0)%nat ->
  is (geti l k) v -> is (geti l kn) n -> - 2 ^ 56 <= v <= 2 ^ 56 -> - 2 ^ 56 <= n <= 2 ^ 56 ->
  w = (if (k =? 15)%nat then 38 else 1) * (v / 65536) ->
  exists a b, car_step l k = seti (seti l kn b) k a /\ is a (v mod 65536) /\ is b (n + w).
Proof.
  intros l k v n w kn Hk L Ekn Iv In Bv Bn Ew. unfold car_step. cbv zeta.
  assert (Hne : k <> kn) by (rewrite Ekn; destruct (Nat.ltb_spec k 15); lia).
  assert (Hkn : (kn < 16)%nat) by (rewrite Ekn; destruct (Nat.ltb_spec k 15); lia).
  replace ((k + 1) * (if (k <? 15)%nat then 1 else 0))%nat with kn by (rewrite Ekn; destruct (Nat.ltb_spec k 15); lia).
  rewrite (geti_seti_eq l k) by lia. rewrite (geti_seti_ne l k kn) by exact Hne.
  assert (I1 : is (pshl (mk TI64 1) 16) 65536).
  { apply (is_eq _ (1 * 2 ^ 16)); [|reflexivity]. apply is_shl; [split; [left; reflexivity|reflexivity]|lia|unfold fits; lia]. }
  assert (I2 : is (padd (geti l k) (pshl (mk TI64 1) 16)) (v + 65536)) by (apply is_add; [exact Iv|exact I1|unfold fits; lia]).
  remember (padd (geti l k) (pshl (mk TI64 1) 16)) as o1 eqn:Q; clear Q.
  assert (I3 : is (pshr o1 16) (v / 65536 + 1)).
  { apply (is_eq _ ((v + 65536) / 2 ^ 16)); [apply is_shr; [exact I2|lia|unfold fits; lia]|]. change (2 ^ 16) with 65536. lia. }
  remember (pshr o1 16) as c eqn:Q; clear Q.
  assert (I4 : is (psub c (plain 1)) (v / 65536)).
  { apply (is_eq _ (v / 65536 + 1 - 1)); [apply is_sub; [exact I3|apply is_plain|unfold fits; lia]|lia]. }
  remember (psub c (plain 1)) as c1 eqn:Q; clear Q.
  assert (I5 : is (pmul (plain 37) c1) (37 * (v / 65536))) by (apply is_mul; [apply is_plain|exact I4|unfold fits; lia]).
  remember (pmul (plain 37) c1) as c2 eqn:Q; clear Q.
  assert (I6 : is (pmul c2 (plain (if (k =? 15)%nat then 1 else 0))) (37 * (v / 65536) * (if (k =? 15)%nat then 1 else 0)))
    by (apply is_mul; [exact I5|apply is_plain|unfold fits; destruct (k =? 15)%nat; lia]).
  remember (pmul c2 (plain (if (k =? 15)%nat then 1 else 0))) as c3 eqn:Q; clear Q.
  assert (I7 : is (padd c1 c3) w).
  { apply (is_eq _ (v / 65536 + 37 * (v / 65536) * (if (k =? 15)%nat then 1 else 0))); [apply is_add; [exact I4|exact I6|]|];
      rewrite ?Ew; unfold fits; destruct (k =? 15)%nat; lia. }
  assert (Bw : - 2 ^ 60 <= w <= 2 ^ 60) by (rewrite Ew; destruct (k =? 15)%nat; lia).
  remember (padd c1 c3) as c4 eqn:Q; clear Q.
  assert (I8 : is (padd (geti l kn) c4) (n + w)) by (apply is_add; [exact In|exact I7|unfold fits; lia]).
  remember (padd (geti l kn) c4) as b eqn:Q; clear Q.
  assert (I9 : is (pshl c 16) ((v / 65536 + 1) * 65536)) by (apply is_shl; [exact I3|lia|change (2 ^ 16) with 65536; unfold fits; lia]).
  remember (pshl c 16) as c5 eqn:Q; clear Q.
  assert (I10 : is (psub o1 c5) (v mod 65536)).
  { apply (is_eq _ (v + 65536 - (v / 65536 + 1) * 65536)); [apply is_sub; [exact I2|exact I9|unfold fits; lia]|lia]. }
  exists (psub o1 c5), b. split; [|split; [exact I10|exact I8]].
  rewrite (geti_seti_ne (seti l k o1)) by congruence. rewrite (geti_seti_eq l k) by lia.
  remember (psub o1 c5) as a eqn:Q; clear Q.
  apply list_ext; [rewrite !seti_length; reflexivity|]. intros i Hi. rewrite !seti_length in Hi.
  rewrite !seti_geti_chain by (rewrite ?seti_length; lia).
  destruct (k =? i)%nat; [reflexivity|]. destruct (kn =? i)%nat; reflexivity.
Qed.

Lemma car_w : forall l f B, limbs l f -> 0 <= B <= 2 ^ 54 -> within f B ->
  limbs (car25519 l) (carf f) /\ length (car25519 l) = length l.
Proof.
  intros l f B [L I] HB W. unfold car25519.
  match goal with |- context [for_range 16 ?ff ?s0] =>
    pose proof (for_range_inv _ (fun k s => length s = length l /\ forall j, (j < 16)%nat ->
      is (geti s j) (if (j <? k)%nat then (if (k =? 16)%nat then carf f j else cin f j mod 65536) else if (j =? k)%nat then cin f j else f j)) 16 ff s0) as P end.
  destruct P as [Ls Is].
  - split; [reflexivity|]. intros j Hj. cbn [Nat.ltb Nat.leb]. destruct (Nat.eqb_spec j 0) as [->|Q]; cbn [cin]; apply I; lia.
  - intros k s Hk [Ls Is].
    pose proof (cin_bound f B k ltac:(lia) Hk W) as Bk.
    assert (Ik : is (geti s k) (cin f k)).
    { specialize (Is k Hk). rewrite Nat.ltb_irrefl, Nat.eqb_refl in Is. exact Is. }
    assert (Ek : (k =? 16)%nat = false) by lia.
    set (kn := if (k <? 15)%nat then S k else O).
    set (n := if (k <? 15)%nat then f (S k) else cin f 0 mod 65536).
    assert (In : is (geti s kn) n).
    { unfold kn, n. destruct (Nat.ltb_spec k 15) as [Q|Q].
      - specialize (Is (S k) ltac:(lia)). replace (S k <? k)%nat with false in Is by lia. replace (S k =? k)%nat with false in Is by lia. exact Is.
      - specialize (Is O ltac:(lia)). replace (0 <? k)%nat with true in Is by lia. rewrite Ek in Is. exact Is. }
    assert (Bn : - 2 ^ 56 <= n <= 2 ^ 56).
    { unfold n. destruct (Nat.ltb_spec k 15) as [Q|Q]; [specialize (W (S k) ltac:(lia)); lia|lia]. }
    destruct (car_step_eq s k (cin f k) n _ kn Hk ltac:(lia) eq_refl Ik In ltac:(lia) Bn eq_refl) as (a & b & E & Ia & Ib).
    rewrite E. split; [rewrite !seti_length; exact Ls|]. intros j Hj.
    assert (Hkn : (kn < length s)%nat) by (unfold kn; clear - Hk L Ls; destruct (Nat.ltb_spec k 15); lia).
    rewrite (seti_geti_chain (seti s kn b)) by (rewrite seti_length; clear - Hk L Ls; lia). rewrite (seti_geti_chain s) by exact Hkn.
    rewrite <- cq_cin in Ib. specialize (Is j Hj). rewrite Ek in Is.
    destruct (Nat.eqb_spec k j) as [<-|Q].
    + replace (k <? S k)%nat with true by lia. unfold carf. replace (S k =? 16)%nat with (k =? 15)%nat by reflexivity.
      destruct (Nat.eqb_spec k 15) as [Q|Q]; [|exact Ia]. apply (is_eq _ _ _ Ia). rewrite Q. cbn [Nat.eqb]. lia.
    + unfold kn, n in *. destruct (Nat.ltb_spec k 15) as [Q2|Q2].
      * replace (k =? 15)%nat with false in Ib by lia. replace (S k =? 16)%nat with false by lia.
        destruct (Nat.eqb_spec (S k) j) as [<-|Q3].
        -- rewrite Nat.eqb_refl. replace (S k <? S k)%nat with false by lia. cbn [cin]. apply (is_eq _ _ _ Ib). lia.
        -- replace (j <? S k)%nat with (j <? k)%nat by lia. replace (j =? S k)%nat with false by lia.
           replace (j =? k)%nat with false in Is by lia. exact Is.
      * assert (k = 15)%nat by lia. subst k. cbn [Nat.eqb] in Ib |- *. replace (j <? 16)%nat with true by lia.
        replace (j <? 15)%nat with true in Is by lia. unfold carf.
        destruct j as [|j]; cbn [Nat.eqb]; [exact Ib|]. rewrite Z.add_0_r. exact Is.
  - split; [|exact Ls]. split; [rewrite Ls; exact L|]. intros j Hj. specialize (Is j Hj).
    replace (j <? 16)%nat with true in Is by lia. exact Is.
Qed.

Definition val (f : nat -> Z) : Z := num 65536 16 f.
Lemma car_num : forall f k, num 65536 (S k) (fun j => cin f j mod 65536) + 65536 ^ Z.of_nat (S k) * cq f k = num 65536 (S k) f.
Proof.
  intros f. induction k as [|k IH].
  - rewrite !num_S. change (num 65536 0 (fun j => cin f j mod 65536)) with 0. change (num 65536 0 f) with 0. cbn [cin cq].
    change (65536 ^ Z.of_nat 0) with 1. change (65536 ^ Z.of_nat 1) with 65536. lia.
  - rewrite num_S, (num_S 65536 (S k) f), <- IH. cbn [cin cq]. rewrite (Nat2Z.inj_succ (S k)), Z.pow_succ_r by lia.
    pose proof (Z.div_mod (f (S k) + cq f k) 65536 ltac:(lia)) as Q.
    remember (65536 ^ Z.of_nat (S k)) as T. remember ((f (S k) + cq f k) / 65536) as q. remember ((f (S k) + cq f k) mod 65536) as r. nia.
Qed.
Lemma pow16 : 65536 ^ Z.of_nat 16 = 2 * p25519 + 38.
Proof. vm_compute. reflexivity. Qed.
Lemma car_arith : forall c N q V T p, p <> 0 -> c + 65536 * N + T * q = V -> T = 2 * p + 38 -> (c + 38 * q + 65536 * N) mod p = V mod p.
Proof.
  intros c N q V T p Hp <- ->. replace (c + 65536 * N + (2 * p + 38) * q) with (c + 38 * q + 65536 * N + (2 * q) * p) by ring.
  rewrite Z.mod_add by exact Hp. reflexivity.
Qed.
Lemma carf_num : forall f n, num 65536 (S n) (carf f) = cin f 0 mod 65536 + 38 * cq f 15 + 65536 * num 65536 n (fun i => cin f (S i) mod 65536).
Proof.
  intros f n. rewrite num_front. f_equal. f_equal. apply num_ext. intros i _. unfold carf. apply Z.add_0_r.
Qed.
Lemma p25519_pos : p25519 <> 0.
Proof. vm_compute. discriminate. Qed.
Lemma carf_val : forall f, val (carf f) mod p25519 = val f mod p25519.
Proof.
  intros f. unfold val. pose proof (car_num f 15) as H. rewrite (num_front 65536 15) in H. rewrite (carf_num f 15).
  exact (car_arith _ _ _ _ _ _ p25519_pos H pow16).
Qed.

(** Sizes after carrying *)
Definition digit (v : Z) : Prop := 0 <= v < 65536.
Lemma carf_digit : forall f j, (j =? 0)%nat = false -> digit (carf f j).
Proof. intros f j H. unfold carf, digit. rewrite H. lia. Qed.
Lemma carf_0 : forall f, carf f 0 = f O mod 65536 + 38 * cq f 15.
Proof. reflexivity. Qed.
Lemma cq_15 : forall f B, 0 <= B -> within f B -> - B - 1 <= cq f 15 <= B + 1.
Proof. intros f B HB W. apply cq_bound; [exact HB|lia|exact W]. Qed.
(** If only limb 0 is large, the carries shrink quickly. *)
Lemma cq_shrink : forall f B k, (forall j, (0 < j < 16)%nat -> digit (f j)) -> - B <= f O <= B -> B <= 2 ^ 62 ->
  (4 <= k < 16)%nat -> -1 <= cq f k <= 1.
Proof.
  intros f B k D B0 HB Hk.
  assert (Q0 : - 2 ^ 46 <= cq f 0 <= 2 ^ 46) by (cbn [cq]; lia).
  assert (Q1 : - 2 ^ 31 <= cq f 1 <= 2 ^ 31) by (pose proof (D 1%nat ltac:(lia)); unfold digit in *; change (cq f 1) with ((f 1%nat + cq f 0) / 65536); lia).
  assert (Q2 : - 2 ^ 16 <= cq f 2 <= 2 ^ 16) by (pose proof (D 2%nat ltac:(lia)); unfold digit in *; change (cq f 2) with ((f 2%nat + cq f 1) / 65536); lia).
  assert (Q3 : - 2 <= cq f 3 <= 2) by (pose proof (D 3%nat ltac:(lia)); unfold digit in *; change (cq f 3) with ((f 3%nat + cq f 2) / 65536); lia).
  clear Q0 Q1 Q2. induction k as [|k IH]; [lia|].
  destruct (Nat.eq_dec k 3) as [->|Q].
  - pose proof (D 4%nat ltac:(lia)); unfold digit in *; change (cq f 4) with ((f 4%nat + cq f 3) / 65536); lia.
  - specialize (IH ltac:(lia)). pose proof (D (S k) ltac:(lia)). unfold digit in *. cbn [cq]. lia.
Qed.
(** limb 0 within 38 of a digit, the others digits *)
Definition near (f : nat -> Z) : Prop := - 38 <= f O <= 65536 + 38 /\ forall j, (0 < j < 16)%nat -> digit (f j).
Lemma carf_twice : forall f, within f (2 ^ 54) -> near (carf (carf f)).
Proof.
  intros f W. pose proof (cq_15 f (2 ^ 54) ltac:(lia) W) as Q.
  assert (D : forall j, (0 < j < 16)%nat -> digit (carf f j)) by (intros; apply carf_digit; lia).
  assert (B0 : - 2 ^ 61 <= carf f 0 <= 2 ^ 61) by (rewrite carf_0; lia).
  pose proof (cq_shrink (carf f) (2 ^ 61) 15 D B0 ltac:(lia) ltac:(lia)) as HS.
  split; [rewrite carf_0; lia|]. intros j Hj. apply carf_digit. lia.
Qed.
Lemma near_within : forall f, near f -> within f (2 ^ 17).
Proof. intros f [H0 D] j Hj. destruct j as [|j]; [lia|]. specialize (D (S j) ltac:(lia)). unfold digit in D. lia. Qed.
Lemma carf_near : forall f, near f -> forall j, (j < 16)%nat -> digit (carf f j).
Proof.
  intros f [H0 D] j Hj. destruct j as [|j]; [|apply carf_digit; reflexivity]. rewrite carf_0.
  assert (Q : forall k, (k < 16)%nat -> cq f k = 0 \/ cq f k = cq f 0).
  { induction k as [|k IH]; intros Hk; [right; reflexivity|]. specialize (IH ltac:(lia)). specialize (D (S k) ltac:(lia)). unfold digit in D.
    assert (- 1 <= cq f 0 <= 1) by (cbn [cq]; lia). remember (cq f 0) as q0. cbn [cq]. lia. }
  specialize (Q 15%nat ltac:(lia)). remember (cq f 15) as q. clear Heqq. cbn [cq] in Q. unfold digit. lia.
Qed.

(** ** Multiplication *)
Definition mulf (a b : nat -> Z) : nat -> Z := conv 16 38 a b.
Definition term (a b : nat -> Z) (k i : nat) : Z := if ((i <=? k) && (k - i <? 16))%nat then a i * b (k - i)%nat else 0.
Definition rowf (a b : nat -> Z) (i k : nat) : Z := sumz i (term a b k).
Lemma sumz_abs : forall n f c, (forall i, (i < n)%nat -> - c <= f i <= c) -> - (Z.of_nat n * c) <= sumz n f <= Z.of_nat n * c.
Proof.
  induction n as [|n IH]; intros f c H; cbn [sumz]; [lia|]. specialize (IH f c ltac:(intros; apply H; lia)). specialize (H n ltac:(lia)). lia.
Qed.
Lemma mul_abs : forall x y B, - B <= x <= B -> - B <= y <= B -> - (B * B) <= x * y <= B * B.
Proof. intros x y B Hx Hy. nia. Qed.
Lemma term_abs : forall a b B k i, 0 <= B -> (i < 16)%nat -> within a B -> within b B -> - (B * B) <= term a b k i <= B * B.
Proof.
  intros a b B k i HB Hi Wa Wb. unfold term. destruct ((i <=? k) && (k - i <? 16))%nat eqn:E; [|nia].
  apply mul_abs; [apply Wa, Hi|apply Wb; lia].
Qed.
Lemma rowf_abs : forall a b B k i, 0 <= B -> (i <= 16)%nat -> within a B -> within b B -> - (16 * (B * B)) <= rowf a b i k <= 16 * (B * B).
Proof.
  intros a b B k i HB Hi Wa Wb. pose proof (sumz_abs i (term a b k) (B * B)) as H. unfold rowf.
  specialize (H ltac:(intros j Hj; apply term_abs; assumption || lia)). nia.
Qed.
Definition limbs31 (l : list pint) (f : nat -> Z) : Prop := length l = 31%nat /\ forall j, (j < 31)%nat -> is (geti l j) (f j).
Lemma limbs31_ext : forall l f g, limbs31 l f -> (forall j, (j < 31)%nat -> f j = g j) -> limbs31 l g.
Proof. intros l f g [L I] E. split; [exact L|]. intros j Hj. apply (is_eq _ (f j)); [apply I, Hj|apply E, Hj]. Qed.
Lemma mul_cell : forall t a b la lb g i j, limbs31 t g -> limbs la a -> limbs lb b -> (i < 16)%nat -> (j < 16)%nat ->
  within a (2 ^ 19) -> within b (2 ^ 19) -> - 2 ^ 45 <= g (i + j)%nat <= 2 ^ 45 ->
  limbs31 (seti t (i + j) (padd (geti t (i + j)) (pmul (geti la i) (geti lb j))))
    (fun k => if (k =? i + j)%nat then g k + a i * b j else g k).
Proof.
  intros t a b la lb g i j [L I] [_ Ia] [_ Ib] Hi Hj Wa Wb Bg. split; [rewrite seti_length; exact L|]. intros k Hk.
  rewrite seti_geti_chain by lia. rewrite Nat.eqb_sym. destruct (Nat.eqb_spec k (i + j)) as [->|Q]; [|apply I, Hk].
  pose proof (mul_abs _ _ _ (Wa i Hi) (Wb j Hj)) as M.
  apply is_add; [apply I, Hk|apply is_mul; [apply Ia, Hi|apply Ib, Hj|unfold fits; lia]|unfold fits; lia].
Qed.
Lemma mul_row : forall t a b la lb i, limbs31 t (rowf a b i) -> limbs la a -> limbs lb b -> (i < 16)%nat ->
  within a (2 ^ 19) -> within b (2 ^ 19) ->
  limbs31 (for_range 16 (fun t j => seti t (i + j) (padd (geti t (i + j)) (pmul (geti la i) (geti lb j)))) t) (rowf a b (S i)).
Proof.
  intros t a b la lb i T Ia Ib Hi Wa Wb.
  match goal with |- limbs31 (for_range 16 ?ff ?s0) _ =>
    pose proof (for_range_inv _ (fun j s => limbs31 s (fun k => rowf a b i k + (if ((i <=? k) && (k <? i + j))%nat then a i * b (k - i)%nat else 0))) 16 ff s0) as P end.
  apply (limbs31_ext _ (fun k => rowf a b i k + (if ((i <=? k) && (k <? i + 16))%nat then a i * b (k - i)%nat else 0))).
  - apply P; clear P.
    + apply (limbs31_ext _ _ _ T). intros k Hk. replace ((i <=? k) && (k <? i + 0))%nat with false by lia. lia.
    + intros j s Hj HS. pose proof (rowf_abs a b (2 ^ 19) (i + j) i ltac:(lia) ltac:(lia) Wa Wb) as B.
      pose proof (mul_cell s a b la lb _ i j HS Ia Ib Hi Hj Wa Wb) as M. cbv beta in M.
      replace ((i <=? i + j) && (i + j <? i + j))%nat with false in M by lia. specialize (M ltac:(lia)).
      apply (limbs31_ext _ _ _ M). intros k Hk. cbv beta. destruct (Nat.eqb_spec k (i + j)) as [->|Q].
      * replace ((i <=? i + j) && (i + j <? i + j))%nat with false by lia. replace ((i <=? i + j) && (i + j <? i + S j))%nat with true by lia.
        replace (i + j - i)%nat with j by lia. lia.
      * replace ((i <=? k) && (k <? i + S j))%nat with ((i <=? k) && (k <? i + j))%nat by lia. reflexivity.
  - intros k Hk. unfold rowf. cbn [sumz]. f_equal. unfold term.
    replace ((i <=? k) && (k <? i + 16))%nat with ((i <=? k) && (k - i <? 16))%nat by lia. reflexivity.
Qed.
Lemma fold_conv : forall a b k, (k < 16)%nat -> rowf a b 16 k + 38 * (if (k <? 15)%nat then rowf a b 16 (k + 16) else 0) = mulf a b k.
Proof.
  intros a b k Hk. unfold rowf, mulf, conv.
  assert (E : 38 * (if (k <? 15)%nat then sumz 16 (term a b (k + 16)) else 0) = sumz 16 (fun i => 38 * term a b (k + 16) i)).
  { rewrite sumz_scal. destruct (Nat.ltb_spec k 15) as [Q|Q]; [reflexivity|]. f_equal.
    rewrite (sumz_ext 16 (term a b (k + 16)) (fun _ => 0 * 0)); [rewrite sumz_scal; reflexivity|].
    intros i Hi. unfold term. replace ((i <=? k + 16) && (k + 16 - i <? 16))%nat with false by lia. reflexivity. }
  rewrite E, <- sumz_add. apply sumz_ext. intros i Hi. unfold term.
  destruct (Nat.leb_spec i k) as [Q|Q].
  - replace ((true && (k - i <? 16))%nat) with true by lia. replace ((i <=? k + 16) && (k + 16 - i <? 16))%nat with false by lia. lia.
  - cbn [andb]. replace ((i <=? k + 16) && (k + 16 - i <? 16))%nat with true by lia. lia.
Qed.
Lemma mulf_within : forall a b, within a (2 ^ 19) -> within b (2 ^ 19) -> within (mulf a b) (2 ^ 54).
Proof.
  intros a b Wa Wb k Hk. rewrite <- fold_conv by exact Hk.
  pose proof (rowf_abs a b (2 ^ 19) k 16 ltac:(lia) ltac:(lia) Wa Wb). pose proof (rowf_abs a b (2 ^ 19) (k + 16) 16 ltac:(lia) ltac:(lia) Wa Wb).
  destruct (k <? 15)%nat; lia.
Qed.
Lemma copy16 : forall o t, (16 <= length o)%nat -> for_range 16 (fun o i => seti o i (geti t i)) o = map (geti t) (seq 0 16) ++ skipn 16 o.
Proof. intros o t L. apply (for_range_fill 16 (geti t)). exact L. Qed.
Lemma limbs_fill : forall o (g : nat -> pint) f, (16 <= length o)%nat -> (forall j, (j < 16)%nat -> is (g j) (f j)) ->
  limbs (for_range 16 (fun o i => seti o i (g i)) o) f /\ length (for_range 16 (fun o i => seti o i (g i)) o) = length o.
Proof.
  intros o g f L I. rewrite for_range_fill by exact L.
  assert (LL : length (map g (seq 0 16) ++ skipn 16 o) = length o) by (rewrite app_length, map_length, seq_length, skipn_length; lia).
  split; [|exact LL]. split; [lia|]. intros j Hj. unfold geti. rewrite app_nth1 by (rewrite map_length, seq_length; exact Hj).
  rewrite (nth_indep _ _ (g O)) by (rewrite map_length, seq_length; exact Hj). rewrite (map_nth g), seq_nth by exact Hj. apply I, Hj.
Qed.
Lemma fM_w : forall o la lb a b, (16 <= length o)%nat -> limbs la a -> limbs lb b -> within a (2 ^ 19) -> within b (2 ^ 19) ->
  limbs (fM o la lb) (carf (carf (mulf a b))) /\ length (fM o la lb) = length o.
Proof.
  intros o la lb a b L Ia Ib Wa Wb. unfold fM. cbv zeta.
  match goal with |- context [for_range 15 _ (for_range 16 ?ff ?s0)] =>
    pose proof (for_range_inv _ (fun i s => limbs31 s (rowf a b i)) 16 ff s0) as P end.
  match type of P with _ -> _ -> ?c => assert (T : c) end.
  { apply P; clear P.
    - split; [reflexivity|]. intros j Hj. unfold rowf. cbn [sumz]. unfold geti, int_array.
      assert (E : nth j (repeat (mk TI64 0) 31) (plain 0) = mk TI64 0) by (do 31 (destruct j as [|j]; [reflexivity|]); lia).
      rewrite E. split; [left; reflexivity|reflexivity].
    - intros i s Hi HS. apply mul_row; assumption. }
  clear P. cbv beta in T. match type of T with limbs31 ?x _ => remember x as t eqn:Q; clear Q end.
  match goal with |- context [for_range 15 ?ff ?s0] =>
    pose proof (for_range_inv _ (fun i s => limbs31 s (fun k => if (k <? i)%nat then mulf a b k else rowf a b 16 k)) 15 ff s0) as P end.
  match type of P with _ -> _ -> ?c => assert (T2 : c) end.
  { apply P; clear P.
    - exact T.
    - intros i s Hi [Ls Is]. split; [rewrite seti_length; exact Ls|]. intros k Hk. rewrite seti_geti_chain by lia.
      destruct (Nat.eqb_spec i k) as [<-|Q].
      + replace (i <? S i)%nat with true by lia. pose proof (Is i ltac:(lia)) as I1. pose proof (Is (i + 16)%nat ltac:(lia)) as I2.
        cbv beta in I1, I2. replace (i <? i)%nat with false in I1 by lia. replace (i + 16 <? i)%nat with false in I2 by lia.
        pose proof (rowf_abs a b (2 ^ 19) i 16 ltac:(lia) ltac:(lia) Wa Wb). pose proof (rowf_abs a b (2 ^ 19) (i + 16) 16 ltac:(lia) ltac:(lia) Wa Wb).
        pose proof (fold_conv a b i ltac:(lia)) as F. replace (i <? 15)%nat with true in F by lia.
        apply (is_eq _ (rowf a b 16 i + 38 * rowf a b 16 (i + 16))); [|exact F].
        apply is_add; [exact I1|apply is_mul; [apply is_plain|exact I2|unfold fits; lia]|unfold fits; lia].
      + replace (k <? S i)%nat with (k <? i)%nat by lia. apply Is, Hk. }
  clear P T. cbv beta in T2. match type of T2 with limbs31 ?x _ => remember x as t2 eqn:Q; clear Q end. destruct T2 as [L2 I2].
  destruct (limbs_fill o (geti t2) (mulf a b) L) as [I3 L3].
  - intros j Hj. specialize (I2 j ltac:(lia)). cbv beta in I2. apply (is_eq _ _ _ I2).
    destruct (Nat.ltb_spec j 15) as [Q|Q]; [reflexivity|]. pose proof (fold_conv a b j Hj) as F. replace (j <? 15)%nat with false in F by lia. lia.
  - pose proof (mulf_within a b Wa Wb) as WM.
    destruct (car_w _ _ (2 ^ 54) I3 ltac:(lia) WM) as [I4 L4].
    destruct (car_w _ _ (2 ^ 54) I4 ltac:(lia)) as [I5 L5].
    + intros j Hj. destruct j as [|j]; [|pose proof (carf_digit (mulf a b) (S j) eq_refl) as D; unfold digit in D; lia].
      rewrite carf_0. pose proof (cq_15 (mulf a b) (2 ^ 48) ltac:(lia)) as Q.
      assert (W48 : within (mulf a b) (2 ^ 48)); [|specialize (Q W48); lia].
      intros k Hk. rewrite <- fold_conv by exact Hk.
      pose proof (rowf_abs a b (2 ^ 19) k 16 ltac:(lia) ltac:(lia) Wa Wb). pose proof (rowf_abs a b (2 ^ 19) (k + 16) 16 ltac:(lia) ltac:(lia) Wa Wb).
      destruct (k <? 15)%nat; lia.
    + split; [exact I5|]. rewrite L5, L4. exact L3.
Qed.

(** ** Field elements: 16 limbs of at most [B], with the value [v] modulo p *)
Definition fe (B : Z) (l : list pint) (v : Z) : Prop :=
  exists f, limbs l f /\ within f B /\ val f mod p25519 = v mod p25519.
Lemma fe_weak : forall B B' l v, fe B l v -> B <= B' -> fe B' l v.
Proof. intros B B' l v (f & L & W & E) H. exists f. split; [exact L|]. split; [|exact E]. intros j Hj. specialize (W j Hj). lia. Qed.
Lemma fe_eq : forall B l v v', fe B l v -> v mod p25519 = v' mod p25519 -> fe B l v'.
Proof. intros B l v v' (f & L & W & E) H. exists f. split; [exact L|]. split; [exact W|]. congruence. Qed.
Lemma fe_length : forall B l v, fe B l v -> (16 <= length l)%nat.
Proof. intros B l v (f & [L _] & _). exact L. Qed.
Lemma pow16_mod : 65536 ^ Z.of_nat 16 mod p25519 = 38 mod p25519.
Proof. vm_compute. reflexivity. Qed.
Lemma mul_mods : forall p a b x y, a mod p = x mod p -> b mod p = y mod p -> (a * b) mod p = ((x * y) mod p) mod p.
Proof. intros p a b x y H1 H2. rewrite Zmod_mod, Zmult_mod, H1, H2, <- Zmult_mod. reflexivity. Qed.
Lemma add_mods : forall p a b x y, a mod p = x mod p -> b mod p = y mod p -> (a + b) mod p = ((x + y) mod p) mod p.
Proof. intros p a b x y H1 H2. rewrite Zmod_mod, Zplus_mod, H1, H2, <- Zplus_mod. reflexivity. Qed.
Lemma sub_mods : forall p a b x y, a mod p = x mod p -> b mod p = y mod p -> (a - b) mod p = ((x - y) mod p) mod p.
Proof. intros p a b x y H1 H2. rewrite Zmod_mod, Zminus_mod, H1, H2, <- Zminus_mod. reflexivity. Qed.
Lemma mulf_val : forall f g, val (mulf f g) mod p25519 = (val f * val g) mod p25519.
Proof. intros f g. exact (num_conv_mod 65536 16 38 p25519 f g ltac:(lia) p25519_pos pow16_mod). Qed.
Lemma mulf_fe : forall p m f g u v, m mod p = (f * g) mod p -> f mod p = u mod p -> g mod p = v mod p -> m mod p = ((u * v) mod p) mod p.
Proof. intros p m f g u v -> Hf Hg. apply mul_mods; assumption. Qed.
Lemma carf_twice_val : forall f, val (carf (carf f)) mod p25519 = val f mod p25519.
Proof. intros f. rewrite (carf_val (carf f)). apply carf_val. Qed.
Lemma fM_val : forall f g u v, val f mod p25519 = u mod p25519 -> val g mod p25519 = v mod p25519 ->
  val (carf (carf (mulf f g))) mod p25519 = fmul u v mod p25519.
Proof. intros f g u v Ef Eg. apply (eq_trans (carf_twice_val _)). exact (mulf_fe p25519 _ _ _ u v (mulf_val f g) Ef Eg). Qed.
Lemma fM_fe : forall o la lb u v, (16 <= length o)%nat -> fe (2 ^ 19) la u -> fe (2 ^ 19) lb v ->
  fe (2 ^ 17) (fM o la lb) (fmul u v) /\ length (fM o la lb) = length o.
Proof.
  intros o la lb u v L (f & If & Wf & Ef) (g & Ig & Wg & Eg). destruct (fM_w o la lb f g L If Ig Wf Wg) as [I LL]. split; [|exact LL].
  exists (carf (carf (mulf f g))). split; [exact I|]. split; [exact (near_within _ (carf_twice _ (mulf_within f g Wf Wg)))|exact (fM_val f g u v Ef Eg)].
Qed.
Lemma num_add : forall B n f g, num B n (fun i => f i + g i) = num B n f + num B n g.
Proof. intros B n f g. unfold num. rewrite <- sumz_add. apply sumz_ext. intros i _. ring. Qed.
Lemma num_sub : forall B n f g, num B n (fun i => f i - g i) = num B n f - num B n g.
Proof. intros B n f g. induction n as [|n IH]; [reflexivity|]. rewrite !num_S, IH. ring. Qed.
Lemma fA_val : forall f g u v, val f mod p25519 = u mod p25519 -> val g mod p25519 = v mod p25519 ->
  val (fun i => f i + g i) mod p25519 = fadd u v mod p25519.
Proof.
  intros f g u v Ef Eg. assert (E : val (fun i => f i + g i) = val f + val g) by apply num_add. rewrite E.
  exact (add_mods p25519 _ _ u v Ef Eg).
Qed.
Lemma fA_w : forall A B o la lb f g, (16 <= length o)%nat -> 0 <= A <= 2 ^ 60 -> 0 <= B <= 2 ^ 60 -> limbs la f -> limbs lb g -> within f A -> within g B ->
  limbs (fA o la lb) (fun i => f i + g i) /\ within (fun i => f i + g i) (A + B) /\ length (fA o la lb) = length o.
Proof.
  intros A B o la lb f g L HA HB [_ If] [_ Ig] Wf Wg. unfold fA.
  destruct (limbs_fill o (fun i => padd (geti la i) (geti lb i)) (fun i => f i + g i) L) as [I LL].
  - intros j Hj. specialize (Wf j Hj). specialize (Wg j Hj). apply is_add; [apply If, Hj|apply Ig, Hj|unfold fits; clear - Wf Wg HA HB; lia].
  - split; [exact I|]. split; [|exact LL]. intros j Hj. specialize (Wf j Hj). specialize (Wg j Hj). clear - Wf Wg HA HB. lia.
Qed.
Lemma fA_fe : forall A B o la lb u v, (16 <= length o)%nat -> 0 <= A <= 2 ^ 60 -> 0 <= B <= 2 ^ 60 -> fe A la u -> fe B lb v ->
  fe (A + B) (fA o la lb) (fadd u v) /\ length (fA o la lb) = length o.
Proof.
  intros A B o la lb u v L HA HB (f & If & Wf & Ef) (g & Ig & Wg & Eg).
  destruct (fA_w A B o la lb f g L HA HB If Ig Wf Wg) as (I & W & LL). split; [|exact LL].
  exists (fun i => f i + g i). split; [exact I|]. split; [exact W|exact (fA_val f g u v Ef Eg)].
Qed.
Lemma fZ_val : forall f g u v, val f mod p25519 = u mod p25519 -> val g mod p25519 = v mod p25519 ->
  val (fun i => f i - g i) mod p25519 = fsub u v mod p25519.
Proof.
  intros f g u v Ef Eg. assert (E : val (fun i => f i - g i) = val f - val g) by apply num_sub. rewrite E.
  exact (sub_mods p25519 _ _ u v Ef Eg).
Qed.
Lemma fZ_w : forall A B o la lb f g, (16 <= length o)%nat -> 0 <= A <= 2 ^ 60 -> 0 <= B <= 2 ^ 60 -> limbs la f -> limbs lb g -> within f A -> within g B ->
  limbs (fZ o la lb) (fun i => f i - g i) /\ within (fun i => f i - g i) (A + B) /\ length (fZ o la lb) = length o.
Proof.
  intros A B o la lb f g L HA HB [_ If] [_ Ig] Wf Wg. unfold fZ.
  destruct (limbs_fill o (fun i => psub (geti la i) (geti lb i)) (fun i => f i - g i) L) as [I LL].
  - intros j Hj. specialize (Wf j Hj). specialize (Wg j Hj). apply is_sub; [apply If, Hj|apply Ig, Hj|unfold fits; clear - Wf Wg HA HB; lia].
  - split; [exact I|]. split; [|exact LL]. intros j Hj. specialize (Wf j Hj). specialize (Wg j Hj). clear - Wf Wg HA HB. lia.
Qed.
Lemma fZ_fe : forall A B o la lb u v, (16 <= length o)%nat -> 0 <= A <= 2 ^ 60 -> 0 <= B <= 2 ^ 60 -> fe A la u -> fe B lb v ->
  fe (A + B) (fZ o la lb) (fsub u v) /\ length (fZ o la lb) = length o.
Proof.
  intros A B o la lb u v L HA HB (f & If & Wf & Ef) (g & Ig & Wg & Eg).
  destruct (fZ_w A B o la lb f g L HA HB If Ig Wf Wg) as (I & W & LL). split; [|exact LL].
  exists (fun i => f i - g i). split; [exact I|]. split; [exact W|exact (fZ_val f g u v Ef Eg)].
Qed.
Lemma copy_fe : forall B o l v, (16 <= length o)%nat -> fe B l v ->
  fe B (for_range 16 (fun o i => seti o i (geti l i)) o) v /\ length (for_range 16 (fun o i => seti o i (geti l i)) o) = length o.
Proof.
  intros B o l v L (f & [_ I] & W & E). destruct (limbs_fill o (geti l) f L I) as [I' LL]. split; [|exact LL].
  exists f. split; [exact I'|]. split; assumption.
Qed.

(** ** Inverses and powers *)
Lemma pow_double : forall v e, 0 <= e -> v ^ e * v ^ e = v ^ (2 * e).
Proof. intros v e H. rewrite <- Z.pow_add_r by exact H. f_equal. lia. Qed.
Fixpoint chain (skip : nat -> bool) (k : nat) : Z :=
  match k with O => 1 | S j => if skip j then 2 * chain skip j else 2 * chain skip j + 1 end.
Lemma chain_pos : forall skip k, 0 <= chain skip k.
Proof. induction k as [|k IH]; cbn [chain]; [lia|]. destruct (skip k); lia. Qed.
Lemma pow_chain : forall (skip : nat -> bool) n o l v, (16 <= length o)%nat -> fe (2 ^ 17) l v ->
  let r := for_range 16 (fun o a => seti o a (geti (for_range n (fun c k => let c := fS c c in if skip k then c else fM c c l)
     (for_range 16 (fun c a => seti c a (geti l a)) gf_new)) a)) o in
  fe (2 ^ 17) r (v ^ chain skip n) /\ length r = length o.
Proof.
  intros skip n o l v L H. cbv zeta. destruct (copy_fe _ gf_new l v ltac:(cbn; lia) H) as [H0 _].
  apply copy_fe; [exact L|].
  match goal with |- context [for_range n ?ff ?s0] => pose proof (for_range_inv _ (fun k s => fe (2 ^ 17) s (v ^ chain skip k)) n ff s0) as P end.
  apply P; clear P.
  - apply (fe_eq _ _ v _ H0). cbn [chain]. rewrite Z.pow_1_r. reflexivity.
  - intros k s Hk Hs. cbv zeta. pose proof (fe_weak _ (2 ^ 19) _ _ Hs ltac:(lia)) as Hs'. unfold fS.
    destruct (fM_fe s s s _ _ (fe_length _ _ _ Hs) Hs' Hs') as [M LM]. cbn [chain].
    assert (M2 : fe (2 ^ 17) (fM s s s) (v ^ (2 * chain skip k))).
    { apply (fe_eq _ _ _ _ M). unfold fmul. rewrite Zmod_mod, pow_double by apply chain_pos. reflexivity. }
    clear M. destruct (skip k); [exact M2|].
    destruct (fM_fe (fM s s s) _ l _ _ (fe_length _ _ _ M2) (fe_weak _ (2 ^ 19) _ _ M2 ltac:(lia)) (fe_weak _ (2 ^ 19) _ _ H ltac:(lia))) as [M3 _].
    apply (fe_eq _ _ _ _ M3). unfold fmul. rewrite Zmod_mod, Z.pow_add_r, Z.pow_1_r by (pose proof (chain_pos skip k); lia). reflexivity.
Qed.
Definition inv_skip (k : nat) : bool := negb (negb (253 - k =? 2)%nat && negb (253 - k =? 4)%nat).
Lemma inv_chain : chain inv_skip 254 = p25519 - 2.
Proof. vm_compute. reflexivity. Qed.
Lemma if_negb : forall A (b : bool) (x y : A), (if b then x else y) = (if negb b then y else x).
Proof. destruct b; reflexivity. Qed.
Lemma inv_fe : forall o l v, (16 <= length o)%nat -> fe (2 ^ 17) l v ->
  fe (2 ^ 17) (inv25519 o l) (finv v) /\ length (inv25519 o l) = length o.
Proof.
  intros o l v L H. unfold inv25519. cbv zeta.
  destruct (pow_chain inv_skip 254 o l v L H) as [P LP].
  rewrite (for_range_ext _ 254 _ (fun c k => let c := fS c c in if inv_skip k then c else fM c c l)).
  - cbv zeta in P, LP |- *. split; [|exact LP]. apply (fe_eq _ _ _ _ P). unfold finv. rewrite Zmod_mod, inv_chain. reflexivity.
  - intros s i _. cbv zeta. apply if_negb.
Qed.
Definition pow_skip (k : nat) : bool := negb (negb (250 - k =? 1)%nat).
Lemma pow_chain2523 : chain pow_skip 251 = (p25519 - 5) / 8.
Proof. vm_compute. reflexivity. Qed.
Lemma pow2523_fe : forall o l v, (16 <= length o)%nat -> fe (2 ^ 17) l v ->
  fe (2 ^ 17) (pow2523 o l) (v ^ ((p25519 - 5) / 8)) /\ length (pow2523 o l) = length o.
Proof.
  intros o l v L H. unfold pow2523. cbv zeta.
  destruct (pow_chain pow_skip 251 o l v L H) as [P LP].
  rewrite (for_range_ext _ 251 _ (fun c k => let c := fS c c in if pow_skip k then c else fM c c l)).
  - cbv zeta in P, LP |- *. split; [|exact LP]. apply (fe_eq _ _ _ _ P). rewrite pow_chain2523. reflexivity.
  - intros s i _. cbv zeta. apply if_negb.
Qed.

(** ** Selecting *)
Lemma lxor_range : forall k x y, 0 <= k -> - 2 ^ k <= x < 2 ^ k -> - 2 ^ k <= y < 2 ^ k -> - 2 ^ k <= Z.lxor x y < 2 ^ k.
Proof.
  assert (A : forall k x, 0 <= k -> (- 2 ^ k <= x < 2 ^ k <-> Z.shiftr x k = 0 \/ Z.shiftr x k = -1)).
  { intros k x Hk. rewrite Z.shiftr_div_pow2 by exact Hk. pose proof (Z.pow_pos_nonneg 2 k ltac:(lia) Hk).
    pose proof (Z.div_mod x (2 ^ k) ltac:(lia)). pose proof (Z.mod_pos_bound x (2 ^ k) ltac:(lia)). split; intros Q; [|destruct Q as [Q|Q]; rewrite Q in *; lia].
    remember (x / 2 ^ k) as q. remember (x mod 2 ^ k) as r. remember (2 ^ k) as T. clear - H H0 H1 Q. nia. }
  intros k x y Hk Hx Hy. apply A in Hx, Hy; try exact Hk. apply A; [exact Hk|]. rewrite Z.shiftr_lxor.
  destruct Hx as [->| ->], Hy as [->| ->]; cbn; auto.
Qed.
Definition bitp (s : bool) : pint := plain (if s then 1 else 0).
Lemma sel_w : forall p q f g s, limbs p f -> limbs q g -> within f (2 ^ 60) -> within g (2 ^ 60) ->
  exists p' q', sel25519 p q (bitp s) = (p', q') /\ length p' = length p /\ length q' = length q /\
    limbs p' (if s then g else f) /\ limbs q' (if s then f else g).
Proof.
  intros p q f g s [Lp Ip] [Lq Iq] Wf Wg. unfold sel25519.
  assert (C : is (cast TI64 (pinv (psub (bitp s) (plain 1)))) (if s then -1 else 0)) by (destruct s; split; [left|..|left|]; reflexivity).
  remember (cast TI64 (pinv (psub (bitp s) (plain 1)))) as c eqn:Q; clear Q. cbv zeta.
  match goal with |- context [for_range 16 ?ff ?s0] =>
    pose proof (for_range_inv _ (fun k (st : list pint * list pint) => length (fst st) = length p /\ length (snd st) = length q /\
      forall j, (j < 16)%nat -> is (geti (fst st) j) (if (j <? k)%nat then if s then g j else f j else f j) /\
        is (geti (snd st) j) (if (j <? k)%nat then if s then f j else g j else g j)) 16 ff s0) as P end.
  match type of P with _ -> _ -> ?cc => assert (T : cc) end.
  { apply P; clear P.
    - split; [reflexivity|]. split; [reflexivity|]. intros j Hj. split; [apply Ip, Hj|apply Iq, Hj].
    - intros k [p1 q1] Hk (L1 & L2 & I). cbn [fst snd] in *. destruct (I k Hk) as [Ik1 Ik2]. rewrite Nat.ltb_irrefl in Ik1, Ik2.
      pose proof (Wf k Hk) as Wk1. pose proof (Wg k Hk) as Wk2.
      pose proof (lxor_range 61 (f k) (g k) ltac:(lia) ltac:(lia) ltac:(lia)) as WX.
      assert (I3 : is (pxor (geti p1 k) (geti q1 k)) (Z.lxor (f k) (g k))) by (apply is_xor; [assumption..|unfold fits; lia]).
      remember (pxor (geti p1 k) (geti q1 k)) as t0 eqn:Q; clear Q.
      assert (I4 : is (pand c t0) (if s then Z.lxor (f k) (g k) else 0)).
      { destruct s; [apply (is_eq _ (Z.land (-1) (Z.lxor (f k) (g k))))|apply (is_eq _ (Z.land 0 (Z.lxor (f k) (g k))))];
          try (apply is_and; [assumption..|]); rewrite ?Z.land_m1_l, ?Z.land_0_l; try reflexivity; unfold fits; lia. }
      remember (pand c t0) as t1 eqn:Q; clear Q.
      assert (I5 : is (pxor (geti p1 k) t1) (if s then g k else f k)).
      { apply (is_eq _ (Z.lxor (f k) (if s then Z.lxor (f k) (g k) else 0))).
        - apply is_xor; [assumption..|]. destruct s; rewrite ?Z.lxor_0_r, <- ?Z.lxor_assoc, ?Z.lxor_nilpotent, ?Z.lxor_0_l; unfold fits; lia.
        - destruct s; rewrite ?Z.lxor_0_r, <- ?Z.lxor_assoc, ?Z.lxor_nilpotent, ?Z.lxor_0_l; reflexivity. }
      assert (I6 : is (pxor (geti q1 k) t1) (if s then f k else g k)).
      { assert (E : Z.lxor (g k) (if s then Z.lxor (f k) (g k) else 0) = if s then f k else g k).
        { destruct s; [|apply Z.lxor_0_r]. rewrite (Z.lxor_comm (f k)), <- Z.lxor_assoc, Z.lxor_nilpotent, Z.lxor_0_l. reflexivity. }
        apply (is_eq _ _ _ (is_xor _ _ _ _ Ik2 I4 ltac:(rewrite E; destruct s; unfold fits; lia)) E). }
      split; [rewrite seti_length; exact L1|]. split; [rewrite seti_length; exact L2|]. intros j Hj. destruct (I j Hj) as [J1 J2].
      rewrite !seti_geti_chain by lia. destruct (Nat.eqb_spec k j) as [<-|Q].
      + replace (k <? S k)%nat with true by lia. split; assumption.
      + replace (j <? S k)%nat with (j <? k)%nat by lia. split; assumption. }
  clear P. cbv beta in T. match type of T with length (fst ?x) = _ /\ _ => remember x as st eqn:Q; clear Q end. destruct st as [p' q'].
  cbn [fst snd] in T. destruct T as (L1 & L2 & I). exists p', q'. split; [reflexivity|]. split; [exact L1|]. split; [exact L2|].
  split; (split; [lia|]); intros j Hj; destruct (I j Hj) as [J1 J2]; replace (j <? 16)%nat with true in * by lia; destruct s; assumption.
Qed.
Lemma sel_fe : forall B p q u v s, 0 <= B <= 2 ^ 60 -> fe B p u -> fe B q v ->
  exists p' q', sel25519 p q (bitp s) = (p', q') /\ length p' = length p /\ length q' = length q /\
    fe B p' (if s then v else u) /\ fe B q' (if s then u else v).
Proof.
  intros B p q u v s HB (f & If & Wf & Ef) (g & Ig & Wg & Eg).
  assert (HW : forall h, within h B -> within h (2 ^ 60)) by (clear - HB; intros h W j Hj; specialize (W j Hj); lia).
  destruct (sel_w p q f g s If Ig (HW f Wf) (HW g Wg)) as (p' & q' & E & L1 & L2 & I1 & I2).
  exists p', q'. split; [exact E|]. split; [exact L1|]. split; [exact L2|].
  destruct s; split; [exists g|exists f|exists f|exists g]; auto.
Qed.
