(** Lemmas about the typed integers and lists of [PyInt]. *)
From Coq Require Import List ZArith Bool Strings.Byte Lia ZifyBool ZifyNat ZifyN.
From Verif Require Import PyBase PyBase_proofs PyInt.
Import ListNotations.
Open Scope Z_scope.
Ltac Zify.zify_post_hook ::= Z.div_mod_to_equations.

(** ** Lists *)
Lemma seti_length : forall l i v, length (seti l i v) = length l.
Proof. induction l as [|x l IH]; intros [|i] v; cbn; auto. Qed.
Lemma geti_seti_eq : forall l i v, (i < length l)%nat -> geti (seti l i v) i = v.
Proof.
  induction l as [|x l IH]; intros [|i] v H; cbn in *; try lia; auto.
  apply IH. lia.
Qed.
Lemma geti_seti_ne : forall l i j v, i <> j -> geti (seti l i v) j = geti l j.
Proof.
  induction l as [|x l IH]; intros [|i] [|j] v H; cbn; auto; try congruence.
  apply IH. congruence.
Qed.
Lemma list_ext : forall l1 l2 : list pint, length l1 = length l2 ->
  (forall i, (i < length l1)%nat -> geti l1 i = geti l2 i) -> l1 = l2.
Proof. intros l1 l2 H E. apply nth_ext with (d := plain 0) (d' := plain 0); assumption. Qed.

Lemma for_range_O : forall A (f : A -> nat -> A) st, for_range 0 f st = st.
Proof. reflexivity. Qed.
Lemma for_range_S : forall A n (f : A -> nat -> A) st, for_range (S n) f st = f (for_range n f st) n.
Proof. intros A n f st. unfold for_range. rewrite seq_S, fold_left_app. reflexivity. Qed.
Lemma for_range_inv : forall A (P : nat -> A -> Prop) n f st,
  P O st -> (forall i s, (i < n)%nat -> P i s -> P (S i) (f s i)) -> P n (for_range n f st).
Proof.
  intros A P n f st H0 HS. assert (G : forall k, (k <= n)%nat -> P k (for_range k f st)).
  { induction k as [|k IH]; intros Hk; [exact H0|]. rewrite for_range_S. apply HS; [lia|]. apply IH. lia. }
  apply G. lia.
Qed.
Lemma for_range_ext : forall A n (f g : A -> nat -> A) st, (forall s i, (i < n)%nat -> f s i = g s i) ->
  for_range n f st = for_range n g st.
Proof.
  induction n as [|n IH]; intros f g st H; [reflexivity|]. rewrite !for_range_S, (IH f g).
  - apply H. lia.
  - intros s i Hi. apply H. lia.
Qed.

(** [for i in range(n): l[i] = g(i)] *)
Lemma for_range_fill : forall n (g : nat -> pint) l, (n <= length l)%nat ->
  for_range n (fun l i => seti l i (g i)) l = map g (seq 0 n) ++ skipn n l.
Proof.
  intros n g l H.
  assert (G : length (for_range n (fun l i => seti l i (g i)) l) = length l /\
     forall i, geti (for_range n (fun l i => seti l i (g i)) l) i = if (i <? n)%nat then g i else geti l i).
  { apply (for_range_inv _ (fun k s => length s = length l /\ forall i, geti s i = if (i <? k)%nat then g i else geti l i)).
    - split; [reflexivity|]. intros i. destruct (i <? 0)%nat eqn:E; [lia|reflexivity].
    - intros k s Hk [HL HG]. split; [rewrite seti_length; exact HL|]. intros i.
      destruct (Nat.eq_dec k i) as [<-|N].
      + rewrite geti_seti_eq by lia. replace (k <? S k)%nat with true by lia. reflexivity.
      + rewrite geti_seti_ne by exact N. rewrite HG.
        destruct (i <? k)%nat eqn:E1, (i <? S k)%nat eqn:E2; try lia; reflexivity. }
  destruct G as [GL GG]. apply list_ext.
  - rewrite GL, app_length, map_length, seq_length, skipn_length. lia.
  - intros i Hi. rewrite GG. unfold geti. destruct (i <? n)%nat eqn:E.
    + rewrite app_nth1 by (rewrite map_length, seq_length; lia).
      rewrite nth_indep with (d' := g O) by (rewrite map_length, seq_length; lia).
      rewrite map_nth with (d := O), seq_nth by lia. reflexivity.
    + rewrite app_nth2 by (rewrite map_length, seq_length; lia). rewrite map_length, seq_length.
      rewrite <- (firstn_skipn n l) at 1.
      rewrite app_nth2 by (rewrite firstn_length; lia). rewrite firstn_length. f_equal. lia.
Qed.
Lemma map_geti_seq : forall l n, (n <= length l)%nat -> map (geti l) (seq 0 n) = firstn n l.
Proof.
  intros l n H. apply list_ext.
  - rewrite map_length, seq_length, firstn_length. lia.
  - intros i Hi. rewrite map_length, seq_length in Hi. unfold geti at 1.
    rewrite nth_indep with (d' := geti l O) by (rewrite map_length, seq_length; lia).
    rewrite map_nth with (d := O), seq_nth by lia. cbn [Nat.add].
    unfold geti. rewrite <- (firstn_skipn n l) at 1. rewrite app_nth1 by (rewrite firstn_length; lia). reflexivity.
Qed.
Lemma for_range_copy : forall n l m, (n <= length l)%nat -> (n <= length m)%nat ->
  for_range n (fun l i => seti l i (geti m i)) l = firstn n m ++ skipn n l.
Proof. intros n l m H1 H2. rewrite for_range_fill by exact H1. rewrite map_geti_seq by exact H2. reflexivity. Qed.

(** ** Bits *)
Lemma bits_bound : forall n x, 0 <= n -> 0 <= x -> (forall i, n <= i -> Z.testbit x i = false) -> x < 2 ^ n.
Proof.
  intros n x Hn Hx H. assert (E : x = x mod 2 ^ n).
  { apply Z.bits_inj'. intros i Hi. destruct (Z.ltb_spec i n).
    - rewrite Z.mod_pow2_bits_low by lia. reflexivity.
    - rewrite Z.mod_pow2_bits_high by lia. apply H. lia. }
  rewrite E. apply Z.mod_pos_bound. apply Z.pow_pos_nonneg; lia.
Qed.
Lemma high_bits : forall n x i, 0 <= x < 2 ^ n -> 0 <= n <= i -> Z.testbit x i = false.
Proof. intros n x i Hx Hi. rewrite <- (Z.mod_small x (2 ^ n)) by lia. apply Z.mod_pow2_bits_high. lia. Qed.
Lemma land_bound : forall n x y, 0 <= n -> 0 <= x < 2 ^ n -> 0 <= y -> 0 <= Z.land x y < 2 ^ n.
Proof.
  intros n x y Hn Hx Hy. assert (0 <= Z.land x y) by (apply Z.land_nonneg; lia). split; [assumption|].
  apply bits_bound; try lia. intros i Hi. rewrite Z.land_spec, (high_bits n x) by lia. reflexivity.
Qed.
Lemma lor_bound : forall n x y, 0 <= n -> 0 <= x < 2 ^ n -> 0 <= y < 2 ^ n -> 0 <= Z.lor x y < 2 ^ n.
Proof.
  intros n x y Hn Hx Hy. assert (0 <= Z.lor x y) by (apply Z.lor_nonneg; lia). split; [assumption|].
  apply bits_bound; try lia. intros i Hi. rewrite Z.lor_spec, (high_bits n x), (high_bits n y) by lia. reflexivity.
Qed.
Lemma lxor_bound : forall n x y, 0 <= n -> 0 <= x < 2 ^ n -> 0 <= y < 2 ^ n -> 0 <= Z.lxor x y < 2 ^ n.
Proof.
  intros n x y Hn Hx Hy. assert (0 <= Z.lxor x y) by (apply Z.lxor_nonneg; lia). split; [assumption|].
  apply bits_bound; try lia. intros i Hi. rewrite Z.lxor_spec, (high_bits n x), (high_bits n y) by lia. reflexivity.
Qed.
Lemma land_ones : forall n x, 0 <= n -> Z.land x (2 ^ n - 1) = x mod 2 ^ n.
Proof. intros n x H. rewrite <- Z.land_ones by lia. rewrite Z.ones_equiv. f_equal. Qed.
Lemma lor_shift_add : forall n x y, 0 <= n -> 0 <= x -> 0 <= y < 2 ^ n -> Z.lor (x * 2 ^ n) y = x * 2 ^ n + y.
Proof.
  intros n x y Hn Hx Hy. assert (E : Z.land (x * 2 ^ n) y = 0).
  { apply Z.bits_inj'. intros i Hi. rewrite Z.land_spec, Z.bits_0. destruct (Z.ltb_spec i n).
    - rewrite Z.mul_pow2_bits_low by lia. reflexivity.
    - rewrite (high_bits n y) by lia. apply andb_false_r. }
  rewrite Z.add_nocarry_lxor by exact E. symmetry. apply Z.lxor_lor. exact E.
Qed.
Lemma lxor_ones : forall n x, 0 <= n -> 0 <= x < 2 ^ n -> Z.lxor x (2 ^ n - 1) = 2 ^ n - 1 - x.
Proof.
  intros n x Hn Hx. replace (2 ^ n - 1) with (Z.ones n) by (rewrite Z.ones_equiv; lia).
  apply Z.add_cancel_r with (p := x). replace (Z.ones n - x + x) with (Z.ones n) by lia.
  assert (E : Z.land (Z.lxor x (Z.ones n)) x = 0).
  { apply Z.bits_inj'. intros i Hi. rewrite Z.land_spec, Z.lxor_spec, Z.bits_0.
    destruct (Z.ltb_spec i n).
    - rewrite Z.ones_spec_low by lia. destruct (Z.testbit x i); reflexivity.
    - rewrite (high_bits n x) by lia. apply andb_false_r. }
  rewrite Z.add_nocarry_lxor by exact E.
  rewrite (Z.lxor_comm x), Z.lxor_assoc, Z.lxor_nilpotent, Z.lxor_0_r. reflexivity.
Qed.

(** ** Typed values *)
Lemma mk_u64 : forall v, 0 <= v -> mk TU64 v = PI TU64 (v mod 2 ^ 64).
Proof. intros v H. unfold mk. replace (v <? 0) with false by lia. cbn [mask]. rewrite land_ones by lia. reflexivity. Qed.
Lemma mk_u32 : forall v, 0 <= v -> mk TU32 v = PI TU32 (v mod 2 ^ 64).
Proof. intros v H. unfold mk. replace (v <? 0) with false by lia. cbn [mask]. rewrite land_ones by lia. reflexivity. Qed.
Lemma mk_u8 : forall v, 0 <= v -> mk TU8 v = PI TU8 (v mod 2 ^ 8).
Proof. intros v H. unfold mk. replace (v <? 0) with false by lia. cbn [mask]. rewrite land_ones by lia. reflexivity. Qed.
Lemma mk_i64 : forall v, - 2 ^ 63 < v < 2 ^ 63 -> mk TI64 v = PI TI64 v.
Proof.
  intros v H. unfold mk. cbn [mask signed]. rewrite !land_ones by lia. f_equal.
  destruct (v <? 0) eqn:E; rewrite Z.mod_small; lia.
Qed.

Definition word (x : Z) : Prop := 0 <= x < 2 ^ 64.
Definition q64 (x : Z) : pint := PI TU64 x.

Lemma padd_u64 : forall a b, 0 <= a -> 0 <= b -> padd (q64 a) (q64 b) = q64 ((a + b) mod 2 ^ 64).
Proof.
  intros a b Ha Hb. unfold padd, typed, q64. cbn [pt pv]. unfold promote.
  replace (a + b <? 0) with false by lia. cbn. apply mk_u64. lia.
Qed.
Lemma typed_u64 : forall op a b, word (op a b) -> typed op (q64 a) (q64 b) = q64 (op a b).
Proof.
  intros op a b H. unfold word in H. unfold typed, q64. cbn [pt pv]. unfold promote.
  replace (op a b <? 0) with false by lia. cbn [andb order]. change (3 >? 3) with false. cbv iota.
  rewrite mk_u64 by lia. rewrite Z.mod_small by lia. reflexivity.
Qed.
Lemma pand_u64 : forall a b, word a -> word b -> pand (q64 a) (q64 b) = q64 (Z.land a b).
Proof. intros a b Ha Hb. apply typed_u64. apply land_bound; unfold word in *; lia. Qed.
Lemma por_u64 : forall a b, word a -> word b -> por (q64 a) (q64 b) = q64 (Z.lor a b).
Proof. intros a b Ha Hb. apply typed_u64. apply lor_bound; unfold word in *; lia. Qed.
Lemma pxor_u64 : forall a b, word a -> word b -> pxor (q64 a) (q64 b) = q64 (Z.lxor a b).
Proof. intros a b Ha Hb. apply typed_u64. apply lxor_bound; unfold word in *; lia. Qed.
Lemma pshl_u64 : forall a n, 0 <= a -> 0 <= n -> pshl (q64 a) n = q64 ((a * 2 ^ n) mod 2 ^ 64).
Proof.
  intros a n Ha Hn. unfold pshl, q64. cbn [pt pv]. rewrite Z.shiftl_mul_pow2 by lia. apply mk_u64.
  assert (0 < 2 ^ n) by (apply Z.pow_pos_nonneg; lia). nia.
Qed.
Lemma div_word : forall a n, word a -> 0 <= n -> word (a / 2 ^ n).
Proof.
  intros a n Ha Hn. assert (0 < 2 ^ n) by (apply Z.pow_pos_nonneg; lia). unfold word in *. split.
  - apply Z.div_pos; lia.
  - apply Z.le_lt_trans with a; [|lia]. apply Z.div_le_upper_bound; nia.
Qed.
Lemma pshr_u64 : forall a n, word a -> 0 <= n -> pshr (q64 a) n = q64 (a / 2 ^ n).
Proof.
  intros a n Ha Hn. unfold pshr, q64. cbn [pt pv]. rewrite Z.shiftr_div_pow2 by lia.
  pose proof (div_word a n Ha Hn) as W. unfold word in W. rewrite mk_u64 by lia. rewrite Z.mod_small by lia. reflexivity.
Qed.
Lemma pinv_u64 : forall a, word a -> pinv (q64 a) = q64 (2 ^ 64 - 1 - a).
Proof.
  intros a Ha. unfold pinv, q64. cbn [pt pv signed mask]. rewrite lxor_ones by (unfold word in *; lia).
  unfold word in *. rewrite mk_u64 by lia. rewrite Z.mod_small by lia. reflexivity.
Qed.
Lemma cast_u64 : forall a, word a -> cast TU64 (q64 a) = q64 a.
Proof. intros a Ha. unfold word in Ha. unfold cast, q64. cbn [pv]. rewrite mk_u64, Z.mod_small by lia. reflexivity. Qed.

(** ** Lists holding the bytes of a byte string, whatever the types of the items *)
Definition holds (l : list pint) (b : bytes) : Prop := map pv l = map b2z b.
Lemma holds_length : forall l b, holds l b -> length l = length b.
Proof. intros l b H. rewrite <- (map_length pv l), <- (map_length b2z b), H. reflexivity. Qed.
Lemma holds_of_bytes : forall b, holds (of_bytes b) b.
Proof. intros b. unfold holds, of_bytes. rewrite map_map. apply map_ext. reflexivity. Qed.
Lemma holds_to_bytes : forall l b, holds l b -> to_bytes l = b.
Proof.
  intros l b H. unfold to_bytes. rewrite <- (map_map pv z2b), H, map_map. rewrite <- (map_id b) at 2.
  apply map_ext. exact z2b_b2z.
Qed.
Lemma holds_skipn : forall n l b, holds l b -> holds (skipn n l) (skipn n b).
Proof. intros n l b H. unfold holds. rewrite <- !skipn_map. f_equal. exact H. Qed.
Lemma holds_firstn : forall n l b, holds l b -> holds (firstn n l) (firstn n b).
Proof. intros n l b H. unfold holds. rewrite <- !firstn_map. f_equal. exact H. Qed.
Lemma holds_app : forall l1 b1 l2 b2, holds l1 b1 -> holds l2 b2 -> holds (l1 ++ l2) (b1 ++ b2).
Proof. intros l1 b1 l2 b2 H1 H2. unfold holds in *. rewrite !map_app. congruence. Qed.
Lemma holds_cons : forall x l c b, pv x = b2z c -> holds l b -> holds (x :: l) (c :: b).
Proof. intros x l c b H1 H2. unfold holds in *. cbn. congruence. Qed.
Lemma holds_inv : forall l c b, holds l (c :: b) -> exists x r, l = x :: r /\ pv x = b2z c /\ holds r b.
Proof.
  intros [|x r] c b H; [discriminate|]. exists x, r. unfold holds in H. cbn in H.
  injection H as H1 H2. auto.
Qed.
Lemma holds_geti : forall l b i, holds l b -> (i < length b)%nat -> pv (geti l i) = b2z (nth i b x00).
Proof.
  intros l b i H Hi. unfold geti. change (pv (nth i l (plain 0)) = b2z (nth i b x00)).
  rewrite <- (map_nth pv), <- (map_nth b2z). unfold holds in H. rewrite H. reflexivity.
Qed.
Lemma b2z_byte : forall b, 0 <= b2z b < 2 ^ 8.
Proof. intros b. pose proof (b2z_range b). lia. Qed.
