(** The Salsa20 code of the pure Python NaCl port against Bernstein's specification. *)
From Coq Require Import List ZArith Bool Strings.Byte Lia ZifyBool ZifyNat ZifyN.
From Verif Require Import PyBase PyBase_proofs PyInt PyInt_proofs TwSalsa ShaSpec SalsaSpec TwHash_proofs.
Import ListNotations.
Open Scope Z_scope.
Ltac Zify.zify_post_hook ::= Z.div_mod_to_equations.

(** ** Words: only the low 32 bits of a "u32", 64 bits wide, matter *)
Definition low (p : pint) (a : Z) : Prop :=
  0 <= pv p < 2 ^ 64 /\ pv p mod 2 ^ 32 = a /\ (pt p = TU32 \/ pt p = TPlain).
Definition lowp (p : pint) (a : Z) : Prop := 0 <= pv p < 2 ^ 64 /\ pv p mod 2 ^ 32 = a /\ pt p = TPlain.
Lemma lowp_low : forall p a, lowp p a -> low p a.
Proof. unfold lowp, low. tauto. Qed.

Lemma cast_padd_low : forall p q a b, low p a -> low q b ->
  exists v, cast TU32 (padd p q) = PI TU32 v /\ 0 <= v < 2 ^ 64 /\ v mod 2 ^ 32 = add32 a b.
Proof.
  intros [tp p] [tq q] a b (Hp & <- & Tp) (Hq & <- & Tq). cbn [pv pt] in *. exists ((p + q) mod 2 ^ 64).
  assert (E : pv (padd (PI tp p) (PI tq q)) mod 2 ^ 64 = (p + q) mod 2 ^ 64 /\ 0 <= pv (padd (PI tp p) (PI tq q))).
  { unfold padd, typed. cbn [pv pt]. unfold promote. replace (p + q <? 0) with false by lia. cbn [andb].
    destruct Tp as [-> | ->], Tq as [-> | ->]; cbn [order]; cbn -[Z.add mk]; try rewrite mk_u32 by lia; unfold mk; cbn [pv].
    - rewrite Z.mod_mod by lia. split; [reflexivity|]. apply Z.mod_pos_bound. lia.
    - split; [reflexivity|lia].
    - split; [reflexivity|lia].
    - split; [reflexivity|lia]. }
  destruct E as [E E0]. unfold cast. rewrite mk_u32 by exact E0. rewrite E. split; [reflexivity|].
  split; [apply Z.mod_pos_bound; lia|]. unfold add32. rewrite <- Zplus_mod.
  change (2 ^ 64) with (2 ^ 32 * 2 ^ 32). rewrite Z.rem_mul_r by lia.
  rewrite Z.mul_comm, Z_mod_plus_full. apply Z.mod_mod. lia.
Qed.

Lemma L32_low : forall x v c, cast TU32 x = PI TU32 v -> 0 <= v < 2 ^ 64 -> 0 < c < 32 ->
  exists w, L32 x c = plain w /\ 0 <= w < 2 ^ 64 /\ w mod 2 ^ 32 = rotl32 c (v mod 2 ^ 32).
Proof.
  intros x v c E Hv Hc. unfold L32. rewrite E.
  assert (Pc : 0 < 2 ^ c) by (apply Z.pow_pos_nonneg; lia).
  assert (Pd : 0 < 2 ^ (32 - c)) by (apply Z.pow_pos_nonneg; lia).
  assert (P64 : 0 < 2 ^ (64 - c)) by (apply Z.pow_pos_nonneg; lia).
  assert (E32 : 2 ^ 32 = 2 ^ c * 2 ^ (32 - c)) by (rewrite <- Z.pow_add_r by lia; f_equal; lia).
  assert (E64 : 2 ^ 64 = 2 ^ c * 2 ^ (64 - c)) by (rewrite <- Z.pow_add_r by lia; f_equal; lia).
  assert (EA : pshl (PI TU32 v) c = PI TU32 ((v * 2 ^ c) mod 2 ^ 64)).
  { unfold pshl. cbn [pt pv]. rewrite Z.shiftl_mul_pow2 by lia. apply mk_u32. nia. }
  assert (EB : pand (PI TU32 v) (plain 4294967295) = plain (v mod 2 ^ 32)).
  { unfold pand, typed, plain. cbn [pt pv]. change 4294967295 with (2 ^ 32 - 1). rewrite land_ones by lia.
    pose proof (Z.mod_pos_bound v (2 ^ 32)) as B. unfold promote. replace (v mod 2 ^ 32 <? 0) with false by lia. reflexivity. }
  rewrite EA. change 0xffffffff with 4294967295. rewrite EB. unfold pshr. cbn [pt pv plain]. rewrite Z.shiftr_div_pow2 by lia.
  set (y := v mod 2 ^ 32) in *. assert (Hy : 0 <= y < 2 ^ 32) by (apply Z.mod_pos_bound; lia).
  assert (Hd : 0 <= y / 2 ^ (32 - c) < 2 ^ c).
  { split; [apply Z.div_pos; lia|]. apply Z.div_lt_upper_bound; nia. }
  assert (EM : (v * 2 ^ c) mod 2 ^ 64 = (v mod 2 ^ (64 - c)) * 2 ^ c).
  { rewrite E64. rewrite (Z.mul_comm (2 ^ c) (2 ^ (64 - c))). apply Z.mul_mod_distr_r; lia. }
  assert (HM : 0 <= v mod 2 ^ (64 - c) < 2 ^ (64 - c)) by (apply Z.mod_pos_bound; lia).
  exists (v mod 2 ^ (64 - c) * 2 ^ c + y / 2 ^ (32 - c)). split; [|split].
  - unfold por, typed. cbn [mk pt pv]. rewrite EM, lor_shift_add by lia. unfold promote.
    replace (v mod 2 ^ (64 - c) * 2 ^ c + y / 2 ^ (32 - c) <? 0) with false by nia. reflexivity.
  - nia.
  - unfold rotl32.
    assert (EM2 : (y * 2 ^ c) mod 2 ^ 32 = (y mod 2 ^ (32 - c)) * 2 ^ c).
    { rewrite E32. rewrite (Z.mul_comm (2 ^ c) (2 ^ (32 - c))). apply Z.mul_mod_distr_r; lia. }
    rewrite EM2.
    assert (H3 : 0 <= y mod 2 ^ (32 - c) < 2 ^ (32 - c)) by (apply Z.mod_pos_bound; lia).
    symmetry. apply Z.mod_unique with (q := (v mod 2 ^ (64 - c)) / 2 ^ (32 - c)); [left; nia|].
    assert (EY : y mod 2 ^ (32 - c) = (v mod 2 ^ (64 - c)) mod 2 ^ (32 - c)).
    { unfold y. rewrite E32, (Z.mul_comm (2 ^ c)), Z.rem_mul_r by lia. rewrite Z.mul_comm, Z_mod_plus_full, Z.mod_mod by lia.
      replace (2 ^ (64 - c)) with (2 ^ (32 - c) * 2 ^ 32) by (rewrite <- Z.pow_add_r by lia; f_equal; lia).
      rewrite Z.rem_mul_r by lia. rewrite Z.mul_comm, Z_mod_plus_full, Z.mod_mod by lia. reflexivity. }
    rewrite EY. rewrite (Z.div_mod (v mod 2 ^ (64 - c)) (2 ^ (32 - c))) at 1 by lia. rewrite E32. ring.
Qed.

Lemma lxor_mod : forall n a b, 0 <= n -> (Z.lxor a b) mod 2 ^ n = Z.lxor (a mod 2 ^ n) (b mod 2 ^ n).
Proof.
  intros n a b Hn. apply Z.bits_inj'. intros i Hi. rewrite Z.lxor_spec. destruct (Z.ltb_spec i n).
  - rewrite !Z.mod_pow2_bits_low by lia. apply Z.lxor_spec.
  - rewrite !Z.mod_pow2_bits_high by lia. reflexivity.
Qed.
Lemma qstep : forall t p q a b d c, low t a -> low p b -> low q d -> 0 < c < 32 ->
  lowp (pxor t (L32 (padd p q) c)) (Z.lxor a (rotl32 c (add32 b d))).
Proof.
  intros t p q a b d c Ht Hp Hq Hc. destruct (cast_padd_low p q b d Hp Hq) as (v & E & Hv & Ev).
  destruct (L32_low _ v c E Hv Hc) as (w & -> & Hw & Ew). rewrite Ev in Ew. destruct Ht as (Ht & <- & Tt).
  pose proof (lxor_bound 64 (pv t) w ltac:(lia) Ht Hw) as B.
  unfold pxor, typed, plain. cbn [pt pv]. unfold promote. replace (Z.lxor (pv t) w <? 0) with false by lia. cbn [andb].
  assert (ET : (if order (pt t) >? order TPlain then pt t else TPlain) = TPlain) by (destruct Tt as [-> | ->]; reflexivity).
  rewrite ET. unfold mk, lowp. cbn [pt pv]. split; [exact B|]. split; [|reflexivity].
  rewrite lxor_mod, Ew by lia. reflexivity.
Qed.

Definition list4 (y : Z * Z * Z * Z) : list Z := let '(a, b, c, d) := y in [a; b; c; d].
Lemma quarter_low : forall t0 t1 t2 t3 a0 a1 a2 a3, low t0 a0 -> low t1 a1 -> low t2 a2 -> low t3 a3 ->
  Forall2 lowp (quarter [t0; t1; t2; t3]) (list4 (quarterround (a0, a1, a2, a3))).
Proof.
  intros. unfold quarter. cbn [seti geti nth]. cbv zeta. unfold quarterround, list4. cbv zeta.
  assert (Q1 := qstep t1 t0 t3 a1 a0 a3 7 H0 H H2 ltac:(lia)).
  remember (pxor t1 (L32 (padd t0 t3) 7)) as z1. remember (Z.lxor a1 (rotl32 7 (add32 a0 a3))) as b1. clear Heqz1 Heqb1.
  assert (Q2 := qstep t2 z1 t0 a2 b1 a0 9 H1 (lowp_low _ _ Q1) H ltac:(lia)).
  remember (pxor t2 (L32 (padd z1 t0) 9)) as z2. remember (Z.lxor a2 (rotl32 9 (add32 b1 a0))) as b2. clear Heqz2 Heqb2.
  assert (Q3 := qstep t3 z2 z1 a3 b2 b1 13 H2 (lowp_low _ _ Q2) (lowp_low _ _ Q1) ltac:(lia)).
  remember (pxor t3 (L32 (padd z2 z1) 13)) as z3. remember (Z.lxor a3 (rotl32 13 (add32 b2 b1))) as b3. clear Heqz3 Heqb3.
  assert (Q0 := qstep t0 z3 z2 a0 b3 b2 18 H (lowp_low _ _ Q3) (lowp_low _ _ Q2) ltac:(lia)).
  repeat (apply Forall2_cons; [assumption|]). apply Forall2_nil.
Qed.

(** ** Rounds *)
Definition transpose (x : list Z) : list Z :=
  map (fun i => nth i x 0) [0; 4; 8; 12; 1; 5; 9; 13; 2; 6; 10; 14; 3; 7; 11; 15]%nat.
Lemma rowround_transpose : forall x, length x = 16%nat -> rowround x = transpose (columnround (transpose x)).
Proof.
  intros x H. do 16 (destruct x as [|? x]; [discriminate|]). destruct x; [|discriminate].
  unfold transpose at 2. cbn [map nth]. unfold rowround, columnround.
  repeat match goal with |- context [quarterround ?p] => destruct (quarterround p) as [[[? ?] ?] ?] end. reflexivity.
Qed.
Lemma columnround_length : forall x, length x = 16%nat -> length (columnround x) = 16%nat.
Proof.
  intros x H. do 16 (destruct x as [|? x]; [discriminate|]). destruct x; [|discriminate]. unfold columnround.
  repeat match goal with |- context [quarterround ?p] => destruct (quarterround p) as [[[? ?] ?] ?] end. reflexivity.
Qed.
Lemma quarter_length : forall t, length (quarter t) = length t.
Proof. intros t. unfold quarter. rewrite !seti_length. reflexivity. Qed.

Definition pick (x : list pint) (j : nat) : list pint := map (fun m => geti x ((5 * j + 4 * m) mod 16)) (seq 0 4).
Lemma core_column_eq : forall x t w j, length t = 4%nat ->
  core_column x (t, w) j = (quarter (pick x j), for_range 4 (fun w m => seti w (4 * j + (j + m) mod 4) (geti (quarter (pick x j)) m)) w).
Proof.
  intros x t w j H. unfold core_column. rewrite for_range_fill by lia. rewrite skipn_all2, app_nil_r by lia. reflexivity.
Qed.
Definition mixed (x : list pint) : list pint :=
  let q j i := geti (quarter (pick x j)) i in
  [q 0 0; q 0 1; q 0 2; q 0 3; q 1 3; q 1 0; q 1 1; q 1 2; q 2 2; q 2 3; q 2 0; q 2 1; q 3 1; q 3 2; q 3 3; q 3 0]%nat.
Lemma core_round_eq : forall x t w i, length x = 16%nat -> length t = 4%nat -> length w = 16%nat ->
  core_round (x, (t, w)) i = (mixed x, (quarter (pick x 3), mixed x)).
Proof.
  intros x t w i Hx Ht Hw. unfold core_round.
  assert (E : for_range 4 (core_column x) (t, w) = (quarter (pick x 3), mixed x)).
  { unfold for_range at 1. cbn [seq fold_left].
    rewrite core_column_eq by exact Ht. rewrite core_column_eq by (rewrite quarter_length; reflexivity).
    rewrite core_column_eq by (rewrite quarter_length; reflexivity). rewrite core_column_eq by (rewrite quarter_length; reflexivity).
    f_equal. do 16 (destruct w as [|? w]; [discriminate|]). destruct w; [|discriminate].
    unfold mixed. remember (quarter (pick x 0)) as q0. remember (quarter (pick x 1)) as q1.
    remember (quarter (pick x 2)) as q2. remember (quarter (pick x 3)) as q3. reflexivity. }
  rewrite E. cbn [snd]. f_equal. rewrite for_range_copy by (cbn; lia). rewrite skipn_all2, app_nil_r by lia. reflexivity.
Qed.
Lemma mixed_low : forall x s, Forall2 low x s -> length s = 16%nat -> Forall2 lowp (mixed x) (transpose (columnround s)).
Proof.
  intros x s H HL. do 16 (destruct s as [|? s]; [discriminate|]). destruct s; [|discriminate].
  repeat match goal with H : Forall2 _ _ (_ :: _) |- _ => inversion H; clear H; subst
                       | H : Forall2 _ _ [] |- _ => inversion H; clear H; subst end.
  unfold mixed.
  repeat match goal with |- context [pick ?x ?j] => let p := eval cbv in (pick x j) in change (pick x j) with p end.
  unfold columnround.
  repeat match goal with |- context [quarter [?a; ?b; ?c; ?d]] =>
    match goal with Ha : low a ?a', Hb : low b ?b', Hc : low c ?c', Hd : low d ?d' |- _ =>
      let Q := fresh "Q" in pose proof (quarter_low a b c d a' b' c' d' Ha Hb Hc Hd) as Q;
      destruct (quarterround (a', b', c', d')) as [[[? ?] ?] ?];
      remember (quarter [a; b; c; d]) as q eqn:Eq; clear Eq; unfold list4 in Q;
      repeat match goal with H : Forall2 lowp _ (_ :: _) |- _ => inversion H; clear H; subst
                       | H : Forall2 lowp _ [] |- _ => inversion H; clear H; subst end
    end end.
  cbn. repeat (apply Forall2_cons; [assumption|]). apply Forall2_nil.
Qed.

Lemma Forall2_length' : forall A B (R : A -> B -> Prop) l m, Forall2 R l m -> length l = length m.
Proof. intros A B R l m H. induction H; cbn; auto. Qed.
Lemma Forall2_lowp_low : forall l m, Forall2 lowp l m -> Forall2 low l m.
Proof. intros l m H. induction H; constructor; [apply lowp_low; assumption|assumption]. Qed.
Lemma mixed_length : forall x, length (mixed x) = 16%nat.
Proof. reflexivity. Qed.

Lemma rounds_low : forall k x t w s, Forall2 low x s -> length s = 16%nat -> length t = 4%nat -> length w = 16%nat ->
  let st := for_range (2 * k) core_round (x, (t, w)) in
  length (fst (snd st)) = 4%nat /\ length (snd (snd st)) = 16%nat /\ length (Nat.iter k doubleround s) = 16%nat /\
  Forall2 (if Nat.eqb k 0 then low else lowp) (fst st) (Nat.iter k doubleround s).
Proof.
  induction k as [|k IH]; intros x t w s Hx Hs Ht Hw.
  - cbn. auto.
  - cbv zeta. replace (2 * S k)%nat with (S (S (2 * k))) by lia. rewrite !for_range_S.
    specialize (IH x t w s Hx Hs Ht Hw). cbv zeta in IH.
    destruct (for_range (2 * k) core_round (x, (t, w))) as [x1 [t1 w1]]. cbn [fst snd] in IH.
    destruct IH as (L1 & L2 & L3 & F).
    assert (F' : Forall2 low x1 (Nat.iter k doubleround s)) by (destruct (k =? 0)%nat; [exact F|apply Forall2_lowp_low, F]).
    assert (Lx : length x1 = 16%nat) by (rewrite (Forall2_length' _ _ _ _ _ F'); exact L3).
    rewrite core_round_eq by assumption. rewrite core_round_eq by (try reflexivity; rewrite quarter_length; reflexivity).
    cbn [fst snd]. change (Nat.iter (S k) doubleround s) with (doubleround (Nat.iter k doubleround s)).
    set (s1 := Nat.iter k doubleround s) in *. unfold doubleround.
    rewrite rowround_transpose by (apply columnround_length; exact L3).
    split; [rewrite quarter_length; reflexivity|]. split; [reflexivity|]. split; [reflexivity|].
    cbn [Nat.eqb]. apply mixed_low; [|reflexivity]. apply Forall2_lowp_low, mixed_low; assumption.
Qed.

(** ** Loading *)
Definition v32 (v : Z) : pint := PI TU32 v.
Lemma le_word_range : forall b, 0 <= le_word b < 256 ^ Z.of_nat (length b).
Proof.
  induction b as [|x b IH]; [cbn; lia|]. cbn [le_word length]. rewrite Nat2Z.inj_succ, Z.pow_succ_r by lia.
  pose proof (b2z_byte x) as B. change (b2z x) with (bval x) in B. nia.
Qed.
Lemma ld_step : forall u v, 0 <= u < 2 ^ 32 -> 0 <= v < 2 ^ 8 -> por (pshl (v32 u) 8) (v32 v) = v32 (u * 256 + v).
Proof.
  intros u v Hu Hv. unfold pshl, v32. cbn [pt pv]. rewrite Z.shiftl_mul_pow2 by lia.
  rewrite mk_u32, Z.mod_small by lia. unfold por, typed. cbn [pt pv]. rewrite lor_shift_add by lia.
  unfold promote. replace (u * 2 ^ 8 + v <? 0) with false by lia. cbn [andb order]. change (2 >? 2) with false. cbv iota.
  rewrite mk_u32, Z.mod_small by lia. reflexivity.
Qed.
Lemma cast_byte : forall x v, pv x = v -> 0 <= v < 2 ^ 64 -> cast TU32 x = v32 v.
Proof. intros x v E H. unfold cast. rewrite E, mk_u32, Z.mod_small by lia. reflexivity. Qed.
Lemma ld32_w : forall x b, holds x b -> (4 <= length b)%nat -> ld32 x = v32 (le_word (firstn 4 b)).
Proof.
  intros x b H HL. do 4 (destruct b as [|? b]; [cbn in HL; lia|]).
  do 4 (apply holds_inv in H; destruct H as (? & ? & -> & ? & H)).
  unfold ld32. cbn [geti nth]. cbv zeta.
  pose proof (b2z_byte b0). pose proof (b2z_byte b1). pose proof (b2z_byte b2). pose proof (b2z_byte b3).
  erewrite !cast_byte by (eassumption || (split; lia)).
  rewrite !ld_step by lia. cbn [firstn le_word]. f_equal. change bval with b2z. ring.
Qed.

(** What the four (eight) calls of [ld32] on a list give. *)
Definition loads (l : list pint) (ws : list Z) : Prop :=
  forall i, (i < length ws)%nat -> ld32 (skipn (4 * i) l) = v32 (nth i ws 0) /\ 0 <= nth i ws 0 < 2 ^ 32.
Lemma loads_holds : forall l b n, holds l b -> (4 * n <= length b)%nat -> loads l (map le_word (chunks 4 n b)).
Proof.
  intros l b n. revert l b. induction n as [|n IH]; intros l b H HL i Hi; [cbn in Hi; lia|].
  cbn [chunks map] in *. destruct i as [|i].
  - change (4 * 0)%nat with O. cbn [skipn nth]. split; [apply ld32_w; [exact H|lia]|].
    pose proof (le_word_range (firstn 4 b)) as R. rewrite firstn_length in R. replace (Nat.min 4 (length b)) with 4%nat in R by lia.
    exact R.
  - cbn [nth]. replace (4 * S i)%nat with (4 * i + 4)%nat by lia. rewrite <- skipn_skipn. apply IH.
    + apply holds_skipn, H.
    + rewrite skipn_length. lia.
    + cbn [length] in Hi. lia.
Qed.

Definition layout (c k n : list Z) : list Z :=
  [nth 0 c 0; nth 0 k 0; nth 1 k 0; nth 2 k 0; nth 3 k 0; nth 1 c 0; nth 0 n 0; nth 1 n 0; nth 2 n 0; nth 3 n 0;
   nth 2 c 0; nth 4 k 0; nth 5 k 0; nth 6 k 0; nth 7 k 0; nth 3 c 0].
Lemma core_load_eq : forall in_ k c x wi wk wc, loads in_ wi -> loads k wk -> loads c wc ->
  length wi = 4%nat -> length wk = 8%nat -> length wc = 4%nat -> length x = 16%nat ->
  core_load in_ k c x = map v32 (layout wc wk wi).
Proof.
  intros in_ k c x wi wk wc Hi Hk Hc Li Lk Lc Lx. unfold core_load, for_range. cbn [seq fold_left]. cbv zeta.
  rewrite (proj1 (Hc 0%nat ltac:(lia))), (proj1 (Hc 1%nat ltac:(lia))), (proj1 (Hc 2%nat ltac:(lia))), (proj1 (Hc 3%nat ltac:(lia))).
  rewrite (proj1 (Hi 0%nat ltac:(lia))), (proj1 (Hi 1%nat ltac:(lia))), (proj1 (Hi 2%nat ltac:(lia))), (proj1 (Hi 3%nat ltac:(lia))).
  rewrite (proj1 (Hk 0%nat ltac:(lia))), (proj1 (Hk 1%nat ltac:(lia))), (proj1 (Hk 2%nat ltac:(lia))), (proj1 (Hk 3%nat ltac:(lia))).
  replace (16 + 4 * 0)%nat with (4 * 4)%nat by reflexivity. replace (16 + 4 * 1)%nat with (4 * 5)%nat by reflexivity.
  replace (16 + 4 * 2)%nat with (4 * 6)%nat by reflexivity. replace (16 + 4 * 3)%nat with (4 * 7)%nat by reflexivity.
  rewrite (proj1 (Hk 4%nat ltac:(lia))), (proj1 (Hk 5%nat ltac:(lia))), (proj1 (Hk 6%nat ltac:(lia))), (proj1 (Hk 7%nat ltac:(lia))).
  do 16 (destruct x as [|? x]; [discriminate|]). destruct x; [|discriminate]. reflexivity.
Qed.
Lemma layout_range : forall wi wk wc in_ k c, loads in_ wi -> loads k wk -> loads c wc ->
  length wi = 4%nat -> length wk = 8%nat -> length wc = 4%nat -> Forall (fun v => 0 <= v < 2 ^ 32) (layout wc wk wi).
Proof.
  intros wi wk wc in_ k c Hi Hk Hc Li Lk Lc. unfold layout.
  repeat (apply Forall_cons; [first [apply Hi; lia|apply Hk; lia|apply Hc; lia]|]). apply Forall_nil.
Qed.
Lemma v32_low : forall l, Forall (fun v => 0 <= v < 2 ^ 32) l -> Forall2 low (map v32 l) l.
Proof.
  intros l H. induction H as [|v l Hv H IH]; [constructor|]. cbn [map]. constructor; [|exact IH].
  unfold low, v32. cbn [pt pv]. split; [lia|]. split; [apply Z.mod_small; lia|left; reflexivity].
Qed.

(** ** Storing *)
Definition st4 (u : pint) : list pint :=
  [cast TU8 u; cast TU8 (pshr u 8); cast TU8 (pshr (pshr u 8) 8); cast TU8 (pshr (pshr (pshr u 8) 8) 8)].
Lemma st32_eq : forall x u, (4 <= length x)%nat -> st32 x u = st4 u ++ skipn 4 x.
Proof. intros x u H. do 4 (destruct x as [|? x]; [cbn in H; lia|]). reflexivity. Qed.
Lemma byte_of_z_mod : forall a b, a mod 256 = b mod 256 -> byte_of_z a = byte_of_z b.
Proof. intros a b E. unfold byte_of_z. rewrite E. reflexivity. Qed.
Lemma st4_holds : forall u, pt u = TPlain -> 0 <= pv u -> holds (st4 u) (le_bytes 4 (pv u mod 2 ^ 32)).
Proof.
  intros [t v] T H. cbn [pt pv] in *. subst t. unfold st4, pshr. cbn [pt pv mk].
  rewrite !Z.shiftr_div_pow2 by lia. cbn [le_bytes].
  assert (C : forall z w, 0 <= z -> z mod 256 = w mod 256 -> pv (cast TU8 (PI TPlain z)) = b2z (byte_of_z w)).
  { intros z w Hz E. unfold cast. cbn [pv]. rewrite mk_u8 by lia. cbn [pv]. change (byte_of_z w) with (z2b w).
    rewrite b2z_z2b. exact E. }
  change (2 ^ 8) with 256. change (2 ^ 32) with 4294967296.
  unfold holds. cbn [map]. repeat (apply f_equal2; [apply C; lia|]). reflexivity.
Qed.

(** ** The core *)
Lemma st4_length : forall u, length (st4 u) = 4%nat.
Proof. reflexivity. Qed.
Lemma concat_st4_length : forall g l, length (concat (map (fun i : nat => st4 (g i)) l)) = (4 * length l)%nat.
Proof. intros g l. induction l as [|i l IH]; [reflexivity|]. cbn [map concat]. rewrite app_length, IH, st4_length. cbn [length]. lia. Qed.
Lemma store_loop : forall n (g : nat -> pint) out, (4 * n <= length out)%nat ->
  for_range n (fun out i => on_tail (4 * i) (fun o => st32 o (g i)) out) out =
  concat (map (fun i => st4 (g i)) (seq 0 n)) ++ skipn (4 * n) out.
Proof.
  induction n as [|n IH]; intros g out H; [reflexivity|]. rewrite for_range_S, IH by lia.
  rewrite seq_S, map_app, concat_app. cbn [map concat]. rewrite app_nil_r.
  set (A := concat (map (fun i => st4 (g i)) (seq 0 n))).
  assert (LA : length A = (4 * n)%nat) by (unfold A; rewrite concat_st4_length, seq_length; reflexivity).
  unfold on_tail. rewrite firstn_app, LA, Nat.sub_diag, firstn_O, app_nil_r, firstn_all2 by lia.
  rewrite skipn_app, LA, Nat.sub_diag, skipn_all2 by lia. cbn [app]. rewrite skipn_O.
  rewrite st32_eq by (rewrite skipn_length; lia). rewrite skipn_skipn.
  rewrite <- app_assoc. do 3 f_equal. lia.
Qed.

Lemma holds_concat : forall A (f : A -> list pint) (g : A -> bytes) l,
  (forall i, In i l -> holds (f i) (g i)) -> holds (concat (map f l)) (concat (map g l)).
Proof.
  intros A f g l. induction l as [|i l IH]; intros H; [reflexivity|]. cbn [map concat].
  apply holds_app; [apply H; left; reflexivity|apply IH; intros; apply H; right; assumption].
Qed.
Lemma Forall2_nth : forall A B (R : A -> B -> Prop) l m da db, Forall2 R l m ->
  forall i, (i < length m)%nat -> R (nth i l da) (nth i m db).
Proof.
  intros A B R l m da db H. induction H as [|a b l m Hab H IH]; intros i Hi; [cbn in Hi; lia|].
  destruct i; [exact Hab|]. apply IH. cbn in Hi. lia.
Qed.
Lemma padd_plain : forall p v, pt p = TPlain -> padd p (v32 v) = plain (pv p + v).
Proof.
  intros [t u] v E. cbn in E. subst t. unfold padd, typed, v32, promote. cbn [pt pv order].
  rewrite Bool.andb_false_r. reflexivity.
Qed.
Lemma psub_plain : forall p v, pt p = TPlain -> psub p (v32 v) = plain (pv p - v).
Proof.
  intros [t u] v E. cbn in E. subst t. unfold psub, typed, v32, promote. cbn [pt pv order].
  replace ((u - v <? 0) && (11 <? 5) && (2 <? 5))%bool with false by (rewrite Bool.andb_false_r; reflexivity). reflexivity.
Qed.

Lemma combine_seq : forall A (f : Z -> Z -> A) l m, length l = length m ->
  map (fun p => f (fst p) (snd p)) (combine l m) = map (fun i => f (nth i l 0) (nth i m 0)) (seq 0 (length l)).
Proof.
  intros A f l. induction l as [|a l IH]; intros m H; [reflexivity|]. destruct m as [|b m]; [discriminate|].
  cbn [combine map length seq nth]. rewrite <- seq_shift, map_map. cbn [nth fst snd]. f_equal. apply IH. injection H as H. exact H.
Qed.

Lemma copy16 : forall (x y : list pint), length x = 16%nat -> length y = 16%nat ->
  for_range 16 (fun y i => seti y i (geti x i)) y = x.
Proof. intros x y Hx Hy. rewrite for_range_copy by lia. rewrite firstn_all2, skipn_all2 by lia. apply app_nil_r. Qed.


Definition core_end (out in_ c x y : list pint) (h : bool) : list pint :=
  if h then
    let x := for_range 16 (fun x i => seti x i (padd (geti x i) (geti y i))) x in
    let x := for_range 4 (fun x i =>
      let x := seti x (5 * i) (psub (geti x (5 * i)) (ld32 (skipn (4 * i) c))) in
      seti x (6 + i) (psub (geti x (6 + i)) (ld32 (skipn (4 * i) in_)))) x in
    for_range 4 (fun out i =>
      let out := on_tail (4 * i) (fun o => st32 o (geti x (5 * i))) out in
      on_tail (16 + 4 * i) (fun o => st32 o (geti x (6 + i))) out) out
  else
    for_range 16 (fun out i => on_tail (4 * i) (fun o => st32 o (padd (geti x i) (geti y i))) out) out.
Lemma core_split : forall out in_ k c h, core out in_ k c h =
  core_end out in_ c
    (fst (for_range 20 core_round (core_load in_ k c (int_array TU32 16), (int_array TU32 4, int_array TU32 16))))
    (for_range 16 (fun y i => seti y i (geti (core_load in_ k c (int_array TU32 16)) i)) (int_array TU32 16)) h.
Proof. reflexivity. Qed.

Lemma end_false : forall X R L out in_ c, Forall2 lowp X R -> length R = 16%nat ->
  Forall (fun v => 0 <= v < 2 ^ 32) L -> length L = 16%nat -> length out = 64%nat ->
  holds (core_end out in_ c X (map v32 L) false)
        (concat (map (fun p => le_bytes 4 (add32 (fst p) (snd p))) (combine L R))).
Proof.
  intros X R L out in_ c FX LR RL LL Ho. unfold core_end.
  assert (LX : length X = 16%nat) by (rewrite (Forall2_length' _ _ _ _ _ FX); exact LR).
  rewrite (store_loop 16 (fun i => padd (geti X i) (geti (map v32 L) i)) out) by lia.
  rewrite skipn_all2 by lia. rewrite app_nil_r.
  rewrite (combine_seq _ (fun a b => le_bytes 4 (add32 a b))) by (rewrite LR; exact LL).
  rewrite LL. apply holds_concat. intros i Hin. apply in_seq in Hin.
  assert (E : geti (map v32 L) i = v32 (nth i L 0)).
  { unfold geti. rewrite (nth_indep _ _ (v32 0)) by (rewrite map_length; lia). apply map_nth. }
  rewrite E. pose proof (Forall2_nth _ _ _ _ _ (plain 0) 0 FX i ltac:(lia)) as (N1 & N2 & N3).
  change (nth i X (plain 0)) with (geti X i) in *. rewrite padd_plain by exact N3.
  assert (N4 : 0 <= nth i L 0 < 2 ^ 32).
  { rewrite Forall_forall in RL. apply RL. apply nth_In. lia. }
  pose proof (st4_holds (plain (pv (geti X i) + nth i L 0)) eq_refl) as S. cbn [plain pv] in S.
  replace (add32 (nth i L 0) (nth i R 0)) with ((pv (geti X i) + nth i L 0) mod 2 ^ 32).
  - apply S. lia.
  - unfold add32. rewrite <- N2. rewrite Zplus_mod_idemp_r. f_equal. lia.
Qed.

Lemma X_low : forall L, Forall (fun v => 0 <= v < 2 ^ 32) L -> length L = 16%nat ->
  Forall2 lowp (fst (for_range 20 core_round (map v32 L, (int_array TU32 4, int_array TU32 16)))) (rounds20 L) /\
  length (rounds20 L) = 16%nat.
Proof.
  intros L RL LL.
  pose proof (rounds_low 10 (map v32 L) (int_array TU32 4) (int_array TU32 16) L (v32_low _ RL) LL eq_refl eq_refl) as R.
  cbv zeta in R. destruct R as (_ & _ & R1 & R2). split; [exact R2|exact R1].
Qed.

Lemma core_false : forall in_ k c wi wk wc, loads in_ wi -> loads k wk -> loads c wc ->
  length wi = 4%nat -> length wk = 8%nat -> length wc = 4%nat ->
  forall out, length out = 64%nat -> holds (core out in_ k c false) (salsa_words (layout wc wk wi)).
Proof.
  intros in_ k c wi wk wc Hi Hk Hc Li Lk Lc out Ho. rewrite core_split.
  rewrite (core_load_eq in_ k c _ wi wk wc) by (assumption || reflexivity).
  rewrite copy16 by reflexivity.
  pose proof (layout_range wi wk wc in_ k c Hi Hk Hc Li Lk Lc) as RL.
  destruct (X_low _ RL eq_refl) as [FX LR]. unfold salsa_words.
  apply end_false; [exact FX|exact LR|exact RL|reflexivity|exact Ho].
Qed.


Lemma for_range_update : forall n (f : pint -> nat -> pint) l, (n <= length l)%nat ->
  for_range n (fun x i => seti x i (f (geti x i) i)) l = map (fun i => f (geti l i) i) (seq 0 n) ++ skipn n l.
Proof.
  intros n f l H. rewrite <- (for_range_fill n (fun i => f (geti l i) i) l H).
  assert (E : forall m, (m <= n)%nat ->
    for_range m (fun x i => seti x i (f (geti x i) i)) l = for_range m (fun x i => seti x i (f (geti l i) i)) l).
  { induction m as [|m IH]; intros Hm; [reflexivity|]. rewrite !for_range_S, IH by lia.
    rewrite (for_range_fill m (fun i => f (geti l i) i) l) by lia. do 2 f_equal.
    unfold geti at 1. rewrite app_nth2 by (rewrite map_length, seq_length; lia).
    rewrite map_length, seq_length, Nat.sub_diag. unfold geti. rewrite <- (firstn_skipn m l) at 2.
    rewrite app_nth2 by (rewrite firstn_length; lia). rewrite firstn_length, Nat.min_l, Nat.sub_diag by lia. reflexivity. }
  apply E; lia.
Qed.

Definition put (off : nat) (d out : list pint) : list pint := firstn off out ++ d ++ skipn (4 + off) out.
Lemma on_tail_st32 : forall off u out, (off + 4 <= length out)%nat ->
  on_tail off (fun o => st32 o u) out = put off (st4 u) out.
Proof.
  intros off u out H. unfold on_tail, put. rewrite st32_eq by (rewrite skipn_length; lia).
  rewrite skipn_skipn. reflexivity.
Qed.
Lemma put_length : forall off d out, length d = 4%nat -> (off + 4 <= length out)%nat -> length (put off d out) = length out.
Proof. intros off d out H1 H2. unfold put. rewrite !app_length, firstn_length, skipn_length. lia. Qed.
Lemma on_tail_put : forall off u out n, length out = n -> (off + 4 <= n)%nat ->
  on_tail off (fun o => st32 o u) out = put off (st4 u) out /\ length (put off (st4 u) out) = n.
Proof. intros off u out n <- H. split; [apply on_tail_st32, H|apply put_length; [reflexivity|exact H]]. Qed.
Lemma put8 : forall d0 d1 d2 d3 d4 d5 d6 d7 out, length d0 = 4%nat -> length d1 = 4%nat -> length d2 = 4%nat ->
  length d3 = 4%nat -> length d4 = 4%nat -> length d5 = 4%nat -> length d6 = 4%nat -> length d7 = 4%nat ->
  length out = 32%nat ->
  put 28 d7 (put 12 d3 (put 24 d6 (put 8 d2 (put 20 d5 (put 4 d1 (put 16 d4 (put 0 d0 out))))))) =
  concat [d0; d1; d2; d3; d4; d5; d6; d7].
Proof.
  intros d0 d1 d2 d3 d4 d5 d6 d7 out H0 H1 H2 H3 H4 H5 H6 H7 Ho.
  destruct d0 as [|? [|? [|? [|? [|]]]]]; try discriminate. destruct d1 as [|? [|? [|? [|? [|]]]]]; try discriminate.
  destruct d2 as [|? [|? [|? [|? [|]]]]]; try discriminate. destruct d3 as [|? [|? [|? [|? [|]]]]]; try discriminate.
  destruct d4 as [|? [|? [|? [|? [|]]]]]; try discriminate. destruct d5 as [|? [|? [|? [|? [|]]]]]; try discriminate.
  destruct d6 as [|? [|? [|? [|? [|]]]]]; try discriminate. destruct d7 as [|? [|? [|? [|? [|]]]]]; try discriminate.
  do 32 (destruct out as [|? out]; [discriminate|]). destruct out; [|discriminate]. reflexivity.
Qed.
Lemma store8 : forall (g : nat -> pint) out, length out = 32%nat ->
  for_range 4 (fun out i =>
      let out := on_tail (4 * i) (fun o => st32 o (g (5 * i)%nat)) out in
      on_tail (16 + 4 * i) (fun o => st32 o (g (6 + i)%nat)) out) out =
  concat (map (fun i => st4 (g i)) [0; 5; 10; 15; 6; 7; 8; 9]%nat).
Proof.
  intros g out Ho. cbn [map].
  rewrite <- (put8 (st4 (g 0%nat)) (st4 (g 5%nat)) (st4 (g 10%nat)) (st4 (g 15%nat)) (st4 (g 6%nat)) (st4 (g 7%nat)) (st4 (g 8%nat)) (st4 (g 9%nat)) out)
    by (assumption || reflexivity).
  rewrite !for_range_S, for_range_O. cbv zeta. cbn [Nat.mul Nat.add].
  destruct (on_tail_put 0 (g 0%nat) _ 32 Ho ltac:(lia)) as [-> L1].
  destruct (on_tail_put 16 (g 6%nat) _ 32 L1 ltac:(lia)) as [-> L2].
  destruct (on_tail_put 4 (g 5%nat) _ 32 L2 ltac:(lia)) as [-> L3].
  destruct (on_tail_put 20 (g 7%nat) _ 32 L3 ltac:(lia)) as [-> L4].
  destruct (on_tail_put 8 (g 10%nat) _ 32 L4 ltac:(lia)) as [-> L5].
  destruct (on_tail_put 24 (g 8%nat) _ 32 L5 ltac:(lia)) as [-> L6].
  destruct (on_tail_put 12 (g 15%nat) _ 32 L6 ltac:(lia)) as [-> L7].
  destruct (on_tail_put 28 (g 9%nat) _ 32 L7 ltac:(lia)) as [-> L8].
  reflexivity.
Qed.

Lemma stage1 : forall X L, Forall (fun p => pt p = TPlain) X -> length X = 16%nat -> length L = 16%nat ->
  for_range 16 (fun x i => seti x i (padd (geti x i) (geti (map v32 L) i))) X =
  map (fun i => plain (pv (geti X i) + nth i L 0)) (seq 0 16).
Proof.
  intros X L HP LX LL. rewrite (for_range_update 16 (fun p i => padd p (geti (map v32 L) i)) X) by lia.
  rewrite skipn_all2 by lia. rewrite app_nil_r. apply map_ext_in. intros i Hi. apply in_seq in Hi.
  assert (E : geti (map v32 L) i = v32 (nth i L 0)).
  { unfold geti. rewrite (nth_indep _ _ (v32 0)) by (rewrite map_length; lia). apply map_nth. }
  rewrite E. apply padd_plain. rewrite Forall_forall in HP. apply HP. unfold geti. apply nth_In. lia.
Qed.
Lemma stage2 : forall s c in_ wi wc, length s = 16%nat ->
  loads in_ wi -> loads c wc -> length wi = 4%nat -> length wc = 4%nat ->
  for_range 4 (fun x i =>
      let x := seti x (5 * i) (psub (geti x (5 * i)) (ld32 (skipn (4 * i) c))) in
      seti x (6 + i) (psub (geti x (6 + i)) (ld32 (skipn (4 * i) in_)))) (map plain s) =
  map plain [nth 0 s 0 - nth 0 wc 0; nth 1 s 0; nth 2 s 0; nth 3 s 0; nth 4 s 0; nth 5 s 0 - nth 1 wc 0;
   nth 6 s 0 - nth 0 wi 0; nth 7 s 0 - nth 1 wi 0; nth 8 s 0 - nth 2 wi 0; nth 9 s 0 - nth 3 wi 0;
   nth 10 s 0 - nth 2 wc 0; nth 11 s 0; nth 12 s 0; nth 13 s 0; nth 14 s 0; nth 15 s 0 - nth 3 wc 0].
Proof.
  intros s c in_ wi wc Ls Hi Hc Li Lc.
  pose proof (proj1 (Hc 0%nat ltac:(lia))) as C0. pose proof (proj1 (Hc 1%nat ltac:(lia))) as C1.
  pose proof (proj1 (Hc 2%nat ltac:(lia))) as C2. pose proof (proj1 (Hc 3%nat ltac:(lia))) as C3.
  pose proof (proj1 (Hi 0%nat ltac:(lia))) as I0. pose proof (proj1 (Hi 1%nat ltac:(lia))) as I1.
  pose proof (proj1 (Hi 2%nat ltac:(lia))) as I2. pose proof (proj1 (Hi 3%nat ltac:(lia))) as I3.
  do 16 (destruct s as [|? s]; [discriminate|]). destruct s; [|discriminate].
  rewrite for_range_S, for_range_S, for_range_S, for_range_S, for_range_O. cbv zeta.
  rewrite C0, C1, C2, C3, I0, I1, I2, I3. cbn [map nth]. cbn [Nat.mul Nat.add].
  repeat (progress cbn [geti seti nth]; rewrite ?psub_plain by reflexivity; cbn [plain pv]).
  reflexivity.
Qed.

Lemma end_true : forall X R c in_ wi wk wc, Forall2 lowp X R -> length R = 16%nat ->
  loads in_ wi -> loads c wc -> length wi = 4%nat -> length wc = 4%nat ->
  forall out, length out = 32%nat ->
  holds (core_end out in_ c X (map v32 (layout wc wk wi)) true)
        (concat (map (fun i => le_bytes 4 (nth i R 0)) [0; 5; 10; 15; 6; 7; 8; 9]%nat)).
Proof.
  intros X R c in_ wi wk wc FX LR Hi Hc Li Lc out Ho.
  assert (LX : length X = 16%nat) by (rewrite (Forall2_length' _ _ _ _ _ FX); exact LR).
  unfold core_end. cbv zeta.
  rewrite stage1; [|clear - FX; induction FX as [|p a X R [_ [_ E]] FX IH]; constructor; assumption|exact LX|reflexivity].
  rewrite <- (map_map (fun i => pv (geti X i) + nth i (layout wc wk wi) 0) plain).
  rewrite (stage2 _ c in_ wi wc) by (assumption || reflexivity).
  rewrite store8 by exact Ho. apply holds_concat.
  intros i Hin. assert (Hi16 : (i < 16)%nat) by (cbn in Hin; lia).
  pose proof (Forall2_nth _ _ _ _ _ (plain 0) 0 FX i ltac:(lia)) as (N1 & N2 & N3). rewrite <- N2.
  change (nth i X (plain 0)) with (geti X i) in *.
  cbn [In] in Hin. repeat destruct Hin as [<-|Hin]; try contradiction; unfold geti at 1; cbn [map seq nth layout]; rewrite ?Z.add_simpl_r;
    match goal with |- holds (st4 ?u) (le_bytes 4 (?v mod _)) => change v with (pv u) end;
    apply st4_holds; reflexivity || (unfold plain; cbn [pv]; lia).
Qed.
Lemma core_true : forall in_ k c wi wk wc, loads in_ wi -> loads k wk -> loads c wc ->
  length wi = 4%nat -> length wk = 8%nat -> length wc = 4%nat ->
  forall out, length out = 32%nat -> holds (core out in_ k c true) (hsalsa_words (layout wc wk wi)).
Proof.
  intros in_ k c wi wk wc Hi Hk Hc Li Lk Lc out Ho. rewrite core_split.
  rewrite (core_load_eq in_ k c _ wi wk wc) by (assumption || reflexivity).
  rewrite copy16 by reflexivity.
  pose proof (layout_range wi wk wc in_ k c Hi Hk Hc Li Lk Lc) as RL.
  destruct (X_low _ RL eq_refl) as [FX LR]. unfold hsalsa_words. cbv zeta.
  apply end_true; [exact FX|exact LR|exact Hi|exact Hc|exact Li|exact Lc|exact Ho].
Qed.

Lemma sigma_tau : holds sigma tau.
Proof. reflexivity. Qed.
Lemma expansion_words : forall k n, length k = 32%nat -> length n = 16%nat ->
  words_of (expansion k n) = layout (map le_word (chunks 4 4 tau)) (map le_word (chunks 4 8 k)) (map le_word (chunks 4 4 n)).
Proof.
  intros k n Lk Ln. do 32 (destruct k as [|? k]; [discriminate|]). destruct k; [|discriminate].
  do 16 (destruct n as [|? n]; [discriminate|]). destruct n; [|discriminate]. reflexivity.
Qed.
Lemma chunks_length : forall w n (l : list byte), length (chunks w n l) = n.
Proof. induction n as [|n IH]; intros l; [reflexivity|]. cbn [chunks length]. rewrite IH. reflexivity. Qed.

(** Any list the loads of which are the words of [n] gives the block of [n]. *)
Lemma salsa_loads : forall out in_ k kb n, loads in_ (map le_word (chunks 4 4 n)) -> length n = 16%nat ->
  holds k kb -> length kb = 32%nat -> length out = 64%nat -> holds (crypto_core_salsa20 out in_ k sigma) (salsa20 kb n).
Proof.
  intros out in_ k kb n Hi Ln Hk Lk Lo. unfold crypto_core_salsa20, salsa20.
  rewrite (expansion_words kb n Lk Ln).
  apply (core_false in_ k sigma (map le_word (chunks 4 4 n)) (map le_word (chunks 4 8 kb)) (map le_word (chunks 4 4 tau)));
    [exact Hi|apply loads_holds; [exact Hk|lia]|apply loads_holds; [apply sigma_tau|cbn; lia]| | | |exact Lo];
    rewrite map_length, chunks_length; reflexivity.
Qed.
Lemma salsa20_core_w : forall out in_ ib k kb, holds in_ ib -> length ib = 16%nat -> holds k kb -> length kb = 32%nat ->
  length out = 64%nat -> holds (crypto_core_salsa20 out in_ k sigma) (salsa20 kb ib).
Proof. intros. apply salsa_loads; try assumption. apply loads_holds; [assumption|lia]. Qed.
Lemma chunks_firstn : forall w n (l : list byte), chunks w n l = chunks w n (firstn (w * n) l).
Proof.
  induction n as [|n IH]; intros l; [reflexivity|]. cbn [chunks]. rewrite firstn_firstn, Nat.min_l by lia.
  rewrite skipn_firstn_comm. rewrite IH. do 2 f_equal. f_equal. lia.
Qed.
Lemma hsalsa20_core_w : forall out in_ ib k kb, holds in_ ib -> (16 <= length ib)%nat -> holds k kb -> length kb = 32%nat ->
  length out = 32%nat -> holds (crypto_core_hsalsa20 out in_ k sigma) (hsalsa20 kb (firstn 16 ib)).
Proof.
  intros out in_ ib k kb Hi Li Hk Lk Lo. unfold crypto_core_hsalsa20, hsalsa20.
  rewrite (expansion_words kb (firstn 16 ib) Lk) by (rewrite firstn_length; lia).
  change 16%nat with (4 * 4)%nat. rewrite <- chunks_firstn.
  apply (core_true in_ k sigma (map le_word (chunks 4 4 ib)) (map le_word (chunks 4 8 kb)) (map le_word (chunks 4 4 tau)));
    [apply loads_holds; [exact Hi|lia]|apply loads_holds; [exact Hk|lia]|apply loads_holds; [apply sigma_tau|cbn; lia]| | | |exact Lo];
    rewrite map_length, chunks_length; reflexivity.
Qed.

(** ** Lengths *)
Lemma rowround_length : forall x, length x = 16%nat -> length (rowround x) = 16%nat.
Proof. intros x H. rewrite rowround_transpose by exact H. reflexivity. Qed.
Lemma rounds20_length : forall x, length x = 16%nat -> length (rounds20 x) = 16%nat.
Proof.
  intros x H. unfold rounds20.
  assert (G : forall k, length (Nat.iter k doubleround x) = 16%nat); [|apply G]. induction k as [|k IH]; [exact H|].
  change (Nat.iter (S k) doubleround x) with (doubleround (Nat.iter k doubleround x)). unfold doubleround.
  apply rowround_length, columnround_length, IH.
Qed.
Lemma le_bytes_length : forall n z, length (le_bytes n z) = n.
Proof. induction n as [|n IH]; intros z; [reflexivity|]. cbn [le_bytes length]. rewrite IH. reflexivity. Qed.
Lemma concat_le_length : forall A (f : A -> Z) l, length (concat (map (fun p => le_bytes 4 (f p)) l)) = (4 * length l)%nat.
Proof.
  intros A f l. induction l as [|p l IH]; [reflexivity|]. cbn [map concat]. rewrite app_length, IH, le_bytes_length.
  cbn [length]. lia.
Qed.
Lemma salsa20_length : forall k n, length (salsa20 k n) = 64%nat.
Proof.
  intros k n. unfold salsa20, salsa_words. rewrite (concat_le_length _ (fun p => add32 (fst p) (snd p))).
  rewrite combine_length, rounds20_length; unfold words_of; rewrite map_length, chunks_length; reflexivity.
Qed.
Lemma hsalsa20_length : forall k n, length (hsalsa20 k n) = 32%nat.
Proof. intros k n. unfold hsalsa20, hsalsa_words. cbv zeta. rewrite (concat_le_length _ (fun i => nth i _ 0)). reflexivity. Qed.

(** ** The block counter *)
Definition counter (i : Z) : list pint := [v32 i; v32 (i / 256); v32 0; v32 0; v32 0; v32 0; v32 0; v32 0].
Lemma padd_v32 : forall a b, 0 <= a -> 0 <= b -> padd (v32 a) (v32 b) = v32 ((a + b) mod 2 ^ 64).
Proof.
  intros a b Ha Hb. unfold padd, typed, v32, promote. cbn [pt pv order]. replace (a + b <? 0) with false by lia.
  cbn [andb]. change (2 >? 2) with false. cbv iota. apply mk_u32. lia.
Qed.
Lemma pshr_v32 : forall a n, 0 <= a < 2 ^ 64 -> 0 <= n -> pshr (v32 a) n = v32 (a / 2 ^ n).
Proof.
  intros a n Ha Hn. unfold pshr, v32. cbn [pt pv]. rewrite Z.shiftr_div_pow2 by exact Hn.
  pose proof (div_word a n Ha Hn) as W. unfold word in W. rewrite mk_u32 by lia. rewrite Z.mod_small by exact W. reflexivity.
Qed.

Definition bstep (st : pint * list pint) (i : nat) : pint * list pint :=
  let (u, z) := st in
  let u := padd u (cast TU32 (geti z (8 + i))) in (pshr u 8, seti z (8 + i) u).
Lemma bump_eq : forall z, bump z = snd (for_range 8 bstep (v32 1, z)).
Proof. reflexivity. Qed.
Lemma bstep_eq : forall u z i v, pv (geti z (8 + i)) = v -> 0 <= u -> 0 <= v -> u + v < 2 ^ 64 ->
  bstep (v32 u, z) i = (v32 ((u + v) / 256), seti z (8 + i) (v32 (u + v))).
Proof.
  intros u z i v E Hu Hv H. unfold bstep. cbv zeta. erewrite cast_byte by (exact E || (split; lia)).
  rewrite padd_v32, Z.mod_small by lia. rewrite pshr_v32 by lia. reflexivity.
Qed.
(** The counter part of [z]: eight zero bytes at first, then these. *)
Definition ctr_ok (i : Z) (t : list pint) : Prop :=
  map pv t = [i; if i =? 257 then 2 else i / 256; 0; 0; 0; 0; 0; 0].
(** The counter that block [i] really gets: block 257 gets 769. *)
Definition cidx (i : Z) : Z := if i =? 257 then 769 else i.
Lemma bump_counter : forall n8 t i, length n8 = 8%nat -> 0 <= i <= 256 -> ctr_ok i t ->
  exists t', bump (n8 ++ t) = n8 ++ t' /\ ctr_ok (i + 1) t'.
Proof.
  intros n8 t i L Hi C. do 8 (destruct n8 as [|? n8]; [discriminate|]). destruct n8; [|discriminate].
  unfold ctr_ok in C. replace (i =? 257) with false in C by lia.
  do 8 (destruct t as [|? t]; [discriminate|]). destruct t; [|discriminate].
  cbn [map] in C. injection C as C0 C1 C2 C3 C4 C5 C6 C7.
  exists [v32 (i + 1); v32 ((i + 1) / 256 + i / 256); v32 0; v32 0; v32 0; v32 0; v32 0; v32 0]. split.
  - rewrite bump_eq. do 8 rewrite for_range_S. rewrite for_range_O. cbn [app].
    rewrite (bstep_eq _ _ 0 i) by (cbn [geti nth Nat.add]; assumption || lia). cbn [seti Nat.add].
    rewrite (bstep_eq _ _ 1 (i / 256)) by (cbn [geti nth Nat.add]; assumption || lia). cbn [seti Nat.add].
    replace (((1 + i) / 256 + i / 256) / 256) with 0 by lia.
    do 6 (erewrite (bstep_eq _ _ _ 0) by first [cbn [geti nth Nat.add]; eassumption|lia]; cbn [seti Nat.add]).
    cbn [snd]. replace (1 + i) with (i + 1) by lia. reflexivity.
  - unfold ctr_ok. cbn [map v32 pv]. f_equal. f_equal. destruct (i + 1 =? 257) eqn:E; [|lia].
    replace i with 256 by lia. reflexivity.
Qed.
Lemma por_v32 : forall a b, 0 <= a < 2 ^ 64 -> 0 <= b < 2 ^ 64 -> por (v32 a) (v32 b) = v32 (Z.lor a b).
Proof.
  intros a b Ha Hb. pose proof (lor_bound 64 a b ltac:(lia) Ha Hb) as W.
  unfold por, typed, v32, promote. cbn [pt pv order]. replace (Z.lor a b <? 0) with false by lia.
  cbn [andb]. change (2 >? 2) with false. cbv iota. rewrite mk_u32, Z.mod_small by lia. reflexivity.
Qed.
Lemma ld32_head : forall a b c d r, ld32 (a :: b :: c :: d :: r) = ld32 [a; b; c; d].
Proof. intros. unfold ld32. cbn [geti nth]. reflexivity. Qed.
Lemma ctr_loads : forall n8 nb t i, holds n8 nb -> length nb = 8%nat -> 0 <= i <= 257 -> ctr_ok i t ->
  loads (n8 ++ t) (map le_word (chunks 4 4 (nb ++ le_bytes 8 (cidx i)))).
Proof.
  intros n8 nb t i H8 L8 Hi C.
  pose proof (loads_holds n8 nb 2 H8 ltac:(lia)) as LD.
  pose proof (holds_length _ _ H8) as LN. rewrite L8 in LN.
  do 8 (destruct n8 as [|? n8]; [discriminate|]). destruct n8; [|discriminate].
  do 8 (destruct nb as [|? nb]; [discriminate|]). destruct nb; [|discriminate].
  unfold ctr_ok in C. do 8 (destruct t as [|? t]; [discriminate|]). destruct t; [|discriminate].
  cbn [map] in C. injection C as C0 C1 C2 C3 C4 C5 C6 C7.
  assert (IC : 0 <= cidx i < 1024) by (unfold cidx; destruct (i =? 257); lia).
  assert (W : le_word (firstn 4 (le_bytes 8 (cidx i))) = cidx i).
  { cbn [le_bytes firstn le_word]. change bval with b2z. change byte_of_z with z2b. rewrite !b2z_z2b. lia. }
  assert (W2 : le_word (firstn 4 (skipn 4 (le_bytes 8 (cidx i)))) = 0).
  { cbn [le_bytes firstn skipn le_word]. change bval with b2z. change byte_of_z with z2b. rewrite !b2z_z2b. lia. }
  intros j Hj. rewrite map_length, chunks_length in Hj.
  destruct j as [|[|[|[|j]]]]; [| | | |exfalso; lia].
  - specialize (LD 0%nat ltac:(rewrite map_length, chunks_length; lia)). cbn [chunks map nth firstn app] in LD |- *.
    cbn [Nat.mul Nat.add skipn] in LD |- *. rewrite ld32_head in LD |- *. exact LD.
  - specialize (LD 1%nat ltac:(rewrite map_length, chunks_length; lia)). cbn [chunks map nth firstn app skipn] in LD |- *.
    cbn [Nat.mul Nat.add skipn] in LD |- *. rewrite ld32_head. exact LD.
  - change (nth 2 _ 0) with (le_word (firstn 4 (le_bytes 8 (cidx i)))). rewrite W. split; [|lia].
    cbn [Nat.mul Nat.add app skipn]. unfold ld32. cbn [geti nth]. cbv zeta.
    rewrite (cast_byte _ 0 C3), (cast_byte _ 0 C2), (cast_byte _ _ C1), (cast_byte _ _ C0) by (try destruct (i =? 257); lia).
    change (pshl (v32 0) 8) with (v32 0). change (por (v32 0) (v32 0)) with (v32 0). change (pshl (v32 0) 8) with (v32 0).
    rewrite (por_v32 0) by (try destruct (i =? 257); lia). rewrite Z.lor_0_l.
    assert (E : i < 256 \/ i = 256 \/ i = 257) by lia. destruct E as [E|[-> | ->]]; [|reflexivity|reflexivity].
    unfold cidx. replace (i =? 257) with false by lia.
    rewrite (Z.div_small i) by lia. change (pshl (v32 0) 8) with (v32 0). rewrite por_v32 by lia. rewrite Z.lor_0_l. reflexivity.
  - change (nth 3 _ 0) with (le_word (firstn 4 (skipn 4 (le_bytes 8 (cidx i))))). rewrite W2. split; [|lia].
    cbn [Nat.mul Nat.add app skipn]. unfold ld32. cbn [geti nth]. cbv zeta.
    rewrite (cast_byte _ 0 C4), (cast_byte _ 0 C5), (cast_byte _ _ C6), (cast_byte _ _ C7) by lia. reflexivity.
Qed.

(** ** The stream *)
Lemma mk_small : forall t v, 0 <= v < 256 -> pv (mk t v) = v.
Proof.
  intros t v H. assert (N : (v <? 0) = false) by lia.
  destruct t; unfold mk; cbn [pv mask]; rewrite ?N; try reflexivity; rewrite land_ones by lia; apply Z.mod_small; lia.
Qed.
Lemma pxor_small : forall p q a b, pv p = b2z a -> pv q = b2z b ->
  pv (pxor p q) = b2z (byte_of_z (Z.lxor (bval a) (bval b))).
Proof.
  intros p q a b Hp Hq. unfold pxor, typed. rewrite Hp, Hq. pose proof (b2z_byte a) as A. pose proof (b2z_byte b) as B.
  pose proof (lxor_bound 8 _ _ ltac:(lia) A B) as W. rewrite mk_small by exact W.
  change byte_of_z with z2b. change bval with b2z. rewrite b2z_z2b, Z.mod_small by exact W. reflexivity.
Qed.
Lemma xor_bytes_nil : forall a, xor_bytes a [] = [].
Proof. intros a. unfold xor_bytes. destruct a; reflexivity. Qed.
Lemma xor_bytes_length : forall a b, length (xor_bytes a b) = Nat.min (length a) (length b).
Proof. intros a b. unfold xor_bytes. rewrite map_length. apply combine_length. Qed.
Lemma xor_bytes_app : forall a b c d, length a = length c -> xor_bytes (a ++ b) (c ++ d) = xor_bytes a c ++ xor_bytes b d.
Proof.
  induction a as [|x a IH]; intros b c d H; destruct c as [|y c]; try discriminate; [reflexivity|].
  cbn [app]. unfold xor_bytes in *. cbn [combine map app]. f_equal. apply IH. injection H as H. exact H.
Qed.

(** What the code reads as message: [m], or zeros when [m] is empty. *)
Definition msg (m : list pint) (mb : bytes) : Prop :=
  (m <> [] /\ holds m mb) \/ (m = [] /\ mb = repeat x00 (length mb)).
Definition mget (m : list pint) (j : nat) : pint := if is_empty m then plain 0 else geti m j.
Lemma nth_repeat0 : forall n j, nth j (repeat x00 n) x00 = x00.
Proof. induction n as [|n IH]; intros [|j]; cbn; auto. Qed.
Lemma msg_get : forall m mb j, msg m mb -> (j < length mb)%nat -> pv (mget m j) = b2z (nth j mb x00).
Proof.
  intros m mb j [[N H]|[-> H]] Hj; unfold mget.
  - destruct m as [|p m]; [congruence|]. cbn [is_empty]. apply holds_geti; assumption.
  - cbn [is_empty]. rewrite H, nth_repeat0. reflexivity.
Qed.
Lemma holds_map_seq : forall n (f : nat -> pint) (b : bytes), length b = n ->
  (forall i, (i < n)%nat -> pv (f i) = b2z (nth i b x00)) -> holds (map f (seq 0 n)) b.
Proof.
  intros n f b <-. revert f. induction b as [|x b IH]; intros f H; [reflexivity|].
  cbn [length seq map]. apply holds_cons; [apply (H 0%nat); cbn; lia|]. rewrite <- seq_shift, map_map. apply IH.
  intros i Hi. apply (H (S i)). cbn. lia.
Qed.
Lemma nth_xor_bytes : forall a b i, (i < length a)%nat -> (i < length b)%nat ->
  nth i (xor_bytes a b) x00 = byte_of_z (Z.lxor (bval (nth i a x00)) (bval (nth i b x00))).
Proof.
  induction a as [|x a IH]; intros b i Ha Hb; [cbn in Ha; lia|]. destruct b as [|y b]; [cbn in Hb; lia|].
  destruct i; [reflexivity|]. unfold xor_bytes in *. cbn [combine map nth]. apply IH; cbn in *; lia.
Qed.
Lemma nth_firstn' : forall (l : bytes) n i, (i < n)%nat -> nth i (firstn n l) x00 = nth i l x00.
Proof.
  induction l as [|x l IH]; intros n i H; [rewrite firstn_nil; reflexivity|]. destruct n; [lia|].
  destruct i; [reflexivity|]. cbn [firstn nth]. apply IH. lia.
Qed.
Lemma nth_skipn' : forall (l : bytes) n i, nth i (skipn n l) x00 = nth (n + i) l x00.
Proof.
  induction l as [|x l IH]; intros n i; [rewrite skipn_nil; destruct i, n; reflexivity|].
  destruct n; [reflexivity|]. cbn [skipn Nat.add nth]. apply IH.
Qed.

Lemma for_range_fill_at : forall n off (g : nat -> pint) l, (off + n <= length l)%nat ->
  for_range n (fun l i => seti l (i + off) (g i)) l = firstn off l ++ map g (seq 0 n) ++ skipn (off + n) l.
Proof.
  intros n off g l H.
  assert (G : length (for_range n (fun l i => seti l (i + off) (g i)) l) = length l /\
     forall j, geti (for_range n (fun l i => seti l (i + off) (g i)) l) j =
       if ((off <=? j) && (j <? off + n))%nat%bool then g (j - off)%nat else geti l j).
  { apply (for_range_inv _ (fun k s => length s = length l /\
       forall j, geti s j = if ((off <=? j) && (j <? off + k))%nat%bool then g (j - off)%nat else geti l j)).
    - split; [reflexivity|]. intros j. destruct ((off <=? j) && (j <? off + 0))%nat%bool eqn:E; [lia|reflexivity].
    - intros k s Hk [HL HG]. split; [rewrite seti_length; exact HL|]. intros j.
      destruct (Nat.eq_dec (k + off) j) as [<-|N].
      + rewrite geti_seti_eq by lia. replace ((off <=? k + off) && (k + off <? off + S k))%nat%bool with true by lia.
        f_equal. lia.
      + rewrite geti_seti_ne by exact N. rewrite HG.
        destruct ((off <=? j) && (j <? off + k))%nat%bool eqn:E1, ((off <=? j) && (j <? off + S k))%nat%bool eqn:E2;
          try lia; reflexivity. }
  destruct G as [GL GG]. apply list_ext.
  - rewrite GL, !app_length, map_length, seq_length, firstn_length, skipn_length. lia.
  - intros j Hj. rewrite GG. unfold geti.
    assert (L1 : length (firstn off l) = off) by (rewrite firstn_length; lia).
    assert (L2 : length (map g (seq 0 n)) = n) by (rewrite map_length, seq_length; reflexivity).
    destruct (Nat.ltb_spec j off) as [A|A].
    + replace ((off <=? j) && (j <? off + n))%nat%bool with false by lia.
      rewrite app_nth1 by lia. rewrite <- (firstn_skipn off l) at 1. rewrite app_nth1 by lia. reflexivity.
    + rewrite app_nth2 by lia. rewrite L1. destruct (Nat.ltb_spec (j - off) n) as [B|B].
      * replace ((off <=? j) && (j <? off + n))%nat%bool with true by lia.
        rewrite app_nth1 by lia. rewrite (nth_indep _ _ (g O)) by lia. rewrite map_nth, seq_nth by lia. reflexivity.
      * replace ((off <=? j) && (j <? off + n))%nat%bool with false by lia.
        rewrite app_nth2 by lia. rewrite L2. rewrite <- (firstn_skipn (off + n) l) at 1.
        rewrite app_nth2 by (rewrite firstn_length; lia). rewrite firstn_length. f_equal. lia.
Qed.

Lemma xor_block_eq : forall n c m x off moff, (off + n <= length c)%nat ->
  xor_block n c m x off moff =
  firstn off c ++ map (fun i => pxor (mget m (i + moff)) (geti x i)) (seq 0 n) ++ skipn (off + n) c.
Proof.
  intros n c m x off moff H. unfold xor_block.
  apply (for_range_fill_at n off (fun i => pxor (mget m (i + moff)) (geti x i)) c H).
Qed.
Lemma xor_part : forall n m mb x ks off moff, msg m mb -> holds x ks -> (n <= length ks)%nat -> (off + n <= length mb)%nat ->
  (moff = off \/ m = []) ->
  holds (map (fun i => pxor (mget m (i + moff)) (geti x i)) (seq 0 n))
        (xor_bytes (firstn n (skipn off mb)) (firstn n ks)).
Proof.
  intros n m mb x ks off moff Hm Hx Hn Hb HO. apply holds_map_seq.
  - rewrite xor_bytes_length, !firstn_length, skipn_length. lia.
  - intros i Hi. rewrite nth_xor_bytes by (rewrite firstn_length, ?skipn_length; lia).
    apply pxor_small; rewrite nth_firstn' by exact Hi.
    + assert (E : mget m (i + moff) = mget m (off + i)).
      { destruct HO as [->| ->]; [f_equal; lia|reflexivity]. }
      rewrite E, nth_skipn'. apply msg_get; [exact Hm|lia].
    + apply holds_geti; [exact Hx|lia].
Qed.

Definition code_block (k n : bytes) (i : nat) : bytes := salsa20 k (n ++ le_bytes 8 (cidx (Z.of_nat i))).
Definition keystream (k n : bytes) (i len : nat) : bytes :=
  firstn len (concat (map (code_block k n) (seq i (len / 64 + 1)))).
Lemma block_length : forall k n i, length (code_block k n i) = 64%nat.
Proof. intros. unfold code_block. apply salsa20_length. Qed.
Lemma keystream_step : forall k n i len, (64 <= len)%nat ->
  keystream k n i len = code_block k n i ++ keystream k n (S i) (len - 64).
Proof.
  intros k n i len H. unfold keystream. replace (len / 64 + 1)%nat with (S ((len - 64) / 64 + 1)) by lia.
  cbn [seq map concat]. rewrite firstn_app. rewrite block_length.
  rewrite firstn_all2 by (rewrite block_length; lia). reflexivity.
Qed.
Lemma keystream_last : forall k n i len, (len < 64)%nat -> keystream k n i len = firstn len (code_block k n i).
Proof.
  intros k n i len H. unfold keystream. replace (len / 64 + 1)%nat with 1%nat by lia.
  cbn [seq map concat]. rewrite app_nil_r. reflexivity.
Qed.
Lemma firstn_split3 : forall A (a b c : list A) n k, length a = n -> length b = k ->
  firstn (n + k) (a ++ b ++ c) = a ++ b.
Proof.
  intros A a b c n k Ha Hb. rewrite app_assoc, firstn_app, app_length, Ha, Hb, Nat.sub_diag, firstn_O, app_nil_r.
  apply firstn_all2. rewrite app_length. lia.
Qed.
Lemma skipn_split3 : forall A (a b c : list A) n k j, length a = n -> length b = k ->
  skipn (n + k + j) (a ++ b ++ c) = skipn j c.
Proof.
  intros A a b c n k j Ha Hb. rewrite app_assoc, skipn_app, app_length, Ha, Hb.
  rewrite skipn_all2 by (rewrite app_length; lia). cbn [app]. f_equal. lia.
Qed.

Lemma firstn_add : forall A a b (l : list A), firstn (a + b) l = firstn a l ++ firstn b (skipn a l).
Proof.
  induction a as [|a IH]; intros b l; [reflexivity|]. destruct l as [|x l]; [rewrite !firstn_nil; destruct b; reflexivity|].
  cbn [Nat.add firstn skipn app]. f_equal. apply IH.
Qed.
Definition zok (n8 : list pint) (i : nat) (z : list pint) : Prop :=
  (i <= 257)%nat -> exists t, z = n8 ++ t /\ ctr_ok (Z.of_nat i) t.

Lemma block_w : forall x n8 tz i k kb nb, holds n8 nb -> length nb = 8%nat -> (i <= 257)%nat -> ctr_ok (Z.of_nat i) tz ->
  holds k kb -> length kb = 32%nat -> length x = 64%nat ->
  holds (crypto_core_salsa20 x (n8 ++ tz) k sigma) (code_block kb nb i).
Proof.
  intros x n8 tz i k kb nb H8 L8 Hi C Hk Lk Lx. unfold code_block.
  apply salsa_loads; [|rewrite app_length, le_bytes_length; lia|exact Hk|exact Lk|exact Lx].
  apply ctr_loads; [exact H8|exact L8|lia|exact C].
Qed.
Lemma stream_loop_w : forall m mb n8 nb k kb, msg m mb -> holds n8 nb -> length nb = 8%nat -> holds k kb -> length kb = 32%nat ->
  forall fuel c z x i len moff, (len < fuel)%nat -> (64 * i + len <= length mb)%nat -> (64 * i + len <= length c)%nat ->
  (64 * i + len <= 64 * 258)%nat -> length x = 64%nat -> zok n8 i z -> (moff = (64 * i)%nat \/ m = []) ->
  exists t, stream_loop fuel c m z x k (64 * i) moff (Z.of_nat len) = firstn (64 * i) c ++ t ++ skipn (64 * i + len) c /\
    holds t (xor_bytes (firstn len (skipn (64 * i) mb)) (keystream kb nb i len)).
Proof.
  intros m mb n8 nb k kb Hm H8 L8 Hk Lk. induction fuel as [|f IH]; intros c z x i len moff Hf Hb Hc HX Lx Hz Ho; [lia|].
  cbn [stream_loop].
  destruct (Z.of_nat len >=? 64) eqn:E1.
  - assert (G : (64 <= len)%nat) by lia. clear E1. destruct (Hz ltac:(lia)) as (tz & -> & Cz).
    pose proof (block_w x n8 tz i k kb nb H8 L8 ltac:(lia) Cz Hk Lk Lx) as HS.
    remember (crypto_core_salsa20 x (n8 ++ tz) k sigma) as x' eqn:Ex. clear Ex.
    assert (LB : length (code_block kb nb i) = 64%nat) by apply block_length.
    pose proof (xor_part 64 m mb x' _ (64 * i) moff Hm HS ltac:(lia) ltac:(lia) Ho) as XP.
    rewrite xor_block_eq by lia. set (t1 := map (fun j => pxor (mget m (j + moff)) (geti x' j)) (seq 0 64)) in *.
    assert (Lt1 : length t1 = 64%nat) by (unfold t1; rewrite map_length, seq_length; reflexivity).
    assert (L0 : length (firstn (64 * i) c) = (64 * i)%nat) by (rewrite firstn_length; lia).
    replace (64 * i + 64)%nat with (64 * S i)%nat by lia.
    replace (Z.of_nat len - 64) with (Z.of_nat (len - 64)) by lia.
    edestruct (IH (firstn (64 * i) c ++ t1 ++ skipn (64 * S i) c) (bump (n8 ++ tz)) x' (S i) (len - 64)%nat
       (if is_empty m then moff else moff + 64)%nat) as (t2 & E2 & H2).
    + lia.
    + lia.
    + rewrite !app_length, L0, Lt1, skipn_length. lia.
    + lia.
    + rewrite (holds_length _ _ HS). exact LB.
    + intros Hi'. destruct (bump_counter n8 tz (Z.of_nat i)) as (tz' & B1 & B2);
        [rewrite (holds_length _ _ H8); exact L8|lia|exact Cz|].
      exists tz'. split; [exact B1|]. replace (Z.of_nat (S i)) with (Z.of_nat i + 1) by lia. exact B2.
    + destruct Ho as [->| ->]; [|right; reflexivity]. destruct m; [right; reflexivity|]. left. cbn [is_empty]. lia.
    + exists (t1 ++ t2). split.
      * etransitivity; [exact E2|].
        replace (64 * S i)%nat with (64 * i + 64)%nat by lia.
        rewrite (firstn_split3 _ _ _ _ (64 * i) 64) by assumption.
        rewrite (skipn_split3 _ _ _ _ (64 * i) 64) by assumption.
        rewrite skipn_skipn, <- !app_assoc. do 3 f_equal. f_equal. lia.
      * rewrite keystream_step by exact G.
        replace (firstn len (skipn (64 * i) mb)) with
          (firstn 64 (skipn (64 * i) mb) ++ firstn (len - 64) (skipn (64 * S i) mb)).
        -- rewrite xor_bytes_app by (rewrite firstn_length, skipn_length, LB; lia).
           apply holds_app; [|exact H2]. rewrite (firstn_all2 (code_block kb nb i)) in XP by lia. exact XP.
        -- replace (64 * S i)%nat with (64 + 64 * i)%nat by lia. rewrite <- skipn_skipn.
           rewrite <- firstn_add. f_equal. lia.
  - destruct (Z.of_nat len =? 0) eqn:E0.
    + assert (len = 0%nat) by lia. subst len. exists []. split; [|rewrite firstn_O; reflexivity].
      cbn [app]. rewrite Nat.add_0_r. symmetry. apply firstn_skipn.
    + assert (G : (0 < len < 64)%nat) by lia. destruct (Hz ltac:(lia)) as (tz & -> & Cz).
    pose proof (block_w x n8 tz i k kb nb H8 L8 ltac:(lia) Cz Hk Lk Lx) as HS.
    remember (crypto_core_salsa20 x (n8 ++ tz) k sigma) as x' eqn:Ex. clear Ex.
      assert (LB : length (code_block kb nb i) = 64%nat) by apply block_length.
      rewrite Nat2Z.id. rewrite xor_block_eq by lia. eexists. split; [reflexivity|].
      rewrite keystream_last by lia. apply xor_part; try assumption; lia.
Qed.

Lemma zok_start : forall n8, zok n8 0 (n8 ++ repeat (mk TU8 0) 8).
Proof. intros n8 _. exists (repeat (mk TU8 0) 8). split; reflexivity. Qed.
Lemma load_nonce : forall n, (8 <= length n)%nat ->
  for_range 8 (fun z i => seti z i (geti n i)) (int_array TU8 16) = firstn 8 n ++ repeat (mk TU8 0) 8.
Proof. intros n H. rewrite for_range_copy by (try (cbn; lia); exact H). reflexivity. Qed.

Lemma stream_xor_w : forall c m mb n nb k kb len, msg m mb -> holds n nb -> (8 <= length nb)%nat -> holds k kb -> length kb = 32%nat ->
  (len <= length mb)%nat -> (len <= length c)%nat -> (len <= 64 * 258)%nat ->
  exists t, crypto_stream_salsa20_xor c m (Z.of_nat len) n k = t ++ skipn len c /\
    holds t (xor_bytes (firstn len mb) (keystream kb (firstn 8 nb) 0 len)).
Proof.
  intros c m mb n nb k kb len Hm Hn Ln Hk Lk Hb Hc HX. unfold crypto_stream_salsa20_xor. cbv zeta.
  destruct (Z.of_nat len =? 0) eqn:E0.
  - assert (len = 0%nat) by lia. subst len. exists []. split; [reflexivity|]. rewrite firstn_O. reflexivity.
  - rewrite load_nonce by (rewrite (holds_length _ _ Hn); exact Ln).
    rewrite Nat2Z.id.
    destruct (stream_loop_w m mb (firstn 8 n) (firstn 8 nb) k kb Hm (holds_firstn 8 _ _ Hn) ltac:(rewrite firstn_length; lia) Hk Lk
      (S len) c (firstn 8 n ++ repeat (mk TU8 0) 8) (int_array TU8 64) 0 len 0%nat
      ltac:(lia) ltac:(lia) ltac:(lia) ltac:(lia) eq_refl (zok_start _) ltac:(left; lia)) as (t & E & H).
    exists t. split; [exact E|exact H].
Qed.

Lemma keystream_spec : forall k n len, (len <= 64 * 257)%nat -> keystream k n 0 len = salsa20_stream k n len.
Proof.
  intros k n len H. unfold keystream, salsa20_stream.
  assert (E : forall i, (i < 257)%nat -> code_block k n i = salsa20_block k n i).
  { intros i Hi. unfold code_block, salsa20_block, cidx. replace (Z.of_nat i =? 257) with false by lia. reflexivity. }
  destruct (Nat.eq_dec len (64 * 257)) as [->|N].
  - replace (64 * 257 / 64 + 1)%nat with 258%nat by (rewrite (Nat.mul_comm 64), Nat.div_mul by lia; reflexivity).
    rewrite (seq_app 257 1), !map_app, !concat_app.
    assert (L : forall (f : nat -> bytes) l, (forall i, length (f i) = 64%nat) -> length (concat (map f l)) = (64 * length l)%nat).
    { intros f l Hf. induction l as [|a l IH]; [reflexivity|]. cbn [map concat length]. rewrite app_length, Hf, IH. lia. }
    rewrite !firstn_app, !L by (intros; apply salsa20_length). rewrite seq_length, Nat.sub_diag, !firstn_O.
    rewrite (map_ext_in (code_block k n) (salsa20_block k n) (seq 0 257)); [reflexivity|].
    intros i Hi. apply in_seq in Hi. apply E. lia.
  - f_equal. f_equal. apply map_ext_in. intros i Hi. apply in_seq in Hi. apply E. lia.
Qed.

Lemma xsalsa_xor_w : forall c m mb n nb k kb len, msg m mb -> holds n nb -> length nb = 24%nat -> holds k kb -> length kb = 32%nat ->
  (len <= length mb)%nat -> (len <= length c)%nat -> (len <= 64 * 258)%nat ->
  exists t, crypto_stream_xsalsa20_xor c m (Z.of_nat len) n k = t ++ skipn len c /\
    holds t (xor_bytes (firstn len mb) (keystream (hsalsa20 kb (firstn 16 nb)) (skipn 16 nb) 0 len)).
Proof.
  intros c m mb n nb k kb len Hm Hn Ln Hk Lk Hb Hc HX. unfold crypto_stream_xsalsa20_xor. cbv zeta.
  pose proof (hsalsa20_core_w (int_array TU8 32) n nb k kb Hn ltac:(lia) Hk Lk eq_refl) as Hs.
  remember (crypto_core_hsalsa20 (int_array TU8 32) n k sigma) as s eqn:Es. clear Es.
  destruct (stream_xor_w c m mb (skipn 16 n) (skipn 16 nb) s _ len Hm (holds_skipn 16 _ _ Hn)
     ltac:(rewrite skipn_length; lia) Hs (hsalsa20_length _ _) Hb Hc HX) as (t & E & H).
  exists t. split; [exact E|]. rewrite (firstn_all2 (n := 8) (skipn 16 nb)) in H by (rewrite skipn_length; lia). exact H.
Qed.
Lemma xsalsa_xor_spec : forall c m mb n nb k kb len, msg m mb -> holds n nb -> length nb = 24%nat -> holds k kb -> length kb = 32%nat ->
  (len <= length mb)%nat -> (len <= length c)%nat -> (len <= 64 * 257)%nat ->
  exists t, crypto_stream_xsalsa20_xor c m (Z.of_nat len) n k = t ++ skipn len c /\
    holds t (xor_bytes (firstn len mb) (xsalsa20_stream kb nb len)).
Proof.
  intros c m mb n nb k kb len Hm Hn Ln Hk Lk Hb Hc HX. unfold xsalsa20_stream.
  rewrite <- keystream_spec by exact HX. apply xsalsa_xor_w; try assumption. lia.
Qed.

(** Block [i] of the key stream *)
Lemma nth_blocks : forall (f : nat -> bytes) i0 cnt i j d, (forall i, length (f i) = 64%nat) -> (j < 64)%nat -> (i < cnt)%nat ->
  nth (64 * i + j) (concat (map f (seq i0 cnt))) d = nth j (f (i0 + i)%nat) d.
Proof.
  intros f i0 cnt i j d Hf Hj. revert i0 cnt. induction i as [|i IH]; intros i0 cnt Hi; destruct cnt as [|cnt]; try lia; cbn [seq map concat].
  - rewrite app_nth1 by (rewrite Hf; lia). do 2 f_equal; lia.
  - rewrite app_nth2 by (rewrite Hf; lia). rewrite Hf. replace (64 * S i + j - 64)%nat with (64 * i + j)%nat by lia.
    rewrite IH by lia. do 2 f_equal; lia.
Qed.
Lemma keystream_nth : forall k n i j len, (j < 64)%nat -> (64 * i + j < len)%nat ->
  nth (64 * i + j) (keystream k n 0 len) x00 = nth j (code_block k n i) x00.
Proof.
  intros k n i j len Hj H. unfold keystream. rewrite nth_firstn' by exact H.
  rewrite nth_blocks; [reflexivity|intros; apply block_length|exact Hj|]. lia.
Qed.
Lemma stream_nth : forall k n i j len, (j < 64)%nat -> (64 * i + j < len)%nat ->
  nth (64 * i + j) (salsa20_stream k n len) x00 = nth j (salsa20_block k n i) x00.
Proof.
  intros k n i j len Hj H. unfold salsa20_stream. rewrite nth_firstn' by exact H.
  rewrite nth_blocks; [reflexivity|intros; apply salsa20_length|exact Hj|]. lia.
Qed.
Lemma keystream_length : forall k n i len, length (keystream k n i len) = len.
Proof.
  intros k n i len. unfold keystream. rewrite firstn_length.
  assert (L : forall l, length (concat (map (code_block k n) l)) = (64 * length l)%nat).
  { induction l as [|a l IH]; [reflexivity|]. cbn [map concat length]. rewrite app_length, block_length, IH. lia. }
  rewrite L, seq_length. lia.
Qed.
Lemma stream_length : forall k n len, length (salsa20_stream k n len) = len.
Proof.
  intros k n len. unfold salsa20_stream. rewrite firstn_length.
  assert (L : forall l, length (concat (map (salsa20_block k n) l)) = (64 * length l)%nat).
  { induction l as [|a l IH]; [reflexivity|]. cbn [map concat length]. rewrite app_length. unfold salsa20_block at 1. rewrite salsa20_length, IH. lia. }
  rewrite L, seq_length. lia.
Qed.
