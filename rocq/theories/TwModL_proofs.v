(** Lemmas about TwSign: reduction modulo the order of the base point. *)
From Coq Require Import List ZArith Bool Strings.Byte Lia ZifyBool ZifyNat ZifyN.
From Verif Require Import PyBase PyBase_proofs PyInt PyInt_proofs ShaSpec SalsaSpec CurveSpec EdSpec TwSalsa TwSalsa_proofs
  TwPoly TwPoly_proofs TwField Radix_proofs TwField_proofs TwPack_proofs TwCurve_proofs TwSign TwSign_proofs.
Import ListNotations.
Open Scope Z_scope.
Ltac Zify.zify_post_hook ::= Z.div_mod_to_equations.

Definition px (x : list pint) (j : nat) : Z := pv (geti x j).
Lemma px_seti : forall x i v j, (i < length x)%nat -> px (seti x i v) j = if (i =? j)%nat then pv v else px x j.
Proof. intros x i v j H. unfold px. rewrite seti_geti_chain by exact H. destruct (i =? j)%nat; reflexivity. Qed.
Lemma num_upd : forall n f g j, (j < n)%nat -> (forall i, i <> j -> g i = f i) -> num 256 n g = num 256 n f + (g j - f j) * 256 ^ Z.of_nat j.
Proof.
  induction n as [|n IH]; intros f g j Hj E; [lia|]. rewrite !num_S. destruct (Nat.eq_dec j n) as [->|N].
  - rewrite (num_ext 256 n g f) by (intros i Hi; apply E; lia). ring.
  - rewrite (IH f g j) by (lia || assumption). rewrite (E n) by lia. ring.
Qed.
Lemma num_seti : forall n x j v, (j < n)%nat -> (j < length x)%nat ->
  num 256 n (px (seti x j v)) = num 256 n (px x) + (pv v - px x j) * 256 ^ Z.of_nat j.
Proof.
  intros n x j v Hn Hl. rewrite (num_upd n (px x) (px (seti x j v)) j Hn).
  - rewrite px_seti by exact Hl. rewrite Nat.eqb_refl. reflexivity.
  - intros i Hi. rewrite px_seti by exact Hl. replace (j =? i)%nat with false by lia. reflexivity.
Qed.
Definition lf (k : nat) : Z := px cL k.
Lemma lf_range : forall k, 0 <= lf k <= 255.
Proof. intros k. do 32 (destruct k as [|k]; [cbv; split; discriminate|]). unfold lf, px, geti. rewrite nth_overflow by (cbn; lia). cbn. lia. Qed.
Lemma lf_zero : forall k, (16 <= k < 20)%nat -> lf k = 0.
Proof. intros k H. do 16 (destruct k as [|k]; [lia|]). do 4 (destruct k as [|k]; [reflexivity|]). lia. Qed.
Lemma lf_num : num 256 32 lf = rfc_L.
Proof. vm_compute. reflexivity. Qed.
Lemma lf_low : 16 * num 256 20 lf + 256 ^ 32 = 16 * rfc_L.
Proof. vm_compute. reflexivity. Qed.

(** ** One row *)
Fixpoint bd (N : Z) (k : nat) : Z :=
  match k with O => 2 ^ 28 | S j => if (j <? 16)%nat then 2 ^ 28 else (N + bd N j + 128) / 256 + 1 end.
Definition isp (x : list pint) (j : nat) : Prop := geti x j = plain (px x j).
Definition cells (m : nat) (x0 : list pint) (N : Z) (k : nat) (st : list pint * pint) : Prop :=
  let (x, c) := st in
  exists v, c = plain v /\ - bd N k <= v <= bd N k /\ length x = 64%nat /\
  (forall j, (m - 32 <= j < m - 32 + k)%nat -> isp x j /\ -128 <= px x j <= 127) /\
  (forall j, ~ (m - 32 <= j < m - 32 + k)%nat -> geti x j = geti x0 j) /\
  num 256 64 (px x) + v * 256 ^ Z.of_nat (m - 32 + k) = num 256 64 (px x0) - 16 * px x0 m * (num 256 k lf * 256 ^ Z.of_nat (m - 32)).
Lemma cell_w : forall m x0 N k st, (32 <= m < 64)%nat -> (k < 20)%nat -> (forall j, - 2 ^ 23 <= px x0 j <= 2 ^ 23) ->
  (forall j, (m - 31 <= j <= m - 13)%nat -> - N <= px x0 j <= N) -> 0 <= N -> cells m x0 N k st -> cells m x0 N (S k) (modL_cell m st k).
Proof.
  intros m x0 N k [x c] Hm Hk F FN HN (v & -> & V & L & R & U & E). unfold modL_cell. cbv zeta.
  remember (m - 32 + k)%nat as j eqn:Ej.
  assert (Xj : px x j = px x0 j) by (unfold px; rewrite U by lia; reflexivity). assert (Xm : px x m = px x0 m) by (unfold px; rewrite U by lia; reflexivity).
  unfold pmul, psub, padd. rewrite !typed_plain_l. cbn [plain pv]. rewrite typed_plain_r. cbn [plain pv].
  change (pv (geti x m)) with (px x m). change (pv (geti cL k)) with (lf k). change (pv (geti x j)) with (px x j). rewrite Xj, Xm.
  remember (px x0 j + (v - 16 * px x0 m * lf k)) as w eqn:Ew.
  rewrite geti_seti_eq by (rewrite L; lia). rewrite typed_plain_r. cbn [plain pv].
  assert (EC : pshr (plain (w + 128)) 8 = plain ((w + 128) / 256)) by (unfold pshr; cbn [plain pt pv mk]; rewrite Z.shiftr_div_pow2 by lia; reflexivity).
  rewrite EC. remember ((w + 128) / 256) as c eqn:Ec.
  assert (ES : pshl (plain c) 8 = plain (c * 256)) by (unfold pshl; cbn [plain pt pv mk]; rewrite Z.shiftl_mul_pow2 by lia; reflexivity).
  rewrite ES, typed_plain_r. cbn [plain pv]. rewrite seti_seti.
  pose proof (lf_range k) as LR. pose proof (F j) as Fj. pose proof (F m) as Fm.
  exists c. split; [reflexivity|]. split; [|split; [|split; [|split]]].
  - cbn [bd]. destruct (Nat.ltb_spec k 16) as [Q|Q].
    + assert (B : bd N k = 2 ^ 28). { destruct k as [|k]; [reflexivity|]. cbn [bd]. replace (k <? 16)%nat with true by lia. reflexivity. }
      rewrite B in V. assert (- (2 ^ 23 * 255) <= px x0 m * lf k <= 2 ^ 23 * 255) by (clear - LR Fm; nia). clear - V H Fj Ew Ec. subst w. lia.
    + rewrite lf_zero in Ew by lia. assert (FNj : - N <= px x0 j <= N) by (apply FN; lia). clear - V FNj Ew Ec HN. remember (bd N k) as b. subst w. lia.
  - rewrite seti_length. exact L.
  - intros i Hi. unfold isp. rewrite px_seti, seti_geti_chain by (rewrite L; lia).
    destruct (Nat.eqb_spec j i) as [Q|Q]; [split; [reflexivity|]; cbn [plain pv]; clear - Ec; lia|apply R; lia].
  - intros i Hi. rewrite seti_geti_chain by (rewrite L; lia). replace (j =? i)%nat with false by lia. apply U. lia.
  - rewrite num_seti by (rewrite ?L; lia). cbn [plain pv]. rewrite Xj, (num_S 256 k lf).
    replace (m - 32 + S k)%nat with (S j) by lia. rewrite Nat2Z.inj_succ, Z.pow_succ_r by lia.
    assert (EP : 256 ^ Z.of_nat k * 256 ^ Z.of_nat (m - 32) = 256 ^ Z.of_nat j).
    { rewrite <- Z.pow_add_r by lia. f_equal. lia. }
    rewrite Z.mul_add_distr_r. rewrite <- (Z.mul_assoc (lf k)), EP. clear - E Ew. revert E Ew. generalize (256 ^ Z.of_nat j), (num 256 64 (px x)), (num 256 64 (px x0)).
    generalize (num 256 k lf * 256 ^ Z.of_nat (m - 32)) (px x0 m) (px x0 j) (lf k). intros n u y l P a b E Ew. subst w.
    transitivity (a + v * P - 16 * u * l * P); [ring|]. rewrite E. ring.
Qed.
(** One row: what it leaves alone, what it normalises, and the multiple of the order it takes away. *)
Definition row_post (m : nat) (x0 x : list pint) (b : Z) : Prop :=
  length x = 64%nat /\
  (forall j, (m - 32 <= j <= m - 13)%nat -> isp x j /\ -128 <= px x j <= 127) /\
  (isp x (m - 12) /\ - b <= px x (m - 12) - px x0 (m - 12) <= b) /\
  (isp x m /\ px x m = 0) /\
  (forall j, (j < m - 32 \/ m - 12 < j)%nat -> j <> m -> geti x j = geti x0 j) /\
  num 256 64 (px x) = num 256 64 (px x0) - px x0 m * 256 ^ Z.of_nat (m - 32) * 16 * rfc_L.
Lemma row_w : forall m x0 N, (32 <= m < 64)%nat -> length x0 = 64%nat -> (forall j, - 2 ^ 23 <= px x0 j <= 2 ^ 23) ->
  (forall j, (m - 31 <= j <= m - 13)%nat -> - N <= px x0 j <= N) -> 0 <= N -> row_post m x0 (modL_row x0 m) (bd N 20).
Proof.
  intros m x0 N Hm L0 F FN HN. unfold modL_row.
  assert (C : cells m x0 N 20 (for_range 20 (modL_cell m) (x0, plain 0))).
  { apply for_range_inv.
    - exists 0. split; [reflexivity|]. split; [cbn [bd]; lia|]. split; [exact L0|]. split; [intros j Hj; lia|]. split; [reflexivity|]. change (num 256 0 lf) with 0. generalize (num 256 64 (px x0)) (256 ^ Z.of_nat (m - 32 + 0)) (256 ^ Z.of_nat (m - 32)) (px x0 m). intros. ring.
    - intros i s Hi Hs. apply cell_w; assumption. }
  destruct (for_range 20 (modL_cell m) (x0, plain 0)) as [x c]. destruct C as (v & -> & V & L & R & U & E).
  unfold padd. rewrite typed_plain_r. cbn [plain pv].
  assert (X12 : geti x (m - 12) = geti x0 (m - 12)) by (apply U; lia). rewrite X12. change (pv (geti x0 (m - 12))) with (px x0 (m - 12)).
  assert (Xm : geti x m = geti x0 m) by (apply U; lia).
  unfold row_post. split; [rewrite !seti_length; exact L|]. split; [|split; [|split; [|split]]].
  - intros j Hj. unfold isp. rewrite !px_seti, !seti_geti_chain by (rewrite ?seti_length, L; lia).
    replace (m =? j)%nat with false by lia. replace (m - 12 =? j)%nat with false by lia. apply R. lia.
  - unfold isp. rewrite !px_seti, !seti_geti_chain by (rewrite ?seti_length, L; lia).
    replace (m =? m - 12)%nat with false by lia. rewrite Nat.eqb_refl. split; [reflexivity|]. cbn [plain pv]. clear - V. lia.
  - unfold isp. rewrite !px_seti, !seti_geti_chain by (rewrite ?seti_length, L; lia). rewrite Nat.eqb_refl. split; reflexivity.
  - intros j Hj N'. rewrite !seti_geti_chain by (rewrite ?seti_length, L; lia).
    replace (m =? j)%nat with false by lia. replace (m - 12 =? j)%nat with false by lia. apply U. lia.
  - rewrite num_seti by (rewrite ?seti_length, ?L; lia). rewrite num_seti by (rewrite ?L; lia).
    rewrite px_seti by (rewrite L; lia). replace (m - 12 =? m)%nat with false by lia. cbn [plain pv].
    assert (P12 : px x (m - 12) = px x0 (m - 12)) by (unfold px; rewrite X12; reflexivity). assert (Pm : px x m = px x0 m) by (unfold px; rewrite Xm; reflexivity). rewrite P12, Pm.
    replace (m - 32 + 20)%nat with (m - 12)%nat in E by lia.
    assert (EP : 256 ^ Z.of_nat m = 256 ^ 32 * 256 ^ Z.of_nat (m - 32)).
    { rewrite <- Z.pow_add_r by lia. f_equal. lia. }
    rewrite EP. pose proof lf_low as LL. clear - E LL. revert E LL. generalize (256 ^ Z.of_nat (m - 32)) (256 ^ Z.of_nat (m - 12)) (num 256 20 lf) (num 256 64 (px x)) (num 256 64 (px x0)) (px x0 m) (px x0 (m - 12)) (256 ^ 32).
    generalize rfc_L. intros l P P2 n a b u w K E LL.
    replace (u * P * 16 * l) with (u * P * (16 * l)) by ring. rewrite <- LL.
    transitivity (a + v * P2 - u * (K * P)); [ring|]. rewrite E. ring.
Qed.

Lemma bd_wide : bd (2 ^ 23) 20 <= 2 ^ 16. Proof. vm_compute. discriminate. Qed.
Lemma bd_norm : bd 128 20 = 2. Proof. vm_compute. reflexivity. Qed.

(** ** All rows: [m] is the next row *)
Definition rows (x0 : list pint) (m : nat) (x : list pint) : Prop :=
  length x = 64%nat /\
  (forall j, (m < j)%nat -> px x j = 0) /\
  (forall j, (j <= m)%nat -> - 2 ^ 23 <= px x j <= 2 ^ 23) /\
  (forall j, (j + 32 <= m)%nat -> - 2 ^ 22 <= px x j <= 2 ^ 22) /\
  (m = 63%nat -> forall j, - 2 ^ 22 <= px x j <= 2 ^ 22) /\
  (forall j, (m < 63)%nat -> (m - 31 <= j <= m - 12)%nat -> -128 <= px x j <= 127) /\
  (forall j, (m < 63)%nat -> (m - 12 < j <= 50)%nat -> -130 <= px x j <= 129) /\
  (forall j, (m < 63)%nat -> (m - 31 <= j <= 51)%nat -> isp x j) /\
  exists q, num 256 64 (px x) = num 256 64 (px x0) + q * rfc_L.
Lemma px_out : forall x j, (length x <= j)%nat -> px x j = 0.
Proof. intros x j H. unfold px, geti. rewrite nth_overflow by exact H. reflexivity. Qed.
Lemma rows_init : forall x0, length x0 = 64%nat -> (forall j, - 2 ^ 22 <= px x0 j <= 2 ^ 22) -> rows x0 63 x0.
Proof.
  intros x0 L B. unfold rows. split; [exact L|]. split; [intros j Hj; apply px_out; lia|]. split; [intros j _; pose proof (B j); lia|].
  split; [intros; apply B|]. split; [intros; apply B|]. split; [intros; lia|]. split; [intros; lia|]. split; [intros; lia|]. exists 0. rewrite Z.mul_0_l, Z.add_0_r. reflexivity.
Qed.
Lemma rows_step : forall x0 m x, (32 <= m <= 63)%nat -> rows x0 m x -> rows x0 (m - 1) (modL_row x m).
Proof.
  intros x0 m x Hm (L & Z0 & B & O & O5 & NN & C & I & q & E).
  assert (BA : forall j, - 2 ^ 23 <= px x j <= 2 ^ 23).
  { intros j. destruct (Nat.le_gt_cases j m) as [Q|Q]; [apply B; exact Q|rewrite Z0 by exact Q; lia]. }
  assert (P : exists b, row_post m x (modL_row x m) b /\ b <= 2 ^ 16 /\ ((m < 63)%nat -> b = 2)).
  { destruct (Nat.eq_dec m 63) as [Q|Q].
    - exists (bd (2 ^ 23) 20). split; [apply row_w; try lia; try assumption; intros; apply BA|]. split; [exact bd_wide|lia].
    - exists (bd 128 20). split; [apply row_w; try lia; try assumption|rewrite bd_norm; lia].
      intros j Hj. assert (-128 <= px x j <= 127) by (apply NN; lia). lia. }
  destruct P as (b & (L' & R & (I12 & D12) & (Im & Zm) & U & E') & Hb & Hb2). remember (modL_row x m) as y eqn:Ey. clear Ey.
  assert (Up : forall j, (j < m - 32 \/ m - 12 < j)%nat -> j <> m -> px y j = px x j) by (intros j H1 H2; unfold px; rewrite U by assumption; reflexivity).
  unfold rows. split; [exact L'|]. split; [|split; [|split; [|split; [|split; [|split; [|split]]]]]].
  - intros j Hj. destruct (Nat.eq_dec j m) as [->|Q]; [exact Zm|]. rewrite Up by lia. apply Z0. lia.
  - intros j Hj. destruct (Nat.le_gt_cases (m - 32) j) as [Q1|Q1]; [destruct (Nat.le_gt_cases j (m - 13)) as [Q2|Q2]|].
    + destruct (R j) as [_ Rj]; lia.
    + destruct (Nat.eq_dec j (m - 12)) as [->|Q3]; [|rewrite Up by lia; apply BA].
      destruct (Nat.eq_dec m 63) as [Q4|Q4].
      * assert (- 2 ^ 22 <= px x (m - 12) <= 2 ^ 22) by (apply O5; lia). lia.
      * rewrite Hb2 in D12 by lia. assert (-128 <= px x (m - 12) <= 127) by (apply NN; lia). lia.
    + rewrite Up by lia. apply BA.
  - intros j Hj. rewrite Up by lia. apply O. lia.
  - intros H1. lia.
  - intros j _ Hj. destruct (R j); [lia|assumption].
  - intros j _ Hj. destruct (Nat.eq_dec j m) as [->|Q]; [rewrite Zm; lia|]. destruct (Nat.eq_dec j (m - 12)) as [->|Q'].
    + rewrite Hb2 in D12 by lia. assert (-128 <= px x (m - 12) <= 127) by (apply NN; lia). lia.
    + rewrite Up by lia. apply C; lia.
  - intros j _ Hj. destruct (Nat.eq_dec j m) as [->|Q]; [exact Im|]. destruct (Nat.eq_dec j (m - 12)) as [->|Q']; [exact I12|].
    destruct (Nat.le_gt_cases j (m - 13)) as [Q2|Q2]; [apply R; lia|]. unfold isp, px. rewrite U by lia. apply I; lia.
  - exists (q - px x m * 256 ^ Z.of_nat (m - 32) * 16). rewrite E', E. clear. generalize (num 256 64 (px x0)) (256 ^ Z.of_nat (m - 32)) (px x m) rfc_L. intros. ring.
Qed.
Lemma rows_w : forall x0, length x0 = 64%nat -> (forall j, - 2 ^ 22 <= px x0 j <= 2 ^ 22) ->
  rows x0 31 (for_range 32 (fun x k => modL_row x (63 - k)) x0).
Proof.
  intros x0 L B. apply (for_range_inv _ (fun k x => rows x0 (63 - k) x)).
  - apply rows_init; assumption.
  - intros i s Hi H. replace (63 - S i)%nat with (63 - i - 1)%nat by lia. apply rows_step; [lia|exact H].
Qed.

(** ** The top digit *)
Definition tops (x0 : list pint) (k : nat) (st : list pint * pint) : Prop :=
  let (x, c) := st in
  exists v, c = plain v /\ length x = 64%nat /\
  (forall j, (j < k)%nat -> isp x j /\ 0 <= px x j <= 255) /\
  (forall j, (k <= j)%nat -> geti x j = geti x0 j) /\
  num 256 64 (px x) + v * 256 ^ Z.of_nat k = num 256 64 (px x0) - (px x0 31 / 16) * num 256 k lf.
Lemma tops_step : forall x0 k st, (k < 32)%nat -> isp x0 31 -> tops x0 k st -> tops x0 (S k) (modL_top st k).
Proof.
  intros x0 k [x c] Hk I (v & -> & L & R & U & E). unfold modL_top. cbv zeta. rewrite (U 31%nat), I by lia.
  assert (E4 : pshr (plain (px x0 31)) 4 = plain (px x0 31 / 16)) by (unfold pshr; cbn [plain pt pv mk]; rewrite Z.shiftr_div_pow2 by lia; reflexivity).
  rewrite E4. unfold pmul, psub, padd. rewrite !typed_plain_l. cbn [plain pv]. rewrite typed_plain_r. cbn [plain pv].
  change (pv (geti cL k)) with (lf k). rewrite (U k) by lia. change (pv (geti x0 k)) with (px x0 k).
  assert (Xk : px x k = px x0 k) by (unfold px; rewrite U by lia; reflexivity).
  remember (px x0 k + (v - px x0 31 / 16 * lf k)) as w eqn:Ew. rewrite geti_seti_eq by (rewrite L; lia).
  assert (EC : pshr (plain w) 8 = plain (w / 256)) by (unfold pshr; cbn [plain pt pv mk]; rewrite Z.shiftr_div_pow2 by lia; reflexivity).
  assert (EA : pand (plain w) (plain 255) = plain (w mod 256)).
  { unfold pand. rewrite typed_plain_r. cbn [plain pv]. change 255 with (Z.ones 8). rewrite Z.land_ones by lia. reflexivity. }
  rewrite EC, EA, seti_seti. exists (w / 256). split; [reflexivity|]. split; [rewrite seti_length; exact L|]. split; [|split].
  - intros j Hj. unfold isp. rewrite px_seti, seti_geti_chain by (rewrite L; lia).
    destruct (Nat.eqb_spec k j) as [Q|Q]; [split; [reflexivity|]; cbn [plain pv]; clear; lia|apply R; lia].
  - intros j Hj. rewrite seti_geti_chain by (rewrite L; lia). replace (k =? j)%nat with false by lia. apply U. lia.
  - rewrite num_seti by (rewrite ?L; lia). cbn [plain pv]. rewrite Xk, (num_S 256 k lf), Nat2Z.inj_succ, Z.pow_succ_r by lia.
    clear - E Ew. revert E Ew. generalize (256 ^ Z.of_nat k) (num 256 64 (px x)) (num 256 64 (px x0)) (px x0 31 / 16) (num 256 k lf) (lf k) (px x0 k).
    intros P a b u n l y E Ew. pose proof (Z.div_mod w 256 ltac:(lia)) as D. replace (w mod 256) with (w - 256 * (w / 256)) by (clear - D; lia). clear D.
    transitivity (a + v * P - u * l * P); [rewrite Ew at 1; ring|]. rewrite E. ring.
Qed.
Lemma tops_w : forall x0, length x0 = 64%nat -> isp x0 31 -> tops x0 32 (for_range 32 modL_top (x0, plain 0)).
Proof.
  intros x0 L I. apply for_range_inv.
  - exists 0. split; [reflexivity|]. split; [exact L|]. split; [intros; lia|]. split; [reflexivity|].
    change (num 256 0 lf) with 0. generalize (num 256 64 (px x0)) (256 ^ Z.of_nat 0) (px x0 31 / 16). intros. ring.
  - intros i s Hi H. apply tops_step; assumption.
Qed.

(** ** Adding the order back *)
Definition subs (x0 : list pint) (c : Z) (k : nat) (x : list pint) : Prop :=
  length x = 64%nat /\ (forall j, (j < k)%nat -> isp x j) /\ (forall j, (k <= j)%nat -> geti x j = geti x0 j) /\
  num 256 64 (px x) = num 256 64 (px x0) - c * num 256 k lf.
Definition modL_subs (x : list pint) (carry : pint) : list pint :=
  for_range 32 (fun x j => seti x j (psub (geti x j) (pmul carry (geti cL j)))) x.
Lemma subs_w : forall x0 c, length x0 = 64%nat -> subs x0 c 32 (modL_subs x0 (plain c)).
Proof.
  intros x0 c L0. unfold modL_subs. apply for_range_inv.
  - split; [exact L0|]. split; [intros; lia|]. split; [reflexivity|]. change (num 256 0 lf) with 0. generalize (num 256 64 (px x0)). intros. ring.
  - intros k x Hk (L & I & U & E). unfold pmul, psub. rewrite typed_plain_l, typed_plain_r. cbn [plain pv]. change (pv (geti cL k)) with (lf k). change (pv (geti x k)) with (px x k).
    split; [rewrite seti_length; exact L|]. split; [|split].
    + intros j Hj. unfold isp. rewrite px_seti, seti_geti_chain by (rewrite L; lia). destruct (Nat.eqb_spec k j) as [Q|Q]; [reflexivity|apply I; lia].
    + intros j Hj. rewrite seti_geti_chain by (rewrite L; lia). replace (k =? j)%nat with false by lia. apply U. lia.
    + rewrite num_seti by (rewrite ?L; lia). cbn [plain pv]. rewrite (num_S 256 k lf), E. generalize (256 ^ Z.of_nat k) (num 256 64 (px x0)) (num 256 k lf) (lf k) (px x k). intros. ring.
Qed.

(** ** Output *)
Definition outs (x0 r0 : list pint) (k : nat) (st : list pint * list pint) : Prop :=
  let (x, r) := st in
  length x = 64%nat /\ length r = length r0 /\ (forall j, (k < j)%nat -> geti x j = geti x0 j) /\ isp x k /\
  (forall j, (j < k)%nat -> isp r j /\ 0 <= px r j < 256) /\ (forall j, (k <= j)%nat -> geti r j = geti r0 j) /\
  num 256 k (px r) + px x k * 256 ^ Z.of_nat k = num 256 (S k) (px x0).
Lemma outs_step : forall x0 r0 k st, (k < 32)%nat -> (32 <= length r0)%nat -> outs x0 r0 k st -> outs x0 r0 (S k) (modL_out st k).
Proof.
  intros x0 r0 k [x r] Hk L0 (L & Lr & U & I & R & Ur & E). unfold modL_out. cbv zeta. replace (k + 1)%nat with (S k) by lia.
  rewrite I. remember (px x k) as w eqn:Ew.
  assert (EC : pshr (plain w) 8 = plain (w / 256)) by (unfold pshr; cbn [plain pt pv mk]; rewrite Z.shiftr_div_pow2 by lia; reflexivity).
  assert (EA : pand (plain w) (plain 255) = plain (w mod 256)).
  { unfold pand. rewrite typed_plain_r. cbn [plain pv]. change 255 with (Z.ones 8). rewrite Z.land_ones by lia. reflexivity. }
  rewrite geti_seti_ne by lia. rewrite I, <- Ew, EC, EA. unfold padd. rewrite typed_plain_r. cbn [plain pv]. rewrite U by lia. change (pv (geti x0 (S k))) with (px x0 (S k)).
  unfold outs. split; [rewrite seti_length; exact L|]. split; [rewrite seti_length; exact Lr|]. split; [|split; [|split; [|split]]].
  - intros j Hj. rewrite seti_geti_chain by (rewrite L; lia). replace (S k =? j)%nat with false by lia. apply U. lia.
  - unfold isp. rewrite px_seti, seti_geti_chain by (rewrite L; lia). rewrite Nat.eqb_refl. reflexivity.
  - intros j Hj. unfold isp. rewrite px_seti, seti_geti_chain by lia. destruct (Nat.eqb_spec k j) as [Q|Q]; [split; [reflexivity|]; cbn [plain pv]; clear; lia|apply R; lia].
  - intros j Hj. rewrite seti_geti_chain by lia. replace (k =? j)%nat with false by lia. apply Ur. lia.
  - rewrite (num_S 256 (S k)), <- E, num_S. rewrite (num_ext 256 k (px (seti r k (plain (w mod 256)))) (px r)).
    2: { intros j Hj. rewrite px_seti by lia. replace (k =? j)%nat with false by lia. reflexivity. }
    rewrite !px_seti by (rewrite ?L; lia). rewrite !Nat.eqb_refl. cbn [plain pv]. rewrite Nat2Z.inj_succ, Z.pow_succ_r by lia.
    clear. generalize (256 ^ Z.of_nat k) (num 256 k (px r)) (px x0 (S k)). intros P n y.
    pose proof (Z.div_mod w 256 ltac:(lia)) as D. replace (w mod 256) with (w - 256 * (w / 256)) by (clear - D; lia). ring.
Qed.
Lemma outs_w : forall x0 r0, length x0 = 64%nat -> isp x0 0 -> (32 <= length r0)%nat -> outs x0 r0 32 (for_range 32 modL_out (x0, r0)).
Proof.
  intros x0 r0 L I L0. apply for_range_inv.
  - split; [exact L|]. split; [reflexivity|]. split; [reflexivity|]. split; [exact I|]. split; [intros; lia|]. split; [reflexivity|].
    reflexivity.
  - intros i s Hi H. apply outs_step; assumption.
Qed.


(** ** The whole reduction *)
Lemma num_zero : forall B m n f, (forall j, (n <= j)%nat -> f j = 0) -> num B (m + n) f = num B n f.
Proof. induction m as [|m IH]; intros n f H; [reflexivity|]. cbn [Nat.add]. rewrite num_S, IH by exact H. rewrite H by lia. ring. Qed.
Lemma num_abs : forall n f b, (forall i, (i < n)%nat -> - b <= f i <= b) -> - (b * (256 ^ Z.of_nat n - 1)) <= 255 * num 256 n f <= b * (256 ^ Z.of_nat n - 1).
Proof.
  induction n as [|n IH]; intros f b H; [cbn; lia|]. rewrite num_S, Nat2Z.inj_succ, Z.pow_succ_r by lia.
  specialize (IH f b (fun i Hi => H i (Nat.lt_lt_succ_r _ _ Hi))). specialize (H n ltac:(lia)).
  assert (0 < 256 ^ Z.of_nat n) by (apply Z.pow_pos_nonneg; lia). revert IH H H0. generalize (256 ^ Z.of_nat n) (num 256 n f) (f n). clear. intros P a u. nia.
Qed.
Lemma nth_skipn : forall A (l : list A) n i d, nth i (skipn n l) d = nth (n + i) l d.
Proof. induction l as [|a l IH]; intros [|n] i d; try reflexivity; [destruct i; reflexivity|]. apply IH. Qed.
Lemma nth_firstn_lt : forall A (l : list A) n i d, (i < n)%nat -> nth i (firstn n l) d = nth i l d.
Proof. induction l as [|a l IH]; intros [|n] [|i] d H; try reflexivity; try lia. cbn. apply IH. lia. Qed.
Lemma firstn_skipn_geti : forall (r r0 : list pint), length r = length r0 -> (forall j, (32 <= j)%nat -> geti r j = geti r0 j) -> r = firstn 32 r ++ skipn 32 r0.
Proof.
  intros r r0 L H. rewrite <- (firstn_skipn 32 r) at 1. f_equal. apply (nth_ext _ _ (plain 0) (plain 0)); [rewrite !skipn_length, L; reflexivity|].
  intros n Hn. rewrite !nth_skipn. apply (H (32 + n)%nat). lia.
Qed.
Lemma holds_plain : forall l b, (forall i, (i < length l)%nat -> isp l i) -> holds l b -> l = of_bytes b.
Proof.
  intros l b I H. apply (nth_ext _ _ (plain 0) (plain 0)); [unfold of_bytes; rewrite map_length; apply (holds_length _ _ H)|].
  intros n Hn. specialize (I n Hn). unfold isp, px in I. rewrite (holds_geti _ _ n H) in I by (rewrite <- (holds_length _ _ H); exact Hn). unfold geti in I.
  rewrite I. unfold of_bytes. rewrite (nth_indep _ (plain 0) (plain (b2z x00))) by (rewrite map_length, <- (holds_length _ _ H); exact Hn).
  rewrite (map_nth (fun y => plain (b2z y))). reflexivity.
Qed.
Lemma num_64 : forall f, (forall j, (32 <= j)%nat -> f j = 0) -> num 256 64 f = num 256 32 f.
Proof. intros f H. exact (num_zero 256 32 32 f H). Qed.
Lemma num_33 : forall f, (forall j, (32 <= j)%nat -> f j = 0) -> num 256 33 f = num 256 32 f.
Proof. intros f H. exact (num_zero 256 1 32 f H). Qed.
Lemma num_32 : forall f, num 256 32 f = num 256 31 f + f 31%nat * 256 ^ 31.
Proof. intros f. exact (num_S 256 31 f). Qed.
Lemma L_parts : rfc_L = 16 * 256 ^ 31 + 27742317777372353535851937790883648493.
Proof. vm_compute. reflexivity. Qed.
Lemma L_256 : 0 < rfc_L < 256 ^ 32.
Proof. vm_compute. split; reflexivity. Qed.
Lemma modL_arith : forall V0 e t a2 a3 a4 y q1 v,
  e + t * 256 ^ 31 = V0 + q1 * rfc_L -> a2 + v * 256 ^ 32 = e + t * 256 ^ 31 - t / 16 * rfc_L -> a3 = a2 - v * rfc_L ->
  a4 + y * 256 ^ 32 = a3 -> 0 <= a2 < 256 ^ 32 -> 0 <= a4 < 256 ^ 32 -> - (130 * (256 ^ 31 - 1)) <= 255 * e <= 130 * (256 ^ 31 - 1) ->
  -130 <= t <= 129 -> a4 = (V0 mod rfc_L) mod 256 ^ 32.
Proof.
  intros V0 e t a2 a3 a4 y q1 v V1 V2 V3 V4 B2 B4 A1 A3. pose proof L_parts as EL. pose proof L_256 as LB. revert EL LB V1 V2 V3. generalize rfc_L. intros l EL LB V1 V2 V3.
  remember (t / 16) as q eqn:Eq. assert (Hq : -9 <= q <= 8) by (clear - A3 Eq; lia).
  assert (W : - l < e + t * 256 ^ 31 - q * l < l) by (rewrite EL; clear - A1 A3 Eq Hq; lia).
  remember (e + t * 256 ^ 31 - q * l) as w eqn:Ew.
  assert (Hv : v = -1 \/ v = 0) by (clear - V2 W B2 LB; lia).
  assert (M : V0 mod l = w mod l). { rewrite Ew, V1. replace (V0 + q1 * l - q * l) with (V0 + (q1 - q) * l) by ring. rewrite Z.mod_add by (clear - LB; lia). reflexivity. }
  rewrite M. destruct Hv as [->| ->].
  - replace (w mod l) with (w + l) by (apply (Z.mod_unique_pos _ _ (-1)); clear - V2 W B2 LB; lia).
    rewrite Z.mod_small by (clear - V2 W B2 LB; lia). clear - V2 V3 V4 W B2 B4 LB. lia.
  - rewrite (Z.mod_small w) by (clear - V2 W B2 LB; lia). rewrite Z.mod_small by (clear - V2 W B2 LB; lia). clear - V2 V3 V4 W B2 B4 LB. lia.
Qed.
Definition modL_end (p : list pint * list pint) : list pint := let (_, r) := p in r.
Definition modL_mid (r : list pint) (p : list pint * pint) : list pint :=
  let (x, carry) := p in modL_end (for_range 32 modL_out (modL_subs x carry, r)).
Lemma modL_eq : forall r x, modL r x = modL_mid r (for_range 32 modL_top (for_range 32 (fun x k => modL_row x (63 - k)) x, plain 0)).
Proof. intros r x. unfold modL, modL_mid, modL_subs, modL_end. reflexivity. Qed.
Lemma modL_final : forall r x x1 x2 x3 v p, rows x 31 x1 -> tops x1 32 (x2, plain v) -> subs x2 v 32 x3 -> outs x3 r 32 p -> (32 <= length r)%nat ->
  modL_end p = of_bytes (le_bytes 32 (num 256 64 (px x) mod rfc_L)) ++ skipn 32 r.
Proof.
  intros r x x1 x2 x3 v [x4 r4] (L1 & Z1 & _ & _ & _ & N1 & C1 & I1 & q1 & V1) (v' & EV & L2 & R2 & U2 & V2) (L3 & I3 & U3 & V3) (_ & L4 & _ & _ & R4 & U4 & V4) Lr.
  injection EV as <-. cbn [modL_end].
  rewrite (firstn_skipn_geti r4 r L4 U4). f_equal. apply holds_plain.
  1: { intros i Hi. rewrite firstn_length in Hi. unfold isp, px, geti. rewrite nth_firstn_lt by lia. apply R4. lia. }
  apply holds_num.
  - rewrite firstn_length. lia.
  - intros i Hi. unfold geti. rewrite nth_firstn_lt by exact Hi. apply R4. exact Hi.
  - rewrite (num_ext 256 32 _ (px r4)) by (intros i Hi; unfold px, geti; rewrite nth_firstn_lt by exact Hi; reflexivity).
    assert (Z2 : forall j, (32 <= j)%nat -> px x2 j = 0).
    { intros j Hj. unfold px. rewrite U2 by exact Hj. apply Z1. lia. }
    assert (Z3 : forall j, (32 <= j)%nat -> px x3 j = 0).
    { intros j Hj. unfold px. rewrite U3, U2 by exact Hj. apply Z1. lia. }
    rewrite (num_33 _ Z3) in V4. rewrite (num_64 _ Z3), (num_64 _ Z2), lf_num in V3. rewrite (num_64 _ Z2), lf_num in V2.
    assert (B2 : 0 <= num 256 32 (px x2) < 256 ^ 32) by (apply (num_range 256 32); [lia|]; intros i Hi; destruct (R2 i Hi) as [_ Q]; lia).
    assert (B4 : 0 <= num 256 32 (px r4) < 256 ^ 32) by (apply (num_range 256 32); [lia|]; intros i Hi; apply R4; exact Hi).
    rewrite (num_64 (px x1)) in V1, V2 by (intros j Hj; apply Z1; lia). rewrite (num_32 (px x1)) in V1, V2.
    assert (A2 : forall i, (i < 31)%nat -> -130 <= px x1 i <= 130).
    { intros i Hi. destruct (Nat.le_gt_cases i 19) as [Q|Q]; [assert (-128 <= px x1 i <= 127) by (apply N1; lia); lia|].
      assert (-130 <= px x1 i <= 129) by (apply C1; lia). lia. }
    pose proof (num_abs 31 (px x1) 130 A2) as A1. assert (A3 : -130 <= px x1 31 <= 129) by (apply C1; lia).
    exact (modL_arith _ _ _ _ _ _ _ _ _ V1 V2 V3 V4 B2 B4 A1 A3).
Qed.
Lemma modL_w : forall r x, length x = 64%nat -> (forall j, - 2 ^ 22 <= px x j <= 2 ^ 22) -> (32 <= length r)%nat ->
  modL r x = of_bytes (le_bytes 32 (num 256 64 (px x) mod rfc_L)) ++ skipn 32 r.
Proof.
  intros r x L B Lr. rewrite modL_eq. pose proof (rows_w x L B) as R1. revert R1. generalize (for_range 32 (fun x k => modL_row x (63 - k)) x). intros x1 R1.
  assert (L1 : length x1 = 64%nat) by exact (proj1 R1).
  assert (I1 : isp x1 31) by (destruct R1 as (_ & _ & _ & _ & _ & _ & _ & I1 & _); apply I1; lia).
  pose proof (tops_w x1 L1 I1) as T. revert T. generalize (for_range 32 modL_top (x1, plain 0)). intros [x2 c2] T.
  destruct (T) as (v & -> & L2 & _). unfold modL_mid.
  pose proof (subs_w x2 v L2) as S3.  revert S3. generalize (modL_subs x2 (plain v)). intros x3 S3.
  assert (I3 : isp x3 0) by (destruct S3 as (_ & I3 & _); apply I3; lia).
  exact (modL_final r x x1 x2 x3 v _ R1 T S3 (outs_w x3 r (proj1 S3) I3 Lr) Lr).
Qed.
