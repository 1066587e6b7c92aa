(** The SHA-512 of the pure Python NaCl port computes FIPS 180-4. *)
From Coq Require Import List ZArith Bool Strings.Byte Lia ZifyBool ZifyNat ZifyN.
From Verif Require Import PyBase PyBase_proofs PyInt PyInt_proofs TwHash ShaSpec.
Import ListNotations.
Open Scope Z_scope.
Ltac Zify.zify_post_hook ::= Z.div_mod_to_equations.

(** ** Words *)
Lemma word_wadd : forall a b, word (wadd a b).
Proof. intros a b. unfold word, wadd. apply Z.mod_pos_bound. reflexivity. Qed.
Lemma word_shr : forall n a, word a -> 0 <= n -> word (shr n a).
Proof. intros n a Ha Hn. apply div_word; assumption. Qed.
Lemma word_rotr : forall n a, word a -> 0 <= n <= 64 -> word (rotr n a).
Proof.
  intros n a Ha Hn. unfold rotr. apply lor_bound; [lia|apply word_shr; [assumption|lia]|].
  apply Z.mod_pos_bound. reflexivity.
Qed.
Lemma word_lxor : forall a b, word a -> word b -> word (Z.lxor a b).
Proof. intros a b Ha Hb. apply lxor_bound; unfold word in *; lia. Qed.
Lemma word_land : forall a b, word a -> word b -> word (Z.land a b).
Proof. intros a b Ha Hb. apply land_bound; unfold word in *; lia. Qed.
Lemma word_wnot : forall a, word a -> word (wnot a).
Proof. intros a Ha. unfold word, wnot in *. lia. Qed.
Lemma word_ch : forall x y z, word x -> word y -> word z -> word (ch x y z).
Proof. intros. unfold ch. apply word_lxor; apply word_land; auto using word_wnot. Qed.
Lemma word_maj : forall x y z, word x -> word y -> word z -> word (maj x y z).
Proof. intros. unfold maj. repeat apply word_lxor; apply word_land; assumption. Qed.
Ltac sigs := repeat apply word_lxor; solve [apply word_rotr; [assumption|lia] | apply word_shr; [assumption|lia]].
Lemma word_bsig0 : forall x, word x -> word (bsig0 x). Proof. intros. unfold bsig0. sigs. Qed.
Lemma word_bsig1 : forall x, word x -> word (bsig1 x). Proof. intros. unfold bsig1. sigs. Qed.
Lemma word_ssig0 : forall x, word x -> word (ssig0 x). Proof. intros. unfold ssig0. sigs. Qed.
Lemma word_ssig1 : forall x, word x -> word (ssig1 x). Proof. intros. unfold ssig1. sigs. Qed.
Local Hint Resolve word_wadd word_bsig0 word_bsig1 word_ssig0 word_ssig1 word_ch word_maj : words.

Lemma padd_w : forall a b, word a -> word b -> padd (q64 a) (q64 b) = q64 (wadd a b).
Proof. intros a b Ha Hb. unfold word in *. unfold wadd. apply padd_u64; lia. Qed.
Lemma R_w : forall c x, word x -> 0 <= c <= 64 -> R (q64 x) c = q64 (rotr c x).
Proof.
  intros c x Hx Hc. unfold R, rotr, shr. rewrite cast_u64 by exact Hx. rewrite pshr_u64 by (assumption || lia).
  rewrite pshl_u64 by (unfold word in *; lia). apply por_u64.
  - apply div_word; [exact Hx|lia].
  - apply Z.mod_pos_bound. reflexivity.
Qed.
Lemma Ch_w : forall x y z, word x -> word y -> word z -> Ch (q64 x) (q64 y) (q64 z) = q64 (ch x y z).
Proof.
  intros x y z Hx Hy Hz. unfold Ch, ch. rewrite !cast_u64, pinv_u64 by assumption.
  change (2 ^ 64 - 1 - x) with (wnot x).
  rewrite !pand_u64 by auto using word_wnot. apply pxor_u64; apply word_land; auto using word_wnot.
Qed.
Lemma Maj_w : forall x y z, word x -> word y -> word z -> Maj (q64 x) (q64 y) (q64 z) = q64 (maj x y z).
Proof.
  intros x y z Hx Hy Hz. unfold Maj, maj. rewrite !cast_u64 by assumption.
  rewrite !pand_u64 by assumption. rewrite !pxor_u64 by (repeat apply word_lxor; apply word_land; assumption). reflexivity.
Qed.
Ltac sigma_w H := rewrite !R_w by (assumption || lia); try rewrite pshr_u64 by (assumption || lia);
  repeat (rewrite pxor_u64 by (unfold word in *; sigs || (repeat apply word_lxor; solve [apply word_rotr; [exact H|lia] | apply div_word; [exact H|lia]]))); reflexivity.
Lemma Sigma0_w : forall x, word x -> Sigma0 (q64 x) = q64 (bsig0 x).
Proof. intros x H. unfold Sigma0, bsig0. sigma_w H. Qed.
Lemma Sigma1_w : forall x, word x -> Sigma1 (q64 x) = q64 (bsig1 x).
Proof. intros x H. unfold Sigma1, bsig1. sigma_w H. Qed.
Lemma sigma0_w : forall x, word x -> sigma0 (q64 x) = q64 (ssig0 x).
Proof. intros x H. unfold sigma0, ssig0, shr. sigma_w H. Qed.
Lemma sigma1_w : forall x, word x -> sigma1 (q64 x) = q64 (ssig1 x).
Proof. intros x H. unfold sigma1, ssig1, shr. sigma_w H. Qed.

(** ** Constants *)
Lemma K_ok : K = map q64 k512.
Proof. vm_compute. reflexivity. Qed.
Lemma k512_length : length k512 = 80%nat.
Proof. vm_compute. reflexivity. Qed.
Lemma map_mod_words : forall (g : Z -> Z) l, Forall word (map (fun p => g p mod 2 ^ 64) l).
Proof. intros g l. induction l as [|x l IH]; constructor; [apply Z.mod_pos_bound; reflexivity|exact IH]. Qed.
Lemma k512_words : Forall word k512.
Proof. exact (map_mod_words (fun p => cbrt_bits 68 (p * 2 ^ 192) 0) primes). Qed.
Lemma h0_words : Forall word h0.
Proof. exact (map_mod_words (fun p => Z.sqrt (p * 2 ^ 128)) (firstn 8 primes)). Qed.
Lemma h0_length : length h0 = 8%nat.
Proof. vm_compute. reflexivity. Qed.
Lemma iv_ok : holds iv (concat (map (be_bytes 8) h0)).
Proof. vm_compute. reflexivity. Qed.

Lemma geti_map_q : forall l i, (i < length l)%nat -> geti (map q64 l) i = q64 (nth i l 0).
Proof.
  intros l i H. unfold geti. rewrite nth_indep with (d' := q64 0) by (rewrite map_length; exact H).
  apply map_nth.
Qed.
Lemma nth_word : forall l i, Forall word l -> word (nth i l 0).
Proof.
  intros l i H. destruct (nth_in_or_default i l 0) as [Hin| ->].
  - rewrite Forall_forall in H. apply H, Hin.
  - unfold word. lia.
Qed.

(** ** The message schedule *)
Definition ws (block : list Z) (n : nat) : list Z := rev (expand n (rev block)).
Lemma expand_length : forall n w, length (expand n w) = (n + length w)%nat.
Proof. induction n as [|n IH]; intros w; cbn [expand length]; [reflexivity|]. rewrite IH. lia. Qed.
Lemma ws_length : forall b n, length (ws b n) = (n + length b)%nat.
Proof. intros b n. unfold ws. rewrite rev_length, expand_length, rev_length. reflexivity. Qed.
Lemma nth_rev0 : forall (l : list Z) k, (k < length l)%nat -> nth k l 0 = nth (length l - 1 - k) (rev l) 0.
Proof. intros l k H. rewrite rev_nth by lia. f_equal. lia. Qed.
Definition next_word (w2 w7 w15 w16 : Z) : Z := wadd (wadd (wadd (ssig1 w2) w7) (ssig0 w15)) w16.
Lemma ws_S : forall b n, length b = 16%nat ->
  ws b (S n) = ws b n ++ [next_word (nth (n + 14) (ws b n) 0) (nth (n + 9) (ws b n) 0) (nth (n + 1) (ws b n) 0) (nth n (ws b n) 0)].
Proof.
  intros b n H. unfold ws. cbn [expand rev]. f_equal. unfold next_word.
  assert (L : length (expand n (rev b)) = (n + 16)%nat) by (rewrite expand_length, rev_length; lia).
  rewrite (nth_rev0 _ 1), (nth_rev0 _ 6), (nth_rev0 _ 14), (nth_rev0 _ 15) by lia. rewrite L.
  replace (n + 16 - 1 - 1)%nat with (n + 14)%nat by lia. replace (n + 16 - 1 - 6)%nat with (n + 9)%nat by lia.
  replace (n + 16 - 1 - 14)%nat with (n + 1)%nat by lia. replace (n + 16 - 1 - 15)%nat with n by lia. reflexivity.
Qed.
Lemma ws_prefix : forall b n k, length b = 16%nat -> exists r, ws b (n + k) = ws b n ++ r.
Proof.
  intros b n k H. induction k as [|k IH].
  - exists []. rewrite Nat.add_0_r, app_nil_r. reflexivity.
  - destruct IH as (r & E). replace (n + S k)%nat with (S (n + k)) by lia. eexists. rewrite ws_S by exact H. rewrite E.
    rewrite <- app_assoc. reflexivity.
Qed.
Lemma ws_nth : forall b n m i, length b = 16%nat -> (n <= m)%nat -> (i < n + 16)%nat -> nth i (ws b m) 0 = nth i (ws b n) 0.
Proof.
  intros b n m i H Hm Hi. destruct (ws_prefix b n (m - n) H) as (r & E).
  replace (n + (m - n))%nat with m in E by lia. rewrite E. apply app_nth1. rewrite ws_length, H. exact Hi.
Qed.
Lemma ws_next : forall b N t, length b = 16%nat -> (t < N)%nat ->
  nth (t + 16) (ws b N) 0 = next_word (nth (t + 14) (ws b N) 0) (nth (t + 9) (ws b N) 0) (nth (t + 1) (ws b N) 0) (nth t (ws b N) 0).
Proof.
  intros b N t H Ht. rewrite (ws_nth b (S t) N) by lia. rewrite !(ws_nth b t N) by lia.
  rewrite ws_S by exact H. rewrite app_nth2 by (rewrite ws_length; lia). rewrite ws_length, H.
  replace (t + 16 - (t + 16))%nat with O by lia. reflexivity.
Qed.
Lemma ws_words : forall b N, length b = 16%nat -> Forall word b -> Forall word (ws b N).
Proof.
  intros b N H Hb. induction N as [|N IH].
  - unfold ws. cbn [expand]. rewrite rev_involutive. exact Hb.
  - rewrite ws_S by exact H. apply Forall_app. split; [exact IH|]. constructor; [|constructor]. apply word_wadd.
Qed.
Lemma schedule_ws : forall b N, length b = 16%nat -> (64 <= N)%nat -> schedule b = firstn 80 (ws b N).
Proof.
  intros b N H HN. assert (E0 : schedule b = ws b 64) by (unfold schedule, ws; reflexivity). rewrite E0. clear E0. destruct (ws_prefix b 64 (N - 64) H) as (r & E).
  rewrite Nat.add_comm, Nat.sub_add in E by lia. rewrite E. rewrite firstn_app.
  assert (L : length (ws b 64) = 80%nat) by (rewrite ws_length; lia). rewrite firstn_all2 by lia. rewrite L.
  change (80 - 80)%nat with O. rewrite app_nil_r. reflexivity.
Qed.

Definition window (full : list Z) (base j : nat) : list pint :=
  map (fun k => q64 (nth (base + k + (if (k <? j)%nat then 16 else 0)) full 0)) (seq 0 16).
Lemma geti_map_seq : forall (g : nat -> pint) n i, (i < n)%nat -> geti (map g (seq 0 n)) i = g i.
Proof.
  intros g n i H. unfold geti. rewrite nth_indep with (d' := g O) by (rewrite map_length, seq_length; lia).
  rewrite map_nth with (d := O), seq_nth by lia. reflexivity.
Qed.
Lemma seti_map_seq : forall (g : nat -> pint) n i v, (i < n)%nat ->
  seti (map g (seq 0 n)) i v = map (fun k => if (k =? i)%nat then v else g k) (seq 0 n).
Proof.
  intros g n i v H. apply list_ext.
  - rewrite seti_length, !map_length. reflexivity.
  - intros j Hj. rewrite seti_length, map_length, seq_length in Hj. rewrite geti_map_seq by exact Hj.
    destruct (Nat.eqb_spec j i) as [->|N].
    + apply geti_seti_eq. rewrite map_length, seq_length. exact H.
    + rewrite geti_seti_ne by congruence. apply geti_map_seq. exact Hj.
Qed.
Lemma wadd_assoc : forall a b c, wadd (wadd a b) c = wadd a (wadd b c).
Proof. intros a b c. unfold wadd. rewrite Zplus_mod_idemp_l, Zplus_mod_idemp_r. f_equal. ring. Qed.
Lemma wadd_comm : forall a b, wadd a b = wadd b a.
Proof. intros a b. unfold wadd. f_equal. ring. Qed.
Lemma next_word_sum : forall a b c d, wadd a (wadd (wadd b c) d) = wadd (wadd (wadd d b) c) a.
Proof. intros a b c d. rewrite (wadd_comm a), (wadd_comm (wadd b c) d), wadd_assoc, <- !wadd_assoc. reflexivity. Qed.

Lemma schedule_step_w : forall full base j, (j < 16)%nat -> Forall word full ->
  nth (base + j + 16) full 0 =
    next_word (nth (base + j + 14) full 0) (nth (base + j + 9) full 0) (nth (base + j + 1) full 0) (nth (base + j) full 0) ->
  schedule_step (window full base j) j = window full base (S j).
Proof.
  intros full base j Hj HF HN. unfold schedule_step, window.
  rewrite !geti_map_seq by (try apply Nat.mod_upper_bound; lia).
  replace (base + j + (if (j <? j)%nat then 16 else 0))%nat with (base + j)%nat by (destruct (j <? j)%nat eqn:E; lia).
  replace (base + (j + 9) mod 16 + (if ((j + 9) mod 16 <? j)%nat then 16 else 0))%nat with (base + j + 9)%nat
    by (destruct ((j + 9) mod 16 <? j)%nat eqn:E; lia).
  replace (base + (j + 1) mod 16 + (if ((j + 1) mod 16 <? j)%nat then 16 else 0))%nat with (base + j + 1)%nat
    by (destruct ((j + 1) mod 16 <? j)%nat eqn:E; lia).
  replace (base + (j + 14) mod 16 + (if ((j + 14) mod 16 <? j)%nat then 16 else 0))%nat with (base + j + 14)%nat
    by (destruct ((j + 14) mod 16 <? j)%nat eqn:E; lia).
  rewrite sigma0_w, sigma1_w by (apply nth_word; exact HF).
  rewrite !padd_w by auto using word_wadd, word_ssig0, word_ssig1, nth_word.
  rewrite next_word_sum. unfold next_word in HN. rewrite <- HN. clear HN. rewrite seti_map_seq by exact Hj. apply map_ext_in. intros k Hk. apply in_seq in Hk.
  destruct (Nat.eqb_spec k j) as [->|N].
  - replace (j <? S j)%nat with true by lia. reflexivity.
  - do 2 f_equal. destruct (k <? j)%nat eqn:E1, (k <? S j)%nat eqn:E2; lia.
Qed.
Lemma schedule_roll : forall b base, length b = 16%nat -> Forall word b -> (base + 16 <= 80)%nat ->
  for_range 16 schedule_step (window (ws b 80) base 0) = window (ws b 80) (base + 16) 0.
Proof.
  intros b base H HF Hb. transitivity (window (ws b 80) base 16).
  - apply (for_range_inv _ (fun k s => s = window (ws b 80) base k)); [reflexivity|]. intros i s Hi ->.
    apply schedule_step_w; [exact Hi|apply ws_words; assumption|]. apply ws_next; [exact H|lia].
  - unfold window. apply map_ext_in. intros k Hk. apply in_seq in Hk. do 2 f_equal.
    replace (k <? 16)%nat with true by lia. replace (k <? 0)%nat with false by (destruct k; reflexivity). lia.
Qed.

(** ** One round *)
Definition qs (st : working) : list pint := map q64 (words8 st).
Definition wst (st : working) : Prop := Forall word (words8 st).
Lemma wst_round : forall st kw, wst st -> wst (sha_round st kw).
Proof.
  intros [[[[[[[a b] c] d] e] f] g] h] kw H. unfold wst, sha_round, words8 in *.
  repeat match goal with H : Forall _ (_ :: _) |- _ => inversion H; clear H; subst end.
  repeat constructor; auto using word_wadd; try apply Z.mod_pos_bound; try reflexivity; unfold word in *; lia.
Qed.
Lemma round_w : forall st w i kw, wst st -> (i < 80)%nat -> word (snd kw) ->
  fst kw = nth i k512 0 -> geti w (i mod 16) = q64 (snd kw) ->
  round (qs st, w) i = (qs (sha_round st kw), if Nat.eqb (i mod 16) 15 then for_range 16 schedule_step w else w).
Proof.
  intros [[[[[[[a b] c] d] e] f] g] h] w i [kk ww] H Hi Hw Hk Hg. cbn [fst snd] in *. unfold wst, words8 in H.
  repeat match goal with H : Forall _ (_ :: _) |- _ => inversion H; clear H; subst end.
  unfold round. f_equal. rewrite Hg, K_ok, geti_map_q by (rewrite k512_length; exact Hi).
  assert (Hkw : word (nth i k512 0)) by (apply nth_word, k512_words).
  remember (nth i k512 0) as kk eqn:E. clear E.
  unfold qs, words8. cbn [map].
  cbv [for_range fold_left seq seti geti nth int_array repeat Nat.modulo Nat.divmod Nat.add fst snd Nat.sub].
  rewrite Sigma0_w, Sigma1_w, Ch_w, Maj_w by assumption.
  rewrite !padd_w by auto using word_wadd, word_bsig0, word_bsig1, word_ch, word_maj.
  unfold sha_round. cbn [fst snd]. rewrite wadd_assoc. reflexivity.
Qed.

(** ** One block *)
Lemma firstn_S_nth : forall A (l : list A) n d, (n < length l)%nat -> firstn (S n) l = firstn n l ++ [nth n l d].
Proof.
  induction l as [|x l IH]; intros [|n] d H; cbn in *; try lia; [reflexivity|].
  f_equal. apply IH. lia.
Qed.
Lemma rounds_w : forall b st, length b = 16%nat -> Forall word b -> wst st ->
  for_range 80 round (qs st, map q64 b) =
    (qs (fold_left sha_round (combine k512 (schedule b)) st), window (ws b 80) 80 0).
Proof.
  intros b st H HF HW.
  assert (LS : length (ws b 80) = 96%nat) by (rewrite ws_length; lia).
  assert (LC : length (combine k512 (schedule b)) = 80%nat).
  { rewrite combine_length, k512_length, (schedule_ws b 80) by lia. rewrite firstn_length. lia. }
  assert (NC : forall i, (i < 80)%nat -> nth i (combine k512 (schedule b)) (0, 0) = (nth i k512 0, nth i (ws b 80) 0)).
  { intros i Hi. rewrite combine_nth.
    - f_equal. rewrite (schedule_ws b 80) by lia. rewrite <- (firstn_skipn 80 (ws b 80)) at 2.
      rewrite app_nth1 by (rewrite firstn_length; lia). reflexivity.
    - rewrite k512_length, (schedule_ws b 80), firstn_length by lia. lia. }
  assert (W0 : map q64 b = window (ws b 80) 0 0).
  { apply list_ext; [unfold window; rewrite !map_length, seq_length; exact H|]. intros i Hi. rewrite map_length in Hi. unfold window.
    rewrite geti_map_q by exact Hi. rewrite geti_map_seq by lia. cbn [Nat.add].
    replace (i <? 0)%nat with false by (destruct i; reflexivity). rewrite Nat.add_0_r. f_equal.
    rewrite (ws_nth b 0 80) by lia. unfold ws. cbn [expand]. rewrite rev_involutive. reflexivity. }
  pose (P := fun (k : nat) (s : list pint * list pint) =>
    s = (qs (fold_left sha_round (firstn k (combine k512 (schedule b))) st), window (ws b 80) (16 * (k / 16)) 0) /\
    wst (fold_left sha_round (firstn k (combine k512 (schedule b))) st)).
  assert (G : P 80%nat (for_range 80 round (qs st, map q64 b))).
  { apply for_range_inv.
    - unfold P. cbn [firstn fold_left]. split; [|exact HW]. rewrite W0. reflexivity.
    - intros i s Hi [-> HWi]. unfold P.
      rewrite (firstn_S_nth _ _ i (0, 0)) by lia. rewrite fold_left_app. cbn [fold_left]. rewrite NC by exact Hi.
      split; [|apply wst_round; exact HWi].
      rewrite (round_w _ _ i (nth i k512 0, nth i (ws b 80) 0)); [|exact HWi|exact Hi| |reflexivity|].
      + f_equal. destruct (Nat.eqb_spec (i mod 16) 15) as [E|E].
        * rewrite schedule_roll by (try assumption; lia). f_equal. lia.
        * f_equal. lia.
      + cbn [snd]. apply nth_word, ws_words; assumption.
      + unfold window. rewrite geti_map_seq by (apply Nat.mod_upper_bound; lia). cbn [snd].
        replace (i mod 16 <? 0)%nat with false by (destruct (i mod 16)%nat; reflexivity). do 2 f_equal. lia. }
  destruct G as [G _]. rewrite G. rewrite firstn_all2 by lia. reflexivity.
Qed.

Lemma be_val_app1 : forall l x, be_val (l ++ [x]) = be_val l * 256 + bval x.
Proof.
  induction l as [|y l IH]; intros x.
  - cbn. lia.
  - cbn [app be_val]. rewrite IH, app_length. cbn [length]. rewrite Nat2Z.inj_add, Z.pow_add_r by lia.
    change (256 ^ Z.of_nat 1) with 256. ring.
Qed.
Lemma be_val_range : forall l, 0 <= be_val l < 256 ^ Z.of_nat (length l).
Proof.
  induction l as [|x l IH].
  - cbn. lia.
  - cbn [be_val length]. rewrite Nat2Z.inj_succ, Z.pow_succ_r by lia.
    pose proof (b2z_byte x) as B. change (b2z x) with (bval x) in B. nia.
Qed.
Lemma dl64_w : forall x b, holds x b -> (8 <= length b)%nat -> dl64 x = q64 (be_val (firstn 8 b)).
Proof.
  intros x b H HL. unfold dl64.
  apply (for_range_inv _ (fun k u => u = q64 (be_val (firstn k b)))); [reflexivity|].
  intros i u Hi ->. rewrite (firstn_S_nth _ b i x00) by lia. rewrite be_val_app1.
  pose proof (be_val_range (firstn i b)) as R. rewrite firstn_length in R.
  replace (Nat.min i (length b)) with i in R by lia.
  assert (P : 256 ^ Z.of_nat i <= 256 ^ 7) by (apply Z.pow_le_mono_r; lia). change (256 ^ 7) with 72057594037927936 in P.
  rewrite pshl_u64 by lia. change (2 ^ 8) with 256. rewrite Z.mod_small by lia.
  unfold cast. rewrite (holds_geti x b i H) by lia. pose proof (b2z_byte (nth i b x00)) as B.
  rewrite mk_u8 by lia. rewrite Z.mod_small by lia.
  unfold por, typed, q64. cbn [pt pv]. cbv zeta.
  assert (E : Z.lor (be_val (firstn i b) * 256) (b2z (nth i b x00)) = be_val (firstn i b) * 256 + b2z (nth i b x00))
    by (apply (lor_shift_add 8); lia).
  rewrite !E. unfold promote. match goal with |- context [?a <? 0] => replace (a <? 0) with false by lia end.
  cbn [andb order]. change (3 >? 1) with true. cbv iota. rewrite mk_u64 by lia. rewrite Z.mod_small by lia. reflexivity.
Qed.
Lemma block_words_be : forall b, (128 <= length b)%nat ->
  block_words b = map (fun i => be_val (firstn 8 (skipn (8 * i) b))) (seq 0 16).
Proof.
  intros b H. unfold block_words. cbn [chunks map seq]. rewrite !skipn_skipn. reflexivity.
Qed.

Lemma block_words_length : forall b, length (block_words b) = 16%nat.
Proof. intros b. reflexivity. Qed.
Lemma be_val8_word : forall b, word (be_val (firstn 8 b)).
Proof.
  intros b. pose proof (be_val_range (firstn 8 b)) as R. unfold word.
  assert (P : 256 ^ Z.of_nat (length (firstn 8 b)) <= 256 ^ 8) by (apply Z.pow_le_mono_r; rewrite ?firstn_length; lia).
  change (256 ^ 8) with (2 ^ 64) in P. lia.
Qed.
Lemma block_words_words : forall b, Forall word (block_words b).
Proof. intros b. unfold block_words. cbn [chunks map]. repeat constructor; apply be_val8_word. Qed.

Lemma of_words_words8 : forall H, length H = 8%nat -> words8 (of_words H) = H.
Proof.
  intros H HL. do 8 (destruct H as [|? H]; [discriminate|]). destruct H; [reflexivity|discriminate].
Qed.
Lemma wst_fold : forall l st, wst st -> wst (fold_left sha_round l st).
Proof. induction l as [|x l IH]; intros st H; cbn [fold_left]; [exact H|]. apply IH, wst_round, H. Qed.
Lemma words8_length : forall st, length (words8 st) = 8%nat.
Proof. intros [[[[[[[a b] c] d] e] f] g] h]. reflexivity. Qed.

Lemma compress_length : forall H b, length H = 8%nat -> length (compress H b) = 8%nat.
Proof. intros H b HL. unfold compress. rewrite map_length, combine_length, words8_length, HL. reflexivity. Qed.
Lemma compress_words : forall H b, Forall word (compress H b).
Proof. intros H b. unfold compress. apply Forall_forall. intros x Hx. apply in_map_iff in Hx. destruct Hx as (p & <- & _). apply word_wadd. Qed.

Lemma add_back : forall A Z8, length A = 8%nat -> length Z8 = 8%nat -> Forall word A -> Forall word Z8 ->
  for_range 8 (fun (st : list pint * list pint) i => let (a, z) := st in
     let a := seti a i (padd (geti a i) (geti z i)) in (a, seti z i (geti a i))) (map q64 A, map q64 Z8) =
  let S := map (fun p => wadd (fst p) (snd p)) (combine A Z8) in (map q64 S, map q64 S).
Proof.
  intros A Z8 HA HZ WA WZ.
  do 8 (destruct A as [|? A]; [discriminate|]). destruct A; [|discriminate].
  do 8 (destruct Z8 as [|? Z8]; [discriminate|]). destruct Z8; [|discriminate].
  repeat match goal with H : Forall _ (_ :: _) |- _ => inversion H; clear H; subst end.
  cbn [map]. cbv [for_range fold_left seq seti geti nth]. rewrite !padd_w by assumption. reflexivity.
Qed.

Lemma hash_block_w : forall m b off H, holds m b -> (off + 128 <= length b)%nat -> length H = 8%nat -> Forall word H ->
  hash_block m off (map q64 H, map q64 H) =
    (map q64 (compress H (block_words (skipn off b))), map q64 (compress H (block_words (skipn off b)))).
Proof.
  intros m b off H Hm HL H8 HW. unfold hash_block.
  assert (EW : for_range 16 (fun w i => seti w i (dl64 (skipn (8 * i + off) m))) (int_array TU64 16) = map q64 (block_words (skipn off b))).
  { rewrite for_range_fill by (unfold int_array; rewrite repeat_length; lia).
    rewrite skipn_all2 by (unfold int_array; rewrite repeat_length; lia). rewrite app_nil_r.
    rewrite block_words_be by (rewrite skipn_length; lia). rewrite map_map. apply map_ext_in. intros i Hi. apply in_seq in Hi.
    rewrite (dl64_w _ (skipn (8 * i + off) b)); [|apply holds_skipn, Hm|rewrite skipn_length; lia].
    rewrite skipn_skipn. reflexivity. }
  rewrite EW.
  replace (map q64 H, map q64 (block_words (skipn off b))) with (qs (of_words H), map q64 (block_words (skipn off b)))
    by (unfold qs; rewrite of_words_words8 by exact H8; reflexivity).
  assert (W : wst (of_words H)) by (unfold wst; rewrite of_words_words8 by exact H8; exact HW).
  rewrite rounds_w; [|apply block_words_length|apply block_words_words|exact W].
  unfold compress.
  assert (WF : wst (fold_left sha_round (combine k512 (schedule (block_words (skipn off b)))) (of_words H))) by (apply wst_fold; exact W).
  remember (fold_left sha_round (combine k512 (schedule (block_words (skipn off b)))) (of_words H)) as st eqn:Est. clear Est.
  unfold qs. apply add_back; [apply words8_length|exact H8|exact WF|exact HW].
Qed.

Lemma fold_chunks : forall A B C (f : B -> C -> B) (g : list A -> C) n k l h,
  fold_left f (map g (chunks n (S k) l)) h = fold_left f (map g (chunks n k (skipn n l))) (f h (g (firstn n l))).
Proof. reflexivity. Qed.
Lemma hash_loop_w : forall k fuel m b off n H, holds m b -> n / 128 = Z.of_nat k -> 0 <= n -> (k <= fuel)%nat ->
  (off + 128 * k <= length b)%nat -> length H = 8%nat -> Forall word H ->
  hash_loop fuel m off n (map q64 H, map q64 H) =
    let H' := fold_left compress (map block_words (chunks 128 k (skipn off b))) H in (map q64 H', map q64 H').
Proof.
  induction k as [|k IH]; intros fuel m b off n H Hm Hn Hp Hf HL H8 HW.
  - cbn [chunks map fold_left]. destruct fuel as [|f]; [reflexivity|]. cbn [hash_loop].
    replace (n >=? 128) with false by lia. reflexivity.
  - destruct fuel as [|f]; [lia|]. cbn [hash_loop]. replace (n >=? 128) with true by lia.
    rewrite (hash_block_w m b) by (assumption || lia).
    rewrite (IH f m b (off + 128)%nat (n - 128)); [|exact Hm|lia|lia|lia|lia|apply compress_length; exact H8|apply compress_words].
    cbv zeta. rewrite fold_chunks. rewrite skipn_skipn, (Nat.add_comm 128 off).
      assert (EB : block_words (firstn 128 (skipn off b)) = block_words (skipn off b)).
      { rewrite !block_words_be by (rewrite ?firstn_length, skipn_length; lia). apply map_ext_in. intros i Hi. apply in_seq in Hi.
        f_equal. rewrite skipn_firstn_comm, firstn_firstn. f_equal. lia. }
      rewrite EB. reflexivity.
Qed.

Lemma ts64_w : forall x v, word v -> (8 <= length x)%nat -> exists l, ts64 x (q64 v) = l ++ skipn 8 x /\ holds l (be_bytes 8 v).
Proof.
  intros x v Hv HL. do 8 (destruct x as [|? x]; [cbn in HL; lia|]). unfold ts64.
  cbv [for_range fold_left seq seti Nat.sub fst snd].
  assert (W : forall k, 0 <= k -> word (v / 2 ^ k)) by (intros k Hk; apply div_word; assumption).
  assert (D : forall j, 0 <= j -> pshr (q64 (v / 2 ^ j)) 8 = q64 (v / 2 ^ (j + 8))).
  { intros j Hj. rewrite pshr_u64 by (try apply W; lia). f_equal. rewrite Z.pow_add_r by lia. apply Z.div_div; [|lia].
    apply Z.pow_nonzero; lia. }
  replace (q64 v) with (q64 (v / 2 ^ 0)) by (rewrite Z.div_1_r; reflexivity).
  rewrite !D by lia.
  eexists [_; _; _; _; _; _; _; _]. split; [reflexivity|].
  assert (C : forall k, 0 <= k -> pv (cast TU8 (q64 (v / 2 ^ k))) = b2z (byte_of_z (v / 2 ^ k))).
  { intros k Hk. specialize (W k Hk). unfold word in W. unfold cast, q64. cbn [pv]. rewrite mk_u8 by lia. cbn [pv].
    change (byte_of_z (v / 2 ^ k)) with (z2b (v / 2 ^ k)). rewrite b2z_z2b. reflexivity. }
  unfold holds. cbn [map be_bytes]. rewrite !C by lia. reflexivity.
Qed.
Lemma be_val_be_bytes : forall n v, 0 <= v < 256 ^ Z.of_nat n -> be_val (be_bytes n v) = v.
Proof.
  assert (L : forall n v, length (be_bytes n v) = n) by (induction n; intros; cbn [be_bytes length]; auto).
  assert (G : forall n v, be_val (be_bytes n v) = v mod 256 ^ Z.of_nat n).
  { induction n as [|n IH]; intros v; [cbn; rewrite Z.mod_1_r; reflexivity|].
    cbn [be_bytes be_val]. rewrite L, IH. change (bval (byte_of_z ?z)) with (b2z (z2b z)). rewrite b2z_z2b.
    rewrite Nat2Z.inj_succ, Z.pow_succ_r by lia.
    assert (P : 0 < 256 ^ Z.of_nat n) by (apply Z.pow_pos_nonneg; lia).
    rewrite (Z.mul_comm 256). rewrite Z.rem_mul_r by lia. lia. }
  intros n v H. rewrite G. apply Z.mod_small. exact H.
Qed.

Definition digest (H : list Z) : bytes := concat (map (be_bytes 8) H).
Lemma be_bytes_length : forall n v, length (be_bytes n v) = n.
Proof. induction n; intros; cbn [be_bytes length]; auto. Qed.
Lemma digest_length : forall H, length (digest H) = (8 * length H)%nat.
Proof.
  induction H as [|h H IH]; [reflexivity|]. unfold digest in *. cbn [map concat length]. rewrite app_length, be_bytes_length, IH. lia.
Qed.
Lemma digest_word : forall H i, (i < length H)%nat -> Forall word H -> be_val (firstn 8 (skipn (8 * i) (digest H))) = nth i H 0.
Proof.
  induction H as [|h H IH]; intros i Hi HW; [cbn in Hi; lia|]. inversion HW; subst. unfold digest. cbn [map concat].
  destruct i as [|i].
  - change (8 * 0)%nat with O. cbn [skipn nth]. rewrite firstn_app, be_bytes_length. change (8 - 8)%nat with O.
    rewrite firstn_all2 by (rewrite be_bytes_length; lia). rewrite app_nil_r. apply be_val_be_bytes. exact H2.
  - replace (8 * S i)%nat with (8 * i + 8)%nat by lia. rewrite <- skipn_skipn. rewrite skipn_app, be_bytes_length.
    change (8 - 8)%nat with O. rewrite (skipn_all2 (be_bytes 8 h)) by (rewrite be_bytes_length; lia).
    cbn [app nth]. change (skipn 0 ?l) with l. apply IH; [cbn in Hi; lia|assumption].
Qed.

Lemma load_digest : forall x H, holds x (digest H) -> length H = 8%nat -> Forall word H ->
  for_range 8 (fun (st : list pint * list pint) i => let (z, a) := st in
     (seti z i (dl64 (skipn (8 * i) x)), seti a i (dl64 (skipn (8 * i) x)))) (int_array TU64 8, int_array TU64 8) = (map q64 H, map q64 H).
Proof.
  intros x H Hx HL HW.
  assert (E : forall i, (i < 8)%nat -> dl64 (skipn (8 * i) x) = q64 (nth i H 0)).
  { intros i Hi. rewrite (dl64_w _ (skipn (8 * i) (digest H))).
    - rewrite digest_word by (assumption || lia). reflexivity.
    - apply holds_skipn, Hx.
    - rewrite skipn_length, digest_length. lia. }
  unfold int_array. cbn [repeat]. unfold for_range. cbn [seq fold_left]. cbv zeta. rewrite !E by lia. cbn [seti].
  do 8 (destruct H as [|? H]; [discriminate|]). destruct H; [reflexivity|discriminate].
Qed.
Lemma store_digest : forall x H, length x = 64%nat -> length H = 8%nat -> Forall word H ->
  holds (for_range 8 (fun x i => on_tail (8 * i) (fun y => ts64 y (geti (map q64 H) i)) x) x) (digest H).
Proof.
  intros x H Hx HL HW.
  assert (G : exists l, for_range 8 (fun x i => on_tail (8 * i) (fun y => ts64 y (geti (map q64 H) i)) x) x = l ++ skipn (8 * 8) x
     /\ holds l (digest (firstn 8 H))).
  { apply (for_range_inv _ (fun k s => exists l, s = l ++ skipn (8 * k) x /\ holds l (digest (firstn k H)))).
    - exists []. split; reflexivity.
    - intros i s Hi (l & -> & Hl).
      assert (Ll : length l = (8 * i)%nat).
      { rewrite (holds_length _ _ Hl), digest_length, firstn_length. lia. }
      unfold on_tail. rewrite firstn_app, skipn_app, Ll, Nat.sub_diag, firstn_O, app_nil_r.
      rewrite firstn_all2, (skipn_all2 l) by lia. cbn [app]. change (skipn 0 ?l) with l.
      rewrite geti_map_q by lia.
      destruct (ts64_w (skipn (8 * i) x) (nth i H 0)) as (l' & E & Hl').
      + apply nth_word, HW.
      + rewrite skipn_length. lia.
      + exists (l ++ l'). rewrite E, skipn_skipn. split; [rewrite <- app_assoc; replace (8 * S i)%nat with (8 + 8 * i)%nat by lia; reflexivity|].
        rewrite (firstn_S_nth _ H i 0) by lia. unfold digest. rewrite map_app, concat_app. apply holds_app; [exact Hl|].
        cbn [map concat]. rewrite app_nil_r. exact Hl'. }
  destruct G as (l & -> & Hl). rewrite skipn_all2 by lia. rewrite app_nil_r. rewrite firstn_all2 in Hl by lia. exact Hl.
Qed.

Lemma fold_left_inv : forall A B (f : A -> B -> A) (P : A -> Prop), (forall a b, P a -> P (f a b)) ->
  forall l a, P a -> P (fold_left f l a).
Proof. intros A B f P H. induction l as [|x l IH]; intros a Ha; [exact Ha|]. apply IH, H, Ha. Qed.
Lemma fold_compress_length : forall bs H, length H = 8%nat -> length (fold_left compress bs H) = 8%nat.
Proof. exact (fold_left_inv _ _ compress (fun H => length H = 8%nat) compress_length). Qed.
Lemma fold_compress_words : forall bs H, Forall word H -> Forall word (fold_left compress bs H).
Proof. exact (fold_left_inv _ _ compress (Forall word) (fun H b _ => compress_words H b)). Qed.

Lemma hashblocks_w : forall x m b n H, holds x (digest H) -> length H = 8%nat -> Forall word H -> holds m b -> 0 <= n ->
  (128 * Z.to_nat (n / 128) <= length b)%nat ->
  holds (crypto_hashblocks_sha512 x m n) (digest (fold_left compress (map block_words (chunks 128 (Z.to_nat (n / 128)) b)) H)).
Proof.
  intros x m b n H Hx HL HW Hm Hn Hlen. unfold crypto_hashblocks_sha512. rewrite (load_digest x H) by assumption. cbn [fst snd].
  rewrite (hash_loop_w (Z.to_nat (n / 128)) _ m b); [|exact Hm|lia|exact Hn|lia|lia|exact HL|exact HW].
  cbv zeta. cbn [skipn]. apply store_digest.
  - rewrite (holds_length _ _ Hx), digest_length, HL. reflexivity.
  - apply fold_compress_length, HL.
  - apply fold_compress_words, HW.
Qed.

(** ** Padding *)
Lemma chunks_app : forall A n k j (l1 l2 : list A), length l1 = (n * k)%nat ->
  chunks n (k + j) (l1 ++ l2) = chunks n k l1 ++ chunks n j l2.
Proof.
  intros A n k. induction k as [|k IH]; intros j l1 l2 H.
  - rewrite Nat.mul_0_r in H. destruct l1; [reflexivity|discriminate].
  - cbn [Nat.add chunks app]. rewrite firstn_app, skipn_app. replace (n - length l1)%nat with O by lia.
    cbn [firstn skipn]. rewrite app_nil_r. f_equal. apply IH. rewrite skipn_length. lia.
Qed.
Lemma chunks_prefix : forall A n k (l1 l2 : list A), length l1 = (n * k)%nat -> chunks n k (l1 ++ l2) = chunks n k l1.
Proof.
  intros A n k l1 l2 H. pose proof (chunks_app A n k 0 l1 l2 H) as E. rewrite Nat.add_0_r in E. rewrite E. cbn [chunks].
  apply app_nil_r.
Qed.
Lemma be_bytes_mod : forall z, 0 <= z -> be_bytes 8 (z mod 2 ^ 64) = be_bytes 8 z.
Proof.
  intros z Hz.
  assert (B : forall a b, a mod 256 = b mod 256 -> byte_of_z a = byte_of_z b) by (intros a b E; unfold byte_of_z; rewrite E; reflexivity).
  cbn [be_bytes]. repeat (apply f_equal2; [apply B|]); [..|reflexivity].
  all: match goal with |- context [256 ^ Z.of_nat ?k] => let c := eval vm_compute in (256 ^ Z.of_nat k) in change (256 ^ Z.of_nat k) with c end.
  all: change (2 ^ 64) with 18446744073709551616; lia.
Qed.
Lemma be_bytes_16 : forall z, 0 <= z < 2 ^ 72 -> be_bytes 16 z = repeat x00 7 ++ [byte_of_z (z / 2 ^ 64)] ++ be_bytes 8 (z mod 2 ^ 64).
Proof.
  intros z Hz. rewrite be_bytes_mod by lia.
  assert (B : forall k, 9 <= k -> byte_of_z (z / 256 ^ k) = x00).
  { intros k Hk. rewrite Z.div_small; [reflexivity|]. split; [lia|].
    assert (256 ^ 9 <= 256 ^ k) by (apply Z.pow_le_mono_r; lia). change (256 ^ 9) with (2 ^ 72) in *. lia. }
  change (be_bytes 16 z) with (byte_of_z (z / 256 ^ 15) :: byte_of_z (z / 256 ^ 14) :: byte_of_z (z / 256 ^ 13) :: byte_of_z (z / 256 ^ 12)
    :: byte_of_z (z / 256 ^ 11) :: byte_of_z (z / 256 ^ 10) :: byte_of_z (z / 256 ^ 9) :: byte_of_z (z / 256 ^ 8) :: be_bytes 8 z).
  rewrite !B by lia. reflexivity.
Qed.
Lemma seti_mid : forall l1 y l2 v i, i = length l1 -> seti (l1 ++ y :: l2) i v = l1 ++ v :: l2.
Proof. intros l1 y l2 v i ->. induction l1 as [|x l1 IH]; [reflexivity|]. cbn [app length seti]. rewrite IH. reflexivity. Qed.
Lemma holds_zeros : forall n, holds (repeat (mk TU8 0) n) (repeat x00 n).
Proof. induction n as [|n IH]; [reflexivity|]. apply holds_cons; [reflexivity|exact IH]. Qed.
Lemma repeat_add : forall A (x : A) n m, repeat x (n + m) = repeat x n ++ repeat x m.
Proof. intros A x n m. apply repeat_app. Qed.
Definition pad_tail (rest : bytes) (n : Z) : bytes :=
  rest ++ [x80] ++ repeat x00 (Z.to_nat ((111 - n) mod 128)) ++ be_bytes 16 (8 * n).
Lemma pad_tail_length : forall rest n, 0 <= n -> zlen rest = n mod 128 ->
  zlen (pad_tail rest n) = 256 - 128 * (if n mod 128 <? 112 then 1 else 0).
Proof.
  intros rest n Hn HL. unfold pad_tail, zlen in *. rewrite !app_length, repeat_length, be_bytes_length. cbn [length].
  destruct (n mod 128 <? 112) eqn:E; lia.
Qed.
Lemma last_block : forall m b n, holds m b -> 0 <= n -> (Z.to_nat n <= length b)%nat -> n < 2 ^ 64 ->
  let r := Z.land n 127 in
  let n' := 256 - 128 * (if r <? 112 then 1 else 0) in
  let x := repeat (mk TU8 0) 256 in
  let x := for_range (Z.to_nat r) (fun x i => seti x i (geti m (i + Z.to_nat (n - r)))) x in
  let x := seti x (Z.to_nat r) (plain 128) in
  let x := seti x (Z.to_nat (n' - 9)) (pshr (mk TU64 n) 61) in
  let x := on_tail (Z.to_nat (n' - 8)) (fun y => ts64 y (pshl (mk TU64 n) 3)) x in
  holds x (pad_tail (skipn (Z.to_nat (128 * (n / 128))) (firstn (Z.to_nat n) b)) n ++ repeat x00 (Z.to_nat (256 - n'))).
Proof.
  intros m b n Hm Hn Hb Hn64. cbv zeta.
  change 127 with (2 ^ 7 - 1). rewrite land_ones by lia. change (2 ^ 7) with 128.
  assert (HR : 0 <= n mod 128 < 128) by (apply Z.mod_pos_bound; lia).
  assert (En : n = 128 * (n / 128) + n mod 128) by (apply Z.div_mod; lia).
  set (r := n mod 128) in *. set (n' := 256 - 128 * (if r <? 112 then 1 else 0)).
  assert (Hn' : n' = 128 /\ r < 112 \/ n' = 256 /\ 112 <= r) by (unfold n'; destruct (r <? 112) eqn:E; lia).
  assert (Lm : length m = length b) by (apply holds_length, Hm).
  assert (Er : n - r = 128 * (n / 128)) by lia. rewrite Er.
  set (off := Z.to_nat (128 * (n / 128))).
  assert (Ho : Z.of_nat off = 128 * (n / 128)) by (unfold off; lia).
  rewrite mk_u64, Z.mod_small by lia. change (PI TU64 n) with (q64 n).
  rewrite for_range_fill by (rewrite repeat_length; lia).
  assert (EP : map (fun i => geti m (i + off)) (seq 0 (Z.to_nat r)) = firstn (Z.to_nat r) (skipn off m)).
  { rewrite <- map_geti_seq by (rewrite skipn_length; lia). apply map_ext. intros i. unfold geti.
    rewrite <- (firstn_skipn off m) at 1. rewrite app_nth2 by (rewrite firstn_length; lia). f_equal. rewrite firstn_length. lia. }
  rewrite EP. clear EP.
  set (part := firstn (Z.to_nat r) (skipn off m)).
  assert (Lp : length part = Z.to_nat r) by (unfold part; rewrite firstn_length, skipn_length; lia).
  assert (Hp : holds part (skipn off (firstn (Z.to_nat n) b))).
  { unfold part. rewrite skipn_firstn_comm. replace (Z.to_nat n - off)%nat with (Z.to_nat r) by lia.
    apply holds_firstn, holds_skipn, Hm. }
  assert (ES : skipn (Z.to_nat r) (repeat (mk TU8 0) 256) = repeat (mk TU8 0) (256 - Z.to_nat r)).
  { replace 256%nat with (Z.to_nat r + (256 - Z.to_nat r))%nat at 1 by lia. rewrite repeat_add, skipn_app, repeat_length.
    rewrite Nat.sub_diag, skipn_all2 by (rewrite repeat_length; lia). reflexivity. }
  rewrite ES. clear ES.
  set (z1 := Z.to_nat (n' - 10 - r)). set (z2 := Z.to_nat (256 - n')).
  replace (256 - Z.to_nat r)%nat with (1 + (z1 + (1 + (8 + z2))))%nat by lia.
  rewrite !repeat_add. change (repeat (mk TU8 0) 1) with [mk TU8 0]. cbn [app].
  rewrite (seti_mid part) by lia.
  replace (part ++ plain 128 :: repeat (mk TU8 0) z1 ++ mk TU8 0 :: repeat (mk TU8 0) 8 ++ repeat (mk TU8 0) z2)
    with ((part ++ plain 128 :: repeat (mk TU8 0) z1) ++ mk TU8 0 :: repeat (mk TU8 0) 8 ++ repeat (mk TU8 0) z2)
    by (rewrite <- app_assoc; reflexivity).
  rewrite seti_mid by (rewrite app_length; cbn [length]; rewrite repeat_length; lia).
  set (l0 := part ++ plain 128 :: repeat (mk TU8 0) z1).
  assert (Ll : length l0 = Z.to_nat (n' - 9)) by (unfold l0; rewrite app_length; cbn [length]; rewrite repeat_length; lia).
  replace (l0 ++ pshr (q64 n) 61 :: repeat (mk TU8 0) 8 ++ repeat (mk TU8 0) z2)
    with ((l0 ++ [pshr (q64 n) 61]) ++ repeat (mk TU8 0) 8 ++ repeat (mk TU8 0) z2) by (rewrite <- app_assoc; reflexivity).
  set (l1 := l0 ++ [pshr (q64 n) 61]).
  assert (Ll1 : length l1 = Z.to_nat (n' - 8)) by (unfold l1; rewrite app_length; cbn [length]; lia).
  unfold on_tail. rewrite firstn_app, skipn_app, <- Ll1, Nat.sub_diag, firstn_O, app_nil_r, firstn_all, skipn_all.
  cbn [app]. change (skipn 0 ?l) with l.
  rewrite pshl_u64 by lia.
  destruct (ts64_w (repeat (mk TU8 0) 8 ++ repeat (mk TU8 0) z2) ((n * 2 ^ 3) mod 2 ^ 64)) as (l & E & Hl).
  { apply Z.mod_pos_bound. reflexivity. }
  { rewrite app_length, repeat_length. lia. }
  rewrite E. clear E. rewrite skipn_app, skipn_all2 by (rewrite repeat_length; lia). rewrite repeat_length. cbn [app].
  change (skipn (8 - 8) ?l) with l.
  unfold pad_tail. rewrite be_bytes_16 by lia. unfold l1, l0.
  rewrite <- !app_assoc. cbn [app]. rewrite <- ?app_assoc. cbn [app repeat]. rewrite <- ?app_assoc. cbn [app].
  apply holds_app; [exact Hp|]. apply holds_cons; [reflexivity|].
  change (x00 :: x00 :: x00 :: x00 :: x00 :: x00 :: x00 :: byte_of_z (8 * n / 2 ^ 64) :: be_bytes 8 ((8 * n) mod 2 ^ 64) ++ repeat x00 z2)
    with (repeat x00 7 ++ byte_of_z (8 * n / 2 ^ 64) :: be_bytes 8 ((8 * n) mod 2 ^ 64) ++ repeat x00 z2).
  rewrite app_assoc, <- repeat_add.
  replace (Z.to_nat ((111 - n) mod 128) + 7)%nat with z1 by lia.
  apply holds_app; [apply holds_zeros|]. apply holds_cons.
  - rewrite pshr_u64 by (unfold word; lia). cbn [pv q64].
    change (byte_of_z ?z) with (z2b z). rewrite b2z_z2b. change (2 ^ 61) with 2305843009213693952.
    change (2 ^ 64) with 18446744073709551616 in *. lia.
  - apply holds_app; [|apply holds_zeros]. replace (8 * n) with (n * 2 ^ 3) by lia. exact Hl.
Qed.

Lemma hash_w : forall out m b n, holds m b -> 0 <= n -> (Z.to_nat n <= length b)%nat -> n < 2 ^ 64 -> length out = 64%nat ->
  holds (crypto_hash_sha512 out m n) (sha512 (firstn (Z.to_nat n) b)).
Proof.
  intros out m b n Hm Hn Hb H64 Ho. unfold crypto_hash_sha512. cbv zeta.
  assert (EH : for_range 64 (fun h i => seti h i (geti iv i)) (int_array TU8 64) = iv).
  { rewrite for_range_copy by (vm_compute; lia). reflexivity. }
  rewrite EH. clear EH.
  pose proof (last_block m b n Hm Hn Hb H64) as HT. cbv zeta in HT.
  assert (ER : Z.land n 127 = n mod 128) by (change 127 with (2 ^ 7 - 1); rewrite land_ones by lia; reflexivity).
  rewrite ER in *.
  set (rest := skipn (Z.to_nat (128 * (n / 128))) (firstn (Z.to_nat n) b)) in *.
  assert (Lr : zlen rest = n mod 128) by (unfold rest, zlen; rewrite skipn_length, firstn_length; lia).
  pose proof (pad_tail_length rest n Hn Lr) as LT.
  set (n' := 256 - 128 * (if n mod 128 <? 112 then 1 else 0)) in *.
  assert (Hn' : n' = 128 \/ n' = 256) by (unfold n'; destruct (n mod 128 <? 112); lia).
  match type of HT with holds ?X _ => remember X as x eqn:Ex; clear Ex end.
  assert (H1 := hashblocks_w iv m b n h0 iv_ok h0_length h0_words Hm Hn).
  assert (Hq : (128 * Z.to_nat (n / 128) <= length b)%nat) by lia. specialize (H1 Hq).
  remember (fold_left compress (map block_words (chunks 128 (Z.to_nat (n / 128)) b)) h0) as H eqn:EH.
  assert (L8 : length H = 8%nat) by (rewrite EH; apply fold_compress_length, h0_length).
  assert (W8 : Forall word H) by (rewrite EH; apply fold_compress_words, h0_words).
  remember (crypto_hashblocks_sha512 iv m n) as hh eqn:Ehh. clear Ehh.
  assert (H2 := hashblocks_w hh x _ n' H H1 L8 W8 HT).
  assert (P1 : 0 <= n') by lia. specialize (H2 P1).
  assert (P2 : (128 * Z.to_nat (n' / 128) <= length (pad_tail rest n ++ repeat x00 (Z.to_nat (256 - n'))))%nat)
    by (rewrite app_length; unfold zlen in LT; lia).
  specialize (H2 P2).
  assert (LP : length (pad_tail rest n) = (128 * Z.to_nat (n' / 128))%nat) by (unfold zlen in LT; lia).
  rewrite chunks_prefix in H2 by exact LP.
  assert (EM : sha512 (firstn (Z.to_nat n) b) =
    digest (fold_left compress (map block_words (chunks 128 (Z.to_nat (n' / 128)) (pad_tail rest n))) H)).
  { unfold sha512. apply (f_equal digest). rewrite EH, <- fold_left_app, <- map_app. unfold blocks.
    assert (EQ : pad (firstn (Z.to_nat n) b) = firstn (Z.to_nat (128 * (n / 128))) b ++ pad_tail rest n).
    { unfold pad, pad_tail. rewrite firstn_length. replace (Z.of_nat (Nat.min (Z.to_nat n) (length b))) with n by lia.
      unfold rest.
      rewrite <- (firstn_skipn (Z.to_nat (128 * (n / 128))) (firstn (Z.to_nat n) b)) at 1. rewrite <- app_assoc. apply f_equal2; [|reflexivity].
      rewrite firstn_firstn. replace (Nat.min (Z.to_nat (128 * (n / 128))) (Z.to_nat n)) with (Z.to_nat (128 * (n / 128))) by lia. reflexivity. }
    assert (LF : length (firstn (Z.to_nat (128 * (n / 128))) b) = (128 * Z.to_nat (n / 128))%nat) by (rewrite firstn_length; lia).
    rewrite EQ, app_length, LF, LP. rewrite <- Nat.mul_add_distr_l, Nat.mul_comm, Nat.div_mul by lia.
    rewrite chunks_app by exact LF. do 2 f_equal.
    rewrite <- (firstn_skipn (Z.to_nat (128 * (n / 128))) b) at 2. rewrite chunks_prefix by exact LF. reflexivity. }
  rewrite EM. rewrite for_range_copy.
  - rewrite skipn_all2 by lia. rewrite app_nil_r, firstn_all2; [exact H2|].
    rewrite (holds_length _ _ H2), digest_length, fold_compress_length by exact L8. lia.
  - lia.
  - rewrite (holds_length _ _ H2), digest_length, fold_compress_length by exact L8. lia.
Qed.
