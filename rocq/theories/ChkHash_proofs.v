(** No exception of a list is raised in SHA-512. *)
From Coq Require Import List ZArith Bool Strings.Byte Lia ZifyBool ZifyNat ZifyN.
From Verif Require Import PyBase PyInt PyInt_proofs ChkPy TwHash ChkHash.
Import ListNotations.
Open Scope Z_scope.
Ltac Zify.zify_post_hook ::= Z.div_mod_to_equations.

(** A step by a lemma: the kernel would compare [Ok a] with the next call to see that
    [rbind (Ok a) k] is [k a]. *)
Lemma rb_ok : forall A B (a : A) (k : A -> res B), rbind (Ok a) k = k a.
Proof. reflexivity. Qed.
Ltac rb := rewrite ?rb_ok.
Lemma rget_ok : forall l i, (i < length l)%nat -> rget l i = Ok (geti l i).
Proof. intros l i H. unfold rget. replace (i <? length l)%nat with true by lia. reflexivity. Qed.
Lemma lput_ok : forall l i v, (i < length l)%nat -> lput l i v = Ok (seti l i v).
Proof. intros l i v H. unfold lput. replace (i <? length l)%nat with true by lia. reflexivity. Qed.
Lemma bput_ok : forall l i v, (i < length l)%nat -> 0 <= pv v < 256 -> bput l i v = Ok (seti l i (plain (pv v))).
Proof.
  intros l i v H B. unfold bput, is_byte. replace (i <? length l)%nat with true by lia.
  replace ((0 <=? pv v) && (pv v <? 256)) with true by lia. reflexivity.
Qed.
Lemma for_c_O : forall A (g : A -> nat -> res A) st, for_c 0 g st = Ok st.
Proof. reflexivity. Qed.
Lemma for_c_S : forall A n (g : A -> nat -> res A) st, for_c (S n) g st = rbind (for_c n g st) (fun s => g s n).
Proof. intros A n g st. unfold for_c. rewrite seq_S, fold_left_app. reflexivity. Qed.
Lemma for_ok : forall A (I : A -> Prop) n (g : A -> nat -> res A) f st, I st ->
  (forall s i, (i < n)%nat -> I s -> g s i = Ok (f s i) /\ I (f s i)) ->
  for_c n g st = Ok (for_range n f st) /\ I (for_range n f st).
Proof.
  intros A I n g f st H0 HS. induction n as [|n IH]; [split; [reflexivity|exact H0]|].
  destruct IH as [E H]. { intros s i L. apply HS. lia. }
  rewrite for_c_S, for_range_S, E. rb. apply HS; [lia|exact H].
Qed.
Ltac len := rewrite ?seti_length, ?repeat_length; unfold int_array; rewrite ?repeat_length; cbn [length fst snd]; lia.
Ltac chk1 := first [rewrite rget_ok by len | rewrite lput_ok by len]; rb.
Ltac chk := unfold lset, sput, ladd, lsub, lmul, land, lor, lxor, lshl, lshr, lcast, num, lift2, lift; rb; repeat chk1.
(** A loop over lists whose lengths stay *)
Ltac loop I := match goal with |- context [for_c ?n ?g ?st] => match goal with |- context [for_range n ?f st] =>
  let E := fresh "E" in let H := fresh "H" in destruct (for_ok _ I n g f st) as [E H]; [| |rewrite E; clear E; rb] end end.

Lemma dl64_ok : forall x, (8 <= length x)%nat -> dl64_c x = Ok (dl64 x).
Proof.
  intros x L. unfold dl64_c, dl64. loop (fun _ : pint => True); [exact I| |reflexivity].
  intros u i Hi _. split; [|exact I]. chk. reflexivity.
Qed.
Lemma ts64_ok : forall x u, (8 <= length x)%nat -> ts64_c x u = Ok (ts64 x u) /\ length (ts64 x u) = length x.
Proof.
  intros x u L. unfold ts64_c, ts64. loop (fun st : list pint * pint => length (fst st) = length x); [reflexivity| |].
  - intros [y v] i Hi HL. cbn [fst snd] in *. rewrite seti_length. split; [|exact HL]. chk. reflexivity.
  - destruct (for_range _ _ _) as [y v]. split; [reflexivity|exact H].
Qed.
Lemma schedule_ok : forall w j, (j < 16)%nat -> length w = 16%nat -> schedule_step_c w j = Ok (schedule_step w j) /\ length (schedule_step w j) = 16%nat.
Proof. intros w j Hj L. unfold schedule_step_c, schedule_step. rewrite seti_length. split; [|exact L]. chk. reflexivity. Qed.
Lemma K_length : length K = 80%nat. Proof. reflexivity. Qed.
Definition l8_16 (st : list pint * list pint) : Prop := length (fst st) = 8%nat /\ length (snd st) = 16%nat.
Lemma round_ok : forall st i, (i < 80)%nat -> l8_16 st -> round_c st i = Ok (round st i) /\ l8_16 (round st i).
Proof.
  intros [a w] i Hi [La Lw]. cbn [fst snd] in *. unfold round_c, round.
  destruct (for_ok _ (fun b => length b = 8%nat) 8 (fun b j => lset b j (rget a j)) (fun b j => seti b j (geti a j)) (int_array TU64 8)) as [E H];
    [reflexivity|intros s j Hj Hs; rewrite seti_length; split; [chk; reflexivity|exact Hs]|].
  rewrite E. clear E. rb. remember (for_range 8 _ (int_array TU64 8)) as b eqn:Q. clear Q.
  pose proof K_length as LK. unfold lift3. remember K as k eqn:QK. clear QK. chk.
  cbv zeta. remember (padd (padd (padd (padd (geti a 7) (Sigma1 (geti a 4))) (Ch (geti a 4) (geti a 5) (geti a 6))) (geti k i)) (geti w (i mod 16))) as t eqn:Q. clear Q.
  remember (seti _ 3 _) as b2 eqn:Q. assert (L2 : length b2 = 8%nat) by (rewrite Q, !seti_length; exact H). clear Q.
  destruct (for_ok _ (fun a => length a = 8%nat) 8 (fun a j => lset a ((j + 1) mod 8) (rget b2 j)) (fun a j => seti a ((j + 1) mod 8) (geti b2 j)) a) as [E Ha];
    [exact La|intros s j Hj Hs; rewrite seti_length; split; [chk; reflexivity|exact Hs]|].
  unfold lset, sput in E. rewrite E. clear E. rb.
  destruct (Nat.eqb (i mod 16) 15).
  - destruct (for_ok _ (fun w => length w = 16%nat) 16 schedule_step_c schedule_step w) as [E Hw]; [exact Lw|intros; apply schedule_ok; assumption|].
    rewrite E. split; [reflexivity|split; assumption].
  - split; [reflexivity|split; assumption].
Qed.
Definition l8_8 (st : list pint * list pint) : Prop := length (fst st) = 8%nat /\ length (snd st) = 8%nat.
Lemma block_ok : forall m off st, (off + 128 <= length m)%nat -> l8_8 st -> hash_block_c m off st = Ok (hash_block m off st) /\ l8_8 (hash_block m off st).
Proof.
  intros m off [a z] Lm [La Lz]. cbn [fst snd] in *. unfold hash_block_c, hash_block.
  destruct (for_ok _ (fun b => length b = 16%nat) 16 (fun w i => lset w i (dl64_c (skipn (8 * i + off) m))) (fun w i => seti w i (dl64 (skipn (8 * i + off) m))) (int_array TU64 16)) as [E H];
    [reflexivity|intros s j Hj Hs; rewrite seti_length; split; [rewrite dl64_ok by (rewrite skipn_length; lia); chk; reflexivity|exact Hs]|].
  rewrite E. clear E. rb. remember (for_range 16 _ _) as w eqn:Q. clear Q.
  destruct (for_ok _ l8_16 80 round_c round (a, w)) as [E H2]; [split; assumption|intros; apply round_ok; assumption|]. rewrite E. clear E. rb.
  destruct (for_range 80 round (a, w)) as [a2 w2]. destruct H2 as [H2 _]. cbn [fst] in H2.
  apply for_ok; [split; assumption|]. intros [a3 z3] i Hi [L3 L4]. cbn [fst snd] in *. unfold l8_8. cbn [fst snd]. rewrite !seti_length. split; [|split; assumption]. chk. reflexivity.
Qed.
Lemma hloop_ok : forall fuel m off n st, Z.of_nat off + n <= Z.of_nat (length m) -> l8_8 st ->
  hash_loop_c fuel m off n st = Ok (hash_loop fuel m off n st) /\ l8_8 (hash_loop fuel m off n st).
Proof.
  induction fuel as [|f IH]; intros m off n st L H; cbn [hash_loop_c hash_loop]; [split; [reflexivity|exact H]|].
  destruct (n >=? 128) eqn:E; [|split; [reflexivity|exact H]].
  destruct (block_ok m off st) as [B HB]; [lia|exact H|]. rewrite B. rb. apply IH; [lia|exact HB].
Qed.
Lemma tail_ok : forall off f g x, f (skipn off x) = Ok (g (skipn off x)) -> tail_c off f x = Ok (on_tail off g x).
Proof. intros off f g x E. unfold tail_c, on_tail. rewrite E. reflexivity. Qed.
Lemma tail_length : forall off g x, (off <= length x)%nat -> length (g (skipn off x)) = length (skipn off x) -> length (on_tail off g x) = length x.
Proof. intros off g x L E. unfold on_tail. rewrite app_length, E, firstn_length, skipn_length. lia. Qed.
Lemma hashblocks_ok : forall x m n, length x = 64%nat -> n <= Z.of_nat (length m) ->
  hashblocks_c x m n = Ok (crypto_hashblocks_sha512 x m n) /\ length (crypto_hashblocks_sha512 x m n) = 64%nat.
Proof.
  intros x m n Lx Lm. unfold hashblocks_c, crypto_hashblocks_sha512.
  match goal with |- context [for_range 8 ?f (int_array TU64 8, int_array TU64 8)] =>
    match goal with |- context [for_c 8 ?g (int_array TU64 8, int_array TU64 8)] =>
      destruct (for_ok _ l8_8 8 g f (int_array TU64 8, int_array TU64 8)) as [E H] end end.
  - split; reflexivity.
  - intros [z a] i Hi [L1 L2]. cbn [fst snd] in *. unfold l8_8. cbn [fst snd]. rewrite !seti_length. split; [|split; assumption].
    rewrite dl64_ok by (rewrite skipn_length; lia). chk. reflexivity.
  - rewrite E. clear E. destruct (for_range 8 _ _) as [z a]. destruct H as [Hz Ha]. rb; cbn [fst snd] in *.
    destruct (hloop_ok (Z.to_nat n) m 0 n (a, z)) as [E2 H2]; [lia|split; assumption|]. rewrite E2. clear E2. rb.
    destruct (hash_loop _ _ _ _ _) as [a2 z2]. destruct H2 as [_ Hz2]. cbn [snd] in Hz2.
    apply (for_ok _ (fun l => length l = 64%nat)); [exact Lx|]. intros s i Hi Hs. rewrite rget_ok by len. rb.
    destruct (ts64_ok (skipn (8 * i) s) (geti z2 i)) as [T1 T2]; [rewrite skipn_length; lia|].
    split; [|rewrite (tail_length (8 * i) (fun y => ts64 y (geti z2 i))); [exact Hs|lia|exact T2]].
    apply (tail_ok (8 * i) _ (fun y => ts64 y (geti z2 i))). exact T1.
Qed.
Lemma hash_ok : forall out m n, (64 <= length out)%nat -> 0 <= n <= Z.of_nat (length m) ->
  hash_c out m n = Ok (crypto_hash_sha512 out m n) /\ length (crypto_hash_sha512 out m n) = length out.
Proof.
  intros out m n Lo Ln. unfold hash_c, crypto_hash_sha512. assert (Li : length iv = 64%nat) by reflexivity. remember iv as iv' eqn:Q. clear Q. cbv zeta.
  destruct (for_ok _ (fun b => length b = 64%nat) 64 (fun h i => lset h i (rget iv' i)) (fun h i => seti h i (geti iv' i)) (int_array TU8 64)) as [E H];
    [reflexivity|intros s j Hj Hs; rewrite seti_length; split; [chk; reflexivity|exact Hs]|].
  rewrite E. clear E. rb. remember (for_range 64 _ (int_array TU8 64)) as h eqn:Q. clear Q.
  destruct (hashblocks_ok h m n) as [E H2]; [exact H|lia|]. rewrite E. clear E. rb. remember (crypto_hashblocks_sha512 h m n) as h2 eqn:Q. clear Q.
  assert (R : 0 <= Z.land n 127 < 128). { change 127 with (2 ^ 7 - 1). rewrite land_ones by lia. pose proof (Z.mod_pos_bound n (2 ^ 7)). lia. }
  assert (R2 : Z.land n 127 <= n). { change 127 with (2 ^ 7 - 1). rewrite land_ones by lia. apply Z.mod_le; lia. }
  remember (Z.land n 127) as r eqn:Q. clear Q.
  remember (256 - 128 * (if r <? 112 then 1 else 0)) as n2 eqn:Q. assert (N2 : (n2 = 128 /\ r < 112) \/ n2 = 256) by (destruct (r <? 112) eqn:?; lia). clear Q.
  destruct (for_ok _ (fun b => length b = 256%nat) (Z.to_nat r) (fun x i => lset x i (rget m (i + Z.to_nat (n - r)))) (fun x i => seti x i (geti m (i + Z.to_nat (n - r)))) (repeat (mk TU8 0) 256)) as [E H3];
    [apply repeat_length|intros s j Hj Hs; rewrite seti_length; split; [chk; reflexivity|exact Hs]|].
  rewrite E. clear E. rb. remember (for_range (Z.to_nat r) _ _) as x eqn:Q. clear Q.
  chk. remember (seti _ (Z.to_nat (n2 - 9)) _) as x2 eqn:Q. assert (L2 : length x2 = 256%nat) by (rewrite Q, !seti_length; exact H3). clear Q.
  destruct (ts64_ok (skipn (Z.to_nat (n2 - 8)) x2) (pshl (mk TU64 n) 3)) as [T1 T2]; [rewrite skipn_length; lia|].
  rewrite (tail_ok _ _ (fun y => ts64 y (pshl (mk TU64 n) 3)) _ T1). rb.
  pose proof (tail_length (Z.to_nat (n2 - 8)) (fun y => ts64 y (pshl (mk TU64 n) 3)) x2 ltac:(lia) T2) as L3. remember (on_tail _ _ x2) as x3 eqn:Q. clear Q.
  destruct (hashblocks_ok h2 x3 n2) as [E H4]; [exact H2|lia|]. rewrite E. clear E. rb. remember (crypto_hashblocks_sha512 h2 x3 n2) as h4 eqn:Q. clear Q.
  apply (for_ok _ (fun l => length l = length out)); [reflexivity|]. intros s i Hi Hs. rewrite seti_length. split; [chk; reflexivity|exact Hs].
Qed.
