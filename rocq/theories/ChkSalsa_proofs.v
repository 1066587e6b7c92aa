(** No exception of a list is raised in Salsa20, Poly1305 and secretbox. *)
From Coq Require Import List ZArith Bool Strings.Byte Lia ZifyBool ZifyNat ZifyN.
From Verif Require Import PyBase PyInt PyInt_proofs ChkPy TwHash TwSalsa TwPoly ChkHash ChkSalsa ChkHash_proofs.
Import ListNotations.
Open Scope Z_scope.
Ltac Zify.zify_post_hook ::= Z.div_mod_to_equations.

(** Copying loops and the like: the state is one list, whose length stays *)
Ltac loop1 := match goal with |- context [for_c ?n ?g ?st] => match goal with |- context [for_range n ?f st] =>
  let E := fresh "E" in let H := fresh "H" in
  destruct (for_ok _ (fun l : list pint => length l = length st) n g f st) as [E H];
  [reflexivity| |rewrite E; clear E; rb; remember (for_range n f st) eqn:Q in H |- *; clear Q; unfold int_array in H; rewrite ?repeat_length in H] end end.
Ltac body := let s := fresh "s" in let i := fresh "i" in let Hi := fresh "Hi" in let Hs := fresh "Hs" in
  intros s i Hi Hs; unfold int_array in Hs; rewrite ?repeat_length in Hs; rewrite ?seti_length; split; [chk; reflexivity|exact Hs].

Lemma ld32_ok : forall x, (4 <= length x)%nat -> ld32_c x = Ok (ld32 x).
Proof. intros x L. unfold ld32_c, ld32. chk. reflexivity. Qed.
Lemma st32_ok : forall x u, (4 <= length x)%nat -> st32_c x u = Ok (st32 x u) /\ length (st32 x u) = length x.
Proof.
  intros x u L. unfold st32_c, st32. loop (fun st : list pint * pint => length (fst st) = length x); [reflexivity| |].
  - intros [y v] i Hi HL. cbn [fst snd] in *. rewrite seti_length. split; [|exact HL]. chk. reflexivity.
  - destruct (for_range _ _ _) as [y v]. split; [reflexivity|exact H].
Qed.
Lemma quarter_ok : forall t, length t = 4%nat -> quarter_c t = Ok (quarter t) /\ length (quarter t) = 4%nat.
Proof. intros t L. unfold quarter_c, quarter, lL32. cbv zeta. rewrite !seti_length. split; [|exact L]. chk. reflexivity. Qed.
Definition l4_16 (st : list pint * list pint) : Prop := length (fst st) = 4%nat /\ length (snd st) = 16%nat.
Lemma column_ok : forall x st j, (j < 4)%nat -> length x = 16%nat -> l4_16 st -> core_column_c x st j = Ok (core_column x st j) /\ l4_16 (core_column x st j).
Proof.
  intros x [t w] j Hj Lx [Lt Lw]. cbn [fst snd] in *. unfold core_column_c, core_column. cbv zeta.
  loop1; [body|]. rewrite Lt in H. destruct (quarter_ok l H) as [E2 H2]. rewrite E2. rb. remember (quarter l) as t2 eqn:Q. clear Q.
  loop1; [body|]. split; [reflexivity|split; [exact H2|cbn [snd]; rewrite H0; exact Lw]].
Qed.
Definition l16_4_16 (st : list pint * (list pint * list pint)) : Prop := length (fst st) = 16%nat /\ l4_16 (snd st).
Lemma cround_ok : forall st i, l16_4_16 st -> core_round_c st i = Ok (core_round st i) /\ l16_4_16 (core_round st i).
Proof.
  intros [x tw] i [Lx Ltw]. cbn [fst snd] in *. unfold core_round_c, core_round. cbv zeta.
  destruct (for_ok _ l4_16 4 (core_column_c x) (core_column x) tw) as [E H]; [exact Ltw|intros; apply column_ok; assumption|]. rewrite E. clear E. rb.
  remember (for_range 4 (core_column x) tw) as tw2 eqn:Q. clear Q. destruct H as [H1 H2].
  loop1; [body|]. split; [reflexivity|split; [cbn [fst]; rewrite H; exact Lx|split; assumption]].
Qed.
Lemma load_ok : forall in_ k c x, (16 <= length in_)%nat -> (32 <= length k)%nat -> (16 <= length c)%nat -> length x = 16%nat ->
  core_load_c in_ k c x = Ok (core_load in_ k c x) /\ length (core_load in_ k c x) = 16%nat.
Proof.
  intros in_ k c x Li Lk Lc Lx. unfold core_load_c, core_load. apply (for_ok _ (fun l : list pint => length l = 16%nat)); [exact Lx|].
  intros s i Hi Hs. cbv zeta. rewrite !seti_length. split; [|exact Hs].
  rewrite !ld32_ok by (rewrite skipn_length; lia). chk. reflexivity.
Qed.
Lemma core_ok : forall out in_ k c (h : bool), (16 <= length in_)%nat -> (32 <= length k)%nat -> (16 <= length c)%nat -> ((if h then 32 else 64) <= length out)%nat ->
  core_c out in_ k c h = Ok (core out in_ k c h) /\ length (core out in_ k c h) = length out.
Proof.
  intros out in_ k c h Li Lk Lc Lo. unfold core_c, core. cbv zeta.
  destruct (load_ok in_ k c (int_array TU32 16) Li Lk Lc eq_refl) as [E H]. rewrite E. clear E. rb. remember (core_load in_ k c _) as x eqn:Q. clear Q.
  loop1; [body|]. rename l into y.
  destruct (for_ok _ l16_4_16 20 core_round_c core_round (x, (int_array TU32 4, int_array TU32 16))) as [E H2]; [split; [exact H|split; reflexivity]|intros; apply cround_ok; assumption|].
  rewrite E. clear E. rb. remember (for_range 20 core_round _) as s eqn:Q. clear Q. destruct s as [x2 tw]. destruct H2 as [H2 _]. cbn [fst] in *.
  destruct h.
  - loop1; [body|]. rename l into x3.
    match goal with |- context [for_range 4 ?f x3] => match goal with |- context [for_c 4 ?g x3] => destruct (for_ok _ (fun l : list pint => length l = 16%nat) 4 g f x3) as [E H4] end end.
    + rewrite H1. exact H2.
    + intros s i Hi Hs. cbv zeta. rewrite !seti_length. split; [|exact Hs]. rewrite !ld32_ok by (rewrite skipn_length; lia). chk. reflexivity.
    + rewrite E. clear E. rb. remember (for_range 4 _ x3) as x4 eqn:Q. clear Q.
      apply (for_ok _ (fun l : list pint => length l = length out)); [reflexivity|]. intros s i Hi Hs. cbv zeta. chk1.
      destruct (st32_ok (skipn (4 * i) s) (geti x4 (5 * i))) as [T1 T2]; [rewrite skipn_length; lia|].
      rewrite (tail_ok (4 * i) _ (fun o => st32 o (geti x4 (5 * i))) s T1). rb.
      pose proof (tail_length (4 * i) (fun o => st32 o (geti x4 (5 * i))) s ltac:(lia) T2) as L1. remember (on_tail (4 * i) _ s) as s2 eqn:Q. clear Q. chk1.
      destruct (st32_ok (skipn (16 + 4 * i) s2) (geti x4 (6 + i))) as [T3 T4]; [rewrite skipn_length; lia|].
      split; [apply (tail_ok (16 + 4 * i) _ (fun o => st32 o (geti x4 (6 + i))) s2 T3)|].
      rewrite (tail_length (16 + 4 * i) (fun o => st32 o (geti x4 (6 + i))) s2 ltac:(lia) T4). lia.
  - apply (for_ok _ (fun l : list pint => length l = length out)); [reflexivity|]. intros s i Hi Hs. cbv beta.
    remember (padd (geti x2 i) (geti y i)) as v eqn:Q. chk. rewrite <- Q. clear Q.
    destruct (st32_ok (skipn (4 * i) s) v) as [T1 T2]; [rewrite skipn_length; lia|].
    split; [apply (tail_ok (4 * i) _ (fun o => st32 o v) s T1)|].
    rewrite (tail_length (4 * i) (fun o => st32 o v) s ltac:(lia) T2). exact Hs.
Qed.
Lemma sigma_length : length sigma = 16%nat. Proof. reflexivity. Qed.
Lemma bump_ok : forall z, length z = 16%nat -> bump_c z = Ok (bump z) /\ length (bump z) = 16%nat.
Proof.
  intros z L. unfold bump_c, bump. loop (fun st : pint * list pint => length (snd st) = 16%nat); [exact L| |].
  - intros [u y] i Hi Hs. cbn [snd] in *. rewrite seti_length. split; [|exact Hs]. chk. reflexivity.
  - destruct (for_range _ _ _) as [u y]. split; [reflexivity|exact H].
Qed.
Lemma xor_ok : forall n c m x co mo, (n + co <= length c)%nat -> (is_empty m = false -> n + mo <= length m)%nat -> (n <= length x)%nat ->
  xor_block_c n c m x co mo = Ok (xor_block n c m x co mo) /\ length (xor_block n c m x co mo) = length c.
Proof.
  intros n c m x co mo Lc Lm Lx. unfold xor_block_c, xor_block. apply (for_ok _ (fun l : list pint => length l = length c)); [reflexivity|].
  intros s i Hi Hs. rewrite seti_length. split; [|exact Hs]. destruct (is_empty m); [|specialize (Lm eq_refl)]; chk; reflexivity.
Qed.
Lemma sloop_ok : forall fuel c m z x k co mo b, 0 <= b -> Z.of_nat co + b <= Z.of_nat (length c) ->
  (is_empty m = false -> Z.of_nat mo + b <= Z.of_nat (length m)) -> length z = 16%nat -> length x = 64%nat -> (32 <= length k)%nat ->
  stream_loop_c fuel c m z x k co mo b = Ok (stream_loop fuel c m z x k co mo b) /\ length (stream_loop fuel c m z x k co mo b) = length c.
Proof.
  induction fuel as [|f IH]; intros c m z x k co mo b B Lc Lm Lz Lx Lk; cbn [stream_loop_c stream_loop]; [split; reflexivity|].
  pose proof sigma_length as Ls. remember sigma as sg eqn:Q. unfold crypto_core_salsa20.
  destruct (core_ok x z k sg false) as [E H]; try lia. rewrite E. rb. remember (core x z k sg false) as x2 eqn:Q2. clear Q2 E.
  destruct (b >=? 64) eqn:B1.
  - destruct (xor_ok 64 c m x2 co mo) as [E2 H2]; [lia|intros; specialize (Lm H0); lia|lia|]. rewrite E2. rb.
    destruct (bump_ok z Lz) as [E3 H3]. rewrite E3. rb. rewrite <- H2. apply IH; try lia.
    intros Em. rewrite Em. specialize (Lm Em). lia.
  - destruct (b =? 0) eqn:B2; [split; reflexivity|]. apply xor_ok; [lia|intros; specialize (Lm H0); lia|lia].
Qed.
Lemma salsa20_xor_ok : forall c m b n k, 0 <= b -> b <= Z.of_nat (length c) -> (is_empty m = false -> b <= Z.of_nat (length m)) ->
  (8 <= length n)%nat -> (32 <= length k)%nat ->
  stream_salsa20_xor_c c m b n k = Ok (crypto_stream_salsa20_xor c m b n k) /\ length (crypto_stream_salsa20_xor c m b n k) = length c.
Proof.
  intros c m b n k B Lc Lm Ln Lk. unfold stream_salsa20_xor_c, crypto_stream_salsa20_xor. destruct (b =? 0); [split; reflexivity|]. cbv zeta.
  loop1; [body|]. apply sloop_ok; try lia; try assumption. reflexivity.
Qed.
Lemma stream_ok : forall c d n k, 0 <= d <= Z.of_nat (length c) -> (24 <= length n)%nat -> (32 <= length k)%nat ->
  stream_c c d n k = Ok (crypto_stream_xsalsa20 c d n k) /\ length (crypto_stream_xsalsa20 c d n k) = length c.
Proof.
  intros c d n k D Ln Lk. unfold stream_c, crypto_stream_xsalsa20, crypto_stream_salsa20, crypto_core_hsalsa20. pose proof sigma_length as Ls.
  destruct (core_ok (int_array TU8 32) n k sigma true) as [E H]; try lia. { reflexivity. } rewrite E. rb. remember (core _ _ _ _ _) as s eqn:Q. clear Q E.
  apply salsa20_xor_ok; try lia. { discriminate. } { rewrite skipn_length. lia. } { change (length (int_array TU8 32)) with 32%nat in H. lia. }
Qed.
Lemma stream_xor_ok : forall c m d n k, 0 <= d <= Z.of_nat (length c) -> d <= Z.of_nat (length m) -> (24 <= length n)%nat -> (32 <= length k)%nat ->
  stream_xor_c c m d n k = Ok (crypto_stream_xsalsa20_xor c m d n k) /\ length (crypto_stream_xsalsa20_xor c m d n k) = length c.
Proof.
  intros c m d n k D Lm Ln Lk. unfold stream_xor_c, crypto_stream_xsalsa20_xor, crypto_core_hsalsa20. pose proof sigma_length as Ls.
  destruct (core_ok (int_array TU8 32) n k sigma true) as [E H]; try lia. { reflexivity. } rewrite E. rb. remember (core _ _ _ _ _) as s eqn:Q. clear Q E.
  apply salsa20_xor_ok; try lia. { rewrite skipn_length. lia. } { change (length (int_array TU8 32)) with 32%nat in H. lia. }
Qed.

(** ** Poly1305 *)
Lemma add1305_ok : forall h c, length h = 17%nat -> (17 <= length c)%nat -> add1305_c h c = Ok (add1305 h c) /\ length (add1305 h c) = 17%nat.
Proof.
  intros h c Lh Lc. unfold add1305_c, add1305. loop (fun st : pint * list pint => length (snd st) = 17%nat); [exact Lh| |].
  - intros [u y] i Hi Hs. cbn [snd] in *. rewrite seti_length. split; [|exact Hs]. chk. reflexivity.
  - destruct (for_range _ _ _) as [u y]. split; [reflexivity|exact H].
Qed.
Lemma poly_r_ok : forall k, (16 <= length k)%nat -> poly_r_c k = Ok (poly_r k) /\ length (poly_r k) = 17%nat.
Proof. intros k L. unfold poly_r_c, poly_r. cbv zeta. loop1; [body|]. rewrite !seti_length. split; [|exact H]. chk. reflexivity. Qed.
Lemma poly_block_ok : forall m n, 0 < n <= Z.of_nat (length m) -> poly_block_c m n = Ok (poly_block m n) /\ length (poly_block m n) = 17%nat.
Proof.
  intros m n B. unfold poly_block_c, poly_block. cbv zeta. loop1.
  - intros s i Hi Hs. unfold int_array in Hs. rewrite repeat_length in Hs. destruct (Z.of_nat i >=? n) eqn:E; [split; [reflexivity|exact Hs]|].
    rewrite seti_length. split; [chk; reflexivity|exact Hs].
  - rewrite seti_length. split; [chk; reflexivity|exact H].
Qed.
Lemma poly_mul_ok : forall h r x, length h = 17%nat -> length r = 17%nat -> length x = 17%nat -> poly_mul_c h r x = Ok (poly_mul h r x) /\ length (poly_mul h r x) = 17%nat.
Proof.
  intros h r x Lh Lr Lx. unfold poly_mul_c, poly_mul. apply (for_ok _ (fun l : list pint => length l = 17%nat)); [exact Lx|]. intros s i Hi Hs. cbv zeta.
  unfold lset at 1, sput, num at 1. rb. rewrite lput_ok by lia. rb.
  apply (for_ok _ (fun l : list pint => length l = 17%nat)); [rewrite seti_length; exact Hs|]. intros t j Hj Ht. rewrite seti_length. split; [|exact Ht].
  destruct (j <=? i)%nat eqn:E; chk; reflexivity.
Qed.
Definition l17 (st : pint * list pint) : Prop := length (snd st) = 17%nat.
Lemma poly_carry_ok : forall st, l17 st -> poly_carry_c st = Ok (poly_carry st) /\ l17 (poly_carry st).
Proof.
  intros st L. unfold poly_carry_c, poly_carry. apply for_ok; [exact L|].
  intros [u y] i Hi Hs. unfold l17 in *. cbn [snd] in *. rewrite seti_length. split; [|exact Hs]. chk. reflexivity.
Qed.
Lemma poly_reduce_ok : forall h, length h = 17%nat -> poly_reduce_c h = Ok (poly_reduce h) /\ length (poly_reduce h) = 17%nat.
Proof.
  intros h L. unfold poly_reduce_c, poly_reduce. destruct (poly_carry_ok (plain 0, h) L) as [E H]. rewrite E. rb. destruct (poly_carry _) as [u h2]. unfold l17 in H. cbn [snd] in H.
  chk. remember (seti h2 16 _) as h3 eqn:Q. assert (L3 : length h3 = 17%nat) by (rewrite Q, seti_length; exact H). remember (pmul (plain 5) _) as u2 eqn:Q2. clear Q Q2 E.
  destruct (poly_carry_ok (u2, h3) L3) as [E H4]. rewrite E. rb. destruct (poly_carry _) as [u4 h4]. unfold l17 in H4. cbn [snd] in H4.
  rewrite seti_length. split; [|exact H4]. chk. reflexivity.
Qed.
Lemma ploop_ok : forall fuel m r x h n, n <= Z.of_nat (length m) -> length r = 17%nat -> length x = 17%nat -> length h = 17%nat ->
  poly_loop_c fuel m r x h n = Ok (poly_loop fuel m r x h n) /\ length (poly_loop fuel m r x h n) = 17%nat.
Proof.
  induction fuel as [|f IH]; intros m r x h n Lm Lr Lx Lh; cbn [poly_loop_c poly_loop]; [split; [reflexivity|exact Lh]|].
  destruct (n >? 0) eqn:B; [|split; [reflexivity|exact Lh]]. cbv zeta.
  destruct (poly_block_ok m n) as [E H]; [lia|]. rewrite E. rb. destruct (add1305_ok h (poly_block m n) Lh) as [E2 H2]; [lia|]. rewrite E2. rb.
  destruct (poly_mul_ok (add1305 h (poly_block m n)) r x H2 Lr Lx) as [E3 H3]. rewrite E3. rb. clear E E2 E3.
  remember (poly_mul _ r x) as x2 eqn:Q. clear Q. remember (add1305 _ _) as h2 eqn:Q. clear Q.
  loop1; [body|]. rewrite H2 in H0. destruct (poly_reduce_ok l H0) as [E4 H4]. rewrite E4. rb. apply IH; try assumption. rewrite skipn_length. lia.
Qed.
Lemma poly_finish_ok : forall out h k, (16 <= length out)%nat -> length h = 17%nat -> (32 <= length k)%nat ->
  poly_finish_c out h k = Ok (poly_finish out h k) /\ length (poly_finish out h k) = length out.
Proof.
  intros out h k Lo Lh Lk. unfold poly_finish_c, poly_finish. cbv zeta.
  loop1; [body|]. rename l into g. assert (Lm : length minusp = 17%nat) by reflexivity.
  destruct (add1305_ok h minusp Lh) as [E2 H2]; [lia|]. rewrite E2. rb. remember (add1305 h minusp) as h2 eqn:Q. clear Q E2. chk.
  remember (pneg _) as s eqn:Q. clear Q.
  match goal with |- context [for_range 17 ?f h2] => match goal with |- context [for_c 17 ?g h2] => destruct (for_ok _ (fun l : list pint => length l = 17%nat) 17 g f h2) as [E H4] end end; [exact H2|body|].
  rewrite E. clear E. rb. remember (for_range 17 _ h2) as h3 eqn:Q. clear Q.
  loop1; [body|]. rename l into c. chk. remember (seti c 16 (plain 0)) as c2 eqn:Q. assert (Lc2 : length c2 = 17%nat) by (rewrite Q, seti_length; exact H0). clear Q.
  destruct (add1305_ok h3 c2 H4) as [E5 H5]; [lia|]. rewrite E5. rb. remember (add1305 h3 c2) as h5 eqn:Q. clear Q E5.
  apply (for_ok _ (fun l : list pint => length l = length out)); [reflexivity|body].
Qed.
Lemma onetimeauth_ok : forall out m n k, (16 <= length out)%nat -> n <= Z.of_nat (length m) -> (32 <= length k)%nat ->
  onetimeauth_c out m n k = Ok (crypto_onetimeauth out m n k) /\ length (crypto_onetimeauth out m n k) = length out.
Proof.
  intros out m n k Lo Ln Lk. unfold onetimeauth_c, crypto_onetimeauth. destruct (poly_r_ok k) as [E H]; [lia|]. rewrite E. rb.
  destruct (ploop_ok (Z.to_nat n) m (poly_r k) (int_array TU32 17) (int_array TU32 17) n) as [E2 H2]; try lia; try reflexivity. rewrite E2. rb.
  apply poly_finish_ok; assumption.
Qed.
Lemma vn_ok : forall x y n, (n <= length x)%nat -> (n <= length y)%nat -> vn_c x y n = Ok (vn x y n).
Proof.
  intros x y n Lx Ly. unfold vn_c, vn. cbv zeta. loop (fun _ : pint => True); [exact I| |reflexivity].
  intros u i Hi _. split; [|exact I]. chk. reflexivity.
Qed.
Lemma verify_ok : forall h m n k, (16 <= length h)%nat -> n <= Z.of_nat (length m) -> (32 <= length k)%nat ->
  onetimeauth_verify_c h m n k = Ok (crypto_onetimeauth_verify h m n k).
Proof.
  intros h m n k Lh Ln Lk. unfold onetimeauth_verify_c, crypto_onetimeauth_verify, crypto_verify_16.
  destruct (onetimeauth_ok (int_array TU8 16) m n k) as [E H]; try lia. { cbn. lia. } rewrite E. rb. apply vn_ok; [exact Lh|]. rewrite H. cbn. lia.
Qed.
Lemma secretbox_ok : forall c m d n k, d <= Z.of_nat (length c) -> d <= Z.of_nat (length m) -> (24 <= length n)%nat -> (32 <= length k)%nat ->
  secretbox_c c m d n k = Ok (crypto_secretbox c m d n k).
Proof.
  intros c m d n k Lc Lm Ln Lk. unfold secretbox_c, crypto_secretbox. destruct (d <? 32) eqn:D; [reflexivity|]. cbv zeta.
  destruct (stream_xor_ok c m d n k) as [E H]; try lia. rewrite E. rb. remember (crypto_stream_xsalsa20_xor c m d n k) as c2 eqn:Q. clear Q E.
  destruct (onetimeauth_ok (skipn 16 c2) (skipn 32 c2) (d - 32) c2) as [E2 H2]; try (rewrite ?skipn_length; lia). rewrite E2. reflexivity.
Qed.
Lemma secretbox_open_ok : forall m c d n k, d <= Z.of_nat (length m) -> d <= Z.of_nat (length c) -> (24 <= length n)%nat -> (32 <= length k)%nat ->
  secretbox_open_c m c d n k = Ok (crypto_secretbox_open m c d n k).
Proof.
  intros m c d n k Lm Lc Ln Lk. unfold secretbox_open_c, crypto_secretbox_open. destruct (d <? 32) eqn:D; [reflexivity|]. cbv zeta.
  destruct (stream_ok (int_array TU8 32) 32 n k) as [E H]; try lia. { cbn. lia. } rewrite E. rb. remember (crypto_stream_xsalsa20 _ _ _ _) as x eqn:Q. clear Q E.
  change (length (int_array TU8 32)) with 32%nat in H. rewrite verify_ok by (rewrite ?skipn_length; lia). rb. destruct (negb _); [reflexivity|].
  destruct (stream_xor_ok m c d n k) as [E2 _]; try lia. rewrite E2. reflexivity.
Qed.
