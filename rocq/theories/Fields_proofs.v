(** Laws of field access in packets. *)
From Coq Require Import List ZArith Bool Strings.Byte Lia ZifyBool ZifyNat ZifyN.
From Verif Require Import PyBase PyBase_proofs Packets Packets_proofs PacketOps PacketOps_proofs Fields.
Import ListNotations.
Open Scope Z_scope.
Ltac Zify.zify_post_hook ::= Z.div_mod_to_equations.

Lemma fget_fput : forall off n v buf, length v = n -> (off + n <= length buf)%nat ->
  fget off n (fput off v buf) = v.
Proof.
  intros off n v buf Hv H. destruct (fset_array_right off n v buf Hv H) as [d [E [_ [G _]]]].
  unfold fset_array in E. rewrite Hv, Nat.eqb_refl in E. injection E as <-. exact G.
Qed.

Lemma fget_fput_off : forall off v buf i k, (off + length v <= length buf)%nat ->
  (i + k <= off \/ off + length v <= i)%nat -> fget i k (fput off v buf) = fget i k buf.
Proof.
  intros off v buf i k H D. destruct (fset_array_right off (length v) v buf eq_refl H) as [d [E [_ [_ G]]]].
  unfold fset_array in E. rewrite Nat.eqb_refl in E. injection E as <-. apply G. exact D.
Qed.

Lemma int_same : forall off n z buf, (off + n <= length buf)%nat ->
  fget_int off n (fput_int off n z buf) = z mod 256 ^ Z.of_nat n.
Proof.
  intros. unfold fget_int, fput_int. rewrite fget_fput; [|apply le_enc_length|auto]. apply le_dec_enc.
Qed.

Lemma int_off : forall off n z buf i k, (off + n <= length buf)%nat ->
  (i + k <= off \/ off + n <= i)%nat -> fget i k (fput_int off n z buf) = fget i k buf.
Proof. intros. unfold fput_int. apply fget_fput_off; rewrite le_enc_length; auto. Qed.

Lemma bit_off : forall off j v buf i k, (off + 1 <= length buf)%nat ->
  (i + k <= off \/ off + 1 <= i)%nat -> fget i k (fput_bit off j v buf) = fget i k buf.
Proof. intros. unfold fput_bit. apply int_off; auto. Qed.

Lemma fget1_nth : forall off d, (off < length d)%nat -> fget off 1 d = [nth off d x00].
Proof.
  intros off d. revert off. induction d as [|x d IH]; intros off H; cbn [length] in H; [lia|].
  destruct off as [|off]; [reflexivity|]. unfold fget, slice in *. cbn [skipn nth]. apply IH. lia.
Qed.

Lemma fget_int1 : forall off d, (off < length d)%nat -> fget_int off 1 d = b2z (nth off d x00).
Proof. intros. unfold fget_int. rewrite fget1_nth by auto. cbn [le_dec]. lia. Qed.

Lemma raw_bit_get : forall off i d, (off < length d)%nat ->
  raw_bit off i d = Z.testbit (fget_int off 1 d) (Z.of_nat i).
Proof. intros. unfold raw_bit. rewrite fget_int1; auto. Qed.

Lemma testbit_mod256 : forall z i, 0 <= i < 8 -> Z.testbit (z mod 256 ^ Z.of_nat 1) i = Z.testbit z i.
Proof. intros. change (256 ^ Z.of_nat 1) with (2 ^ 8). apply Z.mod_pow2_bits_low. lia. Qed.

Lemma bit_bits : forall off j v buf i, (off + 1 <= length buf)%nat -> 0 <= j < 8 -> 0 <= i < 8 ->
  Z.testbit (fget_int off 1 (fput_bit off j v buf)) i =
  if i =? j then v else Z.testbit (fget_int off 1 buf) i.
Proof.
  intros off j v buf i H Hj Hi. unfold fput_bit. rewrite int_same by auto. rewrite testbit_mod256 by auto.
  destruct (Z.eqb_spec i j) as [->|N].
  - destruct v; [apply Z.setbit_eq; lia|apply Z.clearbit_eq].
  - destruct v; [apply Z.setbit_neq; lia|apply Z.clearbit_neq; lia].
Qed.

Lemma bit_same : forall off j v buf, (off + 1 <= length buf)%nat -> 0 <= j < 8 ->
  fget_bit off j (fput_bit off j v buf) = v.
Proof. intros. unfold fget_bit. rewrite bit_bits, Z.eqb_refl by auto. reflexivity. Qed.

Lemma bit_other : forall off j v buf i, (off + 1 <= length buf)%nat -> 0 <= j < 8 -> 0 <= i < 8 -> i <> j ->
  fget_bit off i (fput_bit off j v buf) = fget_bit off i buf.
Proof.
  intros. unfold fget_bit. rewrite bit_bits by auto. destruct (Z.eqb_spec i j); [contradiction|reflexivity].
Qed.

Lemma raw_bit_same : forall off j v buf i, (off + 1 <= length buf)%nat -> 0 <= j < 8 -> (i < 8)%nat ->
  Z.of_nat i <> j -> raw_bit off i (fput_bit off j v buf) = raw_bit off i buf.
Proof.
  intros. rewrite !raw_bit_get by (rewrite ?fput_bit_len; lia). rewrite bit_bits by lia.
  destruct (Z.eqb_spec (Z.of_nat i) j); [contradiction|reflexivity].
Qed.

Lemma raw_bit_off : forall off d d' i, (off < length d)%nat -> (off < length d')%nat ->
  fget off 1 d' = fget off 1 d -> raw_bit off i d' = raw_bit off i d.
Proof. intros. rewrite !raw_bit_get by auto. unfold fget_int. rewrite H1. reflexivity. Qed.

Lemma firstn_fget : forall n (d : bytes), firstn n d = fget 0 n d.
Proof. reflexivity. Qed.

Lemma prots_concat : forall l, Forall (fun e : bytes * bytes => length (fst e) = 10%nat /\ length (snd e) = 10%nat) l ->
  length (concat (map (fun q => fst q ++ snd q) l)) = (20 * length l)%nat /\
  prots (length l) (concat (map (fun q => fst q ++ snd q) l)) = l.
Proof.
  induction l as [|[a b] l IH]; intro F; [split; reflexivity|].
  inversion F as [|? ? [A B] R]; subst. destruct (IH R) as [L P]. cbn [fst snd] in A, B.
  cbn [map concat fst snd length]. split; [rewrite !app_length; lia|].
  set (t := concat (map (fun q : bytes * bytes => fst q ++ snd q) l)) in *.
  assert (E1 : slice 0 10 ((a ++ b) ++ t) = a).
  { unfold slice. change (skipn 0 ((a ++ b) ++ t)) with ((a ++ b) ++ t). rewrite <- app_assoc.
    rewrite firstn_app. unfold bytes in *. rewrite A, Nat.sub_diag, firstn_O, app_nil_r.
    apply firstn_all2. lia. }
  assert (E2 : slice 10 10 ((a ++ b) ++ t) = b).
  { unfold slice. rewrite <- app_assoc. rewrite (skipn_app_exact _ 10 a (b ++ t)) by auto.
    rewrite firstn_app. unfold bytes in *. rewrite B, Nat.sub_diag, firstn_O, app_nil_r.
    apply firstn_all2. lia. }
  assert (E3 : skipn 20 ((a ++ b) ++ t) = t).
  { apply skipn_app_exact. rewrite app_length. unfold bytes in *. lia. }
  cbn [prots]. exact (f_equal2 cons (f_equal2 pair E1 E2) (eq_trans (f_equal (prots (length l)) E3) P)).
Qed.

Lemma a2_prots_set : forall l p,
  forallb (fun e : bytes * bytes => Nat.eqb (length (fst e)) 10 && Nat.eqb (length (snd e)) 10) l = true ->
  a2_prots (a2_set_prots l p) = Ok l.
Proof.
  intros l p H. unfold a2_prots, a2_set_prots. cbn [p_opt].
  assert (F : Forall (fun e : bytes * bytes => length (fst e) = 10%nat /\ length (snd e) = 10%nat) l).
  { rewrite forallb_forall in H. apply Forall_forall. intros e I. specialize (H e I).
    apply andb_prop in H. destruct H as [A B]. apply Nat.eqb_eq in A, B. auto. }
  destruct (prots_concat l F) as [L P]. unfold a2_nprots. rewrite L, Nat.mul_comm, Nat.div_mul by lia.
  rewrite P. reflexivity.
Qed.

Lemma signed_same : forall z buf, (3 <= length buf)%nat ->
  le_dec_signed 1 (fget 2 1 (fput_int 2 1 z buf)) = (z + 2 ^ (8 - 1)) mod 2 ^ 8 - 2 ^ (8 - 1).
Proof.
  intros z buf H. unfold le_dec_signed. fold (fget_int 2 1 (fput_int 2 1 z buf)).
  rewrite int_same by lia. change (256 ^ Z.of_nat 1) with 256.
  change (2 ^ (8 * Z.of_nat 1 - 1)) with 128. change (2 ^ (8 * Z.of_nat 1)) with 256.
  change (2 ^ (8 - 1)) with 128. change (2 ^ 8) with 256.
  destruct (Z.ltb_spec (z mod 256) 128); lia.
Qed.

(** ** From single assignments to sequences *)
Definition lawful (c : class) (good : obj c -> Prop) : Prop :=
  forall o f v, good o ->
    match held (kind_of c f) v with
    | Some w => exists o', put c f v o = Some o' /\ good o' /\ get c f o' = w /\
                           forall g, g <> f -> get c g o' = get c g o
    | None => put c f v o = None
    end.

Lemma lawful_assigns : forall (c : class) good (dec : forall a b : field c, {a = b} + {a <> b}),
  lawful c good ->
  forall l o, good o ->
    good (assigns c o l) /\ forall f, get c f (assigns c o l) = latest c dec f l (get c f o).
Proof.
  intros c good dec L. induction l as [|[g w] l IH]; intros o G; [split; [exact G|reflexivity]|].
  unfold assigns in *. cbn [fold_left latest].
  pose proof (L o g w G) as S. unfold assign at 2 4. cbn [fst snd].
  destruct (held (kind_of c g) w) as [x|] eqn:E.
  - destruct S as [o' [P [G' [V O]]]]. rewrite P. destruct (IH o' G') as [A B]. split; [exact A|].
    intro f. rewrite B. f_equal. destruct (dec g f) as [Q|Q].
    + subst f. rewrite E. exact V.
    + apply O. congruence.
  - rewrite S. destruct (IH o G) as [A B]. split; [exact A|]. intro f. rewrite B. f_equal.
    destruct (dec g f) as [Q|Q]; [|reflexivity]. subst f. rewrite E. reflexivity.
Qed.

Lemma lawful_accepts : forall (c : class) good, lawful c good ->
  forall o f v, good o -> (put c f v o = None <-> held (kind_of c f) v = None).
Proof.
  intros c good L o f v G. pose proof (L o f v G) as S.
  destruct (held (kind_of c f) v) as [w|].
  - destruct S as [o' [P _]]. rewrite P. split; discriminate.
  - rewrite S. split; reflexivity.
Qed.

(** ** Serialising an M2 changes at most its last-flag *)
Definition but_last (d e : bytes) : Prop :=
  length d = 38%nat /\ length e = 38%nat /\
  (forall i, i <> 1%nat -> nth i d x00 = nth i e x00) /\
  (forall i, 0 <= i < 7 -> Z.testbit (fget_int 1 1 d) i = Z.testbit (fget_int 1 1 e) i) /\
  (fget_bit 1 7 e = true -> fget_bit 1 7 d = true).

Lemma nth_fget : forall off n d i, (i < n)%nat -> (off + n <= length d)%nat ->
  nth i (fget off n d) x00 = nth (off + i) d x00.
Proof.
  intros off n d i H L. unfold fget, slice.
  rewrite <- (firstn_skipn off d) at 2.
  rewrite app_nth2; rewrite firstn_length; [|lia].
  replace (off + i - Nat.min off (length d))%nat with i by lia.
  rewrite <- (firstn_skipn n (skipn off d)) at 2. rewrite app_nth1; [reflexivity|].
  rewrite firstn_length, skipn_length. lia.
Qed.

Lemma fget_ext : forall off n d e, length d = length e -> (off + n <= length d)%nat ->
  (forall i, (off <= i < off + n)%nat -> nth i d x00 = nth i e x00) -> fget off n d = fget off n e.
Proof.
  intros off n d e L H E. apply (nth_ext _ _ x00 x00).
  - unfold fget, slice. rewrite !firstn_length, !skipn_length. lia.
  - intros i Hi. unfold fget, slice in Hi. rewrite firstn_length, skipn_length in Hi.
    rewrite !nth_fget by lia. apply E. lia.
Qed.

Lemma nth_fput : forall off v buf i, (off + length v <= length buf)%nat ->
  nth i (fput off v buf) x00 =
  if (Nat.leb off i && Nat.ltb i (off + length v))%bool then nth (i - off) v x00 else nth i buf x00.
Proof.
  intros off v buf i H. unfold fput.
  destruct (Nat.leb_spec off i) as [A|A]; cbn [andb].
  - destruct (Nat.ltb_spec i (off + length v)) as [B|B].
    + rewrite app_nth2; rewrite firstn_length; [|lia]. rewrite app_nth1 by lia. f_equal. lia.
    + rewrite app_nth2; rewrite firstn_length; [|lia]. rewrite app_nth2 by lia.
      rewrite <- (firstn_skipn (off + length v) buf) at 3.
      rewrite (app_nth2 (firstn _ buf)); rewrite firstn_length; [|lia]. f_equal. lia.
  - rewrite app_nth1 by (rewrite firstn_length; lia).
    rewrite <- (firstn_skipn off buf) at 2. rewrite app_nth1 by (rewrite firstn_length; lia). reflexivity.
Qed.

Lemma but_last_refl : forall d, length d = 38%nat -> but_last d d.
Proof. intros d H. repeat split; auto. Qed.

Lemma but_last_put : forall off v d e, but_last d e -> (2 <= off)%nat -> (off + length v <= 38)%nat ->
  but_last (fput off v d) (fput off v e).
Proof.
  intros off v d e [D [E [N [B M]]]] H1 H2. unfold but_last.
  rewrite !fput_len by lia. unfold fget_bit, fget_int in *.
  rewrite !fget_fput_off by lia. repeat split; auto.
  intros i Hi. rewrite !nth_fput by lia. rewrite (N i Hi). reflexivity.
Qed.

Lemma but_last_bit : forall j v d e, but_last d e -> 0 <= j < 8 -> but_last (fput_bit 1 j v d) (fput_bit 1 j v e).
Proof.
  intros j v d e [D [E [N [B M]]]] Hj. unfold but_last. rewrite !fput_bit_len by lia.
  repeat split; auto.
  - intros i Hi. unfold fput_bit, fput_int. rewrite !nth_fput by (rewrite le_enc_length; lia).
    rewrite !le_enc_length. destruct (Nat.leb_spec 1 i); cbn [andb]; [|apply N; auto].
    destruct (Nat.ltb_spec i (1 + 1)); [lia|apply N; auto].
  - intros i Hi. rewrite !bit_bits by lia. destruct (i =? j); auto.
  - unfold fget_bit. rewrite !bit_bits by lia. destruct (7 =? j); auto.
Qed.

Lemma but_last_struct : forall d e src, but_last d e -> but_last (struct_from_bytes d src) (struct_from_bytes e src).
Proof.
  intros d e src W. pose proof W as [D [E [N [B M]]]].
  destruct src as [|b0 src0]; [exact W|]. remember (b0 :: src0) as src eqn:Es.
  assert (EE : is_empty src = false) by (subst; reflexivity).
  assert (HL : (1 <= length src)%nat) by (subst; cbn [length]; lia). clear Es.
  assert (NT : forall x i, length x = 38%nat -> nth i (struct_from_bytes x src) x00 =
               if Nat.ltb i (Nat.min (length src) 38) then nth i src x00 else nth i x x00).
  { intros x i X. unfold struct_from_bytes. rewrite EE, X. set (n := Nat.min (length src) 38).
    assert (n <= length src)%nat by (unfold n; lia). assert (n <= 38)%nat by (unfold n; lia).
    destruct (Nat.ltb_spec i n) as [A|A].
    - rewrite app_nth1 by (rewrite firstn_length; lia).
      rewrite <- (firstn_skipn n src) at 2. rewrite app_nth1 by (rewrite firstn_length; lia). reflexivity.
    - rewrite app_nth2; rewrite firstn_length; [|lia].
      rewrite <- (firstn_skipn n x) at 2. rewrite app_nth2; rewrite firstn_length; [|lia]. f_equal. lia. }
  unfold but_last, fget_bit. rewrite !struct_from_bytes_length.
  rewrite !fget_int1 by (rewrite ?struct_from_bytes_length; lia). rewrite !NT by auto.
  unfold fget_bit in M. rewrite !fget_int1 in M by lia.
  split; [exact D|]. split; [exact E|]. split; [|split].
  - intros i Hi. rewrite !NT by auto. destruct (Nat.ltb i _); auto.
  - intros i Hi. specialize (B i Hi). rewrite !fget_int1 in B by lia. destruct (Nat.ltb 1 _); auto.
  - destruct (Nat.ltb 1 _); auto.
Qed.

Lemma but_last_get : forall d e f, but_last d e -> f <> M2Last -> get M2Class f d = get M2Class f e.
Proof.
  intros d e f [D [E [N [B M]]]] H.
  assert (F : forall off n, (off + n <= 38)%nat -> (2 <= off)%nat \/ (off = 0)%nat /\ (n = 1)%nat -> fget off n d = fget off n e).
  { intros off n H1 H2. apply fget_ext; [lia|lia|]. intros i Hi. apply N. lia. }
  destruct f; cbn [get M2Class m2_get]; try contradiction; apply f_equal.
  - unfold fget_int. rewrite F by lia. reflexivity.
  - unfold m2_no_such_server, fget_bit. apply B. lia.
  - rewrite !raw_bit_get by lia. apply B. lia.
  - unfold m2_time, fget_int. rewrite F by lia. reflexivity.
  - unfold m2_server_enc_key. rewrite F by lia. reflexivity.
Qed.

Lemma but_last_bytes : forall d e, but_last d e -> but_last (m2_bytes d) e.
Proof.
  intros d e W. unfold m2_bytes. destruct (m2_no_such_server d); [|exact W].
  destruct W as [D [E [N [B M]]]]. unfold m2_set_last_flag, but_last. rewrite fput_bit_len by lia.
  split; [exact D|]. split; [exact E|]. split; [|split].
  - intros i Hi. unfold fput_bit, fput_int. rewrite !nth_fput by (rewrite le_enc_length; lia).
    rewrite !le_enc_length. destruct (Nat.leb_spec 1 i); cbn [andb]; [|apply N; auto].
    destruct (Nat.ltb_spec i (1 + 1)); [lia|apply N; auto].
  - intros i Hi. rewrite bit_bits by lia. destruct (Z.eqb_spec i 7); [lia|apply B; auto].
  - intros _. rewrite bit_same by lia. reflexivity.
Qed.

Lemma unserialised_but_last : forall l d e, but_last d e ->
  but_last (fold_left m2_apply l d) (fold_left m2_apply (unserialised l) e).
Proof.
  induction l as [|o l IH]; intros d e W; [exact W|].
  assert (S : o <> M2Bytes -> but_last (m2_apply d o) (m2_apply e o)).
  { intro H. pose proof W as [D [E _]].
    destruct o; cbn [m2_apply]; try contradiction.
    - apply but_last_bit; auto. lia.
    - apply but_last_bit; auto. lia.
    - unfold m2_set_time, fput_int. apply but_last_put; rewrite ?le_enc_length; auto; lia.
    - unfold m2_set_server_enc_key, fset_array. destruct (Nat.eqb_spec (length k) 32) as [K|K]; cbn [keep]; auto.
      apply but_last_put; auto; unfold bytes in *; lia.
    - apply but_last_struct, W. }
  unfold unserialised in *. destruct o; cbn [fold_left filter];
    try (apply IH, S; discriminate).
  apply IH. cbn [m2_apply]. apply but_last_bytes, W.
Qed.
