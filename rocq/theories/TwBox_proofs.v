(** The end of Poly1305, comparison of tags, and secretbox. *)
From Coq Require Import List ZArith Bool Strings.Byte Lia ZifyBool ZifyNat ZifyN.
From Verif Require Import PyBase PyBase_proofs PyInt PyInt_proofs ShaSpec TwHash_proofs SalsaSpec TwSalsa TwSalsa_proofs Radix_proofs PolySpec TwPoly TwPoly_proofs.
Import ListNotations.
Open Scope Z_scope.
Ltac Zify.zify_post_hook ::= Z.div_mod_to_equations.

Lemma minusp_num : small minusp (2 ^ 20) /\ num 256 17 (dig minusp) = 2 ^ 136 - p1305.
Proof.
  split; [|vm_compute; reflexivity]. intros j Hj.
  do 17 (destruct j as [|j]; [vm_compute; split; discriminate|]). lia.
Qed.

(** Subtract p if that leaves a number that is not negative. *)
Lemma poly_select : forall H d, 0 <= H < 5 * 2 ^ 128 -> (forall j, (j < 17)%nat -> 0 <= d j < 256) ->
  num 256 17 d = (H + (2 ^ 136 - p1305)) mod 2 ^ 136 ->
  (d 16%nat / 128 = 1 /\ H mod p1305 = H) \/ (d 16%nat / 128 = 0 /\ H mod p1305 = num 256 17 d).
Proof.
  intros H d HH R E. pose proof (R 16%nat ltac:(lia)) as R16.
  assert (B : 0 <= num 256 16 d < 256 ^ Z.of_nat 16) by (apply num_range; [lia|]; intros; apply R; lia).
  rewrite (num_S 256 16) in *. change (256 ^ Z.of_nat 16) with (2 ^ 128) in *.
  remember (num 256 16 d) as L eqn:EL. clear EL R. remember (d 16%nat) as t eqn:Et. clear Et.
  destruct (Z.ltb_spec H p1305) as [Q|Q].
  - left. rewrite Z.mod_small in E by (unfold p1305 in *; lia). split; [unfold p1305 in *; lia|]. apply Z.mod_small. lia.
  - right. replace (H + (2 ^ 136 - p1305)) with (H - p1305 + 1 * 2 ^ 136) in E by ring.
    rewrite Z.mod_add, Z.mod_small in E by (unfold p1305 in *; lia).
    split; [unfold p1305 in *; lia|]. rewrite E. symmetry. apply (Z.mod_unique_pos _ _ 1); unfold p1305 in *; lia.
Qed.

Lemma select_digit : forall g h s, (s = 0 \/ s = -1) -> Z.lxor h (Z.land s (Z.lxor g h)) = if s =? 0 then h else g.
Proof.
  intros g h s [E|E]; subst s; cbn [Z.eqb].
  - rewrite Z.land_0_l, Z.lxor_0_r. reflexivity.
  - rewrite Z.land_m1_l, (Z.lxor_comm g h), <- Z.lxor_assoc, Z.lxor_nilpotent, Z.lxor_0_l. reflexivity.
Qed.

Lemma key_half : forall k kb, holds k kb -> (32 <= length kb)%nat ->
  let c := seti (for_range 16 (fun c j => seti c j (geti k (j + 16))) (int_array TU32 17)) 16 (plain 0) in
  small c 255 /\ num 256 17 (dig c) = le_word (firstn 16 (skipn 16 kb)).
Proof.
  intros k kb H L c.
  assert (D : forall j, (j < 17)%nat -> dig c j = bval (nth j (firstn 16 (skipn 16 kb)) x00)).
  { intros j Hj. unfold c. rewrite (for_range_fill 16 (fun j => geti k (j + 16))) by (unfold int_array; rewrite repeat_length; lia).
    unfold dig. rewrite seti_geti_chain by (rewrite app_length, map_length, seq_length; cbn; lia).
    destruct (Nat.eqb_spec 16 j) as [<-|Q].
    - rewrite nth_overflow by (rewrite firstn_length; lia). reflexivity.
    - rewrite nth_firstn' by lia. rewrite nth_skipn'.
      unfold geti at 1. rewrite app_nth1 by (rewrite map_length, seq_length; lia).
      rewrite (nth_indep _ _ (geti k (0 + 16))) by (rewrite map_length, seq_length; lia).
      rewrite (map_nth (fun j => geti k (j + 16))), seq_nth by lia. replace (0 + j + 16)%nat with (16 + j)%nat by lia.
      apply (holds_geti k kb); [exact H|lia]. }
  split.
  - intros j Hj. rewrite D by exact Hj. pose proof (byte_range (firstn 16 (skipn 16 kb)) j). lia.
  - rewrite (num_ext _ _ _ _ D). apply num_bytes. rewrite firstn_length. lia.
Qed.

Lemma poly_finish_w : forall out h k kb, good h -> holds k kb -> (32 <= length kb)%nat -> (16 <= length out)%nat ->
  exists t, poly_finish out h k = t ++ skipn 16 out /\
    holds t (le_bytes 16 (num 256 17 (dig h) mod p1305 + le_word (firstn 16 (skipn 16 kb)))).
Proof.
  intros out h k kb G H L LO. unfold poly_finish. cbv zeta.
  destruct (key_half k kb H L) as [Sc Nc]. cbv zeta in Sc, Nc.
  remember (seti (for_range 16 (fun c j => seti c j (geti k (j + 16))) (int_array TU32 17)) 16 (plain 0)) as c eqn:Ec. clear Ec.
  destruct minusp_num as [Sm Nm].
  destruct (add1305_w h minusp) as (d & E1 & Rd & Nd); try apply G; [apply good_small, G|exact Sm|].
  rewrite E1, Nm in *. clear E1 Nm Sm.
  rewrite (for_range_fill 17 (geti h)) by (unfold int_array; rewrite repeat_length; lia).
  assert (EG : map (geti h) (seq 0 17) ++ skipn 17 (int_array TU32 17) = h).
  { destruct G as [Lh _]. change (skipn 17 (int_array TU32 17)) with (@nil pint). rewrite app_nil_r.
    apply list_ext; [rewrite map_length, seq_length; lia|]. intros i Hi. rewrite map_length, seq_length in Hi.
    unfold geti at 1. rewrite (nth_indep _ _ (geti h 0)) by (rewrite map_length, seq_length; lia).
    rewrite (map_nth (geti h)), seq_nth by exact Hi. reflexivity. }
  rewrite EG. clear EG.
  rewrite (pl_geti 17 d 16) by lia. rewrite pshr_plain by lia. change (2 ^ 7) with 128.
  change (pneg (plain (d 16%nat / 128))) with (plain (- (d 16%nat / 128))).
  rewrite (for_range_update 17 (fun x j => pxor x (pand (plain (- (d 16%nat / 128))) (pxor (geti h j) x)))) by (rewrite pl_length; lia).
  rewrite skipn_all2 by (rewrite pl_length; lia). rewrite app_nil_r.
  set (e := fun i => Z.lxor (d i) (Z.land (- (d 16%nat / 128)) (Z.lxor (dig h i) (d i)))).
  assert (EE : map (fun i => pxor (geti (pl 17 d) i) (pand (plain (- (d 16%nat / 128))) (pxor (geti h i) (geti (pl 17 d) i)))) (seq 0 17) = pl 17 e).
  { unfold pl at 3. apply map_ext_in. intros j Hj. apply in_seq in Hj. rewrite (pl_geti 17 d j) by lia.
    unfold pxor, pand. rewrite typed_plain_l by reflexivity. rewrite (typed_plain_l Z.land) by reflexivity.
    rewrite (typed_plain_r Z.lxor) by reflexivity. reflexivity. }
  rewrite EE. clear EE.
  pose proof (good_num h G) as GN.
  destruct (poly_select _ d GN Rd Nd) as [[Q1 Q2]|[Q1 Q2]].
  - assert (De : forall j, e j = dig h j) by (intros j; unfold e; rewrite Q1; rewrite select_digit by (right; reflexivity); reflexivity).
    destruct (add1305_w (pl 17 e) c) as (f & E2 & Rf & Nf).
    + apply pl_length.
    + intros j Hj. rewrite pl_geti by exact Hj. discriminate.
    + intros j Hj. rewrite dig_pl by exact Hj. rewrite De. apply (good_small h G j Hj).
    + intros j Hj. specialize (Sc j Hj). lia.
    + rewrite E2. rewrite (for_range_fill 16 (geti (pl 17 f))) by exact LO. eexists. split; [reflexivity|].
      rewrite (num_ext 256 17 (dig (pl 17 e)) (dig h)) in Nf by (intros; rewrite dig_pl by assumption; apply De).
      rewrite Nc in Nf. rewrite Q2. remember (num 256 17 (dig h) + le_word (firstn 16 (skipn 16 kb))) as z eqn:Ez. clear Ez.
      assert (M : map (geti (pl 17 f)) (seq 0 16) = pl 16 f).
      { unfold pl at 2. apply map_ext_in. intros j Hj. apply in_seq in Hj. apply pl_geti. lia. }
      rewrite M. apply holds_le_bytes; [intros; apply Rf; lia|].
      rewrite (num_S 256 16) in Nf. change (256 ^ Z.of_nat 16) with (2 ^ 128) in *.
      change (2 ^ 136) with (2 ^ 128 * 2 ^ 8) in Nf. rewrite Z.rem_mul_r in Nf by lia.
      assert (B : 0 <= num 256 16 f < 256 ^ Z.of_nat 16) by (apply num_range; [lia|]; intros; apply Rf; lia).
      change (256 ^ Z.of_nat 16) with (2 ^ 128) in *. pose proof (Z.mod_pos_bound z (2 ^ 128) ltac:(lia)). lia.
  - assert (De : forall j, e j = d j) by (intros j; unfold e; rewrite Q1; rewrite select_digit by (left; reflexivity); reflexivity).
    destruct (add1305_w (pl 17 e) c) as (f & E2 & Rf & Nf).
    + apply pl_length.
    + intros j Hj. rewrite pl_geti by exact Hj. discriminate.
    + intros j Hj. rewrite dig_pl by exact Hj. rewrite De. specialize (Rd j Hj). lia.
    + intros j Hj. specialize (Sc j Hj). lia.
    + rewrite E2. rewrite (for_range_fill 16 (geti (pl 17 f))) by exact LO. eexists. split; [reflexivity|].
      rewrite (num_ext 256 17 (dig (pl 17 e)) d) in Nf by (intros; rewrite dig_pl by assumption; apply De).
      rewrite Nc in Nf. rewrite Q2. remember (num 256 17 d + le_word (firstn 16 (skipn 16 kb))) as z eqn:Ez. clear Ez.
      assert (M : map (geti (pl 17 f)) (seq 0 16) = pl 16 f).
      { unfold pl at 2. apply map_ext_in. intros j Hj. apply in_seq in Hj. apply pl_geti. lia. }
      rewrite M. apply holds_le_bytes; [intros; apply Rf; lia|].
      rewrite (num_S 256 16) in Nf. change (256 ^ Z.of_nat 16) with (2 ^ 128) in *.
      change (2 ^ 136) with (2 ^ 128 * 2 ^ 8) in Nf. rewrite Z.rem_mul_r in Nf by lia.
      assert (B : 0 <= num 256 16 f < 256 ^ Z.of_nat 16) by (apply num_range; [lia|]; intros; apply Rf; lia).
      change (256 ^ Z.of_nat 16) with (2 ^ 128) in *. pose proof (Z.mod_pos_bound z (2 ^ 128) ltac:(lia)). lia.
Qed.

Lemma onetimeauth_w : forall out m mb n k kb, holds m mb -> (n <= length mb)%nat -> holds k kb -> (32 <= length kb)%nat -> (16 <= length out)%nat ->
  exists t, crypto_onetimeauth out m (Z.of_nat n) k = t ++ skipn 16 out /\ holds t (poly1305 (firstn 32 kb) (firstn n mb)).
Proof.
  intros out m mb n k kb H L HK LK LO. unfold crypto_onetimeauth.
  destruct (poly_r_w k kb HK ltac:(lia)) as [Rr Nr].
  destruct (poly_loop_w (Z.to_nat (Z.of_nat n)) m mb (poly_r k) _ n (int_array TU32 17) (int_array TU32 17) 0 H L ltac:(lia) Rr Nr) as [G N].
  - split; [reflexivity|]. split; [intros j Hj; do 17 (destruct j as [|j]; [discriminate|]); lia|].
    split; [intros j Hj; do 16 (destruct j as [|j]; [vm_compute; split; [discriminate|reflexivity]|]); lia|vm_compute; split; discriminate].
  - vm_compute. reflexivity.
  - reflexivity.
  - destruct (poly_finish_w out _ k kb G HK LK LO) as (t & E & T). exists t. split; [exact E|].
    rewrite N in T. unfold poly1305. cbv zeta. rewrite firstn_firstn, skipn_firstn_comm. change (Nat.min 16 32) with 16%nat. change (32 - 16)%nat with 16%nat.
    assert (Q : fold_left (poly_step (clamp (le_word (firstn 16 kb)))) (blocks16 (firstn n mb)) 0 mod p1305 =
                fold_left (poly_step (clamp (le_word (firstn 16 kb)))) (blocks16 (firstn n mb)) 0).
    { apply Z.mod_small. generalize (clamp (le_word (firstn 16 kb))) as R. intros R. generalize (blocks16 (firstn n mb)) as l.
      assert (W : forall l a, 0 <= a < p1305 -> 0 <= fold_left (poly_step R) l a < p1305).
      { induction l as [|b l IH]; intros a Ha; [exact Ha|]. cbn [fold_left]. apply IH. unfold poly_step. apply Z.mod_pos_bound. reflexivity. }
      intros l. apply W. split; [lia|reflexivity]. }
    rewrite Q in T. exact T.
Qed.

(** ** Comparing tags *)
Lemma lxor_eq0 : forall a b, Z.lxor a b = 0 <-> a = b.
Proof. intros a b. split; [apply Z.lxor_eq|intros ->; apply Z.lxor_nilpotent]. Qed.
Lemma byte_lxor : forall a b : byte, 0 <= Z.lxor (bval a) (bval b) < 256.
Proof. intros a b. apply (lxor_bound 8); [lia|apply (b2z_byte a)|apply (b2z_byte b)]. Qed.
Lemma lor_small : forall a b, 0 <= a < 256 -> 0 <= b < 256 -> 0 <= Z.lor a b < 256.
Proof.
  intros a b Ha Hb. assert (E : Z.lor a b = Z.lor a b mod 2 ^ 8).
  { apply Z.bits_inj'. intros i Hi. destruct (Z.ltb_spec i 8) as [Q|Q]; [rewrite Z.mod_pow2_bits_low by lia; reflexivity|].
    rewrite Z.mod_pow2_bits_high by lia. rewrite Z.lor_spec.
    replace a with (a mod 2 ^ 8) by (apply Z.mod_small; lia). replace b with (b mod 2 ^ 8) by (apply Z.mod_small; lia).
    rewrite !Z.mod_pow2_bits_high by lia. reflexivity. }
  rewrite E. apply Z.mod_pos_bound. lia.
Qed.
Lemma firstn_S_nth : forall (l : bytes) n, (n < length l)%nat -> firstn (S n) l = firstn n l ++ [nth n l x00].
Proof.
  induction l as [|x l IH]; intros n H; [cbn in H; lia|]. destruct n; [reflexivity|].
  cbn [firstn nth app]. f_equal. apply IH. cbn in H. lia.
Qed.
Lemma vn_w : forall x y xb yb n, holds x xb -> holds y yb -> (n <= length xb)%nat -> (n <= length yb)%nat ->
  (pv (vn x y n) = 0 <-> firstn n xb = firstn n yb).
Proof.
  intros x y xb yb n Hx Hy Lx Ly. unfold vn. cbv zeta.
  match goal with |- context [for_range n ?ff ?s0] =>
    pose proof (for_range_inv _ (fun k d => 0 <= pv d < 256 /\ (pv d = 0 <-> firstn k xb = firstn k yb)) n ff s0) as P end.
  destruct P as [R E].
  - split; [cbn; lia|]. split; reflexivity.
  - intros k d Hk [R E].
    assert (EX : pv (pxor (geti x k) (geti y k)) = Z.lxor (bval (nth k xb x00)) (bval (nth k yb x00))).
    { rewrite (pxor_small _ _ (nth k xb x00) (nth k yb x00)) by (apply holds_geti; assumption || lia).
      change byte_of_z with z2b. rewrite b2z_z2b. apply Z.mod_small, byte_lxor. }
    pose proof (byte_lxor (nth k xb x00) (nth k yb x00)) as B.
    pose proof (lor_small _ _ R B) as B2.
    assert (EO : pv (por d (pxor (geti x k) (geti y k))) = Z.lor (pv d) (Z.lxor (bval (nth k xb x00)) (bval (nth k yb x00)))).
    { unfold por, typed. rewrite EX. apply mk_small. exact B2. }
    rewrite EO. split; [exact B2|]. rewrite Z.lor_eq_0_iff, lxor_eq0, E, !firstn_S_nth by lia.
    split.
    + intros [A C]. assert (C' : nth k xb x00 = nth k yb x00).
      { rewrite <- (z2b_b2z (nth k xb x00)), <- (z2b_b2z (nth k yb x00)). f_equal. exact C. }
      congruence.
    + intros A. apply app_inj_tail in A as [A C]. rewrite A, C. split; reflexivity.
  - match goal with |- context [for_range n ?ff ?s0] => remember (for_range n ff s0) as d eqn:Ed; clear Ed end.
    rewrite <- E. unfold psub at 2. rewrite typed_plain_r by reflexivity. cbn [plain pv].
    rewrite pshr_plain by lia. unfold pand. rewrite typed_plain_r by reflexivity. unfold psub. rewrite typed_plain_r by reflexivity. cbn [plain pv].
    change (2 ^ 8) with 256. destruct (Z.eq_dec (pv d) 0) as [Q|Q].
    + rewrite Q. split; reflexivity.
    + replace ((pv d - 1) / 256) with 0 by lia. cbn. split; intros; lia.
Qed.

(** ** Secretbox *)
Lemma xor_zeros : forall T n, length T = n -> xor_bytes (repeat x00 n) T = T.
Proof.
  induction T as [|y T IH]; intros n L; subst n; [reflexivity|]. cbn [length repeat]. unfold xor_bytes in *. cbn [combine map fst snd].
  rewrite IH by reflexivity. f_equal. change (bval x00) with 0. rewrite Z.lxor_0_l.
  change byte_of_z with z2b. change bval with b2z. apply z2b_b2z.
Qed.
Lemma poly1305_length : forall k m, length (poly1305 k m) = 16%nat.
Proof. intros k m. unfold poly1305. apply le_bytes_length. Qed.

(** The box made with a key stream [T] *)
Definition boxed (T m : bytes) : bytes :=
  let c := xor_bytes m (skipn 32 T) in poly1305 (firstn 32 T) c ++ c.
Lemma secretbox_boxed : forall k n m, secretbox k n m = boxed (xsalsa20_stream k n (32 + length m)) m.
Proof. reflexivity. Qed.
Lemma seal_w : forall t T mb, holds t (xor_bytes (repeat x00 32 ++ mb) T) -> length T = (32 + length mb)%nat ->
  holds (repeat (mk TU8 0) 16 ++ skipn 16 (firstn 16 t ++ crypto_onetimeauth (skipn 16 t) (skipn 32 t) (Z.of_nat (length mb)) t))
    (repeat x00 16 ++ boxed T mb).
Proof.
  intros t T mb H L.
  assert (EX : xor_bytes (repeat x00 32 ++ mb) T = firstn 32 T ++ xor_bytes mb (skipn 32 T)).
  { rewrite <- (firstn_skipn 32 T) at 1. rewrite xor_bytes_app by (rewrite repeat_length, firstn_length; lia).
    rewrite xor_zeros by (rewrite firstn_length; lia). reflexivity. }
  rewrite EX in H. clear EX.
  assert (LF : length (firstn 32 T) = 32%nat) by (rewrite firstn_length; lia).
  assert (LC : length (xor_bytes mb (skipn 32 T)) = length mb) by (rewrite xor_bytes_length, skipn_length; lia).
  pose proof (holds_length _ _ H) as Lt. rewrite app_length, LF, LC in Lt.
  destruct (onetimeauth_w (skipn 16 t) (skipn 32 t) (xor_bytes mb (skipn 32 T)) (length mb) t (firstn 32 T ++ xor_bytes mb (skipn 32 T))) as (u & E & U).
  - apply (holds_skipn 32) in H. rewrite skipn_app, LF in H. rewrite (skipn_all2 (firstn 32 T)) in H by lia. exact H.
  - lia.
  - exact H.
  - rewrite app_length. lia.
  - rewrite skipn_length. lia.
  - rewrite E. rewrite skipn_skipn. replace (16 + 16)%nat with 32%nat by lia.
    assert (LT : length (firstn 16 t) = 16%nat) by (rewrite firstn_length; lia).
    rewrite skipn_app, LT. rewrite (skipn_all2 (firstn 16 t)) by lia. cbn [app Nat.sub skipn].
    apply holds_app; [apply holds_zeros|]. unfold boxed. cbv zeta. apply holds_app.
    + rewrite (firstn_all2 (n := length mb)) in U by lia. rewrite firstn_app, LF in U. rewrite (firstn_all2 (firstn 32 T)) in U by lia.
      cbn [Nat.sub firstn] in U. rewrite app_nil_r in U. exact U.
    + apply (holds_skipn 32) in H. rewrite skipn_app, LF in H. rewrite (skipn_all2 (firstn 32 T)) in H by lia. exact H.
Qed.

Lemma secretbox_keystream : forall c m mb n nb k kb, holds m (repeat x00 32 ++ mb) -> holds n nb -> length nb = 24%nat -> holds k kb -> length kb = 32%nat ->
  length c = (32 + length mb)%nat -> (32 + length mb <= 64 * 258)%nat ->
  exists c', crypto_secretbox c m (Z.of_nat (32 + length mb)) n k = (0, c') /\
    holds c' (repeat x00 16 ++ boxed (keystream (hsalsa20 kb (firstn 16 nb)) (skipn 16 nb) 0 (32 + length mb)) mb).
Proof.
  intros c m mb n nb k kb Hm Hn Ln Hk Lk Lc HX. unfold crypto_secretbox.
  replace (Z.of_nat (32 + length mb) <? 32) with false by lia.
  assert (M : msg m (repeat x00 32 ++ mb)).
  { left. split; [|exact Hm]. intros ->. apply holds_length in Hm. discriminate. }
  assert (LM : length (repeat x00 32 ++ mb) = (32 + length mb)%nat) by (rewrite app_length, repeat_length; reflexivity).
  destruct (xsalsa_xor_w c m (repeat x00 32 ++ mb) n nb k kb (32 + length mb) M Hn Ln Hk Lk ltac:(lia) ltac:(lia) HX) as (t & E & H).
  rewrite E. rewrite (skipn_all2 c) by lia. rewrite app_nil_r. rewrite firstn_all2 in H by lia.
  replace (Z.of_nat (32 + length mb) - 32) with (Z.of_nat (length mb)) by lia. cbv zeta. eexists. split; [reflexivity|].
  apply seal_w; [exact H|]. apply keystream_length.
Qed.
Lemma secretbox_open_w : forall m c cb n nb k kb, holds c (repeat x00 16 ++ cb) -> holds n nb -> length nb = 24%nat -> holds k kb -> length kb = 32%nat ->
  crypto_secretbox_open m c (Z.of_nat (16 + length cb)) n k =
    if (16 <=? length cb)%nat && (if list_eq_dec Byte.byte_eq_dec (firstn 16 cb) (poly1305 (xsalsa20_stream kb nb 32) (skipn 16 cb)) then true else false)
    then (0, repeat (mk TU8 0) 32) else (-1, m).
Proof.
  intros m c cb n nb k kb Hc Hn Ln Hk Lk. unfold crypto_secretbox_open. destruct (Nat.leb_spec 16 (length cb)) as [Q|Q].
  2:{ replace (Z.of_nat (16 + length cb) <? 32) with true by lia. reflexivity. }
  replace (Z.of_nat (16 + length cb) <? 32) with false by lia. cbn [andb].
  destruct (xsalsa_xor_spec (int_array TU8 32) [] (repeat x00 32) n nb k kb 32) as (x & E & X);
    try assumption; [right; split; [reflexivity|rewrite repeat_length; reflexivity]|rewrite repeat_length; lia|
     unfold int_array; rewrite repeat_length; lia|lia|].
  unfold crypto_stream_xsalsa20, crypto_stream_salsa20. unfold crypto_stream_xsalsa20_xor in E. cbv zeta in E |- *.
  change (Z.of_nat 32) with 32 in E. rewrite E. rewrite (skipn_all2 (int_array TU8 32)) by (unfold int_array; rewrite repeat_length; lia). rewrite app_nil_r. clear E.
  assert (LS : length (xsalsa20_stream kb nb 32) = 32%nat) by (unfold xsalsa20_stream; apply stream_length).
  rewrite firstn_all2 in X by (rewrite repeat_length; lia). rewrite (xor_zeros _ 32) in X by exact LS.
  assert (S16 : skipn 16 (repeat x00 16 ++ cb) = cb) by reflexivity.
  assert (S32 : skipn 32 (repeat x00 16 ++ cb) = skipn 16 cb) by reflexivity.
  pose proof (holds_skipn 16 _ _ Hc) as H16. rewrite S16 in H16. pose proof (holds_skipn 32 _ _ Hc) as H32. rewrite S32 in H32.
  unfold crypto_onetimeauth_verify, crypto_verify_16.
  replace (Z.of_nat (16 + length cb) - 32) with (Z.of_nat (length cb - 16)) by lia.
  destruct (onetimeauth_w (int_array TU8 16) (skipn 32 c) (skipn 16 cb) (length cb - 16) x (xsalsa20_stream kb nb 32) H32) as (u & E & U);
    [rewrite skipn_length; lia|exact X|lia|unfold int_array; rewrite repeat_length; lia|].
  rewrite E. rewrite (skipn_all2 (int_array TU8 16)) by (unfold int_array; rewrite repeat_length; lia). rewrite app_nil_r.
  rewrite (firstn_all2 (xsalsa20_stream kb nb 32)) in U by lia. rewrite (firstn_all2 (skipn 16 cb)) in U by (rewrite skipn_length; lia).
  pose proof (vn_w (skipn 16 c) u cb _ 16 H16 U Q ltac:(rewrite poly1305_length; lia)) as V.
  rewrite (firstn_all2 (poly1305 _ _)) in V by (rewrite poly1305_length; lia).
  destruct (list_eq_dec _ _ _) as [e|e].
  - apply V in e. rewrite e. reflexivity.
  - destruct (Z.eqb_spec (pv (vn (skipn 16 c) u 16)) 0) as [z|z]; [apply V in z; contradiction|reflexivity].
Qed.
