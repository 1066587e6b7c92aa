(** Properties C70-C74: message authentication and boxes of the pure Python port. *)
From Coq Require Import List ZArith Bool Strings.Byte Lia ZifyBool ZifyNat ZifyN.
From Verif Require Import PyBase PyBase_proofs PyInt PyInt_proofs ShaSpec TwHash_proofs SalsaSpec TwSalsa TwSalsa_proofs Radix_proofs PolySpec TwPoly TwPoly_proofs TwBox_proofs TwPure Props_Pure.
Import ListNotations.
Open Scope Z_scope.
Ltac Zify.zify_post_hook ::= Z.div_mod_to_equations.

(** * C70 Poly1305 *)
Lemma onetimeauth_bytes_spec : forall m k, length k = 32%nat -> onetimeauth_bytes m k = poly1305 k m.
Proof.
  intros m k Hk. unfold onetimeauth_bytes. apply holds_to_bytes.
  destruct (onetimeauth_w (int_array TU8 16) (of_bytes m) m (length m) (of_bytes k) k (holds_of_bytes m) ltac:(lia) (holds_of_bytes k) ltac:(lia)
    ltac:(unfold int_array; rewrite repeat_length; lia)) as (t & E & H).
  rewrite E. rewrite skipn_all2 by (unfold int_array; rewrite repeat_length; lia). rewrite app_nil_r.
  rewrite firstn_all in H. rewrite firstn_all2 in H by lia. exact H.
Qed.
(** The code computes the tag of RFC 8439 for messages of every length, and the check
    accepts that tag and no other. *)
Theorem C70_poly1305 : forall m k, length k = 32%nat ->
  onetimeauth_bytes m k = poly1305 k m /\
  forall h, length h = 16%nat -> (onetimeauth_verify_bytes h m k = 0 <-> h = poly1305 k m).
Proof.
  intros m k Hk. split; [apply onetimeauth_bytes_spec, Hk|]. intros h Hh.
  unfold onetimeauth_verify_bytes, crypto_onetimeauth_verify, crypto_verify_16.
  destruct (onetimeauth_w (int_array TU8 16) (of_bytes m) m (length m) (of_bytes k) k (holds_of_bytes m) ltac:(lia) (holds_of_bytes k) ltac:(lia)
    ltac:(unfold int_array; rewrite repeat_length; lia)) as (t & E & H).
  rewrite E. rewrite skipn_all2 by (unfold int_array; rewrite repeat_length; lia). rewrite app_nil_r.
  rewrite firstn_all in H. rewrite (firstn_all2 k) in H by lia.
  pose proof (vn_w (of_bytes h) t h _ 16 (holds_of_bytes h) H ltac:(lia) ltac:(rewrite poly1305_length; lia)) as V.
  rewrite !firstn_all2 in V by (rewrite ?poly1305_length; lia). exact V.
Qed.
Print Assumptions C70_poly1305.
(** RFC 8439, section 2.5.2 *)
Definition rfc_key : bytes := map z2b
  [0x85; 0xd6; 0xbe; 0x78; 0x57; 0x55; 0x6d; 0x33; 0x7f; 0x44; 0x52; 0xfe; 0x42; 0xd5; 0x06; 0xa8;
   0x01; 0x03; 0x80; 0x8a; 0xfb; 0x0d; 0xb2; 0xfd; 0x4a; 0xbf; 0xf6; 0xaf; 0x41; 0x49; 0xf5; 0x1b].
Definition rfc_msg : bytes := map z2b
  [67; 114; 121; 112; 116; 111; 103; 114; 97; 112; 104; 105; 99; 32; 70; 111; 114; 117; 109; 32;
   82; 101; 115; 101; 97; 114; 99; 104; 32; 71; 114; 111; 117; 112].
Definition rfc_tag : bytes := map z2b
  [0xa8; 0x06; 0x1d; 0xc1; 0x30; 0x51; 0x36; 0xc6; 0xc2; 0x2b; 0x8b; 0xaf; 0x0c; 0x01; 0x27; 0xa9].
Example C70_example : onetimeauth_bytes rfc_msg rfc_key = rfc_tag /\ onetimeauth_verify_bytes rfc_tag rfc_msg rfc_key = 0 /\
  onetimeauth_verify_bytes (repeat x00 16) rfc_msg rfc_key <> 0.
Proof.
  destruct (C70_poly1305 rfc_msg rfc_key eq_refl) as [E V]. rewrite E.
  assert (T : poly1305 rfc_key rfc_msg = rfc_tag) by (vm_compute; reflexivity). rewrite T in *.
  split; [reflexivity|]. split; [apply V; reflexivity|]. rewrite (V (repeat x00 16) eq_refl). vm_compute. discriminate.
Qed.

(** * C71 Sealing a box *)
Lemma box_afternm_keystream : forall m n k, length n = 24%nat -> length k = 32%nat -> (32 + length m <= 64 * 258)%nat ->
  pure_box_afternm m n k = boxed (keystream (hsalsa20 k (firstn 16 n)) (skipn 16 n) 0 (32 + length m)) m.
Proof.
  intros m n k Hn Hk HX. unfold pure_box_afternm. cbv zeta.
  assert (LP : length (repeat x00 32 ++ m) = (32 + length m)%nat) by (rewrite app_length, repeat_length; reflexivity).
  rewrite LP.
  destruct (secretbox_keystream (int_array TU8 (32 + length m)) (of_bytes (repeat x00 32 ++ m)) m (of_bytes n) n (of_bytes k) k) as (c' & E & H);
    try assumption; try apply holds_of_bytes; [unfold int_array; apply repeat_length|].
  rewrite E. rewrite (holds_to_bytes _ _ H). reflexivity.
Qed.
(** Messages of up to 16416 bytes give NaCl's box. *)
Theorem C71_box_partial : forall m n k, length n = 24%nat -> length k = 32%nat -> (32 + length m <= 64 * 257)%nat ->
  pure_box_afternm m n k = secretbox k n m.
Proof.
  intros m n k Hn Hk HX. rewrite box_afternm_keystream by (assumption || lia). rewrite keystream_spec by exact HX. reflexivity.
Qed.
Print Assumptions C71_box_partial.
Lemma app_same_length : forall a b c d : bytes, a ++ c = b ++ d -> length a = length b -> c = d.
Proof.
  induction a as [|x a IH]; intros b c d E L; destruct b as [|y b]; try discriminate; [exact E|].
  injection E as _ E. apply (IH b); [exact E|]. injection L as L. exact L.
Qed.
Lemma refuted_box : forall l, (32 + l)%nat = (64 * 257)%nat -> forall m k nn, m = repeat x00 (S l) -> length nn = 24%nat -> length k = 32%nat ->
  nth 0 (salsa20_block (hsalsa20 k (firstn 16 nn)) (skipn 16 nn) 769) x00 <>
  nth 0 (salsa20_block (hsalsa20 k (firstn 16 nn)) (skipn 16 nn) 257) x00 ->
  pure_box_afternm m nn k <> secretbox k nn m.
Proof.
  intros l Hl m k nn Hm Ln Lk F E. assert (LM : length m = S l) by (rewrite Hm; apply repeat_length).
  rewrite box_afternm_keystream in E by (assumption || lia). rewrite secretbox_boxed in E. unfold boxed in E. cbv zeta in E.
  apply app_same_length in E; [|rewrite !poly1305_length; reflexivity].
  apply (f_equal (fun c => nth l c x00)) in E.
  assert (L1 : (l < length (skipn 32 (keystream (hsalsa20 k (firstn 16 nn)) (skipn 16 nn) 0 (32 + length m))))%nat)
    by (rewrite skipn_length, keystream_length; lia).
  assert (L2 : (l < length (skipn 32 (xsalsa20_stream k nn (32 + length m))))%nat)
    by (unfold xsalsa20_stream; rewrite skipn_length, stream_length; lia).
  assert (L0 : (l < length m)%nat) by lia.
  rewrite (nth_xor_bytes _ _ _ L0 L1), (nth_xor_bytes _ _ _ L0 L2) in E.
  rewrite !nth_skipn' in E. unfold xsalsa20_stream in E.
  replace (32 + l)%nat with (64 * 257 + 0)%nat in E by lia.
  rewrite stream_nth, keystream_nth in E by lia. rewrite code_block_257 in E.
  rewrite Hm, nth_repeat0 in E. apply xor_zero_inj in E. exact (F E).
Qed.
Theorem C71_box_refuted : exists m n k, length n = 24%nat /\ length k = 32%nat /\ length m = S (64 * 257 - 32) /\
  pure_box_afternm m n k <> secretbox k n m.
Proof.
  exists (repeat x00 (S (64 * 257 - 32))), (repeat x00 24), (repeat x00 32).
  split; [apply repeat_length|]. split; [apply repeat_length|]. split; [apply repeat_length|].
  eapply refuted_box; [|reflexivity|apply repeat_length|apply repeat_length|exact zero_blocks_differ]. lia.
Qed.
Print Assumptions C71_box_refuted.
Definition box_n : bytes := bytes_from 1 24.
Definition box_k : bytes := bytes_from 50 32.
Definition hi : bytes := map z2b [104; 105].
Example C71_example : length (pure_box_afternm hi box_n box_k) = 18%nat /\ skipn 16 (pure_box_afternm hi box_n box_k) <> hi.
Proof.
  rewrite C71_box_partial by first [reflexivity|apply Nat.leb_le; reflexivity]. split; [vm_compute; reflexivity|].
  vm_compute. discriminate.
Qed.

(** * C72 Which boxes are accepted *)
Definition tag_ok (c n k : bytes) : Prop :=
  (16 <= length c)%nat /\ firstn 16 c = poly1305 (xsalsa20_stream k n 32) (skipn 16 c).
Lemma open_cases : forall c n k, length n = 24%nat -> length k = 32%nat ->
  (tag_ok c n k /\ pure_box_open_afternm c n k = Ok []) \/ (~ tag_ok c n k /\ pure_box_open_afternm c n k = Err NameError).
Proof.
  intros c n k Hn Hk. unfold pure_box_open_afternm, tag_ok. cbv zeta.
  assert (LP : length (repeat x00 16 ++ c) = (16 + length c)%nat) by (rewrite app_length, repeat_length; reflexivity).
  rewrite LP. rewrite (secretbox_open_w _ _ c _ n _ k) by (assumption || apply holds_of_bytes).
  destruct (Nat.leb_spec 16 (length c)) as [Q|Q]; cbn [andb].
  - destruct (list_eq_dec _ _ _) as [e|e]; [left|right]; (split; [intuition|reflexivity]).
  - right. split; [intros [? _]; lia|reflexivity].
Qed.
(** A box of any length is accepted exactly if it starts with the Poly1305 tag of the rest
    under the first 32 bytes of the stream. *)
Theorem C72_open_accepts : forall c n k, length n = 24%nat -> length k = 32%nat ->
  ((exists m, pure_box_open_afternm c n k = Ok m) <-> tag_ok c n k).
Proof.
  intros c n k Hn Hk. destruct (open_cases c n k Hn Hk) as [[T E]|[T E]]; rewrite E; split; intros H; try assumption.
  - eexists. reflexivity.
  - destruct H as [m H]. discriminate.
  - contradiction.
Qed.
Print Assumptions C72_open_accepts.
Lemma sealed_tag_ok : forall m n k, length n = 24%nat -> length k = 32%nat -> (32 + length m <= 64 * 257)%nat ->
  tag_ok (pure_box_afternm m n k) n k.
Proof.
  intros m n k Hn Hk HX. rewrite C71_box_partial by assumption. unfold secretbox, tag_ok. cbv zeta.
  assert (F : firstn 32 (xsalsa20_stream k n (32 + length m)) = xsalsa20_stream k n 32).
  { unfold xsalsa20_stream, salsa20_stream. rewrite firstn_firstn, Nat.min_l by lia.
    generalize (hsalsa20 k (firstn 16 n)) (skipn 16 n). intros a b.
    replace ((32 + length m) / 64 + 1)%nat with (1 + (32 + length m) / 64)%nat by lia. rewrite seq_app, map_app, concat_app.
    change (32 / 64 + 1)%nat with 1%nat. rewrite firstn_app.
    assert (L : length (concat (map (salsa20_block a b) (seq 0 1))) = 64%nat).
    { cbn [seq map concat]. rewrite app_nil_r. unfold salsa20_block. apply salsa20_length. }
    rewrite L. change (32 - 64)%nat with 0%nat. rewrite firstn_O, app_nil_r. reflexivity. }
  rewrite F. rewrite app_length, poly1305_length. split; [lia|].
  remember (poly1305 (xsalsa20_stream k n 32)) as P eqn:EP.
  remember (xor_bytes m (skipn 32 (xsalsa20_stream k n (32 + length m)))) as c eqn:Ec.
  assert (LP : length (P c) = 16%nat) by (rewrite EP; apply poly1305_length).
  clear - LP. rewrite firstn_app, skipn_app, LP, (firstn_all2 (P c)), (skipn_all2 (P c)) by lia.
  change (16 - 16)%nat with 0%nat. rewrite firstn_O, app_nil_r. reflexivity.
Qed.
Example C72_example : (exists m, pure_box_open_afternm (pure_box_afternm hi box_n box_k) box_n box_k = Ok m) /\
  forall m, pure_box_open_afternm (x00 :: x00 :: skipn 2 (pure_box_afternm hi box_n box_k)) box_n box_k <> Ok m.
Proof.
  split; [apply C72_open_accepts; [reflexivity|reflexivity|apply sealed_tag_ok; first [reflexivity|apply Nat.leb_le; reflexivity]]|].
  rewrite C71_box_partial by first [reflexivity|apply Nat.leb_le; reflexivity]. intros m E.
  assert (T : tag_ok (x00 :: x00 :: skipn 2 (secretbox box_k box_n hi)) box_n box_k) by (apply C72_open_accepts; [reflexivity|reflexivity|eauto]).
  destruct T as [_ T]. revert T.
  assert (N : firstn 16 (x00 :: x00 :: skipn 2 (secretbox box_k box_n hi)) <>
    poly1305 (xsalsa20_stream box_k box_n 32) (skipn 16 (x00 :: x00 :: skipn 2 (secretbox box_k box_n hi)))) by (vm_compute; discriminate).
  exact N.
Qed.

(** * C73 Opening what was sealed *)
(** The text is lost: opening returns the empty message whatever was sealed. *)
Theorem C73_open_empty : forall c n k m, length n = 24%nat -> length k = 32%nat ->
  pure_box_open_afternm c n k = Ok m -> m = [].
Proof.
  intros c n k m Hn Hk E. destruct (open_cases c n k Hn Hk) as [[_ F]|[_ F]]; congruence.
Qed.
Print Assumptions C73_open_empty.
Theorem C73_roundtrip_partial : forall n k, length n = 24%nat -> length k = 32%nat ->
  pure_box_open_afternm (pure_box_afternm [] n k) n k = Ok [].
Proof.
  intros n k Hn Hk. pose proof (sealed_tag_ok [] n k Hn Hk ltac:(cbn [length]; lia)) as T.
  apply C72_open_accepts in T; try assumption. destruct T as [m E]. rewrite E. f_equal. exact (C73_open_empty _ n k m Hn Hk E).
Qed.
Print Assumptions C73_roundtrip_partial.
Theorem C73_roundtrip_refuted : forall m n k, m <> [] -> length n = 24%nat -> length k = 32%nat ->
  pure_box_open_afternm (pure_box_afternm m n k) n k <> Ok m.
Proof. intros m n k Hm Hn Hk E. apply Hm. exact (C73_open_empty _ n k m Hn Hk E). Qed.
Print Assumptions C73_roundtrip_refuted.
Example C73_example : pure_box_open_afternm (pure_box_afternm hi box_n box_k) box_n box_k = Ok [].
Proof.
  destruct (proj1 C72_example) as [m E]. rewrite E. f_equal. apply (C73_open_empty _ box_n box_k m eq_refl eq_refl E).
Qed.

(** * C74 How a forged box is reported *)
Theorem C74_forged_box_refuted : forall c n k, length n = 24%nat -> length k = 32%nat -> ~ tag_ok c n k ->
  pure_box_open_afternm c n k = Err NameError /\ pure_box_open_afternm c n k <> Err BadEncryptedDataException.
Proof.
  intros c n k Hn Hk T. destruct (open_cases c n k Hn Hk) as [[F _]|[_ E]]; [contradiction|]. rewrite E. split; [reflexivity|discriminate].
Qed.
Print Assumptions C74_forged_box_refuted.
Example C74_example : pure_box_open_afternm (repeat x00 15) box_n box_k = Err NameError.
Proof. apply C74_forged_box_refuted; [reflexivity|reflexivity|]. intros [H _]. cbn in H. lia. Qed.
