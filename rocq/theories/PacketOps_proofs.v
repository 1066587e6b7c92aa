(** Lemmas about arbitrary use of packet objects. *)
From Coq Require Import List ZArith Bool Strings.Byte Lia ZifyBool ZifyNat ZifyN.
From Verif Require Import PyBase PyBase_proofs Packets Packets_proofs PacketOps Spec.
Import ListNotations.
Open Scope Z_scope.

Lemma fput_len : forall off v buf, (off + length v <= length buf)%nat ->
  length (fput off v buf) = length buf.
Proof. intros. apply fput_length; auto. Qed.

Lemma fput_int_len : forall off n z buf, (off + n <= length buf)%nat ->
  length (fput_int off n z buf) = length buf.
Proof. intros. unfold fput_int. apply fput_len. rewrite le_enc_length. auto. Qed.

Lemma fput_bit_len : forall off i v buf, (off + 1 <= length buf)%nat ->
  length (fput_bit off i v buf) = length buf.
Proof. intros. unfold fput_bit. apply fput_int_len. auto. Qed.

Lemma fset_array_len : forall off n v buf d, (off + n <= length buf)%nat ->
  fset_array off n v buf = Ok d -> length d = length buf.
Proof.
  intros off n v buf d H E. unfold fset_array in E.
  destruct (Nat.eqb_spec (length v) n) as [Hv|]; [|discriminate].
  injection E as <-. apply fput_len. rewrite Hv. auto.
Qed.

Lemma fset_array_wrong : forall off n v buf, length v <> n -> fset_array off n v buf = Err TypeError.
Proof. intros. unfold fset_array. destruct (Nat.eqb_spec (length v) n); [contradiction|reflexivity]. Qed.

Lemma fset_array_right : forall off n v buf, length v = n -> (off + n <= length buf)%nat ->
  exists d, fset_array off n v buf = Ok d /\ length d = length buf /\ fget off n d = v /\
    (forall i k, (i + k <= off \/ off + n <= i)%nat -> fget i k d = fget i k buf).
Proof.
  intros off n v buf Hv H. unfold fset_array. rewrite Hv, Nat.eqb_refl.
  eexists. split; [reflexivity|]. split; [apply fput_len; lia|].
  unfold fput. rewrite Hv.
  assert (HF : length (firstn off buf) = off) by (rewrite firstn_length; lia).
  split.
  - apply fget_app; auto.
  - intros i k [HI|HI].
    + rewrite <- (firstn_skipn off buf) at 3.
      rewrite (fget_prefix i k) by lia. rewrite (fget_prefix i k) by lia. reflexivity.
    + unfold fget, slice. f_equal.
      replace i with ((i - (off + n)) + (off + n))%nat by lia.
      set (j := (i - (off + n))%nat). rewrite <- (skipn_skipn _ j (off + n) buf).
      rewrite <- (skipn_skipn _ j (off + n)). f_equal.
      rewrite app_assoc. apply skipn_app_exact. rewrite app_length. lia.
Qed.

(** ** Fixed lengths *)
Definition m1_inv (p : m1pkt) : Prop :=
  length (m1_data p) = 42%nat /\
  match m1_opt p with None => True | Some b => length b = 0%nat \/ length b = 32%nat end.

Lemma m1_apply_inv : forall p o, m1_inv p -> m1_inv (m1_apply p o).
Proof.
  intros p o [H1 H2]. destruct o; cbn [m1_apply].
  - split; cbn [m1_set_flag m1_data m1_opt]; auto. rewrite fput_bit_len; lia.
  - split; cbn [m1_create_opt_fields m1_data m1_opt]; auto. unfold m1_opt_factory.
    rewrite zeros_length. destruct (fget_bit _ _ _); auto.
  - split; cbn [m1_set_time m1_data m1_opt]; auto. rewrite fput_int_len; lia.
  - unfold m1_set_client_enc_key. destruct (fset_array 10 32 k (m1_data p)) eqn:E; cbn [keep]; [|split; auto].
    apply fset_array_len in E; [|lia]. split; cbn [m1_data m1_opt]; auto. lia.
  - unfold m1_set_server_sig_key. destruct (m1_flag p); cbn [keep]; [|split; auto].
    destruct (m1_opt p) as [b|] eqn:EO; cbn [keep].
    + destruct (Nat.eqb_spec (length k) (length b)) as [HE|HE]; cbn [keep].
      * split; cbn [m1_data m1_opt]; auto. rewrite HE. auto.
      * split; auto. rewrite EO. auto.
    + split; cbn [m1_data m1_opt]; auto.
  - unfold m1_from_bytes. cbn [fst]. split; cbn [m1_data m1_opt].
    + rewrite struct_from_bytes_length. auto.
    + unfold m1_opt_factory. rewrite struct_from_bytes_length, zeros_length.
      destruct (fget_bit _ _ _); auto.
Qed.

Lemma m1_use_inv : forall l, m1_inv (m1_use l).
Proof.
  intro l. unfold m1_use.
  assert (H0 : m1_inv m1_new) by (split; [reflexivity|exact I]).
  revert H0. generalize m1_new. induction l as [|o l IH]; intros p H; cbn [fold_left]; auto.
  apply IH, m1_apply_inv, H.
Qed.

Lemma m1_use_length : forall l, length (m1_bytes (m1_use l)) = 42%nat \/ length (m1_bytes (m1_use l)) = 74%nat.
Proof.
  intro l. destruct (m1_use_inv l) as [H1 H2]. unfold m1_bytes. rewrite app_length, H1.
  destruct (m1_opt (m1_use l)) as [b|]; cbn [opt_bytes length]; [|auto]. lia.
Qed.

Lemma m2_apply_len : forall d o, length d = 38%nat -> length (m2_apply d o) = 38%nat.
Proof.
  intros d o H. destruct o; cbn [m2_apply].
  - unfold m2_set_no_such_server. rewrite fput_bit_len; lia.
  - unfold m2_set_last_flag. rewrite fput_bit_len; lia.
  - unfold m2_set_time. rewrite fput_int_len; lia.
  - unfold m2_set_server_enc_key. destruct (fset_array 6 32 k d) eqn:E; cbn [keep]; auto.
    apply fset_array_len in E; lia.
  - unfold m2_from_bytes, fixed_from_bytes. cbn [fst]. rewrite struct_from_bytes_length. auto.
  - unfold m2_bytes. destruct (m2_no_such_server d); auto. unfold m2_set_last_flag. rewrite fput_bit_len; lia.
Qed.

Lemma m2_use_raw_length : forall l, length (m2_use l) = 38%nat.
Proof.
  intro l. unfold m2_use. assert (H0 : length m2_new = 38%nat) by reflexivity.
  revert H0. generalize m2_new. induction l as [|o l IH]; intros p H; cbn [fold_left]; auto.
  apply IH, m2_apply_len, H.
Qed.

Lemma m2_use_length : forall l, length (m2_bytes (m2_use l)) = 38%nat.
Proof.
  intro l. pose proof (m2_use_raw_length l) as HL.
  unfold m2_bytes. destruct (m2_no_such_server (m2_use l)); auto.
  unfold m2_set_last_flag. rewrite fput_bit_len; lia.
Qed.

Lemma m34_apply_len : forall ty d o, length d = 102%nat -> length (m34_apply ty d o) = 102%nat.
Proof.
  intros ty d o H. destruct o; cbn [m34_apply].
  - unfold m34_set_time. rewrite fput_int_len; lia.
  - unfold m34_set_sig_key. destruct (fset_array 6 32 k d) eqn:E; cbn [keep]; auto.
    apply fset_array_len in E; lia.
  - unfold m34_set_signature. destruct (fset_array 38 64 s d) eqn:E; cbn [keep]; auto.
    apply fset_array_len in E; lia.
  - unfold fixed_from_bytes. cbn [fst]. rewrite struct_from_bytes_length. auto.
Qed.

Lemma m34_fold_length : forall ty l d, length d = 102%nat -> length (fold_left (m34_apply ty) l d) = 102%nat.
Proof.
  intros ty l. induction l as [|o l IH]; intros d H; cbn [fold_left]; auto.
  apply IH, m34_apply_len, H.
Qed.

(** ** Reuse of a packet object *)
Lemma struct_reuse : forall a b src, length a = length b -> (length a <= length src)%nat ->
  (0 < length a)%nat -> struct_from_bytes a src = struct_from_bytes b src.
Proof. intros. rewrite !struct_from_bytes_full by lia. congruence. Qed.

Lemma m1_reuse : forall l src, (42 <= length src)%nat ->
  m1_from_bytes (m1_use l) src = m1_from_bytes m1_new src.
Proof.
  intros l src H. destruct (m1_use_inv l) as [H1 _]. unfold m1_from_bytes.
  rewrite (struct_reuse (m1_data (m1_use l)) (m1_data m1_new)); auto; rewrite H1; cbn; lia.
Qed.

Lemma fixed_reuse : forall ty d d' src, length d = length d' -> (0 < length d)%nat ->
  (length d <= length src)%nat -> fixed_from_bytes ty d src = fixed_from_bytes ty d' src.
Proof. intros. unfold fixed_from_bytes. rewrite (struct_reuse d d'); auto. Qed.

Lemma ep_reuse : forall p src, length (p_data p) = 2%nat -> (2 <= length src)%nat ->
  ep_from_bytes p src = ep_from_bytes ep_new src.
Proof.
  intros p src H1 H2. unfold ep_from_bytes.
  rewrite (struct_reuse (p_data p) (p_data ep_new)) by (rewrite H1; cbn; lia).
  assert (zlen src - 2 <? 0 = false) as -> by (unfold zlen; lia). reflexivity.
Qed.

Lemma app_reuse : forall p src v, length (p_data p) = 6%nat -> (6 <= length src)%nat ->
  app_from_bytes p src v = app_from_bytes app_new src v.
Proof.
  intros p src v H1 H2. unfold app_from_bytes.
  rewrite (struct_reuse (p_data p) (p_data app_new)) by (rewrite H1; cbn; lia).
  assert (zlen src - 6 <? 0 = false) as -> by (unfold zlen; lia). reflexivity.
Qed.

Lemma multi_reuse : forall p src v, length (mp_data p) = 8%nat -> (8 <= length src)%nat ->
  multi_from_bytes p src v = multi_from_bytes multi_new src v.
Proof.
  intros p src v H1 H2. unfold multi_from_bytes.
  rewrite (struct_reuse (mp_data p) (mp_data multi_new)) by (rewrite H1; cbn; lia). reflexivity.
Qed.

Lemma a1_reuse : forall p src, length (p_data p) = 5%nat -> (5 <= length src)%nat ->
  a1_from_bytes p src = a1_from_bytes a1_new src.
Proof.
  intros p src H1 H2. unfold a1_from_bytes.
  rewrite (struct_reuse (p_data p) (p_data a1_new)) by (rewrite H1; cbn; lia).
  assert (zlen src - 5 <? 0 = false) as -> by (unfold zlen; lia). reflexivity.
Qed.

Lemma a2_reuse : forall uw p src, length (p_data p) = 3%nat -> (3 <= length src)%nat ->
  a2_from_bytes uw p src = a2_from_bytes uw a2_new src.
Proof.
  intros uw p src H1 H2. unfold a2_from_bytes.
  rewrite (struct_reuse (p_data p) (p_data a2_new)) by (rewrite H1; cbn; lia).
  assert ((zlen src - 3) / 20 <? 0 = false) as ->.
  { apply Z.ltb_ge, Z.div_pos; unfold zlen; lia. }
  reflexivity.
Qed.

(** ** ServerSigKey *)
Lemma server_key_shadow : forall t ck k, length ck = 32%nat ->
  exists p1 p2, m1_set_client_enc_key ck (m1_set_time t (m1_set_flag true m1_new)) = Ok p1 /\
    m1_set_server_sig_key k p1 = Ok p2 /\
    m1_server_sig_key p2 = Ok k /\ m1_bytes p2 = M1_wire t ck (Some []).
Proof.
  intros t ck k Hck.
  unfold m1_set_client_enc_key, fset_array. rewrite Hck. cbn [Nat.eqb].
  eexists. eexists. split; [reflexivity|].
  unfold fput. rewrite Hck. unfold m1_set_time, fput_int. rewrite le_enc_u32.
  cbv [m1_set_flag m1_new m1_data m1_opt m1_shadow].
  set (d := fput_bit 5 0 true _). vm_compute in d. subst d.
  unfold fput. rewrite u32le_length. cbn [firstn skipn Nat.add app u32le].
  unfold m1_set_server_sig_key, m1_flag. cbn [m1_data m1_opt m1_shadow].
  unfold fget_bit, fget_int, fget, slice. cbn [skipn firstn le_dec app].
  change (Z.testbit (b2z x01 + 256 * 0) 0) with true. cbv iota.
  split; [reflexivity|]. split; [reflexivity|].
  unfold m1_bytes, M1_wire. cbn [m1_data m1_opt opt_bytes u32le app indicator]. rewrite !app_nil_r. reflexivity.
Qed.
