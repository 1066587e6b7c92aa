(** Lemmas about [Packets]. *)
From Coq Require Import List ZArith Bool Strings.Byte Lia ZifyBool ZifyNat ZifyN.
From Verif Require Import PyBase PyBase_proofs Packets Spec.
Import ListNotations.
Open Scope Z_scope.
Ltac Zify.zify_post_hook ::= Z.div_mod_to_equations.

(** ** Spec/model integer encodings agree *)

Lemma byte_of_z2b : forall z, byte_of z = z2b z.
Proof. reflexivity. Qed.

Lemma val_b2z : forall b, val b = b2z b.
Proof. reflexivity. Qed.

Lemma le_enc_u16 : forall z, le_enc 2 z = u16le z.
Proof. reflexivity. Qed.

Lemma le_enc_u32 : forall z, le_enc 4 z = u32le z.
Proof.
  intro z. unfold u32le. cbn [le_enc]. change byte_of with z2b.
  rewrite !Z.div_div by lia. try reflexivity.
Qed.

Lemma le_enc_u64 : forall z, le_enc 8 z = u64le z.
Proof.
  intro z. unfold u64le. cbn [le_enc]. change byte_of with z2b.
  rewrite !Z.div_div by lia. try reflexivity.
Qed.

Lemma le_val_le_dec : forall b, le_val b = le_dec b.
Proof. induction b as [|x b IH]; cbn [le_val le_dec]; [reflexivity|]. rewrite IH. reflexivity. Qed.

Lemma u32le_length : forall z, length (u32le z) = 4%nat.
Proof. reflexivity. Qed.
Lemma u16le_length : forall z, length (u16le z) = 2%nat.
Proof. reflexivity. Qed.

Lemma le_dec_u32 : forall z, le_dec (u32le z) = z mod 2 ^ 32.
Proof. intro. rewrite <- le_enc_u32, le_dec_enc. reflexivity. Qed.
Lemma le_dec_u16 : forall z, le_dec (u16le z) = z mod 2 ^ 16.
Proof. intro. rewrite <- le_enc_u16, le_dec_enc. reflexivity. Qed.

(** ** Slices of concatenations *)

Lemma fget_app : forall off n (a b c : bytes), length a = off -> length b = n ->
  fget off n (a ++ b ++ c) = b.
Proof.
  intros off n a b c Ha Hb. unfold fget, slice.
  rewrite skipn_app_exact by auto. apply firstn_app_exact; auto.
Qed.

Lemma fget_app_end : forall off n (a b : bytes), length a = off -> length b = n ->
  fget off n (a ++ b) = b.
Proof.
  intros off n a b Ha Hb. rewrite <- (app_nil_r b) at 1. apply fget_app; auto.
Qed.

Lemma fget_firstn : forall off n k (b : bytes), (off + n <= k)%nat ->
  fget off n (firstn k b) = fget off n b.
Proof.
  intros off n k b H. unfold fget, slice.
  rewrite skipn_firstn_comm, firstn_firstn. f_equal. lia.
Qed.

Lemma fget_prefix : forall off n (a b : bytes), (off + n <= length a)%nat ->
  fget off n (a ++ b) = fget off n a.
Proof.
  intros off n a b H. rewrite <- (fget_firstn off n (length a) (a ++ b)) by auto.
  rewrite firstn_app_exact by auto. reflexivity.
Qed.

Lemma struct_zeros : forall n src, length src = n -> struct_from_bytes (zeros n) src = src.
Proof.
  intros n src H. rewrite struct_from_bytes_full by (rewrite zeros_length; lia).
  rewrite zeros_length, <- H. apply firstn_all.
Qed.

Lemma fget_int_1_cons : forall x (r : bytes), fget_int 0 1 (x :: r) = b2z x.
Proof. intros. unfold fget_int, fget, slice. cbn [skipn firstn le_dec]. lia. Qed.

Lemma struct_hd : forall buf x r y t, buf = y :: t ->
  exists t', struct_from_bytes buf (x :: r) = x :: t'.
Proof.
  intros buf x r y t ->. unfold struct_from_bytes. cbn [is_empty length Nat.min].
  cbn [firstn app]. eexists. reflexivity.
Qed.

(** ** Fixed-size packets *)

Lemma fixed_ctor_spec : forall ty new x r y t, new = y :: t ->
  fixed_ctor ty new (x :: r) =
    if b2z x =? ty then Ok (struct_from_bytes new (x :: r)) else Err BadPeer.
Proof.
  intros ty new x r y t Hn. unfold fixed_ctor. cbn [is_empty].
  unfold finish, fixed_from_bytes. cbn [fst snd].
  destruct (struct_hd new x r y t Hn) as [t' Ht']. rewrite Ht'.
  unfold validate_type. rewrite fget_int_1_cons. destruct (b2z x =? ty); reflexivity.
Qed.

(** *** M1 *)

Lemma m1_data_wire : forall t ck sk, M1_wire t ck sk =
  ((indicator ++ [x01; match sk with Some _ => x01 | None => x00 end] ++ u32le t) ++ ck)
  ++ match sk with Some k => k | None => [] end.
Proof. intros. unfold M1_wire. rewrite <- !app_assoc. reflexivity. Qed.

Lemma m1_build_ok : forall t ck sk, length ck = 32%nat ->
  (forall k, sk = Some k -> length k = 32%nat) ->
  m1_build t ck sk =
    Ok (M1 ((indicator ++ [x01; match sk with Some _ => x01 | None => x00 end] ++ u32le t) ++ ck)
           (Some (match sk with Some k => k | None => [] end)) None).
Proof.
  intros t ck sk Hck Hsk. unfold m1_build.
  unfold m1_set_client_enc_key, fset_array. rewrite Hck. cbn [Nat.eqb].
  unfold fput at 1. rewrite Hck. unfold m1_set_time, fput_int. rewrite le_enc_u32.
  destruct sk as [k|].
  - specialize (Hsk k eq_refl).
    cbv [m1_create_opt_fields m1_set_flag m1_new m1_data m1_opt m1_shadow rbind].
    unfold m1_set_server_sig_key, m1_flag. cbn [m1_data m1_opt m1_shadow].
    unfold m1_opt_factory. cbn [m1_data].
    set (d := fput_bit 5 0 true _).
    vm_compute in d. subst d.
    unfold fput. rewrite u32le_length. cbn [firstn skipn Nat.add app u32le].
    unfold fget_bit, fget_int, fget, slice. cbn [skipn firstn le_dec app].
    change (Z.testbit (b2z x01 + 256 * 0) 0) with true. cbv iota.
    rewrite Hsk, zeros_length. cbn [Nat.eqb]. rewrite app_nil_r. reflexivity.
  - cbv [m1_create_opt_fields m1_set_flag m1_new m1_data m1_opt m1_shadow rbind].
    unfold m1_opt_factory.
    set (d := fput_bit 5 0 false _).
    vm_compute in d. subst d.
    unfold fput. rewrite u32le_length. cbn [firstn skipn Nat.add app u32le].
    unfold fget_bit, fget_int, fget, slice. cbn [skipn firstn le_dec app].
    change (Z.testbit (b2z x00 + 256 * 0) 0) with false. cbv iota.
    rewrite app_nil_r. reflexivity.
Qed.

Lemma m1_new_length : length (m1_data m1_new) = 42%nat.
Proof. reflexivity. Qed.
Lemma m2_new_length : length m2_new = 38%nat.
Proof. reflexivity. Qed.
Lemma m3_new_length : length m3_new = 102%nat.
Proof. reflexivity. Qed.
Lemma m4_new_length : length m4_new = 102%nat.
Proof. reflexivity. Qed.

Lemma m1_ctor_cases : forall src p, m1_ctor src = Ok p ->
  length (m1_data p) = 42%nat /\
  exists o, m1_opt p = o /\ m1_shadow p = None.
Proof.
  intros src p. unfold m1_ctor. destruct (is_empty src).
  - intro H; injection H as <-. split; [reflexivity|]. eexists; split; reflexivity.
  - unfold finish, m1_from_bytes. cbn [fst snd].
    destruct (m1_validate _); [|discriminate].
    intro H; injection H as <-. cbn [m1_data m1_opt m1_shadow].
    rewrite struct_from_bytes_length. split; [reflexivity|eexists; split; reflexivity].
Qed.

Lemma m1_ctor_wire : forall t ck sk tr, length ck = 32%nat ->
  (forall k, sk = Some k -> length k = 32%nat) ->
  m1_ctor (M1_wire t ck sk ++ tr) =
    Ok (M1 ((indicator ++ [x01; match sk with Some _ => x01 | None => x00 end] ++ u32le t) ++ ck)
           (Some (match sk with Some k => k | None => [] end)) None).
Proof.
  intros t ck sk tr Hck Hsk.
  assert (HA : length ((indicator ++ [x01; match sk with Some _ => x01 | None => x00 end] ++ u32le t) ++ ck) = 42%nat)
    by (rewrite app_length, Hck; reflexivity).
  rewrite m1_data_wire.
  set (A := (indicator ++ _ ++ u32le t) ++ ck) in *.
  unfold m1_ctor.
  assert (HE : is_empty ((A ++ match sk with Some k => k | None => [] end) ++ tr) = false)
    by (unfold A; reflexivity).
  rewrite HE. unfold finish, m1_from_bytes. cbn [fst snd].
  rewrite <- app_assoc.
  assert (HD : struct_from_bytes (m1_data m1_new) (A ++ match sk with Some k => k | None => [] end ++ tr) = A).
  { rewrite struct_from_bytes_full.
    - rewrite m1_new_length. apply firstn_app_exact; auto.
    - rewrite m1_new_length, app_length; lia. }
  rewrite HD. rewrite HA.
  rewrite skipn_app_exact by auto.
  assert (HV : forall o s, m1_validate (M1 A o s) = Ok tt).
  { intros. unfold m1_validate. cbn [m1_data]. reflexivity. }
  rewrite HV. unfold m1_opt_factory.
  assert (HF : fget_bit 5 0 A = match sk with Some _ => true | None => false end).
  { unfold A. destruct sk; reflexivity. }
  rewrite HF. destruct sk as [k|].
  - specialize (Hsk k eq_refl). rewrite struct_from_bytes_full by (rewrite zeros_length, app_length; lia).
    rewrite zeros_length, firstn_app_exact by auto. reflexivity.
  - rewrite struct_from_bytes_full by (cbn; lia). reflexivity.
Qed.

(** Characterisation of acceptance. *)
Lemma m1_validate_iff : forall p, m1_validate p = Ok tt <->
  fget_int 4 1 (m1_data p) = 1 /\ fget 0 4 (m1_data p) = SCv2.
Proof.
  intro p. unfold m1_validate, validate_type, TYPE_M1.
  destruct (Z.eqb_spec (fget_int 4 1 (m1_data p)) 1).
  - destruct (bytes_eqb (fget 0 4 (m1_data p)) SCv2) eqn:E.
    + apply bytes_eqb_eq in E. tauto.
    + apply bytes_eqb_neq in E. split; [discriminate|tauto].
  - split; [discriminate|tauto].
Qed.

Lemma m1_validate_err : forall p e, m1_validate p = Err e -> e = BadPeer.
Proof.
  intros p e. unfold m1_validate, validate_type.
  destruct (_ =? _); [destruct (bytes_eqb _ _)|]; congruence.
Qed.

Definition magic : bytes := [x53; x43; x76; x32; x01].

Lemma firstn_5_magic : forall d : bytes, (5 <= length d)%nat ->
  (fget_int 4 1 d = 1 /\ fget 0 4 d = SCv2) <-> firstn 5 d = magic.
Proof.
  intros d H. destruct d as [|a [|b [|c [|d0 [|e r]]]]]; cbn [length] in H; try lia.
  unfold fget_int, fget, slice. cbn [skipn firstn le_dec].
  unfold SCv2, magic. split.
  - intros [H1 H2]. injection H2 as -> -> -> ->.
    assert (e = x01) by (apply b2z_inj; change (b2z x01) with 1; lia). subst. reflexivity.
  - intro H1. injection H1 as -> -> -> -> ->. split; reflexivity.
Qed.

Lemma m1_buf_5 : forall src, src <> [] ->
  firstn 5 (struct_from_bytes (m1_data m1_new) src) =
  firstn 5 src ++ skipn (length (firstn 5 src)) magic.
Proof.
  intros src Hne. unfold struct_from_bytes.
  rewrite (proj2 (is_empty_false _ src) Hne).
  rewrite m1_new_length.
  destruct src as [|a [|b [|c [|d [|e r]]]]]; try congruence; try reflexivity.
Qed.

Lemma m1_ctor_accept : forall src, src <> [] ->
  (exists p, m1_ctor src = Ok p) <-> prefix_of (firstn 5 src) magic.
Proof.
  intros src Hne.
  assert (HL : (5 <= length (struct_from_bytes (m1_data m1_new) src))%nat).
  { rewrite struct_from_bytes_length, m1_new_length. lia. }
  unfold m1_ctor. rewrite (proj2 (is_empty_false _ src) Hne).
  unfold finish, m1_from_bytes. cbn [fst snd].
  match goal with |- context [m1_validate ?p] => set (P := p) end.
  assert (HV : m1_validate P = Ok tt <-> prefix_of (firstn 5 src) magic).
  { rewrite m1_validate_iff. unfold P; cbn [m1_data].
    rewrite firstn_5_magic by auto. rewrite m1_buf_5 by auto. unfold prefix_of. split.
    - intro H. exists (skipn (length (firstn 5 src)) magic). auto.
    - intros [r Hr]. rewrite Hr at 1. rewrite skipn_app_exact by auto. auto. }
  rewrite <- HV. split.
  - intros [p Hp]. destruct (m1_validate P) as [[]|]; [reflexivity|discriminate].
  - intro H. rewrite H. eexists; reflexivity.
Qed.

Lemma m1_ctor_err : forall src e, m1_ctor src = Err e -> e = BadPeer.
Proof.
  intros src e. unfold m1_ctor. destruct (is_empty src); [discriminate|].
  unfold finish. destruct (m1_from_bytes m1_new src) as [p v] eqn:E. cbn [fst snd].
  destruct v as [[]|e'] eqn:Ev; [discriminate|]. intro H; injection H as <-.
  unfold m1_from_bytes in E. injection E as _ E. eapply m1_validate_err; eauto.
Qed.

(** *** M2 *)

Lemma m2_wire_length : forall a b t k, length k = 32%nat -> length (M2_wire a b t k) = 38%nat.
Proof. intros. unfold M2_wire. rewrite !app_length, H. reflexivity. Qed.

Lemma m2_build_ok : forall nss last t k, length k = 32%nat ->
  m2_build nss last t k = Ok (M2_wire nss last t k).
Proof.
  intros nss last t k Hk. unfold m2_build, m2_set_server_enc_key, fset_array.
  rewrite Hk. cbn [Nat.eqb]. f_equal. unfold fput. rewrite Hk.
  unfold m2_set_time, fput_int. rewrite le_enc_u32. unfold fput. rewrite u32le_length.
  destruct nss, last;
    (set (d := m2_set_last_flag _ _); vm_compute in d; subst d;
     cbn [firstn skipn Nat.add app u32le]; rewrite app_nil_r; reflexivity).
Qed.

Lemma m2_bytes_wire : forall nss last t k, length k = 32%nat ->
  m2_bytes (M2_wire nss last t k) = M2_wire nss (nss || last) t k.
Proof.
  intros nss last t k Hk. unfold m2_bytes, m2_no_such_server, m2_set_last_flag.
  destruct nss, last; reflexivity.
Qed.

Lemma m2_ctor_wire : forall nss last t k tr, length k = 32%nat ->
  m2_ctor (M2_wire nss last t k ++ tr) = Ok (M2_wire nss last t k).
Proof.
  intros nss last t k tr Hk. unfold m2_ctor.
  change (M2_wire nss last t k ++ tr) with (x02 :: (M2_flags nss last :: u32le t ++ k) ++ tr).
  rewrite (fixed_ctor_spec _ _ _ _ (z2b 2) (zeros 37)) by reflexivity.
  change (b2z x02 =? TYPE_M2) with true. cbv iota. f_equal.
  change (x02 :: (M2_flags nss last :: u32le t ++ k) ++ tr) with (M2_wire nss last t k ++ tr).
  rewrite struct_from_bytes_full.
  - rewrite m2_new_length. apply firstn_app_exact. apply m2_wire_length; auto.
  - rewrite m2_new_length, app_length, m2_wire_length; auto; lia.
Qed.

Lemma m2_fields_wire : forall nss last t k, length k = 32%nat ->
  m2_time (M2_wire nss last t k) = t mod 2 ^ 32 /\
  m2_server_enc_key (M2_wire nss last t k) = k /\
  m2_no_such_server (M2_wire nss last t k) = nss /\
  m2_last_flag (M2_wire nss last t k) = last.
Proof.
  intros nss last t k Hk. unfold m2_time, m2_server_enc_key, m2_no_such_server, m2_last_flag.
  repeat split.
  - unfold fget_int, M2_wire. rewrite fget_app by reflexivity. apply le_dec_u32.
  - unfold M2_wire. rewrite app_assoc. apply fget_app_end; auto.
  - destruct nss, last; reflexivity.
  - destruct nss, last; reflexivity.
Qed.

(** *** M3, M4 *)

Lemma m34_build_ok : forall b t k s, length k = 32%nat -> length s = 64%nat ->
  m34_build (b :: zeros 101) t k s = Ok ([b; x00] ++ u32le t ++ k ++ s).
Proof.
  intros b t k s Hk Hs. unfold m34_build, m34_set_sig_key, m34_set_signature, fset_array.
  rewrite Hk. cbn [Nat.eqb rbind]. rewrite Hs. cbn [Nat.eqb]. f_equal.
  unfold m34_set_time, fput_int. rewrite le_enc_u32.
  assert (H1 : fput 2 (u32le t) (b :: zeros 101) = [b; x00] ++ u32le t ++ zeros 96).
  { reflexivity. }
  rewrite H1.
  assert (H2 : fput 6 k ([b; x00] ++ u32le t ++ zeros 96) = ([b; x00] ++ u32le t ++ k) ++ zeros 64).
  { unfold fput. rewrite Hk.
    change ([b; x00] ++ u32le t ++ zeros 96) with (([b; x00] ++ u32le t) ++ (zeros 32 ++ zeros 64)).
    rewrite firstn_app_exact by reflexivity.
    change (([b; x00] ++ u32le t) ++ zeros 32 ++ zeros 64)
      with ((([b; x00] ++ u32le t) ++ zeros 32) ++ zeros 64).
    rewrite skipn_app_exact by reflexivity. rewrite <- !app_assoc. reflexivity. }
  rewrite H2. unfold fput.
  rewrite firstn_app_exact by (rewrite !app_length, Hk; reflexivity).
  rewrite Hs. rewrite skipn_all2 by (rewrite !app_length, Hk; cbn; lia).
  rewrite app_nil_r, <- !app_assoc. reflexivity.
Qed.

Lemma m3_build_ok : forall t k s, length k = 32%nat -> length s = 64%nat ->
  m34_build m3_new t k s = Ok (M3_wire t k s).
Proof. intros. apply (m34_build_ok x03); auto. Qed.
Lemma m4_build_ok : forall t k s, length k = 32%nat -> length s = 64%nat ->
  m34_build m4_new t k s = Ok (M4_wire t k s).
Proof. intros. apply (m34_build_ok x04); auto. Qed.

Lemma m34_wire_length : forall b t (k s : bytes), length k = 32%nat -> length s = 64%nat ->
  length ([b; x00] ++ u32le t ++ k ++ s) = 102%nat.
Proof. intros. rewrite !app_length, H, H0. reflexivity. Qed.

Lemma fixed_ctor_wire : forall b ty t k s tr new, length k = 32%nat -> length s = 64%nat ->
  b2z b = ty -> length new = 102%nat ->
  fixed_ctor ty new (([b; x00] ++ u32le t ++ k ++ s) ++ tr) = Ok ([b; x00] ++ u32le t ++ k ++ s).
Proof.
  intros b ty t k s tr new Hk Hs Hb Hn.
  destruct new as [|y r] eqn:E; [discriminate|].
  change (([b; x00] ++ u32le t ++ k ++ s) ++ tr) with (b :: (x00 :: u32le t ++ k ++ s) ++ tr).
  rewrite (fixed_ctor_spec _ _ _ _ y r) by reflexivity.
  rewrite Hb, Z.eqb_refl. f_equal. rewrite <- E in *.
  change (b :: (x00 :: u32le t ++ k ++ s) ++ tr) with (([b; x00] ++ u32le t ++ k ++ s) ++ tr).
  pose proof (m34_wire_length b t k s Hk Hs).
  rewrite struct_from_bytes_full.
  - rewrite Hn. apply firstn_app_exact. auto.
  - rewrite Hn, app_length. lia.
Qed.

Lemma m3_ctor_wire : forall t k s tr, length k = 32%nat -> length s = 64%nat ->
  m3_ctor (M3_wire t k s ++ tr) = Ok (M3_wire t k s).
Proof. intros. apply fixed_ctor_wire; auto. Qed.
Lemma m4_ctor_wire : forall t k s tr, length k = 32%nat -> length s = 64%nat ->
  m4_ctor (M4_wire t k s ++ tr) = Ok (M4_wire t k s).
Proof. intros. apply fixed_ctor_wire; auto. Qed.

Lemma m34_fields : forall b t k s, length k = 32%nat -> length s = 64%nat ->
  m34_time ([b; x00] ++ u32le t ++ k ++ s) = t mod 2 ^ 32 /\
  m34_sig_key ([b; x00] ++ u32le t ++ k ++ s) = k /\
  m34_signature ([b; x00] ++ u32le t ++ k ++ s) = s.
Proof.
  intros b t k s Hk Hs. unfold m34_time, m34_sig_key, m34_signature. repeat split.
  - unfold fget_int. rewrite fget_app by reflexivity. apply le_dec_u32.
  - rewrite app_assoc. apply fget_app; auto.
  - rewrite !app_assoc. apply fget_app_end; auto. rewrite !app_length, Hk. reflexivity.
Qed.

(** *** Acceptance of fixed-size packets *)
Lemma fixed_accept : forall ty new src, (0 < length new)%nat -> src <> [] ->
  ((exists d, fixed_ctor ty new src = Ok d) <-> exists x r, src = x :: r /\ val x = ty) /\
  (forall e, fixed_ctor ty new src = Err e -> e = BadPeer).
Proof.
  intros ty new src Hn Hne. destruct src as [|x r]; [congruence|].
  destruct new as [|y t]; [cbn in Hn; lia|].
  rewrite (fixed_ctor_spec ty (y :: t) x r y t eq_refl).
  destruct (Z.eqb_spec (b2z x) ty) as [E|E]; split.
  - split; intros _; [exists x, r; auto|eexists; reflexivity].
  - discriminate.
  - split; [intros [d Hd]; discriminate|].
    intros (x' & r' & H & Hv). injection H as <- <-. contradiction.
  - congruence.
Qed.

(** *** EncryptedPacket *)
Lemma ec_wrap_wire : forall body last,
  pkt_bytes (ep_set_body body (ep_set_last_flag last ep_new)) = Enc_wire last body.
Proof. intros. destruct last; reflexivity. Qed.

Lemma ep_ctor_spec : forall a f body,
  ep_ctor (a :: f :: body) =
    if (b2z a =? 6) && (16 <=? zlen body) then Ok (Pkt [a; f] (Some body)) else Err BadPeer.
Proof.
  intros a f body. unfold ep_ctor. cbn [is_empty]. unfold finish, ep_from_bytes.
  assert (HZ : zlen (a :: f :: body) - 2 = zlen body) by (unfold zlen; cbn [length]; lia).
  rewrite HZ. assert (zlen body <? 0 = false) as -> by (unfold zlen; lia).
  assert (HD : struct_from_bytes (p_data ep_new) (a :: f :: body) = [a; f]).
  { rewrite struct_from_bytes_full by (cbn; lia). reflexivity. }
  rewrite HD. cbn [length skipn fst snd].
  replace (S (S (length body)) - 2)%nat with (length body) by lia.
  rewrite struct_zeros by auto.
  unfold ep_validate. cbn [p_data ep_body p_opt opt_field].
  unfold validate_type. rewrite fget_int_1_cons. unfold TYPE_ENCRYPTED_PACKET, ep_body.
  cbn [p_opt opt_field].
  destruct (b2z a =? 6); cbn [andb]; auto.
  destruct (Z.ltb_spec (zlen body) 16), (Z.leb_spec 16 (zlen body)); try lia; auto.
Qed.

Lemma ep_ctor_short : forall a, ep_ctor [a] = Err BadPeer.
Proof. reflexivity. Qed.

(** *** AppPacket *)
Lemma app_bytes_wire : forall t d,
  pkt_bytes (app_set_data d (app_set_time t app_new)) = App_wire t d.
Proof.
  intros. unfold pkt_bytes, app_set_data, app_set_time, fput_int. rewrite le_enc_u32. reflexivity.
Qed.

Lemma app_ctor_short : forall src v, src <> [] -> zlen src < 6 -> app_ctor src v = Err BadPeer.
Proof.
  intros src v Hne H. unfold app_ctor. rewrite (proj2 (is_empty_false _ src) Hne).
  unfold finish, app_from_bytes. assert (zlen src - 6 <? 0 = true) as -> by lia. reflexivity.
Qed.

Lemma app_ctor_spec : forall h d v, length h = 6%nat ->
  app_ctor (h ++ d) v =
    if v && negb (fget_int 0 1 h =? 5) then Err BadPeer else Ok (Pkt h (Some d)).
Proof.
  intros h d v Hh. unfold app_ctor.
  assert (is_empty (h ++ d) = false) as ->.
  { destruct h; [discriminate|reflexivity]. }
  unfold finish, app_from_bytes.
  assert (HZ : zlen (h ++ d) - 6 = zlen d) by (unfold zlen; rewrite app_length; lia).
  rewrite HZ. assert (zlen d <? 0 = false) as -> by (unfold zlen; lia).
  assert (HD : struct_from_bytes (p_data app_new) (h ++ d) = h).
  { rewrite struct_from_bytes_full by (rewrite app_length; cbn; lia).
    change (length (p_data app_new)) with 6%nat. apply firstn_app_exact; auto. }
  rewrite HD, Hh. rewrite skipn_app_exact by auto.
  replace (length (h ++ d) - 6)%nat with (length d) by (rewrite app_length; lia).
  rewrite struct_zeros by auto. cbn [fst snd].
  unfold app_validate, validate_type, TYPE_APP_PACKET. cbn [p_data].
  destruct v, (fget_int 0 1 h =? 5); reflexivity.
Qed.

(** *** MultiAppPacket *)

Lemma multi_opt_payload : forall ms, multi_opt_bytes ms = Multi_payload ms.
Proof.
  induction ms as [|m r IH]; cbn [multi_opt_bytes]; auto.
  unfold Multi_payload in *. cbn [map concat]. rewrite IH, le_enc_u16, <- app_assoc. reflexivity.
Qed.

Lemma multi_bytes_wire : forall t ms,
  multi_bytes (multi_create_opt_fields ms (multi_set_count (zlen ms) (multi_set_time t multi_new)))
  = Multi_wire t ms.
Proof.
  intros. unfold multi_bytes, multi_create_opt_fields, multi_set_count, multi_set_time, fput_int.
  cbn [mp_data mp_msgs]. rewrite le_enc_u32, le_enc_u16, multi_opt_payload. reflexivity.
Qed.

(** The loop reads the remaining bytes [skipn off src]. *)
Lemma multi_loop_roundtrip : forall ms off src tail,
  (forall m, In m ms -> zlen m <= 65535) ->
  skipn off src = Multi_payload ms ++ tail ->
  multi_loop (length ms) off src = Ok ms.
Proof.
  induction ms as [|m r IH]; intros off src tail Hm Hs; cbn [length multi_loop]; auto.
  unfold Multi_payload in Hs. cbn [map concat] in Hs.
  rewrite <- !app_assoc in Hs.
  assert (Hm0 : zlen m <= 65535) by (apply Hm; left; auto).
  assert (HL : le_dec (u16le (zlen m)) = zlen m).
  { rewrite le_dec_u16. apply Z.mod_small. unfold zlen in *. lia. }
  assert (HH : slice off 2 src = u16le (zlen m)).
  { unfold slice. rewrite Hs. apply firstn_app_exact. reflexivity. }
  rewrite HH. change (Nat.ltb (length (u16le (zlen m))) 2) with false. cbv iota.
  rewrite HL. unfold zlen at 1 2. rewrite !Nat2Z.id.
  assert (HS1 : skipn (off + 2) src = m ++ Multi_payload r ++ tail).
  { rewrite Nat.add_comm, <- skipn_skipn, Hs. rewrite skipn_app_exact by reflexivity. reflexivity. }
  rewrite (IH (off + 2 + length m)%nat src tail).
  - f_equal. f_equal. unfold slice. rewrite HS1. apply firstn_app_exact; auto.
  - intros; apply Hm; right; auto.
  - rewrite Nat.add_comm, <- skipn_skipn, HS1. apply skipn_app_exact; auto.
Qed.

(** Without any hypothesis: when the loop succeeds, it returns [count] messages. *)
Lemma multi_loop_length : forall n off src ms, multi_loop n off src = Ok ms -> length ms = n.
Proof.
  induction n; intros off src ms; cbn [multi_loop].
  - intro H; injection H as <-; reflexivity.
  - destruct (Nat.ltb _ 2); [discriminate|].
    destruct (multi_loop n _ src) eqn:E; [|discriminate].
    intro H; injection H as <-. cbn [length]. f_equal. eauto.
Qed.

Lemma multi_loop_err : forall n off src e, multi_loop n off src = Err e -> e = ValueError.
Proof.
  induction n; intros off src e; cbn [multi_loop]; [discriminate|].
  destruct (Nat.ltb _ 2); [congruence|].
  destruct (multi_loop n _ src) eqn:E; [discriminate|]. intro H; injection H as <-. eauto.
Qed.

Lemma multi_ctor_nonempty : forall src, src <> [] ->
  multi_ctor src true = finish (multi_from_bytes multi_new src true).
Proof.
  intros src Hne. unfold multi_ctor. rewrite (proj2 (is_empty_false _ src) Hne). reflexivity.
Qed.
