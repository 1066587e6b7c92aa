(** C105, continued: the fields are all there is of a packet object, and what they are in a new
    one. *)
From Coq Require Import List ZArith Bool Strings.Byte Lia ZifyBool ZifyNat ZifyN.
From Verif Require Import PyBase PyBase_proofs Packets Packets_proofs PacketOps PacketOps_proofs Fields Fields_proofs Props_Fields.
Import ListNotations.
Open Scope Z_scope.
Ltac Zify.zify_post_hook ::= Z.div_mod_to_equations.

Definition agree (a b : bytes) (off n : nat) : Prop := forall i, (off <= i < off + n)%nat -> nth i a x00 = nth i b x00.

Lemma agree_fget : forall off n a b, (off + n <= length a)%nat -> (off + n <= length b)%nat -> fget off n a = fget off n b -> agree a b off n.
Proof.
  intros off n a b La Lb E i H. replace i with (off + (i - off))%nat by lia. rewrite <- !(nth_fget off n) by lia. rewrite E. reflexivity.
Qed.

Lemma agree_int : forall off n a b, (off + n <= length a)%nat -> (off + n <= length b)%nat -> fget_int off n a = fget_int off n b -> agree a b off n.
Proof.
  intros off n a b La Lb E. apply agree_fget; [exact La|exact Lb|]. apply le_dec_inj; [rewrite !fget_length by lia; reflexivity|exact E].
Qed.

Lemma agree_bits : forall off a b, (forall i, (i < 8)%nat -> raw_bit off i a = raw_bit off i b) -> agree a b off 1.
Proof.
  intros off a b E i H. assert (i = off) by lia. subst i. apply b2z_inj. apply Z.bits_inj'. intros k Hk. destruct (Z_lt_le_dec k 8) as [L|L].
  - specialize (E (Z.to_nat k) ltac:(lia)). unfold raw_bit in E. rewrite Z2Nat.id in E by lia. exact E.
  - assert (HB : forall x, Z.testbit (b2z x) k = false).
    { intro x. pose proof (b2z_range x) as R. rewrite <- (Z.mod_small (b2z x) (2 ^ 8)) by (change (2 ^ 8) with 256; lia). apply Z.mod_pow2_bits_high. lia. }
    rewrite !HB. reflexivity.
Qed.

Lemma agree_signed : forall off a b, (off + 1 <= length a)%nat -> (off + 1 <= length b)%nat ->
  le_dec_signed 1 (fget off 1 a) = le_dec_signed 1 (fget off 1 b) -> agree a b off 1.
Proof.
  intros off a b La Lb E. apply agree_int; [exact La|exact Lb|]. unfold fget_int. revert E. unfold le_dec_signed.
  rewrite !fget1_nth by lia. cbn [le_dec]. pose proof (b2z_range (nth off a x00)). pose proof (b2z_range (nth off b x00)).
  change (2 ^ (8 * Z.of_nat 1 - 1)) with 128. change (2 ^ (8 * Z.of_nat 1)) with 256.
  destruct (Z.ltb_spec (b2z (nth off a x00) + 256 * 0) 128), (Z.ltb_spec (b2z (nth off b x00) + 256 * 0) 128); lia.
Qed.

Lemma agree_all : forall n a b, length a = n -> length b = n -> agree a b 0 n -> a = b.
Proof. intros n a b La Lb E. apply (nth_ext _ _ x00 x00); [congruence|]. intros i H. apply E. lia. Qed.

Lemma agree_join : forall n m a b off, agree a b off n -> agree a b (off + n) m -> agree a b off (n + m).
Proof. intros n m a b off E F i H. destruct (Nat.lt_ge_cases i (off + n)); [apply E|apply F]; lia. Qed.

(** The fields determine the object: two objects of a class of which all fields read the same are
    the same object (the same fixed part, for M1 and A2 packets). *)
Definition complete {X} (c : class) (good : obj c -> Prop) (part : obj c -> X) : Prop :=
  forall a b, good a -> good b -> (forall f, get c f a = get c f b) -> part a = part b.

Lemma vflag_inj : forall a b, VFlag a = VFlag b -> a = b. Proof. congruence. Qed.
Lemma vint_inj : forall a b, VInt a = VInt b -> a = b. Proof. congruence. Qed.
Lemma varr_inj : forall a b, VArr a = VArr b -> a = b. Proof. congruence. Qed.
Lemma opt_inj : forall a b, VRes (opt_field a) = VRes (opt_field b) -> a = b.
Proof. intros [a|] [b|]; cbn; congruence. Qed.

Theorem C105_complete :
  complete M1Class (sized m1_data 42) m1_data /\ complete M2Class (sized (fun d => d) 38) (fun d => d) /\
  complete M34Class (sized (fun d => d) 102) (fun d => d) /\ complete EPClass (sized p_data 2) (fun p => p) /\
  complete APClass (sized p_data 6) (fun p => p) /\ complete MPClass (sized mp_data 8) (fun p => p) /\
  complete A1Class (sized p_data 5) (fun p => p) /\ complete A2Class (sized p_data 3) p_data.
Proof.
  unfold complete, sized. repeat split.
  - intros a b La Lb E. cbn [obj field get M1Class] in *. unfold bytes in *.
    pose proof (varr_inj _ _ (E M1Indicator)) as E1. pose proof (vint_inj _ _ (E M1Type)) as E2. pose proof (vflag_inj _ _ (E M1Included)) as E3.
    pose proof (fun i => vflag_inj _ _ (E (M1Reserved i))) as E4. pose proof (vint_inj _ _ (E M1Time)) as E5. pose proof (varr_inj _ _ (E M1Key)) as E6. clear E.
    apply (agree_all 42); [exact La|exact Lb|].
    change 42%nat with (4 + (1 + (1 + (4 + 32))))%nat. apply agree_join; [|apply agree_join; [|apply agree_join; [|apply agree_join]]].
    + apply agree_fget; [lia|lia|]. rewrite <- !firstn_fget. exact E1.
    + apply agree_int; [cbn; lia|cbn; lia|exact E2].
    + apply agree_bits. intros [|i] H; [cbn [plus]; rewrite !raw_bit_get by lia; exact E3|]. specialize (E4 i). cbn beta in E4. rewrite Nat.min_l in E4 by lia. exact E4.
    + apply agree_int; [cbn; lia|cbn; lia|exact E5].
    + apply agree_fget; [cbn; lia|cbn; lia|exact E6].
  - intros a b La Lb E. cbn [obj field get M2Class] in *. unfold bytes in *.
    pose proof (vint_inj _ _ (E M2Type)) as E2. pose proof (vflag_inj _ _ (E M2NoSuch)) as E3. pose proof (vflag_inj _ _ (E M2Last)) as E3'.
    pose proof (fun i => vflag_inj _ _ (E (M2Reserved i))) as E4. pose proof (vint_inj _ _ (E M2Time)) as E5. pose proof (varr_inj _ _ (E M2Key)) as E6. clear E.
    apply (agree_all 38); [exact La|exact Lb|].
    change 38%nat with (1 + (1 + (4 + 32)))%nat. apply agree_join; [|apply agree_join; [|apply agree_join]].
    + apply agree_int; [lia|lia|exact E2].
    + apply agree_bits. intros [|i] H; [cbn [plus]; rewrite !raw_bit_get by lia; exact E3|].
      destruct (Nat.eq_dec i 6) as [->|N]; [cbn [plus]; rewrite !raw_bit_get by lia; exact E3'|].
      specialize (E4 i). cbn beta in E4. rewrite Nat.min_l in E4 by lia. exact E4.
    + apply agree_int; [cbn; lia|cbn; lia|exact E5].
    + apply agree_fget; [cbn; lia|cbn; lia|exact E6].
  - intros a b La Lb E. cbn [obj field get M34Class] in *. unfold bytes in *.
    pose proof (vint_inj _ _ (E M34Type)) as E2. pose proof (vint_inj _ _ (E M34Reserved)) as E3.
    pose proof (vint_inj _ _ (E M34Time)) as E5. pose proof (varr_inj _ _ (E M34Key)) as E6. pose proof (varr_inj _ _ (E M34Sig)) as E7. clear E.
    apply (agree_all 102); [exact La|exact Lb|].
    change 102%nat with (1 + (1 + (4 + (32 + 64))))%nat. apply agree_join; [|apply agree_join; [|apply agree_join; [|apply agree_join]]].
    + apply agree_int; [lia|lia|exact E2].
    + apply agree_int; [cbn; lia|cbn; lia|exact E3].
    + apply agree_int; [cbn; lia|cbn; lia|exact E5].
    + apply agree_fget; [cbn; lia|cbn; lia|exact E6].
    + apply agree_fget; [cbn; lia|cbn; lia|exact E7].
  - intros [a oa] [b ob] La Lb E. cbn [obj field get EPClass p_data] in *. unfold bytes in *.
    pose proof (vint_inj _ _ (E EPType)) as E2. pose proof (vflag_inj _ _ (E EPLast)) as E3'.
    pose proof (fun i => vflag_inj _ _ (E (EPReserved i))) as E4. pose proof (opt_inj _ _ (E EPBody)) as E5. clear E. cbn [p_data p_opt] in *.
    f_equal; [|exact E5]. apply (agree_all 2); [exact La|exact Lb|].
    change 2%nat with (1 + 1)%nat. apply agree_join.
    + apply agree_int; [lia|lia|exact E2].
    + apply agree_bits. intros i H.
      destruct (Nat.eq_dec i 7) as [->|N]; [cbn [plus]; rewrite !raw_bit_get by lia; exact E3'|].
      specialize (E4 i). cbn beta in E4. rewrite Nat.min_l in E4 by lia. exact E4.
  - intros [a oa] [b ob] La Lb E. cbn [obj field get APClass p_data] in *. unfold bytes in *.
    pose proof (vint_inj _ _ (E APType)) as E2. pose proof (vint_inj _ _ (E APReserved)) as E3.
    pose proof (vint_inj _ _ (E APTime)) as E4. pose proof (opt_inj _ _ (E APData)) as E5. clear E. cbn [p_data p_opt] in *.
    f_equal; [|exact E5]. apply (agree_all 6); [exact La|exact Lb|].
    change 6%nat with (1 + (1 + 4))%nat. apply agree_join; [|apply agree_join].
    + apply agree_int; [lia|lia|exact E2].
    + apply agree_int; [cbn; lia|cbn; lia|exact E3].
    + apply agree_int; [cbn; lia|cbn; lia|exact E4].
  - intros [a oa] [b ob] La Lb E. cbn [obj field get MPClass mp_data] in *. unfold bytes in *.
    pose proof (vint_inj _ _ (E MPType)) as E2. pose proof (vint_inj _ _ (E MPReserved)) as E3.
    pose proof (vint_inj _ _ (E MPTime)) as E4. pose proof (vint_inj _ _ (E MPCount)) as E4'. pose proof (E MPMsgs) as E5. clear E. cbn [multi_get mp_data mp_msgs] in *.
    f_equal; [|congruence]. apply (agree_all 8); [exact La|exact Lb|].
    change 8%nat with (1 + (1 + (4 + 2)))%nat. apply agree_join; [|apply agree_join; [|apply agree_join]].
    + apply agree_int; [lia|lia|exact E2].
    + apply agree_int; [cbn; lia|cbn; lia|exact E3].
    + apply agree_int; [cbn; lia|cbn; lia|exact E4].
    + apply agree_int; [cbn; lia|cbn; lia|exact E4'].
  - intros [a oa] [b ob] La Lb E. cbn [obj field get A1Class p_data] in *. unfold bytes in *.
    pose proof (vint_inj _ _ (E A1Type)) as E2. pose proof (vint_inj _ _ (E A1Reserved)) as E3.
    pose proof (vint_inj _ _ (E A1AddrType)) as E4. pose proof (vint_inj _ _ (E A1AddrSize)) as E4'. pose proof (opt_inj _ _ (E A1Addr)) as E5. clear E. cbn [p_data p_opt] in *.
    f_equal; [|exact E5]. apply (agree_all 5); [exact La|exact Lb|].
    change 5%nat with (1 + (1 + (1 + 2)))%nat. apply agree_join; [|apply agree_join; [|apply agree_join]].
    + apply agree_int; [lia|lia|exact E2].
    + apply agree_int; [cbn; lia|cbn; lia|exact E3].
    + apply agree_int; [cbn; lia|cbn; lia|exact E4].
    + apply agree_int; [cbn; lia|cbn; lia|exact E4'].
  - intros a b La Lb E. cbn [obj field get A2Class] in *. unfold bytes in *.
    pose proof (vint_inj _ _ (E A2Type)) as E2. pose proof (vflag_inj _ _ (E A2NoSuch)) as E3. pose proof (vflag_inj _ _ (E A2Last)) as E3'.
    pose proof (fun i => vflag_inj _ _ (E (A2Reserved i))) as E4. pose proof (vint_inj _ _ (E A2Count)) as E5. clear E.
    apply (agree_all 3); [exact La|exact Lb|].
    change 3%nat with (1 + (1 + 1))%nat. apply agree_join; [|apply agree_join].
    + apply agree_int; [lia|lia|exact E2].
    + apply agree_bits. intros [|i] H; [cbn [plus]; rewrite !raw_bit_get by lia; exact E3|].
      destruct (Nat.eq_dec i 6) as [->|N]; [cbn [plus]; rewrite !raw_bit_get by lia; exact E3'|].
      specialize (E4 i). cbn beta in E4. rewrite Nat.min_l in E4 by lia. exact E4.
    + apply agree_signed; [cbn; lia|cbn; lia|exact E5].
Qed.
Print Assumptions C105_complete.

(** A new object: its type, and nothing else set. *)
Definition blank (v : fval) : Prop :=
  match v with
  | VFlag b => b = false
  | VInt z => z = 0
  | VArr b => b = repeat x00 (length b)
  | VRes r => r = Err AttributeError
  | VMsgs o => o = None
  | VProts r => r = Err AttributeError
  end.

Ltac reserved i := do 8 (try (destruct i as [|i]; [reflexivity|])); reflexivity.

Theorem C105_new :
  (get M1Class M1Indicator m1_new = VArr [x53; x43; x76; x32] /\ get M1Class M1Type m1_new = VInt 1 /\ forall f, f <> M1Indicator -> f <> M1Type -> blank (get M1Class f m1_new)) /\
  (get M2Class M2Type m2_new = VInt 2 /\ forall f, f <> M2Type -> blank (get M2Class f m2_new)) /\
  (get M34Class M34Type m3_new = VInt 3 /\ forall f, f <> M34Type -> blank (get M34Class f m3_new)) /\
  (get M34Class M34Type m4_new = VInt 4 /\ forall f, f <> M34Type -> blank (get M34Class f m4_new)) /\
  (get EPClass EPType ep_new = VInt 6 /\ forall f, f <> EPType -> blank (get EPClass f ep_new)) /\
  (get APClass APType app_new = VInt 5 /\ forall f, f <> APType -> blank (get APClass f app_new)) /\
  (get MPClass MPType multi_new = VInt 11 /\ forall f, f <> MPType -> blank (get MPClass f multi_new)) /\
  (get A1Class A1Type a1_new = VInt 8 /\ forall f, f <> A1Type -> blank (get A1Class f a1_new)) /\
  (get A2Class A2Type a2_new = VInt 9 /\ get A2Class A2Last a2_new = VFlag true /\
     forall f, f <> A2Type -> f <> A2Last -> blank (get A2Class f a2_new)).
Proof.
  repeat split; try reflexivity; intros f; destruct f; intros; try congruence; try reflexivity;
    match goal with i : nat |- _ => reserved i end.
Qed.
Print Assumptions C105_new.

(** What is refused, and how: a field that is not there, a MultiAppPacket that does not hold the
    messages it counts, an empty source. *)
Theorem C105_refused :
  (forall k p, get M1Class M1Included p = VFlag false -> m1_set_server_sig_key k p = Err AttributeError) /\
  (forall p v, snd (multi_from_bytes p [] v) = Err TypeError) /\
  (forall p, (get MPClass MPType p <> VInt 11 -> multi_validate p = Err BadPeer) /\
     (get MPClass MPType p = VInt 11 -> forall n, get MPClass MPCount p = VInt n ->
        (n < 1 -> multi_validate p = Err BadPeer) /\
        (1 <= n -> get MPClass MPMsgs p = VMsgs None -> multi_validate p = Err AttributeError) /\
        (1 <= n -> forall ms, get MPClass MPMsgs p = VMsgs (Some ms) ->
           (Z.of_nat (length ms) = n -> multi_validate p = Ok tt) /\ (Z.of_nat (length ms) <> n -> multi_validate p = Err BadPeer)))) /\
  (forall p, get A2Class A2Prots p = VProts (Err AttributeError) <-> p_opt p = None).
Proof.
  split; [|split; [|split]].
  - intros k p E. unfold m1_set_server_sig_key. injection E as ->. reflexivity.
  - intros p v. unfold multi_from_bytes. reflexivity.
  - intros p. split.
    + intro N. unfold multi_validate, validate_type. destruct (fget_int 0 1 (mp_data p) =? TYPE_MULTIAPP_PACKET) eqn:E; [|reflexivity].
      exfalso. apply N. apply Z.eqb_eq in E. change (VInt (fget_int 0 1 (mp_data p)) = VInt 11). rewrite E. reflexivity.
    + intros T n C. injection T as T. injection C as C. unfold multi_validate, validate_type. rewrite T, C.
      change (11 =? TYPE_MULTIAPP_PACKET) with true. cbv iota.
      destruct (Z.ltb_spec n 1) as [L|L]; [split; [reflexivity|split; intros; lia]|].
      split; [intros; lia|]. split; [intros _ M; injection M as ->; reflexivity|].
      intros _ ms M. injection M as ->. destruct (Z.eqb_spec (zlen ms) n) as [E|E]; split; intro X; try reflexivity; exfalso; unfold zlen in E; lia.
  - intro p. cbn. unfold a2_prots. destruct (p_opt p); split; intro E; try reflexivity; discriminate.
Qed.
Print Assumptions C105_refused.

(** Two parsed M2 packets that differ in a reserved bit only differ in that field. *)
Example C105_complete_example :
  let a := fst (m2_from_bytes m2_new ([x02; x10] ++ repeat x07 36)) in let b := fst (m2_from_bytes m2_new ([x02; x00] ++ repeat x07 36)) in
  a <> b /\ get M2Class (M2Reserved 3) a = VFlag true /\ get M2Class (M2Reserved 3) b = VFlag false /\
  map (fun f => get M2Class f a) [M2Type; M2NoSuch; M2Last; M2Time; M2Key] = map (fun f => get M2Class f b) [M2Type; M2NoSuch; M2Last; M2Time; M2Key].
Proof. cbv zeta. split; [vm_compute; discriminate|]. repeat split; vm_compute; reflexivity. Qed.
