(** What the steps of the session machines do, and the shape of every execution. *)
From Coq Require Import List ZArith Bool Strings.Byte Lia ZifyBool ZifyNat ZifyN.
From Verif Require Import PyBase PyBase_proofs IO IO_proofs Packets Packets_proofs Packets_proofs2
  Crypto Crypto_proofs Time EncChannel EncUse EncChannel_proofs AppChannel AppUse AppChannel_proofs Session Session_proofs
  SessUse Spec.
Import ListNotations.
Open Scope Z_scope.
Ltac Zify.zify_post_hook ::= Z.div_mod_to_equations.

(** ** Fields of parsed packets *)
Lemma skipn_repeat : forall A (x : A) n m, skipn n (repeat x m) = repeat x (m - n).
Proof.
  induction n as [|n IH]; intros m; cbn [skipn]; [f_equal; lia|].
  destruct m; cbn [repeat]; [reflexivity|]. rewrite IH. reflexivity.
Qed.

Lemma firstn_repeat : forall A (x : A) n m, (n <= m)%nat -> firstn n (repeat x m) = repeat x n.
Proof.
  induction n as [|n IH]; intros m H; cbn [firstn repeat]; [reflexivity|].
  destruct m; [lia|]. cbn [repeat]. rewrite IH by lia. reflexivity.
Qed.

Lemma slice_pad : forall off n (a : bytes) p q, (off + n <= length a + p)%nat -> (off + n <= length a + q)%nat ->
  firstn n (skipn off (a ++ repeat x00 p)) = firstn n (skipn off (a ++ repeat x00 q)).
Proof.
  intros off n a p q H1 H2. rewrite !skipn_app, !firstn_app, !skipn_repeat, !skipn_length. f_equal.
  rewrite !firstn_repeat; auto; lia.
Qed.

Lemma struct_field : forall b n src off k, src <> [] -> (off + k <= S n)%nat ->
  fget off k (struct_from_bytes (b :: zeros n) src) = field off k src.
Proof.
  intros b n src off k Hne H. unfold fget, slice, field.
  destruct (le_lt_dec (length src) (S n)) as [Hl|Hl].
  - rewrite struct_from_bytes_short by (cbn [length]; rewrite zeros_length; lia).
    destruct src as [|x r]; [congruence|]. cbn [length] in Hl. cbn [length skipn].
    unfold zeros. rewrite skipn_repeat. apply slice_pad; cbn [length]; lia.
  - rewrite struct_from_bytes_full by (cbn [length]; rewrite zeros_length; lia). cbn [length]. rewrite zeros_length.
    rewrite <- (firstn_skipn (S n) src) at 2. rewrite <- app_assoc.
    rewrite !skipn_app, !firstn_app, !skipn_length, !firstn_length.
    assert (k - (Nat.min (S n) (length src) - off) = 0)%nat as -> by lia. cbn [firstn]. rewrite app_nil_r. reflexivity.
Qed.

Lemma field_nil : forall off k, field off k [] = repeat x00 k.
Proof. intros. unfold field. cbn [app]. rewrite skipn_repeat, firstn_repeat by lia. f_equal. Qed.

Lemma field_length : forall off n src, length (field off n src) = n.
Proof. intros. unfold field. rewrite firstn_length, skipn_length, app_length, repeat_length. lia. Qed.

Lemma fixed_ctor_field : forall ty b n src d off k, fixed_ctor ty (b :: zeros n) src = Ok d ->
  (1 <= off)%nat -> (off + k <= S n)%nat -> fget off k d = field off k src.
Proof.
  intros ty b n src d off k H Ho Hk. destruct src as [|x r].
  - injection H as <-. rewrite field_nil. unfold fget, slice. destruct off as [|off]; [lia|]. cbn [skipn].
    unfold zeros. rewrite skipn_repeat, firstn_repeat by lia. reflexivity.
  - rewrite (fixed_ctor_spec _ _ _ _ b (zeros n)) in H by reflexivity. destruct (b2z x =? ty); [|discriminate].
    injection H as <-. apply struct_field; [discriminate|lia].
Qed.

Lemma fixed_ctor_full : forall ty b n src d, fixed_ctor ty (b :: zeros n) src = Ok d -> length src = S n -> d = src.
Proof.
  intros ty b n src d H Hl. destruct src as [|x r]; [discriminate|].
  rewrite (fixed_ctor_spec _ _ _ _ b (zeros n)) in H by reflexivity. destruct (b2z x =? ty); [|discriminate].
  injection H as <-. rewrite struct_from_bytes_full by (cbn [length] in *; rewrite zeros_length; lia).
  cbn [length]. rewrite zeros_length. rewrite <- Hl. apply firstn_all.
Qed.

Lemma fixed_ctor_err : forall ty new src e, fixed_ctor ty new src = Err e -> e = BadPeer.
Proof.
  intros ty new src e H. unfold fixed_ctor, finish, fixed_from_bytes, validate_type in H.
  destruct (is_empty src); [discriminate|]. cbn [fst snd] in H. destruct (_ =? ty); congruence.
Qed.

Lemma m1_ctor_field : forall src p off k, m1_ctor src = Ok p -> (5 <= off)%nat -> (off + k <= 42)%nat ->
  fget off k (m1_data p) = field off k src.
Proof.
  intros src p off k H Ho Hk. unfold m1_ctor in H. destruct (is_empty src) eqn:Hne.
  - apply is_empty_true in Hne. subst src. injection H as <-. rewrite field_nil. unfold fget, slice, m1_new. cbn [m1_data].
    rewrite app_assoc, skipn_app, firstn_app. change (length (SCv2 ++ le_enc 1 TYPE_M1)) with 5%nat.
    rewrite (skipn_all2 (SCv2 ++ le_enc 1 TYPE_M1)) by (change (length (SCv2 ++ le_enc 1 TYPE_M1)) with 5%nat; lia). cbn [firstn app length].
    unfold zeros. rewrite firstn_nil, skipn_repeat, firstn_repeat by lia. cbn [app]. f_equal. lia.
  - unfold finish, m1_from_bytes in H.
    assert (HN : m1_data m1_new = (SCv2 ++ le_enc 1 TYPE_M1) ++ zeros 37) by reflexivity.
    assert (HN' : length (m1_data m1_new) = 42%nat) by reflexivity.
    assert (H5' : length (SCv2 ++ le_enc 1 TYPE_M1) = 5%nat) by reflexivity.
    remember (m1_data m1_new) as new. clear Heqnew. remember (SCv2 ++ le_enc 1 TYPE_M1) as h. clear Heqh.
    cbn [fst snd] in H. destruct (m1_validate _); [|discriminate]. injection H as <-. cbn [m1_data].
    unfold fget, slice, field, bytes in *.
    destruct (le_lt_dec (length src) 42) as [Hl|Hl].
    + rewrite struct_from_bytes_short by lia. rewrite HN, (skipn_app (length src)), H5'. unfold zeros. rewrite skipn_repeat.
      destruct (le_lt_dec 5 (length src)) as [H5|H5].
      * rewrite (skipn_all2 h) by lia. cbn [app]. apply slice_pad; lia.
      * rewrite app_assoc, skipn_app, (skipn_all2 (src ++ skipn (length src) h)).
        2:{ rewrite app_length, skipn_length. lia. }
        rewrite skipn_app, (skipn_all2 src) by lia. cbn [app].
        rewrite !skipn_repeat, !firstn_repeat; auto; try (rewrite app_length, skipn_length); lia.
    + rewrite struct_from_bytes_full by lia. rewrite HN'.
      rewrite <- (firstn_skipn 42 src) at 2. rewrite <- app_assoc.
      rewrite !skipn_app, !firstn_app, !skipn_length, !firstn_length.
      assert (k - (Nat.min 42 (length src) - off) = 0)%nat as -> by lia. cbn [firstn]. rewrite app_nil_r. reflexivity.
Qed.

(** ** Client steps *)
Section Steps.
  Variable L : lib.
  Variable TK : tkeeper.
  Variable TC : tchecker.

  Lemma m1_client_build : forall t k p, m1_set_client_enc_key k (m1_set_time t (m1_create_opt_fields m1_new)) = Ok p ->
    length k = 32%nat /\ m1_bytes p = M1_wire t k None.
  Proof.
    intros t k p H. assert (Hk : length k = 32%nat).
    { unfold m1_set_client_enc_key, fset_array in H. destruct (Nat.eqb_spec (length k) 32); congruence. }
    split; [exact Hk|].
    pose proof (m1_build_ok t k None Hk ltac:(discriminate)) as HB. unfold m1_build in HB.
    change (m1_set_flag false m1_new) with m1_new in HB. cbv [rbind] in HB. rewrite H in HB. injection HB as ->.
    reflexivity.
  Qed.

  Lemma m1_client_build_ok : forall t k, length k = 32%nat ->
    exists p, m1_set_client_enc_key k (m1_set_time t (m1_create_opt_fields m1_new)) = Ok p.
  Proof.
    intros t k H. unfold m1_set_client_enc_key, fset_array. rewrite H. cbn [Nat.eqb]. eauto.
  Qed.

  Lemma client_start_inv : forall s e s1 w, client_start L TK s e = (s1, Ok w) ->
    length (kp_pub e) = 32%nat /\ w = M1_wire (fst (tk_first TK (cs_tk s))) (kp_pub e) None /\
    exists p, s1 = cs_set_m1_hash (l_sha512 L w) (cs_set_m1 (Some p) (cs_set_tk (snd (tk_first TK (cs_tk s))) s)).
  Proof.
    intros s e s1 w H. unfold client_start in H. destruct (tk_first TK (cs_tk s)) as [t1 tk1].
    destruct (m1_set_client_enc_key _ _) as [p|x] eqn:E; [|discriminate].
    destruct (m1_client_build _ _ _ E) as [Hk HB]. injection H as <- <-. cbn [fst snd].
    split; [exact Hk|]. split; [exact HB|]. exists p. reflexivity.
  Qed.

  Lemma ec_init_ok : forall key r sn ch, ec_init key r sn = Ok ch ->
    length key = 32%nat /\
    ch = EC key [] false (match r with CLIENT => 2 | SERVER => 1 end) (match r with CLIENT => 1 | SERVER => 2 end) sn.
  Proof.
    intros key r sn ch H. unfold ec_init, BOX_SECRETKEYBYTES, zlen in H.
    destruct (Z.eqb_spec (Z.of_nat (length key)) 32); [|discriminate]. cbn [negb] in H. injection H as <-.
    split; [lia|reflexivity].
  Qed.

  Lemma shared_key_inv : forall sk pk k, compute_shared_key L sk pk = Ok k ->
    length sk = 32%nat /\ length pk = 32%nat /\ l_beforenm L pk sk = Ok k.
  Proof.
    intros sk pk k H. unfold compute_shared_key, BOX_SECRETKEYBYTES, BOX_PUBLICKEYBYTES, zlen in H.
    destruct (Z.eqb_spec (Z.of_nat (length sk)) 32); [|discriminate].
    destruct (Z.eqb_spec (Z.of_nat (length pk)) 32); [|discriminate]. cbn [negb] in H.
    split; [lia|]. split; [lia|exact H].
  Qed.

  Lemma client_m2_inv : forall s e chunk s2 ch, client_m2 L TC s e chunk = (s2, Ok ch) ->
    exists m2 key, m2_ctor chunk = Ok m2 /\ tc_first TC (m2_time m2) = Ok tt /\ m2_no_such_server m2 = false /\
      l_beforenm L (field 6 32 chunk) (kp_sec e) = Ok key /\ length key = 32%nat /\
      ch = EC key [] false 2 1 SESSION_NONCE /\
      s2 = cs_set_app (Some (ac_init ch (cs_tk s))) (cs_set_session_key key
             (cs_set_m2_hash (l_sha512 L chunk) (cs_set_m2 (Some m2) s))).
  Proof.
    intros s e chunk s2 ch H. unfold client_m2 in H.
    destruct (m2_ctor chunk) as [m2|x] eqn:E; [|discriminate].
    destruct (tc_first TC (m2_time m2)) as [[]|x] eqn:ET; [|discriminate].
    destruct (m2_no_such_server m2) eqn:EN; [discriminate|].
    destruct (compute_shared_key _ _ _) as [key|x] eqn:EK; [|discriminate].
    destruct (ec_init key CLIENT SESSION_NONCE) as [c|x] eqn:EI; [|discriminate].
    injection H as <- <-. destruct (shared_key_inv _ _ _ EK) as (_ & _ & HK).
    destruct (ec_init_ok _ _ _ _ EI) as [Hl Hc].
    exists m2, key. repeat (split; [solve [auto]|]). split.
    - rewrite <- HK. f_equal. symmetry. eapply (fixed_ctor_field TYPE_M2 (z2b TYPE_M2) 37); [exact E|lia|lia].
    - auto.
  Qed.

  Lemma b2z_6 : forall t, b2z t = 6 -> t = x06.
  Proof. intros t H. apply b2z_inj. rewrite H. reflexivity. Qed.

  Lemma process_opens : forall s f s1 m, ec_process L s f = (s1, Ok m) -> ec_session_nonce s = SESSION_NONCE ->
    opens L (ec_key s) (ec_read_nonce s) f m /\ exists fl,
    s1 = EC (ec_key s) (ec_pushback s) fl (ec_read_nonce s + 2) (ec_write_nonce s) (ec_session_nonce s).
  Proof.
    intros s f s1 m H HS. apply ec_process_inv in H. destruct H as (t & fl & body & -> & Ht & Hb & _ & Ho & ->).
    apply b2z_6 in Ht. subst t. rewrite HS in *. split; [exists fl, body; auto|]. eexists. reflexivity.
  Qed.

  Lemma m34_built : forall b t k p1 sg p, m34_set_sig_key k (m34_set_time t (b :: zeros 101)) = Ok p1 ->
    m34_set_signature sg p1 = Ok p -> length k = 32%nat /\ length sg = 64%nat /\ p = [b; x00] ++ u32le t ++ k ++ sg.
  Proof.
    intros b t k p1 sg p H1 H2.
    assert (Hk : length k = 32%nat) by (unfold m34_set_sig_key, fset_array in H1; destruct (Nat.eqb_spec (length k) 32); congruence).
    assert (Hs : length sg = 64%nat) by (unfold m34_set_signature, fset_array in H2; destruct (Nat.eqb_spec (length sg) 64); congruence).
    split; [exact Hk|]. split; [exact Hs|].
    pose proof (m34_build_ok b t k sg Hk Hs) as HB. unfold m34_build in HB. rewrite H1 in HB. cbn [rbind] in HB.
    rewrite H2 in HB. congruence.
  Qed.

  Lemma client_m3_inv : forall s key f s3 m4,
    client_m3 L TK TC s (EC key [] false 2 1 SESSION_NONCE) f = (s3, Ok m4) ->
    exists c3 fl sg, opens L key 2 f c3 /\ length c3 = 102%nat /\ m3_ctor c3 = Ok c3 /\
      tc_check TC (m34_time c3) = Ok tt /\
      accepted L (field 6 32 c3) (field 38 64 c3) (SIG1_PREFIX ++ cs_m1_hash s ++ cs_m2_hash s) /\
      signed L (kp_sec (cs_sig s)) (SIG2_PREFIX ++ cs_m1_hash s ++ cs_m2_hash s) sg /\
      length (kp_pub (cs_sig s)) = 32%nat /\ length sg = 64%nat /\
      m4 = M4_wire (fst (tk_get TK (cs_tk s))) (kp_pub (cs_sig s)) sg /\
      s3 = cs_set_m4 (Some m4) (cs_set_app (Some (ac_init (EC key [] fl 4 1 SESSION_NONCE) (snd (tk_get TK (cs_tk s)))))
             (cs_set_m3 (Some c3) s)).
  Proof.
    intros s key f s3 m4 H. unfold client_m3 in H.
    destruct (ec_process L _ f) as [ch1 [c3|x]] eqn:EP; [|discriminate].
    destruct (process_opens _ _ _ _ EP eq_refl) as [HO (fl & ->)]. cbn [ec_key ec_read_nonce ec_pushback ec_write_nonce ec_session_nonce] in *.
    destruct (Z.eqb_spec (zlen c3) 102) as [Hl|Hl]; cbn [negb] in H; [|discriminate].
    destruct (m3_ctor c3) as [m3|x] eqn:E3; [|discriminate].
    assert (m3 = c3) by (eapply (fixed_ctor_full TYPE_M3 (z2b TYPE_M3) 101); [exact E3|unfold zlen in Hl; lia]). subst m3.
    assert (Hf : forall off n, (1 <= off)%nat -> (off + n <= 102)%nat -> fget off n c3 = field off n c3).
    { intros. eapply (fixed_ctor_field TYPE_M3 (z2b TYPE_M3) 101); [exact E3|lia|lia]. }
    destruct (tc_check TC (m34_time c3)) as [[]|x] eqn:ET; [|discriminate].
    unfold m34_signature, m34_sig_key in H. rewrite !Hf in H by lia.
    destruct (l_sign_open _ _ _) as [o|x] eqn:ES; [|destruct x; discriminate].
    destruct (tk_get TK (cs_tk s)) as [t4 tk4].
    destruct (m34_set_sig_key _ _) as [q1|x] eqn:Q1; [|discriminate].
    destruct (l_sign _ _ _) as [sm|x] eqn:EG; [|discriminate].
    destruct (m34_set_signature _ _) as [q2|x] eqn:Q2; [|discriminate].
    destruct (m34_built x04 _ _ _ _ _ Q1 Q2) as (Hk & Hs & ->).
    injection H as <- <-. exists c3, fl, (firstn SIGN_BYTES sm). cbn [fst snd].
    split; [exact HO|]. split; [unfold zlen in Hl; lia|]. split; [exact E3|]. split; [exact ET|].
    split; [exists o; exact ES|]. split; [exists sm; auto|]. split; [exact Hk|]. split; [exact Hs|].
    split; reflexivity.
  Qed.

  (** ** Every execution of the client *)
  Definition not_ok {S} (o : option (S * res unit)) : Prop := forall s, o <> Some (s, Ok tt).
  Definition only_reads (t : list ev) : Prop := forall x, In x t -> exists r, x = ERead r.

  (** The client got [m2] and [f3] and accepted both; [c3] is the clear text of
      [f3], [sg] its own signature. *)
  Definition client_facts (sig e : keypair) (tk : Z) (m1 m2 f3 key c3 sg : bytes) : Prop :=
    length (kp_pub e) = 32%nat /\ length key = 32%nat /\
    l_beforenm L (field 6 32 m2) (kp_sec e) = Ok key /\
    opens L key 2 f3 c3 /\ length c3 = 102%nat /\ m3_ctor c3 = Ok c3 /\
    accepted L (field 6 32 c3) (field 38 64 c3) (server_text L m1 m2) /\
    signed L (kp_sec sig) (client_text L m1 m2) sg /\
    length (kp_pub sig) = 32%nat /\ length sg = 64%nat.

  (** The client's state at the end. *)
  Definition client_end (sig e : keypair) (buf : bool) (tk : Z) (key c3 sg : bytes) (s : cs) : Prop :=
    cs_session_key s = key /\ cs_m3 s = Some c3 /\
    let tk4 := snd (tk_get TK (snd (tk_first TK tk))) in
    let t4 := fst (tk_get TK (snd (tk_first TK tk))) in
    exists fl, cs_app s = Some (AC (EC key [] fl 4 (if buf then 1 else 3) SESSION_NONCE) tk4
                                  (if buf then Some (M4_wire t4 (kp_pub sig) sg) else None) []) /\
      cs_m4 s = Some (M4_wire t4 (kp_pub sig) sg).

  Ltac nok := intros ? ?; discriminate.
  Ltac oread := intros ? HIn; cbn [In] in HIn; repeat (destruct HIn as [<-|HIn]; [solve [eauto]|]); destruct HIn.

  Lemma client_exec : forall sig e buf wanted tk t o,
    exec (client_handshake L TK TC (cs_init sig (Some e) buf wanted tk)) t o ->
    let m1 := M1_wire (fst (tk_first TK tk)) (kp_pub e) None in
    let t4 := fst (tk_get TK (snd (tk_first TK tk))) in
    (t = [] /\ not_ok o) \/
    exists r t', t = EWrite [m1] false r :: t' /\
      ((only_reads t' /\ not_ok o) \/
       exists m2 f3 rest key c3 sg, r = Ok tt /\ t' = ERead (Ok m2) :: ERead (Ok f3) :: rest /\
         client_facts sig e tk m1 m2 f3 key c3 sg /\
         if buf then rest = [] /\ (o = None \/ exists s, o = Some (s, Ok tt) /\ client_end sig e buf tk key c3 sg s)
         else (rest = [] /\ not_ok o) \/
              exists f4 r2, seals L key 1 (M4_wire t4 (kp_pub sig) sg) f4 /\ rest = [EWrite [f4] false r2] /\
                (o = None \/ exists s, o = Some (s, r2) /\ client_end sig e buf tk key c3 sg s)).
  Proof.
    intros sig e buf wanted tk t o H m1 t4.
    apply io_eq_exec with (2 := client_eq L TK TC _) in H. unfold client_machine in H. cbn [cs_init cs_enc] in H.
    fold (cs_init sig (Some e) buf wanted tk) in H.
    destruct (client_start L TK _ e) as [s1 [w|x]] eqn:E1.
    2:{ left. apply exec_ret_any in H. destruct H as [-> [->| ->]]; split; auto; intros s HH; discriminate. }
    apply client_start_inv in E1. destruct E1 as (He & Hw & p1 & Hs1). cbn [cs_init cs_tk] in Hw, Hs1.
    change (w = m1) in Hw. subst w.
    apply exec_write_inv in H. destruct H as [[-> ->]|(r & t' & -> & H)].
    { left. split; auto. intros s HH; discriminate. }
    right. exists r, t'. split; [reflexivity|].
    destruct r as [[]|x].
    2:{ left. apply exec_ret_any in H. destruct H as [-> [->| ->]]; (split; [oread|nok]). }
    apply exec_read_inv in H. destruct H as [[-> ->]|(r & t'' & -> & H)].
    { left. split; [oread|nok]. }
    destruct r as [m2|x].
    2:{ left. apply exec_ret_any in H. destruct H as [-> [->| ->]]; (split; [oread|nok]). }
    destruct (client_m2 L TC s1 e m2) as [s2 [ch|x]] eqn:E2.
    2:{ left. apply exec_ret_any in H. destruct H as [-> [->| ->]]; (split; [oread|nok]). }
    apply client_m2_inv in E2. destruct E2 as (p2 & key & _ & _ & _ & HK & Hkl & -> & Hs2).
    apply exec_read_inv in H. destruct H as [[-> ->]|(r & rest & -> & H)].
    { left. split; [oread|nok]. }
    destruct r as [f3|x].
    2:{ left. apply exec_ret_any in H. destruct H as [-> [->| ->]]; (split; [oread|nok]). }
    destruct (client_m3 L TK TC s2 _ f3) as [s3 [m4|x]] eqn:E3.
    2:{ left. apply exec_ret_any in H. destruct H as [-> [->| ->]]; (split; [oread|nok]). }
    apply client_m3_inv in E3. destruct E3 as (c3 & fl & sg & H1 & H2 & H3 & _ & H4 & H5 & H6 & H7 & H8 & H9).
    right. exists m2, f3, rest, key, c3, sg. split; [reflexivity|]. split; [reflexivity|].
    assert (EQ1 : cs_m1_hash s2 = l_sha512 L m1) by (rewrite Hs2, Hs1; reflexivity).
    assert (EQ2 : cs_m2_hash s2 = l_sha512 L m2) by (rewrite Hs2; reflexivity).
    assert (EQ3 : cs_sig s2 = sig) by (rewrite Hs2, Hs1; reflexivity).
    assert (EQ4 : cs_tk s2 = snd (tk_first TK tk)) by (rewrite Hs2, Hs1; reflexivity).
    assert (EQ5 : cs_session_key s2 = key) by (rewrite Hs2; reflexivity).
    assert (EQ6 : cs_buffer_M4 s2 = buf) by (rewrite Hs2, Hs1; reflexivity).
    rewrite EQ1, EQ2, EQ3, EQ4 in *. clear Hs1 Hs2 p1 p2.
    split. { unfold client_facts. repeat (split; [assumption|]). assumption. }
    cbn [cs_init cs_buffer_M4] in H. destruct buf.
    - apply exec_ret_any in H. destruct H as [-> H]. split; [reflexivity|]. destruct H as [->| ->]; [left; reflexivity|].
      right. eexists. split; [reflexivity|]. subst s3. unfold client_end. split; [exact EQ5|]. split; [reflexivity|].
      exists fl. cbn. subst m4. split; reflexivity.
    - assert (HA : cs_app s3 = Some (ac_init (EC key [] fl 4 1 SESSION_NONCE) (snd (tk_get TK (snd (tk_first TK tk)))))) by (subst s3; reflexivity).
      rewrite HA in H. cbn [ac_enc ac_init] in H.
      destruct (ec_encrypt L _ m4) as [c|x] eqn:EE.
      2:{ left. apply exec_ret_any in H. destruct H as [-> [->| ->]]; split; auto; intros ? ?; discriminate. }
      apply exec_write_inv in H. destruct H as [[-> ->]|(r & t'' & -> & H)].
      { left. split; auto. intros ? ?; discriminate. }
      right. exists (ec_wrap c false), r. split.
      { exists c. split; [|apply ec_wrap_enc]. unfold ec_encrypt in EE. cbn [ec_write_nonce ec_session_nonce ec_key] in EE.
        rewrite nonce_bytes_ok in EE by lia. rewrite <- EE. subst m4. reflexivity. }
      apply exec_ret_any in H. destruct H as [-> H]. split; [reflexivity|]. destruct H as [->| ->]; [left; reflexivity|].
      right. eexists. split; [reflexivity|]. subst s3. unfold client_end. split; [exact EQ5|]. split; [reflexivity|].
      exists fl. cbn. subst m4. split; reflexivity.
  Qed.

  (** ** Server steps *)
  Lemma m2_built : forall t k p, m2_set_server_enc_key k (m2_set_time t m2_new) = Ok p ->
    length k = 32%nat /\ p = M2_wire false false t k.
  Proof.
    intros t k p H. assert (Hk : length k = 32%nat).
    { unfold m2_set_server_enc_key, fset_array in H. destruct (Nat.eqb_spec (length k) 32); congruence. }
    split; [exact Hk|]. pose proof (m2_build_ok false false t k Hk) as HB. unfold m2_build in HB.
    change (m2_set_last_flag false (m2_set_no_such_server false m2_new)) with m2_new in HB. congruence.
  Qed.

  Lemma m2_refusal : forall t, m2_bytes (m2_set_no_such_server true (m2_set_time t m2_new)) = M2_wire true true t (repeat x00 32).
  Proof. intro t. unfold m2_set_time, fput_int. rewrite le_enc_u32. reflexivity. Qed.

  Lemma m2_retime : forall t t' k, length k = 32%nat ->
    m2_bytes (m2_set_time t' (M2_wire false false t k)) = M2_wire false false t' k.
  Proof.
    intros t t' k Hk. unfold m2_set_time, fput_int. rewrite le_enc_u32.
    change (M2_wire false false t k) with (x02 :: x00 :: u32le t ++ k).
    unfold fput. rewrite u32le_length. cbn [firstn Nat.add skipn].
    assert (skipn 4 (u32le t ++ k) = k) as HS by (apply skipn_app_exact; apply u32le_length).
    cbn [u32le app skipn] in HS |- *. reflexivity.
  Qed.

  Lemma server_m1_inv : forall s chunk p s1 y, server_m1 L TK TC s chunk p = (s1, Ok y) -> m1_ctor chunk = Ok p ->
    tc_first TC (m1_time p) = Ok tt /\
    match y with
    | None => s1 = ss_set_m1_hash (l_sha512 L chunk) (ss_set_m1 (Some p) s) /\
              (m1_flag p = true -> m1_server_sig_key p = Ok (kp_pub (ss_sig s)))
    | Some m => m = M2_wire true true (fst (tk_first TK (ss_tk s))) (repeat x00 32) /\
                m1_flag p = true /\ (exists k, m1_server_sig_key p = Ok k /\ k <> kp_pub (ss_sig s)) /\
                s1 = ss_set_tk (snd (tk_first TK (ss_tk s))) (ss_set_m1_hash (l_sha512 L chunk) (ss_set_m1 (Some p) s))
    end.
  Proof.
    intros s chunk p s1 y H Hp. unfold server_m1 in H.
    destruct (tc_first TC (m1_time p)) as [[]|x]; [|discriminate]. split; [reflexivity|].
    destruct (m1_flag p).
    - destruct (m1_server_sig_key p) as [k|x] eqn:EK; [|discriminate].
      destruct (bytes_eqb (kp_pub (ss_sig s)) k) eqn:EQ; cbn [negb] in H.
      + injection H as <- <-. apply bytes_eqb_eq in EQ. subst k. auto.
      + destruct (tk_first TK (ss_tk s)) as [t1 tk1]. injection H as <- <-. apply bytes_eqb_neq in EQ.
        split; [apply m2_refusal|]. split; [reflexivity|]. split; [|reflexivity]. exists k. auto.
    - injection H as <- <-. split; [reflexivity|discriminate].
  Qed.

  Lemma server_m2_inv : forall s e s2 m2, server_m2 TK s e = (s2, Ok m2) ->
    length (kp_pub e) = 32%nat /\ m2 = M2_wire false false (fst (tk_first TK (ss_tk s))) (kp_pub e) /\
    s2 = ss_set_m2 (Some m2) (ss_set_tk (snd (tk_first TK (ss_tk s))) s).
  Proof.
    intros s e s2 m2 H. unfold server_m2 in H. destruct (tk_first TK (ss_tk s)) as [t1 tk1].
    destruct (m2_set_server_enc_key _ _) as [p|x] eqn:E; [|discriminate]. injection H as <- <-.
    destruct (m2_built _ _ _ E) as [Hk ->]. auto.
  Qed.

  (** times of M2 and M3 and the keeper's state afterwards *)
  Definition server_times (buf : bool) (tk : Z) : Z * Z * Z :=
    let tk1 := snd (tk_first TK tk) in
    if buf then (fst (tk_first TK tk1), fst (tk_first TK tk1), snd (tk_first TK tk1))
    else (fst (tk_first TK tk), fst (tk_get TK tk1), snd (tk_get TK tk1)).

  Lemma seal_frame : forall key rd wr sn c m pb fl, 0 <= wr < 2 ^ 64 -> sn = SESSION_NONCE ->
    ec_encrypt L (EC key pb fl rd wr sn) m = Ok c -> seals L key wr m (ec_wrap c false).
  Proof.
    intros key rd wr sn c m pb fl Hw -> H. exists c. split; [|apply ec_wrap_enc].
    unfold ec_encrypt in H. cbn [ec_write_nonce ec_session_nonce ec_key] in H.
    rewrite nonce_bytes_ok in H by auto. exact H.
  Qed.

  Lemma server_m3_inv : forall s e p m1 hold s3 fs t0, server_m3 L TK s e p hold = (s3, Ok fs) -> m1_ctor m1 = Ok p ->
    length (kp_pub e) = 32%nat ->
    (hold = None \/ hold = Some (M2_wire false false t0 (kp_pub e))) ->
    exists key sg f3 h2 t3 tk3, l_beforenm L (field 10 32 m1) (kp_sec e) = Ok key /\ length key = 32%nat /\
      length (kp_pub (ss_sig s)) = 32%nat /\ length sg = 64%nat /\
      signed L (kp_sec (ss_sig s)) (SIG1_PREFIX ++ ss_m1_hash s ++ h2) sg /\
      seals L key 2 (M3_wire t3 (kp_pub (ss_sig s)) sg) f3 /\
      ss_session_key s3 = key /\ ss_m1_hash s3 = ss_m1_hash s /\ ss_m2_hash s3 = h2 /\ ss_is_done s3 = ss_is_done s /\
      ss_client_sig_key s3 = ss_client_sig_key s /\
      ss_app s3 = Some (AC (EC key [] false 1 4 SESSION_NONCE) tk3 None []) /\
      match hold with
      | None => fs = [f3] /\ h2 = ss_m2_hash s /\ (t3, tk3) = tk_get TK (ss_tk s)
      | Some _ => let m2 := M2_wire false false t3 (kp_pub e) in
                  fs = [m2; f3] /\ h2 = l_sha512 L m2 /\ (t3, tk3) = tk_first TK (ss_tk s)
      end.
  Proof.
    intros s e p m1 hold s3 fs t0 H Hp He Hh. unfold server_m3 in H.
    destruct (compute_shared_key _ _ _) as [key|x] eqn:EK; [|discriminate].
    destruct (ec_init key SERVER SESSION_NONCE) as [ch|x] eqn:EI; [|discriminate].
    destruct (shared_key_inv _ _ _ EK) as (_ & _ & HK).
    destruct (ec_init_ok _ _ _ _ EI) as [Hl ->].
    unfold m1_client_enc_key in HK. rewrite (m1_ctor_field m1) in HK by (auto; lia).
    destruct Hh as [-> | ->].
    - destruct (tk_get TK (ss_tk s)) as [t3 tk3].
      destruct (m34_set_sig_key _ _) as [q1|x] eqn:Q1; [|discriminate].
      destruct (l_sign _ _ _) as [sm|x] eqn:EG; [|discriminate].
      destruct (m34_set_signature _ _) as [q2|x] eqn:Q2; [|discriminate].
      destruct (ec_encrypt L _ q2) as [c|x] eqn:EE; [|discriminate].
      destruct (m34_built x03 _ _ _ _ _ Q1 Q2) as (Hk & Hs & ->).
      apply seal_frame in EE; [|lia|reflexivity]. injection H as <- <-.
      exists key, (firstn SIGN_BYTES sm), (ec_wrap c false), (ss_m2_hash s), t3, tk3.
      repeat (split; [solve [auto | reflexivity | eexists; split; [exact EG|reflexivity] | exact EE]|]). auto.
    - destruct (tk_first TK (ss_tk s)) as [t3 tk3]. rewrite m2_retime in H by auto.
      destruct (m34_set_sig_key _ _) as [q1|x] eqn:Q1; [|discriminate].
      destruct (l_sign _ _ _) as [sm|x] eqn:EG; [|discriminate].
      destruct (m34_set_signature _ _) as [q2|x] eqn:Q2; [|discriminate].
      destruct (ec_encrypt L _ q2) as [c|x] eqn:EE; [|discriminate].
      destruct (m34_built x03 _ _ _ _ _ Q1 Q2) as (Hk & Hs & ->).
      apply seal_frame in EE; [|lia|reflexivity]. injection H as <- <-.
      exists key, (firstn SIGN_BYTES sm), (ec_wrap c false), (l_sha512 L (M2_wire false false t3 (kp_pub e))), t3, tk3.
      repeat (split; [solve [auto | reflexivity | eexists; split; [exact EG|reflexivity] | exact EE]|]). cbv zeta. auto.
  Qed.

  Lemma server_m4_inv : forall s key tk3 f4 s4 x, ss_app s = Some (AC (EC key [] false 1 4 SESSION_NONCE) tk3 None []) ->
    server_m4 L TC s f4 = (s4, x) ->
    ss_session_key s4 = ss_session_key s /\ ss_is_done s4 = ss_is_done s /\
    (x = Ok tt -> exists c4 fl, opens L key 1 f4 c4 /\
       accepted L (field 6 32 c4) (field 38 64 c4) (SIG2_PREFIX ++ ss_m1_hash s ++ ss_m2_hash s) /\
       (exists m4, m4_ctor c4 = Ok m4 /\ tc_check TC (m34_time m4) = Ok tt) /\
       ss_client_sig_key s4 = Some (field 6 32 c4) /\
       ss_app s4 = Some (AC (EC key [] fl 3 4 SESSION_NONCE) tk3 None [])).
  Proof.
    intros s key tk3 f4 s4 x HA H. unfold server_m4 in H. rewrite HA in H. cbn [ac_enc ac_tk] in H.
    destruct (ec_process L _ f4) as [ch1 [c4|y]] eqn:EP.
    2:{ injection H as <- <-. split; [reflexivity|]. split; [reflexivity|discriminate]. }
    destruct (process_opens _ _ _ _ EP eq_refl) as [HO (fl & ->)]. cbn [ec_key ec_read_nonce ec_pushback ec_write_nonce ec_session_nonce] in *.
    destruct (m4_ctor c4) as [m4|y] eqn:E4.
    2:{ injection H as <- <-. split; [reflexivity|]. split; [reflexivity|discriminate]. }
    destruct (tc_check TC (m34_time m4)) as [[]|y] eqn:ET.
    2:{ injection H as <- <-. split; [reflexivity|]. split; [reflexivity|discriminate]. }
    assert (Hf : forall off n, (1 <= off)%nat -> (off + n <= 102)%nat -> fget off n m4 = field off n c4).
    { intros. eapply (fixed_ctor_field TYPE_M4 (z2b TYPE_M4) 101); [exact E4|lia|lia]. }
    unfold m34_signature, m34_sig_key in H. rewrite !Hf in H by lia. injection H as <- <-.
    split; [reflexivity|]. split; [reflexivity|]. intro Hx.
    exists c4, fl. split; [exact HO|]. split.
    - destruct (l_sign_open _ _ _) as [o|y] eqn:EO; [exists o; exact EO|destruct y; discriminate].
    - split; [eauto|]. split; reflexivity.
  Qed.

  (** ** Every execution of the server *)
  Definition server_facts (sig e : keypair) (m1 m2 f3 key sg : bytes) (t2 t3 : Z) : Prop :=
    length (kp_pub e) = 32%nat /\ length key = 32%nat /\ m2 = M2_wire false false t2 (kp_pub e) /\
    l_beforenm L (field 10 32 m1) (kp_sec e) = Ok key /\
    length (kp_pub sig) = 32%nat /\ length sg = 64%nat /\
    signed L (kp_sec sig) (server_text L m1 m2) sg /\
    seals L key 2 (M3_wire t3 (kp_pub sig) sg) f3.

  Definition server_end (m1 m2 f4 key : bytes) (tk3 : Z) (s : ss) : Prop :=
    ss_session_key s = key /\ ss_is_done s = false /\
    exists c4 fl, opens L key 1 f4 c4 /\ accepted L (field 6 32 c4) (field 38 64 c4) (client_text L m1 m2) /\
      ss_client_sig_key s = Some (field 6 32 c4) /\
      ss_app s = Some (AC (EC key [] fl 3 4 SESSION_NONCE) tk3 None []).

  Definition server_done_a2 (o : option (ss * res unit)) (r2 : res unit) : Prop :=
    o = None \/ exists s, o = Some (s, r2) /\ ss_app s = None /\ ss_client_sig_key s = None /\
                          (ss_is_done s = true <-> r2 = Ok tt).

  Lemma server_exec : forall sig e buf a2 tk t o,
    exec (server_handshake L TK TC (ss_init sig (Some e) buf a2 tk)) t o ->
    (t = [] /\ not_ok o) \/
    (exists x, t = [ERead (Err x)] /\ not_ok o) \/
    exists m1 t', t = ERead (Ok m1) :: t' /\
      ((t' = [] /\ not_ok o) \/
       (exists a r2, m1_ctor m1 = Err BadPeer /\ a1_ctor m1 = Ok a /\
          t' = [EWrite [pkt_bytes (match a2 with Some p => p | None => a2_default end)] true r2] /\ server_done_a2 o r2) \/
       (exists p k r2, m1_ctor m1 = Ok p /\ m1_flag p = true /\ m1_server_sig_key p = Ok k /\ k <> kp_pub sig /\
          t' = [EWrite [M2_wire true true (fst (tk_first TK tk)) (repeat x00 32)] true r2] /\ not_ok o) \/
       (exists p, m1_ctor m1 = Ok p /\ tc_first TC (m1_time p) = Ok tt /\
          (m1_flag p = true -> m1_server_sig_key p = Ok (kp_pub sig)) /\
          let '(t2, t3, tk3) := server_times buf tk in
          let m2 := M2_wire false false t2 (kp_pub e) in
          (buf = false /\ (exists r2, t' = [EWrite [m2] false r2]) /\ not_ok o) \/
          exists f3 key sg r3 t'', server_facts sig e m1 m2 f3 key sg t2 t3 /\
            t' = (if buf then [EWrite [m2; f3] false r3] else [EWrite [m2] false (Ok tt); EWrite [f3] false r3]) ++ t'' /\
            ((only_reads t'' /\ not_ok o) \/
             exists f4, r3 = Ok tt /\ t'' = [ERead (Ok f4)] /\
               exists s, o = Some (s, Ok tt) /\ server_end m1 m2 f4 key tk3 s))).
  Proof.
    intros sig e buf a2 tk t o H.
    apply io_eq_exec with (2 := server_eq L TK TC _) in H. unfold server_machine in H. cbn [ss_init ss_enc] in H.
    fold (ss_init sig (Some e) buf a2 tk) in H.
    apply exec_read_inv in H. destruct H as [[-> ->]|(r & t' & -> & H)]; [left; split; [reflexivity|nok]|].
    right. destruct r as [m1|x].
    2:{ left. exists x. apply exec_ret_any in H. destruct H as [-> [->| ->]]; (split; [reflexivity|nok]). }
    right. exists m1, t'. split; [reflexivity|].
    destruct (m1_ctor m1) as [p|x] eqn:E1.
    2:{ assert (x = BadPeer) by (eapply m1_ctor_err; exact E1). subst x.
        destruct (a1_ctor m1) as [a|x] eqn:EA.
        2:{ left. apply exec_ret_any in H. destruct H as [-> [->| ->]]; (split; [reflexivity|nok]). }
        apply exec_write_inv in H. destruct H as [[-> ->]|(r2 & t'' & -> & H)]; [left; split; [reflexivity|nok]|].
        right. left. exists a, r2. split; [reflexivity|]. split; [reflexivity|]. destruct r2 as [[]|x].
        - apply exec_ret_any in H. destruct H as [-> [->| ->]]; (split; [reflexivity|]); [left; reflexivity|].
          right. eexists. split; [reflexivity|]. split; [reflexivity|]. split; [reflexivity|]. split; reflexivity.
        - apply exec_ret_any in H. destruct H as [-> [->| ->]]; (split; [reflexivity|]); [left; reflexivity|].
          right. eexists. split; [reflexivity|]. split; [reflexivity|]. split; [reflexivity|]. split; discriminate. }
    destruct (server_m1 L TK TC _ m1 p) as [s1 [[w|]|x]] eqn:E2.
    - destruct (server_m1_inv _ _ _ _ _ E2 E1) as (_ & -> & HF & (k & HK & Hne) & _).
      apply exec_write_inv in H. destruct H as [[-> ->]|(r2 & t'' & -> & H)]; [left; split; [reflexivity|nok]|].
      right. right. left. exists p, k, r2. repeat (split; [solve [auto]|]).
      apply exec_ret_any in H. destruct H as [-> [->| ->]]; (split; [reflexivity|]); destruct r2; nok.
    - destruct (server_m1_inv _ _ _ _ _ E2 E1) as (HT & Hs1 & HF).
      destruct (server_m2 TK s1 e) as [s2 [m2|x]] eqn:E3.
      2:{ left. apply exec_ret_any in H. destruct H as [-> [->| ->]]; (split; [reflexivity|nok]). }
      apply server_m2_inv in E3. destruct E3 as (He & Hm2 & Hs2).
      assert (A1 : ss_tk s1 = tk) by (subst s1; reflexivity).
      assert (A2 : ss_sig s2 = sig) by (subst s2 s1; reflexivity).
      assert (A3 : ss_m1_hash s2 = l_sha512 L m1) by (subst s2 s1; reflexivity).
      assert (A4 : ss_tk s2 = snd (tk_first TK tk)) by (subst s2 s1; reflexivity).
      assert (A5 : ss_is_done s2 = false) by (subst s2 s1; reflexivity).
      clear Hs1 E2. rewrite A1 in *. clear Hs2.
      assert (TAIL : forall s3 key tk3 sg f3 m2 t2 t3 r3 t'',
        ss_app s3 = Some (AC (EC key [] false 1 4 SESSION_NONCE) tk3 None []) -> ss_session_key s3 = key ->
        ss_m1_hash s3 = l_sha512 L m1 -> ss_m2_hash s3 = l_sha512 L m2 -> ss_is_done s3 = false ->
        server_facts sig e m1 m2 f3 key sg t2 t3 ->
        exec (match r3 with Err x => Ret (s3, Err x) | Ok _ =>
                Read (fun r => match r with Err x => Ret (s3, Err x) | Ok f => Ret (server_m4 L TC s3 f) end) end) t'' o ->
        ((only_reads t'' /\ not_ok o) \/
             exists f4, r3 = Ok tt /\ t'' = [ERead (Ok f4)] /\
               exists s, o = Some (s, Ok tt) /\ server_end m1 m2 f4 key tk3 s)).
      { clear. intros s3 key tk3 sg f3 m2 t2 t3 r3 t'' HA HK H1 H2 HD HF H. destruct r3 as [[]|x].
        2:{ left. apply exec_ret_any in H. destruct H as [-> [->| ->]]; (split; [oread|nok]). }
        apply exec_read_inv in H. destruct H as [[-> ->]|(r & t' & -> & H)]; [left; split; [oread|nok]|].
        destruct r as [f4|x].
        2:{ left. apply exec_ret_any in H. destruct H as [-> [->| ->]]; (split; [oread|nok]). }
        apply exec_ret_any in H. destruct H as [-> [->| ->]]; [left; split; [oread|nok]|].
        destruct (server_m4 L TC s3 f4) as [s4 [[]|x]] eqn:E4; [|left; split; [oread|nok]].
        destruct (server_m4_inv _ _ _ _ _ _ HA E4) as (B1 & B2 & B3). destruct (B3 eq_refl) as (c4 & fl & C1 & C2 & _ & C3 & C4).
        right. exists f4. split; [reflexivity|]. split; [reflexivity|]. exists s4. split; [reflexivity|].
        split; [congruence|]. split; [congruence|]. exists c4, fl. rewrite H1, H2 in C2. auto. }
      cbn [ss_init ss_buffer_m2] in H. unfold server_rest in H. destruct buf.
      + destruct (server_m3 L TK s2 e p (Some m2)) as [s3 [fs|x]] eqn:E4.
        2:{ left. apply exec_ret_any in H. destruct H as [-> [->| ->]]; (split; [reflexivity|nok]). }
        apply (server_m3_inv _ _ _ m1 _ _ _ (fst (tk_first TK tk))) in E4; [|exact E1|exact He|right; f_equal; exact Hm2].
        destruct E4 as (key & sg & f3 & h2 & t3 & tk3 & B1 & B2 & B3 & B4 & B5 & B6 & B7 & B8 & B9 & B10 & B11 & B12 & B13 & B14 & B15).
        rewrite A2, A3, A4, A5 in *. rewrite B14 in B5, B9. subst fs.
        apply exec_write_inv in H. destruct H as [[-> ->]|(r3 & t'' & -> & H)]; [left; split; [reflexivity|nok]|].
        right. right. right. exists p. split; [reflexivity|]. split; [exact HT|]. split; [exact HF|].
        unfold server_times. rewrite <- B15. cbn [fst snd]. right.
        assert (SF : server_facts sig e m1 (M2_wire false false t3 (kp_pub e)) f3 key sg t3 t3).
        { exact (conj He (conj B2 (conj eq_refl (conj B1 (conj B3 (conj B4 (conj B5 B6))))))). }
        exists f3, key, sg, r3, t''. split; [exact SF|]. split; [reflexivity|].
        eapply TAIL; [exact B12|exact B7|exact B8|exact B9|exact B10|exact SF|exact H].
      + apply exec_write_inv in H. destruct H as [[-> ->]|(r2 & t'' & -> & H)]; [left; split; [reflexivity|nok]|].
        right. right. right. exists p. split; [reflexivity|]. split; [exact HT|]. split; [exact HF|].
        unfold server_times.
        assert (HB : m2_bytes m2 = m2) by (subst m2; rewrite m2_bytes_wire by exact He; reflexivity). rewrite HB in *.
        rewrite <- Hm2. destruct r2 as [[]|x].
        2:{ left. apply exec_ret_any in H. split; [reflexivity|]. destruct H as [-> [->| ->]]; (split; [eexists; reflexivity|nok]). }
        destruct (server_m3 L TK _ e p None) as [s3 [fs|x]] eqn:E4.
        2:{ left. apply exec_ret_any in H. split; [reflexivity|]. destruct H as [-> [->| ->]]; (split; [eexists; reflexivity|nok]). }
        apply (server_m3_inv _ _ _ m1 _ _ _ 0) in E4; [|exact E1|exact He|left; reflexivity].
        destruct E4 as (key & sg & f3 & h2 & t3 & tk3 & B1 & B2 & B3 & B4 & B5 & B6 & B7 & B8 & B9 & B10 & B11 & B12 & B13 & B14 & B15).
        cbn [ss_set_m2_hash ss_sig ss_m1_hash ss_m2_hash ss_tk ss_is_done] in B3, B5, B6, B8, B10, B14, B15.
        rewrite A2, A3, A4, A5 in *. rewrite B14 in B5, B9. subst fs.
        apply exec_write_inv in H. destruct H as [[-> ->]|(r3 & t3' & -> & H)].
        { left. split; [reflexivity|]. split; [eexists; reflexivity|nok]. }
        right. rewrite <- B15. cbn [fst snd].
        assert (SF : server_facts sig e m1 m2 f3 key sg (fst (tk_first TK tk)) t3).
        { exact (conj He (conj B2 (conj Hm2 (conj B1 (conj B3 (conj B4 (conj B5 B6))))))). }
        exists f3, key, sg, r3, t3'. split; [exact SF|]. split; [reflexivity|].
        eapply TAIL; [exact B12|exact B7|exact B8|exact B9|exact B10|exact SF|exact H].
    - left. apply exec_ret_any in H. destruct H as [-> [->| ->]]; (split; [reflexivity|nok]).
  Qed.
End Steps.

Lemma run2_exec : forall A B n (p : io A) (q : io B) ab ba,
  exec p (fst (fst (run2 n p q ab ba))) (snd (fst (run2 n p q ab ba))) /\
  exec q (fst (snd (run2 n p q ab ba))) (snd (snd (run2 n p q ab ba))).
Proof.
  assert (C : forall A (p : io A), exec p [] None) by (intros; constructor).
  assert (R : forall A (p : io A), exec p [] (match p with Ret a => Some a | _ => None end)) by (intros A [a|k|ms l k]; constructor).
  intros A B n. induction n as [|n IH]; intros p q ab ba; cbn [run2]; [split; constructor|].
  assert (Q : forall ret, ret = match p with Ret a => Some a | _ => None end ->
    let z := match q, ab with
          | Write ms l k, _ =>
              let '(x, (t, b)) := run2 n p (k (Ok tt)) ab (ba ++ ms) in (x, (EWrite ms l (Ok tt) :: t, b))
          | Read k, m :: ab' =>
              let '(x, (t, b)) := run2 n p (k (Ok m)) ab' ba in (x, (ERead (Ok m) :: t, b))
          | Ret b, _ => (([], ret), ([], Some b))
          | _, _ => (([], ret), ([], None))
          end in exec p (fst (fst z)) (snd (fst z)) /\ exec q (fst (snd z)) (snd (snd z))).
  { intros ret ->. destruct q as [b|k|ms l k]; cbn [fst snd].
    - split; [apply R|constructor].
    - destruct ab as [|m ab']; cbn [fst snd]; [split; [apply R|apply C]|].
      specialize (IH p (k (Ok m)) ab' ba). destruct (run2 n p (k (Ok m)) ab' ba) as [[? ?] [? ?]]. cbn [fst snd] in *.
      destruct IH. split; [assumption|]. constructor. assumption.
    - specialize (IH p (k (Ok tt)) ab (ba ++ ms)). destruct (run2 n p (k (Ok tt)) ab (ba ++ ms)) as [[? ?] [? ?]]. cbn [fst snd] in *.
      destruct IH. split; [assumption|]. constructor. assumption. }
  destruct p as [a|k|ms l k].
  - destruct ba; apply Q; reflexivity.
  - destruct ba as [|m ba']; [apply Q; reflexivity|].
    specialize (IH (k (Ok m)) q ab ba'). destruct (run2 n (k (Ok m)) q ab ba') as [[? ?] [? ?]]. cbn [fst snd] in *.
    destruct IH. split; [|assumption]. constructor. assumption.
  - specialize (IH (k (Ok tt)) q (ab ++ ms) ba). destruct (run2 n (k (Ok tt)) q (ab ++ ms) ba) as [[? ?] [? ?]]. cbn [fst snd] in *.
    destruct IH. split; [|assumption]. constructor. assumption.
Qed.
