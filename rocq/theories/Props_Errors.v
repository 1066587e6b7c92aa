(** C97: which exceptions a handshake can raise, for every peer and every channel
    (v2/salt_client_session.py, v2/salt_server_session.py, exceptions.py). *)
From Coq Require Import List ZArith Bool Strings.Byte Lia ZifyBool ZifyNat ZifyN.
From Verif Require Import PyBase PyBase_proofs IO IO_proofs Packets Packets_proofs Packets_proofs2 A1A2_proofs
  Crypto Crypto_proofs Time EncChannel EncUse EncChannel_proofs AppChannel AppUse AppChannel_proofs Session Session_proofs
  SessUse Session_steps Sched_proofs Session_fwd Session_sched Spec PacketOps Props_Packets Props_App Props_Session Props_Session2
  Props_Session3.
Import ListNotations.
Open Scope Z_scope.
Ltac Zify.zify_post_hook ::= Z.div_mod_to_equations.

(** ** Specification *)

(** The caller's own channel failed: the last thing done was a read or a write that
    raised [x]. *)
Definition channel_raised (t : list ev) (x : exn) : Prop :=
  exists t0, t = t0 ++ [ERead (Err x)] \/ exists ms l, t = t0 ++ [EWrite ms l (Err x)].

(** What can be wrong with a frame of the peer under [key] and counter [n]:
    it is empty, or it is not a box of the peer, or [bad] says what is wrong with the
    text inside. *)
Inductive bad_frame (L : lib) (key : bytes) (n : Z) (f : bytes) (bad : bytes -> exn -> Prop) : exn -> Prop :=
| bf_empty : f = [] -> bad_frame L key n f bad AttributeError
| bf_refused : forall x, is_com x = true -> bad_frame L key n f bad x
| bf_text : forall c x, opens L key n f c -> bad c x -> bad_frame L key n f bad x.

(** Every way in which the client's handshake can raise.  [t] is everything the
    client did on its channel. *)
Inductive client_raises (L : lib) (TC : tchecker) (e : keypair) : list ev -> exn -> Prop :=
| cr_channel : forall t x, channel_raised t x -> client_raises L TC e t x
| cr_m2 : forall w m2 x, is_com x = true -> client_raises L TC e [w; ERead (Ok m2)] x
| cr_m2_time : forall w m2 x, tc_first TC (le_dec (field 2 4 m2)) = Err x -> client_raises L TC e [w; ERead (Ok m2)] x
| cr_m2_key : forall w m2 x, l_beforenm L (field 6 32 m2) (kp_sec e) = Err x -> client_raises L TC e [w; ERead (Ok m2)] x
| cr_m3 : forall w m2 f3 key x, l_beforenm L (field 6 32 m2) (kp_sec e) = Ok key ->
    bad_frame L key 2 f3 (fun c x => (length c <> 102%nat /\ x = AssertionError) \/ tc_check TC (le_dec (field 2 4 c)) = Err x) x ->
    client_raises L TC e [w; ERead (Ok m2); ERead (Ok f3)] x.

(** Every way in which the server's handshake can raise. *)
Inductive server_raises (L : lib) (TC : tchecker) (e : keypair) : list ev -> exn -> Prop :=
| sr_channel : forall t x, channel_raised t x -> server_raises L TC e t x
| sr_first : forall f x, is_com x = true -> server_raises L TC e [ERead (Ok f)] x
| sr_short : forall f, f <> [] -> (length f < 5)%nat -> server_raises L TC e [ERead (Ok f)] ValueError
| sr_time : forall f x, tc_first TC (le_dec (field 6 4 f)) = Err x -> server_raises L TC e [ERead (Ok f)] x
| sr_foreign : forall f m2, server_raises L TC e [ERead (Ok f); EWrite [m2] true (Ok tt)] NoSuchServerException
| sr_key : forall f t x, l_beforenm L (field 10 32 f) (kp_sec e) = Err x ->
    (t = [] \/ exists m2, t = [EWrite [m2] false (Ok tt)]) -> server_raises L TC e (ERead (Ok f) :: t) x
| sr_m4 : forall f ws f4 key x, l_beforenm L (field 10 32 f) (kp_sec e) = Ok key ->
    bad_frame L key 1 f4 (fun c x => tc_check TC (le_dec (field 2 4 c)) = Err x) x ->
    server_raises L TC e (ERead (Ok f) :: ws ++ [ERead (Ok f4)]) x.

(** Shared keys have 32 bytes. *)
Definition key_size (L : lib) : Prop := forall pk sk k, l_beforenm L pk sk = Ok k -> length k = 32%nat.

(** ** Proofs *)
Lemma process_err : forall L key n f fl wr s1 x, nacl_fail_laws L -> 0 <= n < 2 ^ 64 ->
  ec_process L (EC key [] fl n wr SESSION_NONCE) f = (s1, Err x) ->
  (f = [] /\ x = AttributeError) \/ x = BadPeer.
Proof.
  intros L key n f fl wr s1 x HF Hn H. unfold ec_process, ec_unwrap in H.
  destruct f as [|t [|b body]].
  - left. split; [reflexivity|]. vm_compute in H. congruence.
  - right. rewrite ep_ctor_short in H. congruence.
  - right. rewrite ep_ctor_spec in H. destruct (_ && _); [|congruence].
    unfold ep_body in H. cbn [p_opt opt_field] in H. unfold ec_decrypt in H.
    cbn [ec_set_last_flag ec_read_nonce ec_session_nonce ec_key] in H.
    rewrite nonce_bytes_ok in H by lia.
    destruct (l_open_afternm L body _ key) as [m|e'] eqn:EO; [discriminate|].
    rewrite (law_open_exn L HF _ _ _ _ EO) in H. congruence.
Qed.

Lemma shared_err : forall L sp ep e pk x, nacl_laws L sp ep -> ep (kp_sec e) (kp_pub e) -> length pk = 32%nat ->
  compute_shared_key L (kp_sec e) pk = Err x -> l_beforenm L pk (kp_sec e) = Err x.
Proof.
  intros L sp ep e pk x HL He Hp H. unfold compute_shared_key, BOX_SECRETKEYBYTES, BOX_PUBLICKEYBYTES, zlen in H.
  pose proof (law_encsk_len _ _ _ HL _ _ He) as SL. unfold bytes in *. rewrite Hp, SL in H. exact H.
Qed.

Lemma ec_init_err : forall L sk pk k r x, key_size L -> compute_shared_key L sk pk = Ok k ->
  ec_init k r SESSION_NONCE = Err x -> False.
Proof.
  intros L sk pk k r x HS HK H. apply shared_key_inv in HK. destruct HK as (_ & _ & HK). apply HS in HK.
  unfold ec_init, BOX_SECRETKEYBYTES, zlen in H. rewrite HK in H. discriminate.
Qed.

Section Errors.
  Variable L : lib.
  Variables sp ep : bytes -> bytes -> Prop.
  Hypothesis HL : nacl_laws L sp ep.
  Hypothesis HF : nacl_fail_laws L.
  Hypothesis HS : key_size L.
  Variable TK : tkeeper.
  Variable TC : tchecker.

  Lemma client_m3_err : forall s key f s3 x, sp (kp_sec (cs_sig s)) (kp_pub (cs_sig s)) ->
    client_m3 L TK TC s (EC key [] false 2 1 SESSION_NONCE) f = (s3, Err x) ->
    bad_frame L key 2 f (fun c x => (length c <> 102%nat /\ x = AssertionError) \/ tc_check TC (le_dec (field 2 4 c)) = Err x) x.
  Proof.
    intros s key f s3 x Hsp H. unfold client_m3 in H.
    destruct (ec_process L _ f) as [ch1 [c3|y]] eqn:EP.
    2:{ injection H as _ <-. apply process_err in EP; [|exact HF|lia].
        destruct EP as [[-> ->]| ->]; [apply bf_empty; reflexivity|apply bf_refused; reflexivity]. }
    destruct (process_opens L _ _ _ _ EP eq_refl) as [HO (fl & ->)]. cbn [ec_key ec_read_nonce] in HO.
    destruct (Z.eqb_spec (zlen c3) 102) as [Hl|Hl]; cbn [negb] in H.
    2:{ injection H as _ <-. apply bf_text with c3; [exact HO|]. left. split; [|reflexivity].
        intro E. apply Hl. unfold zlen. unfold bytes in *. rewrite E. reflexivity. }
    destruct (m3_ctor c3) as [m3|y] eqn:E3.
    2:{ injection H as _ <-. apply fixed_ctor_err in E3. subst y. apply bf_refused. reflexivity. }
    assert (Hf : forall off n, (1 <= off)%nat -> (off + n <= 102)%nat -> fget off n m3 = field off n c3).
    { intros. eapply (fixed_ctor_field TYPE_M3 (z2b TYPE_M3) 101); [exact E3|lia|lia]. }
    destruct (tc_check TC (m34_time m3)) as [[]|y] eqn:ET.
    2:{ injection H as _ <-. apply bf_text with c3; [exact HO|]. right. rewrite <- Hf by lia. exact ET. }
    destruct (l_sign_open _ _ _) as [o|y] eqn:ES.
    2:{ pose proof (law_sign_open_exn L HF _ _ _ ES) as ->. injection H as _ <-. apply bf_refused. reflexivity. }
    exfalso. destruct (tk_get TK (cs_tk s)) as [t4 tk4].
    destruct (law_sign _ _ _ HL _ _ (SIG2_PREFIX ++ cs_m1_hash s ++ cs_m2_hash s) Hsp) as (sg & G1 & G2 & G3).
    pose proof (law_sigpk_len _ _ _ HL _ _ Hsp) as PL.
    destruct (m34_fwd (z2b TYPE_M4) t4 (kp_pub (cs_sig s)) sg PL G1) as (p1 & M1 & M2).
    change m4_new with (z2b TYPE_M4 :: zeros 101) in H. rewrite M1, G2 in H.
    unfold SIGN_BYTES in H.
    replace (firstn 64 (sg ++ SIG2_PREFIX ++ cs_m1_hash s ++ cs_m2_hash s)) with sg in H
      by (symmetry; apply firstn_app_exact; exact G1).
    rewrite M2 in H. discriminate.
  Qed.

  Lemma client_m2_err : forall s e chunk s2 x, ep (kp_sec e) (kp_pub e) ->
    client_m2 L TC s e chunk = (s2, Err x) ->
    is_com x = true \/ tc_first TC (le_dec (field 2 4 chunk)) = Err x \/ l_beforenm L (field 6 32 chunk) (kp_sec e) = Err x.
  Proof.
    intros s e chunk s2 x He H. unfold client_m2 in H.
    destruct (m2_ctor chunk) as [m2|y] eqn:E.
    2:{ injection H as _ <-. apply fixed_ctor_err in E. subst y. auto. }
    assert (Hf : forall off n, (1 <= off)%nat -> (off + n <= 38)%nat -> fget off n m2 = field off n chunk).
    { intros. eapply (fixed_ctor_field TYPE_M2 (z2b TYPE_M2) 37); [exact E|lia|lia]. }
    destruct (tc_first TC (m2_time m2)) as [[]|y] eqn:ET.
    2:{ injection H as _ <-. right. left. rewrite <- Hf by lia. exact ET. }
    destruct (m2_no_such_server m2); [injection H as _ <-; auto|].
    unfold m2_server_enc_key in H. rewrite Hf in H by lia.
    destruct (compute_shared_key _ _ _) as [key|y] eqn:EK.
    2:{ injection H as _ <-. right. right. eapply shared_err; [exact HL|exact He|apply field_length|exact EK]. }
    destruct (ec_init key CLIENT SESSION_NONCE) as [c|y] eqn:EI; [discriminate|].
    exfalso. eapply ec_init_err; [exact HS|exact EK|exact EI].
  Qed.

  Lemma server_m4_err : forall s key tk3 f s4 x, ss_app s = Some (AC (EC key [] false 1 4 SESSION_NONCE) tk3 None []) ->
    server_m4 L TC s f = (s4, Err x) ->
    bad_frame L key 1 f (fun c x => tc_check TC (le_dec (field 2 4 c)) = Err x) x.
  Proof.
    intros s key tk3 f s4 x HA H. unfold server_m4 in H. rewrite HA in H. cbn [ac_enc ac_tk] in H.
    destruct (ec_process L _ f) as [ch1 [c4|y]] eqn:EP.
    2:{ injection H as _ <-. apply process_err in EP; [|exact HF|lia].
        destruct EP as [[-> ->]| ->]; [apply bf_empty; reflexivity|apply bf_refused; reflexivity]. }
    destruct (process_opens L _ _ _ _ EP eq_refl) as [HO (fl & ->)]. cbn [ec_key ec_read_nonce] in HO.
    destruct (m4_ctor c4) as [m4|y] eqn:E4.
    2:{ injection H as _ <-. apply fixed_ctor_err in E4. subst y. apply bf_refused. reflexivity. }
    assert (Hf : forall off n, (1 <= off)%nat -> (off + n <= 102)%nat -> fget off n m4 = field off n c4).
    { intros. eapply (fixed_ctor_field TYPE_M4 (z2b TYPE_M4) 101); [exact E4|lia|lia]. }
    destruct (tc_check TC (m34_time m4)) as [[]|y] eqn:ET.
    2:{ injection H as _ <-. apply bf_text with c4; [exact HO|]. rewrite <- Hf by lia. exact ET. }
    destruct (l_sign_open _ _ _) as [o|y] eqn:ES; [discriminate|].
    pose proof (law_sign_open_exn L HF _ _ _ ES) as ->. injection H as _ <-. apply bf_refused. reflexivity.
  Qed.

  Lemma server_m3_err : forall s e p f hold s3 x, sp (kp_sec (ss_sig s)) (kp_pub (ss_sig s)) -> ep (kp_sec e) (kp_pub e) ->
    m1_ctor f = Ok p -> server_m3 L TK s e p hold = (s3, Err x) -> l_beforenm L (field 10 32 f) (kp_sec e) = Err x.
  Proof.
    intros s e p f hold s3 x Hs He Hp H. unfold server_m3 in H.
    assert (EK' : m1_client_enc_key p = field 10 32 f) by (eapply m1_ctor_field; eauto; lia). rewrite EK' in H.
    destruct (compute_shared_key L _ _) as [key|y] eqn:EK.
    2:{ injection H as _ <-. eapply shared_err; [exact HL|exact He|apply field_length|exact EK]. }
    exfalso. destruct (ec_init key SERVER SESSION_NONCE) as [ch|y] eqn:EI; [|eapply ec_init_err; [exact HS|exact EK|exact EI]].
    apply ec_init_ok in EI. destruct EI as [Hk ->].
    destruct (match hold with Some _ => _ | None => _ end) as [[[t tk'] pre] s2].
    destruct (law_sign _ _ _ HL _ _ (SIG1_PREFIX ++ ss_m1_hash s2 ++ ss_m2_hash s2) Hs) as (sg & G1 & G2 & G3).
    pose proof (law_sigpk_len _ _ _ HL _ _ Hs) as PL.
    destruct (m34_fwd (z2b TYPE_M3) t (kp_pub (ss_sig s)) sg PL G1) as (p1 & M1 & M2).
    change m3_new with (z2b TYPE_M3 :: zeros 101) in H. rewrite M1, G2 in H.
    unfold SIGN_BYTES in H. replace (firstn 64 (sg ++ SIG1_PREFIX ++ ss_m1_hash s2 ++ ss_m2_hash s2)) with sg in H
      by (symmetry; apply firstn_app_exact; exact G1).
    rewrite M2 in H.
    destruct (encrypt_fwd L sp ep key [] false 1 2 ([z2b TYPE_M3; x00] ++ u32le t ++ kp_pub (ss_sig s) ++ sg) HL Hk) as (c & E1 & _); [lia|].
    rewrite E1 in H. discriminate.
  Qed.

  Lemma server_m1_err : forall s f p s1 x, m1_ctor f = Ok p -> server_m1 L TK TC s f p = (s1, Err x) ->
    tc_first TC (le_dec (field 6 4 f)) = Err x.
  Proof.
    intros s f p s1 x Hp H. unfold server_m1 in H.
    destruct (tc_first TC (m1_time p)) as [[]|y] eqn:ET.
    - exfalso. destruct (m1_flag p) eqn:EF; [|discriminate].
      destruct (m1_flag_key _ _ Hp EF) as [k Hk]. rewrite Hk in H.
      destruct (negb _); [|discriminate]. destruct (tk_first TK (ss_tk s)). discriminate.
    - injection H as _ <-. unfold m1_time, fget_int in ET. rewrite (m1_ctor_field f) in ET by (auto; lia). exact ET.
  Qed.

  Lemma a1_err : forall f x, a1_ctor f = Err x -> is_com x = true \/ (f <> [] /\ (length f < 5)%nat /\ x = ValueError).
  Proof.
    intros f x H. destruct f as [|b0 r0]; [discriminate|].
    destruct (Z.ltb_spec (zlen (b0 :: r0)) 5) as [Hl|Hl].
    - rewrite a1_ctor_short in H by (auto; discriminate). right. split; [discriminate|].
      split; [unfold zlen in Hl; lia|congruence].
    - left. destruct (five_split _ Hl) as (a & r & t & s0 & s1 & addr & E). rewrite E, a1_ctor_spec in H.
      destruct (_ && _); [discriminate|]. injection H as <-. reflexivity.
  Qed.
End Errors.

Lemma raised_read : forall t x, channel_raised (t ++ [ERead (Err x)]) x.
Proof. intros t x. exists t. left. reflexivity. Qed.
Lemma raised_write : forall t ms l x, channel_raised (t ++ [EWrite ms l (Err x)]) x.
Proof. intros t ms l x. exists t. right. eauto. Qed.

(** ** C97: the exceptions of the client's handshake. *)
Theorem C97_client_errors : forall L sp ep TK TC sig e buf wanted tk t s x,
  nacl_laws L sp ep -> nacl_fail_laws L -> key_size L ->
  sp (kp_sec sig) (kp_pub sig) -> ep (kp_sec e) (kp_pub e) ->
  exec (client_handshake L TK TC (cs_init sig (Some e) buf wanted tk)) t (Some (s, Err x)) ->
  client_raises L TC e t x.
Proof.
  intros L sp ep TK TC sig e buf wanted tk t s x HL HF HS Hs He H.
  apply io_eq_exec with (2 := client_eq L TK TC _) in H. unfold client_machine in H. cbn [cs_init cs_enc] in H.
  fold (cs_init sig (Some e) buf wanted tk) in H.
  destruct (client_start L TK _ e) as [s1 [w|y]] eqn:E1.
  2:{ exfalso. unfold client_start in E1. cbn [cs_init cs_tk] in E1. destruct (tk_first TK tk) as [t1 tk1].
      destruct (m1_client_build_ok t1 (kp_pub e) (law_encpk_len _ _ _ HL _ _ He)) as [p Hp]. rewrite Hp in E1. discriminate. }
  apply client_start_inv in E1. destruct E1 as (_ & _ & p1 & Hs1).
  apply exec_write_inv in H. destruct H as [[_ H]|(r & t' & -> & H)]; [discriminate|].
  destruct r as [[]|y].
  2:{ apply exec_ret_any in H. destruct H as [-> [H|H]]; [discriminate|]. injection H as _ <-.
      apply cr_channel. apply (raised_write []). }
  apply exec_read_inv in H. destruct H as [[_ H]|(r & t'' & -> & H)]; [discriminate|].
  destruct r as [m2|y].
  2:{ apply exec_ret_any in H. destruct H as [-> [H|H]]; [discriminate|]. injection H as _ <-.
      apply cr_channel. apply (raised_read [_]). }
  destruct (client_m2 L TC s1 e m2) as [s2 [ch|y]] eqn:E2.
  2:{ apply exec_ret_any in H. destruct H as [-> [H|H]]; [discriminate|]. injection H as _ <-.
      apply (client_m2_err L sp ep HL HS) in E2; [|exact He].
      destruct E2 as [E2|[E2|E2]]; [apply cr_m2|apply cr_m2_time|apply cr_m2_key]; exact E2. }
  apply client_m2_inv in E2. destruct E2 as (p2 & key & _ & _ & _ & HK & Hkl & -> & Hs2).
  apply exec_read_inv in H. destruct H as [[_ H]|(r & rest & -> & H)]; [discriminate|].
  destruct r as [f3|y].
  2:{ apply exec_ret_any in H. destruct H as [-> [H|H]]; [discriminate|]. injection H as _ <-.
      apply cr_channel. apply (raised_read [_; _]). }
  assert (EQ : cs_sig s2 = sig) by (rewrite Hs2, Hs1; reflexivity).
  destruct (client_m3 L TK TC s2 _ f3) as [s3 [m4|y]] eqn:E3.
  2:{ apply exec_ret_any in H. destruct H as [-> [H|H]]; [discriminate|]. injection H as _ <-.
      apply cr_m3 with key; [exact HK|]. eapply client_m3_err; [exact HL|exact HF|rewrite EQ; exact Hs|exact E3]. }
  apply client_m3_inv in E3. destruct E3 as (c3 & fl & sg & _ & _ & _ & _ & _ & _ & _ & _ & _ & H9).
  cbn [cs_init cs_buffer_M4] in H. destruct buf.
  { apply exec_ret_any in H. destruct H as [_ [H|H]]; discriminate. }
  assert (HA : cs_app s3 = Some (ac_init (EC key [] fl 4 1 SESSION_NONCE) (snd (tk_get TK (cs_tk s2))))) by (rewrite H9; reflexivity).
  rewrite HA in H. cbn [ac_enc ac_init] in H.
  destruct (encrypt_fwd L sp ep key [] fl 4 1 m4 HL Hkl) as (c & EE & _); [lia|]. rewrite EE in H.
  apply exec_write_inv in H. destruct H as [[_ H]|(r & t'' & -> & H)]; [discriminate|].
  apply exec_ret_any in H. destruct H as [-> [H|H]]; [discriminate|]. injection H as _ <-.
  apply cr_channel. apply (raised_write [_; _; _]).
Qed.
Print Assumptions C97_client_errors.

(** The exceptions of the server's handshake. *)
Theorem C97_server_errors : forall L sp ep TK TC sig e buf a2 tk t s x,
  nacl_laws L sp ep -> nacl_fail_laws L -> key_size L ->
  sp (kp_sec sig) (kp_pub sig) -> ep (kp_sec e) (kp_pub e) ->
  exec (server_handshake L TK TC (ss_init sig (Some e) buf a2 tk)) t (Some (s, Err x)) ->
  server_raises L TC e t x.
Proof.
  intros L sp ep TK TC sig e buf a2 tk t s x HL HF HS Hs He H.
  apply io_eq_exec with (2 := server_eq L TK TC _) in H. unfold server_machine in H. cbn [ss_init ss_enc] in H.
  fold (ss_init sig (Some e) buf a2 tk) in H.
  apply exec_read_inv in H. destruct H as [[_ H]|(r & t' & -> & H)]; [discriminate|].
  destruct r as [m1|y].
  2:{ apply exec_ret_any in H. destruct H as [-> [H|H]]; [discriminate|]. injection H as _ <-.
      apply sr_channel. apply (raised_read []). }
  destruct (m1_ctor m1) as [p|y] eqn:E1.
  2:{ destruct (a1_ctor m1) as [a|z] eqn:EA.
      - apply exec_write_inv in H. destruct H as [[_ H]|(r2 & t'' & -> & H)]; [discriminate|].
        destruct r2 as [[]|z]; apply exec_ret_any in H; destruct H as [-> [H|H]]; try discriminate.
        injection H as _ <-. apply sr_channel. apply (raised_write [_]).
      - apply exec_ret_any in H. destruct H as [-> [H|H]]; [discriminate|]. injection H as _ <-.
        apply a1_err in EA. destruct EA as [EA|(F1 & F2 & ->)]; [apply sr_first|apply sr_short]; assumption. }
  destruct (server_m1 L TK TC _ m1 p) as [s1 [[w|]|y]] eqn:E2.
  - apply exec_write_inv in H. destruct H as [[_ H]|(r2 & t'' & -> & H)]; [discriminate|].
    apply exec_ret_any in H. destruct H as [-> [H|H]]; [discriminate|].
    destruct r2 as [[]|z].
    + assert (x = NoSuchServerException) by congruence. subst x. apply sr_foreign.
    + assert (x = z) by congruence. subst x. apply sr_channel. apply (raised_write [_]).
  - destruct (server_m1_inv _ _ _ _ _ _ _ _ E2 E1) as (_ & Hs1 & _).
    destruct (server_m2_fwd L sp ep HL TK e He s1) as [S2 S2b]. cbv zeta in S2, S2b. rewrite S2 in H.
    match type of S2 with _ = (?a, _) => remember a as s2 eqn:Es2 end.
    assert (SG : ss_sig s2 = sig) by (rewrite Es2, Hs1; reflexivity).
    assert (ENC : length (kp_pub e) = 32%nat) by (exact (law_encpk_len _ _ _ HL _ _ He)).
    clear S2 E2 Hs1.
    assert (TAIL : forall s2 hold t0 ws t', ss_sig s2 = sig ->
      (hold = None \/ hold = Some (M2_wire false false t0 (kp_pub e))) ->
      (ws = [] \/ exists m2, ws = [EWrite [m2] false (Ok tt)]) ->
      exec (server_rest L TK TC s2 e p hold) t' (Some (s, Err x)) ->
      server_raises L TC e (ERead (Ok m1) :: ws ++ t') x).
    { clear - HL HF HS Hs He E1 ENC. intros s2 hold t0 ws t' SG Hh Hw H. unfold server_rest in H.
      destruct (server_m3 L TK s2 e p hold) as [s3 [fs|y]] eqn:E4.
      2:{ apply exec_ret_any in H. destruct H as [-> [H|H]]; [discriminate|]. injection H as _ <-.
          rewrite app_nil_r. apply sr_key; [|exact Hw].
          eapply server_m3_err; [exact HL|exact HS|rewrite SG; exact Hs|exact He|exact E1|exact E4]. }
      apply (server_m3_inv _ _ _ _ _ m1 _ _ _ t0) in E4; [|exact E1|exact ENC|exact Hh].
      destruct E4 as (key & sg & f3 & h2 & t3 & tk3 & B1 & B2 & _ & _ & _ & _ & _ & _ & _ & _ & _ & B12 & _).
      apply exec_write_inv in H. destruct H as [[_ H]|(r3 & t'' & -> & H)]; [discriminate|].
      destruct r3 as [[]|y].
      2:{ apply exec_ret_any in H. destruct H as [-> [H|H]]; [discriminate|]. injection H as _ <-.
          apply sr_channel. apply (raised_write (_ :: ws)). }
      apply exec_read_inv in H. destruct H as [[_ H]|(r & t4 & -> & H)]; [discriminate|].
      destruct r as [f4|y].
      2:{ apply exec_ret_any in H. destruct H as [-> [H|H]]; [discriminate|]. injection H as _ <-.
          apply sr_channel. exists (ERead (Ok m1) :: ws ++ [EWrite fs false (Ok tt)]). left.
          cbn [app]. rewrite <- app_assoc. reflexivity. }
      apply exec_ret_any in H. destruct H as [-> [H|H]]; [discriminate|]. injection H as H.
      symmetry in H. apply (server_m4_err L HF TC _ _ _ _ _ _ B12) in H.
      change [EWrite fs false (Ok tt); ERead (Ok f4)] with ([EWrite fs false (Ok tt)] ++ [ERead (Ok f4)]).
      rewrite app_assoc. eapply sr_m4; [exact B1|exact H]. }
    cbn [ss_init ss_buffer_m2] in H. destruct buf.
    + apply (TAIL s2 _ (fst (tk_first TK (ss_tk s1))) []) in H; [exact H|exact SG|right; reflexivity|left; reflexivity].
    + apply exec_write_inv in H. destruct H as [[_ H]|(r2 & t'' & -> & H)]; [discriminate|].
      destruct r2 as [[]|y].
      2:{ apply exec_ret_any in H. destruct H as [-> [H|H]]; [discriminate|]. injection H as _ <-.
          apply sr_channel. apply (raised_write [_]). }
      match goal with |- server_raises _ _ _ (_ :: ?w :: _) _ =>
        refine (TAIL _ _ 0 [w] _ _ (or_introl eq_refl) (or_intror (ex_intro _ _ eq_refl)) H); exact SG end.
  - apply exec_ret_any in H. destruct H as [-> [H|H]]; [discriminate|]. injection H as _ <-.
    apply sr_time. eapply server_m1_err; [exact E1|exact E2].
Qed.
Print Assumptions C97_server_errors.

(** The expected property, that what a peer does wrong is reported as a ComException,
    is false: a server that finished the key exchange makes the client raise
    AssertionError with an M3 of another size, and AttributeError with an empty frame. *)
Theorem C97_peer_errors_are_com_refuted : forall L sp ep TK TC sig e buf wanted tk se,
  nacl_laws L sp ep -> sp (kp_sec sig) (kp_pub sig) -> ep (kp_sec e) (kp_pub e) -> ep (kp_sec se) (kp_pub se) ->
  tc_first TC 0 = Ok tt ->
  let C := client_handshake L TK TC (cs_init sig (Some e) buf wanted tk) in
  let m1 := M1_wire (fst (tk_first TK tk)) (kp_pub e) None in
  let m2 := M2_wire false false 0 (kp_pub se) in
  exists f, (exists s, exec C [EWrite [m1] false (Ok tt); ERead (Ok m2); ERead (Ok f)] (Some (s, Err AssertionError))) /\
            (exists s, exec C [EWrite [m1] false (Ok tt); ERead (Ok m2); ERead (Ok [])] (Some (s, Err AttributeError))).
Proof.
  intros L sp ep TK TC sig e buf wanted tk se HL Hs He Hse HT C m1 m2.
  destruct (law_dh _ _ _ HL _ _ _ _ He Hse) as (key & Hkl & HK & _).
  destruct (client_start_fwd L sp ep HL TK sig e He buf wanted tk) as [p Hp]. cbv zeta in Hp.
  match type of Hp with _ = (?a, _) => remember a as s1 eqn:Es1 end.
  pose proof (client_m2_fwd L sp ep HL TC e He s1 0 (kp_pub se) key (law_encpk_len _ _ _ HL _ _ Hse) HT HK Hkl) as H2.
  cbv zeta in H2. match type of H2 with _ = (?a, _) => remember a as s2 eqn:Es2 end.
  destruct (law_box _ _ _ HL [] (nonce24 2 SESSION_NONCE) key) as (c & _ & C2 & C3); [apply nonce24_length; reflexivity|exact Hkl|].
  assert (X : forall f s x, client_m3 L TK TC s2 (EC key [] false 2 1 SESSION_NONCE) f = (s, Err x) ->
    exec C [EWrite [m1] false (Ok tt); ERead (Ok m2); ERead (Ok f)] (Some (s, Err x))).
  { intros f s x H3. subst C. apply io_eq_exec with (2 := io_eq_sym _ _ _ (client_eq L TK TC _)).
    unfold client_machine. cbn [cs_init cs_enc]. fold (cs_init sig (Some e) buf wanted tk). rewrite Hp.
    constructor. constructor. fold m2 in H2. rewrite H2. constructor. rewrite H3. constructor. }
  exists (Enc_wire false c). split; eexists; apply X.
  - unfold client_m3, ec_process, ec_unwrap. unfold Enc_wire. cbn [app]. rewrite ep_ctor_spec.
    assert ((b2z x06 =? 6) && (16 <=? zlen c) = true) as -> by (unfold zlen; rewrite C2; reflexivity).
    unfold ep_body. cbn [p_opt opt_field]. unfold ec_decrypt. cbn [ec_set_last_flag ec_read_nonce ec_session_nonce ec_key].
    rewrite nonce_bytes_ok by lia. rewrite C3. cbn. reflexivity.
  - reflexivity.
Qed.
Print Assumptions C97_peer_errors_are_com_refuted.

(** The same for the server: a first frame of one byte that is no M1 raises ValueError. *)
Theorem C97_first_byte_refuted : forall L TK TC sig e buf a2 tk,
  exec (server_handshake L TK TC (ss_init sig (Some e) buf a2 tk)) [ERead (Ok [x08])]
       (Some (ss_set_m1 None (ss_init sig (Some e) buf a2 tk), Err ValueError)) /\ is_com ValueError = false.
Proof.
  intros L TK TC sig e buf a2 tk. split; [|reflexivity].
  apply io_eq_exec with (2 := io_eq_sym _ _ _ (server_eq L TK TC _)).
  unfold server_machine. cbn [ss_init ss_enc]. constructor. constructor.
Qed.
Print Assumptions C97_first_byte_refuted.

(** What [except ComException] catches. *)
Theorem C97_caught : forall x, is_com x = true <->
  x = ComException \/ x = BadPeer \/ x = NoSuchServerException \/ x = TimeException.
Proof. intro x. split; [destruct x; intro H; try discriminate; auto|intros [->|[->|[->| ->]]]; reflexivity]. Qed.
Print Assumptions C97_caught.

(** Concrete runs with the toy library: a refusal, an M3 of the wrong size, an M3 of
    somebody else, an empty frame, a frame of another type. *)
Definition client_answers (fs : list bytes) : list (res unit) :=
  let p := client_handshake toy_lib null_keeper null_checker (cs_init (KeyPair (repeat x01 32) (repeat x01 32))
             (Some (KeyPair (repeat x02 32) (repeat x02 32))) false [] 0) in
  let fix go (n : nat) (p : io (cs * res unit)) (fs : list bytes) :=
    match n, p, fs with
    | _, Ret (_, r), _ => [r]
    | S n, Write _ _ k, _ => go n (k (Ok tt)) fs
    | S n, Read k, f :: fs => go n (k (Ok f)) fs
    | _, _, _ => []
    end in go 10%nat p fs.
Example C97_example :
  let m2 := M2_wire false false 0 (repeat x03 32) in
  let key := add_bytes (repeat x03 32) (repeat x02 32) in
  let box m := Enc_wire false (toy_tag (nonce24 2 (zeros 8)) key ++ m) in
  map client_answers [[M2_wire true true 0 (repeat x00 32)]; [m2; box [x03]]; [m2; box (x03 :: repeat x00 100 ++ [x01])]; [m2; []]; [[x01]]]
  = [[Err NoSuchServerException]; [Err AssertionError]; [Err BadPeer]; [Err AttributeError]; [Err BadPeer]].
Proof. vm_compute. reflexivity. Qed.
