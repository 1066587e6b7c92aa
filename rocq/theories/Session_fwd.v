(** Honest runs of the session machines, step by step. *)
From Coq Require Import List ZArith Bool Strings.Byte Lia ZifyBool ZifyNat ZifyN.
From Verif Require Import PyBase PyBase_proofs IO IO_proofs Packets Packets_proofs Packets_proofs2
  Crypto Crypto_proofs Time EncChannel EncUse EncChannel_proofs AppChannel AppUse AppChannel_proofs Session Session_proofs
  SessUse Session_steps Sched_proofs Spec.
Import ListNotations.
Open Scope Z_scope.
Ltac Zify.zify_post_hook ::= Z.div_mod_to_equations.

Lemma shared_key_fwd : forall L sk pk k, length sk = 32%nat -> length pk = 32%nat ->
  l_beforenm L pk sk = Ok k -> compute_shared_key L sk pk = Ok k.
Proof.
  intros L sk pk k H1 H2 H3. unfold compute_shared_key, BOX_SECRETKEYBYTES, BOX_PUBLICKEYBYTES, zlen, bytes in *.
  rewrite H1, H2. exact H3.
Qed.

Lemma ec_init_fwd : forall key r sn, length key = 32%nat -> ec_init key r sn =
  Ok (EC key [] false (match r with CLIENT => 2 | SERVER => 1 end) (match r with CLIENT => 1 | SERVER => 2 end) sn).
Proof. intros key r sn H. unfold ec_init, BOX_SECRETKEYBYTES, zlen, bytes in *. rewrite H. reflexivity. Qed.

Lemma encrypt_fwd : forall L sp ep key pb fl rd wr m, nacl_laws L sp ep -> length key = 32%nat -> 0 <= wr < 2 ^ 64 ->
  exists c, ec_encrypt L (EC key pb fl rd wr SESSION_NONCE) m = Ok c /\
    sealed L key SESSION_NONCE wr (m, false) (ec_wrap c false).
Proof.
  intros L sp ep key pb fl rd wr m HL Hk Hw. unfold ec_encrypt. cbn [ec_write_nonce ec_session_nonce ec_key].
  rewrite nonce_bytes_ok by auto.
  destruct (law_box _ _ _ HL m (nonce24 wr SESSION_NONCE) key) as (c & H1 & _ & _); [apply nonce24_length; reflexivity|exact Hk|].
  exists c. split; [exact H1|]. split; [exact Hw|]. exists c. split; [exact H1|]. apply ec_wrap_enc.
Qed.

Lemma m34_fwd : forall b t k sg, length k = 32%nat -> length sg = 64%nat -> exists p1,
  m34_set_sig_key k (m34_set_time t (b :: zeros 101)) = Ok p1 /\
  m34_set_signature sg p1 = Ok ([b; x00] ++ u32le t ++ k ++ sg).
Proof.
  intros b t k sg Hk Hs. pose proof (m34_build_ok b t k sg Hk Hs) as HB. unfold m34_build in HB.
  destruct (m34_set_sig_key _ _) as [p1|]; [|discriminate]. exists p1. split; [reflexivity|]. exact HB.
Qed.

Section Fwd.
  Variables (L : lib) (sp ep : bytes -> bytes -> Prop).
  Hypothesis HL : nacl_laws L sp ep.
  (** client and server: keys, keepers, checkers *)
  Variables (TKc TKs : tkeeper) (TCc TCs : tchecker).
  Variables (csig ssig ce se : keypair).
  Hypothesis Hcs : sp (kp_sec csig) (kp_pub csig).
  Hypothesis Hss : sp (kp_sec ssig) (kp_pub ssig).
  Hypothesis Hce : ep (kp_sec ce) (kp_pub ce).
  Hypothesis Hse : ep (kp_sec se) (kp_pub se).

  Lemma client_start_fwd : forall buf w tk, exists p,
    client_start L TKc (cs_init csig (Some ce) buf w tk) ce =
     (let m1 := M1_wire (fst (tk_first TKc tk)) (kp_pub ce) None in
      (CS csig (Some ce) buf w (snd (tk_first TKc tk)) [] (Some p) (l_sha512 L m1) None [] None None None, Ok m1)).
  Proof.
    intros buf w tk. unfold client_start. cbn [cs_init cs_tk]. destruct (tk_first TKc tk) as [t tk'].
    destruct (m1_client_build_ok t (kp_pub ce)) as [p Hp]; [eapply law_encpk_len; eauto|].
    rewrite Hp. exists p. destruct (m1_client_build _ _ _ Hp) as [_ HB]. rewrite HB. reflexivity.
  Qed.

  Lemma client_m2_fwd : forall s t k key, length k = 32%nat -> tc_first TCc (t mod 2 ^ 32) = Ok tt ->
    l_beforenm L k (kp_sec ce) = Ok key -> length key = 32%nat ->
    let m2 := M2_wire false false t k in let ch := EC key [] false 2 1 SESSION_NONCE in
    client_m2 L TCc s ce m2 =
      (cs_set_app (Some (ac_init ch (cs_tk s))) (cs_set_session_key key (cs_set_m2_hash (l_sha512 L m2) (cs_set_m2 (Some m2) s))), Ok ch).
  Proof.
    intros s t k key Hk HT HB Hl m2 ch. unfold client_m2.
    assert (E : m2_ctor m2 = Ok m2).
    { pose proof (m2_ctor_wire false false t k [] Hk) as E. rewrite app_nil_r in E. exact E. }
    destruct (m2_fields_wire false false t k Hk) as (F1 & F2 & F3 & F4). fold m2 in F1, F2, F3, F4.
    rewrite E, F1, HT, F3, F2.
    rewrite (shared_key_fwd L _ _ key) by (auto; eapply law_encsk_len; eauto).
    rewrite ec_init_fwd by auto. reflexivity.
  Qed.

  Lemma client_m3_fwd : forall s key t sg f3 csg,
    length key = 32%nat -> length sg = 64%nat -> tc_check TCc (t mod 2 ^ 32) = Ok tt ->
    sealed L key SESSION_NONCE 2 (M3_wire t (kp_pub ssig) sg, false) f3 ->
    (exists m, l_sign_open L (sg ++ SIG1_PREFIX ++ cs_m1_hash s ++ cs_m2_hash s) (kp_pub ssig) = Ok m) ->
    cs_sig s = csig ->
    length csg = 64%nat -> l_sign L (SIG2_PREFIX ++ cs_m1_hash s ++ cs_m2_hash s) (kp_sec csig) = Ok (csg ++ SIG2_PREFIX ++ cs_m1_hash s ++ cs_m2_hash s) ->
    let m4 := M4_wire (fst (tk_get TKc (cs_tk s))) (kp_pub csig) csg in
    client_m3 L TKc TCc s (EC key [] false 2 1 SESSION_NONCE) f3 =
     (cs_set_m4 (Some m4) (cs_set_app (Some (ac_init (EC key [] false 4 1 SESSION_NONCE) (snd (tk_get TKc (cs_tk s)))))
        (cs_set_m3 (Some (M3_wire t (kp_pub ssig) sg))
         (cs_set_app (Some (ac_init (EC key [] false 4 1 SESSION_NONCE) (cs_tk s))) s))), Ok m4).
  Proof.
    intros s key t sg f3 csg Hk Hs HT HS [m HO] Hsg Hc HG m4.
    assert (Hp : length (kp_pub ssig) = 32%nat) by (eapply law_sigpk_len; eauto).
    assert (Hpc : length (kp_pub csig) = 32%nat) by (eapply law_sigpk_len; eauto).
    unfold client_m3.
    rewrite (ec_process_sealed L sp ep _ (M3_wire t (kp_pub ssig) sg, false)) by (auto; reflexivity).
    cbn [ec_key ec_pushback ec_read_nonce ec_write_nonce ec_session_nonce fst snd].
    assert (Hlen : zlen (M3_wire t (kp_pub ssig) sg) =? 102 = true).
    { unfold zlen, M3_wire. rewrite !app_length, u32le_length. unfold bytes in *. rewrite Hp, Hs. reflexivity. }
    rewrite Hlen. cbn [negb].
    assert (E : m3_ctor (M3_wire t (kp_pub ssig) sg) = Ok (M3_wire t (kp_pub ssig) sg)).
    { pose proof (m3_ctor_wire t (kp_pub ssig) sg [] Hp Hs) as E. rewrite app_nil_r in E. exact E. }
    destruct (m34_fields x03 t (kp_pub ssig) sg Hp Hs) as (F1 & F2 & F3).
    change ([x03; x00] ++ u32le t ++ kp_pub ssig ++ sg) with (M3_wire t (kp_pub ssig) sg) in F1, F2, F3.
    rewrite E, F1, HT, F2, F3, HO.
    destruct (tk_get TKc (cs_tk s)) as [t4 tk4]. cbn [fst snd] in *. rewrite Hsg.
    destruct (m34_fwd x04 t4 (kp_pub csig) csg Hpc Hc) as (p1 & P1 & P2).
    change m4_new with (x04 :: zeros 101). rewrite P1, HG.
    assert (HF : firstn SIGN_BYTES (csg ++ SIG2_PREFIX ++ cs_m1_hash s ++ cs_m2_hash s) = csg) by (apply firstn_app_exact; exact Hc).
    rewrite HF, P2. reflexivity.
  Qed.

  Lemma server_m1_fwd : forall s t k p, length k = 32%nat -> tc_first TCs (t mod 2 ^ 32) = Ok tt ->
    m1_ctor (M1_wire t k None) = Ok p ->
    let m1 := M1_wire t k None in
    server_m1 L TKs TCs s m1 p = (ss_set_m1_hash (l_sha512 L m1) (ss_set_m1 (Some p) s), Ok None) /\
    m1_client_enc_key p = k.
  Proof.
    intros s t k p Hk HT Hp m1. unfold server_m1.
    pose proof (m1_ctor_wire t k None [] Hk ltac:(discriminate)) as E. rewrite app_nil_r in E.
    assert (p = M1 ((indicator ++ [x01; x00] ++ u32le t) ++ k) (Some []) None) by congruence. subst p. clear E Hp.
    assert (HT' : m1_time (M1 ((indicator ++ [x01; x00] ++ u32le t) ++ k) (Some []) None) = t mod 2 ^ 32).
    { unfold m1_time, fget_int. cbn [m1_data]. rewrite <- !app_assoc.
      change (indicator ++ [x01; x00] ++ u32le t ++ k) with ((indicator ++ [x01; x00]) ++ u32le t ++ k).
      rewrite fget_app by reflexivity. apply le_dec_u32. }
    rewrite HT', HT. split; [reflexivity|].
    unfold m1_client_enc_key. cbn [m1_data]. rewrite <- (app_nil_r k) at 1. apply fget_app; [reflexivity|exact Hk].
  Qed.

  Lemma server_m2_fwd : forall s,
    let m2 := M2_wire false false (fst (tk_first TKs (ss_tk s))) (kp_pub se) in
    server_m2 TKs s se = (ss_set_m2 (Some m2) (ss_set_tk (snd (tk_first TKs (ss_tk s))) s), Ok m2) /\ m2_bytes m2 = m2.
  Proof.
    intros s m2. assert (Hk : length (kp_pub se) = 32%nat) by (eapply law_encpk_len; eauto).
    split; [|unfold m2; rewrite m2_bytes_wire by auto; reflexivity].
    unfold server_m2. subst m2. destruct (tk_first TKs (ss_tk s)) as [t tk']. cbn [fst snd].
    pose proof (m2_build_ok false false t (kp_pub se) Hk) as HB. unfold m2_build in HB.
    change (m2_set_last_flag false (m2_set_no_such_server false m2_new)) with m2_new in HB. rewrite HB. reflexivity.
  Qed.

  (** after M2: key, M3; [hold] is a buffered M2 *)
  Lemma server_m3_fwd : forall s p hold t0 key, m1_client_enc_key p = kp_pub ce ->
    l_beforenm L (kp_pub ce) (kp_sec se) = Ok key -> length key = 32%nat -> ss_sig s = ssig ->
    (hold = None \/ hold = Some (M2_wire false false t0 (kp_pub se))) ->
    let m2 := M2_wire false false (fst (tk_first TKs (ss_tk s))) (kp_pub se) in
    let h2 := match hold with None => ss_m2_hash s | Some _ => l_sha512 L m2 end in
    let tt3 := match hold with None => tk_get TKs (ss_tk s) | Some _ => tk_first TKs (ss_tk s) end in
    exists sg f3 s3, length sg = 64%nat /\
      l_sign_open L (sg ++ SIG1_PREFIX ++ ss_m1_hash s ++ h2) (kp_pub ssig) = Ok (SIG1_PREFIX ++ ss_m1_hash s ++ h2) /\
      sealed L key SESSION_NONCE 2 (M3_wire (fst tt3) (kp_pub ssig) sg, false) f3 /\
      server_m3 L TKs s se p hold = (s3, Ok (match hold with None => [f3] | Some _ => [m2; f3] end)) /\
      ss_session_key s3 = key /\ ss_m1_hash s3 = ss_m1_hash s /\ ss_m2_hash s3 = h2 /\ ss_is_done s3 = ss_is_done s /\
      ss_app s3 = Some (ac_init (EC key [] false 1 4 SESSION_NONCE) (snd tt3)).
  Proof.
    intros s p hold t0 key Hp HB Hl Hsig Hh m2 h2 tt3.
    assert (Hk : length (kp_pub se) = 32%nat) by (eapply law_encpk_len; eauto).
    assert (Hpk : length (kp_pub ssig) = 32%nat) by (eapply law_sigpk_len; eauto).
    unfold server_m3. rewrite Hp.
    rewrite (shared_key_fwd L _ _ key) by (auto; first [solve [eapply law_encsk_len; eauto]|solve [eapply law_encpk_len; eauto]]).
    rewrite ec_init_fwd by auto.
    destruct (law_sign _ _ _ HL _ _ (SIG1_PREFIX ++ ss_m1_hash s ++ h2) Hss) as (sg & G1 & G2 & G3).
    destruct (m34_fwd x03 (fst tt3) (kp_pub ssig) sg Hpk G1) as (p1 & P1 & P2).
    destruct (encrypt_fwd L sp ep key [] false 1 2 ([x03; x00] ++ u32le (fst tt3) ++ kp_pub ssig ++ sg) HL Hl) as (c & C1 & C2); [lia|].
    assert (HF : firstn SIGN_BYTES (sg ++ SIG1_PREFIX ++ ss_m1_hash s ++ h2) = sg) by (apply firstn_app_exact; exact G1).
    exists sg, (ec_wrap c false). subst h2 tt3. destruct Hh as [-> | ->].
    - destruct (tk_get TKs (ss_tk s)) as [t3 tk3]. cbn [fst snd] in *. change m3_new with (x03 :: zeros 101).
      rewrite Hsig, P1. cbn [ss_set_session_key ss_m1_hash ss_m2_hash]. rewrite G2, HF, P2, C1.
      eexists. split; [exact G1|]. split; [exact G3|]. split; [exact C2|]. split; [reflexivity|]. repeat split.
    - subst m2. destruct (tk_first TKs (ss_tk s)) as [t3 tk3]. cbn [fst snd] in *. change m3_new with (x03 :: zeros 101).
      rewrite m2_retime by auto. rewrite Hsig, P1. cbn [ss_set_session_key ss_set_m2_hash ss_set_m2 ss_m1_hash ss_m2_hash]. rewrite G2, HF, P2, C1.
      eexists. split; [exact G1|]. split; [exact G3|]. split; [exact C2|]. split; [reflexivity|]. repeat split.
  Qed.

  Lemma server_m4_fwd : forall s key tk3 t sg f4 (ok : res bytes),
    ss_app s = Some (ac_init (EC key [] false 1 4 SESSION_NONCE) tk3) -> length key = 32%nat ->
    forall pk, length pk = 32%nat -> length sg = 64%nat -> tc_check TCs (t mod 2 ^ 32) = Ok tt ->
    sealed L key SESSION_NONCE 1 (M4_wire t pk sg, false) f4 ->
    l_sign_open L (sg ++ SIG2_PREFIX ++ ss_m1_hash s ++ ss_m2_hash s) pk = ok ->
    let m4 := M4_wire t pk sg in
    server_m4 L TCs s f4 =
      (ss_set_client_sig_key (Some pk) (ss_set_m4 (Some m4) (ss_set_app (Some (ac_init (EC key [] false 3 4 SESSION_NONCE) tk3)) s)),
       match ok with Ok _ => Ok tt | Err BadSignatureException => Err BadPeer | Err x => Err x end).
  Proof.
    intros s key tk3 t sg f4 ok HA Hk pk Hp Hs HT HS HO m4.
    unfold server_m4. rewrite HA. cbn [ac_init ac_enc ac_tk].
    rewrite (ec_process_sealed L sp ep _ (m4, false)) by (auto; reflexivity).
    cbn [ec_key ec_pushback ec_read_nonce ec_write_nonce ec_session_nonce fst snd].
    assert (E : m4_ctor m4 = Ok m4).
    { pose proof (m4_ctor_wire t pk sg [] Hp Hs) as E. rewrite app_nil_r in E. exact E. }
    destruct (m34_fields x04 t pk sg Hp Hs) as (F1 & F2 & F3).
    change ([x04; x00] ++ u32le t ++ pk ++ sg) with m4 in F1, F2, F3.
    rewrite E, F1, HT, F2, F3, HO. reflexivity.
  Qed.
End Fwd.
