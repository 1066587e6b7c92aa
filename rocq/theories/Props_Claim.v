(** Property C53, continued: when a failed handshake reports a client key. *)
From Coq Require Import List ZArith Bool Strings.Byte Lia ZifyBool ZifyNat ZifyN.
From Verif Require Import PyBase PyBase_proofs IO IO_proofs Packets Packets_proofs Packets_proofs2
  Crypto Crypto_proofs Time EncChannel EncUse EncChannel_proofs AppChannel AppUse AppChannel_proofs
  Session Session_proofs SessUse Session_steps Spec Props_Session.
Import ListNotations.
Open Scope Z_scope.

Lemma m1_keeps : forall L TK TC s chunk m1 s1 x, server_m1 L TK TC s chunk m1 = (s1, x) ->
  ss_client_sig_key s1 = ss_client_sig_key s.
Proof.
  intros L TK TC s chunk m1 s1 x H. unfold server_m1 in H.
  destruct (tc_first TC (m1_time m1)) as [[]|y]; [|injection H as <- _; reflexivity].
  destruct (tk_first TK (ss_tk s)) as [t tk'].
  destruct (m1_flag m1); [|injection H as <- _; reflexivity].
  destruct (m1_server_sig_key m1) as [k|y]; [|injection H as <- _; reflexivity].
  destruct (negb _); injection H as <- _; reflexivity.
Qed.
Lemma m2_keeps : forall TK s e s1 x, server_m2 TK s e = (s1, x) -> ss_client_sig_key s1 = ss_client_sig_key s.
Proof.
  intros TK s e s1 x H. unfold server_m2 in H. destruct (tk_first TK (ss_tk s)) as [t tk'].
  destruct (m2_set_server_enc_key _ _); injection H as <- _; reflexivity.
Qed.
Lemma m3_keeps : forall L TK s e m1 hold s1 x, server_m3 L TK s e m1 hold = (s1, x) ->
  ss_client_sig_key s1 = ss_client_sig_key s /\
  forall fs, x = Ok fs -> exists tk3, ss_app s1 = Some (AC (EC (ss_session_key s1) [] false 1 4 SESSION_NONCE) tk3 None []).
Proof.
  intros L TK s e m1 hold s1 x H. unfold server_m3 in H.
  destruct (compute_shared_key L _ _) as [key|y]; [|injection H as <- <-; split; [reflexivity|discriminate]].
  unfold ec_init in H. destruct (negb _); [injection H as <- <-; split; [reflexivity|discriminate]|].
  destruct hold as [m2|]; [destruct (tk_first TK (ss_tk s)) as [t tk']|destruct (tk_get TK (ss_tk s)) as [t tk']];
  (destruct (m34_set_sig_key _ _) as [p1|y]; [|injection H as <- <-; split; [reflexivity|discriminate]]);
  (destruct (l_sign L _ _) as [sm|y]; [|injection H as <- <-; split; [reflexivity|discriminate]]);
  (destruct (m34_set_signature _ _) as [p|y]; [|injection H as <- <-; split; [reflexivity|discriminate]]);
  (destruct (ec_encrypt L _ _) as [c|y]; [|injection H as <- <-; split; [reflexivity|discriminate]]);
  injection H as <- <-; (split; [reflexivity|]); intros fs _; exists tk'; reflexivity.
Qed.

(** *** C53: what holds instead.  A new server session whose handshake raised reports a
    client key only if the failure was that of the last check: the last thing it did was
    to read a frame sealed under the session key, the key is the one claimed in that
    frame (M4), its signature does not verify, and the exception is BadPeer.  After every
    other failure no key is reported.  Partial: in that one case the claimed key is
    reported (C53_unverified_key_refuted). *)
Theorem C53_last_check_partial : forall L TK TC sig enc buf a2 tk t s x pk, nacl_fail_laws L ->
  exec (server_handshake L TK TC (ss_init sig enc buf a2 tk)) t (Some (s, Err x)) ->
  ss_client_sig_key s = Some pk ->
  x = BadPeer /\ exists t0 f4 c4, t = t0 ++ [ERead (Ok f4)] /\ opens L (ss_session_key s) 1 f4 c4 /\
    pk = field 6 32 c4 /\
    l_sign_open L (field 38 64 c4 ++ SIG2_PREFIX ++ ss_m1_hash s ++ ss_m2_hash s) pk = Err BadSignatureException.
Proof.
  intros L TK TC sig enc buf a2 tk t s x pk HF H HK.
  apply io_eq_exec with (2 := server_eq L TK TC _) in H. unfold server_machine in H. cbn [ss_init ss_enc] in H.
  destruct enc as [e|].
  2:{ apply exec_ret in H. destruct H as [_ H]. injection H as -> _. discriminate. }
  fold (ss_init sig (Some e) buf a2 tk) in H.
  apply exec_read_inv in H. destruct H as [[_ H]|(r & t' & -> & H)]; [discriminate|].
  destruct r as [m1|y]. 2:{ apply exec_ret in H. destruct H as [_ H]. injection H as -> _. discriminate. }
  destruct (m1_ctor m1) as [p|y].
  2:{ destruct (a1_ctor m1) as [a|z].
      2:{ apply exec_ret in H. destruct H as [_ H]. injection H as -> _. discriminate. }
      apply exec_write_inv in H. destruct H as [[_ H]|(r2 & t'' & _ & H)]; [discriminate|].
      destruct r2; apply exec_ret in H; destruct H as [_ H]; injection H as -> _; discriminate. }
  destruct (server_m1 L TK TC _ m1 p) as [s1 [[w|]|y]] eqn:E1; apply m1_keeps in E1; cbn [ss_init ss_client_sig_key] in E1.
  1:{ apply exec_write_inv in H. destruct H as [[_ H]|(r2 & t'' & _ & H)]; [discriminate|].
      apply exec_ret in H. destruct H as [_ H]. injection H as -> _. congruence. }
  2:{ apply exec_ret in H. destruct H as [_ H]. injection H as -> _. congruence. }
  destruct (server_m2 TK s1 e) as [s2 [m2|y]] eqn:E2; apply m2_keeps in E2; rewrite E1 in E2.
  2:{ apply exec_ret in H. destruct H as [_ H]. injection H as -> _. congruence. }
  assert (REST : forall s3 hold t3, ss_client_sig_key s3 = None ->
    exec (server_rest L TK TC s3 e p hold) t3 (Some (s, Err x)) ->
    x = BadPeer /\ exists t0 f4 c4, t3 = t0 ++ [ERead (Ok f4)] /\ opens L (ss_session_key s) 1 f4 c4 /\
    pk = field 6 32 c4 /\
    l_sign_open L (field 38 64 c4 ++ SIG2_PREFIX ++ ss_m1_hash s ++ ss_m2_hash s) pk = Err BadSignatureException).
  { clear - HF HK. intros s3 hold t3 HN H. unfold server_rest in H.
    destruct (server_m3 L TK s3 e p hold) as [s4 [fs|y]] eqn:E3; apply m3_keeps in E3; destruct E3 as [E3 EA]; rewrite HN in E3.
    2:{ apply exec_ret in H. destruct H as [_ H]. injection H as -> _. congruence. }
    destruct (EA fs eq_refl) as (tk3 & EA').
    apply exec_write_inv in H. destruct H as [[_ H]|(r2 & t4 & -> & H)]; [discriminate|].
    destruct r2 as [[]|y]. 2:{ apply exec_ret in H. destruct H as [_ H]. injection H as -> _. congruence. }
    apply exec_read_inv in H. destruct H as [[_ H]|(r3 & t5 & -> & H)]; [discriminate|].
    destruct r3 as [f4|y]. 2:{ apply exec_ret in H. destruct H as [_ H]. injection H as -> _. congruence. }
    apply exec_ret in H. destruct H as [-> H]. symmetry in H. unfold server_m4 in H. rewrite EA' in H. cbn [ac_enc ac_tk] in H.
    destruct (ec_process L _ f4) as [ch1 [c4|y]] eqn:EP.
    2:{ injection H as <- _. cbn [ss_set_app ss_client_sig_key] in HK. congruence. }
    destruct (process_opens _ _ _ _ _ EP eq_refl) as [HO _]. cbn [ec_key ec_read_nonce] in HO.
    destruct (m4_ctor c4) as [m4|y] eqn:E4.
    2:{ injection H as <- _. cbn [ss_set_app ss_client_sig_key] in HK. congruence. }
    destruct (tc_check TC (m34_time m4)) as [[]|y].
    2:{ injection H as <- _. cbn [ss_set_m4 ss_set_app ss_client_sig_key] in HK. congruence. }
    assert (Hf : forall off n, (1 <= off)%nat -> (off + n <= 102)%nat -> fget off n m4 = field off n c4).
    { intros. eapply (fixed_ctor_field TYPE_M4 (z2b TYPE_M4) 101); [exact E4|lia|lia]. }
    unfold m34_signature, m34_sig_key in H. rewrite !Hf in H by lia.
    destruct (l_sign_open L _ (field 6 32 c4)) as [o|y] eqn:EO; [discriminate|].
    pose proof (law_sign_open_exn L HF _ _ _ EO) as ->. injection H as <- <-.
    cbn [ss_set_client_sig_key ss_client_sig_key] in HK. injection HK as <-.
    split; [reflexivity|]. exists [EWrite fs false (Ok tt)], f4, c4.
    split; [reflexivity|]. split; [exact HO|]. split; [reflexivity|]. exact EO. }
  cbn [ss_init ss_buffer_m2] in H. destruct buf.
  - destruct (REST s2 (Some m2) t' E2 H) as (-> & t0 & f4 & c4 & -> & X). split; [reflexivity|].
    exists (ERead (Ok m1) :: t0), f4, c4. split; [reflexivity|exact X].
  - apply exec_write_inv in H. destruct H as [[_ H]|(r2 & t4 & -> & H)]; [discriminate|].
    destruct r2 as [[]|y]. 2:{ apply exec_ret in H. destruct H as [_ H]. injection H as -> _. congruence. }
    destruct (REST (ss_set_m2_hash (l_sha512 L (m2_bytes m2)) s2) None t4 E2 H) as (-> & t0 & f4 & c4 & -> & X). split; [reflexivity|].
    exists (ERead (Ok m1) :: EWrite [m2_bytes m2] false (Ok tt) :: t0), f4, c4. split; [reflexivity|exact X].
Qed.
Print Assumptions C53_last_check_partial.

(** A client that stops after M1: the handshake of the server fails and reports no key. *)
Example C53_last_check_example :
  match fst (run2 40 (server_handshake toy_lib null_keeper null_checker (ss_init ex_ssig (Some ex_senc) true None 0))
                     (Write [M1_wire 0 (kp_pub ex_cenc) None] false (fun _ => Write [repeat x06 60] false (fun _ => Ret tt))) [] []) with
  | (t, Some (s, Err x)) => x = BadPeer /\ length t = 3%nat /\ ss_client_sig_key s = None
  | _ => False
  end.
Proof. vm_compute. auto. Qed.
