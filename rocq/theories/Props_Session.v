(** Properties of the handshakes (v2/salt_client_session.py, salt_server_session.py):
    C33-C43, C53.  Every theorem speaks about all executions: the network answers
    reads with arbitrary bytes or errors, writes may fail, and [None] as outcome is a
    run that was cut off (crash, cancellation) at that point. *)
From Coq Require Import List ZArith Bool Strings.Byte Lia ZifyBool ZifyNat ZifyN.
From Verif Require Import PyBase PyBase_proofs IO IO_proofs Packets Packets_proofs Packets_proofs2 A1A2_proofs
  Crypto Crypto_proofs Time EncChannel EncUse EncChannel_proofs AppChannel AppUse AppChannel_proofs Session Session_proofs
  SessUse Session_steps Spec.
Import ListNotations.
Open Scope Z_scope.
Ltac Zify.zify_post_hook ::= Z.div_mod_to_equations.

(** *** C33: the client completes only after verifying the server's signature of the
    exact M1 it sent and the exact M2 it received, under the key it then reports. *)
Theorem C33_server_verified : forall L TK TC sig enc buf wanted tk t s,
  exec (client_handshake L TK TC (cs_init sig enc buf wanted tk)) t (Some (s, Ok tt)) ->
  exists e m1 m2 f3 rest c3,
    enc = Some e /\ m1 = M1_wire (fst (tk_first TK tk)) (kp_pub e) None /\
    t = EWrite [m1] false (Ok tt) :: ERead (Ok m2) :: ERead (Ok f3) :: rest /\
    l_beforenm L (field 6 32 m2) (kp_sec e) = Ok (cs_session_key s) /\
    opens L (cs_session_key s) 2 f3 c3 /\ cs_m3 s = Some c3 /\
    accepted L (field 6 32 c3) (field 38 64 c3) (server_text L m1 m2) /\
    option_map m34_sig_key (cs_m3 s) = Some (field 6 32 c3).
Proof.
  intros L TK TC sig [e|] buf wanted tk t s H.
  2:{ apply (exec_ret_inv _ (cs_init sig None buf wanted tk, Err ValueError)) in H. destruct H as [_ H]. discriminate. }
  destruct (client_exec _ _ _ _ _ _ _ _ _ _ H) as [[_ H0]|(r & t' & -> & [[_ H0]|(m2 & f3 & rest & key & c3 & sg & -> & -> & HF & HE)])];
    [exfalso; eapply H0; reflexivity|exfalso; eapply H0; reflexivity|].
  destruct HF as (F1 & F2 & F3 & F4 & F5 & F6 & F7 & F8 & F9 & F10).
  assert (CE : client_end TK sig e buf tk key c3 sg s).
  { destruct buf.
    - destruct HE as [_ [HE|(s' & HE & HC)]]; [discriminate|]. injection HE as <-. exact HC.
    - destruct HE as [[_ HE]|(f4 & r2 & _ & _ & [HE|(s' & HE & HC)])]; [exfalso; eapply HE; reflexivity|discriminate|].
      injection HE as <- _. exact HC. }
  destruct CE as (E1 & E2 & _).
  exists e, (M1_wire (fst (tk_first TK tk)) (kp_pub e) None), m2, f3, rest, c3. rewrite E1, E2.
  repeat (split; [solve [auto]|]). cbn [option_map]. f_equal.
  eapply (fixed_ctor_field TYPE_M3 (z2b TYPE_M3) 101); [exact F6|lia|lia].
Qed.
Print Assumptions C33_server_verified.

(** *** C34: the server's handshake returns normally only on one of two paths: an A1
    request (no application channel, no client key), or after verifying the client's
    signature of the exact M1 received and the exact M2 sent. *)
Theorem C34_client_verified : forall L TK TC sig enc buf a2 tk t s,
  exec (server_handshake L TK TC (ss_init sig enc buf a2 tk)) t (Some (s, Ok tt)) ->
  (ss_is_done s = true /\ ss_app s = None /\ ss_client_sig_key s = None) \/
  (ss_is_done s = false /\ exists e m1 m2 f3 f4 c4,
     enc = Some e /\
     t = ERead (Ok m1) :: (if buf then [EWrite [m2; f3] false (Ok tt)] else [EWrite [m2] false (Ok tt); EWrite [f3] false (Ok tt)])
         ++ [ERead (Ok f4)] /\
     (exists t2, m2 = M2_wire false false t2 (kp_pub e)) /\
     l_beforenm L (field 10 32 m1) (kp_sec e) = Ok (ss_session_key s) /\
     opens L (ss_session_key s) 1 f4 c4 /\
     accepted L (field 6 32 c4) (field 38 64 c4) (client_text L m1 m2) /\
     ss_client_sig_key s = Some (field 6 32 c4)).
Proof.
  intros L TK TC sig [e|] buf a2 tk t s H.
  2:{ apply (exec_ret_inv _ (ss_init sig None buf a2 tk, Err ValueError)) in H. destruct H as [_ H]. discriminate. }
  destruct (server_exec _ _ _ _ _ _ _ _ _ _ H) as
    [[_ H0]|[(x & _ & H0)|(m1 & t' & -> & [[_ H0]|[(a & r2 & _ & _ & -> & H0)|[(p & k & r2 & _ & _ & _ & _ & _ & H0)|(p & _ & _ & _ & H0)]]])]];
    try (exfalso; eapply H0; reflexivity).
  - destruct H0 as [H0|(s' & H0 & H1 & H2 & H3)]; [discriminate|]. injection H0 as <- <-. left.
    split; [apply H3; reflexivity|]. auto.
  - destruct (server_times TK buf tk) as [[t2 t3] tk3].
    destruct H0 as [(_ & _ & H0)|(f3 & key & sg & r3 & t'' & HF & -> & [[_ H0]|(f4 & -> & -> & s' & H0 & HE)])];
      try (exfalso; eapply H0; reflexivity).
    injection H0 as <-. destruct HE as (E1 & E2 & c4 & fl & E3 & E4 & E5 & _).
    destruct HF as (F1 & F2 & F3 & F4 & _). right. split; [exact E2|].
    exists e, m1, (M2_wire false false t2 (kp_pub e)), f3, f4, c4. rewrite E1.
    split; [reflexivity|]. split; [destruct buf; reflexivity|]. split; [eauto|]. auto.
Qed.
Print Assumptions C34_client_verified.

(** *** C36: whatever happens, before the server's signature is verified the client
    writes only its M1, which is determined by its clock and ephemeral key; the only
    other write is the encrypted M4, and the signing key is inside it. *)
Theorem C36_silent_until_verified : forall L TK TC sig e buf wanted tk t o i ms l r,
  exec (client_handshake L TK TC (cs_init sig (Some e) buf wanted tk)) t o ->
  nth_error t i = Some (EWrite ms l r) ->
  let m1 := M1_wire (fst (tk_first TK tk)) (kp_pub e) None in
  (i = 0%nat /\ ms = [m1]) \/
  (i = 3%nat /\ buf = false /\ exists m2 f3 key c3 t4 sg f4,
     firstn 3 t = [EWrite [m1] false (Ok tt); ERead (Ok m2); ERead (Ok f3)] /\
     opens L key 2 f3 c3 /\ accepted L (field 6 32 c3) (field 38 64 c3) (server_text L m1 m2) /\
     ms = [f4] /\ seals L key 1 (M4_wire t4 (kp_pub sig) sg) f4).
Proof.
  intros L TK TC sig e buf wanted tk t o i ms l r H Hi m1.
  destruct (client_exec _ _ _ _ _ _ _ _ _ _ H) as [[-> _]|(r1 & t' & -> & HH)]; [destruct i; discriminate|].
  destruct i as [|i]; cbn [nth_error] in Hi; [left; injection Hi as <- _ _; split; reflexivity|]. right.
  destruct HH as [[HR _]|(m2 & f3 & rest & key & c3 & sg & -> & -> & HF & HE)].
  - apply nth_error_In in Hi. apply HR in Hi. destruct Hi as [y Hy]. discriminate.
  - destruct i as [|[|i]]; cbn [nth_error] in Hi; [discriminate|discriminate|].
    destruct buf.
    { destruct HE as [-> _]. destruct i; discriminate. }
    destruct HE as [[-> _]|(f4 & r2 & HS & -> & _)]; [destruct i; discriminate|].
    destruct i as [|[|i]]; cbn [nth_error] in Hi; [|discriminate|discriminate].
    injection Hi as <- <- <-. split; [reflexivity|]. split; [reflexivity|].
    destruct HF as (F1 & F2 & F3 & F4 & F5 & F6 & F7 & _).
    exists m2, f3, key, c3, (fst (tk_get TK (snd (tk_first TK tk)))), sg, f4.
    split; [reflexivity|]. auto.
Qed.
Print Assumptions C36_silent_until_verified.

(** A buffered M4 is not written during the handshake. *)
Theorem C36_buffered_writes_m1_only : forall L TK TC sig e wanted tk t o i ms l r,
  exec (client_handshake L TK TC (cs_init sig (Some e) true wanted tk)) t o ->
  nth_error t i = Some (EWrite ms l r) -> i = 0%nat /\ ms = [M1_wire (fst (tk_first TK tk)) (kp_pub e) None].
Proof.
  intros L TK TC sig e wanted tk t o i ms l r H Hi.
  destruct (C36_silent_until_verified _ _ _ _ _ _ _ _ _ _ _ _ _ _ H Hi) as [HH|(_ & HH & _)]; [exact HH|discriminate].
Qed.
Print Assumptions C36_buffered_writes_m1_only.

(** *** Concrete runs for the examples: a client and a server over a FIFO transport,
    with the toy library; [cb], [sb] are the two buffering options. *)
Definition ex_csig : keypair := KeyPair (repeat x11 32) (repeat x11 32).
Definition ex_ssig : keypair := KeyPair (repeat x22 32) (repeat x22 32).
Definition ex_cenc : keypair := KeyPair (repeat x33 32) (repeat x33 32).
Definition ex_senc : keypair := KeyPair (repeat x44 32) (repeat x44 32).
Definition ex_client (cb : bool) (wanted : bytes) : io (cs * res unit) :=
  client_handshake toy_lib one_two_three null_checker (cs_init ex_csig (Some ex_cenc) cb wanted 0).
Definition ex_server (sb : bool) : io (ss * res unit) :=
  server_handshake toy_lib null_keeper null_checker (ss_init ex_ssig (Some ex_senc) sb None 0).
Definition ex_pair (sb : bool) := run2 20 (ex_client false []) (ex_server sb) [] [].

Definition ok_of {S} (o : option (S * res unit)) : bool :=
  match o with Some (_, Ok _) => true | _ => false end.

(** C33, C34 are not vacuous: both sides complete and hold each other's keys. *)
Example C33_C34_example : forall sb,
  let '((t, o), (u, q)) := ex_pair sb in
  exec (ex_client false []) t o /\ exec (ex_server sb) u q /\ ok_of o = true /\ ok_of q = true /\
  length t = 4%nat /\
  (match o with Some (s, _) => option_map m34_sig_key (cs_m3 s) | None => None end) = Some (kp_pub ex_ssig) /\
  (match q with Some (s, _) => ss_client_sig_key s | None => None end) = Some (kp_pub ex_csig).
Proof.
  intro sb. pose proof (run2_exec _ _ 20 (ex_client false []) (ex_server sb) [] []) as H. unfold ex_pair.
  destruct (run2 20 (ex_client false []) (ex_server sb) [] []) as [[t o] [u q]] eqn:E. cbn [fst snd] in H.
  destruct H as [H1 H2]. split; [exact H1|]. split; [exact H2|].
  destruct sb; vm_compute in E; injection E as <- <- <- <-; auto.
Qed.

(** C36: the same run writes a second time, after verification. *)
Example C36_example : nth_error (fst (fst (ex_pair true))) 3 <> None /\
  nth_error (fst (fst (ex_pair true))) 4 = None.
Proof. split; vm_compute; [discriminate|reflexivity]. Qed.

(** *** C35: agreement.  A client that completes agrees with one of the runs of the
    server whose key it reports: that run read the client's M1, sent the M2 the client
    received, and (when it completes) has the same session key -- or a hash collision
    is exhibited, or the client accepted a signature of a text that none of those runs
    signed. *)
Lemma server_text_inj : forall L sp ep a b a' b', nacl_laws L sp ep ->
  l_sha512 L a ++ l_sha512 L b = l_sha512 L a' ++ l_sha512 L b' -> (a = a' /\ b = b') \/ collision L.
Proof.
  intros L sp ep a b a' b' HL H.
  pose proof (law_sha_len _ _ _ HL a) as Ha. pose proof (law_sha_len _ _ _ HL a') as Ha'. unfold zlen in Ha, Ha'.
  apply app_inj_len in H; [|lia]. destruct H as [H1 H2].
  destruct (bytes_eq_dec a a') as [->|N]; [|right; exists a, a'; auto].
  destruct (bytes_eq_dec b b') as [->|N]; [|right; exists b, b'; auto]. left; auto.
Qed.

Lemma field_app : forall off n (a k r : bytes), length a = off -> length k = n -> field off n (a ++ k ++ r) = k.
Proof.
  intros off n a k r Ha Hk. unfold field. rewrite <- !app_assoc, skipn_app_exact by auto. apply firstn_app_exact; auto.
Qed.

Lemma field_m1 : forall t k sk, length k = 32%nat -> field 10 32 (M1_wire t k sk) = k.
Proof.
  intros t k sk H. unfold M1_wire. rewrite !app_assoc. rewrite <- (app_assoc _ k). apply field_app; [|exact H].
  rewrite !app_length, u32le_length. destruct sk; reflexivity.
Qed.

Lemma field_m2 : forall a b t k, length k = 32%nat -> field 6 32 (M2_wire a b t k) = k.
Proof.
  intros a b t k H. unfold M2_wire. rewrite !app_assoc. rewrite <- (app_nil_r k) at 1. apply field_app; [|exact H].
  rewrite !app_length, u32le_length. reflexivity.
Qed.

Lemma server_said_inv : forall L r m1 m2, srun_ok L r -> server_said (sr_t r) = Some (m1, m2) ->
  exists key sg t2 t3 tk3 f3 r3 t'',
    server_facts L (sr_sig r) (sr_enc r) m1 m2 f3 key sg t2 t3 /\
    sr_t r = ERead (Ok m1) :: (if sr_buf r then [EWrite [m2; f3] false r3] else [EWrite [m2] false (Ok tt); EWrite [f3] false r3]) ++ t'' /\
    ((only_reads t'' /\ not_ok (sr_o r)) \/
     exists f4, r3 = Ok tt /\ t'' = [ERead (Ok f4)] /\ exists s, sr_o r = Some (s, Ok tt) /\ server_end L m1 m2 f4 key tk3 s).
Proof.
  intros L [TK TC sig e buf a2 tk t o] m1 m2 H HS. unfold srun_ok in H.
  cbn [sr_TK sr_TC sr_sig sr_enc sr_buf sr_a2 sr_tk sr_t sr_o] in *.
  destruct (server_exec _ _ _ _ _ _ _ _ _ _ H) as
    [[-> H0]|[(x & -> & H0)|(m1' & t' & -> & [[-> H0]|[(a & r2 & _ & _ & -> & H0)|[(p & k & r2 & _ & _ & _ & _ & -> & H0)|(p & _ & _ & _ & H0)]]])]];
    try discriminate.
  destruct (server_times TK buf tk) as [[t2 t3] tk3].
  destruct H0 as [(_ & (r2 & ->) & H0)|(f3 & key & sg & r3 & t'' & HF & -> & H0)]; [discriminate|].
  assert (m1' = m1 /\ M2_wire false false t2 (kp_pub e) = m2) as [-> E].
  { cbn [server_said] in HS. destruct buf; cbn [map concat ev_out app] in HS; injection HS; auto. }
  rewrite E in *. exists key, sg, t2, t3, tk3, f3, r3, t''. auto.
Qed.

Theorem C35_client_agrees : forall L sp ep TK TC sig e buf wanted tk t s pk runs,
  nacl_laws L sp ep -> ep (kp_sec e) (kp_pub e) ->
  exec (client_handshake L TK TC (cs_init sig (Some e) buf wanted tk)) t (Some (s, Ok tt)) ->
  option_map m34_sig_key (cs_m3 s) = Some pk ->
  (forall r, In r runs -> srun_ok L r /\ ep (kp_sec (sr_enc r)) (kp_pub (sr_enc r))) ->
  exists m1 m2 rest, t = EWrite [m1] false (Ok tt) :: ERead (Ok m2) :: rest /\
  ((exists r, In r runs /\ kp_pub (sr_sig r) = pk /\ server_said (sr_t r) = Some (m1, m2) /\
      forall s', sr_o r = Some (s', Ok tt) -> ss_session_key s' = cs_session_key s) \/
   collision L \/
   exists sg, accepted L pk sg (server_text L m1 m2) /\
     forall r a b, In r runs -> kp_pub (sr_sig r) = pk -> server_said (sr_t r) = Some (a, b) ->
       server_text L a b <> server_text L m1 m2).
Proof.
  intros L sp ep TK TC sig e buf wanted tk t s pk runs HL He H Hpk HR.
  destruct (C33_server_verified _ _ _ _ _ _ _ _ _ _ H) as (e' & m1 & m2 & f3 & rest & c3 & He' & Hm1 & -> & HK & _ & _ & HA & Hpk').
  injection He' as <-. assert (pk = field 6 32 c3) by congruence. subst pk. clear Hpk Hpk'.
  exists m1, m2, (ERead (Ok f3) :: rest). split; [reflexivity|].
  set (P := fun r => bytes_eqb (kp_pub (sr_sig r)) (field 6 32 c3) &&
                     match server_said (sr_t r) with Some (a, b) => bytes_eqb (server_text L a b) (server_text L m1 m2) | None => false end).
  destruct (find P runs) as [r|] eqn:EF.
  - apply find_some in EF. destruct EF as [HI HP]. unfold P in HP. apply andb_true_iff in HP. destruct HP as [P1 P2].
    apply bytes_eqb_eq in P1. destruct (server_said (sr_t r)) as [[a b]|] eqn:ES; [|discriminate].
    apply bytes_eqb_eq in P2. unfold server_text in P2. apply app_inv_head in P2.
    destruct (server_text_inj _ _ _ _ _ _ _ HL P2) as [[-> ->]|HC]; [|right; left; exact HC].
    left. exists r. split; [exact HI|]. split; [exact P1|]. split; [exact ES|].
    intros s' Hs'. destruct (HR r HI) as [HR1 HR2].
    destruct (server_said_inv _ _ _ _ HR1 ES) as (key & sg & t2 & t3 & tk3 & f3' & r3 & t'' & HF & _ & [[_ HN]|(f4 & _ & _ & s1 & HO & HE)]).
    { exfalso. eapply HN. exact Hs'. }
    assert (s1 = s') by congruence. subst s1. destruct HE as [HE _]. rewrite HE.
    destruct HF as (F1 & F2 & F3 & F4 & _).
    destruct (law_dh _ _ _ HL _ _ _ _ He HR2) as (k & _ & D1 & D2).
    rewrite Hm1, field_m1 in F4 by (eapply law_encpk_len; eauto).
    rewrite F3, field_m2 in HK by auto. congruence.
  - right. right. exists (field 38 64 c3). split; [exact HA|]. intros r a b HI HP HS HT.
    pose proof (find_none _ _ EF _ HI) as HN. unfold P in HN. rewrite HS, HP, HT, !bytes_eqb_refl in HN. discriminate.
Qed.
Print Assumptions C35_client_agrees.

Lemma client_said_inv : forall L r m1 m2, crun_ok L r -> client_said (cr_t r) (cr_o r) = Some (m1, m2) ->
  m1 = M1_wire (fst (tk_first (cr_TK r) (cr_tk r))) (kp_pub (cr_enc r)) None /\
  exists f3 rest key c3 sg, cr_t r = EWrite [m1] false (Ok tt) :: ERead (Ok m2) :: ERead (Ok f3) :: rest /\
    client_facts L (cr_sig r) (cr_enc r) (cr_tk r) m1 m2 f3 key c3 sg /\
    forall s, cr_o r = Some (s, Ok tt) -> cs_session_key s = key.
Proof.
  intros L [TK TC sig e buf wanted tk t o] m1 m2 H HS. unfold crun_ok in H.
  cbn [cr_TK cr_TC cr_sig cr_enc cr_buf cr_wanted cr_tk cr_t cr_o] in *.
  destruct (client_exec _ _ _ _ _ _ _ _ _ _ H) as [[-> H0]|(r & t' & -> & [[HO H0]|(m2' & f3 & rest & key & c3 & sg & -> & -> & HF & HE)])];
    [discriminate| |].
  - exfalso. cbn [client_said] in HS. destruct t' as [|[[x|x]|] [|y [|[z|ms l z] w]]]; try discriminate.
    + destruct o as [[s [[]|x0]]|]; try discriminate. eapply H0. reflexivity.
    + destruct (HO (EWrite ms l z)) as [q Hq]; [right; right; left; reflexivity|discriminate].
  - assert (E : M1_wire (fst (tk_first TK tk)) (kp_pub e) None = m1 /\ m2' = m2).
    { cbn [client_said] in HS. destruct rest as [|[|]]; destruct o as [[? [|]]|]; try discriminate; injection HS; auto. }
    destruct E as [E ->]. rewrite E in *. split; [reflexivity|].
    exists f3, rest, key, c3, sg. split; [reflexivity|]. split; [exact HF|].
    intros s ->. destruct buf.
    + destruct HE as [_ [HE|(s' & HE & HC)]]; [discriminate|]. injection HE as <-. apply HC.
    + destruct HE as [[_ HE]|(f4 & r2 & _ & _ & [HE|(s' & HE & HC)])]; [exfalso; eapply HE; reflexivity|discriminate|].
      injection HE as <- _. apply HC.
Qed.

(** The same for the server: a server that completes agrees with one of the runs of
    the client whose key it reports. *)
Theorem C35_server_agrees : forall L sp ep TK TC sig e buf a2 tk t s pk runs,
  nacl_laws L sp ep -> ep (kp_sec e) (kp_pub e) ->
  exec (server_handshake L TK TC (ss_init sig (Some e) buf a2 tk)) t (Some (s, Ok tt)) ->
  ss_client_sig_key s = Some pk ->
  (forall r, In r runs -> crun_ok L r /\ ep (kp_sec (cr_enc r)) (kp_pub (cr_enc r))) ->
  exists m1 m2, server_said t = Some (m1, m2) /\
  ((exists r, In r runs /\ kp_pub (cr_sig r) = pk /\ client_said (cr_t r) (cr_o r) = Some (m1, m2) /\
      forall s', cr_o r = Some (s', Ok tt) -> cs_session_key s' = ss_session_key s) \/
   collision L \/
   exists sg, accepted L pk sg (client_text L m1 m2) /\
     forall r a b, In r runs -> kp_pub (cr_sig r) = pk -> client_said (cr_t r) (cr_o r) = Some (a, b) ->
       client_text L a b <> client_text L m1 m2).
Proof.
  intros L sp ep TK TC sig e buf a2 tk t s pk runs HL He H Hpk HR.
  destruct (C34_client_verified _ _ _ _ _ _ _ _ _ _ H) as [(_ & _ & HN)|(_ & e' & m1 & m2 & f3 & f4 & c4 & He' & -> & (t2 & Hm2) & HK & _ & HA & Hpk')];
    [congruence|].
  injection He' as <-. assert (pk = field 6 32 c4) by congruence. subst pk. clear Hpk Hpk'.
  exists m1, m2. split; [destruct buf; reflexivity|].
  set (P := fun r => bytes_eqb (kp_pub (cr_sig r)) (field 6 32 c4) &&
                     match client_said (cr_t r) (cr_o r) with Some (a, b) => bytes_eqb (client_text L a b) (client_text L m1 m2) | None => false end).
  destruct (find P runs) as [r|] eqn:EF.
  - apply find_some in EF. destruct EF as [HI HP]. unfold P in HP. apply andb_true_iff in HP. destruct HP as [P1 P2].
    apply bytes_eqb_eq in P1. destruct (client_said (cr_t r) (cr_o r)) as [[a b]|] eqn:ES; [|discriminate].
    apply bytes_eqb_eq in P2. unfold client_text in P2. apply app_inv_head in P2.
    destruct (server_text_inj _ _ _ _ _ _ _ HL P2) as [[-> ->]|HC]; [|right; left; exact HC].
    left. exists r. split; [exact HI|]. split; [exact P1|]. split; [exact ES|].
    intros s' Hs'. destruct (HR r HI) as [HR1 HR2].
    destruct (client_said_inv _ _ _ _ HR1 ES) as (Hm1 & f3' & rest & key & c3 & sg & _ & HF & HE).
    rewrite (HE _ Hs'). destruct HF as (F1 & F2 & F3 & _).
    destruct (law_dh _ _ _ HL _ _ _ _ He HR2) as (k & _ & D1 & D2).
    rewrite Hm1, field_m1 in HK by (eapply law_encpk_len; eauto).
    rewrite Hm2, field_m2 in F3 by (eapply law_encpk_len; eauto). congruence.
  - right. right. exists (field 38 64 c4). split; [exact HA|]. intros r a b HI HP HS HT.
    pose proof (find_none _ _ EF _ HI) as HN. unfold P in HN. rewrite HS, HP, HT, !bytes_eqb_refl in HN. discriminate.
Qed.
Print Assumptions C35_server_agrees.

(** What a server signs is never what a client signs: no reflection of signatures
    between the two roles. *)
Theorem C35_roles_separated : forall L m1 m2 a b, server_text L m1 m2 <> client_text L a b.
Proof. intros L m1 m2 a b H. unfold server_text, client_text in H. vm_compute in H. discriminate. Qed.
Print Assumptions C35_roles_separated.

(** In the example runs the first alternative holds: same M1, M2 and session key. *)
Definition ex_srun : srun :=
  SRun null_keeper null_checker ex_ssig ex_senc true None 0 (fst (snd (ex_pair true))) (snd (snd (ex_pair true))).
Definition ex_crun : crun :=
  CRun one_two_three null_checker ex_csig ex_cenc false [] 0 (fst (fst (ex_pair true))) (snd (fst (ex_pair true))).
Example C35_example :
  nacl_laws toy_lib toy_pair toy_pair /\
  srun_ok toy_lib ex_srun /\ crun_ok toy_lib ex_crun /\ toy_pair (kp_sec ex_senc) (kp_pub ex_senc) /\
  ok_of (sr_o ex_srun) = true /\ ok_of (cr_o ex_crun) = true /\
  server_said (sr_t ex_srun) <> None /\ server_said (sr_t ex_srun) = client_said (cr_t ex_crun) (cr_o ex_crun) /\
  option_map (fun x => ss_session_key (fst x)) (sr_o ex_srun) = option_map (fun x => cs_session_key (fst x)) (cr_o ex_crun).
Proof.
  split; [exact toy_laws|].
  pose proof (run2_exec _ _ 20 (ex_client false []) (ex_server true) [] []) as [H1 H2].
  split; [exact H2|]. split; [exact H1|]. split; [split; reflexivity|].
  repeat split; try (vm_compute; reflexivity). vm_compute. discriminate.
Qed.
