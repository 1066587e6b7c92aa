(** Who talks to whom: C99.  Both ends of a connection name each other
    (v2/salt_client_session.py:76-101, v2/salt_server_session.py:108-148).  The signatures
    cover the hashes of M1 and M2 only, no identities; the keys themselves travel inside the
    encrypted M3 and M4. *)
From Coq Require Import List ZArith Bool Strings.Byte Lia ZifyBool ZifyNat ZifyN.
From Verif Require Import PyBase PyBase_proofs IO IO_proofs Packets Packets_proofs Packets_proofs2
  Crypto Crypto_proofs Time EncChannel EncUse EncChannel_proofs AppChannel AppUse AppChannel_proofs Props_App
  Session Session_proofs SessUse Session_steps Sched_proofs Session_fwd Props_Session Props_E2E Spec.
Import ListNotations.
Open Scope Z_scope.
Ltac Zify.zify_post_hook ::= Z.div_mod_to_equations.

(** What a run has read, in order. *)
Definition frames_read (t : list ev) : list bytes := concat (map ev_in t).

(** ** Lemmas *)
Lemma field_m34 : forall b t (k g : bytes), length k = 32%nat -> field 6 32 ([b; x00] ++ u32le t ++ k ++ g) = k.
Proof. intros b t k g H. rewrite app_assoc. apply field_app; [rewrite app_length, u32le_length; reflexivity|exact H]. Qed.

(** A frame that opens at a place of the peer's stream carries what the peer wrote there. *)
Lemma opened_genuine : forall L sp ep key c f clear (rest : list bytes) received (g m : bytes),
  nacl_laws L sp ep -> length key = 32%nat ->
  (exists ct b, l_afternm L clear (nonce24 c (repeat x00 8)) key = Ok ct /\ g = Enc_wire b ct) ->
  opens L key c f m -> In f received ->
  m = clear \/ box_forgery L key c (g :: rest) received.
Proof.
  intros L sp ep key c f clear rest received g m HL Hk (ct & b & HS & ->) (fl & body & -> & _ & HO) HI.
  destruct (bytes_eqb ct body) eqn:E.
  - apply bytes_eqb_eq in E. subst body. left.
    destruct (law_box _ _ _ HL clear (nonce24 c (repeat x00 8)) key) as (ct' & B1 & _ & B3); [apply nonce24_length; reflexivity|exact Hk|].
    congruence.
  - right. exists x06, fl, body, O, m. split; [exact HI|]. replace (c + 2 * Z.of_nat 0) with c by lia. split; [exact HO|].
    intros f Hf. cbn [nth_error] in Hf. injection Hf as <-. intros HE.
    assert (ct = body) by (rewrite <- HE; reflexivity). subst body. rewrite bytes_eqb_refl in E. discriminate.
Qed.

Lemma opened_unwritten : forall L key c f received m,
  opens L key c f m -> In f received -> box_forgery L key c [] received.
Proof.
  intros L key c f received m (fl & body & -> & _ & HO) HI.
  exists x06, fl, body, O, m. split; [exact HI|]. replace (c + 2 * Z.of_nat 0) with c by lia. split; [exact HO|].
  intros f Hf. discriminate.
Qed.

(** What comes first from a client that buffered its M4 is M4. *)
Lemma buffered_first : forall L sp ep TK TC s h s', nacl_laws L sp ep ->
  ac_hist L TK TC s h s' ->
  length (ec_key (ac_enc s)) = 32%nat -> length (ec_session_nonce (ac_enc s)) = 8%nat -> 0 <= ec_write_nonce (ac_enc s) ->
  forall (k g : bytes) t0, ac_buffered_m4 s = Some (M4_wire t0 k g) ->
  clear_texts TK (ac_tk s) (Some (k, g)) h = [] \/
  exists now b xs, clear_texts TK (ac_tk s) (Some (k, g)) h = (M4_wire now k g, b) :: xs.
Proof.
  intros L sp ep TK TC s h s' HL H.
  induction H as [s|s t s1 r h s2 HX HH IH|s m args last t s1 r h s2 HX HH IH]; intros Hk Hs Hw k g t0 Hb.
  - left. reflexivity.
  - cbn [clear_texts].
    apply ac_read_exec in HX. destruct HX as [(m & q & _ & _ & _ & ->)|(_ & e1 & er & HR & HX)].
    + apply (IH Hk Hs Hw k g t0 Hb).
    + apply ec_read_state in HR. destruct HR as (R1 & R2 & R3 & _).
      assert (E : ac_enc s1 = e1 /\ ac_tk s1 = ac_tk s /\ ac_buffered_m4 s1 = ac_buffered_m4 s).
      { destruct er as [raw|e]; [destruct (ac_interpret TC raw) as [[d q]|e]|]; destruct HX as [_ ->]; repeat split. }
      destruct E as (E1 & E2 & E3). rewrite <- E1 in *. rewrite <- E2, <- E3 in *. rewrite <- R1, <- R2, <- R3 in *.
      apply (IH Hk Hs Hw k g t0 Hb).
  - apply ac_write_exec in HX. destruct HX as (p & ps & e1 & HP & HE & ->).
    cbn [clear_texts]. destruct (tk_get TK (ac_tk s)) as [now tk'] eqn:ET. cbn [fst snd] in *.
    apply ec_write_exec in HE. destruct HE as [(-> & e & HW & ->)|(fs & -> & HW)].
    + left. cbn [is_empty app].
      apply wrap_all_err in HW. destruct HW as (i & _ & He1 & m' & _ & HE).
      assert (Ho : 2 ^ 64 <= ec_write_nonce e1).
      { destruct (ec_encrypt_total L sp ep e1 m' HL) as [[_ [c Hc]]|[Ho _]]; try (rewrite He1; cbn [ec_key ec_session_nonce ec_write_nonce]; auto; lia).
        - congruence.
        - exact Ho. }
      destruct (app_to_enc _ _ _ _ _ _ HH None 0 eq_refl) as (es & S1 & _ & _ & S4). cbn [ac_enc ac_tk] in S1, S4.
      destruct (hist_sent _ _ _ _ _ _ HL S1) as (_ & _ & _ & N & _);
        try (rewrite He1; cbn [ec_key ec_session_nonce ec_write_nonce]; auto; lia).
      rewrite (N Ho) in S4. symmetry. exact S4.
    + right. cbn [is_empty app].
      destruct (packets now (m :: args)) as [|q qs] eqn:EQ; [exfalso; exact (packets_nonempty _ _ _ EQ)|].
      exists now, false, (mark last (q :: qs) ++ clear_texts TK tk' None h). reflexivity.
Qed.

(** The first encrypted frame of a client, if it wrote any, is its M4. *)
Lemma client_m4_first : forall L sp ep r m1 m2, nacl_laws L sp ep -> clife_ok L r ->
  client_said (cr_t (cl_run r)) (cr_o (cl_run r)) = Some (m1, m2) ->
  clife_frames r = [] \/
  exists g rest key f3 c3 sg now, clife_frames r = g :: rest /\ length key = 32%nat /\
    client_facts L (cr_sig (cl_run r)) (cr_enc (cl_run r)) (cr_tk (cl_run r)) m1 m2 f3 key c3 sg /\
    exists ct b, l_afternm L (M4_wire now (kp_pub (cr_sig (cl_run r))) sg) (nonce24 1 (repeat x00 8)) key = Ok ct /\ g = Enc_wire b ct.
Proof.
  intros L sp ep [[TK TC sig e buf wanted tk t o] h] m1 m2 HL [H HO] HS. unfold crun_ok in H. unfold clife_frames.
  cbn [cl_run cl_hist cr_TK cr_TC cr_sig cr_enc cr_buf cr_wanted cr_tk cr_t cr_o] in *.
  destruct (client_exec _ _ _ _ _ _ _ _ _ _ H) as [[-> H0]|(r & t' & -> & [[HR H0]|(m2' & f3 & rest & key & c3 & sg & -> & -> & HF & HE)])];
    [discriminate| |].
  - exfalso. cbn [client_said] in HS. destruct t' as [|[[x|x]|] [|y [|[z|ms l z] w]]]; try discriminate.
    + destruct o as [[s [[]|x0]]|]; try discriminate. eapply H0. reflexivity.
    + destruct (HR (EWrite ms l z)) as [q Hq]; [right; right; left; reflexivity|discriminate].
  - assert (E : M1_wire (fst (tk_first TK tk)) (kp_pub e) None = m1 /\ m2' = m2).
    { cbn [client_said] in HS. destruct rest as [|[|]]; destruct o as [[? [|]]|]; try discriminate; injection HS; auto. }
    destruct E as [E ->]. rewrite E in *. assert (Hk : length key = 32%nat) by apply HF. destruct buf.
    + destruct HE as [-> [->|(s & -> & HC)]]; [discriminate|].
      destruct HC as (K1 & _ & fl & K2 & _). destruct HO as (a & a' & Ha & HA).
      rewrite K2 in Ha. injection Ha as <-.
      destruct (app_to_enc _ _ _ _ _ _ HA (Some (kp_pub sig, sg)) _ eq_refl) as (es & S1 & S2 & _ & S4).
      cbn [ac_enc ac_tk] in S1, S4.
      destruct (hist_sent _ _ _ _ _ _ HL S1 Hk eq_refl ltac:(cbn; lia)) as (HX & _).
      cbn [ec_key ec_session_nonce ec_write_nonce] in HX. rewrite S4, S2 in HX.
      cbn [map ev_out concat app tl].
      destruct (buffered_first L sp ep TK TC _ _ _ HL HA Hk eq_refl ltac:(cbn; lia) (kp_pub sig) sg _ eq_refl)
        as [B1|(now & b & xs & B1)]; cbn [ac_tk] in B1; rewrite B1 in HX.
      * left. destruct (frames_out h) as [|f fs]; [reflexivity|destruct HX].
      * right. destruct (frames_out h) as [|f fs]; [destruct HX|]. destruct HX as [(_ & ct & HX1 & HX2) _]. cbn [fst snd] in *.
        exists f, fs, key, f3, c3, sg, now. split; [reflexivity|]. split; [exact Hk|]. split; [exact HF|]. exists ct, b. split; assumption.
    + destruct HE as [[-> HE]|(f4 & r2 & (ct & HM1 & HM2) & -> & _)].
      * left. destruct o as [[s [[]|x]]|]; [exfalso; eapply HE; reflexivity| |]; subst h; reflexivity.
      * right. cbn [map ev_out concat app tl]. exists f4, (frames_out h), key, f3, c3, sg, (fst (tk_get TK (snd (tk_first TK tk)))).
        split; [reflexivity|]. split; [exact Hk|]. split; [exact HF|]. exists ct, false. split; assumption.
Qed.

Lemma agreed_key : forall L sp ep m1 m2 csig cenc tk f3 key c3 sg ssig senc f3' key' sg' t1 t2 t3,
  nacl_laws L sp ep -> ep (kp_sec cenc) (kp_pub cenc) -> ep (kp_sec senc) (kp_pub senc) ->
  m1 = M1_wire t1 (kp_pub cenc) None ->
  client_facts L csig cenc tk m1 m2 f3 key c3 sg -> server_facts L ssig senc m1 m2 f3' key' sg' t2 t3 -> key = key'.
Proof.
  intros L sp ep m1 m2 csig cenc tk f3 key c3 sg ssig senc f3' key' sg' t1 t2 t3 HL HC HS Hm1 (F1 & F2 & F3 & _) (G1 & G2 & Hm2 & G4 & _).
  destruct (law_dh _ _ _ HL _ _ _ _ HS HC) as (k & _ & D1 & D2).
  rewrite Hm1, field_m1 in G4 by (eapply law_encpk_len; eauto).
  rewrite Hm2, field_m2 in F3 by (eapply law_encpk_len; eauto). congruence.
Qed.

(** *** C99, server: [runs] are the runs of clients so far.  A server with the key [kp_pub sig]
    that completes and reports the client [pk] was talking to a run of that client which, in
    the same session, takes its peer to be [kp_pub sig] -- or a hash collision, a forged
    signature or a forged box is exhibited. *)
Theorem C99_server_named : forall L sp ep TK TC sig e buf a2 tk t s pk runs,
  nacl_laws L sp ep -> ep (kp_sec e) (kp_pub e) ->
  exec (server_handshake L TK TC (ss_init sig (Some e) buf a2 tk)) t (Some (s, Ok tt)) ->
  ss_client_sig_key s = Some pk ->
  (forall r, In r runs -> crun_ok L r /\ ep (kp_sec (cr_enc r)) (kp_pub (cr_enc r))) ->
  exists m1 m2, server_said t = Some (m1, m2) /\
  ((exists r, In r runs /\ kp_pub (cr_sig r) = pk /\ client_said (cr_t r) (cr_o r) = Some (m1, m2) /\
      ((forall s' x, cr_o r = Some (s', x) -> option_map m34_sig_key (cs_m3 s') = Some (kp_pub sig)) \/
       box_forgery L (ss_session_key s) 2 (tl (concat (map ev_out t))) (frames_read (cr_t r)))) \/
   collision L \/
   exists sg, accepted L pk sg (client_text L m1 m2) /\
     forall r a b, In r runs -> kp_pub (cr_sig r) = pk -> client_said (cr_t r) (cr_o r) = Some (a, b) ->
       client_text L a b <> client_text L m1 m2).
Proof.
  intros L sp ep TK TC sig e buf a2 tk t s pk runs HL He H Hpk HR.
  destruct (C35_server_agrees L sp ep TK TC sig e buf a2 tk t s pk runs HL He H Hpk HR) as (m1 & m2 & HS & HA).
  exists m1, m2. split; [exact HS|]. destruct HA as [(r & Hr & P1 & P2 & _)|HA]; [|right; exact HA].
  left. exists r. split; [exact Hr|]. split; [exact P1|]. split; [exact P2|]. destruct (HR r Hr) as [R1 R2].
  destruct (server_said_inv L (SRun TK TC sig e buf a2 tk t (Some (s, Ok tt))) m1 m2 H HS)
    as (key & sg & t2 & t3 & tk3 & f3 & r3 & t'' & HF & Ht & HE).
  cbn [sr_sig sr_enc sr_t sr_buf sr_o] in *.
  destruct HE as [[_ HN]|(f4 & -> & -> & s1 & Ho & K1 & _)]; [exfalso; eapply HN; reflexivity|].
  injection Ho as <-. rewrite K1.
  destruct (client_said_inv _ _ _ _ R1 P2) as (Hm1 & f3' & rest & key' & c3 & sg' & Ht' & HF' & _).
  assert (key' = key) by exact (agreed_key _ _ _ _ _ _ _ _ _ _ _ _ _ _ _ _ _ _ _ _ HL R2 He Hm1 HF' HF). subst key'.
  assert (HG : tl (concat (map ev_out t)) = [f3]) by (rewrite Ht; destruct buf; reflexivity). rewrite HG.
  assert (HI : In f3' (frames_read (cr_t r))) by (rewrite Ht'; cbn; auto).
  assert (Hk : length key = 32%nat) by apply HF.
  destruct HF as (_ & _ & _ & _ & Hp & _ & _ & ct & G1 & G2).
  assert (HO : opens L key 2 f3' c3) by apply HF'.
  destruct (opened_genuine L sp ep key 2 f3' (M3_wire t3 (kp_pub sig) sg) [] _ f3 c3 HL Hk
    (ex_intro _ ct (ex_intro _ false (conj G1 G2))) HO HI) as [->|P]; [|right; exact P].
  left. intros s' x Hx. destruct r as [TKr TCr sigr er bufr wr tkr tr o]. unfold crun_ok in R1.
  cbn [cr_TK cr_TC cr_sig cr_enc cr_buf cr_wanted cr_tk cr_t cr_o] in *. subst o.
  destruct (client_exec _ _ _ _ _ _ _ _ _ _ R1) as [[E0 _]|(q & t' & E1 & HX)]; [rewrite Ht' in E0; discriminate|].
  rewrite Ht' in E1. injection E1 as E1 E2. subst t'. destruct HX as [[HX HN]|(m2' & f & rest' & k' & c' & g' & -> & E3 & HF2 & HX)].
  { exfalso. rewrite Ht' in P2. cbn [client_said] in P2. destruct rest as [|[z|ms l z] w].
    - destruct x as [[]|]; [eapply HN; reflexivity|discriminate].
    - discriminate.
    - destruct (HX (EWrite ms l z)) as [y Hy]; [right; right; left; reflexivity|discriminate]. }
  injection E3 as <- <- <-.
  assert (HC : client_end TKr sigr er bufr tkr k' c' g' s').
  { destruct bufr.
    - destruct HX as [_ [HX|(s2 & HX & HC)]]; [discriminate|]. injection HX as <- _. exact HC.
    - destruct HX as [[-> HX]|(f4' & r2 & _ & _ & [HX|(s2 & HX & HC)])]; [|discriminate|injection HX as <- _; exact HC].
      exfalso. rewrite Ht' in P2. cbn [client_said] in P2. destruct x as [[]|]; [eapply HX; reflexivity|discriminate]. }
  destruct HC as (_ & -> & _). cbn [option_map]. f_equal.
  destruct HF' as (_ & _ & B1 & (fl1 & b1 & EO1 & _ & O1) & _). destruct HF2 as (_ & _ & B2 & (fl2 & b2 & EO2 & _ & O2) & C3 & C4 & _).
  assert (c' = M3_wire t3 (kp_pub sig) sg) by congruence. subst c'.
  unfold m34_sig_key. etransitivity; [eapply (fixed_ctor_field TYPE_M3 (z2b TYPE_M3) 101); [exact C4|lia|lia]|].
  apply field_m34. exact Hp.
Qed.
Print Assumptions C99_server_named.

(** *** C99, client: the same the other way round. *)
Theorem C99_client_named : forall L sp ep l s pk runs,
  nacl_laws L sp ep -> clife_ok L l -> ep (kp_sec (cr_enc (cl_run l))) (kp_pub (cr_enc (cl_run l))) ->
  cr_o (cl_run l) = Some (s, Ok tt) ->
  option_map m34_sig_key (cs_m3 s) = Some pk ->
  (forall r, In r runs -> srun_ok L r /\ ep (kp_sec (sr_enc r)) (kp_pub (sr_enc r))) ->
  exists m1 m2, client_said (cr_t (cl_run l)) (cr_o (cl_run l)) = Some (m1, m2) /\
  ((exists r, In r runs /\ kp_pub (sr_sig r) = pk /\ server_said (sr_t r) = Some (m1, m2) /\
      ((forall s', sr_o r = Some (s', Ok tt) -> ss_client_sig_key s' = Some (kp_pub (cr_sig (cl_run l)))) \/
       box_forgery L (cs_session_key s) 1 (clife_frames l) (frames_read (sr_t r)))) \/
   collision L \/
   exists sg, accepted L pk sg (server_text L m1 m2) /\
     forall r a b, In r runs -> kp_pub (sr_sig r) = pk -> server_said (sr_t r) = Some (a, b) ->
       server_text L a b <> server_text L m1 m2).
Proof.
  intros L sp ep [[TK TC sig e buf wanted tk t o] h] s pk runs HL HK He Ho Hpk HR.
  cbn [cl_run cl_hist cr_TK cr_TC cr_sig cr_enc cr_buf cr_wanted cr_tk cr_t cr_o] in *. subst o.
  pose proof (proj1 HK) as H. unfold crun_ok in H.
  cbn [cl_run cl_hist cr_TK cr_TC cr_sig cr_enc cr_buf cr_wanted cr_tk cr_t cr_o] in H.
  destruct (C35_client_agrees L sp ep TK TC sig e buf wanted tk t s pk runs HL He H Hpk HR) as (m1 & m2 & rest & Ht & HA).
  assert (HS : client_said t (Some (s, Ok tt)) = Some (m1, m2)).
  { destruct (client_exec _ _ _ _ _ _ _ _ _ _ H) as [[_ H0]|(r1 & t' & Et & [[_ H0]|(m2' & f3 & rest' & key & c3 & sg & -> & -> & HF & HE)])];
      [exfalso; eapply H0; reflexivity|exfalso; eapply H0; reflexivity|].
    rewrite Et in Ht. injection Ht as Em1 <- <-. rewrite Et, Em1. destruct buf.
    - destruct HE as [-> _]. reflexivity.
    - destruct HE as [[_ HE]|(f4 & r2 & _ & -> & _)]; [exfalso; eapply HE; reflexivity|]. reflexivity. }
  exists m1, m2. split; [exact HS|]. destruct HA as [(r & Hr & P1 & P2 & _)|HA]; [|right; exact HA].
  left. exists r. split; [exact Hr|]. split; [exact P1|]. split; [exact P2|]. destruct (HR r Hr) as [R1 R2].
  destruct (client_said_inv L (CRun TK TC sig e buf wanted tk t (Some (s, Ok tt))) m1 m2 H HS) as (Hm1 & f3 & rest' & key & c3 & sg & _ & HF & HE).
  cbn [cr_TK cr_TC cr_sig cr_enc cr_buf cr_wanted cr_tk cr_t cr_o] in *. rewrite (HE _ eq_refl).
  destruct (server_said_inv L r m1 m2 R1 P2) as (key' & sg' & t2 & t3 & tk3 & f3' & r3 & t'' & HF' & Ht' & HE').
  assert (key = key') by exact (agreed_key _ _ _ _ _ _ _ _ _ _ _ _ _ _ _ _ _ _ _ _ HL He R2 Hm1 HF HF'). subst key'.
  destruct HE' as [[_ HN]|(f4 & -> & -> & s1 & Ho' & _ & _ & c4 & fl & HO & _ & HC4 & _)].
  { left. intros s' Hs'. exfalso. eapply HN. exact Hs'. }
  assert (HI : In f4 (frames_read (sr_t r))).
  { rewrite Ht'. unfold frames_read. destruct (sr_buf r); cbn; auto. }
  destruct (client_m4_first L sp ep _ m1 m2 HL HK HS) as [HG|(g & gs & key' & f3'' & c3' & sg'' & now & HG & Hk & HF'' & HM)]; rewrite HG.
  - right. eapply opened_unwritten; eassumption.
  - cbn [cl_run cl_hist cr_TK cr_TC cr_sig cr_enc cr_buf cr_wanted cr_tk cr_t cr_o] in *.
    assert (key' = key) by (destruct HF as (_ & _ & B1 & _); destruct HF'' as (_ & _ & B2 & _); congruence). subst key'.
    destruct (opened_genuine L sp ep key 1 f4 _ gs _ g c4 HL Hk HM HO HI) as [->|P]; [|right; exact P].
    left. intros s' Hs'. assert (s' = s1) by congruence. subst s'. rewrite HC4. f_equal. apply field_m34.
    destruct HF as (_ & _ & _ & _ & _ & _ & _ & _ & Hp & _). exact Hp.
Qed.
Print Assumptions C99_client_named.

(** The two runs of the example name each other. *)
Example C99_example :
  (exists s s', sr_o ex_srun = Some (s, Ok tt) /\ cr_o ex_crun = Some (s', Ok tt) /\
     ss_client_sig_key s = Some (kp_pub (cr_sig ex_crun)) /\
     option_map m34_sig_key (cs_m3 s') = Some (kp_pub (sr_sig ex_srun)) /\
     kp_pub (cr_sig ex_crun) <> kp_pub (sr_sig ex_srun)) /\
  frames_read (cr_t ex_crun) = concat (map ev_out (sr_t ex_srun)) /\
  length (clife_frames ex_clife) = 3%nat.
Proof.
  split; [|split; vm_compute; reflexivity].
  assert (E : exists s, sr_o ex_srun = Some (s, Ok tt) /\ ss_client_sig_key s = Some (kp_pub (cr_sig ex_crun))) by (vm_compute; eexists; split; reflexivity).
  assert (E' : exists s, cr_o ex_crun = Some (s, Ok tt) /\ option_map m34_sig_key (cs_m3 s) = Some (kp_pub (sr_sig ex_srun)))
    by (vm_compute; eexists; split; reflexivity).
  destruct E as (s & E1 & E2). destruct E' as (s' & E3 & E4). exists s, s'. repeat (split; [assumption|]). intros E. vm_compute in E. discriminate.
Qed.
