(** Several connections of one peer: C98.  Can a recorded connection be replayed?
    (v2/salt_client_session.py, v2/salt_server_session.py; [enc_keypair] is set by the user,
    salt_client_session.py:33, 116-119, salt_server_session.py:33, 151-154). *)
From Coq Require Import List ZArith Bool Strings.Byte Lia ZifyBool ZifyNat ZifyN.
From Verif Require Import PyBase PyBase_proofs IO IO_proofs Packets Packets_proofs Packets_proofs2
  Crypto Crypto_proofs Time EncChannel EncUse EncChannel_proofs AppChannel AppUse AppChannel_proofs Props_App
  Session Session_proofs SessUse Session_steps Sched_proofs Session_fwd Props_Session Props_E2E Spec.
Import ListNotations.
Open Scope Z_scope.
Ltac Zify.zify_post_hook ::= Z.div_mod_to_equations.

(** ** Specification *)

(** The run of a server completed and reports the client's key [pk]. *)
Definition server_accepted (r : srun) (pk : bytes) : Prop :=
  exists s, sr_o r = Some (s, Ok tt) /\ ss_client_sig_key s = Some pk.
Definition client_accepted (r : crun) (pk : bytes) : Prop :=
  exists s, cr_o r = Some (s, Ok tt) /\ option_map m34_sig_key (cs_m3 s) = Some pk.

(** The client [c] with the key [pk] took part in the connection of the server run [r]:
    it went on to send its signature after the same two first messages. *)
Definition client_was_there (r : srun) (pk : bytes) (c : crun) : Prop :=
  kp_pub (cr_sig c) = pk /\
  exists m1 m2, server_said (sr_t r) = Some (m1, m2) /\ client_said (cr_t c) (cr_o c) = Some (m1, m2).
Definition server_was_there (r : crun) (pk : bytes) (c : srun) : Prop :=
  kp_pub (sr_sig c) = pk /\
  exists m1 m2, client_said (cr_t r) (cr_o r) = Some (m1, m2) /\ server_said (sr_t c) = Some (m1, m2).

(** A signature of [pk] was accepted in the run [r] on a text that none of [cs] signed. *)
Definition client_sig_forgery (L : lib) (r : srun) (pk : bytes) (cs : list crun) : Prop :=
  exists m1 m2 sg, server_said (sr_t r) = Some (m1, m2) /\ accepted L pk sg (client_text L m1 m2) /\
    forall c a b, In c cs -> kp_pub (cr_sig c) = pk -> client_said (cr_t c) (cr_o c) = Some (a, b) -> client_text L a b <> client_text L m1 m2.
Definition server_sig_forgery (L : lib) (r : crun) (pk : bytes) (ss : list srun) : Prop :=
  exists m1 m2 sg, client_said (cr_t r) (cr_o r) = Some (m1, m2) /\ accepted L pk sg (server_text L m1 m2) /\
    forall c a b, In c ss -> kp_pub (sr_sig c) = pk -> server_said (sr_t c) = Some (a, b) -> server_text L a b <> server_text L m1 m2.

(** What a run has read, in order. *)
Definition reads_of (t : list ev) : list bytes := concat (map ev_in t).

(** The documented contract of [get_first_time] (util/time.py:9, 31-33): always 1, or
    always 0. *)
Definition constant_first (TK : tkeeper) : Prop := forall a b, fst (tk_first TK a) = fst (tk_first TK b).

(** The calls of a history that are reads. *)
Definition is_read (c : ecall) : bool := match c with EcRead _ _ _ => true | _ => false end.

(** ** Distinct keys: every accepted connection has a partner of its own *)
Lemma server_said_m2 : forall L r m1 m2, srun_ok L r -> server_said (sr_t r) = Some (m1, m2) -> field 6 32 m2 = kp_pub (sr_enc r).
Proof.
  intros L r m1 m2 H HS. destruct (server_said_inv _ _ _ _ H HS) as (key & sg & t2 & t3 & tk3 & f3 & r3 & t'' & HF & _).
  destruct HF as (F1 & _ & -> & _). apply field_m2. exact F1.
Qed.
Lemma client_said_m1 : forall L r m1 m2, crun_ok L r -> client_said (cr_t r) (cr_o r) = Some (m1, m2) -> field 10 32 m1 = kp_pub (cr_enc r).
Proof.
  intros L r m1 m2 H HS. destruct (client_said_inv _ _ _ _ H HS) as (-> & f3 & rest & key & c3 & sg & _ & HF & _).
  destruct HF as (F1 & _). apply field_m1. exact F1.
Qed.

Theorem C98_server_partners : forall L sp ep pk servers clients,
  nacl_laws L sp ep ->
  (forall r, In r servers -> srun_ok L r /\ ep (kp_sec (sr_enc r)) (kp_pub (sr_enc r)) /\ server_accepted r pk) ->
  (forall c, In c clients -> crun_ok L c /\ ep (kp_sec (cr_enc c)) (kp_pub (cr_enc c))) ->
  NoDup (map (fun r => kp_pub (sr_enc r)) servers) ->
  (exists partners, Forall2 (fun r c => client_was_there r pk c) servers partners /\ incl partners clients /\ NoDup partners) \/
  collision L \/ exists r, In r servers /\ client_sig_forgery L r pk clients.
Proof.
  intros L sp ep pk servers clients HL HR HC HD.
  induction servers as [|r servers IH].
  - left. exists []. split; [constructor|]. split; [intros x []|constructor].
  - cbn [map] in HD. apply NoDup_cons_iff in HD. destruct HD as [HD1 HD2].
    destruct (HR r (or_introl eq_refl)) as (R1 & R2 & s & R3 & R4).
    destruct r as [TK TC sig e buf a2 tk t o]. unfold srun_ok in R1. cbn [sr_TK sr_TC sr_sig sr_enc sr_buf sr_a2 sr_tk sr_t sr_o] in *. subst o.
    destruct (C35_server_agrees L sp ep TK TC sig e buf a2 tk t s pk clients HL R2 R1 R4 HC) as (m1 & m2 & HS & HA).
    destruct HA as [(c & C1 & C2 & C3 & _)|[HA|(sg & G1 & G2)]].
    + destruct IH as [(ps & P1 & P2 & P3)|[IH|(q & Q1 & Q2)]].
      { intros x Hx. apply HR. right. exact Hx. } { exact HD2. }
      * left. exists (c :: ps). split.
        { constructor; [|exact P1]. split; [exact C2|]. exists m1, m2. split; [exact HS|exact C3]. }
        split; [intros x [<-|Hx]; auto|]. constructor; [|exact P3].
        intros Hin. apply HD1.
        assert (X : exists q, In q servers /\ client_was_there q pk c).
        { clear - P1 Hin. induction P1 as [|q c' qs cs Hq P1 IH]; [destruct Hin|].
          destruct Hin as [->|Hin]; [exists q; split; [left; reflexivity|exact Hq]|].
          destruct (IH Hin) as (q' & ? & ?). exists q'. split; [right; assumption|assumption]. }
        destruct X as (q & Q1 & _ & a & b & Q2 & Q3). rewrite C3 in Q3. injection Q3 as <- <-.
        apply in_map_iff. exists q. split; [|exact Q1].
        destruct (HR q (or_intror Q1)) as (Q4 & _).
        rewrite <- (server_said_m2 _ _ _ _ Q4 Q2). symmetry.
        exact (eq_sym (server_said_m2 L (SRun TK TC sig e buf a2 tk t (Some (s, Ok tt))) m1 m2 R1 HS)).
      * right. left. exact IH.
      * right. right. exists q. split; [right; exact Q1|exact Q2].
    + right. left. exact HA.
    + right. right. eexists. split; [left; reflexivity|]. exists m1, m2, sg. auto.
Qed.
Print Assumptions C98_server_partners.

Theorem C98_client_partners : forall L sp ep pk clients servers,
  nacl_laws L sp ep ->
  (forall r, In r clients -> crun_ok L r /\ ep (kp_sec (cr_enc r)) (kp_pub (cr_enc r)) /\ client_accepted r pk) ->
  (forall c, In c servers -> srun_ok L c /\ ep (kp_sec (sr_enc c)) (kp_pub (sr_enc c))) ->
  NoDup (map (fun r => kp_pub (cr_enc r)) clients) ->
  (exists partners, Forall2 (fun r c => server_was_there r pk c) clients partners /\ incl partners servers /\ NoDup partners) \/
  collision L \/ exists r, In r clients /\ server_sig_forgery L r pk servers.
Proof.
  intros L sp ep pk clients servers HL HR HC HD.
  induction clients as [|r clients IH].
  - left. exists []. split; [constructor|]. split; [intros x []|constructor].
  - cbn [map] in HD. apply NoDup_cons_iff in HD. destruct HD as [HD1 HD2].
    destruct (HR r (or_introl eq_refl)) as (R1 & R2 & s & R3 & R4).
    destruct r as [TK TC sig e buf w tk t o]. unfold crun_ok in R1. cbn [cr_TK cr_TC cr_sig cr_enc cr_buf cr_wanted cr_tk cr_t cr_o] in *. subst o.
    destruct (C35_client_agrees L sp ep TK TC sig e buf w tk t s pk servers HL R2 R1 R4 HC) as (m1 & m2 & rest & Ht & HA).
    assert (HS : client_said t (Some (s, Ok tt)) = Some (m1, m2)).
    { destruct (client_exec _ _ _ _ _ _ _ _ _ _ R1) as [[_ H0]|(r1 & t' & Et & [[_ H0]|(m2' & f3 & rest' & key & c3 & sg & -> & -> & HF & HE)])];
        [exfalso; eapply H0; reflexivity|exfalso; eapply H0; reflexivity|].
      rewrite Et in Ht. injection Ht as Em1 <- <-. rewrite Et, Em1. destruct buf.
      - destruct HE as [-> _]. reflexivity.
      - destruct HE as [[_ HE]|(f4 & r2 & _ & -> & _)]; [exfalso; eapply HE; reflexivity|]. reflexivity. }
    destruct HA as [(c & C1 & C2 & C3 & _)|[HA|(sg & G1 & G2)]].
    + destruct IH as [(ps & P1 & P2 & P3)|[IH|(q & Q1 & Q2)]].
      { intros x Hx. apply HR. right. exact Hx. } { exact HD2. }
      * left. exists (c :: ps). split.
        { constructor; [|exact P1]. split; [exact C2|]. exists m1, m2. split; [exact HS|exact C3]. }
        split; [intros x [<-|Hx]; auto|]. constructor; [|exact P3].
        intros Hin. apply HD1.
        assert (X : exists q, In q clients /\ server_was_there q pk c).
        { clear - P1 Hin. induction P1 as [|q c' qs cs Hq P1 IH]; [destruct Hin|].
          destruct Hin as [->|Hin]; [exists q; split; [left; reflexivity|exact Hq]|].
          destruct (IH Hin) as (q' & ? & ?). exists q'. split; [right; assumption|assumption]. }
        destruct X as (q & Q1 & _ & a & b & Q2 & Q3). rewrite C3 in Q3. injection Q3 as <- <-.
        apply in_map_iff. exists q. split; [|exact Q1].
        destruct (HR q (or_intror Q1)) as (Q4 & _).
        rewrite <- (client_said_m1 _ _ _ _ Q4 Q2). symmetry.
        exact (eq_sym (client_said_m1 L (CRun TK TC sig e buf w tk t (Some (s, Ok tt))) m1 m2 R1 HS)).
      * right. left. exact IH.
      * right. right. exists q. split; [right; exact Q1|exact Q2].
    + right. left. exact HA.
    + right. right. eexists. split; [left; reflexivity|]. exists m1, m2, sg. auto.
Qed.
Print Assumptions C98_client_partners.

(** ** The same keys again: everything can be replayed *)

(** Two application channels that read alike. *)
Definition reads_alike (a b : ac) : Prop :=
  ec_key (ac_enc a) = ec_key (ac_enc b) /\ ec_pushback (ac_enc a) = ec_pushback (ac_enc b) /\
  ec_last_flag (ac_enc a) = ec_last_flag (ac_enc b) /\ ec_read_nonce (ac_enc a) = ec_read_nonce (ac_enc b) /\
  ec_session_nonce (ac_enc a) = ec_session_nonce (ac_enc b) /\ ac_readq a = ac_readq b.

Lemma process_alike : forall L k p f r sn raw, exists p' f' r' x, forall w,
  ec_process L (EC k p f r w sn) raw = (EC k p' f' r' w sn, x).
Proof.
  intros L k p f r sn raw. unfold ec_process, ec_unwrap, ec_decrypt, ec_set_last_flag, ec_advance_read. cbn [ec_read_nonce ec_session_nonce ec_key].
  destruct (ep_ctor raw) as [q|x].
  2:{ exists p, f, r, (Err x). intro w. reflexivity. }
  destruct (ep_body q) as [body|x].
  2:{ exists p, (ep_last_flag q), r, (Err x). intro w. reflexivity. }
  destruct (nonce_bytes r sn) as [n|x] eqn:EN.
  2:{ exists p, (ep_last_flag q), r, (Err x). intro w. cbn [ec_key ec_pushback ec_last_flag ec_read_nonce ec_session_nonce ec_write_nonce]. rewrite EN. reflexivity. }
  destruct (l_open_afternm L body n k) as [m|x] eqn:EO.
  - exists p, (ep_last_flag q), (r + 2), (Ok m). intro w. cbn [ec_key ec_pushback ec_last_flag ec_read_nonce ec_session_nonce ec_write_nonce]. rewrite EN, EO. reflexivity.
  - exists p, (ep_last_flag q), r, (Err (match x with BadEncryptedDataException => BadPeer | _ => x end)). intro w.
    cbn [ec_key ec_pushback ec_last_flag ec_read_nonce ec_session_nonce ec_write_nonce]. rewrite EN, EO. destruct x; reflexivity.
Qed.

Lemma ec_read_alike : forall L a b t a1 r, exec (ec_read L a) t (Some (a1, r)) ->
  ec_key a = ec_key b -> ec_pushback a = ec_pushback b -> ec_last_flag a = ec_last_flag b ->
  ec_read_nonce a = ec_read_nonce b -> ec_session_nonce a = ec_session_nonce b ->
  exec (ec_read L b) t (Some (EC (ec_key a1) (ec_pushback a1) (ec_last_flag a1) (ec_read_nonce a1) (ec_write_nonce b) (ec_session_nonce a1), r)).
Proof.
  intros L [k p f rn w sn] [k' p' f' rn' w' sn'] t a1 r H. cbn [ec_key ec_pushback ec_last_flag ec_read_nonce ec_session_nonce ec_write_nonce].
  intros <- <- <- <- <-. unfold ec_read in *. cbn [ec_pushback] in *. destruct (is_empty p).
  - apply exec_read_inv in H. destruct H as [[_ H]|(x & t' & -> & H)]; [discriminate|].
    constructor. destruct x as [raw|x].
    + destruct (process_alike L k p f rn sn raw) as (p1 & f1 & r1 & y & E). rewrite E in H.
      apply exec_ret_any in H. destruct H as [-> [H|H]]; [discriminate|]. inversion H; subst a1 r. cbn [ec_key ec_pushback ec_last_flag ec_read_nonce ec_session_nonce ec_write_nonce]. rewrite E. constructor.
    + apply exec_ret_any in H. destruct H as [-> [H|H]]; [discriminate|]. inversion H; subst a1 r. cbn [ec_key ec_pushback ec_last_flag ec_read_nonce ec_session_nonce ec_write_nonce]. constructor.
  - unfold ec_set_pushback in *. cbn [ec_key ec_pushback ec_last_flag ec_read_nonce ec_session_nonce ec_write_nonce] in *.
    destruct (process_alike L k [] f rn sn p) as (p1 & f1 & r1 & y & E). rewrite E in H.
    apply exec_ret_any in H. destruct H as [-> [H|H]]; [discriminate|]. inversion H; subst a1 r. cbn [ec_key ec_pushback ec_last_flag ec_read_nonce ec_session_nonce ec_write_nonce]. rewrite E. constructor.
Qed.

Lemma ac_read_alike : forall L TC a b t a1 r, exec (ac_read L TC a) t (Some (a1, r)) -> reads_alike a b ->
  exists b1, exec (ac_read L TC b) t (Some (b1, r)) /\ reads_alike a1 b1.
Proof.
  intros L TC a b t a1 r H (A1 & A2 & A3 & A4 & A5 & A6). apply ac_read_exec in H. unfold ac_read.
  destruct H as [(m & q & Q & -> & -> & ->)|(Q & e1 & er & HR & HX)]; rewrite A6 in Q.
  - exists (ac_set_readq q b). split; [|repeat split; assumption].
    unfold mbind, mget, mput, mret. cbn [iobind fst snd]. rewrite Q. cbn [iobind fst snd]. constructor.
  - pose proof (ec_read_alike _ _ _ _ _ _ HR A1 A2 A3 A4 A5) as HB.
    remember (EC (ec_key e1) (ec_pushback e1) (ec_last_flag e1) (ec_read_nonce e1) (ec_write_nonce (ac_enc b)) (ec_session_nonce e1)) as e2 eqn:E2.
    assert (RA : forall qa qb, qa = qb -> reads_alike (AC e1 (ac_tk a) (ac_buffered_m4 a) qa) (AC e2 (ac_tk b) (ac_buffered_m4 b) qb)).
    { intros qa qb ->. subst e2. repeat split. }
    unfold mbind at 1. unfold mget. cbn [iobind fst snd]. rewrite Q.
    rewrite <- (app_nil_r t).
    destruct er as [raw|x]; [destruct (ac_interpret TC raw) as [[d q]|x] eqn:EI|]; destruct HX as [-> ->].
    + exists (ac_set_readq q (ac_set_enc e2 b)). split; [|apply RA; reflexivity].
      unfold mbind at 1. eapply exec_bind_fwd.
      { rewrite <- (app_nil_r t). unfold mzoom. eapply exec_bind_fwd; [exact HB|constructor]. }
      cbn [fst snd]. unfold mbind, mlift, mmod, mret. cbn [iobind fst snd]. rewrite EI. cbn [iobind fst snd]. constructor.
    + exists (ac_set_enc e2 b). split; [|apply RA; exact A6].
      unfold mbind at 1. eapply exec_bind_fwd.
      { rewrite <- (app_nil_r t). unfold mzoom. eapply exec_bind_fwd; [exact HB|constructor]. }
      cbn [fst snd]. unfold mbind, mlift, mmod, mret. cbn [iobind fst snd]. rewrite EI. constructor.
    + exists (ac_set_enc e2 b). split; [|apply RA; exact A6].
      unfold mbind at 1. eapply exec_bind_fwd.
      { rewrite <- (app_nil_r t). unfold mzoom. eapply exec_bind_fwd; [exact HB|constructor]. }
      cbn [fst snd]. constructor.
Qed.

(** Whoever sends a channel that reads alike the frames another one got makes it deliver the
    same messages; what the other one wrote in between does not matter. *)
Lemma replay_reads : forall L TK TC a h a' TK' b, ac_hist L TK TC a h a' -> reads_alike a b ->
  exists b', ac_hist L TK' TC b (filter is_read h) b'.
Proof.
  intros L TK TC a h a' TK' b H. revert b.
  induction H as [s|s t s1 r h s2 HX HH IH|s m args last t s1 r h s2 HX HH IH]; intros b HB; cbn [filter is_read].
  - exists b. constructor.
  - destruct (ac_read_alike _ _ _ _ _ _ _ HX HB) as (b1 & B1 & B2). destruct (IH _ B2) as [b' B3].
    exists b'. assert (E : ac_last s1 = ac_last b1) by (unfold ac_last; apply B2). rewrite E. econstructor; eauto.
  - apply IH. apply ac_write_exec in HX. destruct HX as (p & ps & e1 & _ & HE & ->).
    apply ec_write_state in HE. destruct HE as (E1 & E2 & E3 & E4 & E5 & _). destruct HB as (A1 & A2 & A3 & A4 & A5 & A6).
    unfold reads_alike. cbn [ac_enc ac_readq]. repeat split; congruence.
Qed.
Lemma reads_same : forall h, got_msgs (filter is_read h) = got_msgs h.
Proof.
  intro h. unfold got_msgs. induction h as [|[t r l|m args l t r] h IH]; cbn [filter is_read map concat].
  - reflexivity.
  - rewrite IH. reflexivity.
  - exact IH.
Qed.
Lemma reads_frames : forall L TK TC a h a', ac_hist L TK TC a h a' -> frames_in (filter is_read h) = frames_in h.
Proof.
  intros L TK TC a h a' H. induction H as [s|s t s1 r h s2 HX HH IH|s m args last t s1 r h s2 HX HH IH]; cbn [filter is_read].
  - reflexivity.
  - rewrite !frames_in_cons, IH. reflexivity.
  - rewrite frames_in_cons, IH. cbn [call_events]. apply ac_write_exec in HX. destruct HX as (p & ps & e1 & _ & HE & ->).
    apply ec_write_state in HE. destruct HE as (_ & _ & _ & _ & _ & ->). reflexivity.
Qed.

(** *** Servers *)
Section ServerReplay.
  Variables (L : lib) (sp ep : bytes -> bytes -> Prop) (TK : tkeeper) (TC : tchecker).
  Hypothesis HL : nacl_laws L sp ep.
  Hypothesis HT : constant_first TK.

  Lemma first_fst : forall a b, tk_first TK b = (fst (tk_first TK a), snd (tk_first TK b)).
  Proof. intros a b. rewrite (HT a b). apply surjective_pairing. Qed.

  Lemma m1_again : forall s chunk p s1 z, server_m1 L TK TC s chunk p = (s1, Ok None) ->
    server_m1 L TK TC (ss_set_tk z s) chunk p = (ss_set_tk z s1, Ok None).
  Proof.
    intros s chunk p s1 z H. unfold server_m1 in *. destruct (tc_first TC (m1_time p)) as [[]|x]; [|discriminate].
    destruct (m1_flag p).
    - destruct (m1_server_sig_key p) as [k|x]; [|discriminate]. change (ss_sig (ss_set_tk z s)) with (ss_sig s).
      destruct (negb (bytes_eqb (kp_pub (ss_sig s)) k)); [destruct (tk_first TK (ss_tk s)); discriminate|].
      injection H as <-. reflexivity.
    - injection H as <-. reflexivity.
  Qed.
  Lemma m2_again : forall s e s1 m2 z, server_m2 TK s e = (s1, Ok m2) ->
    server_m2 TK (ss_set_tk z s) e = (ss_set_tk (snd (tk_first TK z)) s1, Ok m2).
  Proof.
    intros s e s1 m2 z H. unfold server_m2 in *. cbn [ss_set_tk ss_tk]. rewrite (first_fst (ss_tk s) z).
    destruct (tk_first TK (ss_tk s)) as [t tk1]. cbn [fst].
    destruct (m2_set_server_enc_key (kp_pub e) (m2_set_time t m2_new)) as [q|x]; [|discriminate]. injection H as <- <-. reflexivity.
  Qed.

  (** All that the rest of the handshake depends on. *)
  Definition same_core (s s' : ss) : Prop :=
    ss_m1_hash s = ss_m1_hash s' /\ ss_m2_hash s = ss_m2_hash s' /\ ss_session_key s = ss_session_key s' /\
    exists ch tk tk', ss_app s = Some (ac_init ch tk) /\ ss_app s' = Some (ac_init ch tk').

  Lemma m3_again : forall s e p hold s3 fs z, server_m3 L TK s e p hold = (s3, Ok fs) ->
    exists s3' fs', server_m3 L TK (ss_set_tk z s) e p hold = (s3', Ok fs') /\ same_core s3 s3'.
  Proof.
    intros s e p hold s3 fs z H. unfold server_m3 in *. change (ss_sig (ss_set_tk z s)) with (ss_sig s).
    change (ss_tk (ss_set_tk z s)) with z.
    destruct (compute_shared_key L (kp_sec e) (m1_client_enc_key p)) as [key|x]; [|discriminate].
    destruct (ec_init key SERVER SESSION_NONCE) as [ch|x] eqn:EI; [|discriminate].
    destruct (ec_init_ok _ _ _ _ EI) as [Hl ->].
    destruct hold as [m2|].
    - rewrite (first_fst (ss_tk s) z). destruct (tk_first TK (ss_tk s)) as [t tk1]. cbn [fst].
      cbn [ss_set_tk ss_set_session_key ss_set_m2_hash ss_set_m2 ss_m1_hash ss_m2_hash] in *.
      destruct (m34_set_sig_key (kp_pub (ss_sig s)) (m34_set_time t m3_new)) as [p1|x]; [|discriminate].
      destruct (l_sign L _ (kp_sec (ss_sig s))) as [sm|x]; [|discriminate].
      destruct (m34_set_signature (firstn SIGN_BYTES sm) p1) as [q|x]; [|discriminate].
      destruct (ec_encrypt L _ q) as [c|x]; [|discriminate]. injection H as <- _.
      eexists. eexists. split; [reflexivity|]. repeat split. eexists _, _, _. split; reflexivity.
    - destruct (tk_get TK (ss_tk s)) as [t tk1]. destruct (tk_get TK z) as [t' tk1'].
      cbn [ss_set_tk ss_set_session_key ss_set_m2_hash ss_set_m2 ss_m1_hash ss_m2_hash] in *.
      destruct (m34_set_sig_key (kp_pub (ss_sig s)) (m34_set_time t m3_new)) as [p1|x] eqn:Q1; [|discriminate].
      destruct (l_sign L _ (kp_sec (ss_sig s))) as [sm|x]; [|discriminate].
      destruct (m34_set_signature (firstn SIGN_BYTES sm) p1) as [q|x] eqn:Q2; [|discriminate].
      destruct (ec_encrypt L _ q) as [c|x]; [|discriminate]. injection H as <- _.
      destruct (m34_built x03 _ _ _ _ _ Q1 Q2) as (Hk & Hs & _).
      destruct (m34_fwd x03 t' _ _ Hk Hs) as (p1' & P1 & P2).
      change m3_new with (x03 :: zeros 101). rewrite P1, P2.
      destruct (encrypt_fwd L sp ep key [] false 1 2 ([x03; x00] ++ u32le t' ++ kp_pub (ss_sig s) ++ firstn SIGN_BYTES sm) HL Hl) as (c' & C1 & _); [lia|].
      rewrite C1. eexists. eexists. split; [reflexivity|]. repeat split. eexists _, _, _. split; reflexivity.
  Qed.

  Lemma m4_again : forall s s' f s4, server_m4 L TC s f = (s4, Ok tt) -> same_core s s' ->
    exists s4', server_m4 L TC s' f = (s4', Ok tt) /\ ss_client_sig_key s4' = ss_client_sig_key s4 /\
      ss_session_key s4' = ss_session_key s4 /\
      forall a, ss_app s4 = Some a -> exists a', ss_app s4' = Some a' /\ reads_alike a a'.
  Proof.
    intros s s' f s4 H (E1 & E2 & E3 & ch & tk & tk' & A1 & A2). unfold server_m4 in *. rewrite A1 in H. rewrite A2.
    cbn [ac_init ac_enc ac_tk] in *. destruct (ec_process L ch f) as [ch1 [c|x]]; [|discriminate].
    destruct (m4_ctor c) as [m4|x]; [|discriminate]. destruct (tc_check TC (m34_time m4)) as [[]|x]; [|discriminate].
    rewrite <- E1, <- E2. destruct (l_sign_open L _ (m34_sig_key m4)) as [o|x]; [|destruct x; discriminate].
    injection H as <-. eexists. split; [reflexivity|]. split; [reflexivity|]. split; [exact (eq_sym E3)|].
    intros a Ha. cbn [ss_set_client_sig_key ss_set_m4 ss_set_app ss_app] in Ha. injection Ha as <-. eexists. split; [reflexivity|]. repeat split.
  Qed.

  Lemma server_replayed : forall sig e buf a2 tk t s pk a h a' tk',
    exec (server_handshake L TK TC (ss_init sig (Some e) buf a2 tk)) t (Some (s, Ok tt)) ->
    ss_client_sig_key s = Some pk -> ss_app s = Some a -> ac_hist L TK TC a h a' ->
    exists t' s' b h' b',
      exec (server_handshake L TK TC (ss_init sig (Some e) buf a2 tk')) t' (Some (s', Ok tt)) /\
      ss_client_sig_key s' = Some pk /\ ss_app s' = Some b /\ ac_hist L TK TC b h' b' /\
      reads_of t' = reads_of t /\ frames_in h' = frames_in h /\ got_msgs h' = got_msgs h.
  Proof.
    intros sig e buf a2 tk t s pk a h a' tk' H Hpk Ha HH.
    apply io_eq_exec with (2 := server_eq L TK TC _) in H. unfold server_machine in H. cbn [ss_init ss_enc] in H.
    fold (ss_init sig (Some e) buf a2 tk) in H.
    assert (GOAL : exists t' s', exec (server_handshake L TK TC (ss_init sig (Some e) buf a2 tk')) t' (Some (s', Ok tt)) /\
      ss_client_sig_key s' = Some pk /\ reads_of t' = reads_of t /\ exists b, ss_app s' = Some b /\ reads_alike a b).
    2:{ destruct GOAL as (t' & s' & G1 & G2 & G3 & b & G4 & G5). destruct (replay_reads _ _ _ _ _ _ TK _ HH G5) as [b' G6].
        exists t', s', b, (filter is_read h), b'. repeat (split; [assumption|]). split; [exact (reads_frames _ _ _ _ _ _ HH)|apply reads_same]. }
    apply exec_read_inv in H. destruct H as [[_ H]|(r & t' & -> & H)]; [discriminate|].
    destruct r as [m1|x].
    2:{ apply exec_ret_any in H. destruct H as [_ [H|H]]; discriminate. }
    destruct (m1_ctor m1) as [p|x] eqn:E1.
    2:{ exfalso. destruct (a1_ctor m1) as [q|y].
        - apply exec_write_inv in H. destruct H as [[_ H]|(r & t'' & _ & H)]; [discriminate|].
          destruct r; (apply exec_ret_any in H; destruct H as [_ [H|H]]; [discriminate|]); [|discriminate].
          injection H as H. subst s. discriminate.
        - apply exec_ret_any in H. destruct H as [_ [H|H]]; discriminate. }
    destruct (server_m1 L TK TC _ m1 p) as [s1 [[w|]|x]] eqn:E2.
    1:{ apply exec_write_inv in H. destruct H as [[_ H]|(r & t'' & _ & H)]; [discriminate|].
        apply exec_ret_any in H. destruct H as [_ [H|H]]; [discriminate|]. destruct r; discriminate. }
    2:{ apply exec_ret_any in H. destruct H as [_ [H|H]]; discriminate. }
    apply (m1_again _ _ _ _ tk') in E2.
    destruct (server_m2 TK s1 e) as [s2 [m2|x]] eqn:E3.
    2:{ apply exec_ret_any in H. destruct H as [_ [H|H]]; discriminate. }
    apply (m2_again _ _ _ _ tk') in E3.
    assert (REST : forall s0 hold u, exec (server_rest L TK TC s0 e p hold) u (Some (s, Ok tt)) -> forall z,
      exists u' s', exec (server_rest L TK TC (ss_set_tk z s0) e p hold) u' (Some (s', Ok tt)) /\
        ss_client_sig_key s' = Some pk /\ reads_of u' = reads_of u /\ exists b, ss_app s' = Some b /\ reads_alike a b).
    { intros s0 hold u HR z. unfold server_rest in *. destruct (server_m3 L TK s0 e p hold) as [s3 [fs|x]] eqn:E4.
      2:{ apply exec_ret_any in HR. destruct HR as [_ [HR|HR]]; discriminate. }
      destruct (m3_again _ _ _ _ _ _ z E4) as (s3' & fs' & E4' & EC). rewrite E4'.
      apply exec_write_inv in HR. destruct HR as [[_ HR]|(r & u' & -> & HR)]; [discriminate|].
      destruct r as [[]|x].
      2:{ apply exec_ret_any in HR. destruct HR as [_ [HR|HR]]; discriminate. }
      apply exec_read_inv in HR. destruct HR as [[_ HR]|(r & u'' & -> & HR)]; [discriminate|].
      destruct r as [f4|x].
      2:{ apply exec_ret_any in HR. destruct HR as [_ [HR|HR]]; discriminate. }
      apply exec_ret_any in HR. destruct HR as [-> [HR|HR]]; [discriminate|].
      assert (E5 : server_m4 L TC s3 f4 = (s, Ok tt)) by congruence.
      destruct (m4_again _ _ _ _ E5 EC) as (s4' & G1 & G2 & _ & G3). destruct (G3 _ Ha) as (b & G4 & G5).
      exists [EWrite fs' false (Ok tt); ERead (Ok f4)], s4'. split.
      { constructor. constructor. rewrite G1. constructor. }
      split; [congruence|]. split; [reflexivity|]. exists b. split; assumption. }
    assert (FIN : exists u' s', exec (if ss_buffer_m2 (ss_init sig (Some e) buf a2 tk)
           then server_rest L TK TC (ss_set_tk (snd (tk_first TK tk')) s2) e p (Some m2)
           else Write [m2_bytes m2] false (fun r => match r with
                  | Err x => Ret (ss_set_tk (snd (tk_first TK tk')) s2, Err x)
                  | Ok _ => server_rest L TK TC (ss_set_m2_hash (l_sha512 L (m2_bytes m2)) (ss_set_tk (snd (tk_first TK tk')) s2)) e p None
                  end)) u' (Some (s', Ok tt)) /\
        ss_client_sig_key s' = Some pk /\ reads_of u' = reads_of t' /\ exists b, ss_app s' = Some b /\ reads_alike a b).
    { destruct (ss_buffer_m2 _).
      - exact (REST _ _ _ H _).
      - apply exec_write_inv in H. destruct H as [[_ H]|(r & u & -> & H)]; [discriminate|]. destruct r as [[]|x].
        2:{ apply exec_ret_any in H. destruct H as [_ [H|H]]; discriminate. }
        destruct (REST _ _ _ H (snd (tk_first TK tk'))) as (u' & s' & G1 & G2 & G3 & G4).
        exists (EWrite [m2_bytes m2] false (Ok tt) :: u'), s'. split; [constructor; exact G1|]. split; [exact G2|]. split; [exact G3|exact G4]. }
    destruct FIN as (u' & s' & G1 & G2 & G3 & G4).
    exists (ERead (Ok m1) :: u'), s'. split.
    - apply io_eq_exec with (2 := io_eq_sym _ _ _ (server_eq L TK TC _)). unfold server_machine. cbn [ss_init ss_enc].
      fold (ss_init sig (Some e) buf a2 tk'). constructor. rewrite E1.
      change (ss_init sig (Some e) buf a2 tk') with (ss_set_tk tk' (ss_init sig (Some e) buf a2 tk)). rewrite E2, E3. exact G1.
    - split; [exact G2|]. split; [|exact G4]. unfold reads_of in *. cbn [map concat]. rewrite G3. reflexivity.
  Qed.
End ServerReplay.

(** [t] is a run of the server that completed with the client [pk], [h] what its user did
    on the channel it got.  Later, at any other time, a server with the same
    [enc_keypair] is sent the same frames again: it completes too, reports [pk], and its
    user reads the same messages. *)
Theorem C98_server_replayed_refuted : forall L sp ep TK TC sig e buf a2 tk t s pk a h a' tk',
  nacl_laws L sp ep -> constant_first TK ->
  exec (server_handshake L TK TC (ss_init sig (Some e) buf a2 tk)) t (Some (s, Ok tt)) ->
  ss_client_sig_key s = Some pk -> ss_app s = Some a -> ac_hist L TK TC a h a' ->
  exists t' s' b h' b',
    exec (server_handshake L TK TC (ss_init sig (Some e) buf a2 tk')) t' (Some (s', Ok tt)) /\
    ss_client_sig_key s' = Some pk /\ ss_app s' = Some b /\ ac_hist L TK TC b h' b' /\
    reads_of t' = reads_of t /\ frames_in h' = frames_in h /\ got_msgs h' = got_msgs h.
Proof. intros. eapply server_replayed; eassumption. Qed.
Print Assumptions C98_server_replayed_refuted.

(** *** Clients *)
Section ClientReplay.
  Variables (L : lib) (sp ep : bytes -> bytes -> Prop) (TK : tkeeper) (TC : tchecker).
  Hypothesis HL : nacl_laws L sp ep.
  Hypothesis HT : constant_first TK.

  Lemma start_again : forall s e s1 w z, client_start L TK s e = (s1, Ok w) ->
    client_start L TK (cs_set_tk z s) e = (cs_set_tk (snd (tk_first TK z)) s1, Ok w).
  Proof.
    intros s e s1 w z H. unfold client_start in *. change (cs_tk (cs_set_tk z s)) with z.
    rewrite (first_fst TK HT (cs_tk s) z). destruct (tk_first TK (cs_tk s)) as [t tk1]. cbn [fst] in *.
    destruct (m1_set_client_enc_key (kp_pub e) _) as [q|x]; [|discriminate]. injection H as <- <-. reflexivity.
  Qed.

  Lemma cm2_again : forall s e f s2 ch z, client_m2 L TC s e f = (s2, Ok ch) ->
    client_m2 L TC (cs_set_tk z s) e f = (cs_set_app (Some (ac_init ch z)) (cs_set_tk z s2), Ok ch).
  Proof.
    intros s e f s2 ch z H. unfold client_m2 in *. change (cs_tk (cs_set_tk z s)) with z.
    destruct (m2_ctor f) as [m2|x]; [|discriminate]. destruct (tc_first TC (m2_time m2)) as [[]|x]; [|discriminate].
    destruct (m2_no_such_server m2); [discriminate|]. destruct (compute_shared_key L _ _) as [key|x]; [|discriminate].
    destruct (ec_init key CLIENT SESSION_NONCE) as [c|x]; [|discriminate]. injection H as <- <-. reflexivity.
  Qed.

  Lemma cm3_again : forall s ch f s3 m4 z a0, client_m3 L TK TC s ch f = (s3, Ok m4) ->
    exists s3' m4', client_m3 L TK TC (cs_set_app a0 (cs_set_tk z s)) ch f = (s3', Ok m4') /\
      cs_m3 s3' = cs_m3 s3 /\ (forall c tk, cs_app s3 = Some (ac_init c tk) -> exists tk', cs_app s3' = Some (ac_init c tk')).
  Proof.
    intros s ch f s3 m4 z a0 H. unfold client_m3 in *.
    cbn [cs_set_app cs_set_tk cs_tk cs_sig cs_m1_hash cs_m2_hash].
    destruct (ec_process L ch f) as [ch1 [c|x]] eqn:EP; [|discriminate].
    destruct (negb (zlen c =? 102)); [discriminate|]. destruct (m3_ctor c) as [m3|x]; [|discriminate].
    destruct (tc_check TC (m34_time m3)) as [[]|x]; [|discriminate].
    destruct (l_sign_open L _ (m34_sig_key m3)) as [o|x]; [|destruct x; discriminate].
    destruct (tk_get TK (cs_tk s)) as [t tk1]. destruct (tk_get TK z) as [t' tk1'].
    destruct (m34_set_sig_key (kp_pub (cs_sig s)) (m34_set_time t m4_new)) as [p1|x] eqn:Q1; [|discriminate].
    destruct (l_sign L _ (kp_sec (cs_sig s))) as [sm|x]; [|discriminate].
    destruct (m34_set_signature (firstn SIGN_BYTES sm) p1) as [q|x] eqn:Q2; [|discriminate]. injection H as <- _.
    destruct (m34_built x04 _ _ _ _ _ Q1 Q2) as (Hk & Hs & _).
    destruct (m34_fwd x04 t' _ _ Hk Hs) as (p1' & P1 & P2).
    change m4_new with (x04 :: zeros 101). rewrite P1, P2. eexists. eexists. split; [reflexivity|]. split; [reflexivity|].
    intros c0 tk E. cbn in E. injection E as <- _. eexists. reflexivity.
  Qed.

  Lemma client_replayed : forall sig e buf wanted tk t s m3 a h a' tk',
    exec (client_handshake L TK TC (cs_init sig (Some e) buf wanted tk)) t (Some (s, Ok tt)) ->
    cs_m3 s = Some m3 -> cs_app s = Some a -> ac_hist L TK TC a h a' ->
    exists t' s' b h' b',
      exec (client_handshake L TK TC (cs_init sig (Some e) buf wanted tk')) t' (Some (s', Ok tt)) /\
      cs_m3 s' = Some m3 /\ cs_app s' = Some b /\ ac_hist L TK TC b h' b' /\
      reads_of t' = reads_of t /\ frames_in h' = frames_in h /\ got_msgs h' = got_msgs h.
  Proof.
    intros sig e buf wanted tk t s m3 a h a' tk' H Hm3 Ha HH.
    apply io_eq_exec with (2 := client_eq L TK TC _) in H. unfold client_machine in H. cbn [cs_init cs_enc] in H.
    fold (cs_init sig (Some e) buf wanted tk) in H.
    assert (GOAL : exists t' s', exec (client_machine L TK TC (cs_set_tk tk' (cs_init sig (Some e) buf wanted tk))) t' (Some (s', Ok tt)) /\
      cs_m3 s' = Some m3 /\ reads_of t' = reads_of t /\ exists b, cs_app s' = Some b /\ reads_alike a b).
    2:{ destruct GOAL as (t' & s' & G1 & G2 & G3 & b & G4 & G5). destruct (replay_reads _ _ _ _ _ _ TK _ HH G5) as [b' G6].
        exists t', s', b, (filter is_read h), b'. split.
        { apply io_eq_exec with (2 := io_eq_sym _ _ _ (client_eq L TK TC _)). exact G1. }
        repeat (split; [assumption|]). split; [exact (reads_frames _ _ _ _ _ _ HH)|apply reads_same]. }
    unfold client_machine. change (cs_enc (cs_set_tk tk' (cs_init sig (Some e) buf wanted tk))) with (Some e). cbv iota.
    destruct (client_start L TK (cs_init sig (Some e) buf wanted tk) e) as [s1 [w|x]] eqn:E1.
    2:{ apply exec_ret_any in H. destruct H as [_ [H|H]]; discriminate. }
    rewrite (start_again _ _ _ _ tk' E1).
    apply exec_write_inv in H. destruct H as [[_ H]|(r & u & -> & H)]; [discriminate|].
    destruct r as [[]|x].
    2:{ apply exec_ret_any in H. destruct H as [_ [H|H]]; discriminate. }
    apply exec_read_inv in H. destruct H as [[_ H]|(r & u' & -> & H)]; [discriminate|].
    destruct r as [f2|x].
    2:{ apply exec_ret_any in H. destruct H as [_ [H|H]]; discriminate. }
    destruct (client_m2 L TC s1 e f2) as [s2 [ch|x]] eqn:E2.
    2:{ apply exec_ret_any in H. destruct H as [_ [H|H]]; discriminate. }
    pose proof (cm2_again _ _ _ _ _ (snd (tk_first TK tk')) E2) as E2'.
    destruct (client_m2_inv L TC _ _ _ _ _ E2) as (m2 & key & _ & _ & _ & _ & Hl & -> & _).
    apply exec_read_inv in H. destruct H as [[_ H]|(r & u & -> & H)]; [discriminate|].
    destruct r as [f3|x].
    2:{ apply exec_ret_any in H. destruct H as [_ [H|H]]; discriminate. }
    destruct (client_m3 L TK TC s2 _ f3) as [s3 [m4|x]] eqn:E3.
    2:{ apply exec_ret_any in H. destruct H as [_ [H|H]]; discriminate. }
    destruct (cm3_again _ _ _ _ _ (snd (tk_first TK tk')) (Some (ac_init (EC key [] false 2 1 SESSION_NONCE) (snd (tk_first TK tk')))) E3)
      as (s3' & m4' & E3' & EM & EA).
    destruct (client_m3_inv L TK TC _ _ _ _ _ E3) as (c3 & fl & sg & _ & _ & _ & _ & _ & _ & _ & _ & _ & ES3).
    assert (HA : cs_app s3 = Some (ac_init (EC key [] fl 4 1 SESSION_NONCE) (snd (tk_get TK (cs_tk s2))))) by (rewrite ES3; reflexivity).
    destruct (EA _ _ HA) as [tk3 HA'].
    change (cs_buffer_M4 (cs_set_tk tk' (cs_init sig (Some e) buf wanted tk))) with (cs_buffer_M4 (cs_init sig (Some e) buf wanted tk)).
    destruct (cs_buffer_M4 (cs_init sig (Some e) buf wanted tk)).
    - apply exec_ret_any in H. destruct H as [-> [H|H]]; [discriminate|].
      assert (s = client_buffer s3 m4) by congruence. subst s.
      exists [EWrite [w] false (Ok tt); ERead (Ok f2); ERead (Ok f3)], (client_buffer s3' m4'). split.
      { constructor. constructor. rewrite E2'. constructor. rewrite E3'. constructor. }
      split; [rewrite <- Hm3; exact EM|]. split; [reflexivity|].
      unfold client_buffer in *. cbn [cs_set_app cs_app] in *. rewrite HA in Ha. rewrite HA'.
      eexists. split; [reflexivity|]. assert (Ea : a = AC (EC key [] fl 4 1 SESSION_NONCE) (snd (tk_get TK (cs_tk s2))) (Some m4) []) by (symmetry; injection Ha as Ha; exact Ha).
      subst a. repeat split.
    - rewrite HA in H. cbn [ac_init ac_enc] in H.
      destruct (ec_encrypt L (EC key [] fl 4 1 SESSION_NONCE) m4) as [c|x].
      2:{ apply exec_ret_any in H. destruct H as [_ [H|H]]; discriminate. }
      apply exec_write_inv in H. destruct H as [[_ H]|(r & u' & -> & H)]; [discriminate|].
      apply exec_ret_any in H. destruct H as [-> [H|H]]; [discriminate|].
      assert (HS : s = cs_set_app (app_enc_put (ec_advance_write (EC key [] fl 4 1 SESSION_NONCE)) (Some (ac_init (EC key [] fl 4 1 SESSION_NONCE) (snd (tk_get TK (cs_tk s2)))))) s3) by congruence.
      assert (r = Ok tt) by congruence. subst r. clear H.
      destruct (encrypt_fwd L sp ep key [] fl 4 1 m4' HL Hl) as (c' & C1 & _); [lia|].
      exists [EWrite [w] false (Ok tt); ERead (Ok f2); ERead (Ok f3); EWrite [ec_wrap c' false] false (Ok tt)].
      exists (cs_set_app (app_enc_put (ec_advance_write (EC key [] fl 4 1 SESSION_NONCE)) (Some (ac_init (EC key [] fl 4 1 SESSION_NONCE) tk3))) s3').
      split.
      { constructor. constructor. rewrite E2'. constructor. rewrite E3'. rewrite HA'. cbn [ac_init ac_enc]. rewrite C1. constructor. constructor. }
      subst s. split; [rewrite <- Hm3; exact EM|]. split; [reflexivity|].
      eexists. split; [reflexivity|]. cbn [cs_set_app cs_app app_enc_put] in Ha. injection Ha as <-. repeat split.
  Qed.
End ClientReplay.

(** The same for clients: [m3] is the packet from which the client reports the server's
    key. *)
Theorem C98_client_replayed_refuted : forall L sp ep TK TC sig e buf wanted tk t s m3 a h a' tk',
  nacl_laws L sp ep -> constant_first TK ->
  exec (client_handshake L TK TC (cs_init sig (Some e) buf wanted tk)) t (Some (s, Ok tt)) ->
  cs_m3 s = Some m3 -> cs_app s = Some a -> ac_hist L TK TC a h a' ->
  exists t' s' b h' b',
    exec (client_handshake L TK TC (cs_init sig (Some e) buf wanted tk')) t' (Some (s', Ok tt)) /\
    cs_m3 s' = Some m3 /\ cs_app s' = Some b /\ ac_hist L TK TC b h' b' /\
    reads_of t' = reads_of t /\ frames_in h' = frames_in h /\ got_msgs h' = got_msgs h.
Proof. intros. eapply client_replayed; eassumption. Qed.
Print Assumptions C98_client_replayed_refuted.

(** All keepers of the repository return a constant as first time. *)
Example C98_keepers : constant_first null_keeper /\ constant_first one_two_three.
Proof. split; intros a b; reflexivity. Qed.

(** Two connections of the same client with one server, which took another [enc_keypair] for
    the second: both are accepted, with one partner each. *)
Definition ex_senc2 : keypair := KeyPair (repeat x55 32) (repeat x55 32).
Definition ex_server2 : io (ss * res unit) :=
  server_handshake toy_lib null_keeper null_checker (ss_init ex_ssig (Some ex_senc2) true None 0).
Definition ex_pair2 := run2 20 (ex_client false []) ex_server2 [] [].
Definition ex_srun2 : srun := SRun null_keeper null_checker ex_ssig ex_senc2 true None 0 (fst (snd ex_pair2)) (snd (snd ex_pair2)).
Definition ex_crun2 : crun := CRun one_two_three null_checker ex_csig ex_cenc false [] 0 (fst (fst ex_pair2)) (snd (fst ex_pair2)).
Example C98_partners_example :
  (forall r, In r [ex_srun; ex_srun2] -> srun_ok toy_lib r /\ toy_pair (kp_sec (sr_enc r)) (kp_pub (sr_enc r)) /\ server_accepted r (kp_pub ex_csig)) /\
  (forall c, In c [ex_crun2; ex_crun] -> crun_ok toy_lib c /\ toy_pair (kp_sec (cr_enc c)) (kp_pub (cr_enc c))) /\
  NoDup (map (fun r => kp_pub (sr_enc r)) [ex_srun; ex_srun2]) /\
  Forall2 (fun r c => client_was_there r (kp_pub ex_csig) c) [ex_srun; ex_srun2] [ex_crun; ex_crun2] /\ NoDup [ex_crun; ex_crun2].
Proof.
  pose proof (run2_exec _ _ 20 (ex_client false []) (ex_server true) [] []) as [H1 H2].
  pose proof (run2_exec _ _ 20 (ex_client false []) ex_server2 [] []) as [H3 H4].
  split; [|split; [|split; [|split]]].
  - intros r [<-|[<-|[]]]; (split; [assumption|]); (split; [split; reflexivity|]);
      (assert (E : exists s, sr_o ex_srun = Some (s, Ok tt) /\ ss_client_sig_key s = Some (kp_pub ex_csig)) by (vm_compute; eexists; split; reflexivity));
      (assert (E' : exists s, sr_o ex_srun2 = Some (s, Ok tt) /\ ss_client_sig_key s = Some (kp_pub ex_csig)) by (vm_compute; eexists; split; reflexivity)); assumption.
  - intros c [<-|[<-|[]]]; (split; [assumption|split; reflexivity]).
  - constructor; [|constructor; [intros []|constructor]]. intros [E|[]]. vm_compute in E. discriminate.
  - constructor; [|constructor; [|constructor]]; (split; [reflexivity|]); vm_compute; eexists; eexists; split; reflexivity.
  - constructor; [|constructor; [intros []|constructor]]. intros [E|[]]. apply (f_equal cr_t) in E. vm_compute in E. discriminate.
Qed.

(** The connection of C96's example, replayed to a server whose clock has moved on: it
    reports the client's key, and its user reads the three messages again. *)
Example C98_replay_example : forall tk', exists t' s' b h' b',
  exec (server_handshake toy_lib null_keeper null_checker (ss_init ex_ssig (Some ex_senc) true None tk')) t' (Some (s', Ok tt)) /\
  ss_client_sig_key s' = Some (kp_pub ex_csig) /\ ss_app s' = Some b /\
  ac_hist toy_lib null_keeper null_checker b h' b' /\
  reads_of t' = reads_of (sr_t ex_srun) /\ frames_in h' = frames_in ex_attacked /\
  map fst (got_msgs h') = [[x61]; [x62]; [x63]].
Proof.
  intros tk'. destruct C96_example as (_ & _ & (s & a' & E1 & E2 & E3 & E4) & E5 & _).
  pose proof (run2_exec _ _ 20 (ex_client false []) (ex_server true) [] []) as [_ H].
  assert (H' : exec (ex_server true) (sr_t ex_srun) (sr_o ex_srun)) by exact H. rewrite E1 in H'.
  destruct (C98_server_replayed_refuted toy_lib toy_pair toy_pair null_keeper null_checker _ _ _ _ _ _ _ _ _ _ _ tk' toy_laws (fun _ _ => eq_refl) H' E3 E2 E4)
    as (t' & s' & b & h' & b' & P1 & P2 & P3 & P4 & P5 & P6 & P7).
  exists t', s', b, h', b'. rewrite P7, E5. auto 10.
Qed.
