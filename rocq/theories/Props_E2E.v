(** A whole connection against an attacker who owns the network: C96.
    The pieces are C35 (agreement of the handshakes), C24 (the encrypted channel) and C28
    (the application channel); here they are put together for the two session classes
    (v2/salt_client_session.py, v2/salt_server_session.py) and the calls their users make on
    the channel they get. *)
From Coq Require Import List ZArith Bool Strings.Byte Lia ZifyBool ZifyNat ZifyN.
From Verif Require Import PyBase PyBase_proofs IO IO_proofs Packets Packets_proofs Packets_proofs2
  Crypto Crypto_proofs Time EncChannel EncUse EncChannel_proofs Props_Enc AppChannel AppUse AppChannel_proofs Props_App
  Session Session_proofs SessUse Session_steps Props_Session Spec.
Import ListNotations.
Open Scope Z_scope.
Ltac Zify.zify_post_hook ::= Z.div_mod_to_equations.

(** The life of a client (server): a run of its handshake and, if that returned, every call
    made on the application channel so far.  Whatever it reads was chosen by the network. *)
Record clife : Type := CLife { cl_run : crun; cl_hist : list ecall }.
Definition clife_ok (L : lib) (r : clife) : Prop :=
  crun_ok L (cl_run r) /\
  match cr_o (cl_run r) with
  | Some (s, Ok _) => exists a a', cs_app s = Some a /\ ac_hist L (cr_TK (cl_run r)) (cr_TC (cl_run r)) a (cl_hist r) a'
  | _ => cl_hist r = []
  end.

Record slife : Type := SLife { sl_run : srun; sl_hist : list ecall }.
Definition slife_ok (L : lib) (r : slife) : Prop :=
  srun_ok L (sl_run r) /\
  match sr_o (sl_run r) with
  | Some (s, Ok _) => match ss_app s with
                      | Some a => exists a', ac_hist L (sr_TK (sl_run r)) (sr_TC (sl_run r)) a (sl_hist r) a'
                      | None => sl_hist r = []
                      end
  | _ => sl_hist r = []
  end.

(** Every frame it has written after the first one, which is M1 (M2): the encrypted ones. *)
Definition clife_frames (r : clife) : list bytes := tl (concat (map ev_out (cr_t (cl_run r)))) ++ frames_out (cl_hist r).
Definition slife_frames (r : slife) : list bytes := tl (concat (map ev_out (sr_t (sl_run r)))) ++ frames_out (sl_hist r).

(** No batch is too large for one write (C29). *)
Definition writes_fit (h : list ecall) : Prop := forall m args last t x, In (EcWrite m args last t x) h -> fits (m :: args).

(** Among the [received] frames is one that opens under [key] with the counter of a place in
    the peer's stream at which the peer did not write it.  The counters of the [genuine]
    frames are [c], [c + 2], ... *)
Definition box_forgery (L : lib) (key : bytes) (c : Z) (genuine received : list bytes) : Prop :=
  exists t b body i m, In (t :: b :: body) received /\
    l_open_afternm L body (nonce24 (c + 2 * Z.of_nat i) (repeat x00 8)) key = Ok m /\
    forall f : bytes, nth_error genuine i = Some f -> skipn 2 f <> body.

(** ** Lemmas *)
Lemma sealed_nth : forall L key sn xs fs w i f, sealed_all L key sn w xs fs -> nth_error fs i = Some f ->
  exists x, nth_error xs i = Some x /\ sealed L key sn (w + 2 * Z.of_nat i) x f.
Proof.
  intros L key sn. induction xs as [|x xs IH]; intros [|f0 fs] w i f HS HN; cbn [sealed_all] in HS; try tauto.
  - destruct i; discriminate.
  - destruct HS as [H1 H2]. destruct i as [|i].
    + cbn in HN. injection HN as <-. exists x. split; [reflexivity|]. replace (w + 2 * Z.of_nat 0) with w by lia. exact H1.
    + cbn in HN. destruct (IH _ _ _ _ H2 HN) as (y & Y1 & Y2). exists y. split; [exact Y1|].
      replace (w + 2 * Z.of_nat (S i)) with (w + 2 + 2 * Z.of_nat i) by lia. exact Y2.
Qed.

Lemma prefix_firstn : forall A (p l : list A), prefix_of p l -> p = firstn (length p) l.
Proof. intros A p l [r ->]. rewrite firstn_app, firstn_all, Nat.sub_diag. cbn. rewrite app_nil_r. reflexivity. Qed.

(** The receiving end: [xs] and [fs] are what the peer sealed from the counter [rd] on. *)
Lemma receive : forall L sp ep TK TC key fl rd wr tk m4 h a' xs fs mss,
  nacl_laws L sp ep -> length key = 32%nat -> accepts_times TC ->
  ac_hist L TK TC (AC (EC key [] fl rd wr SESSION_NONCE) tk m4 []) h a' ->
  sealed_all L key SESSION_NONCE rd xs fs -> Forall2 (decodes TC) (map fst xs) mss ->
  prefix_of (map fst (got_msgs h)) (concat mss) \/
  exists t b body i m, In (t :: b :: body) (frames_in h) /\
    l_open_afternm L body (nonce24 (rd + 2 * Z.of_nat i) (repeat x00 8)) key = Ok m /\
    forall f : bytes, nth_error fs i = Some f -> skipn 2 f <> body.
Proof.
  intros L sp ep TK TC key fl rd wr tk m4 h a' xs fs mss HL Hk HT HH HS HD.
  destruct (app_got _ _ _ _ _ _ HH) as (eh & E1 & _ & E3 & E4). cbn [ac_enc ac_readq app] in *.
  destruct (hist_got _ _ _ _ E1 eq_refl) as (_ & _ & _ & _ & acc & A1 & A2).
  cbn [ec_key ec_session_nonce ec_read_nonce] in A2.
  destruct (opened_prefix L sp ep key SESSION_NONCE
    (exists t b body i m, In (t :: b :: body) (frames_in h) /\
       l_open_afternm L body (nonce24 (rd + 2 * Z.of_nat i) (repeat x00 8)) key = Ok m /\
       forall f : bytes, nth_error fs i = Some f -> skipn 2 f <> body)
    (frames_in eh) _ _ _ _ _ HL Hk eq_refl A1 HS A2) as [P|P].
  - intros t b body i m HI Hr Ho Hno. exists t, b, body, i, m. rewrite <- E3. split; [exact HI|]. split; [exact Ho|].
    intros f Hf Hb. destruct (sealed_nth _ _ _ _ _ _ _ _ HS Hf) as ([m' last] & X1 & _ & c & X2 & X3).
    cbn [fst snd] in X2, X3. apply (Hno _ _ X1). rewrite X2. f_equal. subst f. exact Hb.
  - left. pose proof (Forall2_firstn _ _ _ (length (map fst (got_msgs eh))) _ _ HD) as F.
    rewrite <- (prefix_firstn _ _ _ P) in F. specialize (E4 _ F).
    destruct (concat_firstn_prefix _ (length (map fst (got_msgs eh))) mss) as [rest HC].
    rewrite HC, <- E4. exists (ac_readq a' ++ rest). rewrite app_assoc. reflexivity.
  - right. exact P.
Qed.

(** The first frame of a client that buffered its M4 is M4; the others carry its messages. *)
Lemma buffered_texts : forall L sp ep TK TC TCr s h s', nacl_laws L sp ep ->
  ac_hist L TK TC s h s' -> accepts_times TCr -> writes_fit h ->
  length (ec_key (ac_enc s)) = 32%nat -> length (ec_session_nonce (ac_enc s)) = 8%nat -> 0 <= ec_write_nonce (ac_enc s) ->
  forall (k g : bytes) t0, ac_buffered_m4 s = Some (M4_wire t0 k g) ->
  (clear_texts TK (ac_tk s) (Some (k, g)) h = [] /\ sent_msgs h = []) \/
  exists x xs mss, clear_texts TK (ac_tk s) (Some (k, g)) h = x :: xs /\
    Forall2 (decodes TCr) (map fst xs) mss /\ concat mss = map fst (sent_msgs h).
Proof.
  intros L sp ep TK TC TCr s h s' HL H HT.
  induction H as [s|s t s1 r h s2 HX HH IH|s m args last t s1 r h s2 HX HH IH]; intros Hf Hk Hs Hw k g t0 Hb.
  - left. split; reflexivity.
  - assert (Hf' : writes_fit h) by (intros a1 a2 a3 a4 a5 Hin; eapply Hf; right; exact Hin).
    cbn [clear_texts]. unfold sent_msgs. cbn [map call_sent concat app]. fold (sent_msgs h).
    apply ac_read_exec in HX. destruct HX as [(m & q & _ & _ & _ & ->)|(_ & e1 & er & HR & HX)].
    + apply (IH Hf' Hk Hs Hw k g t0 Hb).
    + apply ec_read_state in HR. destruct HR as (R1 & R2 & R3 & _).
      assert (E : ac_enc s1 = e1 /\ ac_tk s1 = ac_tk s /\ ac_buffered_m4 s1 = ac_buffered_m4 s).
      { destruct er as [raw|e]; [destruct (ac_interpret TC raw) as [[d q]|e]|]; destruct HX as [_ ->]; repeat split. }
      destruct E as (E1 & E2 & E3). rewrite <- E1 in *. rewrite <- E2, <- E3 in *. rewrite <- R1, <- R2, <- R3 in *.
      apply (IH Hf' Hk Hs Hw k g t0 Hb).
  - assert (Hf' : writes_fit h) by (intros a1 a2 a3 a4 a5 Hin; eapply Hf; right; exact Hin).
    assert (Hf0 : fits (m :: args)) by (eapply Hf; left; reflexivity).
    apply ac_write_exec in HX. destruct HX as (p & ps & e1 & HP & HE & ->).
    cbn [clear_texts]. destruct (tk_get TK (ac_tk s)) as [now tk'] eqn:ET. cbn [fst snd] in *.
    destruct (texts_decode TK TCr tk' h HT Hf') as (mss & D1 & D2).
    apply ec_write_exec in HE. destruct HE as [(-> & e & HW & ->)|(fs & -> & HW)].
    + left. cbn [is_empty app]. unfold sent_msgs. cbn [map call_sent concat app]. fold (sent_msgs h).
      apply wrap_all_err in HW. destruct HW as (i & _ & He1 & m' & _ & HE).
      assert (Ho : 2 ^ 64 <= ec_write_nonce e1).
      { destruct (ec_encrypt_total L sp ep e1 m' HL) as [[_ [c Hc]]|[Ho _]]; try (rewrite He1; cbn [ec_key ec_session_nonce ec_write_nonce]; auto; lia).
        - congruence.
        - exact Ho. }
      destruct (app_to_enc _ _ _ _ _ _ HH None 0 eq_refl) as (es & S1 & _ & _ & S4). cbn [ac_enc ac_tk] in S1, S4.
      destruct (hist_sent _ _ _ _ _ _ HL S1) as (_ & _ & _ & N & _);
        try (rewrite He1; cbn [ec_key ec_session_nonce ec_write_nonce]; auto; lia).
      rewrite (N Ho) in S4. change (nil = clear_texts TK tk' (None : option (bytes * bytes)) h) in S4. rewrite <- S4. split; [reflexivity|].
      rewrite <- S4 in D1. cbn [map] in D1. inversion D1; subst. cbn [concat] in D2.
      destruct (sent_msgs h); [reflexivity|discriminate].
    + right. cbn [is_empty app]. destruct (packets_decode TCr now (m :: args) HT Hf0) as (ms0 & P1 & P2).
      destruct (packets now (m :: args)) as [|q qs] eqn:EQ; [exfalso; exact (packets_nonempty _ _ _ EQ)|].
      exists (M4_wire now k g, false), (mark last (q :: qs) ++ clear_texts TK tk' None h), (ms0 ++ mss).
      split; [reflexivity|]. split.
      * rewrite map_app, mark_fst'. apply Forall2_app; [exact P1|exact D1].
      * rewrite concat_app, P2, D2. unfold sent_msgs. cbn [map call_sent concat]. fold (sent_msgs h).
        rewrite map_app, mark_fst'. reflexivity.
Qed.

(** What a life has sealed, from the second encrypted frame on. *)
Lemma client_sends : forall L sp ep TCr r m1 m2, nacl_laws L sp ep -> accepts_times TCr ->
  clife_ok L r -> writes_fit (cl_hist r) -> client_said (cr_t (cl_run r)) (cr_o (cl_run r)) = Some (m1, m2) ->
  (cl_hist r = [] /\ (length (clife_frames r) <= 1)%nat) \/
  exists s xs mss, cr_o (cl_run r) = Some (s, Ok tt) /\
    sealed_all L (cs_session_key s) SESSION_NONCE 3 xs (tl (clife_frames r)) /\
    Forall2 (decodes TCr) (map fst xs) mss /\ concat mss = map fst (sent_msgs (cl_hist r)).
Proof.
  intros L sp ep TCr [[TK TC sig e buf wanted tk t o] h] m1 m2 HL HT [H HO] Hf HS. unfold crun_ok in H. unfold clife_frames.
  cbn [cl_run cl_hist cr_TK cr_TC cr_sig cr_enc cr_buf cr_wanted cr_tk cr_t cr_o] in *.
  destruct (client_exec _ _ _ _ _ _ _ _ _ _ H) as [[-> H0]|(r & t' & -> & [[HR H0]|(m2' & f3 & rest & key & c3 & sg & -> & -> & HF & HE)])];
    [discriminate| |].
  - exfalso. cbn [client_said] in HS. destruct t' as [|[[x|x]|] [|y [|[z|ms l z] w]]]; try discriminate.
    + destruct o as [[s [[]|x0]]|]; try discriminate. eapply H0. reflexivity.
    + destruct (HR (EWrite ms l z)) as [q Hq]; [right; right; left; reflexivity|discriminate].
  - destruct HF as (_ & Hk & _).
    assert (NB : forall s f4 r2, rest = [EWrite [f4] false r2] -> o = Some (s, r2) -> buf = false -> client_end TK sig e buf tk key c3 sg s ->
      (h = [] /\ (length (tl (concat (map ev_out (EWrite [M1_wire (fst (tk_first TK tk)) (kp_pub e) None] false (Ok tt)
         :: ERead (Ok m2') :: ERead (Ok f3) :: rest))) ++ frames_out h) <= 1)%nat) \/
      exists s xs mss, o = Some (s, Ok tt) /\
        sealed_all L (cs_session_key s) SESSION_NONCE 3 xs
         (tl (tl (concat (map ev_out (EWrite [M1_wire (fst (tk_first TK tk)) (kp_pub e) None] false (Ok tt)
         :: ERead (Ok m2') :: ERead (Ok f3) :: rest))) ++ frames_out h)) /\
        Forall2 (decodes TCr) (map fst xs) mss /\ concat mss = map fst (sent_msgs h)).
    { intros s f4 r2 -> -> -> (K1 & _ & fl & K2 & _). destruct r2 as [[]|x].
      - right. destruct HO as (a & a' & Ha & HA). assert (a = AC (EC key [] fl 4 3 SESSION_NONCE) (snd (tk_get TK (snd (tk_first TK tk)))) None []) by congruence. subst a.
        destruct (app_to_enc _ _ _ _ _ _ HA None 0 eq_refl) as (es & S1 & S2 & _ & S4). cbn [ac_enc ac_tk] in S1, S4.
        destruct (hist_sent _ _ _ _ _ _ HL S1 Hk eq_refl ltac:(cbn; lia)) as (HX & _).
        cbn [ec_key ec_session_nonce ec_write_nonce] in HX.
        destruct (texts_decode TK TCr (snd (tk_get TK (snd (tk_first TK tk)))) h HT Hf) as (mss & D1 & D2).
        exists s, (sent_msgs es), mss. split; [reflexivity|]. rewrite S4 in *. rewrite S2 in HX. rewrite K1. auto.
      - left. cbn in HO. subst h. split; [reflexivity|]. cbn. lia. }
    destruct buf.
    + destruct HE as [-> [->|(s & -> & HC)]]; [discriminate|].
      destruct HC as (K1 & _ & fl & K2 & _). destruct HO as (a & a' & Ha & HA).
      rewrite K2 in Ha. injection Ha as <-.
      destruct (app_to_enc _ _ _ _ _ _ HA (Some (kp_pub sig, sg)) _ eq_refl) as (es & S1 & S2 & _ & S4).
      cbn [ac_enc ac_tk] in S1, S4.
      destruct (hist_sent _ _ _ _ _ _ HL S1 Hk eq_refl ltac:(cbn; lia)) as (HX & _).
      cbn [ec_key ec_session_nonce ec_write_nonce] in HX. rewrite S4, S2 in HX.
      destruct (buffered_texts L sp ep TK TC TCr _ _ _ HL HA HT Hf Hk eq_refl ltac:(cbn; lia) (kp_pub sig) sg _ eq_refl)
        as [[B1 B2]|(x & xs & mss & B1 & B2 & B3)]; cbn [ac_tk] in B1; rewrite B1 in HX.
      * right. cbn [map ev_out concat app tl]. destruct (frames_out h) as [|f fs]; [|destruct HX].
        exists s, [], []. split; [reflexivity|]. split; [exact I|]. split; [constructor|]. rewrite B2. reflexivity.
      * right. cbn [map ev_out concat app tl]. destruct (frames_out h) as [|f fs]; [destruct HX|]. destruct HX as [_ HX].
        exists s, xs, mss. split; [reflexivity|]. rewrite K1. cbn [tl]. auto.
    + destruct HE as [[-> HE]|(f4 & r2 & HM & -> & [->|(s & -> & HC)])].
      * left. destruct o as [[s [[]|x]]|]; [exfalso; eapply HE; reflexivity| |]; subst h; (split; [reflexivity|cbn; lia]).
      * left. subst h. split; [reflexivity|cbn; lia].
      * eapply NB; eauto.
Qed.

Lemma server_sends : forall L sp ep TCr r m1 m2, nacl_laws L sp ep -> accepts_times TCr ->
  slife_ok L r -> writes_fit (sl_hist r) -> server_said (sr_t (sl_run r)) = Some (m1, m2) ->
  (sl_hist r = [] /\ (length (slife_frames r) <= 1)%nat) \/
  exists s xs mss, sr_o (sl_run r) = Some (s, Ok tt) /\
    sealed_all L (ss_session_key s) SESSION_NONCE 4 xs (tl (slife_frames r)) /\
    Forall2 (decodes TCr) (map fst xs) mss /\ concat mss = map fst (sent_msgs (sl_hist r)).
Proof.
  intros L sp ep TCr [r h] m1 m2 HL HT [H HO] Hf HS. unfold slife_frames. cbn [sl_run sl_hist] in *.
  destruct (server_said_inv _ _ _ _ H HS) as (key & sg & t2 & t3 & tk3 & f3 & r3 & t'' & HF & Ht & HE). rewrite Ht.
  assert (Hlen : forall u, only_reads u ->
     tl (concat (map ev_out (ERead (Ok m1) :: (if sr_buf r then [EWrite [m2; f3] false r3]
        else [EWrite [m2] false (Ok tt); EWrite [f3] false r3]) ++ u))) = [f3]).
  { intros u Hu. assert (E : concat (map ev_out u) = []).
    { clear - Hu. induction u as [|x u IH]; [reflexivity|]. destruct (Hu x (or_introl eq_refl)) as [q ->]. cbn. apply IH.
      intros y Hy. apply Hu. right. exact Hy. }
    destruct (sr_buf r); cbn [map ev_out concat app tl]; rewrite E; reflexivity. }
  destruct HE as [[Hr HE]|(f4 & -> & -> & s & Ho & HE)].
  - left. rewrite Hlen by exact Hr. destruct (sr_o r) as [[s [[]|x]]|]; [exfalso; eapply HE; reflexivity| |]; subst h; (split; [reflexivity|cbn; lia]).
  - right. rewrite Hlen by (intros y [<-|[]]; eauto). rewrite Ho in HO. destruct HE as (K1 & _ & c4 & fl & _ & _ & _ & Ka).
    rewrite Ka in HO. destruct HO as (a' & HA). destruct HF as (_ & Hk & _).
    destruct (app_to_enc _ _ _ _ _ _ HA None 0 eq_refl) as (es & S1 & S2 & _ & S4). cbn [ac_enc ac_tk] in S1, S4.
    destruct (hist_sent _ _ _ _ _ _ HL S1 Hk eq_refl ltac:(cbn; lia)) as (HX & _).
    cbn [ec_key ec_session_nonce ec_write_nonce] in HX.
    destruct (texts_decode (sr_TK r) TCr tk3 h HT Hf) as (mss & D1 & D2).
    exists s, (sent_msgs es), mss. split; [exact Ho|]. rewrite S4 in *. rewrite S2 in HX. rewrite K1. auto.
Qed.

(** From the second frame on to all of them *)
Lemma forgery_tl : forall L key c genuine received,
  (exists t b body i m, In (t :: b :: body) received /\
    l_open_afternm L body (nonce24 (c + 2 + 2 * Z.of_nat i) (repeat x00 8)) key = Ok m /\
    forall f : bytes, nth_error (tl genuine) i = Some f -> skipn 2 f <> body) ->
  box_forgery L key c genuine received.
Proof.
  intros L key c genuine received (t & b & body & i & m & H1 & H2 & H3). exists t, b, body, (S i), m.
  split; [exact H1|]. replace (c + 2 * Z.of_nat (S i)) with (c + 2 + 2 * Z.of_nat i) by lia. split; [exact H2|].
  intros f Hf. apply H3. destruct genuine; [discriminate|exact Hf].
Qed.

(** *** C96, server: [lives] are all lives of clients so far, those of the client with the
    key [pk] among them; the network did with them and with this server as it liked.  What
    the server's user has read is an initial part of what the user of one of those clients
    wrote, in the session both agree on -- or a hash collision, a forged signature or a
    forged box is exhibited. *)
Theorem C96_server_reads : forall L sp ep TK TC sig e buf a2 tk t s pk a h a' lives,
  nacl_laws L sp ep -> ep (kp_sec e) (kp_pub e) -> accepts_times TC ->
  exec (server_handshake L TK TC (ss_init sig (Some e) buf a2 tk)) t (Some (s, Ok tt)) ->
  ss_client_sig_key s = Some pk -> ss_app s = Some a -> ac_hist L TK TC a h a' ->
  (forall r, In r lives -> clife_ok L r /\ ep (kp_sec (cr_enc (cl_run r))) (kp_pub (cr_enc (cl_run r))) /\ writes_fit (cl_hist r)) ->
  exists m1 m2, server_said t = Some (m1, m2) /\
  ((exists r, In r lives /\ kp_pub (cr_sig (cl_run r)) = pk /\ client_said (cr_t (cl_run r)) (cr_o (cl_run r)) = Some (m1, m2) /\
      (prefix_of (map fst (got_msgs h)) (map fst (sent_msgs (cl_hist r))) \/
       box_forgery L (ss_session_key s) 1 (clife_frames r) (frames_in h))) \/
   collision L \/
   exists sg, accepted L pk sg (client_text L m1 m2) /\
     forall r x y, In r lives -> kp_pub (cr_sig (cl_run r)) = pk -> client_said (cr_t (cl_run r)) (cr_o (cl_run r)) = Some (x, y) ->
       client_text L x y <> client_text L m1 m2).
Proof.
  intros L sp ep TK TC sig e buf a2 tk t s pk a h a' lives HL He HT H Hpk Ha HH HR.
  destruct (C35_server_agrees L sp ep TK TC sig e buf a2 tk t s pk (map cl_run lives) HL He H Hpk) as (m1 & m2 & HS & HA).
  { intros r Hr. apply in_map_iff in Hr. destruct Hr as (l & <- & Hl). destruct (HR l Hl) as ((? & _) & ? & _). auto. }
  exists m1, m2. split; [exact HS|].
  destruct HA as [(r0 & Hr & P1 & P2 & P3)|[HC|(sg & G1 & G2)]].
  2:{ right. left. exact HC. }
  2:{ right. right. exists sg. split; [exact G1|]. intros r x y Hr. apply G2. apply in_map. exact Hr. }
  left. apply in_map_iff in Hr. destruct Hr as (r & <- & Hr). exists r. split; [exact Hr|]. split; [exact P1|]. split; [exact P2|].
  destruct (HR r Hr) as (R1 & _ & R3).
  set (run := SRun TK TC sig e buf a2 tk t (Some (s, Ok tt))).
  destruct (server_said_inv L run m1 m2 H HS) as (key & sg & t2 & t3 & tk3 & f3 & r3 & t'' & HF & _ & [[_ HN]|(f4 & _ & _ & s1 & Ho & HE)]).
  { exfalso. eapply HN. reflexivity. }
  cbn [run sr_o] in Ho. injection Ho as <-. destruct HE as (K1 & _ & c4 & fl & _ & _ & _ & Ka).
  assert (a = AC (EC key [] fl 3 4 SESSION_NONCE) tk3 None []) by congruence. subst a.
  destruct HF as (_ & Hk & _). rewrite K1.
  destruct (client_sends L sp ep TC r m1 m2 HL HT R1 R3 P2) as [[Hn Hl]|(s' & xs & mss & O & X1 & X2 & X3)].
  - assert (Et : tl (clife_frames r) = []) by (destruct (clife_frames r) as [|x [|y l]]; [reflexivity|reflexivity|cbn in Hl; lia]).
    destruct (receive L sp ep TK TC key fl 3 4 tk3 None h a' [] [] [] HL Hk HT HH I (Forall2_nil _)) as [P|P].
    + left. destruct P as [z Hz]. cbn [concat] in Hz. symmetry in Hz. apply app_eq_nil in Hz. destruct Hz as [-> _].
      exists (map fst (sent_msgs (cl_hist r))). reflexivity.
    + right. apply forgery_tl. destruct P as (u1 & u2 & u3 & u4 & u5 & U1 & U2 & U3). exists u1, u2, u3, u4, u5. rewrite Et. auto.
  - rewrite (P3 _ O), K1 in X1.
    destruct (receive L sp ep TK TC key fl 3 4 tk3 None h a' xs _ mss HL Hk HT HH X1 X2) as [P|P].
    + left. rewrite <- X3. exact P.
    + right. apply forgery_tl. exact P.
Qed.
Print Assumptions C96_server_reads.

(** *** C96, client. *)
Theorem C96_client_reads : forall L sp ep TK TC sig e buf wanted tk t s pk a h a' lives,
  nacl_laws L sp ep -> ep (kp_sec e) (kp_pub e) -> accepts_times TC ->
  exec (client_handshake L TK TC (cs_init sig (Some e) buf wanted tk)) t (Some (s, Ok tt)) ->
  option_map m34_sig_key (cs_m3 s) = Some pk -> cs_app s = Some a -> ac_hist L TK TC a h a' ->
  (forall r, In r lives -> slife_ok L r /\ ep (kp_sec (sr_enc (sl_run r))) (kp_pub (sr_enc (sl_run r))) /\ writes_fit (sl_hist r)) ->
  exists m1 m2, client_said t (Some (s, Ok tt)) = Some (m1, m2) /\
  ((exists r, In r lives /\ kp_pub (sr_sig (sl_run r)) = pk /\ server_said (sr_t (sl_run r)) = Some (m1, m2) /\
      (prefix_of (map fst (got_msgs h)) (map fst (sent_msgs (sl_hist r))) \/
       box_forgery L (cs_session_key s) 2 (slife_frames r) (frames_in h))) \/
   collision L \/
   exists sg, accepted L pk sg (server_text L m1 m2) /\
     forall r x y, In r lives -> kp_pub (sr_sig (sl_run r)) = pk -> server_said (sr_t (sl_run r)) = Some (x, y) ->
       server_text L x y <> server_text L m1 m2).
Proof.
  intros L sp ep TK TC sig e buf wanted tk t s pk a h a' lives HL He HT H Hpk Ha HH HR.
  destruct (C35_client_agrees L sp ep TK TC sig e buf wanted tk t s pk (map sl_run lives) HL He H Hpk) as (m1 & m2 & rest & Ht & HA).
  { intros r Hr. apply in_map_iff in Hr. destruct Hr as (l & <- & Hl). destruct (HR l Hl) as ((? & _) & ? & _). auto. }
  exists m1, m2.
  destruct (client_exec _ _ _ _ _ _ _ _ _ _ H) as [[_ H0]|(r1 & t' & Et & [[_ H0]|(m2' & f3 & rest' & key & c3 & sg & -> & -> & HF & HE)])];
    [exfalso; eapply H0; reflexivity|exfalso; eapply H0; reflexivity|].
  rewrite Et in Ht. injection Ht as Em1 <- <-.
  assert (CE : client_end TK sig e buf tk key c3 sg s /\ client_said t (Some (s, Ok tt)) = Some (m1, m2')).
  { rewrite Et, Em1. destruct buf.
    - destruct HE as [-> [HE|(s' & HE & HC)]]; [discriminate|]. injection HE as <-. auto.
    - destruct HE as [[_ HE]|(f4 & r2 & _ & -> & [HE|(s' & HE & HC)])]; [exfalso; eapply HE; reflexivity|discriminate|].
      injection HE as <- _. auto. }
  destruct CE as [(K1 & _ & fl & Ka & _) HS]. split; [exact HS|].
  destruct HA as [(r0 & Hr & P1 & P2 & P3)|[HC|(sg' & G1 & G2)]].
  2:{ right. left. exact HC. }
  2:{ right. right. exists sg'. split; [exact G1|]. intros r x y Hr. apply G2. apply in_map. exact Hr. }
  left. apply in_map_iff in Hr. destruct Hr as (r & <- & Hr). exists r. split; [exact Hr|]. split; [exact P1|]. split; [exact P2|].
  destruct (HR r Hr) as (R1 & _ & R3). rewrite Ka in Ha. injection Ha as <-.
  destruct HF as (_ & Hk & _). rewrite K1.
  destruct (server_sends L sp ep TC r m1 m2' HL HT R1 R3 P2) as [[Hn Hl]|(s' & xs & mss & O & X1 & X2 & X3)].
  - assert (E0 : tl (slife_frames r) = []) by (destruct (slife_frames r) as [|x [|y l]]; [reflexivity|reflexivity|cbn in Hl; lia]).
    destruct (receive L sp ep TK TC key fl 4 _ _ _ h a' [] [] [] HL Hk HT HH I (Forall2_nil _)) as [P|P].
    + left. destruct P as [z Hz]. cbn [concat] in Hz. symmetry in Hz. apply app_eq_nil in Hz. destruct Hz as [-> _].
      exists (map fst (sent_msgs (sl_hist r))). reflexivity.
    + right. apply forgery_tl. destruct P as (u1 & u2 & u3 & u4 & u5 & U1 & U2 & U3). exists u1, u2, u3, u4, u5. rewrite E0. auto.
  - rewrite (P3 _ O), K1 in X1.
    destruct (receive L sp ep TK TC key fl 4 _ _ _ h a' xs _ mss HL Hk HT HH X1 X2) as [P|P].
    + left. rewrite <- X3. exact P.
    + right. apply forgery_tl. exact P.
Qed.
Print Assumptions C96_client_reads.

(** The client of the example writes three messages; the network delivers its second frame
    first, then the first one twice, a piece of rubbish and the second one.  The server reads
    all three messages, once, in order. *)
Definition ex_capp : ac := match cr_o ex_crun with Some (s, _) => match cs_app s with Some a => a | None => ex_app CLIENT end | None => ex_app CLIENT end.
Definition ex_sapp : ac := match sr_o ex_srun with Some (s, _) => match ss_app s with Some a => a | None => ex_app SERVER end | None => ex_app SERVER end.
Definition ex_clife : clife :=
  CLife ex_crun (fst (ac_run toy_lib one_two_three null_checker ex_capp [OpWrite [x61] [] false (Ok tt); OpWrite [x62] [[x63]] true (Ok tt)])).
Definition ex_attacked : list ecall :=
  match frames_out (cl_hist ex_clife) with
  | [f; g] => fst (ac_run toy_lib null_keeper null_checker ex_sapp
                (map (fun x => OpRead (Ok x)) [g; f; f; [x07]; g] ++ [OpRead (Err OSError)]))
  | _ => []
  end.
Example C96_example :
  clife_ok toy_lib ex_clife /\ writes_fit (cl_hist ex_clife) /\
  (exists s a', sr_o ex_srun = Some (s, Ok tt) /\ ss_app s = Some ex_sapp /\ ss_client_sig_key s = Some (kp_pub ex_csig) /\
     ac_hist toy_lib null_keeper null_checker ex_sapp ex_attacked a') /\
  map fst (got_msgs ex_attacked) = [[x61]; [x62]; [x63]] /\
  map fst (sent_msgs (cl_hist ex_clife)) = [[x61]; [x62]; [x63]] /\
  length (clife_frames ex_clife) = 3%nat.
Proof.
  split; [|split; [|split; [|vm_compute; auto]]].
  - split.
    + destruct (run2_exec _ _ 20 (ex_client false []) (ex_server true) [] []) as [H1 _]. exact H1.
    + assert (E : exists s, cr_o (cl_run ex_clife) = Some (s, Ok tt) /\ cs_app s = Some ex_capp)
        by (vm_compute; eexists; split; reflexivity).
      destruct E as (s & -> & Es). exists ex_capp, (snd (ac_run toy_lib one_two_three null_checker ex_capp
        [OpWrite [x61] [] false (Ok tt); OpWrite [x62] [[x63]] true (Ok tt)])). split; [exact Es|]. apply ac_run_hist.
  - intros m args last t x H. vm_compute in H. destruct H as [H|[H|[]]]; injection H as <- <- _ _ _; left; vm_compute; discriminate.
  - assert (E : exists s, sr_o ex_srun = Some (s, Ok tt) /\ ss_app s = Some ex_sapp /\ ss_client_sig_key s = Some (kp_pub ex_csig))
        by (vm_compute; eexists; repeat split; reflexivity).
    destruct E as (s & E1 & E2 & E3). unfold ex_attacked.
    assert (EF : exists f g, frames_out (cl_hist ex_clife) = [f; g]) by (vm_compute; eexists; eexists; reflexivity).
    destruct EF as (f & g & ->). eexists. eexists. split; [exact E1|]. split; [exact E2|]. split; [exact E3|]. apply ac_run_hist.
Qed.
