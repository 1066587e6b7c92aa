(** Properties C09, C28-C31, C51, C52: the application channel. *)
From Coq Require Import List ZArith Bool Strings.Byte Lia ZifyBool ZifyNat ZifyN.
From Verif Require Import PyBase PyBase_proofs IO IO_proofs Packets Packets_proofs Packets_proofs2
  Crypto Crypto_proofs Time EncChannel EncUse EncChannel_proofs Props_Enc
  AppChannel AppUse AppChannel_proofs Spec.
Import ListNotations.
Open Scope Z_scope.
Ltac Zify.zify_post_hook ::= Z.div_mod_to_equations.

(** A checker that accepts every later time, like the NullTimeChecker. *)
Definition accepts_times (TC : tchecker) : Prop := forall x, tc_check TC x = Ok tt.

(** Freshly constructed channels of the two roles are linked in both directions. *)
Lemma fresh_linked : forall key r sn s0 r0, length sn = 8%nat ->
  ec_init key r sn = Ok s0 -> ec_init key (other r) sn = Ok r0 -> linked s0 r0.
Proof.
  intros key r sn s0 r0 Hsn H1 H2. apply ec_init_inv in H1. apply ec_init_inv in H2.
  destruct H1 as (Hk & K1 & N1 & _ & W1 & _). destruct H2 as (_ & K2 & N2 & P2 & _ & R2).
  unfold linked. rewrite K1, N1, K2, N2, W1, R2. repeat split; auto; destruct r; cbn; auto; lia.
Qed.

(** *** C28 for channels in step: [hs] is everything the sender's application did,
    [hr] everything the receiver's did, and the receiver has been given the first
    frames written.  What was read is an initial part of what was written, and the
    only failed reads are those where the channel below failed.  Once every
    frame has arrived, the next read returns the next message without touching the
    channel, as long as there is one. *)
Theorem C28_linked : forall L sp ep TKs TCs TKr TC s r hs s' hr r',
  nacl_laws L sp ep -> linked (ac_enc s) (ac_enc r) ->
  ac_buffered_m4 s = None -> ac_readq r = [] -> accepts_times TC ->
  ac_hist L TKs TCs s hs s' -> ac_hist L TKr TC r hr r' ->
  (forall m args last t x, In (EcWrite m args last t x) hs -> fits (m :: args)) ->
  prefix_of (frames_in hr) (frames_out hs) ->
  prefix_of (map fst (got_msgs hr)) (map fst (sent_msgs hs)) /\
  (forall t e l, In (EcRead t (Err e) l) hr -> t = [ERead (Err e)]) /\
  (frames_in hr = frames_out hs ->
   forall m rest, map fst (sent_msgs hs) = map fst (got_msgs hr) ++ m :: rest ->
   forall t r1 x, exec (ac_read L TC r') t (Some (r1, x)) -> t = [] /\ x = Ok m).
Proof.
  intros L sp ep TKs TCs TKr TC s r hs s' hr r' HL HK HM HQ HT Hs Hr Hfit HP.
  destruct (app_to_enc _ _ _ _ _ _ Hs None 0 HM) as (es & S1 & S2 & S3 & S4).
  assert (Hpb : ec_pushback (ac_enc r) = []) by apply HK.
  destruct (app_errors _ _ _ _ _ _ Hr Hpb) as (er & R1 & R2 & R3 & R4).
  rewrite <- S2, <- R3 in HP.
  destruct (linked_deliver _ _ _ _ _ _ _ _ _ HL HK S1 R1 HP) as (D1 & D2 & D3).
  destruct (texts_decode TKs TC (ac_tk s) hs HT Hfit) as (mss & T1 & T2).
  assert (T0 : Forall2 (decodes TC) (map fst (sent_msgs es)) mss) by (rewrite S4; exact T1).
  clear T1. rename T0 into T1.
  pose proof (Forall2_firstn _ _ _ (length (frames_in er)) _ _ T1) as T3.
  rewrite firstn_map', <- D1 in T3. destruct (R4 _ T3) as [R5 R6]. rewrite HQ in R5. cbn [app] in R5.
  destruct (concat_firstn_prefix _ (length (frames_in er)) mss) as [rest HC].
  split; [|split].
  - rewrite <- T2, HC, <- R5. exists (ac_readq r' ++ rest). rewrite app_assoc. reflexivity.
  - intros t e l Hin. eapply R6; eauto.
  - intros HE m rest' Hm t r1 x HX.
    assert (HA : firstn (length (frames_in er)) mss = mss).
    { apply firstn_all2. rewrite R3, HE, <- S2, <- D3.
      apply Forall2_length' in T1. rewrite map_length in T1. rewrite T1. apply le_n. }
    rewrite HA, T2, Hm in R5. apply app_inv_head in R5.
    apply ac_read_exec in HX. destruct HX as [(m' & q & Hq & -> & -> & _)|(Hq & _)].
    + split; auto. congruence.
    + congruence.
Qed.
Print Assumptions C28_linked.

(** C28 for fresh channels. *)
Theorem C28_in_order : forall L sp ep TKs TCs TKr TC key role sn tks tkr s0 r0 hs s' hr r',
  nacl_laws L sp ep -> length sn = 8%nat ->
  ec_init key role sn = Ok s0 -> ac_hist L TKs TCs (ac_init s0 tks) hs s' ->
  ec_init key (other role) sn = Ok r0 -> ac_hist L TKr TC (ac_init r0 tkr) hr r' ->
  accepts_times TC ->
  (forall m args last t x, In (EcWrite m args last t x) hs -> fits (m :: args)) ->
  (prefix_of (frames_in hr) (frames_out hs) ->
     prefix_of (map fst (got_msgs hr)) (map fst (sent_msgs hs)) /\
     (forall t e l, In (EcRead t (Err e) l) hr -> t = [ERead (Err e)])) /\
  (frames_in hr = frames_out hs -> length (got_msgs hr) = length (sent_msgs hs) ->
     map fst (got_msgs hr) = map fst (sent_msgs hs)) /\
  (frames_in hr = frames_out hs ->
     forall m rest, map fst (sent_msgs hs) = map fst (got_msgs hr) ++ m :: rest ->
     forall t r1 x, exec (ac_read L TC r') t (Some (r1, x)) -> t = [] /\ x = Ok m).
Proof.
  intros L sp ep TKs TCs TKr TC key role sn tks tkr s0 r0 hs s' hr r' HL Hsn I1 H1 I2 H2 HT Hfit.
  pose proof (fresh_linked _ _ _ _ _ Hsn I1 I2) as HK.
  pose proof (fun HP => C28_linked L sp ep TKs TCs TKr TC (ac_init s0 tks) (ac_init r0 tkr) hs s' hr r'
                HL HK eq_refl eq_refl HT H1 H2 Hfit HP) as HC.
  assert (HR : frames_in hr = frames_out hs -> prefix_of (frames_in hr) (frames_out hs)).
  { intro E. exists []. rewrite E, app_nil_r. reflexivity. }
  split; [|split].
  - intro HP. destruct (HC HP) as (A & B & _). auto.
  - intros HE HLen. destruct (HC (HR HE)) as ([rest A] & _). rewrite A.
    apply (f_equal (@length bytes)) in A. rewrite app_length, !map_length in A.
    destruct rest; [rewrite app_nil_r; reflexivity|]. exfalso. cbn [length] in A. lia.
  - intro HE. destruct (HC (HR HE)) as (_ & _ & A). exact (A HE).
Qed.
Print Assumptions C28_in_order.

(** Batches of one, three and two messages; the second batch is still being read. *)
Definition ex_app (r : role) : ac := ac_init (ex_start r) 0.
Definition ex_send : list ecall :=
  fst (ac_run toy_lib one_two_three null_checker (ex_app SERVER)
        [OpWrite [x61] [] false (Ok tt); OpRead (Err OSError);
         OpWrite [x62] [[x63]; []] false (Ok tt); OpWrite [x64] [[x65]] true (Ok tt)]).
Example C28_example :
  let hr n := fst (ac_run toy_lib null_keeper null_checker (ex_app CLIENT)
                    (map (fun f => OpRead (Ok f)) (firstn 2 (frames_out ex_send)) ++ repeat (OpRead (Err ComException)) n)) in
  map fst (got_msgs (hr 0%nat)) = [[x61]; [x62]] /\
  map fst (got_msgs (hr 1%nat)) = [[x61]; [x62]; [x63]] /\
  map fst (got_msgs (hr 2%nat)) = [[x61]; [x62]; [x63]; []] /\
  map fst (got_msgs (hr 3%nat)) = [[x61]; [x62]; [x63]; []] /\
  map fst (sent_msgs ex_send) = [[x61]; [x62]; [x63]; []; [x64]; [x65]].
Proof. vm_compute. auto. Qed.

(** *** C09: what a read does with every clear text.  The expected contract (BadPeer)
    is broken by a truncated MultiAppPacket (ValueError) and by an empty clear text
    (AttributeError): [hs] is the history of a peer that sends them. *)
Lemma read_clear_text : forall L sp ep TC p r hs p' raw l f t r1 x,
  nacl_laws L sp ep -> linked p (ac_enc r) -> ac_readq r = [] ->
  ec_hist L p hs p' -> sent_msgs hs = [(raw, l)] -> frames_out hs = [f] ->
  exec (ac_read L TC r) t (Some (r1, x)) -> t = [ERead (Ok f)] ->
  match ac_interpret TC raw with Ok (d, q) => x = Ok d | Err e => x = Err e end.
Proof.
  intros L sp ep TC p r hs p' raw l f t r1 x HL HK HQ Hs HM Hf HX ->.
  apply ac_read_exec in HX. destruct HX as [(? & ? & Hq & _)|(_ & e1 & er & HE & HR)]; [congruence|].
  assert (HH : ec_hist L (ac_enc r) [EcRead [ERead (Ok f)] er (ec_last_flag e1)] e1).
  { econstructor; [exact HE|constructor]. }
  destruct (linked_deliver _ _ _ _ _ _ _ _ _ HL HK Hs HH) as (D & _).
  { exists []. rewrite Hf. reflexivity. }
  rewrite HM in D. cbn in D. destruct er as [raw'|e]; [|discriminate]. cbn in D.
  injection D as -> _. destruct (ac_interpret TC raw) as [[d q]|e]; tauto.
Qed.

Definition truncated_multi : bytes := [x0b; x00; x00; x00; x00; x00; x01; x00].
Theorem C09_bad_peer_refuted : forall L sp ep TC p r hs p' raw l f r1 x,
  nacl_laws L sp ep -> accepts_times TC -> linked p (ac_enc r) -> ac_readq r = [] ->
  ec_hist L p hs p' -> sent_msgs hs = [(raw, l)] -> frames_out hs = [f] ->
  exec (ac_read L TC r) [ERead (Ok f)] (Some (r1, x)) ->
  (raw = truncated_multi -> x = Err ValueError) /\ (raw = [] -> x = Err AttributeError).
Proof.
  intros L sp ep TC p r hs p' raw l f r1 x HL HT HK HQ Hs HM Hf HX.
  pose proof (read_clear_text _ _ _ _ _ _ _ _ _ _ _ _ _ _ HL HK HQ Hs HM Hf HX eq_refl) as H.
  split; intros ->; cbn in H; rewrite ?HT in H; exact H.
Qed.
Print Assumptions C09_bad_peer_refuted.

(** Both are reachable. *)
Example C09_example :
  let run raw :=
    let hs := fst (ec_run toy_lib (ex_start SERVER) [OpWrite raw [] false (Ok tt)]) in
    (sent_msgs hs,
     map (fun c => match c with EcRead _ r _ => Some r | _ => None end)
       (fst (ac_run toy_lib null_keeper null_checker (ex_app CLIENT) (map (fun f => OpRead (Ok f)) (frames_out hs))))) in
  run truncated_multi = ([(truncated_multi, false)], [Some (Err ValueError)]) /\
  run [] = ([([], false)], [Some (Err AttributeError)]) /\
  run [x07] = ([([x07], false)], [Some (Err BadPeer)]).
Proof. vm_compute. auto. Qed.

(** What does hold: a read fails with the exception of the encrypted channel, of the
    time checker, or with one of the three exceptions; and it succeeds exactly on
    the packets of the two formats. *)
Definition app_frame (raw : bytes) (d : bytes) : Prop :=
  exists h, raw = x05 :: h ++ d /\ length h = 5%nat.

Theorem C09_bad_peer_partial : forall L TC s t s1 x,
  ac_readq s = [] -> exec (ac_read L TC s) t (Some (s1, x)) ->
  (exists e1 e, exec (ec_read L (ac_enc s)) t (Some (e1, Err e)) /\ x = Err e) \/
  (exists e1 raw, exec (ec_read L (ac_enc s)) t (Some (e1, Ok raw)) /\
     match x with
     | Err e => e = BadPeer \/ e = ValueError \/ (raw = [] /\ e = AttributeError) \/
                exists time, tc_check TC time = Err e
     | Ok d => app_frame raw d \/ exists q, Multi_frame raw (d :: q) /\ ac_readq s1 = q
     end /\
     (accepts_times TC -> forall d, app_frame raw d -> x = Ok d) /\
     (accepts_times TC -> forall d q, Multi_frame raw (d :: q) -> x = Ok d /\ ac_readq s1 = q)).
Proof.
  intros L TC s t s1 x HQ HX. apply ac_read_exec in HX.
  destruct HX as [(? & ? & Hq & _)|(_ & e1 & er & HE & HR)]; [congruence|].
  destruct er as [raw|e].
  2:{ left. destruct HR as [-> _]. eauto. }
  right. exists e1, raw. split; [exact HE|].
  split; [|split].
  - destruct (ac_interpret TC raw) as [[d q]|e] eqn:EI; destruct HR as [-> ->].
    + unfold ac_interpret in EI. destruct raw as [|b raw].
      { cbn in EI. destruct (tc_check TC _); discriminate. }
      destruct (app_ctor (b :: raw) false) as [ap|e0] eqn:EA; [|discriminate].
      destruct (app_type ap =? TYPE_APP_PACKET) eqn:ET.
      * left. unfold app_validate, validate_type in EI. unfold app_type in ET. rewrite ET in EI.
        destruct (tc_check TC _); [|discriminate].
        destruct (Z.leb_spec 6 (zlen (b :: raw))) as [H6|H6].
        2:{ rewrite app_ctor_short in EA by (auto; discriminate). discriminate. }
        unfold zlen in H6. cbn [length] in H6.
        assert (Hsp : b :: raw = (b :: firstn 5 raw) ++ skipn 5 raw).
        { cbn [app]. rewrite firstn_skipn. reflexivity. }
        assert (H5 : length (firstn 5 raw) = 5%nat) by (apply firstn_length_le; lia).
        rewrite Hsp, app_ctor_spec in EA by (cbn [length]; lia). cbn [andb] in EA. injection EA as <-.
        cbn [p_data] in ET. cbn [app_data p_opt opt_field] in EI. injection EI as <- <-.
        exists (firstn 5 raw). split; [|exact H5]. rewrite fget_int_1_cons in ET.
        assert (b = x05) as -> by (apply b2z_inj; unfold TYPE_APP_PACKET in ET; change (b2z x05) with 5; lia).
        rewrite firstn_skipn. reflexivity.
      * destruct (multi_ctor (b :: raw) true) as [mp|e0] eqn:EM; [|discriminate].
        destruct (tc_check TC _); [|discriminate].
        apply multi_accept_inv in EM; [|discriminate]. destruct EM as (ms & EM & HF & _). rewrite EM in EI.
        destruct ms as [|m ms]; [discriminate|]. injection EI as <- <-. right. exists ms. auto.
    + eapply interpret_err; eauto.
  - intros HT d (h & -> & Hh).
    destruct h as [|b [|t0 [|t1 [|t2 [|t3 [|]]]]]]; cbn [length] in Hh; try lia. cbn [app] in HR.
    rewrite interpret_app, HT in HR. tauto.
  - intros HT d q HF. rewrite (interpret_multi _ _ _ HF), HT in HR. destruct HR as [-> ->]. auto.
Qed.
Print Assumptions C09_bad_peer_partial.
Example C09_example_ok :
  app_frame ([x05; x01; x02; x03; x04; x05] ++ [x61]) [x61] /\
  got_msgs (fst (let hs := fst (ec_run toy_lib (ex_start SERVER) [OpWrite [x05; x01; x02; x03; x04; x05; x61] [] false (Ok tt)]) in
     ac_run toy_lib null_keeper null_checker (ex_app CLIENT) (map (fun f => OpRead (Ok f)) (frames_out hs)))) = [([x61], false)].
Proof. split; [exists [x01; x02; x03; x04; x05]; auto|vm_compute; reflexivity]. Qed.

(** *** C29: a batch of more than 65535 short messages never arrives completely,
    however many reads follow: only the first [n mod 65536] can be read. *)
Theorem C29_large_batch_refuted : forall L sp ep TKs TCs TKr TC s r m args last t x s' hr r',
  nacl_laws L sp ep -> linked (ac_enc s) (ac_enc r) ->
  ac_buffered_m4 s = None -> ac_readq r = [] ->
  ac_hist L TKs TCs s [EcWrite m args last t x] s' -> ac_hist L TKr TC r hr r' ->
  frames_in hr = concat (map ev_out t) ->
  65535 < Z.of_nat (length (m :: args)) ->
  (forall y, In y (m :: args) -> Z.of_nat (length y) <= 65535) ->
  prefix_of (map fst (got_msgs hr)) (firstn (Z.to_nat (Z.of_nat (length (m :: args)) mod 65536)) (m :: args)) /\
  (length (got_msgs hr) < length (m :: args))%nat.
Proof.
  intros L sp ep TKs TCs TKr TC s r m args last t x s' hr r' HL HK HM HQ Hs Hr HF Hn Hshort.
  destruct (app_to_enc _ _ _ _ _ _ Hs None 0 HM) as (es & S1 & S2 & S3 & S4).
  destruct (app_meaning _ _ _ _ _ _ Hr) as (er & R1 & R2 & R3 & R4).
  assert (HFr : frames_in er = frames_out es).
  { rewrite R3, HF, S2. rewrite frames_out_cons. cbn [call_events]. cbn. rewrite app_nil_r. reflexivity. }
  destruct (linked_deliver _ _ _ _ _ _ _ _ _ HL HK S1 R1) as (D1 & D2 & D3).
  { exists []. rewrite HFr, app_nil_r. reflexivity. }
  rewrite HFr, <- D3, firstn_all in D1. rewrite HQ, D1, S4 in R4. cbn [app clear_texts] in R4.
  destruct (tk_get TKs (ac_tk s)) as [now tk']. rewrite app_nil_r in R4.
  assert (HP : packets now (m :: args) = [Multi_wire now (m :: args)]).
  { apply packets_multi; [lia|exact Hshort]. }
  set (k := Z.to_nat (Z.of_nat (length (m :: args)) mod 65536)).
  assert (HA : prefix_of (map fst (got_msgs hr)) (firstn k (m :: args))).
  { destruct t as [|e0 t].
    - cbn [is_empty map concat] in R4. apply app_eq_nil in R4. destruct R4 as [-> _]. exists (firstn k (m :: args)). reflexivity.
    - cbn [is_empty] in R4. rewrite HP in R4. cbn [mark map fst concat] in R4. rewrite app_nil_r in R4.
      destruct (meaning_multi TC now (m :: args)) as [rest Hrest].
      { apply Forall_forall. exact Hshort. }
      rewrite <- R4 in Hrest. fold k in Hrest. exists (ac_readq r' ++ rest). etransitivity; [exact Hrest|]. rewrite <- app_assoc. reflexivity. }
  split; [exact HA|]. destruct HA as [rest HA]. apply (f_equal (@length bytes)) in HA.
  rewrite app_length, map_length, firstn_length_le in HA by (subst k; lia). subst k. lia.
Qed.
Print Assumptions C29_large_batch_refuted.

(** Such a write goes through on the sender's side. *)
Example C29_example : forall n, 65535 <= Z.of_nat n ->
  exists s' f, ac_hist toy_lib null_keeper null_checker (ex_app SERVER)
                 [EcWrite [x61] (repeat [x61] n) false [EWrite [f] false (Ok tt)] (Ok tt)] s'.
Proof.
  intros n Hn. assert (HP : packets 0 ([x61] :: repeat [x61] n) = [Multi_wire 0 ([x61] :: repeat [x61] n)]).
  { apply packets_multi; [cbn [length]; rewrite repeat_length; lia|].
    intros y [<-|Hy]; [discriminate|]. apply repeat_spec in Hy. subst. discriminate. }
  destruct (ec_encrypt_total toy_lib toy_pair toy_pair (ex_start SERVER) (Multi_wire 0 ([x61] :: repeat [x61] n)))
    as [(_ & c & HE)|(HE & _)]; [apply toy_laws|reflexivity|reflexivity|discriminate| |vm_compute in HE; congruence].
  eexists. eexists. eapply ah_write; [|constructor]. unfold ac_write.
  change (ac_buffered_m4 (ex_app SERVER)) with (@None bytes).
  change (tk_get null_keeper (ac_tk (ex_app SERVER))) with (0, 0). cbv iota beta zeta.
  rewrite ac_packets_spec. unfold bytes in *. rewrite HP. cbn [app].
  apply exec_mzoom_fwd. unfold ec_write.
  change (ac_enc _) with (ex_start SERVER). cbn [ec_wrap_all]. rewrite HE.
  unfold mwrite. constructor. constructor.
Qed.

(** *** C30: with a buffered M4, and a peer whose encrypted channel reads everything:
    the first write goes down as one write on the channel below, whose first message
    is M4 with the current time; whatever follows is application data. *)
Definition no_writes (h : list ecall) : Prop := forall m args last t x, ~ In (EcWrite m args last t x) h.

Lemma clear_texts_no_writes : forall TK tk m4 h, no_writes h -> clear_texts TK tk m4 h = [].
Proof.
  intros TK tk m4 h. induction h as [|[t x l|m args last t x] h IH]; intro H; auto.
  - cbn [clear_texts]. apply IH. intros m args last t' x' Hin. eapply H. right. eauto.
  - exfalso. eapply H. left. reflexivity.
Qed.
Lemma clear_texts_app : forall TK tk m4 h1 h2, no_writes h1 ->
  clear_texts TK tk m4 (h1 ++ h2) = clear_texts TK tk m4 h2.
Proof.
  intros TK tk m4 h1. induction h1 as [|[t x l|m args last t x] h IH]; intros h2 H; auto.
  - cbn [clear_texts app]. apply IH. intros m args last t' x' Hin. eapply H. right. eauto.
  - exfalso. eapply H. left. reflexivity.
Qed.

(** The clear texts of application data. *)
Definition app_data_text (raw : bytes) : Prop :=
  exists t, (exists m, raw = App_wire t m) \/ (exists ms, (2 <= length ms)%nat /\ raw = Multi_wire t ms).

Lemma packets_data : forall t msgs raw, In raw (packets t msgs) -> app_data_text raw.
Proof.
  intros t msgs raw H. exists t. unfold packets in H.
  destruct ((1 <? Z.of_nat (length msgs)) && forallb short msgs) eqn:E.
  - right. destruct H as [<-|[]]. exists msgs. split; auto. apply andb_prop in E. destruct E as [E _]. apply Z.ltb_lt in E. unfold bytes in *. lia.
  - left. apply in_map_iff in H. destruct H as (m & <- & _). eauto.
Qed.
Lemma texts_data : forall TK h tk x, In x (clear_texts TK tk None h) -> app_data_text (fst x).
Proof.
  intros TK h. induction h as [|[t y l|m args last t y] h IH]; intros tk x H; [destruct H|eapply IH; eauto|].
  cbn [clear_texts] in H. destruct (tk_get TK tk) as [now tk']. apply in_app_or in H. destruct H as [H|H]; [|eapply IH; eauto].
  destruct (is_empty t); [destruct H|]. cbn [app] in H. apply (in_map fst) in H. rewrite mark_fst' in H.
  eapply packets_data; eauto.
Qed.

Theorem C30_m4_first_once : forall L sp ep TK TC s r k g t0 h1 m args last t x h2 s' hr r',
  nacl_laws L sp ep -> linked (ac_enc s) r ->
  ac_buffered_m4 s = Some (M4_wire t0 k g) ->
  ac_hist L TK TC s (h1 ++ EcWrite m args last t x :: h2) s' -> no_writes h1 -> t <> [] ->
  ec_hist L r hr r' -> frames_in hr = frames_out (h1 ++ EcWrite m args last t x :: h2) ->
  (exists fs, t = [EWrite fs last x] /\ length fs = S (length (packets 0 (m :: args)))) /\
  exists rest, got_msgs hr =
    mark last (M4_wire (fst (tk_get TK (ac_tk s))) k g :: packets (fst (tk_get TK (ac_tk s))) (m :: args)) ++ rest /\
    forall y, In y rest -> app_data_text (fst y).
Proof.
  intros L sp ep TK TC s r k g t0 h1 m args last t x h2 s' hr r' HL HK HM Hs HN Ht Hr HF.
  destruct (app_to_enc _ _ _ _ _ _ Hs (Some (k, g)) t0 HM) as (es & S1 & S2 & S3 & S4).
  rewrite <- S2 in HF.
  destruct (linked_deliver _ _ _ _ _ _ _ _ _ HL HK S1 Hr) as (D1 & D2 & D3).
  { exists []. rewrite HF, app_nil_r. reflexivity. }
  rewrite HF, <- D3, firstn_all, S4, clear_texts_app in D1 by auto. cbn [clear_texts] in D1.
  split.
  - clear - Hs HN Ht HM HL.
    remember (h1 ++ EcWrite m args last t x :: h2) as h eqn:Eh. revert h1 HN Eh.
    induction Hs as [s|s t1 s1 r h s2 HX HH IH|s m1 args1 last1 t1 s1 r h s2 HX HH IH]; intros h1 HN Eh.
    + destruct h1; discriminate.
    + destruct h1 as [|c h1]; [discriminate|]. injection Eh as <- Eh. apply (IH) with (h1 := h1); auto.
      * apply ac_read_exec in HX. destruct HX as [(? & ? & _ & _ & _ & ->)|(_ & e1 & er & _ & HR)]; [exact HM|].
        destruct er as [raw|e]; [destruct (ac_interpret TC raw) as [[d q]|e]|]; destruct HR as [_ ->]; exact HM.
      * intros ? ? ? ? ? Hin. eapply HN. right. eauto.
    + destruct h1 as [|c h1]; [|injection Eh as <- Eh; exfalso; eapply HN; left; reflexivity].
      injection Eh as -> -> -> -> -> ->. apply ac_write_exec in HX. destruct HX as (p & ps & e1 & HP & HE & ->).
      apply ec_write_exec in HE. destruct HE as [(-> & _)|(fs & -> & HW)]; [congruence|].
      exists fs. split; [reflexivity|]. rewrite HM in HP. cbn [app] in HP.
      apply wrap_all_ok in HW. destruct HW as [HW _]. apply (f_equal (@length bytes)) in HP. cbn [length] in *.
      apply sealed_all_length in HW. rewrite mark_length in HW. cbn [length] in HW.
      transitivity (S (length ps)); [exact HW|]. rewrite HP. f_equal.
      unfold packets. destruct (_ && _); rewrite ?map_length; reflexivity.
  - destruct (tk_get TK (ac_tk s)) as [now tk'] eqn:ET. cbn [fst].
    destruct t as [|e0 t]; [congruence|]. cbn [is_empty app] in D1.
    exists (clear_texts TK tk' None h2). split; [exact D1|]. intros y Hy. eapply texts_data; eauto.
Qed.
Print Assumptions C30_m4_first_once.

Definition ex_m4 : bytes := M4_wire 0 (repeat x01 32) (repeat x02 64).
Example C30_example :
  let s := AC (ex_start CLIENT) 6 (Some ex_m4) [] in
  let hs := fst (ac_run toy_lib one_two_three null_checker s
              [OpRead (Err OSError); OpWrite [x61] [[x62]] false (Ok tt); OpWrite [x63] [] true (Ok tt)]) in
  let hr := fst (ec_run toy_lib (ex_start SERVER) (map (fun f => OpRead (Ok f)) (frames_out hs))) in
  got_msgs hr = [(M4_wire 7 (repeat x01 32) (repeat x02 64), false);
                 (Multi_wire 7 [[x61]; [x62]], false); (App_wire 8 [x63], true)].
Proof. vm_compute. reflexivity. Qed.

(** *** C31: everything that a sequence of calls sends: per write one reading of the
    clock, in every packet of it, and the last flag on the final packet only. *)
Theorem C31_one_time_per_write : forall L sp ep TK TC s r hs s' hr r',
  nacl_laws L sp ep -> linked (ac_enc s) r -> ac_buffered_m4 s = None ->
  ac_hist L TK TC s hs s' -> ec_hist L r hr r' -> frames_in hr = frames_out hs ->
  got_msgs hr = clear_texts TK (ac_tk s) None hs.
Proof.
  intros L sp ep TK TC s r hs s' hr r' HL HK HM Hs Hr HF.
  destruct (app_to_enc _ _ _ _ _ _ Hs None 0 HM) as (es & S1 & S2 & S3 & S4).
  rewrite <- S2 in HF.
  destruct (linked_deliver _ _ _ _ _ _ _ _ _ HL HK S1 Hr) as (D1 & D2 & D3).
  { exists []. rewrite HF, app_nil_r. reflexivity. }
  rewrite HF, <- D3, firstn_all, S4 in D1. exact D1.
Qed.
Print Assumptions C31_one_time_per_write.

(** The time on the wire is the reading modulo 2^32. *)
Lemma u32le_mod : forall t, u32le t = u32le (t mod 2 ^ 32).
Proof.
  intro t. change (2 ^ 32) with 4294967296. unfold u32le, byte_of.
  change (2 ^ 8) with 256. change (2 ^ 16) with 65536. change (2 ^ 24) with 16777216.
  replace (t mod 4294967296 mod 256) with (t mod 256) by lia.
  replace (t mod 4294967296 / 256 mod 256) with (t / 256 mod 256) by lia.
  replace (t mod 4294967296 / 65536 mod 256) with (t / 65536 mod 256) by lia.
  replace (t mod 4294967296 / 16777216 mod 256) with (t / 16777216 mod 256) by lia.
  reflexivity.
Qed.
Theorem C31_time_wraps : forall t msgs, packets t msgs = packets (t mod 2 ^ 32) msgs.
Proof.
  intros t msgs. unfold packets, Multi_wire, App_wire. rewrite u32le_mod.
  destruct (_ && _); [reflexivity|]. apply map_ext. intro m. cbv beta. rewrite <- u32le_mod. reflexivity.
Qed.
Print Assumptions C31_time_wraps.

Example C31_example :
  got_msgs (fst (ec_run toy_lib (ex_start CLIENT) (map (fun f => OpRead (Ok f)) (frames_out ex_send))))
  = [(App_wire 1 [x61], false); (Multi_wire 2 [[x62]; [x63]; []], false); (Multi_wire 3 [[x64]; [x65]], true)] /\
  App_wire (2 ^ 32 + 5) [x61] = [x05; x00; x05; x00; x00; x00; x61].
Proof. vm_compute. auto. Qed.

(** *** C51: [last] is expected to tell the reader that the message just read is the
    final one.  It does not: after the first message of a final batch of two or
    more, it is already set although the others are still unread. *)
Theorem C51_last_is_final_refuted : forall L sp ep TKs TCs TC s r m1 m2 args t x s' f r1 y,
  nacl_laws L sp ep -> linked (ac_enc s) (ac_enc r) ->
  ac_buffered_m4 s = None -> ac_readq r = [] -> accepts_times TC ->
  Z.of_nat (length (m1 :: m2 :: args)) <= 65535 ->
  (forall z, In z (m1 :: m2 :: args) -> Z.of_nat (length z) <= 65535) ->
  ac_hist L TKs TCs s [EcWrite m1 (m2 :: args) true t x] s' -> concat (map ev_out t) = [f] ->
  exec (ac_read L TC r) [ERead (Ok f)] (Some (r1, y)) ->
  y = Ok m1 /\ ac_last r1 = true /\
  forall t2 r2 y2, exec (ac_read L TC r1) t2 (Some (r2, y2)) -> t2 = [] /\ y2 = Ok m2.
Proof.
  intros L sp ep TKs TCs TC s r m1 m2 args t x s' f r1 y HL HK HM HQ HT Hn Hshort Hs Hf HX.
  destruct (app_to_enc _ _ _ _ _ _ Hs None 0 HM) as (es & S1 & S2 & S3 & S4).
  assert (Hfo : frames_out es = [f]).
  { rewrite S2, frames_out_cons. cbn [call_events]. rewrite Hf. reflexivity. }
  apply ac_read_exec in HX. destruct HX as [(? & ? & Hq & _)|(_ & e1 & er & HE & HR)]; [congruence|].
  assert (HH : ec_hist L (ac_enc r) [EcRead [ERead (Ok f)] er (ec_last_flag e1)] e1).
  { econstructor; [exact HE|constructor]. }
  destruct (linked_deliver _ _ _ _ _ _ _ _ _ HL HK S1 HH) as (D & _).
  { exists []. rewrite Hfo. reflexivity. }
  rewrite S4 in D. cbn [clear_texts] in D. destruct (tk_get TKs (ac_tk s)) as [now tk'].
  destruct t as [|e0 t]; [discriminate Hf|]. cbn [is_empty app] in D. rewrite app_nil_r in D.
  assert (HP : packets now (m1 :: m2 :: args) = [Multi_wire now (m1 :: m2 :: args)]).
  { apply packets_multi; [cbn [length]; lia|exact Hshort]. }
  unfold bytes in D, HP; rewrite HP in D. remember (Multi_wire now (m1 :: m2 :: args)) as W eqn:EW in D. cbn in D. destruct er as [raw|e]; [|discriminate]. cbn in D. injection D as -> HLast.
  destruct (multi_wire_decodes TC now (m1 :: m2 :: args) HT) as (d & q & HI & Hdq); [discriminate|exact Hn|exact Hshort|].
  rewrite EW, HI in HR. injection Hdq as <- <-. destruct HR as [-> ->]. split; [reflexivity|].
  split; [exact HLast|]. intros t2 r2 y2 H2. apply ac_read_exec in H2.
  destruct H2 as [(m' & q' & Hq & -> & -> & _)|(Hq & _)]; [|discriminate]. cbn in Hq. injection Hq as <- <-. auto.
Qed.
Print Assumptions C51_last_is_final_refuted.
Example C51_example :
  match rev (frames_out ex_send) with
  | f :: _ =>
     got_msgs (fst (ac_run toy_lib null_keeper null_checker (ex_app CLIENT)
       (map (fun f => OpRead (Ok f)) (frames_out ex_send)))) = [([x61], false); ([x62], false); ([x63], false)] /\
     got_msgs (fst (ac_run toy_lib null_keeper null_checker (ex_app CLIENT)
       (map (fun f => OpRead (Ok f)) (firstn 2 (frames_out ex_send)) ++
        [OpRead (Ok []); OpRead (Ok []); OpRead (Ok f); OpRead (Ok [])])))
     = [([x61], false); ([x62], false); ([x63], false); ([], false); ([x64], true); ([x65], true)]
  | [] => False
  end.
Proof. vm_compute. auto. Qed.

(** *** C52: a client whose first write fails is expected to be able to retry.  It is
    not: the buffered M4 is dropped by the failed call.  Even a peer [r] that is in
    step with the channel after the failure is never sent M4. *)
Theorem C52_retry_first_write_refuted : forall L sp ep TK TC s r m args last t e s1 h2 s' hr r',
  nacl_laws L sp ep ->
  exec (ac_write L TK m args last s) t (Some (s1, Err e)) -> linked (ac_enc s1) r ->
  ac_hist L TK TC s1 h2 s' -> ec_hist L r hr r' -> prefix_of (frames_in hr) (frames_out h2) ->
  forall y, In y (got_msgs hr) -> app_data_text (fst y).
Proof.
  intros L sp ep TK TC s r m args last t e s1 h2 s' hr r' HL HX HK Hs Hr HF y Hy.
  apply ac_write_exec in HX. destruct HX as (p & ps & e1 & _ & _ & ->).
  destruct (app_to_enc _ _ _ _ _ _ Hs None 0 eq_refl) as (es & S1 & S2 & S3 & S4).
  rewrite <- S2 in HF.
  destruct (linked_deliver _ _ _ _ _ _ _ _ _ HL HK S1 Hr HF) as (D1 & D2 & D3).
  rewrite D1, S4 in Hy. cbn [ac_tk] in Hy. set (tx := clear_texts TK (snd (tk_get TK (ac_tk s))) None h2) in *.
  assert (In y tx).
  { rewrite <- (firstn_skipn (length (frames_in hr)) tx). apply in_or_app. auto. }
  eapply texts_data; eauto.
Qed.
Print Assumptions C52_retry_first_write_refuted.
Example C52_example :
  let s := AC (ex_start CLIENT) 6 (Some ex_m4) [] in
  let hs := fst (ac_run toy_lib one_two_three null_checker s
              [OpWrite [x61] [] false (Err OSError); OpWrite [x61] [] false (Ok tt); OpWrite [x62] [] false (Ok tt)]) in
  (* the peer, having skipped the two lost counters, reads the retries *)
  let hr := fst (ec_run toy_lib (EC ex_key [] false 5 2 (zeros 8)) (map (fun f => OpRead (Ok f)) (skipn 2 (frames_out hs)))) in
  got_msgs hr = [(App_wire 8 [x61], false); (App_wire 9 [x62], false)].
Proof. vm_compute. reflexivity. Qed.
