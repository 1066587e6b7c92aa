(** C134: a reader that stops at [last] against an attacker (saltchannel/v2/app_channel_v2.py:21-64,
    saltchannel/v2/encrypted_channel_v2.py:72-95). *)
From Coq Require Import List ZArith Bool Strings.Byte Lia ZifyBool ZifyNat ZifyN.
From Verif Require Import PyBase IO IO_proofs Packets Crypto Time EncChannel AppChannel AppUse AppChannel_proofs EncUse EncChannel_proofs
  Session SessUse StackUse Spec Flags Flags_proofs
  Props_Enc Props_App Props_Session Props_Session2 Props_Stack Props_Pipe Props_Flags Props_E2E Props_Until.
Import ListNotations.
Open Scope Z_scope.
Ltac Zify.zify_post_hook ::= Z.div_mod_to_equations.

(** The frame with its second byte replaced: all an attacker needs to know of it *)
Definition reflag (l : bool) (f : bytes) : bytes :=
  match f with
  | t :: _ :: body => t :: (if l then x80 else x00) :: body
  | _ => f
  end.

(** Let the first [k] frames through without a flag, and one more with it; nothing after that *)
Definition cut_at (k : nat) (fs : list bytes) : list bytes :=
  map (reflag false) (firstn k fs) ++ map (reflag true) (firstn 1 (skipn k fs)).

(** ** Proofs *)
Lemma sealed_reflag : forall L key sn n m h l f, sealed L key sn n (m, h) f -> sealed L key sn n (m, l) (reflag l f).
Proof. intros L key sn n m h l f (Hn & c & Hc & ->). split; [exact Hn|]. exists c. split; [exact Hc|]. reflexivity. Qed.

Lemma sealed_cut : forall L key sn k xs fs w x, sealed_all L key sn w xs fs -> nth_error xs k = Some x ->
  sealed_all L key sn w (map (fun y => (fst y, false)) (firstn k xs) ++ [(fst x, true)]) (cut_at k fs).
Proof.
  intros L key sn. induction k as [|k IH]; intros xs fs w x HS HN; (destruct xs as [|[m h] xs]; [discriminate|]); (destruct fs as [|f fs]; [destruct HS|]);
    destruct HS as [S1 S2]; unfold cut_at; cbn [firstn skipn map app fst].
  - injection HN as <-. cbn [fst sealed_all]. split; [eapply sealed_reflag; exact S1|exact I].
  - split; [eapply sealed_reflag; exact S1|]. apply (IH _ _ _ _ S2 HN).
Qed.

Lemma reads_cut : forall L sp ep TK TC, nacl_laws L sp ep ->
  forall pre fs z m n acc s,
  length (ec_key (ac_enc s)) = 32%nat -> length (ec_session_nonce (ac_enc s)) = 8%nat -> ec_pushback (ac_enc s) = [] -> ac_readq s = [] ->
  sealed_all L (ec_key (ac_enc s)) (ec_session_nonce (ac_enc s)) (ec_read_nonce (ac_enc s)) (map (fun x : bytes * bytes => (fst x, false)) pre ++ [(z, true)]) fs ->
  Forall (fun x => decodes TC (fst x) [snd x]) pre -> decodes TC z [m] -> (length pre < n)%nat ->
  exists s', exec (over_flags L TK TC (read_until n acc) s) (map (fun f => ERead (Ok f)) fs) (Some (s', acc ++ map snd pre ++ [m])).
Proof.
  intros L sp ep TK TC HL.
  assert (ONE : forall n acc s x h d f t o,
    length (ec_key (ac_enc s)) = 32%nat -> length (ec_session_nonce (ac_enc s)) = 8%nat -> ec_pushback (ac_enc s) = [] -> ac_readq s = [] ->
    sealed L (ec_key (ac_enc s)) (ec_session_nonce (ac_enc s)) (ec_read_nonce (ac_enc s)) (x, h) f -> decodes TC x [d] ->
    exec (over_flags L TK TC (if h then LRet (acc ++ [d]) else read_until n (acc ++ [d]))
       (AC (EC (ec_key (ac_enc s)) [] h (ec_read_nonce (ac_enc s) + 2) (ec_write_nonce (ac_enc s)) (ec_session_nonce (ac_enc s))) (ac_tk s) (ac_buffered_m4 s) [])) t o ->
    exec (over_flags L TK TC (read_until (S n) acc) s) (ERead (Ok f) :: t) o).
  { intros n acc s x h d f t o H1 H2 H3 H4 HS (d' & q & HD & HE) HX. injection HE as <- <-.
    cbn [read_until over_flags].
    unfold ac_read, mbind, mget, mput, mret, mzoom, mlift, mmod, ec_read.
    cbn [iobind fst snd]. rewrite H4. cbn [iobind fst snd]. rewrite H3. cbn [is_empty iobind]. constructor.
    cbv beta iota. rewrite (ec_process_sealed L sp ep (ac_enc s) (x, h) f HL H1 H2 HS).
    cbn [iobind fst snd]. rewrite HD. cbn [iobind fst snd ac_set_enc ac_set_readq ac_last ac_enc ac_tk ac_buffered_m4 ec_last_flag over_flags].
    rewrite H3. exact HX. }
  induction pre as [|[x d] pre IH]; intros fs z m n acc s H1 H2 H3 H4 HS HD Hz Hn; (destruct n as [|n]; [cbn in Hn; lia|]);
    (destruct fs as [|f fs]; [destruct HS|]); cbn [map app fst snd sealed_all] in HS; destruct HS as [S1 S2].
  - destruct fs as [|]; [|destruct S2]. eexists. cbn [map]. eapply ONE; eauto. cbn [over_flags]. cbn [map app]. constructor.
  - inversion HD as [|? ? D1 D2]; subst. cbn [fst snd] in D1.
    destruct (IH fs z m n (acc ++ [d]) (AC (EC (ec_key (ac_enc s)) [] false (ec_read_nonce (ac_enc s) + 2) (ec_write_nonce (ac_enc s)) (ec_session_nonce (ac_enc s))) (ac_tk s) (ac_buffered_m4 s) []))
      as (s' & HX); auto; [cbn in Hn; lia|].
    exists s'. cbn [map]. eapply ONE; eauto. cbn [snd]. replace (acc ++ (d :: map snd pre) ++ [m]) with ((acc ++ [d]) ++ map snd pre ++ [m]); [exact HX|].
    rewrite <- app_assoc. reflexivity.
Qed.

Lemma single_texts : forall TK tk h, (forall m args last t r, In (EcWrite m args last t r) h -> args = []) ->
  length (clear_texts TK tk None h) = length (sent_msgs h).
Proof.
  intros TK tk h. revert tk. induction h as [|c h IH]; intros tk H; [reflexivity|]. unfold sent_msgs. cbn [map concat]. fold (sent_msgs h). rewrite app_length.
  destruct c as [t r l|m args last t r]; cbn [clear_texts call_sent].
  - apply IH. intros; eapply H; right; eauto.
  - pose proof (H m args last t r (or_introl eq_refl)) as ->. destruct (tk_get TK tk) as [now tk']. rewrite app_length, IH by (intros; eapply H; right; eauto).
    destruct t; reflexivity.
Qed.

(** ** C134: the peer writes any messages, one per call.  An attacker without any key who drops
    the connection after message [k], and changes the second byte of the frames it lets
    through, makes a reader that stops at [last] return exactly the first [k + 1] messages
    without any exception: [last] does not show that all has arrived. *)
Theorem C134_cut_refuted : forall L sp ep TKs TCs TK TC s r hs s' k n,
  nacl_laws L sp ep -> linked (ac_enc s) (ac_enc r) -> ac_buffered_m4 s = None -> ac_readq r = [] -> accepts_times TC ->
  ac_hist L TKs TCs s hs s' -> (forall m args last t x, In (EcWrite m args last t x) hs -> args = []) ->
  (k < length (sent_msgs hs))%nat -> (k < n)%nat ->
  exists r', exec (over_flags L TK TC (read_until n []) r) (map (fun f => ERead (Ok f)) (cut_at k (frames_out hs)))
               (Some (r', firstn (S k) (map fst (sent_msgs hs)))).
Proof.
  intros L sp ep TKs TCs TK TC s r hs s' k n HL (K1 & K2 & K3 & K4 & K5 & K6 & K7) HM HQ HT HH HA Hk Hn.
  destruct (app_to_enc _ _ _ _ _ _ HH None 0 HM) as (es & S1 & S2 & _ & S4).
  destruct (hist_sent _ _ _ _ _ _ HL S1 K1 K2 K6) as (SE & _).
  rewrite S4, S2 in SE.
  destruct (texts_decode TKs TC (ac_tk s) hs HT) as (mss & T1 & T2).
  { intros m args last t x I. rewrite (HA _ _ _ _ _ I). left. cbn. lia. }
  assert (EM : mss = map (fun x => [x]) (map fst (sent_msgs hs))).
  { apply singles; [| |exact T2].
    - clear - T1. induction T1 as [|a x rr ss H1 H2 IH]; constructor; [|exact IH]. destruct H1 as (d & q & _ & ->). discriminate.
    - rewrite <- (Forall2_len _ _ _ _ _ T1), !map_length. apply single_texts. exact HA. }
  subst mss. clear T2.
  set (tx := clear_texts TKs (ac_tk s) None hs) in *. pose proof (single_texts TKs (ac_tk s) hs HA) as LEN. fold tx in LEN.
  destruct (nth_error tx k) as [x|] eqn:EX; [|apply nth_error_None in EX; lia].
  destruct (nth_error (map fst (sent_msgs hs)) k) as [m|] eqn:EN; [|apply nth_error_None in EN; rewrite map_length in EN; lia].
  pose proof (sealed_cut _ _ _ _ _ _ _ _ SE EX) as SC.
  set (ms := map fst (sent_msgs hs)) in *.
  assert (D : forall j a b, nth_error tx j = Some a -> nth_error ms j = Some b -> decodes TC (fst a) [b]).
  { clear - T1. clearbody tx ms. intros j a b. revert tx ms T1.
    induction j as [|j IH]; intros [|y tx] [|b0 ms] T1 H1 H2; try discriminate; cbn [map] in T1; inversion T1; subst; cbn in H1, H2.
    - injection H1 as <-. injection H2 as <-. assumption.
    - eapply IH; eauto. }
  assert (FE : firstn (S k) ms = firstn k ms ++ [m]).
  { clear - EN. revert k EN. induction ms as [|a ms IH]; intros [|k] EN; try discriminate; cbn in EN |- *; [congruence|]. f_equal. apply (IH k EN). }
  assert (PR : map snd (combine (map fst (firstn k tx)) (firstn k ms)) = firstn k ms /\ map fst (combine (map fst (firstn k tx)) (firstn k ms)) = map fst (firstn k tx) /\
    length (combine (map fst (firstn k tx)) (firstn k ms)) = k /\ Forall (fun y => decodes TC (fst y) [snd y]) (combine (map fst (firstn k tx)) (firstn k ms))).
  { assert (LM : length ms = length tx) by (unfold ms; rewrite map_length; lia).
    assert (Lk : (k <= length tx)%nat) by lia. clear - LM D Lk. clearbody tx ms. revert tx ms LM D Lk.
    induction k as [|k IH]; intros [|a tx] [|b ms] LM D Lk; try (cbn in *; lia); try (cbn; auto; fail).
    destruct (IH tx ms) as (P1 & P2 & P3 & P4); [cbn in LM; lia| |cbn in Lk; lia|].
    { intros j y z H1 H2. apply (D (S j) y z H1 H2). }
    cbn [firstn map combine length fst snd]. rewrite P1, P2, P3. repeat split. constructor; [|exact P4]. apply (D O a b eq_refl eq_refl). }
  destruct PR as (P1 & P2 & P3 & P4).
  destruct (reads_cut L sp ep TK TC HL (combine (map fst (firstn k tx)) (firstn k ms)) (cut_at k (frames_out hs)) (fst x) m n [] r) as (r' & HX);
    [rewrite K3; exact K1|rewrite K4; exact K2|exact K5|exact HQ| |exact P4|eapply D; eauto|lia|].
  - rewrite K3, K4, K7. rewrite <- (map_map fst (fun y => (y, false))), P2, map_map. exact SC.
  - exists r'. rewrite FE, <- P1. exact HX.
Qed.
Print Assumptions C134_cut_refuted.

Lemma reader_hist : forall L TK TC n acc a t a' out, exec (over_flags L TK TC (read_until n acc) a) t (Some (a', out)) ->
  exists h, ac_hist L TK TC a h a' /\ events h = t /\ out = acc ++ map fst (got_msgs h).
Proof.
  intros L TK TC. induction n as [|n IH]; intros acc a t a' out H; cbn [read_until over_flags] in H.
  - apply exec_ret in H as [-> H]. injection H as -> ->. exists []. split; [constructor|]. split; [reflexivity|]. symmetry. apply app_nil_r.
  - apply exec_bind_some in H as (t1 & t2 & [a1 r] & -> & H1 & H2). cbn [fst snd] in H2. destruct r as [m|e]; cbn [over_flags] in H2.
    + destruct (ac_last a1) eqn:E.
      * apply exec_ret in H2 as [-> H2]. injection H2 as -> ->. exists [EcRead t1 (Ok m) (ac_last a1)].
        split; [eapply ah_read; [exact H1|constructor]|]. split; [reflexivity|reflexivity].
      * apply IH in H2 as (h & G1 & G2 & G3). exists (EcRead t1 (Ok m) (ac_last a1) :: h). split; [eapply ah_read; eauto|].
        split; [unfold events in *; cbn [map concat call_events]; rewrite G2; reflexivity|].
        rewrite G3, <- app_assoc. reflexivity.
    + apply exec_ret in H2 as [-> H2]. injection H2 as -> ->. exists [EcRead t1 (Err e) (ac_last a1)].
      split; [eapply ah_read; [exact H1|constructor]|]. split; [reflexivity|]. symmetry. apply app_nil_r.
Qed.

(** What does hold against every attacker: a server that completes the handshake and reads
    until [last] returns a prefix of what one client with the reported key wrote in the very
    same session, or somebody forged a box or a signature, or SHA-512 has a collision. *)
Theorem C134_cut_partial : forall L sp ep TK TC sig e buf a2 tk t s pk a' n out lives,
  nacl_laws L sp ep -> ep (kp_sec e) (kp_pub e) -> accepts_times TC ->
  exec (server_uses L TK TC (ss_init sig (Some e) buf a2 tk) (read_until n [])) t (Some (s, Some a', Ok out)) ->
  ss_client_sig_key s = Some pk ->
  (forall r, In r lives -> clife_ok L r /\ ep (kp_sec (cr_enc (cl_run r))) (kp_pub (cr_enc (cl_run r))) /\ writes_fit (cl_hist r)) ->
  exists t1 t2 m1 m2, t = t1 ++ t2 /\ server_said t1 = Some (m1, m2) /\
  ((exists r, In r lives /\ kp_pub (cr_sig (cl_run r)) = pk /\ client_said (cr_t (cl_run r)) (cr_o (cl_run r)) = Some (m1, m2) /\
      (prefix_of out (map fst (sent_msgs (cl_hist r))) \/
       box_forgery L (ss_session_key s) 1 (clife_frames r) (concat (map ev_in t2)))) \/
   collision L \/
   exists sg, accepted L pk sg (client_text L m1 m2) /\
     forall r x y, In r lives -> kp_pub (cr_sig (cl_run r)) = pk -> client_said (cr_t (cl_run r)) (cr_o (cl_run r)) = Some (x, y) ->
       client_text L x y <> client_text L m1 m2).
Proof.
  intros L sp ep TK TC sig e buf a2 tk t s pk a' n out lives HL He HT H Hpk HR.
  unfold server_uses in H. apply exec_bind_some in H as (t1 & t2 & [s1 x] & -> & H1 & H2). cbn [fst snd] in H2.
  destruct x as [[]|er]; [|apply exec_ret in H2 as [_ H2]; discriminate].
  destruct (ss_app s1) as [a|] eqn:EA; [|apply exec_ret in H2 as [_ H2]; discriminate].
  apply exec_bind_some in H2 as (t3 & t4 & [a1 y] & -> & H3 & H4). cbn [fst snd] in H4. apply exec_ret in H4 as [-> H4]. injection H4 as -> -> ->.
  apply reader_hist in H3 as (h & G1 & G2 & G3). cbn [app] in G3.
  destruct (C96_server_reads L sp ep TK TC sig e buf a2 tk t1 s1 pk a h _ lives HL He HT H1 Hpk EA G1 HR) as (m1 & m2 & R1 & R2).
  exists t1, t3, m1, m2. split; [rewrite app_nil_r; reflexivity|]. split; [exact R1|].
  unfold frames_in in R2. rewrite G2 in R2. rewrite G3. exact R2.
Qed.
Print Assumptions C134_cut_partial.

(** The same for a client that reads until [last]. *)
Theorem C134_client_cut_partial : forall L sp ep TK TC sig e buf wanted tk t s pk a' n out lives,
  nacl_laws L sp ep -> ep (kp_sec e) (kp_pub e) -> accepts_times TC ->
  exec (client_uses L TK TC (cs_init sig (Some e) buf wanted tk) (read_until n [])) t (Some (s, Some a', Ok out)) ->
  option_map m34_sig_key (cs_m3 s) = Some pk ->
  (forall r, In r lives -> slife_ok L r /\ ep (kp_sec (sr_enc (sl_run r))) (kp_pub (sr_enc (sl_run r))) /\ writes_fit (sl_hist r)) ->
  exists t1 t2 m1 m2, t = t1 ++ t2 /\ client_said t1 (Some (s, Ok tt)) = Some (m1, m2) /\
  ((exists r, In r lives /\ kp_pub (sr_sig (sl_run r)) = pk /\ server_said (sr_t (sl_run r)) = Some (m1, m2) /\
      (prefix_of out (map fst (sent_msgs (sl_hist r))) \/
       box_forgery L (cs_session_key s) 2 (slife_frames r) (concat (map ev_in t2)))) \/
   collision L \/
   exists sg, accepted L pk sg (server_text L m1 m2) /\
     forall r x y, In r lives -> kp_pub (sr_sig (sl_run r)) = pk -> server_said (sr_t (sl_run r)) = Some (x, y) ->
       server_text L x y <> server_text L m1 m2).
Proof.
  intros L sp ep TK TC sig e buf wanted tk t s pk a' n out lives HL He HT H Hpk HR.
  unfold client_uses in H. apply exec_bind_some in H as (t1 & t2 & [s1 x] & -> & H1 & H2). cbn [fst snd] in H2.
  destruct x as [[]|er]; [|apply exec_ret in H2 as [_ H2]; discriminate].
  destruct (cs_app s1) as [a|] eqn:EA; [|apply exec_ret in H2 as [_ H2]; discriminate].
  apply exec_bind_some in H2 as (t3 & t4 & [a1 y] & -> & H3 & H4). cbn [fst snd] in H4. apply exec_ret in H4 as [-> H4]. injection H4 as -> -> ->.
  apply reader_hist in H3 as (h & G1 & G2 & G3). cbn [app] in G3.
  destruct (C96_client_reads L sp ep TK TC sig e buf wanted tk t1 s1 pk a h _ lives HL He HT H1 Hpk EA G1 HR) as (m1 & m2 & R1 & R2).
  exists t1, t3, m1, m2. split; [rewrite app_nil_r; reflexivity|]. split; [exact R1|].
  unfold frames_in in R2. rewrite G2 in R2. rewrite G3. exact R2.
Qed.
Print Assumptions C134_client_cut_partial.

(** The client writes three messages, the last with [is_last=True].  With the network honest
    the server gets all; the attacker makes it stop after each one it likes. *)
Example C134_example :
  let w := fst (ac_run toy_lib null_keeper null_checker (ac_init (ex_start CLIENT) 0)
             [OpWrite [x61] [] false (Ok tt); OpWrite [x62] [] false (Ok tt); OpWrite [x63] [] true (Ok tt)]) in
  let got fs := option_map snd (snd (fold_left (fun (p : io (ac * list bytes) * option (ac * list bytes)) f =>
       match fst p with Read k => match k (Ok f) with Ret x => (Ret x, Some x) | q => (q, None) end | q => (q, snd p) end) fs
       (over_flags toy_lib null_keeper null_checker (read_until 9 []) (ac_init (ex_start SERVER) 0), None))) in
  got (frames_out w) = Some [[x61]; [x62]; [x63]] /\
  map (fun k => got (cut_at k (frames_out w))) [0; 1; 2]%nat = [Some [[x61]]; Some [[x61]; [x62]]; Some [[x61]; [x62]; [x63]]].
Proof. vm_compute. split; reflexivity. Qed.
