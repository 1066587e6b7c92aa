(** Key streams over several connections: C100 (v2/encrypted_channel_v2.py:31-32, 42-55, 76-77; the
    session key comes from the two [enc_keypair]s alone, salt_client_session.py:111-114,
    salt_server_session.py:138-141). *)
From Coq Require Import List ZArith Bool Strings.Byte Lia ZifyBool ZifyNat ZifyN.
From Verif Require Import PyBase PyBase_proofs IO IO_proofs Packets Packets_proofs Packets_proofs2
  Crypto Crypto_proofs Time EncChannel EncUse EncChannel_proofs Props_Enc AppChannel AppUse AppChannel_proofs Props_App
  Session Session_proofs SessUse Session_steps Props_Session Props_E2E Props_Ident Spec
  SaltLib Backends SalsaSpec PolySpec StdLib TwSalsa_proofs TwBox_proofs StdLib_proofs Props_Std.
Import ListNotations.
Open Scope Z_scope.
Ltac Zify.zify_post_hook ::= Z.div_mod_to_equations.

(** ** Specification *)

(** The session key of a client (server) that got as far as sending its signature: what the
    library makes of its secret key and the public key in the peer's message. *)
Definition client_key (L : lib) (r : clife) (k : bytes) : Prop :=
  exists m1 m2, client_said (cr_t (cl_run r)) (cr_o (cl_run r)) = Some (m1, m2) /\
    l_beforenm L (field 6 32 m2) (kp_sec (cr_enc (cl_run r))) = Ok k.
Definition server_key (L : lib) (r : slife) (k : bytes) : Prop :=
  exists m1 m2, server_said (sr_t (sl_run r)) = Some (m1, m2) /\
    l_beforenm L (field 10 32 m1) (kp_sec (sr_enc (sl_run r))) = Ok k.

(** The frame [f] is a box made with the key and nonce [p]. *)
Definition boxed_with (L : lib) (f : bytes) (p : bytes * bytes) : Prop :=
  exists clear b ct, l_afternm L clear (snd p) (fst p) = Ok ct /\ f = Enc_wire b ct.

(** ** Lemmas *)
Lemma client_all_sealed : forall L sp ep r k, nacl_laws L sp ep -> clife_ok L r -> client_key L r k ->
  length k = 32%nat /\ exists xs, sealed_all L k SESSION_NONCE 1 xs (clife_frames r).
Proof.
  intros L sp ep [[TK TC sig e buf wanted tk t o] h] k HL [H HO] (m1 & m2 & HS & HB). unfold crun_ok in H. unfold clife_frames.
  cbn [cl_run cl_hist cr_TK cr_TC cr_sig cr_enc cr_buf cr_wanted cr_tk cr_t cr_o] in *.
  destruct (client_exec _ _ _ _ _ _ _ _ _ _ H) as [[-> H0]|(r & t' & -> & [[HR H0]|(m2' & f3 & rest & key & c3 & sg & -> & -> & HF & HE)])];
    [discriminate| |].
  - exfalso. cbn [client_said] in HS. destruct t' as [|[[x|x]|] [|y [|[z|ms l z] w]]]; try discriminate.
    + destruct o as [[s [[]|x0]]|]; try discriminate. eapply H0. reflexivity.
    + destruct (HR (EWrite ms l z)) as [q Hq]; [right; right; left; reflexivity|discriminate].
  - assert (E : M1_wire (fst (tk_first TK tk)) (kp_pub e) None = m1 /\ m2' = m2).
    { cbn [client_said] in HS. destruct rest as [|[|]]; destruct o as [[? [|]]|]; try discriminate; injection HS; auto. }
    destruct E as [E ->]. rewrite E in *. destruct HF as (_ & Hk & HB' & _).
    assert (key = k) by congruence. subst key. split; [exact Hk|]. destruct buf.
    + destruct HE as [-> [->|(s & -> & HC)]]; [discriminate|].
      destruct HC as (K1 & _ & fl & K2 & _). destruct HO as (a & a' & Ha & HA).
      rewrite K2 in Ha. injection Ha as <-.
      destruct (app_to_enc _ _ _ _ _ _ HA (Some (kp_pub sig, sg)) _ eq_refl) as (es & S1 & S2 & _ & S4).
      cbn [ac_enc ac_tk] in S1, S4.
      destruct (hist_sent _ _ _ _ _ _ HL S1 Hk eq_refl ltac:(cbn; lia)) as (HX & _).
      cbn [ec_key ec_session_nonce ec_write_nonce] in HX. rewrite S2 in HX.
      exists (sent_msgs es). exact HX.
    + destruct HE as [[-> HE]|(f4 & r2 & (ct & HM1 & HM2) & -> & HE)].
      * exists []. destruct o as [[s [[]|x]]|]; [exfalso; eapply HE; reflexivity| |]; subst h; exact I.
      * assert (S0 : sealed L k SESSION_NONCE 1 (M4_wire (fst (tk_get TK (snd (tk_first TK tk)))) (kp_pub sig) sg, false) f4)
          by (split; [lia|]; exists ct; split; assumption).
        assert (E1 : h = [] \/ exists s, o = Some (s, Ok tt) /\ client_end TK sig e false tk k c3 sg s).
        { destruct HE as [->|(s & -> & HC)]; [left; exact HO|]. destruct r2 as [[]|x]; [right; exists s; auto|left; exact HO]. }
        cbn [map ev_out concat app tl]. destruct E1 as [->|(s & -> & HC)].
        { exists [(M4_wire (fst (tk_get TK (snd (tk_first TK tk)))) (kp_pub sig) sg, false)]. split; [exact S0|exact I]. }
        destruct HC as (K1 & _ & fl & K2 & _). destruct HO as (a & a' & Ha & HA). rewrite K2 in Ha. injection Ha as <-.
        destruct (app_to_enc _ _ _ _ _ _ HA None 0 eq_refl) as (es & S1 & S2 & _ & S4). cbn [ac_enc ac_tk] in S1, S4.
        destruct (hist_sent _ _ _ _ _ _ HL S1 Hk eq_refl ltac:(cbn; lia)) as (HX & _).
        cbn [ec_key ec_session_nonce ec_write_nonce] in HX. rewrite S2 in HX.
        exists ((M4_wire (fst (tk_get TK (snd (tk_first TK tk)))) (kp_pub sig) sg, false) :: sent_msgs es). split; [exact S0|exact HX].
Qed.

Lemma server_all_sealed : forall L sp ep r k, nacl_laws L sp ep -> slife_ok L r -> server_key L r k ->
  length k = 32%nat /\ exists xs, sealed_all L k SESSION_NONCE 2 xs (slife_frames r).
Proof.
  intros L sp ep [r h] k HL [H HO] (m1 & m2 & HS & HB). unfold slife_frames. cbn [sl_run sl_hist] in *.
  destruct (server_said_inv _ _ _ _ H HS) as (key & sg & t2 & t3 & tk3 & f3 & r3 & t'' & HF & Ht & HE). rewrite Ht.
  destruct HF as (_ & Hk & _ & HB' & _ & _ & _ & ct & G1 & G2).
  assert (key = k) by congruence. subst key. split; [exact Hk|].
  assert (S0 : sealed L k SESSION_NONCE 2 (M3_wire t3 (kp_pub (sr_sig r)) sg, false) f3) by (split; [lia|]; exists ct; split; assumption).
  assert (Hlen : forall u, only_reads u ->
     tl (concat (map ev_out (ERead (Ok m1) :: (if sr_buf r then [EWrite [m2; f3] false r3]
        else [EWrite [m2] false (Ok tt); EWrite [f3] false r3]) ++ u))) = [f3]).
  { intros u Hu. assert (E : concat (map ev_out u) = []).
    { clear - Hu. induction u as [|x u IH]; [reflexivity|]. destruct (Hu x (or_introl eq_refl)) as [q ->]. cbn. apply IH.
      intros y Hy. apply Hu. right. exact Hy. }
    destruct (sr_buf r); cbn [map ev_out concat app tl]; rewrite E; reflexivity. }
  destruct HE as [[Hr HE]|(f4 & -> & -> & s & Ho & HE)].
  - rewrite Hlen by exact Hr. exists [(M3_wire t3 (kp_pub (sr_sig r)) sg, false)].
    destruct (sr_o r) as [[s [[]|x]]|]; [exfalso; eapply HE; reflexivity| |]; subst h; (split; [exact S0|exact I]).
  - rewrite Hlen by (intros y [<-|[]]; eauto). rewrite Ho in HO. destruct HE as (K1 & _ & c4 & fl & _ & _ & _ & Ka).
    rewrite Ka in HO. destruct HO as (a' & HA).
    destruct (app_to_enc _ _ _ _ _ _ HA None 0 eq_refl) as (es & S1 & S2 & _ & S4). cbn [ac_enc ac_tk] in S1, S4.
    destruct (hist_sent _ _ _ _ _ _ HL S1 Hk eq_refl ltac:(cbn; lia)) as (HX & _).
    cbn [ec_key ec_session_nonce ec_write_nonce] in HX. rewrite S2 in HX.
    exists ((M3_wire t3 (kp_pub (sr_sig r)) sg, false) :: sent_msgs es). split; [exact S0|exact HX].
Qed.

(** The pairs used for a list of frames from the counter [w] on *)
Definition pairs_from (k : bytes) (w : Z) (n : nat) : list (bytes * bytes) :=
  map (fun i => (k, nonce24 (w + 2 * Z.of_nat i) SESSION_NONCE)) (seq 0 n).

Lemma sealed_pairs : forall L k xs fs w, sealed_all L k SESSION_NONCE w xs fs ->
  Forall2 (boxed_with L) fs (pairs_from k w (length fs)).
Proof.
  intros L k xs fs w H. unfold pairs_from.
  assert (G : forall fs s xs, sealed_all L k SESSION_NONCE (w + 2 * Z.of_nat s) xs fs ->
    Forall2 (boxed_with L) fs (map (fun i => (k, nonce24 (w + 2 * Z.of_nat i) SESSION_NONCE)) (seq s (length fs)))).
  { clear. induction fs as [|f fs IH]; intros s [|x xs] H; cbn [sealed_all] in H; try tauto; cbn [length seq map]; [constructor|].
    destruct H as [(_ & ct & H1 & H2) H3]. constructor.
    - exists (fst x), (snd x), ct. split; assumption.
    - apply (IH (S s) xs). replace (w + 2 * Z.of_nat (S s)) with (w + 2 * Z.of_nat s + 2) by lia. exact H3. }
  apply (G fs O xs). replace (w + 2 * Z.of_nat 0) with w by lia. exact H.
Qed.

Lemma sealed_range : forall L k xs fs w i, sealed_all L k SESSION_NONCE w xs fs -> (i < length fs)%nat -> 0 <= w + 2 * Z.of_nat i < 2 ^ 64.
Proof.
  intros L k xs fs w i H Hi. destruct (nth_error fs i) as [f|] eqn:E; [|apply nth_error_None in E; lia].
  destruct (sealed_nth _ _ _ _ _ _ _ _ H E) as (x & _ & R & _). exact R.
Qed.

Lemma pairs_nodup : forall L k xs fs w, sealed_all L k SESSION_NONCE w xs fs -> NoDup (pairs_from k w (length fs)).
Proof.
  intros L k xs fs w H. unfold pairs_from. apply NoDup_nth_error. intros i j Hi HE. rewrite map_length, seq_length in Hi.
  rewrite !nth_error_map in HE.
  assert (Hj : (j < length fs)%nat).
  { destruct (Nat.ltb_spec j (length fs)) as [Q|Q]; [exact Q|].
    exfalso. rewrite (proj2 (nth_error_None (seq 0 (length fs)) j)) in HE by (rewrite seq_length; exact Q).
    destruct (nth_error (seq 0 (length fs)) i) eqn:E; [discriminate|]. apply nth_error_None in E. rewrite seq_length in E. lia. }
  assert (N : forall q, (q < length fs)%nat -> nth_error (seq 0 (length fs)) q = Some q).
  { intros q Hq. rewrite (nth_error_nth' _ O) by (rewrite seq_length; exact Hq). rewrite seq_nth by exact Hq. reflexivity. }
  rewrite !N in HE by assumption. cbn [option_map] in HE.
  assert (E : nonce24 (w + 2 * Z.of_nat i) SESSION_NONCE = nonce24 (w + 2 * Z.of_nat j) SESSION_NONCE) by congruence.
  apply nonce24_inj in E; [lia|exact (sealed_range _ _ _ _ _ _ H Hi)|exact (sealed_range _ _ _ _ _ _ H Hj)].
Qed.

Lemma pairs_in : forall k w n p, In p (pairs_from k w n) -> fst p = k /\ exists i, (i < n)%nat /\ snd p = nonce24 (w + 2 * Z.of_nat i) SESSION_NONCE.
Proof.
  intros k w n p H. apply in_map_iff in H. destruct H as (i & <- & Hi). apply in_seq in Hi. split; [reflexivity|]. exists i. split; [lia|reflexivity].
Qed.

Lemma nodup_app : forall A (a b : list A), NoDup a -> NoDup b -> (forall x, In x a -> In x b -> False) -> NoDup (a ++ b).
Proof.
  induction a as [|x a IH]; intros b Ha Hb H; [exact Hb|]. cbn [app]. apply NoDup_cons_iff in Ha. destruct Ha as [H1 H2].
  constructor.
  - intros Hin. apply in_app_or in Hin. destruct Hin as [Hin|Hin]; [exact (H1 Hin)|]. apply (H x); [left; reflexivity|exact Hin].
  - apply IH; [exact H2|exact Hb|]. intros y Hy Hy'. apply (H y); [right; exact Hy|exact Hy'].
Qed.

(** ** Distinct session keys: no key and nonce are ever used for two frames, over all frames of
    all clients and servers. *)
Theorem C100_pairs_unique : forall L sp ep cl ckeys sl skeys,
  nacl_laws L sp ep ->
  Forall2 (fun r k => clife_ok L r /\ client_key L r k) cl ckeys -> NoDup ckeys ->
  Forall2 (fun r k => slife_ok L r /\ server_key L r k) sl skeys -> NoDup skeys ->
  exists pairs, Forall2 (boxed_with L) (concat (map clife_frames cl) ++ concat (map slife_frames sl)) pairs /\ NoDup pairs.
Proof.
  intros L sp ep cl ckeys sl skeys HL HC NC HS NS.
  assert (C : exists pc, Forall2 (boxed_with L) (concat (map clife_frames cl)) pc /\ NoDup pc /\
    forall p, In p pc -> In (fst p) ckeys /\ exists i, 0 <= 1 + 2 * Z.of_nat i < 2 ^ 64 /\ snd p = nonce24 (1 + 2 * Z.of_nat i) SESSION_NONCE).
  { clear HS NS. induction HC as [|r k cl ckeys [H1 H2] HC IH]; [exists []; repeat split; try constructor; destruct H|].
    apply NoDup_cons_iff in NC. destruct NC as [N1 N2]. destruct (IH N2) as (pc & P1 & P2 & P3).
    destruct (client_all_sealed L sp ep r k HL H1 H2) as (_ & xs & HX).
    exists (pairs_from k 1 (length (clife_frames r)) ++ pc). split; [|split].
    - cbn [map concat]. apply Forall2_app; [exact (sealed_pairs _ _ _ _ _ HX)|exact P1].
    - apply nodup_app; [exact (pairs_nodup _ _ _ _ _ HX)|exact P2|]. intros x Hx Hx'.
      apply pairs_in in Hx. destruct Hx as [Hx _]. destruct (P3 _ Hx') as [Hx'' _]. rewrite Hx in Hx''. exact (N1 Hx'').
    - intros p Hp. apply in_app_or in Hp. destruct Hp as [Hp|Hp].
      + apply pairs_in in Hp. destruct Hp as (Hp1 & i & Hi & Hp2). split; [left; symmetry; exact Hp1|]. exists i.
        split; [exact (sealed_range _ _ _ _ _ _ HX Hi)|exact Hp2].
      + destruct (P3 _ Hp) as [Q1 Q2]. split; [right; exact Q1|exact Q2]. }
  assert (S : exists pc, Forall2 (boxed_with L) (concat (map slife_frames sl)) pc /\ NoDup pc /\
    forall p, In p pc -> In (fst p) skeys /\ exists i, 0 <= 2 + 2 * Z.of_nat i < 2 ^ 64 /\ snd p = nonce24 (2 + 2 * Z.of_nat i) SESSION_NONCE).
  { clear HC NC C. induction HS as [|r k sl skeys [H1 H2] HS IH]; [exists []; repeat split; try constructor; destruct H|].
    apply NoDup_cons_iff in NS. destruct NS as [N1 N2]. destruct (IH N2) as (pc & P1 & P2 & P3).
    destruct (server_all_sealed L sp ep r k HL H1 H2) as (_ & xs & HX).
    exists (pairs_from k 2 (length (slife_frames r)) ++ pc). split; [|split].
    - cbn [map concat]. apply Forall2_app; [exact (sealed_pairs _ _ _ _ _ HX)|exact P1].
    - apply nodup_app; [exact (pairs_nodup _ _ _ _ _ HX)|exact P2|]. intros x Hx Hx'.
      apply pairs_in in Hx. destruct Hx as [Hx _]. destruct (P3 _ Hx') as [Hx'' _]. rewrite Hx in Hx''. exact (N1 Hx'').
    - intros p Hp. apply in_app_or in Hp. destruct Hp as [Hp|Hp].
      + apply pairs_in in Hp. destruct Hp as (Hp1 & i & Hi & Hp2). split; [left; symmetry; exact Hp1|]. exists i.
        split; [exact (sealed_range _ _ _ _ _ _ HX Hi)|exact Hp2].
      + destruct (P3 _ Hp) as [Q1 Q2]. split; [right; exact Q1|exact Q2]. }
  destruct C as (pc & C1 & C2 & C3). destruct S as (ps & S1 & S2 & S3).
  exists (pc ++ ps). split; [apply Forall2_app; assumption|]. apply nodup_app; [exact C2|exact S2|].
  intros p Hp Hp'. destruct (C3 _ Hp) as (_ & i & Ri & Ei). destruct (S3 _ Hp') as (_ & j & Rj & Ej).
  rewrite Ei in Ej. apply nonce24_inj in Ej; [lia|exact Ri|exact Rj].
Qed.
Print Assumptions C100_pairs_unique.

(** ** The same key pairs again *)
Lemma stream_prefix : forall k n a b, (a <= b)%nat -> xsalsa20_stream k n a = firstn a (xsalsa20_stream k n b).
Proof.
  intros k n a b H. unfold xsalsa20_stream, salsa20_stream. rewrite firstn_firstn, Nat.min_l by exact H.
  generalize (hsalsa20 k (firstn 16 n)) (skipn 16 n). intros x y.
  assert (E : (b / 64 + 1 = (a / 64 + 1) + (b / 64 - a / 64))%nat).
  { pose proof (Nat.div_le_mono a b 64 ltac:(lia) H). remember (a / 64)%nat as u. remember (b / 64)%nat as v. lia. }
  rewrite E. assert (HA : (a <= 64 * (a / 64 + 1))%nat).
  { pose proof (Nat.div_mod a 64 ltac:(lia)). pose proof (Nat.mod_upper_bound a 64 ltac:(lia)).
    remember (a / 64)%nat as u. remember (a mod 64)%nat as v. lia. }
  remember (a / 64 + 1)%nat as A eqn:EA. clear EA E. rewrite seq_app, map_app, concat_app, firstn_app.
  assert (LL : forall s m, length (concat (map (salsa20_block x y) (seq s m))) = (64 * m)%nat).
  { clear. intros s m. revert s. induction m as [|m IH]; intros s; [reflexivity|]. cbn [seq map concat]. rewrite app_length, IH.
    unfold salsa20_block. rewrite salsa20_length. lia. }
  rewrite LL. replace (a - 64 * A)%nat with O by lia. rewrite firstn_O, app_nil_r. reflexivity.
Qed.

Lemma xor_cancel : forall S a b, (Nat.min (length a) (length b) <= length S)%nat ->
  xor_bytes (xor_bytes a S) (xor_bytes b S) = xor_bytes a b.
Proof.
  induction S as [|z S IH]; intros [|x a] [|y b] H; try reflexivity; [cbn in H; lia|].
  unfold xor_bytes in *. cbn [combine map fst snd]. f_equal; [|apply IH; cbn in H; lia].
  change (z2b (Z.lxor (b2z (z2b (Z.lxor (b2z x) (b2z z)))) (b2z (z2b (Z.lxor (b2z y) (b2z z))))) = z2b (Z.lxor (b2z x) (b2z y))).
  rewrite !b2z_z2b, !Z.mod_small by apply byte_lxor. f_equal.
  rewrite (Z.lxor_comm (b2z y)), Z.lxor_assoc, <- (Z.lxor_assoc (b2z z)), Z.lxor_nilpotent, Z.lxor_0_l. reflexivity.
Qed.

Lemma xor_firstn : forall a S n, (length a <= n)%nat -> xor_bytes a (firstn n S) = xor_bytes a S.
Proof.
  induction a as [|x a IH]; intros S n H; [reflexivity|]. destruct n as [|n]; [cbn in H; lia|]. destruct S as [|z S]; [reflexivity|].
  unfold xor_bytes in *. cbn [firstn combine map]. f_equal. apply IH. cbn in H. lia.
Qed.

(** Two boxes with one key and nonce show the difference of the texts. *)
Lemma two_boxes : forall k n m m', xor_bytes (skipn 16 (secretbox k n m)) (skipn 16 (secretbox k n m')) = xor_bytes m m'.
Proof.
  intros k n m m'.
  assert (E : forall x B, (length x <= B)%nat -> skipn 16 (secretbox k n x) = xor_bytes x (skipn 32 (xsalsa20_stream k n (32 + B)))).
  { intros x B HB. unfold secretbox. cbv zeta. remember (xor_bytes x (skipn 32 (xsalsa20_stream k n (32 + length x)))) as c eqn:Q.
    rewrite skipn_app, poly1305_length, Nat.sub_diag, skipn_all2 by (rewrite poly1305_length; lia). rewrite skipn_O, app_nil_l. subst c.
    rewrite (stream_prefix k n (32 + length x) (32 + B)) by lia. rewrite skipn_firstn_comm. apply xor_firstn. lia. }
  rewrite (E m (Nat.max (length m) (length m'))), (E m' (Nat.max (length m) (length m'))) by lia.
  apply xor_cancel. rewrite box_stream. lia.
Qed.

Lemma pads : forall b k w xs fs xs' fs' i f f',
  sealed_all (a_lib (std_backends b)) k SESSION_NONCE w xs fs -> sealed_all (a_lib (std_backends b)) k SESSION_NONCE w xs' fs' ->
  nth_error fs i = Some f -> nth_error fs' i = Some f' ->
  exists c c', opens (a_lib (std_backends b)) k (w + 2 * Z.of_nat i) f c /\ opens (a_lib (std_backends b)) k (w + 2 * Z.of_nat i) f' c' /\
    xor_bytes (skipn 18 f) (skipn 18 f') = xor_bytes c c'.
Proof.
  intros b k w xs fs xs' fs' i f f' H H' Hf Hf'.
  destruct (sealed_nth _ _ _ _ _ _ _ _ H Hf) as ([c l] & _ & _ & ct & E1 & E2).
  destruct (sealed_nth _ _ _ _ _ _ _ _ H' Hf') as ([c' l'] & _ & _ & ct' & E1' & E2'). cbn [fst snd] in *.
  destruct (std_box_call b c (nonce24 (w + 2 * Z.of_nat i) SESSION_NONCE) k) as [B1 B2].
  destruct (std_box_call b c' (nonce24 (w + 2 * Z.of_nat i) SESSION_NONCE) k) as [B1' B2'].
  rewrite B1 in E1. rewrite B1' in E1'.
  pose proof (secretbox_length k (nonce24 (w + 2 * Z.of_nat i) SESSION_NONCE) c) as Q.
  pose proof (secretbox_length k (nonce24 (w + 2 * Z.of_nat i) SESSION_NONCE) c') as Q'.
  pose proof (two_boxes k (nonce24 (w + 2 * Z.of_nat i) SESSION_NONCE) c c') as T.
  change (repeat x00 8) with SESSION_NONCE in *.
  remember (secretbox k (nonce24 (w + 2 * Z.of_nat i) SESSION_NONCE) c) as s eqn:Es. clear Es.
  remember (secretbox k (nonce24 (w + 2 * Z.of_nat i) SESSION_NONCE) c') as s' eqn:Es'. clear Es'.
  injection E1 as <-. injection E1' as <-. subst f f'. exists c, c'.
  split; [|split; [|exact T]].
  - eexists. exists s. split; [reflexivity|]. split; [lia|exact B2].
  - eexists. exists s'. split; [reflexivity|]. split; [lia|exact B2'].
Qed.

(** Two connections of a client with one [enc_keypair], to servers that named the same
    encryption key: whoever recorded both has, frame by frame, the exclusive or of what was
    sent in the first and in the second. *)
Theorem C100_client_pad_refuted : forall b r r' m1 m2 m1' m2',
  let L := a_lib (std_backends b) in
  clife_ok L r -> clife_ok L r' ->
  client_said (cr_t (cl_run r)) (cr_o (cl_run r)) = Some (m1, m2) ->
  client_said (cr_t (cl_run r')) (cr_o (cl_run r')) = Some (m1', m2') ->
  cr_enc (cl_run r) = cr_enc (cl_run r') -> field 6 32 m2 = field 6 32 m2' ->
  exists k, forall i f f', nth_error (clife_frames r) i = Some f -> nth_error (clife_frames r') i = Some f' ->
    exists c c', opens L k (1 + 2 * Z.of_nat i) f c /\ opens L k (1 + 2 * Z.of_nat i) f' c' /\
      xor_bytes (skipn 18 f) (skipn 18 f') = xor_bytes c c'.
Proof.
  intros b r r' m1 m2 m1' m2' L H H' S S' HE HF. subst L.
  destruct (client_said_inv _ _ _ _ (proj1 H) S) as (_ & f3 & rest & key & c3 & sg & _ & HX & _).
  assert (K : client_key (a_lib (std_backends b)) r key) by (exists m1, m2; split; [exact S|apply HX]).
  assert (K' : client_key (a_lib (std_backends b)) r' key).
  { exists m1', m2'. split; [exact S'|]. rewrite <- HE, <- HF. apply HX. }
  destruct (client_all_sealed _ _ _ _ _ (proj1 (C87_standards b)) H K) as (_ & xs & X).
  destruct (client_all_sealed _ _ _ _ _ (proj1 (C87_standards b)) H' K') as (_ & xs' & X').
  exists key. intros i f f' Hf Hf'. exact (pads _ _ _ _ _ _ _ _ _ _ X X' Hf Hf').
Qed.
Print Assumptions C100_client_pad_refuted.

Theorem C100_server_pad_refuted : forall b r r' m1 m2 m1' m2',
  let L := a_lib (std_backends b) in
  slife_ok L r -> slife_ok L r' ->
  server_said (sr_t (sl_run r)) = Some (m1, m2) ->
  server_said (sr_t (sl_run r')) = Some (m1', m2') ->
  sr_enc (sl_run r) = sr_enc (sl_run r') -> field 10 32 m1 = field 10 32 m1' ->
  exists k, forall i f f', nth_error (slife_frames r) i = Some f -> nth_error (slife_frames r') i = Some f' ->
    exists c c', opens L k (2 + 2 * Z.of_nat i) f c /\ opens L k (2 + 2 * Z.of_nat i) f' c' /\
      xor_bytes (skipn 18 f) (skipn 18 f') = xor_bytes c c'.
Proof.
  intros b r r' m1 m2 m1' m2' L H H' S S' HE HF. subst L.
  destruct (server_said_inv _ _ _ _ (proj1 H) S) as (key & sg & t2 & t3 & tk3 & f3 & r3 & t'' & HX & _).
  assert (K : server_key (a_lib (std_backends b)) r key) by (exists m1, m2; split; [exact S|apply HX]).
  assert (K' : server_key (a_lib (std_backends b)) r' key).
  { exists m1', m2'. split; [exact S'|]. rewrite <- HE, <- HF. apply HX. }
  destruct (server_all_sealed _ _ _ _ _ (proj1 (C87_standards b)) H K) as (_ & xs & X).
  destruct (server_all_sealed _ _ _ _ _ (proj1 (C87_standards b)) H' K') as (_ & xs' & X').
  exists key. intros i f f' Hf Hf'. exact (pads _ _ _ _ _ _ _ _ _ _ X X' Hf Hf').
Qed.
Print Assumptions C100_server_pad_refuted.

(** The example connection: one client, one server, one session key; three frames of the
    client and one of the server, with four different nonces. *)
Definition ex_slife : slife := SLife ex_srun [].
Example C100_example :
  Forall2 (fun r k => clife_ok toy_lib r /\ client_key toy_lib r k) [ex_clife] [ec_key (ac_enc ex_capp)] /\
  Forall2 (fun r k => slife_ok toy_lib r /\ server_key toy_lib r k) [ex_slife] [ec_key (ac_enc ex_capp)] /\
  length (concat (map clife_frames [ex_clife]) ++ concat (map slife_frames [ex_slife])) = 4%nat.
Proof.
  split; [|split; [|vm_compute; reflexivity]].
  - constructor; [|constructor]. split; [apply C96_example|].
    unfold client_key. vm_compute. eexists. eexists. split; reflexivity.
  - constructor; [|constructor]. split.
    + split; [exact (proj1 (proj2 C35_example))|].
      destruct C96_example as (_ & _ & (s & a' & E1 & E2 & _ & _) & _). cbn [ex_slife sl_run sl_hist]. rewrite E1, E2. eexists. constructor.
    + unfold server_key. vm_compute. eexists. eexists. split; reflexivity.
Qed.
(** Two boxes of one key and nonce *)
Example C100_boxes : let box := secretbox (repeat x07 32) (repeat x00 24) in
  skipn 16 (box [x68; x69]) <> skipn 16 (box [x6e; x6f]) /\
  xor_bytes (skipn 16 (box [x68; x69])) (skipn 16 (box [x6e; x6f])) = [x06; x06] /\ xor_bytes [x68; x69] [x6e; x6f] = [x06; x06].
Proof. vm_compute. repeat split. discriminate. Qed.
