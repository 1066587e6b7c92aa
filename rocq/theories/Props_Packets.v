(** Properties of packet encoding and decoding (C01-C08, C10-C15, C49, C50). *)
From Coq Require Import List ZArith Bool Strings.Byte Lia ZifyBool ZifyNat ZifyN.
From Verif Require Import PyBase PyBase_proofs Packets Packets_proofs Packets_proofs2
  A1A2_proofs PacketOps PacketOps_proofs Spec.
Import ListNotations.
Open Scope Z_scope.
Ltac Zify.zify_post_hook ::= Z.div_mod_to_equations.

(** ** C01: M1 wire format and round trip. *)
Theorem C01_m1_round_trip : forall (t : Z) (ck : bytes) (sk : option bytes) (trailing : bytes),
  length ck = 32%nat -> (forall k, sk = Some k -> length k = 32%nat) ->
  exists p q,
    m1_build t ck sk = Ok p /\
    m1_bytes p = M1_wire t ck sk /\
    m1_ctor (M1_wire t ck sk ++ trailing) = Ok q /\
    m1_time q = t mod 2 ^ 32 /\
    m1_client_enc_key q = ck /\
    m1_flag q = match sk with Some _ => true | None => false end /\
    m1_server_sig_key q = Ok (match sk with Some k => k | None => [] end) /\
    m1_bytes q = M1_wire t ck sk.
Proof.
  intros t ck sk tr Hck Hsk. do 2 eexists.
  split; [apply m1_build_ok; auto|]. split.
  { unfold m1_bytes. cbn [m1_data m1_opt opt_bytes]. symmetry. apply m1_data_wire. }
  split; [apply m1_ctor_wire; auto|].
  unfold m1_time, m1_client_enc_key, m1_flag, m1_server_sig_key. cbn [m1_data m1_opt m1_shadow].
  split.
  { unfold fget_int. rewrite <- !app_assoc. rewrite (app_assoc indicator).
    rewrite fget_app by reflexivity. apply le_dec_u32. }
  split; [apply fget_app_end; auto|].
  split; [destruct sk; reflexivity|].
  split; [reflexivity|].
  unfold m1_bytes. cbn [m1_data m1_opt opt_bytes]. symmetry. apply m1_data_wire.
Qed.
Print Assumptions C01_m1_round_trip.

Example C01_case : exists q,
  m1_ctor (M1_wire 305419896 (repeat x61 32) (Some (repeat x62 32)) ++ [x63]) = Ok q /\
  m1_time q = 305419896 /\ m1_server_sig_key q = Ok (repeat x62 32).
Proof. eexists. repeat split. Qed.

(** ** C02: exactly which byte strings M1Packet accepts. *)
Theorem C02_m1_acceptance : forall src : bytes,
  ((exists p, m1_ctor src = Ok p) <->
   prefix_of (firstn 5 src) [x53; x43; x76; x32; x01] (* "SCv2", 1 *)) /\
  (forall e, m1_ctor src = Err e -> e = BadPeer).
Proof.
  intro src. split; [|apply m1_ctor_err].
  destruct src as [|x r].
  - split; [intros _; exists [x53; x43; x76; x32; x01]; reflexivity|].
    intros _. eexists. reflexivity.
  - apply m1_ctor_accept. discriminate.
Qed.
Print Assumptions C02_m1_acceptance.

Example C02_case_short : exists p, m1_ctor [x53; x43] = Ok p.
Proof. apply C02_m1_acceptance. exists [x76; x32; x01]. reflexivity. Qed.
Example C02_case_bad : m1_ctor [x53; x43; x76; x33; x01] = Err BadPeer.
Proof. reflexivity. Qed.

(** ** C03: M2. *)
Theorem C03_m2_round_trip : forall (nss last : bool) (t : Z) (k trailing : bytes),
  length k = 32%nat ->
  exists d q,
    m2_build nss last t k = Ok d /\
    m2_bytes d = M2_wire nss (nss || last) t k /\
    length (m2_bytes d) = 38%nat /\
    m2_ctor (m2_bytes d ++ trailing) = Ok q /\
    m2_time q = t mod 2 ^ 32 /\ m2_server_enc_key q = k /\
    m2_no_such_server q = nss /\ m2_last_flag q = nss || last.
Proof.
  intros nss last t k tr Hk. do 2 eexists.
  split; [apply m2_build_ok; auto|]. rewrite m2_bytes_wire by auto.
  split; [reflexivity|]. split; [apply m2_wire_length; auto|].
  split; [apply m2_ctor_wire; auto|]. apply m2_fields_wire; auto.
Qed.
Print Assumptions C03_m2_round_trip.

Example C03_case : exists d, m2_build true false 1 (repeat x61 32) = Ok d /\
  m2_bytes d = [x02; x81; x01; x00; x00; x00] ++ repeat x61 32.
Proof. eexists. split; reflexivity. Qed.

(** ** C04: M3 and M4. *)
Theorem C04_m3_m4_round_trip : forall (t : Z) (k s trailing : bytes),
  length k = 32%nat -> length s = 64%nat ->
  (exists d q, m34_build m3_new t k s = Ok d /\ d = M3_wire t k s /\ length d = 102%nat /\
     m3_ctor (d ++ trailing) = Ok q /\
     m34_time q = t mod 2 ^ 32 /\ m34_sig_key q = k /\ m34_signature q = s) /\
  (exists d q, m34_build m4_new t k s = Ok d /\ d = M4_wire t k s /\ length d = 102%nat /\
     m4_ctor (d ++ trailing) = Ok q /\
     m34_time q = t mod 2 ^ 32 /\ m34_sig_key q = k /\ m34_signature q = s).
Proof.
  intros t k s tr Hk Hs. split; do 2 eexists.
  - split; [apply m3_build_ok; auto|]. split; [reflexivity|].
    split; [apply m34_wire_length; auto|]. split; [apply m3_ctor_wire; auto|]. apply m34_fields; auto.
  - split; [apply m4_build_ok; auto|]. split; [reflexivity|].
    split; [apply m34_wire_length; auto|]. split; [apply m4_ctor_wire; auto|]. apply m34_fields; auto.
Qed.
Print Assumptions C04_m3_m4_round_trip.

Example C04_case : exists d, m34_build m4_new (-1) (repeat x61 32) (repeat x62 64) = Ok d /\
  d = [x04; x00; xff; xff; xff; xff] ++ repeat x61 32 ++ repeat x62 64.
Proof. eexists. split; reflexivity. Qed.

(** ** C05: acceptance of M2, M3, M4, EncryptedPacket, AppPacket. *)
Definition starts_with (v : Z) (src : bytes) : Prop := exists x r, src = x :: r /\ val x = v.

Theorem C05_acceptance : forall src : bytes, src <> [] ->
  ((exists d, m2_ctor src = Ok d) <-> starts_with 2 src) /\
  ((exists d, m3_ctor src = Ok d) <-> starts_with 3 src) /\
  ((exists d, m4_ctor src = Ok d) <-> starts_with 4 src) /\
  ((exists p, ep_ctor src = Ok p) <-> starts_with 6 src /\ (18 <= length src)%nat) /\
  ((exists p, app_ctor src true = Ok p) <-> starts_with 5 src /\ (6 <= length src)%nat) /\
  (forall e, m2_ctor src = Err e \/ m3_ctor src = Err e \/ m4_ctor src = Err e \/
             (exists p, ep_ctor src = p /\ p = Err e) \/ (exists p, app_ctor src true = p /\ p = Err e) ->
             e = BadPeer).
Proof.
  intros src Hne.
  assert (HE : (exists p, ep_ctor src = Ok p) <-> starts_with 6 src /\ (18 <= length src)%nat).
  { split.
    - intros [p H]. split; [eapply ep_first; eauto|].
      destruct src as [|a [|f body]]; [congruence|discriminate|].
      rewrite ep_ctor_spec in H. unfold zlen in H. cbn [length].
      destruct ((b2z a =? 6) && (16 <=? Z.of_nat (length body))) eqn:E; [lia|discriminate].
    - intros [(x & r & -> & Hx) HL]. destruct r as [|f body]; [cbn [length] in HL; lia|].
      rewrite ep_ctor_spec. unfold zlen. cbn [length] in HL. rewrite <- val_b2z, Hx.
      assert ((6 =? 6) && (16 <=? Z.of_nat (length body)) = true) as -> by lia. eauto. }
  assert (HA : (exists p, app_ctor src true = Ok p) <-> starts_with 5 src /\ (6 <= length src)%nat).
  { split.
    - intros [p H]. split; [eapply app_first; eauto|].
      destruct (Nat.le_gt_cases 6 (length src)); auto.
      rewrite app_ctor_short in H by (auto; unfold zlen; lia). discriminate.
    - intros [(x & r & Hs & Hx) HL].
      destruct (split_at _ 6 src) as (h & d & -> & Hh); [lia|].
      rewrite app_ctor_spec by auto. destruct h as [|x' h]; [discriminate|].
      cbn [app] in Hs. injection Hs as -> _. rewrite fget_int_1_cons, <- val_b2z, Hx.
      cbn. eauto. }
  split; [apply fixed_accept; auto; cbn; lia|].
  split; [apply fixed_accept; auto; cbn; lia|].
  split; [apply fixed_accept; auto; cbn; lia|].
  split; [exact HE|]. split; [exact HA|].
  intros e [H | [H | [H | [(p & H & ->) | (p & H & ->)]]]].
  - eapply fixed_accept; [| |exact H]; auto; cbn; lia.
  - eapply fixed_accept; [| |exact H]; auto; cbn; lia.
  - eapply fixed_accept; [| |exact H]; auto; cbn; lia.
  - destruct src as [|a [|f body]]; [congruence|injection H; auto|].
    rewrite ep_ctor_spec in H. destruct (_ && _); congruence.
  - destruct (Z.lt_ge_cases (zlen src) 6) as [HS|HS].
    + rewrite app_ctor_short in H by auto. congruence.
    + destruct (split_at _ 6 src) as (h & d & -> & Hh); [unfold zlen in HS; lia|].
      rewrite app_ctor_spec in H by auto. destruct (_ && _); congruence.
Qed.
Print Assumptions C05_acceptance.

(** The empty string is accepted by all of them: the default packet. *)
Theorem C05_empty : m2_ctor [] = Ok m2_new /\ m3_ctor [] = Ok m3_new /\ m4_ctor [] = Ok m4_new /\
  ep_ctor [] = Ok ep_new /\ app_ctor [] true = Ok app_new.
Proof. repeat split. Qed.
Print Assumptions C05_empty.

Example C05_case : exists d, m3_ctor [x03; x61] = Ok d.
Proof.
  apply (C05_acceptance [x03; x61]); [discriminate|]. exists x03, [x61]. split; reflexivity.
Qed.

(** ** C06: EncryptedPacket and AppPacket round trip. *)
Theorem C06_round_trip :
  (forall (body : bytes) (last : bool), (16 <= length body)%nat ->
     pkt_bytes (ep_build last body) = Enc_wire last body /\
     exists p, ep_ctor (Enc_wire last body) = Ok p /\ ep_body p = Ok body /\ ep_last_flag p = last) /\
  (forall (t : Z) (data : bytes),
     pkt_bytes (app_build t data) = App_wire t data /\
     exists p, app_ctor (App_wire t data) true = Ok p /\ app_data p = Ok data /\
               app_time p = t mod 2 ^ 32).
Proof.
  split.
  - intros body last HL. split; [apply ec_wrap_wire|]. unfold Enc_wire. cbn [app].
    rewrite ep_ctor_spec. assert ((b2z x06 =? 6) && (16 <=? zlen body) = true) as ->
      by (unfold zlen; change (b2z x06) with 6; lia).
    eexists. split; [reflexivity|]. split; [reflexivity|]. destruct last; reflexivity.
  - intros t data. split; [apply app_bytes_wire|]. unfold App_wire.
    rewrite app_assoc. rewrite app_ctor_spec by reflexivity.
    change ([x05; x00] ++ u32le t) with (x05 :: x00 :: u32le t) at 1.
    rewrite fget_int_1_cons. eexists. split; [reflexivity|]. split; [reflexivity|].
    unfold app_time, fget_int. cbn [p_data]. rewrite fget_app_end by reflexivity. apply le_dec_u32.
Qed.
Print Assumptions C06_round_trip.

Example C06_case : exists p, app_ctor (App_wire 7 [x61; x62]) true = Ok p /\ app_data p = Ok [x61; x62].
Proof. eexists. split; reflexivity. Qed.

(** ** C07: MultiAppPacket round trip. *)
Theorem C07_multi_round_trip : forall (t : Z) (msgs : list bytes) (trailing : bytes),
  msgs <> [] -> zlen msgs <= 65535 -> (forall m, In m msgs -> zlen m <= 65535) ->
  multi_bytes (multi_build t msgs) = Multi_wire t msgs /\
  exists p, multi_ctor (Multi_wire t msgs ++ trailing) true = Ok p /\
    mp_msgs p = Some msgs /\ multi_time p = t mod 2 ^ 32 /\ multi_count p = zlen msgs.
Proof.
  intros t msgs tr Hne HL Hm. split; [apply multi_bytes_wire|].
  eexists. split; [apply multi_accept_fwd, Multi_wire_frame; auto|].
  split; [reflexivity|]. unfold multi_time, multi_count, fget_int. cbn [mp_data].
  unfold Multi_wire. split.
  - rewrite fget_firstn by lia. rewrite <- app_assoc, <- app_assoc.
    rewrite fget_app by reflexivity. apply le_dec_u32.
  - rewrite fget_firstn by lia. rewrite <- !app_assoc.
    rewrite (app_assoc [x0b; x00]). rewrite fget_app by reflexivity.
    apply le_dec_u16_small. unfold zlen in *. lia.
Qed.
Print Assumptions C07_multi_round_trip.

Example C07_case : exists p,
  multi_ctor (Multi_wire 9 [[]; [x61; x62]; [x63]] ++ [xff]) true = Ok p /\
  mp_msgs p = Some [[]; [x61; x62]; [x63]].
Proof. eexists. split; reflexivity. Qed.

(** ** C08: MultiAppPacket on arbitrary input. *)
Theorem C08_multi_acceptance : forall (src : bytes), src <> [] ->
  (forall msgs, (exists p, multi_ctor src true = Ok p /\ mp_msgs p = Some msgs) <-> Multi_frame src msgs) /\
  (forall p, multi_ctor src true = Ok p -> exists msgs, mp_msgs p = Some msgs /\
     (1 <= length msgs)%nat /\ multi_count p = zlen msgs) /\
  (forall e, multi_ctor src true = Err e -> e = BadPeer \/ e = ValueError).
Proof.
  intros src Hne. split; [|split; [|apply multi_err]].
  - intro msgs. split.
    + intros (p & H & HM). apply multi_accept_inv in H; auto.
      destruct H as (ms & HM' & HF & _). congruence.
    + intro HF. eexists. split; [apply multi_accept_fwd; eauto|reflexivity].
  - intros p H. pose proof H as H0. apply multi_accept_inv in H; auto.
    destruct H as (ms & HM & HF & HD). exists ms. split; auto.
    unfold multi_count. rewrite HD.
    destruct HF as (r & t0 & t1 & t2 & t3 & c0 & c1 & init & last & an & rest & -> & -> & HC & _).
    split; [rewrite app_length; cbn [length]; lia|].
    rewrite le_val_le_dec in HC. exact HC.
Qed.
Print Assumptions C08_multi_acceptance.

Example C08_case : Multi_frame [x0b; x00; x01; x00; x00; x00; x02; x00; x01; x00; x61; x05; x00; x62] [[x61]; [x62]].
Proof.
  exists x00, x01, x00, x00, x00, x02, x00, [[x61]], [x62], 5, []. repeat split; try (cbn; lia).
  constructor; [cbn; lia|constructor].
Qed.
Example C08_case_err : multi_ctor [x0b; x00; x01; x00; x00; x00; x02; x00; x05; x00; x62] true = Err ValueError.
Proof. reflexivity. Qed.

(** ** C10 (expected: a truncated MultiAppPacket is rejected) is false of the code:
    a packet announcing five bytes and carrying one is accepted, and the one byte
    is delivered.  The full extent is given by C08: exactly the last message may be
    cut short. *)
Theorem C10_truncated_rejected_refuted : exists (src : bytes) (p : mpkt) (announced : Z) (msg : bytes),
  multi_ctor src true = Ok p /\ mp_msgs p = Some [msg] /\
  src = [x0b; x00; x00; x00; x00; x00; x01; x00] ++ u16le announced ++ msg /\
  0 <= announced <= 65535 /\ zlen msg < announced.
Proof.
  exists [x0b; x00; x00; x00; x00; x00; x01; x00; x05; x00; x62].
  eexists. exists 5, [x62]. split; [reflexivity|]. repeat split; cbn; lia.
Qed.
Print Assumptions C10_truncated_rejected_refuted.

(** What does hold: a packet cut anywhere before its last message (inside the
    header, a length field, or another message) is rejected. *)
Theorem C10_truncated_rejected_partial : forall (t : Z) (msgs : list bytes) (last : bytes) (n : nat),
  zlen (msgs ++ [last]) <= 65535 -> (forall m, In m (msgs ++ [last]) -> zlen m <= 65535) ->
  (0 < n)%nat -> (n + length last < length (Multi_wire t (msgs ++ [last])))%nat ->
  exists e, multi_ctor (firstn n (Multi_wire t (msgs ++ [last]))) true = Err e /\
            (e = BadPeer \/ e = ValueError).
Proof.
  intros t msgs last n HL Hm H0 Hn. destruct (Nat.lt_ge_cases n 8).
  - apply multi_cut_header; lia.
  - exists ValueError. split; auto. apply multi_cut; auto.
Qed.
Print Assumptions C10_truncated_rejected_partial.

Example C10_case : multi_ctor (firstn 12 (Multi_wire 1 [[x61; x62; x63]; [x64]])) true = Err ValueError.
Proof. reflexivity. Qed.

(** ** C11: exactly which byte strings A1Packet accepts. *)
Theorem C11_a1_acceptance : forall src : bytes, src <> [] ->
  (forall addr, (exists p, a1_ctor src = Ok p /\ a1_address p = Ok addr) <->
     ((exists r, src = [x08; r; x00; x00; x00] /\ addr = []) \/
      (exists r, src = [x08; r; x01; x20; x00] ++ addr /\ length addr = 32%nat))) /\
  (forall p, a1_ctor src = Ok p -> exists addr, a1_address p = Ok addr) /\
  (forall e, a1_ctor src = Err e -> e = if (length src <? 5)%nat then ValueError else BadPeer).
Proof.
  intros src Hne. destruct (Z.lt_ge_cases (zlen src) 5) as [HS|HS].
  - rewrite a1_ctor_short by auto. unfold zlen in HS. split; [|split].
    + intro addr. split; [intros (p & H & _); discriminate|].
      intros [(r & -> & _) | (r & -> & _)]; cbn [app length] in HS; lia.
    + intros p H; discriminate.
    + intros e H. injection H as <-. destruct (Nat.ltb_spec (length src) 5); [auto|lia].
  - destruct (five_split src) as (a & r & t & s0 & s1 & addr0 & ->); [lia|].
    rewrite a1_ctor_spec.
    pose proof (b2z_range s0); pose proof (b2z_range s1).
    destruct ((b2z a =? 8) && (b2z s0 + 256 * b2z s1 =? zlen addr0) &&
      ((b2z t =? 0) && (zlen addr0 =? 0) || (b2z t =? 1) && (zlen addr0 =? 32))) eqn:E.
    + assert (HA : a = x08) by (apply b2z_inj; change (b2z x08) with 8; lia).
      split; [|split].
      * intro addr. split.
        -- intros (p & H1 & H2). injection H1 as <-. cbn in H2. injection H2 as <-. subst a.
           destruct (Z.eqb_spec (b2z t) 0) as [HT|HT].
           ++ left. exists r. unfold zlen in *.
              destruct addr0; cbn [length] in *; [|lia].
              assert (t = x00) as -> by (apply b2z_inj; change (b2z x00) with 0; lia).
              assert (s0 = x00) as -> by (apply b2z_inj; change (b2z x00) with 0; lia).
              assert (s1 = x00) as -> by (apply b2z_inj; change (b2z x00) with 0; lia).
              split; reflexivity.
           ++ right. exists r. unfold zlen in *.
              assert (t = x01) as -> by (apply b2z_inj; change (b2z x01) with 1; lia).
              assert (s0 = x20) as -> by (apply b2z_inj; change (b2z x20) with 32; lia).
              assert (s1 = x00) as -> by (apply b2z_inj; change (b2z x00) with 0; lia).
              split; [reflexivity|lia].
        -- intros [(r' & Hs & ->) | (r' & Hs & HL)].
           ++ cbn [app] in Hs. injection Hs as _ _ _ _ _ ->. eexists. split; reflexivity.
           ++ cbn [app] in Hs. injection Hs as _ _ _ _ _ ->. eexists. split; reflexivity.
      * intros p H1. injection H1 as <-. exists addr0. reflexivity.
      * discriminate.
    + split; [|split].
      * intro addr. split; [intros (p & H1 & _); discriminate|].
        intros [(r' & Hs & ->) | (r' & Hs & HL)]; cbn [app] in Hs; injection Hs as -> _ -> -> -> ->.
        -- discriminate E.
        -- change (b2z x08) with 8 in E. change (b2z x01) with 1 in E.
           change (b2z x20) with 32 in E. change (b2z x00) with 0 in E. unfold zlen in E.
           rewrite HL in E. discriminate E.
      * discriminate.
      * intros e H1. injection H1 as <-. cbn [app length].
        destruct (Nat.ltb_spec (S (S (S (S (S (length addr0)))))) 5); [lia|auto].
Qed.
Print Assumptions C11_a1_acceptance.

(** Building and parsing A1. *)
Theorem C11_a1_round_trip :
  pkt_bytes (a1_build 0 []) = A1_any /\
  (exists p, a1_ctor A1_any = Ok p /\ a1_address_type p = 0 /\ a1_address p = Ok []) /\
  (forall key, length key = 32%nat ->
     pkt_bytes (a1_build 1 key) = A1_pubkey key /\
     exists p, a1_ctor (A1_pubkey key) = Ok p /\ a1_address_type p = 1 /\ a1_address p = Ok key).
Proof.
  split; [reflexivity|]. split; [eexists; repeat split|].
  intros key Hk. split.
  - unfold a1_build, pkt_bytes, a1_set_address, a1_set_address_size, zlen. cbn [p_data p_opt opt_bytes].
    rewrite Hk. reflexivity.
  - unfold A1_pubkey. rewrite a1_ctor_spec. unfold zlen. rewrite Hk.
    eexists. repeat split.
Qed.
Print Assumptions C11_a1_round_trip.

Example C11_case : a1_ctor [x08; x00; x01; x1f; x00] = Err BadPeer /\ a1_ctor [x08; x00] = Err ValueError.
Proof. split; reflexivity. Qed.

(** ** C12: exactly which byte strings A2Packet accepts. *)
Theorem C12_a2_acceptance : forall (unicode_word : Z -> bool) (src : bytes), src <> [] ->
  (forall l, (exists p, a2_ctor unicode_word src = Ok p /\ a2_prots p = Ok l) <->
             A2_frame unicode_word src l) /\
  (forall p, a2_ctor unicode_word src = Ok p -> exists l, a2_prots p = Ok l) /\
  ((length src < 3)%nat -> a2_ctor unicode_word src = Err ValueError) /\
  (forall e, (3 <= length src)%nat -> a2_ctor unicode_word src = Err e ->
     e = BadPeer \/
     (e = UnicodeDecodeError /\ exists i p, p = firstn 10 (skipn (3 + 10 * i) src) /\
        length p = 10%nat /\ forall text, ~ utf8_text p text)).
Proof.
  intros uw src Hne. exact (a2_acceptance uw src Hne).
Qed.
Print Assumptions C12_a2_acceptance.

(** Building and parsing A2. *)
Theorem C12_a2_round_trip : forall (unicode_word : Z -> bool) (l : list (bytes * bytes)),
  (length l <= 127)%nat ->
  Forall (fun q => length (fst q) = 10%nat /\ length (snd q) = 10%nat /\
                   Forall (fun b => documented_char (val b)) (fst q ++ snd q)) l ->
  pkt_bytes (a2_build l) = A2_wire l /\
  exists p, a2_ctor unicode_word (A2_wire l) = Ok p /\ a2_prots p = Ok l.
Proof.
  intros uw l HL HF. exact (a2_round_trip uw l HL HF).
Qed.
Print Assumptions C12_a2_round_trip.

Example C12_case : forall uw, exists p, a2_ctor uw (A2_wire A2_default_prots) = Ok p /\
  a2_prots p = Ok A2_default_prots.
Proof. intro uw. eexists. split; reflexivity. Qed.
Example C12_case_unicode : forall uw,
  a2_ctor uw ([x09; x80; x01] ++ repeat xff 20) = Err UnicodeDecodeError.
Proof. reflexivity. Qed.

(** ** C13 (expected: only the documented alphabet) is false of the code, for every
    Unicode table: a final newline is accepted. *)
Theorem C13_alphabet_refuted : forall unicode_word : Z -> bool, exists src p l p1 p2,
  a2_ctor unicode_word src = Ok p /\ a2_prots p = Ok l /\ In (p1, p2) l /\
  ~ Forall (fun b => documented_char (val b)) p1.
Proof.
  intro uw.
  exists ([x09; x80; x01] ++ (repeat x41 9 ++ [x0a]) ++ repeat x2d 10).
  eexists. exists [(repeat x41 9 ++ [x0a], repeat x2d 10)], (repeat x41 9 ++ [x0a]), (repeat x2d 10).
  split; [reflexivity|]. split; [reflexivity|]. split; [left; reflexivity|].
  intro HF. rewrite Forall_forall in HF. specialize (HF x0a). 
  assert (HI : In x0a (repeat x41 9 ++ [x0a])) by (apply in_or_app; right; left; reflexivity).
  specialize (HF HI). unfold documented_char in HF. change (val x0a) with 10 in HF. lia.
Qed.
Print Assumptions C13_alphabet_refuted.

(** It also accepts letters outside ASCII, if the runtime classifies any two-byte
    character as a word character (it does, e.g. U+00E9). *)
Theorem C13_non_ascii_refuted : forall unicode_word : Z -> bool, unicode_word 233 = true ->
  exists src p, a2_ctor unicode_word src = Ok p /\
    a2_prots p = Ok [(concat (repeat [xc3; xa9] 5), repeat x2d 10)].
Proof.
  intros uw HU. exists ([x09; x80; x01] ++ concat (repeat [xc3; xa9] 5) ++ repeat x2d 10).
  apply a2_acceptance; [discriminate|].
  exists x80, []. split; [reflexivity|]. repeat split; try (cbn; lia); try discriminate.
  constructor; [|constructor]. repeat split.
  - exists [233; 233; 233; 233; 233], []. repeat split; auto; try discriminate.
    + repeat (apply Forall_cons; [unfold scalar; lia|]). apply Forall_nil.
    + repeat (apply Forall_cons; [right; split; [lia|exact HU]|]). apply Forall_nil.
  - exists (repeat 45 10), []. repeat split; auto; try discriminate.
    + repeat (apply Forall_cons; [unfold scalar; lia|]). apply Forall_nil.
    + repeat (apply Forall_cons; [left; unfold documented_char; lia|]). apply Forall_nil.
Qed.
Print Assumptions C13_non_ascii_refuted.

(** What does hold: apart from one final newline, every byte below 128 of an
    accepted protocol string is of the documented alphabet. *)
Theorem C13_alphabet_partial : forall unicode_word src p l q,
  src <> [] -> a2_ctor unicode_word src = Ok p -> a2_prots p = Ok l -> In q l ->
  forall s, s = fst q \/ s = snd q ->
  length s = 10%nat /\
  exists body tail, s = body ++ tail /\ (tail = [] \/ tail = [x0a]) /\ body <> [] /\
    Forall (fun b => val b < 128 -> documented_char (val b)) body.
Proof.
  intros uw src p l q Hne HC HP HI s Hs.
  assert (HF : A2_frame uw src l) by (apply a2_acceptance; eauto).
  destruct HF as (f & ex & _ & _ & _ & _ & _ & HF).
  rewrite Forall_forall in HF. destruct (HF q HI) as (H1 & H2 & H3 & H4).
  destruct Hs as [-> | ->]; split; auto; eapply pstring_bytes; eauto.
Qed.
Print Assumptions C13_alphabet_partial.

(** ** C14: no frame is accepted as two different packets. *)
Inductive packet_class : Type := KM1 | KM2 | KM3 | KM4 | KApp | KEnc | KA1 | KA2 | KMulti.
Definition accepts (unicode_word : Z -> bool) (k : packet_class) (src : bytes) : Prop :=
  match k with
  | KM1 => exists p, m1_ctor src = Ok p
  | KM2 => exists p, m2_ctor src = Ok p
  | KM3 => exists p, m3_ctor src = Ok p
  | KM4 => exists p, m4_ctor src = Ok p
  | KApp => exists p, app_ctor src true = Ok p
  | KEnc => exists p, ep_ctor src = Ok p
  | KA1 => exists p, a1_ctor src = Ok p
  | KA2 => exists p, a2_ctor unicode_word src = Ok p
  | KMulti => exists p, multi_ctor src true = Ok p
  end.

Theorem C14_disjoint : forall unicode_word src k k', src <> [] ->
  accepts unicode_word k src -> accepts unicode_word k' src -> k = k'.
Proof.
  intros uw src k k' Hne H1 H2.
  set (ty := fun k => match k with KM1 => 83 | KM2 => 2 | KM3 => 3 | KM4 => 4 | KApp => 5
                     | KEnc => 6 | KA1 => 8 | KA2 => 9 | KMulti => 11 end).
  assert (HK : forall k, accepts uw k src -> exists x r, src = x :: r /\ val x = ty k).
  { intros k0 H. destruct k0; cbn [accepts] in H; destruct H as [p H]; cbn [ty].
    - eapply m1_first; eauto.
    - eapply fixed_first; eauto; cbn; lia.
    - eapply fixed_first; eauto; cbn; lia.
    - eapply fixed_first; eauto; cbn; lia.
    - eapply app_first; eauto.
    - eapply ep_first; eauto.
    - eapply a1_first; eauto.
    - eapply a2_first; eauto.
    - eapply multi_first; eauto. }
  destruct (HK k H1) as (x & r & -> & Hx). destruct (HK k' H2) as (x' & r' & He & Hx').
  injection He as <- <-. rewrite Hx in Hx'. destruct k, k'; cbn [ty] in Hx'; congruence || lia.
Qed.
Print Assumptions C14_disjoint.

Example C14_case : forall uw, accepts uw KA1 A1_any /\ ~ accepts uw KM1 A1_any.
Proof.
  intro uw. assert (H : accepts uw KA1 A1_any) by (eexists; reflexivity).
  split; auto. intro H2. discriminate (C14_disjoint uw A1_any KA1 KM1 ltac:(discriminate) H H2).
Qed.

(** ** C15: fixed-size fields. *)
Theorem C15_wrong_length : forall (v : bytes),
  (length v <> 32%nat -> forall p, m1_set_client_enc_key v p = Err TypeError) /\
  (length v <> 32%nat -> forall d, m2_set_server_enc_key v d = Err TypeError) /\
  (length v <> 32%nat -> forall d, m34_set_sig_key v d = Err TypeError) /\
  (length v <> 64%nat -> forall d, m34_set_signature v d = Err TypeError) /\
  (length v <> 32%nat -> forall p, m1_flag p = true ->
     m1_set_server_sig_key v (m1_create_opt_fields p) = Err TypeError).
Proof.
  intro v. repeat split; intros H x.
  - unfold m1_set_client_enc_key. rewrite fset_array_wrong by auto. reflexivity.
  - apply fset_array_wrong; auto.
  - apply fset_array_wrong; auto.
  - apply fset_array_wrong; auto.
  - intro HF. unfold m1_set_server_sig_key, m1_create_opt_fields, m1_flag in *.
    cbn [m1_data m1_opt]. unfold m1_opt_factory. rewrite HF, zeros_length.
    destruct (Nat.eqb_spec (length v) 32); [contradiction|reflexivity].
Qed.
Print Assumptions C15_wrong_length.

(** Whatever calls are made on a packet object, and whichever of them raise, its
    serialisation keeps its length. *)
Theorem C15_fixed_size :
  (forall l, length (m1_bytes (m1_use l)) = 42%nat \/ length (m1_bytes (m1_use l)) = 74%nat) /\
  (forall l, length (m2_bytes (m2_use l)) = 38%nat) /\
  (forall l, length (m3_use l) = 102%nat) /\
  (forall l, length (m4_use l) = 102%nat).
Proof.
  split; [exact m1_use_length|]. split; [exact m2_use_length|].
  split; intro l; apply m34_fold_length; reflexivity.
Qed.
Print Assumptions C15_fixed_size.

(** Setting a field of the right length changes that field and nothing else. *)
Theorem C15_right_length : forall (off n : nat) (v buf : bytes),
  length v = n -> (off + n <= length buf)%nat ->
  exists d, fset_array off n v buf = Ok d /\ length d = length buf /\ fget off n d = v /\
    (forall i k, (i + k <= off \/ off + n <= i)%nat -> fget i k d = fget i k buf).
Proof. exact fset_array_right. Qed.
Print Assumptions C15_right_length.

Example C15_case : length (m2_bytes (m2_use [M2SetServerEncKey [x61]; M2SetNoSuchServer true;
  M2FromBytes (repeat xff 100)])) = 38%nat.
Proof. reflexivity. Qed.

(** ** C49 (expected: reusing a packet object is like using a fresh one) is false of
    the code for frames shorter than the fixed part: old contents show through. *)
Theorem C49_reuse_refuted : exists (l : list m1_op) (src : bytes),
  src <> [] /\ m1_client_enc_key (fst (m1_from_bytes (m1_use l) src))
             <> m1_client_enc_key (fst (m1_from_bytes m1_new src)) /\
  snd (m1_from_bytes (m1_use l) src) = Ok tt /\ snd (m1_from_bytes m1_new src) = Ok tt.
Proof.
  exists [M1SetClientEncKey (repeat x61 32)], [x53; x43; x76; x32; x01].
  repeat split; discriminate.
Qed.
Print Assumptions C49_reuse_refuted.

(** What does hold: reuse is unobservable for frames that cover the fixed part. *)
Theorem C49_reuse_partial : forall (src : bytes),
  (forall l, (42 <= length src)%nat -> m1_from_bytes (m1_use l) src = m1_from_bytes m1_new src) /\
  (forall l, (38 <= length src)%nat -> m2_from_bytes (m2_use l) src = m2_from_bytes m2_new src) /\
  (forall l, (102 <= length src)%nat ->
     fixed_from_bytes TYPE_M3 (m3_use l) src = fixed_from_bytes TYPE_M3 m3_new src) /\
  (forall l, (102 <= length src)%nat ->
     fixed_from_bytes TYPE_M4 (m4_use l) src = fixed_from_bytes TYPE_M4 m4_new src) /\
  (forall p, length (p_data p) = 2%nat -> (2 <= length src)%nat ->
     ep_from_bytes p src = ep_from_bytes ep_new src) /\
  (forall p v, length (p_data p) = 6%nat -> (6 <= length src)%nat ->
     app_from_bytes p src v = app_from_bytes app_new src v) /\
  (forall p v, length (mp_data p) = 8%nat -> (8 <= length src)%nat ->
     multi_from_bytes p src v = multi_from_bytes multi_new src v) /\
  (forall p, length (p_data p) = 5%nat -> (5 <= length src)%nat ->
     a1_from_bytes p src = a1_from_bytes a1_new src) /\
  (forall unicode_word p, length (p_data p) = 3%nat -> (3 <= length src)%nat ->
     a2_from_bytes unicode_word p src = a2_from_bytes unicode_word a2_new src).
Proof.
  intro src. split; [intros; apply m1_reuse; auto|].
  split; [intros; apply fixed_reuse; rewrite m2_use_raw_length; cbn; auto; lia|].
  split; [intros; apply fixed_reuse; unfold m3_use; rewrite m34_fold_length; cbn; auto; lia|].
  split; [intros; apply fixed_reuse; unfold m4_use; rewrite m34_fold_length; cbn; auto; lia|].
  split; [intros; apply ep_reuse; auto|]. split; [intros; apply app_reuse; auto|].
  split; [intros; apply multi_reuse; auto|]. split; [intros; apply a1_reuse; auto|].
  intros; apply a2_reuse; auto.
Qed.
Print Assumptions C49_reuse_partial.

Example C49_case : m1_from_bytes (m1_use [M1SetTime 5]) (M1_wire 7 (repeat x61 32) None)
  = m1_from_bytes m1_new (M1_wire 7 (repeat x61 32) None).
Proof. apply C49_reuse_partial. cbn. lia. Qed.

(** ** C50 (expected: a server key set on M1 is sent) is false of the code when
    create_opt_fields() is not called between the flag and the assignment: the
    getter returns the key, but the packet is sent without it. *)
Theorem C50_server_key_sent_refuted : forall t ck k, length ck = 32%nat -> length k = 32%nat ->
  exists p1 p2,
    m1_set_client_enc_key ck (m1_set_time t (m1_set_flag true m1_new)) = Ok p1 /\
    m1_set_server_sig_key k p1 = Ok p2 /\
    m1_server_sig_key p2 = Ok k /\
    m1_bytes p2 <> M1_wire t ck (Some k) /\ length (m1_bytes p2) = 42%nat.
Proof.
  intros t ck k Hck Hk. destruct (server_key_shadow t ck k Hck) as (p1 & p2 & H1 & H2 & H3 & H4).
  exists p1, p2. repeat split; auto.
  - rewrite H4. intro HE. apply (f_equal (@length byte)) in HE.
    unfold M1_wire in HE. rewrite !app_length in HE. rewrite Hk in HE. cbn [length] in HE. lia.
  - rewrite H4. unfold M1_wire. rewrite !app_length, Hck. reflexivity.
Qed.
Print Assumptions C50_server_key_sent_refuted.

(** What does hold: with create_opt_fields() after setting the flag, every later
    assignment of a 32-byte key is sent, wherever time and client key are set. *)
Theorem C50_server_key_sent_partial : forall (p : m1pkt) (k : bytes),
  m1_flag p = true -> length k = 32%nat ->
  exists p', m1_set_server_sig_key k (m1_create_opt_fields p) = Ok p' /\
    m1_server_sig_key p' = Ok k /\ m1_bytes p' = m1_data p ++ k.
Proof.
  intros p k HF Hk. unfold m1_set_server_sig_key, m1_create_opt_fields, m1_flag in *.
  cbn [m1_data m1_opt]. unfold m1_opt_factory. rewrite HF, zeros_length, Hk.
  eexists. repeat split.
Qed.
Print Assumptions C50_server_key_sent_partial.

Example C50_case : exists p', m1_set_server_sig_key (repeat x61 32) (m1_create_opt_fields (m1_set_flag true m1_new)) = Ok p'
  /\ length (m1_bytes p') = 74%nat.
Proof. eexists. split; reflexivity. Qed.
