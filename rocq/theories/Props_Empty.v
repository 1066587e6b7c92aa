(** Property C43, continued: an empty frame can even take the place of M1 or M2 in a
    handshake that succeeds. *)
From Coq Require Import List ZArith Bool Strings.Byte Lia ZifyBool ZifyNat ZifyN.
From Verif Require Import PyBase PyBase_proofs IO IO_proofs Packets Packets_proofs Packets_proofs2
  Crypto Crypto_proofs Time EncChannel EncUse EncChannel_proofs AppChannel AppUse AppChannel_proofs Session Session_proofs
  SessUse Session_steps Sched_proofs Session_fwd Spec Props_App Props_Session Props_Session2.
Import ListNotations.
Open Scope Z_scope.

(** *** C43: any client completes its handshake with a peer that sends an empty frame for
    M2 and signs with a key of its own.  The session key is what the client's library
    computes from its ephemeral key and 32 zeros.  (With the library of the package in
    pure Python that is the same well-known value for every client:
    C78_low_order_refuted.) *)
Theorem C43_client_completes_refuted : forall L sp ep TK TC sig asig e buf w tk key tm,
  nacl_laws L sp ep -> sp (kp_sec sig) (kp_pub sig) -> sp (kp_sec asig) (kp_pub asig) -> ep (kp_sec e) (kp_pub e) ->
  tc_first TC 0 = Ok tt -> accepts_times TC ->
  l_beforenm L (repeat x00 32) (kp_sec e) = Ok key -> length key = 32%nat ->
  exists sg f3 s tail, seals L key 2 (M3_wire tm (kp_pub asig) sg) f3 /\
    exec (client_handshake L TK TC (cs_init sig (Some e) buf w tk))
      ([EWrite [M1_wire (fst (tk_first TK tk)) (kp_pub e) None] false (Ok tt); ERead (Ok []); ERead (Ok f3)] ++ tail)
      (Some (s, Ok tt)) /\
    (if buf then tail = [] else exists f4, tail = [EWrite [f4] false (Ok tt)]) /\
    cs_session_key s = key /\ option_map m34_sig_key (cs_m3 s) = Some (kp_pub asig).
Proof.
  intros L sp ep TK TC sig asig e buf w tk key tm HL H1 H2 H3 HT HA HB Hl.
  assert (Hs : length (kp_sec e) = 32%nat) by (eapply law_encsk_len; eauto).
  assert (Hp : length (kp_pub asig) = 32%nat) by (eapply law_sigpk_len; eauto).
  destruct (client_start_fwd L sp ep HL TK sig e H3 buf w tk) as (p & CS).
  cbv zeta in CS. set (m1 := M1_wire (fst (tk_first TK tk)) (kp_pub e) None) in *.
  destruct (law_sign _ _ _ HL _ _ (SIG1_PREFIX ++ l_sha512 L m1 ++ l_sha512 L []) H2) as (sg & G1 & G2 & G3).
  destruct (law_sign _ _ _ HL _ _ (SIG2_PREFIX ++ l_sha512 L m1 ++ l_sha512 L []) H1) as (csg & K1 & K2 & K3).
  destruct (encrypt_fwd L sp ep key [] false 0 2 (M3_wire tm (kp_pub asig) sg) HL Hl) as (c & C1 & C2); [lia|].
  set (s2 := cs_set_app (Some (ac_init (EC key [] false 2 1 SESSION_NONCE) (snd (tk_first TK tk))))
      (cs_set_session_key key (cs_set_m2_hash (l_sha512 L []) (cs_set_m2 (Some m2_new)
        (Session.CS sig (Some e) buf w (snd (tk_first TK tk)) [] (Some p) (l_sha512 L m1) None [] None None None))))).
  assert (X : client_m2 L TC (Session.CS sig (Some e) buf w (snd (tk_first TK tk)) [] (Some p) (l_sha512 L m1) None [] None None None) e []
     = (s2, Ok (EC key [] false 2 1 SESSION_NONCE))).
  { unfold client_m2. change (m2_ctor []) with (@Ok bytes m2_new). cbv beta iota. change (m2_time m2_new) with 0. rewrite HT.
    change (m2_no_such_server m2_new) with false. cbv beta iota. change (m2_server_enc_key m2_new) with (repeat x00 32).
    rewrite (shared_key_fwd L (kp_sec e) (repeat x00 32) key Hs (repeat_length _ _) HB).
    rewrite (ec_init_fwd key CLIENT SESSION_NONCE Hl). reflexivity. }
  pose proof (client_m3_fwd L sp ep HL TK TC sig asig H1 H2 s2 key tm sg (ec_wrap c false) csg Hl G1 (HA _) C2) as Y.
  specialize (Y (ex_intro _ _ G3) eq_refl K1 K2). cbv zeta in Y.
  set (m4 := M4_wire (fst (tk_get TK (cs_tk s2))) (kp_pub sig) csg) in *.
  destruct (encrypt_fwd L sp ep key [] false 4 1 m4 HL Hl) as (c4 & D1 & D2); [lia|].
  exists sg, (ec_wrap c false). eexists. exists (if buf then [] else [EWrite [ec_wrap c4 false] false (Ok tt)]).
  split; [destruct C2 as (_ & c' & E1 & E2); exists c'; split; [exact E1|exact E2]|]. split; [|split; [|split]].
  - eapply io_eq_exec; [|apply io_eq_sym; apply client_eq].
    unfold client_machine. cbn [cs_init cs_enc]. fold (cs_init sig (Some e) buf w tk). rewrite CS.
    cbn [app]. apply ex_write. apply ex_read. rewrite X. apply ex_read. rewrite Y. cbn [cs_init cs_buffer_M4].
    instantiate (1 := if buf then _ else _). destruct buf.
    + apply ex_ret.
    + cbn [cs_set_m4 cs_set_app cs_app ac_init ac_enc]. rewrite D1. apply ex_write. apply ex_ret.
  - destruct buf; [reflexivity|eexists; reflexivity].
  - destruct buf; reflexivity.
  - assert (HM : m34_sig_key (M3_wire tm (kp_pub asig) sg) = kp_pub asig).
    { apply (m34_fields x03); assumption. }
    destruct buf; cbn [client_buffer cs_set_app cs_set_m4 cs_m3 cs_set_m3 option_map]; rewrite HM; reflexivity.
Qed.
Print Assumptions C43_client_completes_refuted.

(** Session_fwd.server_m3_fwd for a client key that belongs to nobody. *)
Lemma server_m3_any : forall L sp ep TK sig e, nacl_laws L sp ep -> sp (kp_sec sig) (kp_pub sig) -> ep (kp_sec e) (kp_pub e) ->
  forall s p (hold : option bytes) t0 k key, m1_client_enc_key p = k -> length k = 32%nat ->
    l_beforenm L k (kp_sec e) = Ok key -> length key = 32%nat -> ss_sig s = sig ->
    (hold = None \/ hold = Some (M2_wire false false t0 (kp_pub e))) ->
    let m2 := M2_wire false false (fst (tk_first TK (ss_tk s))) (kp_pub e) in
    let h2 := match hold with None => ss_m2_hash s | Some _ => l_sha512 L m2 end in
    let tt3 := match hold with None => tk_get TK (ss_tk s) | Some _ => tk_first TK (ss_tk s) end in
    exists f3 s3,
      server_m3 L TK s e p hold = (s3, Ok (match hold with None => [f3] | Some _ => [m2; f3] end)) /\
      ss_session_key s3 = key /\ ss_m1_hash s3 = ss_m1_hash s /\ ss_m2_hash s3 = h2 /\ ss_is_done s3 = ss_is_done s /\
      ss_app s3 = Some (ac_init (EC key [] false 1 4 SESSION_NONCE) (snd tt3)).
Proof.
  intros L sp ep TK sig e HL Hss Hse s p hold t0 k key Hp Hk0 HB Hl Hsig Hh m2 h2 tt3.
  assert (Hk : length (kp_pub e) = 32%nat) by (eapply law_encpk_len; eauto).
  assert (Hpk : length (kp_pub sig) = 32%nat) by (eapply law_sigpk_len; eauto).
  unfold server_m3. rewrite Hp.
  rewrite (shared_key_fwd L _ _ key) by (auto; eapply law_encsk_len; eauto).
  rewrite ec_init_fwd by auto.
  destruct (law_sign _ _ _ HL _ _ (SIG1_PREFIX ++ ss_m1_hash s ++ h2) Hss) as (sg & G1 & G2 & G3).
  destruct (m34_fwd x03 (fst tt3) (kp_pub sig) sg Hpk G1) as (p1 & P1 & P2).
  destruct (encrypt_fwd L sp ep key [] false 1 2 ([x03; x00] ++ u32le (fst tt3) ++ kp_pub sig ++ sg) HL Hl) as (c & C1 & C2); [lia|].
  assert (HF : firstn SIGN_BYTES (sg ++ SIG1_PREFIX ++ ss_m1_hash s ++ h2) = sg) by (apply firstn_app_exact; exact G1).
  exists (ec_wrap c false). subst h2 tt3. destruct Hh as [-> | ->].
  - destruct (tk_get TK (ss_tk s)) as [t3 tk3]. cbn [fst snd] in *. change m3_new with (x03 :: zeros 101).
    rewrite Hsig, P1. cbn [ss_set_session_key ss_m1_hash ss_m2_hash]. rewrite G2, HF, P2, C1.
    eexists. split; [reflexivity|]. repeat split.
  - subst m2. destruct (tk_first TK (ss_tk s)) as [t3 tk3]. cbn [fst snd] in *. change m3_new with (x03 :: zeros 101).
    rewrite m2_retime by auto. rewrite Hsig, P1. cbn [ss_set_session_key ss_set_m2_hash ss_set_m2 ss_m1_hash ss_m2_hash]. rewrite G2, HF, P2, C1.
    eexists. split; [reflexivity|]. repeat split.
Qed.

(** *** C43: so does any server, whether or not it buffers M2, with a peer that sends an
    empty frame for M1 and an M4 signed with a key of its own. *)
Theorem C43_server_completes_refuted : forall L sp ep TK TC sig asig e buf a2 tk key tm,
  nacl_laws L sp ep -> sp (kp_sec sig) (kp_pub sig) -> sp (kp_sec asig) (kp_pub asig) -> ep (kp_sec e) (kp_pub e) ->
  tc_first TC 0 = Ok tt -> accepts_times TC ->
  l_beforenm L (repeat x00 32) (kp_sec e) = Ok key -> length key = 32%nat ->
  exists t2 f3 sg f4 s, seals L key 1 (M4_wire tm (kp_pub asig) sg) f4 /\
    exec (server_handshake L TK TC (ss_init sig (Some e) buf a2 tk))
      ([ERead (Ok [])] ++
       (let m2 := M2_wire false false t2 (kp_pub e) in
        if buf then [EWrite [m2; f3] false (Ok tt)] else [EWrite [m2] false (Ok tt); EWrite [f3] false (Ok tt)]) ++
       [ERead (Ok f4)]) (Some (s, Ok tt)) /\
    ss_session_key s = key /\ ss_client_sig_key s = Some (kp_pub asig) /\ ss_is_done s = false.
Proof.
  intros L sp ep TK TC sig asig e buf a2 tk key tm HL H1 H2 H3 HT HA HB Hl.
  assert (Hp : length (kp_pub asig) = 32%nat) by (eapply law_sigpk_len; eauto).
  set (s0 := ss_init sig (Some e) buf a2 tk).
  set (s1 := ss_set_m1_hash (l_sha512 L []) (ss_set_m1 (Some m1_new) s0)).
  assert (SM1 : server_m1 L TK TC s0 [] m1_new = (s1, Ok None)).
  { unfold server_m1. change (m1_time m1_new) with 0. rewrite HT. reflexivity. }
  destruct (server_m2_fwd L sp ep HL TK e H3 s1) as [S2 S2b]. cbv zeta in S2, S2b. change (ss_tk s1) with tk in S2, S2b.
  set (m20 := M2_wire false false (fst (tk_first TK tk)) (kp_pub e)) in *.
  set (s2 := ss_set_m2 (Some m20) (ss_set_tk (snd (tk_first TK tk)) s1)) in *.
  assert (Z : m1_client_enc_key m1_new = repeat x00 32) by reflexivity.
  destruct buf.
  - destruct (server_m3_any L sp ep TK sig e HL H1 H3 s2 m1_new (Some m20) (fst (tk_first TK tk)) _ key Z (repeat_length _ _) HB Hl eq_refl (or_intror eq_refl))
      as (f3 & s3 & A4 & A5 & A6 & A7 & A8 & A9).
    destruct (law_sign _ _ _ HL _ _ (SIG2_PREFIX ++ ss_m1_hash s3 ++ ss_m2_hash s3) H2) as (sg & G1 & G2 & G3).
    destruct (encrypt_fwd L sp ep key [] false 0 1 (M4_wire tm (kp_pub asig) sg) HL Hl) as (c & C1 & C2); [lia|].
    pose proof (server_m4_fwd L sp ep HL TC s3 key _ tm sg (ec_wrap c false) _ A9 Hl _ Hp G1 (HA _) C2 G3) as Y.
    cbv zeta in Y. eexists _, f3, sg, (ec_wrap c false). eexists.
    split; [destruct C2 as (_ & c' & E1 & E2); exists c'; split; [exact E1|exact E2]|]. split.
    { eapply io_eq_exec; [|apply io_eq_sym; apply server_eq]. unfold server_machine. cbn [s0 ss_init ss_enc app].
      apply ex_read. change (m1_ctor []) with (@Ok m1pkt m1_new). cbv beta iota. fold (ss_init sig (Some e) true a2 tk). fold s0.
      rewrite SM1, S2. cbn [s0 ss_init ss_buffer_m2]. unfold server_rest.
      match goal with |- context [server_m3 ?v1 ?v2 ?v3 ?v4 ?v5 ?v6] => replace (server_m3 v1 v2 v3 v4 v5 v6) with (s3, @Ok (list bytes) [M2_wire false false (fst (tk_first TK (ss_tk s2))) (kp_pub e); f3]) by (symmetry; exact A4) end. cbv beta iota.
      apply ex_write. apply ex_read. rewrite Y. apply ex_ret. }
    split; [exact A5|]. split; [reflexivity|]. exact A8.
  - set (s2' := ss_set_m2_hash (l_sha512 L m20) s2).
    destruct (server_m3_any L sp ep TK sig e HL H1 H3 s2' m1_new None 0 _ key Z (repeat_length _ _) HB Hl eq_refl (or_introl eq_refl))
      as (f3 & s3 & A4 & A5 & A6 & A7 & A8 & A9).
    destruct (law_sign _ _ _ HL _ _ (SIG2_PREFIX ++ ss_m1_hash s3 ++ ss_m2_hash s3) H2) as (sg & G1 & G2 & G3).
    destruct (encrypt_fwd L sp ep key [] false 0 1 (M4_wire tm (kp_pub asig) sg) HL Hl) as (c & C1 & C2); [lia|].
    pose proof (server_m4_fwd L sp ep HL TC s3 key _ tm sg (ec_wrap c false) _ A9 Hl _ Hp G1 (HA _) C2 G3) as Y.
    cbv zeta in Y. exists (fst (tk_first TK tk)), f3, sg, (ec_wrap c false). eexists.
    split; [destruct C2 as (_ & c' & E1 & E2); exists c'; split; [exact E1|exact E2]|]. split.
    { eapply io_eq_exec; [|apply io_eq_sym; apply server_eq]. unfold server_machine. cbn [s0 ss_init ss_enc app].
      apply ex_read. change (m1_ctor []) with (@Ok m1pkt m1_new). cbv beta iota. fold (ss_init sig (Some e) false a2 tk). fold s0.
      rewrite SM1, S2. cbn [s0 ss_init ss_buffer_m2]. rewrite S2b. apply ex_write. fold s2'. unfold server_rest.
      match goal with |- context [server_m3 ?v1 ?v2 ?v3 ?v4 ?v5 ?v6] => replace (server_m3 v1 v2 v3 v4 v5 v6) with (s3, @Ok (list bytes) [f3]) by (symmetry; exact A4) end. cbv beta iota.
      apply ex_write. apply ex_read. rewrite Y. apply ex_ret. }
    split; [exact A5|]. split; [reflexivity|]. exact A8.
Qed.
Print Assumptions C43_server_completes_refuted.

(** Both with the toy library, against a peer that signs with [ex_ssig] and [ex_csig]. *)
Example C43_completes_example : exists kc ks,
  (forall buf, exists sg f3 s tail, seals toy_lib kc 2 (M3_wire 7 (kp_pub ex_ssig) sg) f3 /\
    exec (client_handshake toy_lib null_keeper null_checker (cs_init ex_csig (Some ex_cenc) buf [] 0))
      ([EWrite [M1_wire 0 (kp_pub ex_cenc) None] false (Ok tt); ERead (Ok []); ERead (Ok f3)] ++ tail) (Some (s, Ok tt)) /\
    cs_session_key s = kc) /\
  (forall buf, exists t2 f3 sg f4 s, seals toy_lib ks 1 (M4_wire 7 (kp_pub ex_csig) sg) f4 /\
    exec (server_handshake toy_lib null_keeper null_checker (ss_init ex_ssig (Some ex_senc) buf None 0))
      ([ERead (Ok [])] ++
       (let m2 := M2_wire false false t2 (kp_pub ex_senc) in
        if buf then [EWrite [m2; f3] false (Ok tt)] else [EWrite [m2] false (Ok tt); EWrite [f3] false (Ok tt)]) ++
       [ERead (Ok f4)]) (Some (s, Ok tt)) /\ ss_client_sig_key s = Some (kp_pub ex_csig)).
Proof.
  assert (A : accepts_times null_checker) by (intro; reflexivity).
  destruct (l_beforenm toy_lib (repeat x00 32) (kp_sec ex_cenc)) as [kc|] eqn:Ec; [|discriminate Ec].
  destruct (l_beforenm toy_lib (repeat x00 32) (kp_sec ex_senc)) as [ks|] eqn:Es; [|discriminate Es].
  exists kc, ks. split; intro buf.
  - destruct (C43_client_completes_refuted toy_lib toy_pair toy_pair null_keeper null_checker ex_csig ex_ssig ex_cenc buf [] 0 kc 7 toy_laws)
      as (sg & f3 & s & tail & B1 & B2 & B3 & B4 & B5); try assumption; try (split; reflexivity); try reflexivity.
    + injection Ec as <-. reflexivity.
    + exists sg, f3, s, tail. auto.
  - destruct (C43_server_completes_refuted toy_lib toy_pair toy_pair null_keeper null_checker ex_ssig ex_csig ex_senc buf None 0 ks 7 toy_laws)
      as (t2 & f3 & sg & f4 & s & B1 & B2 & B3 & B4 & B5); try assumption; try (split; reflexivity); try reflexivity.
    + injection Es as <-. reflexivity.
    + exists t2, f3, sg, f4, s. auto.
Qed.

(** *** C43: what does hold.  When the checker of times refuses time 0, or the library
    refuses to make a key from 32 zeros, no handshake that read an empty frame first
    succeeds: the client stops there, and the server sends at most M2 and reads no more. *)
Theorem C43_refusing_partial : forall L TK TC sig e tk,
  (exists x, tc_first TC 0 = Err x) \/ (exists x, l_beforenm L (repeat x00 32) (kp_sec e) = Err x) ->
  (forall buf w ms l r t o,
     exec (client_handshake L TK TC (cs_init sig (Some e) buf w tk)) (EWrite ms l r :: ERead (Ok []) :: t) o ->
     t = [] /\ forall s, o <> Some (s, Ok tt)) /\
  (forall buf a2 t o,
     exec (server_handshake L TK TC (ss_init sig (Some e) buf a2 tk)) (ERead (Ok []) :: t) o ->
     (t = [] \/ exists m2 r, t = [EWrite [m2] false r]) /\ forall s, o <> Some (s, Ok tt)).
Proof.
  intros L TK TC sig e tk HR.
  assert (HK : (exists x, tc_first TC 0 = Err x) \/ exists x, compute_shared_key L (kp_sec e) (repeat x00 32) = Err x).
  { destruct HR as [H|[x H]]; [left; exact H|right]. unfold compute_shared_key. rewrite H.
    repeat match goal with |- context [if ?b then _ else _] => destruct b end; eexists; reflexivity. }
  clear HR. split.
  - intros buf w ms l r t o H. apply io_eq_exec with (2 := client_eq L TK TC _) in H.
    unfold client_machine in H. cbn [cs_init cs_enc] in H. fold (cs_init sig (Some e) buf w tk) in H.
    destruct (client_start L TK (cs_init sig (Some e) buf w tk) e) as [s1 [m1|x]]; [|apply exec_ret_any in H; destruct H; discriminate].
    apply exec_write_inv in H. destruct H as [[? _]|(r' & t' & E & H)]; [discriminate|]. injection E as _ _ <- <-.
    destruct r as [[]|x]; [|apply exec_ret_any in H; destruct H; discriminate].
    apply exec_read_inv in H. destruct H as [[? _]|(r' & t' & E & H)]; [discriminate|]. injection E as <- <-.
    assert (X : exists s2 x, client_m2 L TC s1 e [] = (s2, Err x)).
    { unfold client_m2. change (m2_ctor []) with (@Ok bytes m2_new). cbv beta iota. change (m2_time m2_new) with 0.
      change (m2_no_such_server m2_new) with false. change (m2_server_enc_key m2_new) with (repeat x00 32).
      destruct HK as [[x ->]|[x ->]]; [do 2 eexists; reflexivity|]. destruct (tc_first TC 0); do 2 eexists; reflexivity. }
    destruct X as (s2 & x & X). rewrite X in H. apply exec_ret_any in H. destruct H as [-> H]. split; [reflexivity|].
    intros s E. destruct H as [-> | ->]; discriminate.
  - intros buf a2 t o H. apply io_eq_exec with (2 := server_eq L TK TC _) in H.
    unfold server_machine in H. cbn [ss_init ss_enc] in H. fold (ss_init sig (Some e) buf a2 tk) in H.
    apply exec_read_inv in H. destruct H as [[? _]|(r' & t' & E & H)]; [discriminate|]. injection E as <- <-.
    change (m1_ctor []) with (@Ok m1pkt m1_new) in H. cbv beta iota in H.
    assert (X : (exists s1 x, server_m1 L TK TC (ss_init sig (Some e) buf a2 tk) [] m1_new = (s1, Err x)) \/
                (exists s1, server_m1 L TK TC (ss_init sig (Some e) buf a2 tk) [] m1_new = (s1, Ok None)) /\
                exists x, compute_shared_key L (kp_sec e) (repeat x00 32) = Err x).
    { unfold server_m1. change (m1_time m1_new) with 0. destruct HK as [[x ->]|HK]; [left; do 2 eexists; reflexivity|].
      destruct (tc_first TC 0); [right; split; [eexists; reflexivity|exact HK]|left; do 2 eexists; reflexivity]. }
    destruct X as [(s1 & x & X)|((s1 & X) & x & K)]; rewrite X in H.
    { apply exec_ret_any in H. destruct H as [-> H]. split; [left; reflexivity|]. intros s E. destruct H as [-> | ->]; discriminate. }
    assert (R : forall s hold t o, exec (server_rest L TK TC s e m1_new hold) t o -> t = [] /\ forall s', o <> Some (s', Ok tt)).
    { intros s hold t' o' Q. unfold server_rest, server_m3 in Q. change (m1_client_enc_key m1_new) with (repeat x00 32) in Q.
      rewrite K in Q. apply exec_ret_any in Q. destruct Q as [-> Q]. split; [reflexivity|]. intros s' E. destruct Q as [-> | ->]; discriminate. }
    destruct (server_m2 TK s1 e) as [s2 [m2|y]].
    2:{ apply exec_ret_any in H. destruct H as [-> H]. split; [left; reflexivity|]. intros s E. destruct H as [-> | ->]; discriminate. }
    cbn [ss_init ss_buffer_m2] in H. destruct buf.
    + destruct (R _ _ _ _ H) as [-> N]. split; [left; reflexivity|exact N].
    + apply exec_write_inv in H. destruct H as [[-> ->]|(r & t' & -> & H)]; [split; [left; reflexivity|discriminate]|].
      destruct r as [[]|y].
      * destruct (R _ _ _ _ H) as [-> N]. split; [right; do 2 eexists; reflexivity|exact N].
      * apply exec_ret_any in H. destruct H as [-> H]. split; [right; do 2 eexists; reflexivity|]. intros s E. destruct H as [-> | ->]; discriminate.
Qed.
Print Assumptions C43_refusing_partial.

(** A library that makes no keys at all, and a server that still answers with M2. *)
Example C43_refusing_example :
  let L := Lib (l_sha512 toy_lib) (l_sign toy_lib) (l_sign_open toy_lib) (fun _ _ => Err ValueError)
             (l_afternm toy_lib) (l_open_afternm toy_lib) in
  exists s m2, exec (server_handshake L null_keeper null_checker (ss_init ex_ssig (Some ex_senc) false None 0))
    [ERead (Ok []); EWrite [m2] false (Ok tt)] (Some (s, Err ValueError)).
Proof.
  intro L. eexists _, _. eapply io_eq_exec; [|apply io_eq_sym; apply server_eq]. apply ex_read. apply ex_write. apply ex_ret.
Qed.
