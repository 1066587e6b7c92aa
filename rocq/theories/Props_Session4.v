(** Sessions over MitmChannels: C58 (v2/salt_client_session.py,
    v2/salt_server_session.py over dev/mitm_channel.py). *)
From Coq Require Import List ZArith Bool Strings.Byte Lia ZifyBool ZifyNat ZifyN.
From Verif Require Import PyBase PyBase_proofs IO IO_proofs Packets Packets_proofs Packets_proofs2 A1A2_proofs
  Crypto Crypto_proofs Time EncChannel EncUse EncChannel_proofs AppChannel AppUse AppChannel_proofs Session Session_proofs
  SessUse Session_steps Sched_proofs Session_fwd Session_sched Spec Props_App Props_Session Props_Session2 SaltLib Dev Props_Misc.
Import ListNotations.
Open Scope Z_scope.
Ltac Zify.zify_post_hook ::= Z.div_mod_to_equations.

(** The handshakes never call write without a message. *)
Lemma calls_ok_eq : forall A (p q : io A), io_eq p q -> calls_ok p -> calls_ok q.
Proof.
  intros A p q H. induction H as [a|k k' H IH|ms l k k' H IH]; intro C; [constructor|..].
  - constructor. intro r. apply IH. inversion C; subst; auto.
  - inversion C; subst. constructor; auto.
Qed.

Lemma client_calls_ok : forall L TK TC s, calls_ok (client_handshake L TK TC s).
Proof.
  intros L TK TC s. eapply calls_ok_eq; [apply io_eq_sym; apply client_eq|]. unfold client_machine.
  destruct (cs_enc s) as [e|]; [|constructor]. destruct (client_start L TK s e) as [s1 [m1|x]]; [|constructor].
  constructor; [discriminate|]. intros [[]|x]; [|constructor]. constructor. intros [chunk|x]; [|constructor].
  destruct (client_m2 L TC s1 e chunk) as [s2 [ch|x]]; [|constructor]. constructor. intros [f|x]; [|constructor].
  destruct (client_m3 L TK TC s2 ch f) as [s3 [m4|x]]; [|constructor]. destruct (cs_buffer_M4 s); [constructor|].
  destruct (cs_app s3) as [a|]; [|constructor]. destruct (ec_encrypt L (ac_enc a) m4) as [c|x]; [|constructor].
  constructor; [discriminate|]. intro r. constructor.
Qed.

Lemma server_m3_some : forall L TK s e m1 hold s3 fs, server_m3 L TK s e m1 hold = (s3, Ok fs) -> fs <> [].
Proof.
  intros L TK s e m1 hold s3 fs H. unfold server_m3 in H.
  destruct (compute_shared_key L _ _); [|discriminate]. destruct (ec_init _ _ _); [|discriminate].
  destruct (match hold with Some _ => _ | None => _ end) as [[[t tk'] pre] s2].
  destruct (m34_set_sig_key _ _); [|discriminate]. destruct (l_sign _ _ _); [|discriminate].
  destruct (m34_set_signature _ _); [|discriminate]. destruct (ec_encrypt _ _ _); [|discriminate].
  injection H as _ <-. destruct pre; discriminate.
Qed.

Lemma server_calls_ok : forall L TK TC s, calls_ok (server_handshake L TK TC s).
Proof.
  intros L TK TC s. eapply calls_ok_eq; [apply io_eq_sym; apply server_eq|]. unfold server_machine.
  assert (HR : forall s2 e m1 hold, calls_ok (server_rest L TK TC s2 e m1 hold)).
  { intros s2 e m1 hold. unfold server_rest. destruct (server_m3 L TK s2 e m1 hold) as [s3 [fs|x]] eqn:E; [|constructor].
    constructor; [eapply server_m3_some; eauto|]. intros [[]|x]; [|constructor]. constructor. intros [f|x]; constructor. }
  destruct (ss_enc s) as [e|]; [|constructor]. constructor. intros [chunk|x]; [|constructor].
  destruct (m1_ctor chunk) as [m1|x].
  - destruct (server_m1 L TK TC s chunk m1) as [s1 [[m2|]|x]]; [constructor; [discriminate|]; intro r; constructor| |constructor].
    destruct (server_m2 TK s1 e) as [s2 [m2|x]]; [|constructor]. destruct (ss_buffer_m2 s); [apply HR|].
    constructor; [discriminate|]. intros [[]|x]; [apply HR|constructor].
  - destruct (a1_ctor chunk); [|constructor]. constructor; [discriminate|]. intros [[]|y]; constructor.
Qed.

(** What each peer did in a run of the two to the end: an execution of its program,
    with what was read being what the other wrote, in order. *)
Definition outs (t : list ev) : list bytes := concat (map ev_out t).
Definition ins (t : list ev) : list bytes := concat (map ev_in t).
Definition all_ok (t : list ev) : Prop :=
  Forall (fun e => match e with EWrite _ _ r => r = Ok tt | ERead r => exists d, r = Ok d end) t.

Lemma steps_via : forall A B n (p : io A) (q : io B) a b x y a' b' s s',
  calls_ok p -> calls_ok q -> steps n (Sys p q a b) (Sys (Ret x) (Ret y) a' b') ->
  exists tl tr, exec p tl (Some x) /\ exec q tr (Some y) /\ all_ok tl /\ all_ok tr /\
    a ++ outs tl = ins tr ++ a' /\ b ++ outs tr = ins tl ++ b' /\
    steps n (Sys (via_mitm p s) (via_mitm q s') a b) (Sys (Ret (x, mitm_after s tl)) (Ret (y, mitm_after s' tr)) a' b').
Proof.
  induction n as [|n IH]; intros p q a b x y a' b' s s' HP HQ H.
  - inversion H; subst. exists [], []. rewrite !mitm_after_nil. unfold all_ok, outs, ins. cbn. rewrite !app_nil_r.
    repeat (split; [constructor|]). repeat (split; [reflexivity|]). constructor.
  - inversion H as [|n0 s0 t u H1 H2]; subst. inversion H1; subst.
    + inversion HP as [| |? ? ? HN HK]; subst.
      destruct (IH _ _ _ _ _ _ _ _ (mitm_after s [EWrite ms l (Ok tt)]) s' (HK (Ok tt)) HQ H2) as (tl & tr & X1 & X2 & X3 & X4 & X5 & X6 & X7).
      exists (EWrite ms l (Ok tt) :: tl), tr. split; [constructor; exact X1|]. split; [exact X2|].
      split; [constructor; auto|]. split; [exact X4|]. split; [unfold outs in *; cbn [map ev_out concat]; rewrite app_assoc; exact X5|].
      split; [exact X6|]. destruct (via_write _ ms l k s HN) as (k' & -> & HV). rewrite mitm_after_cons.
      econstructor; [constructor|]. rewrite HV. exact X7.
    + inversion HP as [|? HK|]; subst.
      destruct (IH _ _ _ _ _ _ _ _ (mitm_after s [ERead (Ok m)]) s' (HK (Ok m)) HQ H2) as (tl & tr & X1 & X2 & X3 & X4 & X5 & X6 & X7).
      exists (ERead (Ok m) :: tl), tr. split; [constructor; exact X1|]. split; [exact X2|].
      split; [constructor; eauto|]. split; [exact X4|]. split; [exact X5|].
      split; [unfold ins in *; cbn; f_equal; exact X6|]. destruct (via_read _ k s) as (k' & -> & HV). rewrite (mitm_after_cons s).
      econstructor; [constructor|]. rewrite HV. exact X7.
    + inversion HQ as [| |? ? ? HN HK]; subst.
      destruct (IH _ _ _ _ _ _ _ _ s (mitm_after s' [EWrite ms l (Ok tt)]) HP (HK (Ok tt)) H2) as (tl & tr & X1 & X2 & X3 & X4 & X5 & X6 & X7).
      exists tl, (EWrite ms l (Ok tt) :: tr). split; [exact X1|]. split; [constructor; exact X2|].
      split; [exact X3|]. split; [constructor; auto|]. split; [exact X5|].
      split; [unfold outs in *; cbn [map ev_out concat]; rewrite app_assoc; exact X6|].
      destruct (via_write _ ms l k s' HN) as (k' & -> & HV). rewrite (mitm_after_cons s').
      econstructor; [constructor|]. rewrite HV. exact X7.
    + inversion HQ as [|? HK|]; subst.
      destruct (IH _ _ _ _ _ _ _ _ s (mitm_after s' [ERead (Ok m)]) HP (HK (Ok m)) H2) as (tl & tr & X1 & X2 & X3 & X4 & X5 & X6 & X7).
      exists tl, (ERead (Ok m) :: tr). split; [exact X1|]. split; [constructor; exact X2|].
      split; [exact X3|]. split; [constructor; eauto|]. split; [unfold ins in *; cbn; f_equal; exact X5|].
      split; [exact X6|]. destruct (via_read _ k s') as (k' & -> & HV). rewrite (mitm_after_cons s').
      econstructor; [constructor|]. rewrite HV. exact X7.
Qed.

Lemma m1_wire_len : forall t k, length k = 32%nat -> length (M1_wire t k None) = 42%nat.
Proof. intros t k H. unfold M1_wire. rewrite !app_length, u32le_length, H. reflexivity. Qed.

(** ** C58: an honest handshake over MitmChannels.  Under every schedule both sides
    complete, and the counters show 42 + 120 bytes from client to server and 38 + 120
    from server to client, whether or not M2 is buffered. *)
Theorem C58_handshake_bytes : forall L sp ep TKc TKs TCc TCs csig ssig ce se sbuf w a2 tkc tks logc logs,
  peers_ok L sp ep TKc TKs TCc TCs csig ssig ce se sbuf tkc tks ->
  exists sC sS mC mS,
    always_ends
      (Sys (via_mitm (client_handshake L TKc TCc (cs_init csig (Some ce) false w tkc)) (mitm_init logc))
           (via_mitm (server_handshake L TKs TCs (ss_init ssig (Some se) sbuf a2 tks)) (mitm_init logs)) [] [])
      (Sys (Ret ((sC, Ok tt), mC)) (Ret ((sS, Ok tt), mS)) [] []) /\
    cs_session_key sC = ss_session_key sS /\
    mm_counter_write mC = 42 + 120 /\ mm_counter_read mC = 38 + 120 /\
    mm_counter_write mS = 38 + 120 /\ mm_counter_read mS = 42 + 120.
Proof.
  intros L sp ep TKc TKs TCc TCs csig ssig ce se sbuf w a2 tkc tks logc logs HP.
  destruct (C32_handshakes_complete L sp ep TKc TKs TCc TCs csig ssig ce se sbuf w a2 tkc tks HP)
    as (sC & sS & aC & aS & [n HE] & HK & _ & _ & _ & HD & _).
  destruct (HE 0%nat _ (steps_O _)) as [_ HS]. rewrite Nat.sub_0_r in HS.
  destruct (steps_via _ _ _ _ _ _ _ _ _ _ _ (mitm_init logc) (mitm_init logs)
     (client_calls_ok _ _ _ _) (server_calls_ok _ _ _ _) HS) as (tl & tr & X1 & X2 & X3 & X4 & X5 & X6 & X7).
  exists sC, sS, (mitm_after (mitm_init logc) tl), (mitm_after (mitm_init logs) tr).
  split; [eapply always_ends_intro; exact X7|]. split; [exact HK|].
  cbn [app] in X5, X6. rewrite app_nil_r in X5, X6.
  assert (LEN : forall k n m f, length k = 32%nat -> length m = 102%nat -> seals L k n m f -> length f = 120%nat).
  { intros k i m f Lk Lm (c & Hc & ->). 
    destruct (law_box _ _ _ (po_laws _ _ _ _ _ _ _ _ _ _ _ _ _ _ HP) m (nonce24 i (repeat x00 8)) k) as (c' & C1 & C2 & _);
      [reflexivity|exact Lk|]. assert (c' = c) by congruence. subst c'. unfold Enc_wire. cbn [app length].
    unfold bytes in *. rewrite C2, Lm. reflexivity. }
  destruct (client_exec _ _ _ _ _ _ _ _ _ _ X1) as [[_ H0]|(r & t' & -> & [[_ H0]|(m2 & f3 & rest & key & c3 & sg & -> & -> & HF & HB)])];
    [exfalso; eapply H0; reflexivity|exfalso; eapply H0; reflexivity|].
  destruct HB as [[_ HB]|(f4 & r2 & HS4 & -> & HB)]; [exfalso; eapply HB; reflexivity|].
  destruct HF as (F1 & F2 & _ & _ & _ & _ & _ & _ & F9 & F10).
  destruct HB as [HB|(sx & HB & _)]; [discriminate|]. injection HB as _ <-.
  assert (L4 : length f4 = 120%nat).
  { eapply LEN; [| |exact HS4]; [exact F2|]. unfold M4_wire. unfold bytes in *. rewrite !app_length, u32le_length, F9, F10. reflexivity. }
  pose proof (m1_wire_len (fst (tk_first TKc tkc)) (kp_pub ce) F1) as L1.
  destruct (server_exec _ _ _ _ _ _ _ _ _ _ X2) as
    [[_ H0]|[(x & _ & H0)|(m1 & t' & -> & [[_ H0]|[(a & r2 & _ & _ & -> & H0)|[(p & k & r2 & _ & _ & _ & _ & _ & H0)|(p & _ & _ & _ & H0)]]])]];
    try (exfalso; eapply H0; reflexivity).
  { destruct H0 as [H0|(s' & H0 & _ & _ & H3)]; [discriminate|]. injection H0 as <- <-. destruct H3 as [_ H3]. specialize (H3 eq_refl). congruence. }
  destruct (server_times TKs sbuf tks) as [[t2 t3] tk3].
  destruct H0 as [(_ & _ & H0)|(f3' & key' & sg' & r3 & t'' & HF' & -> & [[_ H0]|(f4' & -> & -> & s' & H0 & _)])];
    try (exfalso; eapply H0; reflexivity).
  destruct HF' as (G1 & G2 & _ & _ & G5 & G6 & _ & G8).
  assert (L3 : length f3' = 120%nat).
  { eapply LEN; [| |exact G8]; [exact G2|]. unfold M3_wire. unfold bytes in *. rewrite !app_length, u32le_length, G5, G6. reflexivity. }
  pose proof (m2_wire_length false false t2 (kp_pub se) G1) as L2.
  remember (M1_wire (fst (tk_first TKc tkc)) (kp_pub ce) None) as w1 eqn:E1.
  remember (M2_wire false false t2 (kp_pub se)) as w2 eqn:E2.
  assert (Q : w1 = m1 /\ f4 = f4' /\ w2 = m2 /\ f3' = f3).
  { unfold outs, ins in X5, X6. destruct sbuf; cbn in X5, X6; injection X5 as ? ?; injection X6 as ? ?; auto. }
  destruct Q as (<- & <- & <- & <-). clear - L1 L2 L3 L4. unfold mitm_after, total.
  cbn [mm_counter_write mm_counter_read mitm_init].
  assert (Z1 : zlen w1 = 42) by (unfold zlen, bytes in *; rewrite L1; reflexivity).
  assert (Z2 : zlen w2 = 38) by (unfold zlen, bytes in *; rewrite L2; reflexivity).
  assert (Z3 : zlen f3' = 120) by (unfold zlen, bytes in *; rewrite L3; reflexivity).
  assert (Z4 : zlen f4 = 120) by (unfold zlen, bytes in *; rewrite L4; reflexivity).
  assert (S1 : forall f, sum_len [f] = zlen f) by (intro f; unfold sum_len; cbn [concat]; rewrite app_nil_r; reflexivity).
  assert (S2 : forall f g, sum_len [f; g] = zlen f + zlen g).
  { intros f g. unfold sum_len, zlen. cbn [concat]. rewrite app_nil_r, app_length. lia. }
  clear L1 L2 L3 L4. destruct sbuf; cbn [fold_right app ev_read_len ev_write_len]; rewrite ?S1, ?S2, Z1, Z2, Z3, Z4; auto.
Qed.
Print Assumptions C58_handshake_bytes.

Example C58_example : forall sb,
  peers_ok toy_lib toy_pair toy_pair one_two_three null_keeper null_checker null_checker
    ex_csig ex_ssig ex_cenc ex_senc sb 0 0 /\
  let '((t, o), (u, q)) := run2 40 (via_mitm (ex_client false []) (mitm_init true)) (via_mitm (ex_server sb) (mitm_init false)) [] [] in
  option_map (fun x => (mm_counter_write (snd x), mm_counter_read (snd x), length (mm_logged (snd x)))) o = Some (162, 158, 4%nat) /\
  option_map (fun x => (mm_counter_write (snd x), mm_counter_read (snd x), length (mm_logged (snd x)))) q = Some (158, 162, 0%nat).
Proof.
  intro sb. split.
  - destruct (C32_example false sb) as [H _]. exact H.
  - destruct sb; vm_compute; auto.
Qed.
