(** The frames of sessions and of application writes fit the length prefix. *)
From Coq Require Import List ZArith Bool Strings.Byte Lia ZifyBool ZifyNat ZifyN.
From Verif Require Import PyBase PyBase_proofs IO IO_proofs Packets Packets_proofs Packets_proofs2 PacketOps PacketOps_proofs
  Crypto Crypto_proofs Time EncChannel EncUse EncChannel_proofs AppChannel AppUse AppChannel_proofs Session Session_proofs
  SessUse Session_steps Sched_proofs Channel Channel_proofs Stack Spec StackUse Stack_proofs.
Import ListNotations.
Open Scope Z_scope.
Ltac Zify.zify_post_hook ::= Z.div_mod_to_equations.

(** [writes_fit] with a property of the result *)
Inductive wfq {A} (Q : A -> Prop) : io A -> Prop :=
| wq_ret : forall a, Q a -> wfq Q (Ret a)
| wq_read : forall k, (forall r, (forall m, r = Ok m -> small m) -> wfq Q (k r)) -> wfq Q (Read k)
| wq_write : forall ms l k, Forall small ms -> (forall r, wfq Q (k r)) -> wfq Q (Write ms l k).

Lemma wfq_fit : forall A Q (p : io A), wfq Q p -> writes_fit p.
Proof. intros A Q p H. induction H; constructor; auto. Qed.
Lemma wfq_bind : forall A B (Q : A -> Prop) (R : B -> Prop) p f, wfq Q p -> (forall a, Q a -> wfq R (f a)) -> wfq R (iobind p f).
Proof. intros A B Q R p f H HF. induction H; cbn [iobind]; [apply HF; assumption|constructor; auto|constructor; auto]. Qed.
Lemma wfq_eq : forall A Q (p q : io A), io_eq p q -> wfq Q p -> wfq Q q.
Proof.
  intros A Q p q H. induction H; intro W; inversion W; subst; constructor; auto.
Qed.
Lemma wfq_weaken : forall A (Q R : A -> Prop) p, (forall a, Q a -> R a) -> wfq Q p -> wfq R p.
Proof. intros A Q R p HQ H. induction H; constructor; auto. Qed.

Definition ac_good (a : ac) : Prop :=
  length (ec_key (ac_enc a)) = 32%nat /\ length (ec_session_nonce (ac_enc a)) = 8%nat /\
  match ac_buffered_m4 a with Some d => length d = 102%nat | None => True end.

Lemma encrypt_len : forall L sp ep s m c, nacl_laws L sp ep -> length (ec_key s) = 32%nat ->
  length (ec_session_nonce s) = 8%nat -> ec_encrypt L s m = Ok c -> zlen c = 16 + zlen m.
Proof.
  intros L sp ep s m c HL Hk Hs H. unfold ec_encrypt in H.
  destruct (nonce_bytes (ec_write_nonce s) (ec_session_nonce s)) as [n|e] eqn:EN; [|discriminate].
  apply nonce_bytes_inv in EN. destruct EN as [_ ->].
  destruct (law_box _ _ _ HL m (nonce24 (ec_write_nonce s) (ec_session_nonce s)) (ec_key s)) as (c' & C1 & C2 & _); auto.
  { apply nonce24_length; auto. }
  rewrite H in C1. injection C1 as <-. unfold zlen. unfold bytes in *. rewrite C2. lia.
Qed.

Lemma wrap_len : forall c fl, zlen (ec_wrap c fl) = 2 + zlen c.
Proof. intros c fl. rewrite ec_wrap_enc. unfold Enc_wire, zlen. rewrite app_length. cbn [length]. lia. Qed.

Lemma wrap_all_small : forall L sp ep last, nacl_laws L sp ep -> forall msgs s s1 fs,
  length (ec_key s) = 32%nat -> length (ec_session_nonce s) = 8%nat ->
  Forall (fun m => zlen m + 18 < 2 ^ 31) msgs -> ec_wrap_all L s last msgs = (s1, Ok fs) -> Forall small fs.
Proof.
  intros L sp ep last HL. induction msgs as [|m r IH]; intros s s1 fs Hk Hs HF H; cbn [ec_wrap_all] in H.
  - injection H as _ <-. constructor.
  - destruct (ec_encrypt L s m) as [c|e] eqn:EE; [|discriminate].
    destruct (ec_wrap_all L (ec_advance_write s) last r) as [s' [fs'|e]] eqn:EW; [|discriminate]. injection H as <- <-.
    inversion HF; subst. constructor.
    + unfold small. rewrite wrap_len, (encrypt_len _ _ _ _ _ _ HL Hk Hs EE). lia.
    + eapply (IH (ec_advance_write s)); eauto.
Qed.

Lemma in_concat_len : forall (msgs : list bytes) m, In m msgs -> (length m <= length (concat msgs))%nat.
Proof.
  induction msgs as [|x msgs IH]; intros m H; [destruct H|]. cbn [concat]. rewrite app_length.
  destruct H as [->|H]; [lia|]. pose proof (IH m H). lia.
Qed.

Lemma multi_payload_len : forall msgs, length (Multi_payload msgs) = (length (concat msgs) + 2 * length msgs)%nat.
Proof.
  induction msgs as [|m msgs IH]; [reflexivity|]. unfold Multi_payload in *. cbn [map concat length]. rewrite !app_length, IH. rewrite u16le_length. lia.
Qed.

Lemma packets_small : forall t msgs, bulk msgs -> Forall (fun m => zlen m + 18 < 2 ^ 31) (packets t msgs).
Proof.
  intros t msgs HB. unfold packets. destruct msgs as [|m0 [|m1 msgs]]; [constructor| |].
  { cbn [bulk] in HB. cbn [length andb Z.of_nat map Z.ltb]. constructor; [|constructor].
    unfold zlen, App_wire. unfold bytes in *. rewrite !app_length, u32le_length. cbn [length]. lia. }
  unfold bulk in HB. remember (m0 :: m1 :: msgs) as all eqn:Eall. clear Eall m0 m1 msgs. rename all into msgs.
  destruct ((1 <? Z.of_nat (length msgs)) && forallb short msgs).
  - constructor; [|constructor]. unfold zlen, Multi_wire. unfold bytes in *. rewrite !app_length, u32le_length, u16le_length, multi_payload_len. cbn [length]. lia.
  - apply Forall_forall. intros x Hx. apply in_map_iff in Hx. destruct Hx as (m & <- & Hm).
    assert (H1 : Z.of_nat (length msgs) >= 1) by (destruct msgs; [destruct Hm|cbn [length]; lia]). apply in_concat_len in Hm.
    unfold zlen, App_wire. unfold bytes in *. rewrite !app_length, u32le_length. cbn [length]. lia.
Qed.

Lemma ac_write_fit : forall L sp ep TK m args last a, nacl_laws L sp ep -> ac_good a -> bulk (m :: args) ->
  wfq (fun _ => True) (ac_write L TK m args last a).
Proof.
  intros L sp ep TK m args last a HL (G1 & G2 & G3) HB. unfold ac_write.
  destruct (tk_get TK (ac_tk a)) as [t tk']. rewrite ac_packets_spec.
  set (m4 := match ac_buffered_m4 a with Some d => _ | None => [] end).
  assert (H4 : Forall (fun m => zlen m + 18 < 2 ^ 31) m4).
  { unfold m4. destruct (ac_buffered_m4 a) as [d|]; [|constructor]. constructor; [|constructor].
    rewrite pkt_bytes_none. unfold zlen. unfold m34_set_time. rewrite fput_int_len by lia. unfold bytes in *. rewrite G3. lia. }
  pose proof (packets_small t (m :: args) HB) as HP.
  assert (HA : Forall (fun m => zlen m + 18 < 2 ^ 31) (m4 ++ packets t (m :: args))) by (apply Forall_app; auto).
  destruct (m4 ++ packets t (m :: args)) as [|x xs]; [constructor; exact I|].
  unfold mzoom. cbn [ac_enc]. unfold ec_write. destruct (ec_wrap_all L (ac_enc a) last (x :: xs)) as [s' [fs|e]] eqn:EW.
  - unfold mwrite. cbn [iobind]. constructor; [eapply wrap_all_small; eauto|]. intro r. constructor. exact I.
  - cbn [iobind]. constructor. exact I.
Qed.

Lemma ec_process_keys : forall L s f, ec_key (fst (ec_process L s f)) = ec_key s /\
  ec_session_nonce (fst (ec_process L s f)) = ec_session_nonce s.
Proof.
  intros L s f. destruct (ec_process L s f) as [s1 [m|e]] eqn:E; cbn [fst].
  - apply ec_process_inv in E. destruct E as (t & fl & body & _ & _ & _ & _ & _ & ->). split; reflexivity.
  - apply ec_process_err in E. destruct E as (E1 & _ & _ & _ & E2). split; assumption.
Qed.

Lemma ac_read_fit : forall L TC a, ac_good a -> wfq (fun x => ac_good (fst x)) (ac_read L TC a).
Proof.
  intros L TC a (G1 & G2 & G3). unfold ac_read, mbind, mget, mput, mret, mlift, mmod, mzoom. cbn [iobind fst snd].
  destruct (ac_readq a) as [|m q] eqn:EQ; cbn [iobind fst snd].
  - assert (K : forall e f, ec_key e = ec_key (ac_enc a) -> ec_session_nonce e = ec_session_nonce (ac_enc a) ->
      wfq (fun x : ac * res bytes => ac_good (fst x))
        (iobind (iobind (Ret (ec_process L e f)) (fun x : ec * res bytes => Ret (ac_set_enc (fst x) a, snd x)))
         (fun x : ac * res bytes => match snd x with
            | Ok a0 => iobind (Ret (fst x, ac_interpret TC a0)) (fun x0 : ac * res (bytes * list bytes) =>
                 match snd x0 with
                 | Ok a1 => iobind (Ret (ac_set_readq (snd a1) (fst x0), Ok tt)) (fun x1 : ac * res unit =>
                      match snd x1 with Ok _ => Ret (fst x1, Ok (fst a1)) | Err e0 => Ret (fst x1, Err e0) end)
                 | Err e0 => Ret (fst x0, Err e0) end)
            | Err e0 => Ret (fst x, Err e0) end))).
    { intros e f E1 E2. cbn [iobind fst snd]. destruct (ec_process_keys L e f) as [P1 P2].
      destruct (ec_process L e f) as [e1 [raw|x]]; cbn [iobind fst snd] in *.
      - destruct (ac_interpret TC raw) as [[d q]|x]; cbn [iobind fst snd]; constructor; unfold ac_good; cbn; rewrite P1, P2, E1, E2; auto.
      - constructor. unfold ac_good; cbn; rewrite P1, P2, E1, E2; auto. }
    unfold ec_read. destruct (is_empty (ec_pushback (ac_enc a))).
    + cbn [iobind]. constructor. intros [raw|e] _; [apply K; reflexivity|].
      cbn [iobind fst snd]. constructor. unfold ac_good; cbn; auto.
    + apply K; reflexivity.
  - constructor. unfold ac_good. cbn. auto.
Qed.

Lemma read_n_fit : forall L TC n a, ac_good a -> wfq (fun x => ac_good (fst x)) (read_n L TC n a).
Proof.
  induction n as [|n IH]; intros a G; cbn [read_n]; [constructor; exact G|].
  eapply wfq_bind; [apply ac_read_fit; exact G|]. intros [a1 [m|e]] G1; cbn [fst snd] in *; [|constructor; exact G1].
  eapply wfq_bind; [apply IH; exact G1|]. intros [a2 x] G2; cbn [fst snd] in *. constructor. exact G2.
Qed.

Lemma m34_seal_small : forall L sp ep key pb fl rd wr m c, nacl_laws L sp ep -> length key = 32%nat ->
  length m = 102%nat -> ec_encrypt L (EC key pb fl rd wr SESSION_NONCE) m = Ok c -> small (ec_wrap c false).
Proof.
  intros L sp ep key pb fl rd wr m c HL Hk Hm H. unfold small. rewrite wrap_len.
  pose proof (encrypt_len L sp ep (EC key pb fl rd wr SESSION_NONCE) m c HL Hk eq_refl H) as E. rewrite E.
  unfold zlen. unfold bytes in *. rewrite Hm. lia.
Qed.

Lemma seals_small : forall L sp ep key n m f, nacl_laws L sp ep -> length key = 32%nat ->
  length m = 102%nat -> seals L key n m f -> small f.
Proof.
  intros L sp ep key n m f HL Hk Hm (c & Hc & ->).
  destruct (law_box _ _ _ HL m (nonce24 n (repeat x00 8)) key) as (c' & C1 & C2 & _); [reflexivity|exact Hk|].
  rewrite Hc in C1. injection C1 as <-. unfold small, zlen, Enc_wire. unfold bytes in *. rewrite app_length, C2, Hm. cbn [length]. lia.
Qed.

Lemma m4_wire_len : forall t (k s : bytes), length k = 32%nat -> length s = 64%nat -> length (M4_wire t k s) = 102%nat.
Proof. intros t k s H1 H2. unfold M4_wire. unfold bytes in *. rewrite !app_length, u32le_length, H1, H2. reflexivity. Qed.
Lemma m3_wire_len : forall t (k s : bytes), length k = 32%nat -> length s = 64%nat -> length (M3_wire t k s) = 102%nat.
Proof. intros t k s H1 H2. unfold M3_wire. unfold bytes in *. rewrite !app_length, u32le_length, H1, H2. reflexivity. Qed.
Lemma m1_none_small : forall t (k : bytes), length k = 32%nat -> small (M1_wire t k None).
Proof. intros t k H. unfold small, zlen, M1_wire. unfold bytes in *. rewrite !app_length, u32le_length, H. reflexivity. Qed.
Lemma m2_small : forall a b t k, length k = 32%nat -> small (M2_wire a b t k).
Proof. intros a b t k H. unfold small, zlen. unfold bytes in *. rewrite (m2_wire_length a b t k H). lia. Qed.

Definition client_post (x : cs * res unit) : Prop := snd x = Ok tt -> forall a, cs_app (fst x) = Some a -> ac_good a /\ ac_readq a = [] /\ ec_pushback (ac_enc a) = [].
Definition server_post (x : ss * res unit) : Prop :=
  snd x = Ok tt -> forall a, ss_app (fst x) = Some a -> ac_good a /\ ac_readq a = [] /\ ec_pushback (ac_enc a) = [].

Lemma client_fit : forall L sp ep TK TC sig e buf w tk, nacl_laws L sp ep ->
  wfq client_post (client_handshake L TK TC (cs_init sig (Some e) buf w tk)).
Proof.
  intros L sp ep TK TC sig e buf w tk HL. eapply wfq_eq; [apply io_eq_sym; apply client_eq|].
  unfold client_machine. cbn [cs_enc cs_init].
  assert (PE : forall s x, client_post (s, Err x)) by (intros s x H; discriminate H).
  destruct (client_start L TK _ e) as [s1 [m1|x]] eqn:E1; [|constructor; apply PE].
  apply client_start_inv in E1. destruct E1 as (K1 & -> & p & E1).
  constructor; [constructor; [apply m1_none_small; exact K1|constructor]|]. intros [[]|x]; [|constructor; apply PE].
  constructor. intros [chunk|x] _; [|constructor; apply PE].
  destruct (client_m2 L TC s1 e chunk) as [s2 [ch|x]] eqn:E2; [|constructor; apply PE].
  apply client_m2_inv in E2. destruct E2 as (m2 & key & _ & _ & _ & _ & K2 & -> & E2).
  constructor. intros [f|x] _; [|constructor; apply PE].
  destruct (client_m3 L TK TC s2 _ f) as [s3 [m4|x]] eqn:E3; [|constructor; apply PE].
  apply client_m3_inv in E3. destruct E3 as (c3 & fl & sg & _ & _ & _ & _ & _ & _ & K3 & K4 & -> & E3).
  assert (EA : cs_app s3 = Some (AC (EC key [] fl 4 1 SESSION_NONCE) (snd (tk_get TK (cs_tk s2))) None [])) by (rewrite E3; reflexivity).
  pose proof (m4_wire_len (fst (tk_get TK (cs_tk s2))) _ _ K3 K4) as L4.
  cbn [cs_buffer_M4]. destruct buf.
  - constructor. intros _ a. unfold client_buffer. rewrite EA. cbn [fst cs_set_app cs_app]. intro H. injection H as <-.
    unfold ac_good. cbn [ac_enc ec_key ec_session_nonce ac_buffered_m4]. auto.
  - rewrite EA. destruct (ec_encrypt L _ _) as [c|x] eqn:EC4; [|constructor; apply PE].
    cbn [ac_enc] in EC4. constructor; [constructor; [|constructor]|].
    + eapply (m34_seal_small L sp ep); [exact HL|exact K2|exact L4|exact EC4].
    + intro r. constructor. intros _ a. cbn [fst cs_set_app cs_app app_enc_put]. intro H. injection H as <-.
      unfold ac_good. cbn. auto.
Qed.

Lemma server_fit : forall L sp ep TK TC sig e buf a2 tk, nacl_laws L sp ep -> a2_fits a2 ->
  wfq server_post (server_handshake L TK TC (ss_init sig (Some e) buf a2 tk)).
Proof.
  intros L sp ep TK TC sig e buf a2 tk HL HA. eapply wfq_eq; [apply io_eq_sym; apply server_eq|].
  assert (PE : forall s x, server_post (s, Err x)) by (intros s x H; discriminate H).
  assert (HR : forall s2 p m1 hold t0, m1_ctor m1 = Ok p -> length (kp_pub e) = 32%nat ->
    (hold = None \/ hold = Some (M2_wire false false t0 (kp_pub e))) ->
    wfq server_post (server_rest L TK TC s2 e p hold)).
  { intros s2 p m1 hold t0 H1 H2 H3. unfold server_rest. destruct (server_m3 L TK s2 e p hold) as [s3 [fs|x]] eqn:E3; [|constructor; apply PE].
    destruct (server_m3_inv _ _ _ _ _ _ _ _ _ t0 E3 H1 H2 H3) as (key & sg & f3 & h2 & t3 & tk3 & _ & K1 & K2 & K3 & _ & KS & _ & _ & _ & _ & _ & KA & KH).
    pose proof (seals_small _ _ _ _ _ _ _ HL K1 (m3_wire_len t3 _ _ K2 K3) KS) as S3.
    constructor.
    - destruct hold.
      + destruct KH as [-> _]. repeat constructor; [|exact S3]. apply m2_small; exact H2.
      + destruct KH as [-> _]. repeat constructor. exact S3.
    - intros [[]|x]; [|constructor; apply PE]. constructor. intros [f|x] _; [|constructor; apply PE].
      constructor. destruct (server_m4 L TC s3 f) as [s4 x] eqn:E4. intros Hx a Ha. cbn [fst snd] in *. subst x.
      destruct (server_m4_inv _ _ _ _ _ _ _ _ KA E4) as (_ & _ & Q). destruct (Q eq_refl) as (c4 & fl & _ & _ & _ & _ & QA).
      rewrite QA in Ha. injection Ha as <-. unfold ac_good. cbn. auto. }
  unfold server_machine. cbn [ss_enc ss_init ss_a2 ss_buffer_m2]. constructor. intros [chunk|x] _; [|constructor; apply PE].
  destruct (m1_ctor chunk) as [m1|x] eqn:EM.
  - destruct (server_m1 L TK TC _ chunk m1) as [s1 [[m2|]|x]] eqn:E1.
    + apply server_m1_inv in E1; [|exact EM]. destruct E1 as (_ & -> & _).
      constructor; [constructor; [apply m2_small; reflexivity|constructor]|]. intros [[]|x]; constructor; apply PE.
    + destruct (server_m2 TK s1 e) as [s2 [m2|x]] eqn:E2; [|constructor; apply PE].
      apply server_m2_inv in E2. destruct E2 as (K1 & -> & E2). destruct buf.
      * eapply HR; [exact EM|exact K1|]. right. reflexivity.
      * constructor.
        -- constructor; [|constructor]. pose proof (m2_bytes_wire false false (fst (tk_first TK (ss_tk s1))) (kp_pub e) K1) as B.
           rewrite B. apply m2_small. exact K1.
        -- intros [[]|x]; [|constructor; apply PE]. eapply (HR _ _ _ _ 0); [exact EM|exact K1|]. left. reflexivity.
    + constructor; apply PE.
  - destruct (a1_ctor chunk); [|constructor; apply PE]. constructor.
    + constructor; [|constructor]. destruct a2 as [p|]; [exact HA|]. vm_compute. reflexivity.
    + intros [[]|y]; constructor; [|apply PE]. intros _ b H. discriminate H.
Qed.

Lemma client_asks_fit : forall L sp ep TK TC sig e buf w tk m args last n, nacl_laws L sp ep -> bulk (m :: args) ->
  writes_fit (client_asks L TK TC (cs_init sig (Some e) buf w tk) m args last n).
Proof.
  intros L sp ep TK TC sig e buf w tk m args last n HL HB. eapply wfq_fit with (Q := fun _ => True).
  unfold client_asks. eapply wfq_bind; [eapply client_fit; exact HL|]. intros [s [[]|x]] HP; cbn [fst snd].
  - destruct (cs_app s) as [a|] eqn:EA; [|constructor; exact I]. destruct (HP eq_refl a EA) as [G _].
    assert (HX : wfq (fun x => snd x = Ok tt -> ac_good (fst x)) (ac_write L TK m args last a)).
    { pose proof (ac_write_fit L sp ep TK m args last a HL G HB) as W. unfold ac_write in *.
      destruct (tk_get TK (ac_tk a)) as [t tk']. destruct (_ ++ _) as [|x xs]; [constructor; intro H; discriminate H|].
      unfold mzoom in *. cbn [ac_enc] in *. unfold ec_write in *. destruct (ec_wrap_all L (ac_enc a) last (x :: xs)) as [s' [fs|e0]] eqn:EW.
      - unfold mwrite in *. cbn [iobind] in *. inversion W; subst. constructor; [assumption|]. intro r. constructor. intros _.
        apply wrap_all_ok in EW. destruct EW as [_ ->]. destruct G as (G1 & G2 & _). unfold ac_good. cbn. auto.
      - cbn [iobind]. constructor. intro H. discriminate H. }
    eapply wfq_bind; [exact HX|]. intros [a1 [[]|x]] G1; cbn [fst snd] in *; [|constructor; exact I].
    eapply wfq_bind; [apply read_n_fit; apply G1; reflexivity|]. intros; constructor; exact I.
  - constructor. exact I.
Qed.

Lemma server_answers_fit : forall L sp ep TK TC sig e buf a2 tk n m args last, nacl_laws L sp ep -> a2_fits a2 -> bulk (m :: args) ->
  writes_fit (server_answers L TK TC (ss_init sig (Some e) buf a2 tk) n m args last).
Proof.
  intros L sp ep TK TC sig e buf a2 tk n m args last HL HA HB. eapply wfq_fit with (Q := fun _ => True).
  unfold server_answers. eapply wfq_bind; [eapply server_fit; [exact HL|exact HA]|]. intros [s [[]|x]] HP; cbn [fst snd].
  - destruct (ss_app s) as [a|] eqn:EA; [|constructor; exact I].
    assert (G : ac_good a) by (apply HP; [reflexivity|exact EA]).
    eapply wfq_bind; [apply read_n_fit; exact G|]. intros [a1 [l|x]] G1; cbn [fst snd] in *; [|constructor; exact I].
    eapply wfq_bind; [eapply ac_write_fit; eauto|]. intros; constructor; exact I.
  - constructor. exact I.
Qed.
