(** C109, C110: what a time checker with a state is asked, and what its verdicts do
    (util/time.py:18-27, v2/salt_client_session.py, v2/salt_server_session.py,
    v2/app_channel_v2.py). *)
From Coq Require Import List ZArith Bool Strings.Byte Lia ZifyBool ZifyNat ZifyN.
From Verif Require Import PyBase PyBase_proofs IO IO_proofs Packets Packets_proofs Packets_proofs2 A1A2_proofs
  Crypto Crypto_proofs Time EncChannel EncUse EncChannel_proofs AppChannel AppUse AppChannel_proofs Session Session_proofs
  SessUse Session_steps Spec Props_Enc Props_App Props_Session3 Checked Checked_proofs.
Import ListNotations.
Open Scope Z_scope.
Ltac Zify.zify_post_hook ::= Z.div_mod_to_equations.

(** ** Specification *)

(** A question put to the checker. *)
Inductive question : Type := First (t : Z) | Check (t : Z).
Definition ask {X} (C : checker X) (q : question) (x : X) : X * res unit :=
  match q with First t => ck_first C t x | Check t => ck_check C t x end.

(** The checker in state [x] was asked the questions [qs], in this order and no
    others, and is in state [x'] now.  All answers but the final one were positive;
    [v] is the exception of the final one, if it was not. *)
Inductive asked {X} (C : checker X) : X -> list question -> X -> option exn -> Prop :=
| as_nil : forall x, asked C x [] x None
| as_ok : forall x q x1 qs x' v, ask C q x = (x1, Ok tt) -> asked C x1 qs x' v -> asked C x (q :: qs) x' v
| as_err : forall x q x1 y, ask C q x = (x1, Err y) -> asked C x [q] x1 (Some y).

(** The time field of an M1, and of every other packet. *)
Definition time_m1 (f : bytes) : Z := le_val (field 6 4 f).
Definition time_of (f : bytes) : Z := le_val (field 2 4 f).

(** The questions of a client with channel events [t] and result [r]: none before a
    frame was taken for M2; then the time of M2; then the time of M3, once the second
    frame has been opened under the session's key.  A handshake that succeeds has
    asked both; after a question of M2 only, nothing has been written but M1. *)
Inductive client_asks (L : lib) (e : keypair) : list ev -> list question -> res unit -> Prop :=
| ca_none : forall t y, (length t <= 2)%nat -> client_asks L e t [] (Err y)
| ca_m2 : forall w m2 t y, t = [] \/ (exists a, t = [ERead a]) ->
    client_asks L e (w :: ERead (Ok m2) :: t) [First (time_of m2)] (Err y)
| ca_m3 : forall w m2 f c key t r, l_beforenm L (field 6 32 m2) (kp_sec e) = Ok key -> opens L key 2 f c ->
    client_asks L e (w :: ERead (Ok m2) :: ERead (Ok f) :: t) [First (time_of m2); Check (time_of c)] r.

(** The questions of a server: none for a frame that is no M1; the time of M1; then
    the time of M4, once the client's second frame has been opened.  [is_m1]: what is
    there of the first five bytes is "SCv2" and 1. *)
Definition is_m1 (f : bytes) : Prop := exists r, firstn 5 f ++ r = [x53; x43; x76; x32; x01].
Inductive server_asks (L : lib) (e : keypair) : list ev -> list question -> res unit -> Prop :=
| sa_none : forall t r, (forall f t', t = ERead (Ok f) :: t' -> ~ is_m1 f) -> (length t <= 2)%nat -> server_asks L e t [] r
| sa_m1 : forall f t y, is_m1 f -> server_asks L e (ERead (Ok f) :: t) [First (time_m1 f)] (Err y)
| sa_m4 : forall f ws f4 c key r, is_m1 f -> l_beforenm L (field 10 32 f) (kp_sec e) = Ok key -> opens L key 1 f4 c ->
    server_asks L e (ERead (Ok f) :: ws ++ [ERead (Ok f4)]) [First (time_m1 f); Check (time_of c)] r.

(** ** Proofs: sessions *)

(** A result without the checker's state. *)
Definition forget {X S A} (o : option ((X * S) * A)) : option (S * A) :=
  match o with Some ((_, s), r) => Some (s, r) | None => None end.

Ltac ended H := apply exec_ret_any in H; destruct H as [-> [->| ->]].

Theorem C109_client_same : forall L TK X (C : checker X) x s t o,
  exec (kclient_handshake L TK X C (x, s)) t o ->
  exists TC, exec (client_handshake L TK TC s) t (forget o).
Proof.
  intros L TK X C x s t o H. apply io_eq_exec with (2 := kclient_eq L TK X C x s) in H.
  assert (GO : exists TC, exec (client_machine L TK TC s) t (forget o)).
  2:{ destruct GO as [TC GO]. exists TC. eapply io_eq_exec; [exact GO|]. apply io_eq_sym, client_eq. }
  unfold kclient_machine in H. unfold client_machine.
  destruct (cs_enc s) as [e|].
  2:{ exists (view C x). ended H; constructor. }
  destruct (client_start L TK s e) as [s1 [m1|y]].
  2:{ exists (view C x). ended H; constructor. }
  apply exec_write_inv in H. destruct H as [[-> ->]|(r & t' & -> & H)]; [exists (view C x); constructor|].
  destruct r as [[]|y].
  2:{ exists (view C x). ended H; repeat constructor. }
  apply exec_read_inv in H. destruct H as [[-> ->]|(r & t'' & -> & H)]; [exists (view C x); repeat constructor|].
  destruct r as [chunk|y].
  2:{ exists (view C x). ended H; repeat constructor. }
  exists (TChecker (tc_first (view C x)) (tc_check (view C (m2_after X C x chunk)))).
  constructor. constructor.
  change (client_m2 L (TChecker (tc_first (view C x)) (tc_check (view C (m2_after X C x chunk)))) s1 e chunk)
    with (client_m2 L (view C x) s1 e chunk).
  destruct (client_m2 L (view C x) s1 e chunk) as [s2 [ch|y]].
  2:{ ended H; constructor. }
  apply exec_read_inv in H. destruct H as [[-> ->]|(r & t3 & -> & H)]; [constructor|]. constructor.
  destruct r as [f|y].
  2:{ ended H; constructor. }
  change (client_m3 L TK (TChecker (tc_first (view C x)) (tc_check (view C (m2_after X C x chunk)))) s2 ch f)
    with (client_m3 L TK (view C (m2_after X C x chunk)) s2 ch f).
  destruct (client_m3 L TK _ s2 ch f) as [s3 [m4|y]].
  2:{ ended H; constructor. }
  destruct (cs_buffer_M4 s). { ended H; constructor. }
  destruct (cs_app s3) as [a|]. 2:{ ended H; constructor. }
  destruct (ec_encrypt L (ac_enc a) m4) as [c|y]. 2:{ ended H; constructor. }
  apply exec_write_inv in H. destruct H as [[-> ->]|(r & t4 & -> & H)]; [constructor|]. constructor.
  ended H; constructor.
Qed.
Print Assumptions C109_client_same.

Lemma kserver_rest_same : forall L TK X (C : checker X) f1 x s e m1 hold t o,
  exec (kserver_rest L TK X C x s e m1 hold) t o ->
  exec (server_rest L TK (TChecker f1 (tc_check (view C x))) s e m1 hold) t (forget o).
Proof.
  intros L TK X C f1 x s e m1 hold t o H. unfold kserver_rest in H. unfold server_rest.
  destruct (server_m3 L TK s e m1 hold) as [s1 [fs|y]].
  2:{ ended H; constructor. }
  apply exec_write_inv in H. destruct H as [[-> ->]|(r & t' & -> & H)]; [constructor|]. constructor.
  destruct r as [[]|y].
  2:{ ended H; constructor. }
  apply exec_read_inv in H. destruct H as [[-> ->]|(r & t'' & -> & H)]; [constructor|]. constructor.
  destruct r as [f|y].
  2:{ ended H; constructor. }
  change (server_m4 L (TChecker f1 (tc_check (view C x))) s1 f) with (server_m4 L (view C x) s1 f).
  ended H; [constructor|]. cbn [forget]. rewrite <- surjective_pairing. constructor.
Qed.

Theorem C109_server_same : forall L TK X (C : checker X) x s t o,
  exec (kserver_handshake L TK X C (x, s)) t o ->
  exists TC, exec (server_handshake L TK TC s) t (forget o).
Proof.
  intros L TK X C x s t o H. apply io_eq_exec with (2 := kserver_eq L TK X C x s) in H.
  assert (GO : exists TC, exec (server_machine L TK TC s) t (forget o)).
  2:{ destruct GO as [TC GO]. exists TC. eapply io_eq_exec; [exact GO|]. apply io_eq_sym, server_eq. }
  unfold kserver_machine in H. unfold server_machine.
  destruct (ss_enc s) as [e|].
  2:{ exists (view C x). ended H; constructor. }
  apply exec_read_inv in H. destruct H as [[-> ->]|(r & t' & -> & H)]; [exists (view C x); constructor|].
  destruct r as [chunk|y].
  2:{ exists (view C x). ended H; repeat constructor. }
  destruct (m1_ctor chunk) as [m1|y] eqn:E1.
  2:{ exists (view C x). constructor. rewrite E1. destruct (a1_ctor chunk) as [a|y1]; [|ended H; constructor].
      apply exec_write_inv in H. destruct H as [[-> ->]|(r & t'' & -> & H)]; [constructor|]. constructor.
      destruct r as [[]|y1]; ended H; constructor. }
  set (x1 := fst (ck_first C (m1_time m1) x)) in *. cbv zeta in H.
  exists (TChecker (tc_first (view C x)) (tc_check (view C x1))). constructor. rewrite E1.
  change (server_m1 L TK (TChecker (tc_first (view C x)) (tc_check (view C x1))) s chunk m1)
    with (server_m1 L TK (view C x) s chunk m1).
  destruct (server_m1 L TK (view C x) s chunk m1) as [s1 [[w|]|y]].
  3:{ ended H; constructor. }
  - apply exec_write_inv in H. destruct H as [[-> ->]|(r & t'' & -> & H)]; [constructor|]. constructor.
    ended H; constructor.
  - destruct (server_m2 TK s1 e) as [s2 [m2|y]].
    2:{ ended H; constructor. }
    destruct (ss_buffer_m2 s).
    { eapply kserver_rest_same; exact H. }
    apply exec_write_inv in H. destruct H as [[-> ->]|(r & t'' & -> & H)]; [constructor|]. constructor.
    destruct r as [[]|y].
    2:{ ended H; constructor. }
    eapply kserver_rest_same; exact H.
Qed.
Print Assumptions C109_server_same.

Lemma m2_time_of : forall f m2, m2_ctor f = Ok m2 -> m2_time m2 = time_of f.
Proof.
  intros f m2 H. unfold m2_time, fget_int, time_of. symmetry. etransitivity; [apply le_val_le_dec|]. symmetry. f_equal.
  eapply (fixed_ctor_field TYPE_M2 (z2b TYPE_M2) 37); [exact H|lia|lia].
Qed.
Lemma m3_time_of : forall f m3, m3_ctor f = Ok m3 -> m34_time m3 = time_of f.
Proof.
  intros f m3 H. unfold m34_time, fget_int, time_of. symmetry. etransitivity; [apply le_val_le_dec|]. symmetry. f_equal.
  eapply (fixed_ctor_field TYPE_M3 (z2b TYPE_M3) 101); [exact H|lia|lia].
Qed.
Lemma m4_time_of : forall f m4, m4_ctor f = Ok m4 -> m34_time m4 = time_of f.
Proof.
  intros f m4 H. unfold m34_time, fget_int, time_of. symmetry. etransitivity; [apply le_val_le_dec|]. symmetry. f_equal.
  eapply (fixed_ctor_field TYPE_M4 (z2b TYPE_M4) 101); [exact H|lia|lia].
Qed.
Lemma m1_time_of : forall f p, m1_ctor f = Ok p -> m1_time p = time_m1 f.
Proof.
  intros f p H. unfold m1_time, fget_int, time_m1. symmetry. etransitivity; [apply le_val_le_dec|]. symmetry. f_equal. eapply m1_ctor_field; [exact H|lia|lia].
Qed.

(** The client's handshake: the checker was asked for M2's and M3's times and for
    nothing else, and a negative answer is the handshake's result. *)
Theorem C109_client : forall L TK X (C : checker X) x sig e buf wanted tk t x' s r,
  exec (kclient_handshake L TK X C (x, cs_init sig (Some e) buf wanted tk)) t (Some ((x', s), r)) ->
  exists qs v, asked C x qs x' v /\ client_asks L e t qs r /\ (forall y, v = Some y -> r = Err y).
Proof.
  intros L TK X C x sig e buf wanted tk t x' s r H.
  apply io_eq_exec with (2 := kclient_eq L TK X C x _) in H. unfold kclient_machine in H. cbn [cs_init cs_enc cs_buffer_M4] in H.
  destruct (client_start L TK _ e) as [s1 [m1|y]].
  2:{ apply exec_ret_inv in H. destruct H as [-> H]. injection H as -> -> ->.
      exists [], None. split; [constructor|]. split; [constructor; cbn; lia|discriminate]. }
  apply exec_write_inv in H. destruct H as [[_ H]|(r0 & t' & -> & H)]; [discriminate|].
  destruct r0 as [[]|y].
  2:{ apply exec_ret_inv in H. destruct H as [-> H]. injection H as -> -> ->.
      exists [], None. split; [constructor|]. split; [constructor; cbn; lia|discriminate]. }
  apply exec_read_inv in H. destruct H as [[_ H]|(r0 & t'' & -> & H)]; [discriminate|].
  destruct r0 as [chunk|y].
  2:{ apply exec_ret_inv in H. destruct H as [-> H]. injection H as -> -> ->.
      exists [], None. split; [constructor|]. split; [constructor; cbn; lia|discriminate]. }
  unfold m2_after in H. unfold client_m2 in H. destruct (m2_ctor chunk) as [m2|y] eqn:E2.
  2:{ apply exec_ret_inv in H. destruct H as [-> H]. injection H as -> -> ->.
      exists [], None. split; [constructor|]. split; [constructor; cbn; lia|discriminate]. }
  rewrite (m2_time_of _ _ E2) in H. cbn [view tc_first] in H.
  destruct (ck_first C (time_of chunk) x) as [x1 [[]|y]] eqn:EC; cbn [fst snd] in H.
  2:{ apply exec_ret_inv in H. destruct H as [-> H]. injection H as -> -> ->.
      exists [First (time_of chunk)], (Some y). split; [apply as_err; exact EC|].
      split; [apply ca_m2; auto|]. intros z E. congruence. }
  assert (ONE : asked C x [First (time_of chunk)] x1 None) by (eapply as_ok; [exact EC|constructor]).
  assert (DONE : forall t0 y, t0 = [] \/ (exists a, t0 = [ERead a]) -> exists qs v, asked C x qs x1 v /\
     client_asks L e (EWrite [m1] false (Ok tt) :: ERead (Ok chunk) :: t0) qs (Err y) /\ (forall z, v = Some z -> Err y = @Err unit z)).
  { intros t0 y HT. exists [First (time_of chunk)], None. split; [exact ONE|]. split; [apply ca_m2; exact HT|discriminate]. }
  assert (EK : m2_server_enc_key m2 = field 6 32 chunk).
  { eapply (fixed_ctor_field TYPE_M2 (z2b TYPE_M2) 37); [exact E2|lia|lia]. }
  rewrite EK in H.
  destruct (m2_no_such_server m2).
  { apply exec_ret_inv in H. destruct H as [-> H]. injection H as -> -> ->. apply DONE. auto. }
  destruct (compute_shared_key L (kp_sec e) (field 6 32 chunk)) as [key|y] eqn:ES.
  2:{ apply exec_ret_inv in H. destruct H as [-> H]. injection H as -> -> ->. apply DONE. auto. }
  apply shared_key_inv in ES. destruct ES as (_ & _ & HK).
  destruct (ec_init key CLIENT SESSION_NONCE) as [ch|y] eqn:EI.
  2:{ apply exec_ret_inv in H. destruct H as [-> H]. injection H as -> -> ->. apply DONE. auto. }
  apply ec_init_ok in EI. destruct EI as [Hkl ->].
  apply exec_read_inv in H. destruct H as [[_ H]|(r0 & t3 & -> & H)]; [discriminate|].
  destruct r0 as [f|y].
  2:{ apply exec_ret_inv in H. destruct H as [-> H]. injection H as -> -> ->. apply DONE. eauto. }
  unfold m3_after, client_m3 in H.
  destruct (ec_process L _ f) as [ch1 [c|y]] eqn:EP; cbn [fst snd] in H.
  2:{ apply exec_ret_inv in H. destruct H as [-> H]. injection H as -> -> ->. apply DONE. eauto. }
  destruct (process_opens L _ _ _ _ EP eq_refl) as [HO _]. cbn [ec_key ec_read_nonce] in HO.
  destruct (negb (zlen c =? 102)).
  { apply exec_ret_inv in H. destruct H as [-> H]. injection H as -> -> ->. apply DONE. eauto. }
  destruct (m3_ctor c) as [m3|y] eqn:E3.
  2:{ apply exec_ret_inv in H. destruct H as [-> H]. injection H as -> -> ->. apply DONE. eauto. }
  rewrite (m3_time_of _ _ E3) in H. cbn [view tc_check] in H.
  destruct (ck_check C (time_of c) x1) as [x2 [[]|y]] eqn:EC2; cbn [fst snd] in H.
  2:{ apply exec_ret_inv in H. destruct H as [-> H]. injection H as -> -> ->.
      exists [First (time_of chunk); Check (time_of c)], (Some y).
      split; [eapply as_ok; [exact EC|]; apply as_err; exact EC2|].
      split; [eapply ca_m3; [exact HK|exact HO]|]. intros z E. congruence. }
  assert (x' = x2) as ->.
  { repeat match type of H with
    | exec (match ?a with _ => _ end) _ _ => destruct a
    | exec (let (_, _) := ?a in _) _ _ => destruct a
    | exec (Ret _) _ _ => apply exec_ret_inv in H; destruct H as [_ H]; congruence
    | exec (Write _ _ _) _ _ => apply exec_write_inv in H; destruct H as [[_ H]|(? & ? & _ & H)]; [discriminate|]
    end. }
  exists [First (time_of chunk); Check (time_of c)], None.
  split; [eapply as_ok; [exact EC|]; eapply as_ok; [exact EC2|constructor]|].
  split; [eapply ca_m3; [exact HK|exact HO]|discriminate].
Qed.
Print Assumptions C109_client.

Lemma server_m3_app : forall L TK s e m1 hold s1 fs, server_m3 L TK s e m1 hold = (s1, Ok fs) ->
  exists key tk', l_beforenm L (m1_client_enc_key m1) (kp_sec e) = Ok key /\
    ss_app s1 = Some (ac_init (EC key [] false 1 4 SESSION_NONCE) tk').
Proof.
  intros L TK s e m1 hold s1 fs H. unfold server_m3 in H.
  destruct (compute_shared_key _ _ _) as [key|y] eqn:ES; [|discriminate].
  apply shared_key_inv in ES. destruct ES as (_ & _ & HK).
  destruct (ec_init key SERVER SESSION_NONCE) as [ch|y] eqn:EI; [|discriminate].
  apply ec_init_ok in EI. destruct EI as [Hkl ->].
  destruct (match hold with Some _ => _ | None => _ end) as [[[t tk'] pre] s2].
  repeat match type of H with (match ?a with _ => _ end) = _ => destruct a; try discriminate end.
  exists key, tk'. split; [exact HK|]. injection H as <- _. reflexivity.
Qed.

(** The server's handshake. *)
Theorem C109_server : forall L TK X (C : checker X) x sig e buf a2 tk t x' s r,
  exec (kserver_handshake L TK X C (x, ss_init sig (Some e) buf a2 tk)) t (Some ((x', s), r)) ->
  exists qs v, asked C x qs x' v /\ server_asks L e t qs r /\ (forall y, v = Some y -> r = Err y).
Proof.
  intros L TK X C x sig e buf a2 tk t x' s r H.
  apply io_eq_exec with (2 := kserver_eq L TK X C x _) in H. unfold kserver_machine in H. cbn [ss_init ss_enc ss_buffer_m2 ss_a2] in H.
  apply exec_read_inv in H. destruct H as [[_ H]|(r0 & t' & -> & H)]; [discriminate|].
  assert (NONE : forall a t0 r0, (forall f, a = Ok f -> ~ is_m1 f) -> (length t0 <= 1)%nat -> exists qs v, asked C x qs x v /\
     server_asks L e (ERead a :: t0) qs r0 /\ (forall z, v = Some z -> r0 = @Err unit z)).
  { intros a t0 r1 Ha Hl. exists [], None. split; [constructor|]. split; [|discriminate].
    apply sa_none; [|cbn [length]; lia]. intros f t1 E. apply Ha. congruence. }
  destruct r0 as [f|y].
  2:{ apply exec_ret_inv in H. destruct H as [-> H]. injection H as -> -> ->. apply NONE; [discriminate|cbn; lia]. }
  assert (AC : is_m1 f <-> exists p, m1_ctor f = Ok p).
  { unfold is_m1. destruct f as [|b f].
    - split; intros _; [eexists; reflexivity|eexists; reflexivity].
    - pose proof (m1_ctor_accept (b :: f)) as HA. symmetry. etransitivity; [apply HA; discriminate|].
      unfold prefix_of. split; intros [r0 E]; exists r0; symmetry; exact E || (rewrite <- E; reflexivity). }
  destruct (m1_ctor f) as [m1|y] eqn:E1.
  2:{ assert (NM : ~ is_m1 f) by (intro HM; apply AC in HM; destruct HM; discriminate).
      destruct (a1_ctor f) as [a|y1].
      - apply exec_write_inv in H. destruct H as [[_ H]|(r2 & t2 & -> & H)]; [discriminate|].
        destruct r2 as [[]|y2]; apply exec_ret_inv in H; destruct H as [-> H]; injection H as -> -> ->;
          (apply NONE; [intros g E; congruence|cbn; lia]).
      - apply exec_ret_inv in H; destruct H as [-> H]; injection H as -> -> ->.
        apply NONE; [intros g E; congruence|cbn; lia]. }
  assert (IM : is_m1 f) by (apply AC; eauto). clear AC NONE.
  cbv zeta in H. rewrite (m1_time_of _ _ E1) in H. unfold server_m1 in H.
  rewrite (m1_time_of _ _ E1) in H. cbn [view tc_first] in H.
  destruct (ck_first C (time_m1 f) x) as [x1 [[]|y]] eqn:EC; cbn [fst snd] in H.
  2:{ apply exec_ret_inv in H. destruct H as [-> H]. injection H as -> -> ->.
      exists [First (time_m1 f)], (Some y). split; [apply as_err; exact EC|].
      split; [apply sa_m1; exact IM|]. intros z E. congruence. }
  assert (ONE : asked C x [First (time_m1 f)] x1 None) by (eapply as_ok; [exact EC|constructor]).
  assert (DONE : forall t0 y, exists qs v, asked C x qs x1 v /\
     server_asks L e (ERead (Ok f) :: t0) qs (Err y) /\ (forall z, v = Some z -> Err y = @Err unit z)).
  { intros t0 y. exists [First (time_m1 f)], None. split; [exact ONE|]. split; [apply sa_m1; exact IM|discriminate]. }
  assert (REST : forall s2 hold ws t0, exec (kserver_rest L TK X C x1 s2 e m1 hold) t0 (Some ((x', s), r)) ->
    exists qs v, asked C x qs x' v /\ server_asks L e (ERead (Ok f) :: ws ++ t0) qs r /\ (forall y, v = Some y -> r = Err y)).
  { clear H. intros s2 hold ws t0 H. unfold kserver_rest in H.
    destruct (server_m3 L TK s2 e m1 hold) as [s3 [fs|y]] eqn:E3.
    2:{ apply exec_ret_inv in H. destruct H as [-> H]. injection H as -> -> ->. apply DONE. }
    apply server_m3_app in E3. destruct E3 as (key & tk' & HK & HA). rewrite HA in H. cbn [ac_init ac_enc] in H.
    apply exec_write_inv in H. destruct H as [[_ H]|(r2 & t2 & -> & H)]; [discriminate|].
    destruct r2 as [[]|y].
    2:{ apply exec_ret_inv in H. destruct H as [-> H]. injection H as -> -> ->. apply DONE. }
    apply exec_read_inv in H. destruct H as [[_ H]|(r2 & t3 & -> & H)]; [discriminate|].
    destruct r2 as [f4|y].
    2:{ apply exec_ret_inv in H. destruct H as [-> H]. injection H as -> -> ->. apply DONE. }
    apply exec_ret_inv in H. destruct H as [-> H].
    unfold m4_after, server_m4 in H. rewrite HA in H. cbn [ac_init ac_enc] in H.
    destruct (ec_process L _ f4) as [ch1 [c|y]] eqn:EP; cbn [fst snd] in H.
    2:{ injection H as -> -> ->. apply DONE. }
    destruct (process_opens L _ _ _ _ EP eq_refl) as [HO _]. cbn [ec_key ec_read_nonce] in HO.
    destruct (m4_ctor c) as [m4|y] eqn:E4.
    2:{ injection H as -> -> ->. apply DONE. }
    rewrite (m4_time_of _ _ E4) in H. cbn [view tc_check] in H.
    assert (EK : m1_client_enc_key m1 = field 10 32 f) by (eapply m1_ctor_field; eauto; lia). rewrite EK in HK.
    match goal with |- context [ws ++ [?a; ?b]] => change [a; b] with ([a] ++ [b]) end. rewrite app_assoc.
    destruct (ck_check C (time_of c) x1) as [x2 [[]|y]] eqn:EC2; cbn [fst snd] in H.
    - assert (x' = x2) as -> by congruence.
      exists [First (time_m1 f); Check (time_of c)], None.
      split; [eapply as_ok; [exact EC|]; eapply as_ok; [exact EC2|constructor]|].
      split; [eapply sa_m4; [exact IM|exact HK|exact HO]|discriminate].
    - injection H as -> -> ->. exists [First (time_m1 f); Check (time_of c)], (Some y).
      split; [eapply as_ok; [exact EC|]; apply as_err; exact EC2|].
      split; [eapply sa_m4; [exact IM|exact HK|exact HO]|]. intros z E. congruence. }
  match type of H with exec (match ?a with _ => _ end) _ _ => destruct a as [s1 [[w|]|y]] end.
  - apply exec_write_inv in H. destruct H as [[_ H]|(r2 & t2 & -> & H)]; [discriminate|].
    apply exec_ret_inv in H. destruct H as [-> H]. destruct r2 as [[]|y2]; injection H as -> -> ->; apply DONE.
  - destruct (server_m2 TK s1 e) as [s2 [m2|y]].
    2:{ apply exec_ret_inv in H. destruct H as [-> H]. injection H as -> -> ->. apply DONE. }
    destruct buf; [exact (REST _ _ [] _ H)|].
    apply exec_write_inv in H. destruct H as [[_ H]|(r2 & t2 & -> & H)]; [discriminate|].
    destruct r2 as [[]|y].
    2:{ apply exec_ret_inv in H. destruct H as [-> H]. injection H as -> -> ->. apply DONE. }
    exact (REST _ _ [_] _ H).
  - apply exec_ret_inv in H. destruct H as [-> H]. injection H as -> -> ->. apply DONE.
Qed.
Print Assumptions C109_server.

(** ** The application channel *)

(** What the checker is asked by a list of calls on a channel whose encrypted channel
    has key [key], session nonce [sn] and expects counter [n] next; [q] are the
    messages of the packet read last that are still to be returned.  The text of a
    frame that opens is checked if it is an application packet; it is never checked
    twice, and its messages are returned only if the checker let it pass. *)
Definition opens_under (L : lib) (key sn : bytes) (n : Z) (f clear : bytes) : Prop :=
  exists fl body, f = x06 :: fl :: body /\ (16 <= length body)%nat /\
    l_open_afternm L body (nonce24 n sn) key = Ok clear.
Inductive channel_asks (L : lib) {X} (C : checker X) (key sn : bytes)
  : Z -> list bytes -> X -> list ecall -> Z -> list bytes -> X -> Prop :=
| ch_nil : forall n q x, channel_asks L C key sn n q x [] n q x
| ch_write : forall n q x m args last t r h n' q' x', channel_asks L C key sn n q x h n' q' x' ->
    channel_asks L C key sn n q x (EcWrite m args last t r :: h) n' q' x'
| ch_queue : forall n m q x l h n' q' x', channel_asks L C key sn n q x h n' q' x' ->
    channel_asks L C key sn n (m :: q) x (EcRead [] (Ok m) l :: h) n' q' x'
| ch_refused : forall n x a y l h n' q' x', channel_asks L C key sn n [] x h n' q' x' ->
    channel_asks L C key sn n [] x (EcRead [ERead a] (Err y) l :: h) n' q' x'
| ch_malformed : forall n x f c y l h n' q' x', opens_under L key sn n f c ->
    c <> [] -> (forall d, ~ app_frame c d) -> (forall ms, ~ Multi_frame c ms) ->
    channel_asks L C key sn (n + 2) [] x h n' q' x' ->
    channel_asks L C key sn n [] x (EcRead [ERead (Ok f)] (Err y) l :: h) n' q' x'
| ch_rejected : forall n x f c x1 y l h n' q' x', opens_under L key sn n f c ->
    ck_check C (time_of c) x = (x1, Err y) -> channel_asks L C key sn (n + 2) [] x1 h n' q' x' ->
    channel_asks L C key sn n [] x (EcRead [ERead (Ok f)] (Err y) l :: h) n' q' x'
| ch_empty : forall n x f x1 l h n' q' x', opens_under L key sn n f [] ->
    ck_check C 0 x = (x1, Ok tt) -> channel_asks L C key sn (n + 2) [] x1 h n' q' x' ->
    channel_asks L C key sn n [] x (EcRead [ERead (Ok f)] (Err AttributeError) l :: h) n' q' x'
| ch_app : forall n x f c d x1 l h n' q' x', opens_under L key sn n f c -> app_frame c d ->
    ck_check C (time_of c) x = (x1, Ok tt) -> channel_asks L C key sn (n + 2) [] x1 h n' q' x' ->
    channel_asks L C key sn n [] x (EcRead [ERead (Ok f)] (Ok d) l :: h) n' q' x'
| ch_multi : forall n x f c d q x1 l h n' q' x', opens_under L key sn n f c -> Multi_frame c (d :: q) ->
    ck_check C (time_of c) x = (x1, Ok tt) -> channel_asks L C key sn (n + 2) q x1 h n' q' x' ->
    channel_asks L C key sn n [] x (EcRead [ERead (Ok f)] (Ok d) l :: h) n' q' x'.

Lemma time_of_4 : forall a b t0 t1 t2 t3 r, time_of (a :: b :: t0 :: t1 :: t2 :: t3 :: r) = le_dec [t0; t1; t2; t3].
Proof. intros. unfold time_of, field. cbn [app skipn firstn]. apply le_val_le_dec. Qed.

Lemma k_interpret_cases : forall X (C : checker X) raw x (s : ac),
  (raw = [] /\ k_interpret X C raw (x, s) =
     Ret ((fst (ck_check C 0 x), s), match snd (ck_check C 0 x) with Ok _ => Err AttributeError | Err y => Err y end)) \/
  (exists d q, ((app_frame raw d /\ q = []) \/ Multi_frame raw (d :: q)) /\
     k_interpret X C raw (x, s) =
     Ret ((fst (ck_check C (time_of raw) x), s), match snd (ck_check C (time_of raw) x) with Ok _ => Ok (d, q) | Err y => Err y end)) \/
  (raw <> [] /\ (forall d, ~ app_frame raw d) /\ (forall ms, ~ Multi_frame raw ms) /\
     exists y, k_interpret X C raw (x, s) = Ret ((x, s), Err y)).
Proof.
  intros X C raw x s. destruct raw as [|b raw].
  { left. split; [reflexivity|]. unfold k_interpret. cbv beta delta [mbind mlift]. cbn.
    unfold kcall. cbn [fst snd]. change (app_time app_new) with 0. destruct (ck_check C 0 x) as [x1 [[]|y]]; reflexivity. }
  right.
  destruct (app_ctor (b :: raw) false) as [ap|y0] eqn:EA.
  - assert (H6 : (5 <= length raw)%nat).
    { destruct (Z.ltb_spec (zlen (b :: raw)) 6) as [Hl|Hl]; [|unfold zlen in Hl; cbn [length] in Hl; lia].
      rewrite app_ctor_short in EA by (auto; discriminate). discriminate. }
    destruct raw as [|b1 [|t0 [|t1 [|t2 [|t3 d]]]]]; cbn [length] in H6; try lia.
    change (b :: b1 :: t0 :: t1 :: t2 :: t3 :: d) with ([b; b1; t0; t1; t2; t3] ++ d) in EA.
    rewrite app_ctor_spec in EA by reflexivity. cbn [andb] in EA.
    destruct (Z.eqb_spec (b2z b) 5) as [E5|E5].
    + assert (b = x05) as -> by (apply b2z_inj; rewrite E5; reflexivity).
      left. exists d, []. split; [left; split; [exists [b1; t0; t1; t2; t3]; split; reflexivity|reflexivity]|].
      unfold k_interpret. cbv beta delta [mbind mlift]. cbn [iobind fst snd].
      change (x05 :: b1 :: t0 :: t1 :: t2 :: t3 :: d) with ([x05; b1; t0; t1; t2; t3] ++ d).
      rewrite app_ctor_spec by reflexivity. cbn [andb]. cbn [iobind fst snd].
      change (app_type (Pkt [x05; b1; t0; t1; t2; t3] (Some d)) =? TYPE_APP_PACKET) with true. cbv iota.
      change (app_validate (Pkt [x05; b1; t0; t1; t2; t3] (Some d))) with (@Ok unit tt). cbn [iobind fst snd].
      cbn [app]. rewrite time_of_4. change (app_time (Pkt [x05; b1; t0; t1; t2; t3] (Some d))) with (le_dec [t0; t1; t2; t3]).
      unfold kcall. cbn [fst snd]. destruct (ck_check C (le_dec [t0; t1; t2; t3]) x) as [x1 [[]|y]]; reflexivity.
    + assert (NA : forall d', ~ app_frame (b :: b1 :: t0 :: t1 :: t2 :: t3 :: d) d').
      { intros d' (h & E & _). injection E as E _. apply E5. rewrite E. reflexivity. }
      assert (KI : k_interpret X C (b :: b1 :: t0 :: t1 :: t2 :: t3 :: d) (x, s) =
        match multi_ctor (b :: b1 :: t0 :: t1 :: t2 :: t3 :: d) true with
        | Err y => Ret ((x, s), Err y)
        | Ok mp => Ret ((fst (ck_check C (multi_time mp) x), s),
                        match snd (ck_check C (multi_time mp) x) with
                        | Err y => Err y
                        | Ok _ => match mp_msgs mp with Some (m :: r) => Ok (m, r) | Some [] => Err IndexError | None => Err AttributeError end
                        end)
        end).
      { unfold k_interpret. cbv beta delta [mbind mlift]. cbn [iobind fst snd].
        change (app_ctor (b :: b1 :: t0 :: t1 :: t2 :: t3 :: d) false) with (app_ctor ([b; b1; t0; t1; t2; t3] ++ d) false).
        rewrite app_ctor_spec by reflexivity. cbn [andb]. cbn [iobind fst snd].
        assert (app_type (Pkt [b; b1; t0; t1; t2; t3] (Some d)) =? TYPE_APP_PACKET = false) as ->.
        { unfold app_type. cbn [p_data]. rewrite fget_int_1_cons. unfold TYPE_APP_PACKET. lia. }
        destruct (multi_ctor _ true) as [mp|y]; cbn [iobind fst snd]; [|reflexivity].
        unfold kcall. cbn [fst snd]. destruct (ck_check C (multi_time mp) x) as [x1 [[]|y]]; cbn [iobind fst snd]; [|reflexivity].
        destruct (mp_msgs mp) as [[|m r]|]; reflexivity. }
      destruct (multi_ctor (b :: b1 :: t0 :: t1 :: t2 :: t3 :: d) true) as [mp|y] eqn:EM.
      * left. assert (NE : b :: b1 :: t0 :: t1 :: t2 :: t3 :: d <> []) by discriminate.
        pose proof (multi_accept_inv _ _ NE EM) as (ms & E1 & E2 & E3).
        rewrite E1 in KI. destruct ms as [|m ms].
        { destruct E2 as (? & ? & ? & ? & ? & ? & ? & init & ? & ? & ? & _ & E & _). destruct init; discriminate. }
        exists m, ms. split; [right; exact E2|]. rewrite KI.
        assert (multi_time mp = time_of (b :: b1 :: t0 :: t1 :: t2 :: t3 :: d)) as ->; [|reflexivity].
        rewrite time_of_4. unfold multi_time. rewrite E3. unfold fget_int, fget, slice.
        cbn [firstn skipn]. destruct d as [|d0 [|d1 d]]; reflexivity.
      * right. split; [discriminate|]. split; [exact NA|]. split; [|exists y; exact KI].
        intros ms HF. rewrite (multi_accept_fwd _ _ HF) in EM. discriminate.
  - right. split; [discriminate|].
    assert (HS : zlen (b :: raw) < 6).
    { destruct (Z.ltb_spec (zlen (b :: raw)) 6) as [Hl|Hl]; [exact Hl|]. unfold zlen in Hl. cbn [length] in Hl.
      destruct raw as [|b1 [|t0 [|t1 [|t2 [|t3 d]]]]]; cbn [length] in Hl; try lia.
      change (b :: b1 :: t0 :: t1 :: t2 :: t3 :: d) with ([b; b1; t0; t1; t2; t3] ++ d) in EA.
      rewrite app_ctor_spec in EA by reflexivity. discriminate. }
    split; [intros d (h & E & Hh); rewrite E in HS; unfold zlen in HS; cbn [length] in HS; rewrite app_length in HS; lia|].
    split.
    + intros ms (r & t0 & t1 & t2 & t3 & c0 & c1 & init & last & an & rest & E & _). rewrite E in HS. unfold zlen in HS.
      rewrite app_length in HS. cbn [length] in HS. lia.
    + exists y0. unfold k_interpret. cbv beta delta [mbind mlift]. cbn [iobind fst snd]. rewrite EA. reflexivity.
Qed.

Lemma exec_klift : forall X S A (m : M S A) (x : X) (s : S) t x1 s1 r,
  exec (klift m (x, s)) t (Some ((x1, s1), r)) -> x1 = x /\ exec (m s) t (Some (s1, r)).
Proof.
  intros X S A m x s t x1 s1 r H. apply exec_mzoom in H. destruct H as (s2 & H & E). cbn [snd fst] in *.
  injection E as -> ->. auto.
Qed.

Lemma k_read_exec : forall L X (C : checker X) x s t x1 s1 r, exec (k_read L X C (x, s)) t (Some ((x1, s1), r)) ->
  (exists m q, ac_readq s = m :: q /\ t = [] /\ r = Ok m /\ s1 = ac_set_readq q s /\ x1 = x) \/
  (ac_readq s = [] /\ exists e1 er, exec (ec_read L (ac_enc s)) t (Some (e1, er)) /\
     match er with
     | Err y => r = Err y /\ s1 = ac_set_enc e1 s /\ x1 = x
     | Ok raw => exists y, k_interpret X C raw (x, ac_set_enc e1 s) = Ret ((x1, ac_set_enc e1 s), y) /\
                 match y with
                 | Err z => r = Err z /\ s1 = ac_set_enc e1 s
                 | Ok (d, q) => r = Ok d /\ s1 = ac_set_readq q (ac_set_enc e1 s)
                 end
     end).
Proof.
  intros L X C x s t x1 s1 r H. unfold k_read in H.
  rewrite (mbind_ret _ _ _ (klift mget) _ (x, s) (x, s) s eq_refl) in H.
  destruct (ac_readq s) as [|m q] eqn:EQ.
  - right. split; auto. apply exec_mbind in H.
    destruct H as (t1 & t2 & [x2 s2] & ra & -> & H1 & H2).
    apply exec_klift in H1. destruct H1 as [-> H1]. apply exec_mzoom in H1.
    destruct H1 as (e1 & H1 & ->). destruct ra as [raw|y].
    + exists e1, (Ok raw).
      assert (KI : exists x2 w, k_interpret X C raw (x, ac_set_enc e1 s) = Ret ((x2, ac_set_enc e1 s), w)).
      { destruct (k_interpret_cases X C raw x (ac_set_enc e1 s)) as [[_ E]|[(d & q & _ & E)|(_ & _ & _ & y & E)]];
          rewrite E; do 2 eexists; reflexivity. }
      destruct KI as (x2 & w & KI).
      apply exec_mbind in H2. destruct H2 as (t3 & t4 & s3 & rb & -> & H3 & H4).
      rewrite KI in H3. apply exec_ret_inv in H3. destruct H3 as [-> H3]. injection H3 as -> ->. cbn [app] in *.
      destruct w as [[d q]|z].
      * apply exec_ret_inv in H4. destruct H4 as [-> H4]. cbn [fst snd] in H4. injection H4 as -> -> ->.
        rewrite app_nil_r. split; [exact H1|]. eexists. split; [exact KI|]. split; reflexivity.
      * destruct H4 as (-> & H4 & ->). injection H4 as -> ->. rewrite app_nil_r. split; [exact H1|].
        eexists. split; [exact KI|]. split; reflexivity.
    + destruct H2 as (-> & H2 & ->). injection H2 as -> ->. rewrite app_nil_r. exists e1, (Err y). auto.
  - left. exists m, q. apply exec_ret_inv in H. destruct H as [-> H]. cbn in H. injection H as -> -> ->. auto 10.
Qed.

(** Over any sequence of calls: the checker sees the times of the application packets
    received, each once and in the order of their counters, and what it rejects is not
    returned by any read; the channel goes on with the next packet. *)
Theorem C110_channel : forall L TK X (C : checker X) x s h x' s',
  k_hist L TK X C x s h x' s' -> ec_pushback (ac_enc s) = [] ->
  channel_asks L C (ec_key (ac_enc s)) (ec_session_nonce (ac_enc s))
    (ec_read_nonce (ac_enc s)) (ac_readq s) x h (ec_read_nonce (ac_enc s')) (ac_readq s') x'.
Proof.
  intros L TK X C x s h x' s' H.
  induction H as [x s|x s t x1 s1 r h x2 s2 HX HH IH|x s m args last t s1 r h x2 s2 HX HH IH]; intro HP.
  - constructor.
  - apply k_read_exec in HX.
    destruct HX as [(m & q & HQ & -> & -> & -> & ->)|(HQ & e1 & er & HE & HR)].
    + rewrite HQ. apply ch_queue. apply IH. exact HP.
    + rewrite HQ. destruct (ec_read_call _ _ _ _ _ HE HP) as (P1 & P2 & P3 & P4).
      destruct er as [raw|y].
      2:{ destruct HR as (-> & -> & ->). destruct P4 as [(f & m & _ & E & _)|(y' & E & PN & a & ->)]; [discriminate|].
          apply ch_refused. specialize (IH P1). cbn [ac_enc ac_set_enc ac_readq] in IH. rewrite P2, P3, PN, HQ in IH. exact IH. }
      destruct P4 as [(f & m & -> & E & PN & HO)|(y' & E & _)]; [|discriminate]. injection E as <-.
      assert (HOP : opens_under L (ec_key (ac_enc s)) (ec_session_nonce (ac_enc s)) (ec_read_nonce (ac_enc s)) f raw).
      { destruct HO as (_ & t0 & fl & body & -> & Ht & Hb & _ & HO). apply b2z_6 in Ht. subst t0. exists fl, body. auto. }
      destruct HR as (y & KI & HR).
      assert (HE1 : ec_key (ac_enc s1) = ec_key (ac_enc s) /\ ec_session_nonce (ac_enc s1) = ec_session_nonce (ac_enc s) /\
        ec_read_nonce (ac_enc s1) = ec_read_nonce (ac_enc s) + 2 /\ ec_pushback (ac_enc s1) = []).
      { destruct y as [[d q]|z]; destruct HR as [_ ->]; auto. }
      destruct HE1 as (Q1 & Q2 & Q3 & Q4). specialize (IH Q4). rewrite Q1, Q2, Q3 in IH.
      assert (HQ1 : ac_readq s1 = match y with Ok (_, q) => q | Err _ => [] end).
      { destruct y as [[d q]|z]; destruct HR as [_ ->]; [reflexivity|exact HQ]. }
      rewrite HQ1 in IH.
      assert (HR1 : r = match y with Ok (d, _) => Ok d | Err z => Err z end).
      { destruct y as [[d q]|z]; destruct HR as [-> _]; reflexivity. }
      rewrite HR1. clear HR HR1 HQ1.
      destruct (k_interpret_cases X C raw x (ac_set_enc e1 s)) as [[-> E]|[(d & q & HF & E)|(N1 & N2 & N3 & z & E)]];
        rewrite KI in E; clear KI.
      * destruct (ck_check C 0 x) as [xa [[]|z]] eqn:EC; cbn [fst snd] in E; injection E as -> ->.
        -- eapply ch_empty; [exact HOP|exact EC|exact IH].
        -- eapply ch_rejected; [exact HOP|exact EC|exact IH].
      * destruct (ck_check C (time_of raw) x) as [xa [[]|z]] eqn:EC; cbn [fst snd] in E; injection E as -> ->.
        -- destruct HF as [[HF ->]|HF]; [eapply ch_app|eapply ch_multi]; eauto.
        -- eapply ch_rejected; [exact HOP|exact EC|exact IH].
      * injection E as -> ->. eapply ch_malformed; eauto.
  - apply ac_write_exec in HX. destruct HX as (p & ps & e1 & _ & HE & ->). apply ec_write_state in HE.
    destruct HE as (W1 & W2 & W3 & W4 & _). cbn [ac_enc ac_readq] in IH. apply ch_write.
    rewrite W1, W2, W3 in IH. apply IH. congruence.
Qed.
Print Assumptions C110_channel.

(** A checker that lets everything pass changes nothing. *)
Theorem C110_same : forall L TK X (C : checker X) x s h x' s',
  (forall t y, snd (ck_check C t y) = Ok tt) -> k_hist L TK X C x s h x' s' ->
  ac_hist L TK (TChecker (fun _ => Ok tt) (fun _ => Ok tt)) s h s'.
Proof.
  intros L TK X C x s h x' s' HC H.
  induction H as [x s|x s t x1 s1 r h x2 s2 HX HH IH|x s m args last t s1 r h x2 s2 HX HH IH].
  - constructor.
  - econstructor; [|exact IH]. clear HH IH. apply k_read_exec in HX. unfold ac_read.
    rewrite (mbind_ret _ _ _ mget _ s s s eq_refl).
    destruct HX as [(m & q & HQ & -> & -> & -> & ->)|(HQ & e1 & er & HE & HR)]; rewrite HQ; [constructor|].
    rewrite <- (app_nil_r t). unfold mbind at 1.
    eapply exec_bind_fwd; [eapply exec_mzoom_fwd; exact HE|]. cbn [fst snd].
    destruct er as [raw|y].
    2:{ destruct HR as (-> & -> & _). constructor. }
    destruct HR as (y & KI & HR).
    assert (EI : ac_interpret (TChecker (fun _ => Ok tt) (fun _ => Ok tt)) raw = y).
    { clear HR. unfold k_interpret in KI. cbv beta delta [mbind mlift kcall] in KI. cbn [iobind fst snd] in KI. unfold ac_interpret. cbn [tc_check].
      destruct (app_ctor raw false) as [ap|z]; cbn [iobind fst snd] in KI; [|congruence].
      destruct (app_type ap =? TYPE_APP_PACKET).
      - destruct (app_validate ap) as [[]|z]; cbn [iobind fst snd] in KI; [|congruence].
        pose proof (HC (app_time ap) x) as HT. destruct (ck_check C (app_time ap) x) as [xa v]. cbn [snd] in HT. subst v.
        cbn [iobind fst snd] in KI. destruct (app_data ap) as [d|z]; cbn [iobind fst snd] in KI; cbv beta delta [mret] in KI; congruence.
      - destruct (multi_ctor raw true) as [mp|z]; cbn [iobind fst snd] in KI; [|congruence].
        pose proof (HC (multi_time mp) x) as HT. destruct (ck_check C (multi_time mp) x) as [xa v]. cbn [snd] in HT. subst v.
        cbn [iobind fst snd] in KI. destruct (mp_msgs mp) as [[|m q]|]; cbv beta delta [mret mraise] in KI; congruence. }
    rewrite <- EI in HR. cbv beta delta [mbind mlift]. cbn [iobind fst snd].
    destruct (ac_interpret _ raw) as [[d q]|z]; destruct HR as [-> ->]; cbn; constructor.
  - econstructor; eauto.
Qed.
Print Assumptions C110_same.

(** A checker that keeps the latest time seen and refuses to go back. *)
Definition forward : checker Z :=
  Checker (fun t _ => (t, Ok tt)) (fun t x => if t <? x then (x, Err BadPeer) else (t, Ok tt)).

(** Three packets with times 5, 3, 7: the second is refused, the third arrives. *)
Example C110_case :
  let hs := fst (ec_run toy_lib (ex_start SERVER)
     [OpWrite (App_wire 5 [x61]) [] false (Ok tt); OpWrite (Multi_wire 3 [[x62]; [x63]]) [] false (Ok tt);
      OpWrite (Multi_wire 7 [[x64]; [x65]]) [] false (Ok tt)]) in
  let '(h, (x, s)) := k_run toy_lib null_keeper Z forward 0 (ex_app CLIENT)
     (map (fun f => OpRead (Ok f)) (frames_out hs) ++ [OpRead (Err ComException)]) in
  map (fun c => match c with EcRead _ r _ => Some r | _ => None end) h =
    [Some (Ok [x61]); Some (Err BadPeer); Some (Ok [x64]); Some (Ok [x65])] /\ x = 7 /\
  got_msgs h = [([x61], false); ([x64], false); ([x65], false)].
Proof. vm_compute. auto. Qed.

(** A client whose server refuses it: the time of the refusal was reported. *)
Example C109_case :
  exists s, io_run (kclient_handshake toy_lib null_keeper Z forward
      (0, cs_init (KeyPair (repeat x01 64) (repeat x02 32)) (Some (KeyPair (repeat x03 32) (repeat x04 32))) false [] 0))
    (Ok (M2_wire true true 7 (repeat x00 32))) (Ok tt)
  = ([EWrite [M1_wire 0 (repeat x04 32) None] false (Ok tt); ERead (Ok (M2_wire true true 7 (repeat x00 32)))],
     ((7, s), Err NoSuchServerException)).
Proof. eexists. vm_compute. reflexivity. Qed.
