(** Property C136: a signature made in one handshake is of no use in another one. *)
From Coq Require Import List ZArith Bool Strings.Byte Lia ZifyBool ZifyNat ZifyN.
From Verif Require Import PyBase PyBase_proofs IO IO_proofs Packets Crypto Crypto_proofs Time EncChannel EncUse AppChannel AppUse Session Session_proofs
  SessUse Session_steps SaltLib Backends Spec ShaSpec SalsaSpec CurveSpec EdSpec TwSalsa_proofs TwCurve_proofs TwEd_proofs EdSig_proofs StdLib StdLib_proofs
  Props_Session Props_Std Props_Front Props_OneSig.
Import ListNotations.
Open Scope Z_scope.

Lemma std_sign_open_eq : forall b sm pk, l_sign_open (a_lib (std_backends b)) sm pk = match std_open sm pk with Some x => Ok x | None => Err BadSignatureException end.
Proof.
  intros b sm pk. destruct b; [apply std_native_open|..]; cbn [std_backends backends wrapped_api a_lib wrapped_lib l_sign_open std_bindings bi_sign_open]; destruct (std_open sm pk); reflexivity.
Qed.
Lemma std_sign_open_w : forall b sm pk m, l_sign_open (a_lib (std_backends b)) sm pk = Ok m -> ed_verify pk (firstn 64 sm) (skipn 64 sm) = true.
Proof.
  intros b sm pk m H. rewrite std_sign_open_eq in H. unfold std_open in H. destruct (ed_verify pk (firstn 64 sm) (skipn 64 sm)); [reflexivity|discriminate].
Qed.
Lemma std_accepted : forall b pk sg text, length sg = 64%nat -> accepted (a_lib (std_backends b)) pk sg text -> rfc_valid pk sg text.
Proof.
  intros b pk sg text HS [m H]. apply std_sign_open_w in H. apply ed_verify_w in H. destruct H as [_ H].
  rewrite firstn_app, skipn_app, HS, Nat.sub_diag, firstn_O, skipn_O, app_nil_r, firstn_all2, skipn_all2, app_nil_l in H by lia. exact H.
Qed.
Lemma std_sha : forall b m, l_sha512 (a_lib (std_backends b)) m = sha512 m.
Proof. intros b m. destruct b; reflexivity. Qed.

(** The hash in which RFC 8032 binds a text to the first half of a signature and to the key *)
Definition bound_hash (pk sg text : list byte) : Z := le_word (sha512 (firstn 32 sg ++ pk ++ text)) mod rfc_L.

(** Under a key made from a seed, one signature is accepted for two texts, through any of
    the back ends (one for each text), only if their hashes agree. *)
Theorem C136_texts : forall b b' seed sg x y, length sg = 64%nat ->
  accepted (a_lib (std_backends b)) (ed_public seed) sg x -> accepted (a_lib (std_backends b')) (ed_public seed) sg y ->
  bound_hash (ed_public seed) sg x = bound_hash (ed_public seed) sg y.
Proof.
  intros b b' seed sg x y HS X Y. exact (one_message seed sg x y (rfc_loose _ _ _ (std_accepted _ _ _ _ HS X)) (rfc_loose _ _ _ (std_accepted _ _ _ _ HS Y))).
Qed.
Print Assumptions C136_texts.
(** Beside it: every seed makes accepted signatures of every text; and under the key that is
    the encoding of the neutral element, which RFC 8032 admits and which no seed makes, one
    signature is accepted for all texts. *)
Lemma rfc_accepted : forall b pk sg text, length pk = 32%nat -> rfc_valid pk sg text -> accepted (a_lib (std_backends b)) pk sg text.
Proof.
  intros b pk sg text LK V. pose proof V as [HS _]. exists text. rewrite std_sign_open_eq. unfold std_open.
  rewrite firstn_app, skipn_app, HS, Nat.sub_diag, firstn_O, skipn_O, app_nil_r, firstn_all2, skipn_all2, app_nil_l by lia.
  rewrite (proj2 (ed_verify_w pk sg text) (conj LK V)). reflexivity.
Qed.
Example C136_example :
  (forall b seed text, accepted (a_lib (std_backends b)) (ed_public seed) (ed_sign seed (ed_public seed) text) text) /\
  (forall b text, accepted (a_lib (std_backends b)) (le_bytes 32 1) (le_bytes 32 1 ++ le_bytes 32 0) text) /\
  forall seed, ed_public seed <> le_bytes 32 1.
Proof.
  split; [|split; [|exact (proj2 C85_own_key_example)]].
  - intros b seed text. apply rfc_accepted; [apply encode_length|apply sign_valid].
  - intros b text. apply rfc_accepted; [reflexivity|apply weak_valid].
Qed.

Lemma texts_split : forall (p : bytes) b b' m1 m2 m1' m2',
  (sha512 m1 = sha512 m1' /\ sha512 m2 = sha512 m2') \/
  p ++ l_sha512 (a_lib (std_backends b)) m1 ++ l_sha512 (a_lib (std_backends b)) m2 <>
  p ++ l_sha512 (a_lib (std_backends b')) m1' ++ l_sha512 (a_lib (std_backends b')) m2'.
Proof.
  intros p b b' m1 m2 m1' m2'.
  pose proof (law_sha_len _ _ _ (proj1 (C87_standards b)) m1) as A. pose proof (law_sha_len _ _ _ (proj1 (C87_standards b)) m1') as A'.
  rewrite !std_sha in *. destruct (bytes_eq_dec (sha512 m1 ++ sha512 m2) (sha512 m1' ++ sha512 m2')) as [E|N].
  - left. apply app_inj_len in E; [exact E|]. unfold zlen in A, A'. lia.
  - right. intros E. apply app_inv_head in E. contradiction.
Qed.

(** Two clients, with any keys, clocks and back ends, that both completed with the server
    key of a seed and were shown the same signature: either their M1s and M2s have the
    same hashes, or two different texts have the same bound hash. *)
Theorem C136_clients : forall b b' seed TK TC sig e buf w tk t s TK' TC' sig' e' buf' w' tk' t' s' c3 c3',
  exec (client_handshake (a_lib (std_backends b)) TK TC (cs_init sig e buf w tk)) t (Some (s, Ok tt)) ->
  exec (client_handshake (a_lib (std_backends b')) TK' TC' (cs_init sig' e' buf' w' tk')) t' (Some (s', Ok tt)) ->
  cs_m3 s = Some c3 -> cs_m3 s' = Some c3' ->
  field 6 32 c3 = ed_public seed -> field 6 32 c3' = ed_public seed -> field 38 64 c3 = field 38 64 c3' ->
  exists m1 m2 rest m1' m2' rest',
    t = EWrite [m1] false (Ok tt) :: ERead (Ok m2) :: rest /\ t' = EWrite [m1'] false (Ok tt) :: ERead (Ok m2') :: rest' /\
    ((sha512 m1 = sha512 m1' /\ sha512 m2 = sha512 m2') \/
     let x := sig1_prefix ++ sha512 m1 ++ sha512 m2 in let y := sig1_prefix ++ sha512 m1' ++ sha512 m2' in
     x <> y /\ bound_hash (ed_public seed) (field 38 64 c3) x = bound_hash (ed_public seed) (field 38 64 c3) y).
Proof.
  assert (M : forall b TK TC sig e buf w tk t s c3, exec (client_handshake (a_lib (std_backends b)) TK TC (cs_init sig e buf w tk)) t (Some (s, Ok tt)) ->
    cs_m3 s = Some c3 -> exists m1 m2 rest, t = EWrite [m1] false (Ok tt) :: ERead (Ok m2) :: rest /\ length (field 38 64 c3) = 64%nat /\
      accepted (a_lib (std_backends b)) (field 6 32 c3) (field 38 64 c3) (server_text (a_lib (std_backends b)) m1 m2)).
  { intros b TK TC sig e buf w tk t s c3 H HC.
    destruct e as [e|]; [|apply (exec_ret_inv _ (cs_init sig None buf w tk, Err ValueError)) in H; destruct H as [_ H]; discriminate].
    destruct (client_exec _ _ _ _ _ _ _ _ _ _ H) as [[_ H0]|(r & t1 & -> & [[_ H0]|(m2 & f3 & rest & key & d & sg & -> & -> & HF & HE)])];
      [exfalso; eapply H0; reflexivity|exfalso; eapply H0; reflexivity|].
    destruct HF as (_ & _ & _ & _ & F5 & _ & F7 & _).
    assert (CE : client_end TK sig e buf tk key d sg s).
    { destruct buf.
      - destruct HE as [_ [HE|(s' & HE & HC')]]; [discriminate|]. injection HE as <-. exact HC'.
      - destruct HE as [[_ HE]|(f4 & r2 & _ & _ & [HE|(s' & HE & HC')])]; [exfalso; eapply HE; reflexivity|discriminate|].
        injection HE as <- _. exact HC'. }
    destruct CE as (_ & E2 & _). rewrite E2 in HC. injection HC as <-.
    exists (M1_wire (fst (tk_first TK tk)) (kp_pub e) None), m2, (ERead (Ok f3) :: rest). split; [reflexivity|]. split; [apply field_length|exact F7]. }
  intros b b' seed TK TC sig e buf w tk t s TK' TC' sig' e' buf' w' tk' t' s' c3 c3' H H' HC HC' K K' S.
  destruct (M _ _ _ _ _ _ _ _ _ _ _ H HC) as (m1 & m2 & rest & E & Ls & A).
  destruct (M _ _ _ _ _ _ _ _ _ _ _ H' HC') as (m1' & m2' & rest' & E' & _ & A'). clear M H H'.
  exists m1, m2, rest, m1', m2', rest'. split; [exact E|]. split; [exact E'|].
  rewrite K in A. rewrite K', <- S in A'. pose proof (C136_texts b b' seed _ _ _ Ls A A') as Q. unfold server_text in Q.
  destruct (texts_split sig1_prefix b b' m1 m2 m1' m2') as [D|D]; [left; exact D|right]. rewrite !std_sha in *. split; [exact D|exact Q].
Qed.
Print Assumptions C136_clients.

(** The same for two servers and the signature of the client (the one in the opened
    M4, which the session fills up with zeros if it is cut short). *)
Definition m4_seen (L : lib) (t : list ev) (s : ss) (c4 : bytes) : Prop :=
  exists before f4, t = before ++ [ERead (Ok f4)] /\ opens L (ss_session_key s) 1 f4 c4.
Theorem C136_servers : forall b b' seed TK TC sig e buf a2 tk t s TK' TC' sig' e' buf' a2' tk' t' s' c4 c4',
  exec (server_handshake (a_lib (std_backends b)) TK TC (ss_init sig e buf a2 tk)) t (Some (s, Ok tt)) ->
  exec (server_handshake (a_lib (std_backends b')) TK' TC' (ss_init sig' e' buf' a2' tk')) t' (Some (s', Ok tt)) ->
  ss_client_sig_key s = Some (ed_public seed) -> ss_client_sig_key s' = Some (ed_public seed) ->
  m4_seen (a_lib (std_backends b)) t s c4 -> m4_seen (a_lib (std_backends b')) t' s' c4' ->
  field 38 64 c4 = field 38 64 c4' ->
  exists m1 m2 fs l rest m1' m2' fs' l' rest',
    t = ERead (Ok m1) :: EWrite (m2 :: fs) l (Ok tt) :: rest /\ t' = ERead (Ok m1') :: EWrite (m2' :: fs') l' (Ok tt) :: rest' /\
    ((sha512 m1 = sha512 m1' /\ sha512 m2 = sha512 m2') \/
     let x := sig2_prefix ++ sha512 m1 ++ sha512 m2 in let y := sig2_prefix ++ sha512 m1' ++ sha512 m2' in
     x <> y /\ bound_hash (ed_public seed) (field 38 64 c4) x = bound_hash (ed_public seed) (field 38 64 c4) y).
Proof.
  assert (M : forall b TK TC sig e buf a2 tk t s pk c4, exec (server_handshake (a_lib (std_backends b)) TK TC (ss_init sig e buf a2 tk)) t (Some (s, Ok tt)) ->
    ss_client_sig_key s = Some pk -> m4_seen (a_lib (std_backends b)) t s c4 ->
    exists m1 m2 fs l rest, t = ERead (Ok m1) :: EWrite (m2 :: fs) l (Ok tt) :: rest /\
      accepted (a_lib (std_backends b)) pk (field 38 64 c4) (client_text (a_lib (std_backends b)) m1 m2)).
  { intros b TK TC sig e buf a2 tk t s pk c4 H HK (bf & f4 & Et & Ho).
    destruct (C34_client_verified _ _ _ _ _ _ _ _ _ _ H) as [(_ & _ & N)|(_ & e0 & m1 & m2 & f3 & g4 & d4 & _ & E & _ & _ & O & A & K)]; [congruence|].
    assert (g4 = f4) as ->.
    { rewrite Et in E. destruct buf; cbn [app] in E.
      - change (ERead (Ok m1) :: EWrite [m2; f3] false (Ok tt) :: [ERead (Ok g4)]) with ([ERead (Ok m1); EWrite [m2; f3] false (Ok tt)] ++ [ERead (Ok g4)]) in E.
        apply app_inj_tail in E. destruct E as [_ E]. congruence.
      - change (ERead (Ok m1) :: EWrite [m2] false (Ok tt) :: EWrite [f3] false (Ok tt) :: [ERead (Ok g4)]) with ([ERead (Ok m1); EWrite [m2] false (Ok tt); EWrite [f3] false (Ok tt)] ++ [ERead (Ok g4)]) in E.
        apply app_inj_tail in E. destruct E as [_ E]. congruence. }
    assert (d4 = c4) as ->.
    { destruct O as (fl & bd & O1 & _ & O2), Ho as (fl' & bd' & P1 & _ & P2). rewrite O1 in P1. injection P1 as _ <-. rewrite O2 in P2. congruence. }
    rewrite K in HK. injection HK as <-.
    exists m1, m2. destruct buf.
    - exists [f3], false, [ERead (Ok f4)]. split; [exact E|exact A].
    - exists [], false, [EWrite [f3] false (Ok tt); ERead (Ok f4)]. split; [exact E|exact A]. }
  intros b b' seed TK TC sig e buf a2 tk t s TK' TC' sig' e' buf' a2' tk' t' s' c4 c4' H H' K K' V V' S.
  destruct (M _ _ _ _ _ _ _ _ _ _ _ _ H K V) as (m1 & m2 & fs & l & rest & E & A).
  destruct (M _ _ _ _ _ _ _ _ _ _ _ _ H' K' V') as (m1' & m2' & fs' & l' & rest' & E' & A'). clear M H H'.
  exists m1, m2, fs, l, rest, m1', m2', fs', l', rest'. split; [exact E|]. split; [exact E'|].
  rewrite <- S in A'. pose proof (C136_texts b b' seed _ _ _ (field_length 38 64 c4) A A') as Q. unfold client_text in Q.
  destruct (texts_split sig2_prefix b b' m1 m2 m1' m2') as [D|D]; [left; exact D|right]. rewrite !std_sha in *. split; [exact D|exact Q].
Qed.
Print Assumptions C136_servers.

(** A signature that a client took from its server and a server took from its client, both
    under one key made from a seed, is a signature of two different texts with the same
    bound hash: a peer cannot send a signature back, nor pass a server's on as a client's. *)
Theorem C136_roles : forall b b' seed sg m1 m2 m1' m2', length sg = 64%nat ->
  accepted (a_lib (std_backends b)) (ed_public seed) sg (server_text (a_lib (std_backends b)) m1 m2) ->
  accepted (a_lib (std_backends b')) (ed_public seed) sg (client_text (a_lib (std_backends b')) m1' m2') ->
  let x := sig1_prefix ++ sha512 m1 ++ sha512 m2 in let y := sig2_prefix ++ sha512 m1' ++ sha512 m2' in
  x <> y /\ bound_hash (ed_public seed) sg x = bound_hash (ed_public seed) sg y.
Proof.
  intros b b' seed sg m1 m2 m1' m2' HS A A'. pose proof (C136_texts b b' seed sg _ _ HS A A') as Q.
  pose proof (C35_roles_separated (a_lib (std_backends b)) m1 m2 m1' m2') as D. unfold server_text, client_text in *. rewrite !std_sha in *. split; [exact D|exact Q].
Qed.
Print Assumptions C136_roles.
