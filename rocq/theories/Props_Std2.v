(** C96, C97 over the published algorithms: what is assumed there of a crypto library is
    proved here of SHA-512, Ed25519, X25519 and XSalsa20-Poly1305, through all back ends. *)
From Coq Require Import List ZArith Bool Strings.Byte Lia.
From Verif Require Import PyBase PyBase_proofs IO Packets Channel Crypto Crypto_proofs Spec EncChannel EncUse Time AppChannel AppUse Session SessUse SaltLib Backends
  Props_App Props_Session2 Props_Session3 Props_E2E Props_Errors SalsaSpec CurveSpec EdSpec StdLib StdLib_proofs TwSalsa_proofs Props_Std.
Import ListNotations.
Open Scope Z_scope.

(** ** C97 *)
Lemma std_beforenm : forall b pk sk, l_beforenm (a_lib (std_backends b)) pk sk = Ok (box_key pk sk).
Proof. intros b pk sk. destruct b; reflexivity. Qed.
Lemma ok_inj : forall (A : Type) (x y : A), Ok x = Ok y -> x = y.
Proof. congruence. Qed.
Lemma std_key : forall b pk sk k, l_beforenm (a_lib (std_backends b)) pk sk = Ok k -> k = box_key pk sk.
Proof. intros b pk sk k H. rewrite std_beforenm in H. symmetry. exact (ok_inj _ _ _ H). Qed.
Lemma std_no_err : forall b pk sk x, l_beforenm (a_lib (std_backends b)) pk sk <> Err x.
Proof. intros b pk sk x. rewrite std_beforenm. generalize (box_key pk sk). discriminate. Qed.
Theorem C97_standards : forall b, key_size (a_lib (std_backends b)).
Proof.
  intros b pk sk k H. apply std_key in H. subst k. apply hsalsa20_length.
Qed.
Print Assumptions C97_standards.

(** With checkers of times that accept every time and channels that do not fail, every
    exception of a client's handshake is a [ComException] but two, and every exception of
    a server's is one but two; each of them is raised at the frame named. *)
Theorem C97_client_standards : forall b TK TC sig e buf wanted tk t s x,
  std_sigpair (kp_sec sig) (kp_pub sig) -> std_encpair (kp_sec e) (kp_pub e) ->
  (forall n, tc_first TC n = Ok tt) -> accepts_times TC ->
  exec (client_handshake (a_lib (std_backends b)) TK TC (cs_init sig (Some e) buf wanted tk)) t (Some (s, Err x)) ->
  channel_raised t x \/ is_com x = true \/
  exists w m2 f3, t = [w; ERead (Ok m2); ERead (Ok f3)] /\
    ((f3 = [] /\ x = AttributeError) \/
     (x = AssertionError /\ exists c, opens (a_lib (std_backends b)) (box_key (field 6 32 m2) (kp_sec e)) 2 f3 c /\ length c <> 102%nat)).
Proof.
  intros b TK TC sig e buf wanted tk t s x Hs He H1 H2 H.
  destruct (C87_standards b) as (HL & HF & _).
  apply (C97_client_errors _ _ _ _ _ _ _ _ _ _ _ _ _ HL HF (C97_standards b) Hs He) in H.
  destruct H as [t x H|w m2 x H|w m2 x H|w m2 x H|w m2 f3 key x HK H].
  - left. exact H.
  - right. left. exact H.
  - exfalso. rewrite H1 in H. discriminate.
  - exfalso. exact (std_no_err _ _ _ _ H).
  - apply std_key in HK. subst key.
    destruct H as [H|x H|c x H [[HC ->]|HC]].
    + right. right. exists w, m2, f3. split; [reflexivity|]. left. split; [exact H|reflexivity].
    + right. left. exact H.
    + right. right. exists w, m2, f3. split; [reflexivity|]. right. split; [reflexivity|]. exists c. split; [exact H|exact HC].
    + exfalso. rewrite H2 in HC. discriminate.
Qed.
Print Assumptions C97_client_standards.
Theorem C97_server_standards : forall b TK TC sig e buf a2 tk t s x,
  std_sigpair (kp_sec sig) (kp_pub sig) -> std_encpair (kp_sec e) (kp_pub e) ->
  (forall n, tc_first TC n = Ok tt) -> accepts_times TC ->
  exec (server_handshake (a_lib (std_backends b)) TK TC (ss_init sig (Some e) buf a2 tk)) t (Some (s, Err x)) ->
  channel_raised t x \/ is_com x = true \/
  (exists f, t = [ERead (Ok f)] /\ f <> [] /\ (length f < 5)%nat /\ x = ValueError) \/
  (exists f ws, t = ERead (Ok f) :: ws ++ [ERead (Ok [])] /\ x = AttributeError).
Proof.
  intros b TK TC sig e buf a2 tk t s x Hs He H1 H2 H.
  destruct (C87_standards b) as (HL & HF & _).
  apply (C97_server_errors _ _ _ _ _ _ _ _ _ _ _ _ _ HL HF (C97_standards b) Hs He) in H.
  destruct H as [t x H|f x H|f HN HS|f x H|f m2|f t x H HT|f ws f4 key x HK H].
  - left. exact H.
  - right. left. exact H.
  - right. right. left. exists f. auto.
  - exfalso. rewrite H1 in H. discriminate.
  - right. left. reflexivity.
  - exfalso. exact (std_no_err _ _ _ _ H).
  - destruct H as [H|x H|c x H HC].
    + subst f4. right. right. right. exists f, ws. split; reflexivity.
    + right. left. exact H.
    + exfalso. rewrite H2 in HC. discriminate.
Qed.
Print Assumptions C97_server_standards.

(** ** C96: the theorems of end-to-end integrity with the published algorithms; [a_lib
    (std_backends b)] has no failure left but collisions of SHA-512 and forgeries of
    Ed25519 signatures and of boxes. *)
Theorem C96_server_standards : forall b TK TC sig e buf a2 tk t s pk a h a' lives,
  let L := a_lib (std_backends b) in
  std_encpair (kp_sec e) (kp_pub e) -> accepts_times TC ->
  exec (server_handshake L TK TC (ss_init sig (Some e) buf a2 tk)) t (Some (s, Ok tt)) ->
  ss_client_sig_key s = Some pk -> ss_app s = Some a -> ac_hist L TK TC a h a' ->
  (forall r, In r lives -> clife_ok L r /\ std_encpair (kp_sec (cr_enc (cl_run r))) (kp_pub (cr_enc (cl_run r))) /\ writes_fit (cl_hist r)) ->
  exists m1 m2, server_said t = Some (m1, m2) /\
  ((exists r, In r lives /\ kp_pub (cr_sig (cl_run r)) = pk /\ client_said (cr_t (cl_run r)) (cr_o (cl_run r)) = Some (m1, m2) /\
      (prefix_of (map fst (got_msgs h)) (map fst (sent_msgs (cl_hist r))) \/
       box_forgery L (ss_session_key s) 1 (clife_frames r) (frames_in h))) \/
   collision L \/
   exists sg, accepted L pk sg (client_text L m1 m2) /\
     forall r x y, In r lives -> kp_pub (cr_sig (cl_run r)) = pk -> client_said (cr_t (cl_run r)) (cr_o (cl_run r)) = Some (x, y) ->
       client_text L x y <> client_text L m1 m2).
Proof.
  intros b TK TC sig e buf a2 tk t s pk a h a' lives L He HT H Hpk Ha HH HR.
  exact (C96_server_reads L std_sigpair std_encpair TK TC sig e buf a2 tk t s pk a h a' lives
           (proj1 (C87_standards b)) He HT H Hpk Ha HH HR).
Qed.
Print Assumptions C96_server_standards.
Theorem C96_client_standards : forall b TK TC sig e buf wanted tk t s pk a h a' lives,
  let L := a_lib (std_backends b) in
  std_encpair (kp_sec e) (kp_pub e) -> accepts_times TC ->
  exec (client_handshake L TK TC (cs_init sig (Some e) buf wanted tk)) t (Some (s, Ok tt)) ->
  option_map m34_sig_key (cs_m3 s) = Some pk -> cs_app s = Some a -> ac_hist L TK TC a h a' ->
  (forall r, In r lives -> slife_ok L r /\ std_encpair (kp_sec (sr_enc (sl_run r))) (kp_pub (sr_enc (sl_run r))) /\ writes_fit (sl_hist r)) ->
  exists m1 m2, client_said t (Some (s, Ok tt)) = Some (m1, m2) /\
  ((exists r, In r lives /\ kp_pub (sr_sig (sl_run r)) = pk /\ server_said (sr_t (sl_run r)) = Some (m1, m2) /\
      (prefix_of (map fst (got_msgs h)) (map fst (sent_msgs (sl_hist r))) \/
       box_forgery L (cs_session_key s) 2 (slife_frames r) (frames_in h))) \/
   collision L \/
   exists sg, accepted L pk sg (server_text L m1 m2) /\
     forall r x y, In r lives -> kp_pub (sr_sig (sl_run r)) = pk -> server_said (sr_t (sl_run r)) = Some (x, y) ->
       server_text L x y <> server_text L m1 m2).
Proof.
  intros b TK TC sig e buf wanted tk t s pk a h a' lives L He HT H Hpk Ha HH HR.
  exact (C96_client_reads L std_sigpair std_encpair TK TC sig e buf wanted tk t s pk a h a' lives
           (proj1 (C87_standards b)) He HT H Hpk Ha HH HR).
Qed.
Print Assumptions C96_client_standards.

(** A point of small order is not refused: the key has 32 bytes and no exception is raised. *)
Example C97_standards_example : length (box_key (repeat x00 32) (repeat x01 32)) = 32%nat /\
  l_beforenm (a_lib (std_backends Native)) (repeat x00 32) (repeat x01 32) = Ok (box_key (repeat x00 32) (repeat x01 32)).
Proof. split; [apply hsalsa20_length|apply std_beforenm]. Qed.
