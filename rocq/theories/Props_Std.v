(** C87, C88: the sessions over the published algorithms, without assumptions about crypto. *)
From Coq Require Import List ZArith Bool Strings.Byte Lia ZifyBool ZifyNat ZifyN.
From Verif Require Import PyBase PyBase_proofs Channel Crypto EncChannel Time AppChannel IO Session SessUse Stack StackUse Pipe Props_Session2 Props_Stack Props_Pipe Stack_fit Pipe_proofs SaltLib Backends Props_Misc Props_Backends ShaSpec SalsaSpec PolySpec CurveSpec EdSpec StdLib StdLib_proofs TwSalsa_proofs TwEd_proofs.
Import ListNotations.
Open Scope Z_scope.
Ltac Zify.zify_post_hook ::= Z.div_mod_to_equations.

(** ** C87: what the theorems about sessions assume of a crypto library holds of the
    published algorithms, through all three back ends. *)
Lemma std_sodium_laws : sodium_laws std_sodium std_sigpair std_encpair.
Proof.
  constructor; cbn [std_sodium so_hash so_sign so_sign_open so_beforenm so_afternm so_open_afternm].
  - intros m. exists (sha512 m). split; [reflexivity|apply sha512_length].
  - exact std_sigpub.
  - intros sk pk m H. destruct (std_sign_parts sk pk m H) as (s & L & E & O). exists s, (repeat x00 64). split; [exact L|]. rewrite E, O. split; reflexivity.
  - intros sk pk [L _]. exact L.
  - exact std_encpub.
  - intros ska pka skb pkb HA HB. destruct (std_dh _ _ _ _ HA HB) as [L E]. exists (box_key pkb ska). split; [exact L|]. split; [reflexivity|]. rewrite E. reflexivity.
  - intros m n k _ _. exists (secretbox k n m). split; [apply secretbox_length|].
    rewrite !skipn_app, !repeat_length, !Nat.sub_diag, !skipn_all2, !skipn_O, !app_nil_l by (rewrite repeat_length; lia). rewrite unbox_box. split; reflexivity.
Qed.
Lemma std_wrapped_laws : nacl_laws (wrapped_lib std_bindings) std_sigpair std_encpair.
Proof.
  constructor; cbn [wrapped_lib std_bindings l_sha512 l_sign l_sign_open l_beforenm l_afternm l_open_afternm bi_hash bi_sign bi_sign_open bi_beforenm bi_afternm bi_open_afternm].
  - intros m. unfold zlen, bytes. rewrite sha512_length. reflexivity.
  - exact std_sigpub.
  - intros sk pk m H. destruct (std_sign_parts sk pk m H) as (s & L & E & O). exists s. split; [exact L|]. rewrite E, O. split; reflexivity.
  - intros sk pk [L _]. exact L.
  - exact std_encpub.
  - intros ska pka skb pkb HA HB. destruct (std_dh _ _ _ _ HA HB) as [L E]. exists (box_key pkb ska). split; [exact L|]. split; [reflexivity|]. rewrite E. reflexivity.
  - intros m n k _ _. exists (secretbox k n m). split; [reflexivity|]. rewrite secretbox_length, unbox_box. split; [lia|reflexivity].
Qed.
Definition std_backends : backend -> api := backends std_sodium std_bindings std_bindings.
Theorem C87_standards : forall b,
  nacl_laws (a_lib (std_backends b)) std_sigpair std_encpair /\ nacl_fail_laws (a_lib (std_backends b)) /\ keygen_laws (std_backends b) /\
  (forall seed pk sk, a_seed_keypair (std_backends b) seed = Ok (pk, sk) -> length seed = 32%nat -> std_sigpair sk pk) /\
  (forall sk pk, a_scalarmult_base (std_backends b) sk = Ok pk -> length sk = 32%nat -> std_encpair sk pk).
Proof.
  intros b. split; [|split; [|split; [|split]]].
  - destruct b; [exact (C59_native_wrapper _ _ _ std_sodium_laws)|exact std_wrapped_laws|exact std_wrapped_laws].
  - destruct (C60_failures_uniform std_sodium std_bindings std_bindings b) as (F1 & F2 & _). constructor; [exact F1|exact F2|].
    intros c n k m. destruct b; cbn [std_backends backends native_api wrapped_api a_lib native_lib wrapped_lib l_open_afternm l_afternm std_bindings bi_open_afternm bi_afternm].
    + unfold native_open_afternm, native_afternm, BOXZEROBYTES, ZEROBYTES, zeros. cbn [std_sodium so_open_afternm so_afternm].
      rewrite !skipn_app, !repeat_length, !Nat.sub_diag, !skipn_all2, !skipn_O, !app_nil_l by (rewrite repeat_length; lia).
      destruct (std_unbox k n c) as [m'|] eqn:E; [|discriminate]. change (0 =? 0) with true. cbv iota. intros Q.
      rewrite skipn_app, repeat_length, Nat.sub_diag, skipn_all2, skipn_O, app_nil_l in Q by (rewrite repeat_length; lia). assert (m' = m) by congruence. subst m'.
      rewrite (unbox_sound _ _ _ _ E). reflexivity.
    + destruct (std_unbox k n c) as [m'|] eqn:E; cbn [except_all]; [|discriminate]. intros Q. assert (m' = m) by congruence. subst m'. rewrite (unbox_sound _ _ _ _ E). reflexivity.
    + destruct (std_unbox k n c) as [m'|] eqn:E; cbn [except_all]; [|discriminate]. intros Q. assert (m' = m) by congruence. subst m'. rewrite (unbox_sound _ _ _ _ E). reflexivity.
  - constructor; intros s H.
    + exists (ed_public s). split; [apply encode_length|]. destruct b; reflexivity.
    + exists (box_public s). split; [apply (std_encpub s); split; [exact H|reflexivity]|]. destruct b; reflexivity.
  - intros seed pk sk E L. assert (Q : a_seed_keypair (std_backends b) seed = Ok (ed_public seed, seed ++ ed_public seed)) by (destruct b; reflexivity).
    rewrite Q in E. exists seed. split; [exact L|]. assert (pk = ed_public seed) by congruence. subst pk. split; [reflexivity|congruence].
  - intros sk pk E L. assert (Q : a_scalarmult_base (std_backends b) sk = Ok (box_public sk)) by (destruct b; reflexivity). rewrite Q in E. split; [exact L|congruence].
Qed.
Print Assumptions C87_standards.
(** The secret key 07 .. 07, and a box made with one back end and opened with another *)
Lemma std_sig_call : forall b s, length s = 32%nat -> salt_call std_backends (Some b) (QSigKeysFrom s) = Ok (AKeys (s ++ ed_public s) (ed_public s)).
Proof.
  intros b s L. unfold salt_call, with_api, sig_keys_from, sign_keypair, keys_of, zlen. rewrite firstn_all2 by lia. unfold bytes in *. rewrite L.
  change (negb (Z.of_nat 32 =? 32)) with false. cbv iota. destruct b; reflexivity.
Qed.
Lemma std_box_call : forall b m n k, l_afternm (a_lib (std_backends b)) m n k = Ok (secretbox k n m) /\
  l_open_afternm (a_lib (std_backends b)) (secretbox k n m) n k = Ok m.
Proof.
  intros b m n k. destruct b; cbn [std_backends backends native_api wrapped_api a_lib native_lib wrapped_lib l_open_afternm l_afternm std_bindings bi_open_afternm bi_afternm].
  - unfold native_open_afternm, native_afternm, BOXZEROBYTES, ZEROBYTES, zeros. cbn [std_sodium so_open_afternm so_afternm].
    rewrite !skipn_app, !repeat_length, !Nat.sub_diag, !skipn_all2, !skipn_O, !app_nil_l by (rewrite repeat_length; lia). rewrite unbox_box. split; [reflexivity|].
    change (0 =? 0) with true. cbv iota. rewrite skipn_app, repeat_length, Nat.sub_diag, skipn_all2, skipn_O, app_nil_l by (rewrite repeat_length; lia). reflexivity.
  - rewrite unbox_box. split; reflexivity.
  - rewrite unbox_box. split; reflexivity.
Qed.
Example C87_example : exists pk c,
  salt_call std_backends (Some Native) (QSigKeysFrom (repeat x07 32)) = Ok (AKeys (repeat x07 32 ++ pk) pk) /\
  salt_call std_backends (Some PyNaCl) (QSigKeysFrom (repeat x07 32)) = Ok (AKeys (repeat x07 32 ++ pk) pk) /\
  l_afternm (a_lib (std_backends Native)) [x68; x69] (repeat x00 24) (repeat x07 32) = Ok c /\
  l_open_afternm (a_lib (std_backends PyNaCl)) c (repeat x00 24) (repeat x07 32) = Ok [x68; x69].
Proof.
  exists (ed_public (repeat x07 32)), (secretbox (repeat x07 32) (repeat x00 24) [x68; x69]).
  split; [apply std_sig_call; reflexivity|]. split; [apply std_sig_call; reflexivity|]. split; [apply std_box_call|apply std_box_call].
Qed.

(** ** C88: sessions over the published algorithms.  Both peers use one back end (any of
    the three), keys made by [SaltLib] from any secret bytes, and the default clocks. *)
Definition std_sig_keys (b : backend) (k : keypair) : Prop :=
  exists sec, salt_call std_backends (Some b) (QSigKeysFrom sec) = Ok (AKeys (kp_sec k) (kp_pub k)).
Definition std_enc_keys (b : backend) (k : keypair) : Prop :=
  exists sec, salt_call std_backends (Some b) (QEncKeysFrom sec) = Ok (AKeys (kp_sec k) (kp_pub k)).
Lemma sig_keys_w : forall b k, std_sig_keys b k -> std_sigpair (kp_sec k) (kp_pub k).
Proof.
  intros b k [sec E]. destruct (C87_standards b) as (_ & _ & _ & G & _). unfold salt_call, with_api, sig_keys_from, sign_keypair, keys_of, zlen, bytes in E.
  destruct (Z.eqb_spec (Z.of_nat (length (firstn 32 sec))) 32) as [L|L]; cbn [negb] in E; [|discriminate].
  destruct (a_seed_keypair (std_backends b) (firstn 32 sec)) as [[pk sk]|e] eqn:Q; [|discriminate]. injection E as <- <-. eapply G; [exact Q|lia].
Qed.
Lemma enc_keys_w : forall b k, std_enc_keys b k -> std_encpair (kp_sec k) (kp_pub k).
Proof.
  intros b k [sec E]. destruct (C87_standards b) as (_ & _ & _ & _ & G). unfold salt_call, with_api, enc_keys_from, box_keypair, keys_of, zlen, bytes in E.
  destruct (Z.eqb_spec (Z.of_nat (length sec)) 32) as [L|L]; cbn [negb] in E; [|discriminate].
  destruct (a_scalarmult_base (std_backends b) sec) as [pk|e] eqn:Q; [|discriminate]. injection E as <- <-. eapply G; [exact Q|lia].
Qed.
Lemma std_peers : forall b csig ssig ce se sbuf tkc tks, std_sig_keys b csig -> std_sig_keys b ssig -> std_enc_keys b ce -> std_enc_keys b se ->
  peers_ok (a_lib (std_backends b)) std_sigpair std_encpair null_keeper null_keeper null_checker null_checker csig ssig ce se sbuf tkc tks.
Proof.
  intros b csig ssig ce se sbuf tkc tks H1 H2 H3 H4. constructor;
    [apply C87_standards|exact (sig_keys_w b _ H1)|exact (sig_keys_w b _ H2)|exact (enc_keys_w b _ H3)|exact (enc_keys_w b _ H4)|reflexivity|destruct sbuf; reflexivity|intro; reflexivity|intro; reflexivity].
Qed.
Theorem C88_pipe : forall b TL TR csig ssig ce se cbuf sbuf w a2 tkc tks A B (p : io A) (q : io B) F nl nr,
  let L := a_lib (std_backends b) in
  byte_channel TL -> byte_channel TR ->
  std_sig_keys b csig -> std_sig_keys b ssig -> std_enc_keys b ce -> std_enc_keys b se -> a2_fits a2 ->
  modest nl p -> modest nr q -> Z.of_nat nl < 2 ^ 62 -> Z.of_nat nr < 2 ^ 62 ->
  (cbuf = true -> exists ms l k, p = Write ms l k) ->
  always_ends (Sys p q [] []) F ->
  inevitable (cstep TL TR)
    (fun c => same_end (s_left F) (c_left c) /\ same_end (s_right F) (c_right c) /\
       (s_lr F = [] -> c_rbuf c = [] /\ c_lr c = []) /\ (s_rl F = [] -> c_lbuf c = [] /\ c_rl c = []))
    (Conn (client_runs L null_keeper null_checker (cs_init csig (Some ce) cbuf w tkc) p) []
          (server_runs L null_keeper null_checker (ss_init ssig (Some se) sbuf a2 tks) q) [] [] []).
Proof.
  intros b TL TR csig ssig ce se cbuf sbuf w a2 tkc tks A B p q F nl nr L HL HR K1 K2 K3 K4. subst L.
  intros HA M1 M2 B1 B2 HC HE.
  exact (C65_pipe_over_streams TL TR _ _ _ _ _ _ _ csig ssig ce se cbuf sbuf w a2 tkc tks A B p q F nl nr HL HR
    (std_peers b csig ssig ce se sbuf tkc tks K1 K2 K3 K4) (proj1 (proj2 (C87_standards b))) HA M1 M2 B1 B2 HC HE).
Qed.
Print Assumptions C88_pipe.
Theorem C88_echo : forall b TL TR csig ssig ce se cbuf sbuf w a2 tkc tks ms,
  let L := a_lib (std_backends b) in
  byte_channel TL -> byte_channel TR ->
  std_sig_keys b csig -> std_sig_keys b ssig -> std_enc_keys b ce -> std_enc_keys b se -> a2_fits a2 ->
  ms <> [] -> Z.of_nat (length ms) < 2 ^ 62 -> Forall (fun m => Z.of_nat (length m) + 24 < 2 ^ 31) ms ->
  inevitable (cstep TL TR)
    (fun c => exists sC aC sS aS, c = Conn (Ret (sC, Some aC, Ok (Ok ms))) [] (Ret (sS, Some aS, Ok (Ok tt))) [] [] [])
    (Conn (client_runs L null_keeper null_checker (cs_init csig (Some ce) cbuf w tkc) (echo_client ms [])) []
          (server_runs L null_keeper null_checker (ss_init ssig (Some se) sbuf a2 tks) (echo_server (length ms))) [] [] []).
Proof.
  intros b TL TR csig ssig ce se cbuf sbuf w a2 tkc tks ms L HL HR K1 K2 K3 K4 HA HN HB HM. subst L.
  exact (C65_echo TL TR _ _ _ _ _ _ _ csig ssig ce se cbuf sbuf w a2 tkc tks ms HL HR
    (std_peers b csig ssig ce se sbuf tkc tks K1 K2 K3 K4) (proj1 (proj2 (C87_standards b))) HA HN HB HM).
Qed.
Print Assumptions C88_echo.
(** Keys for every secret *)
Example C88_example : forall b s1 s2, length s1 = 32%nat -> length s2 = 32%nat -> exists csig ce,
  std_sig_keys b csig /\ std_enc_keys b ce /\ firstn 32 (kp_sec csig) = s1 /\ kp_sec ce = s2.
Proof.
  intros b s1 s2 L1 L2. destruct (C54_keys_from_sec std_backends b (proj1 (proj2 (proj2 (C87_standards b))))) as (_ & G1 & _ & G2).
  destruct (G1 s1 ltac:(lia)) as (p1 & _ & E1 & _). destruct (G2 s2 L2) as (p2 & _ & E2).
  exists (KeyPair (firstn 32 s1 ++ p1) p1), (KeyPair s2 p2). split; [exists s1; exact E1|]. split; [exists s2; exact E2|]. split; [|reflexivity].
  cbn [kp_sec]. rewrite (firstn_all2 s1) by lia. rewrite firstn_app, L1, Nat.sub_diag, firstn_O, app_nil_r. apply firstn_all2. lia.
Qed.
