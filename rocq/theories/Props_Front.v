(** C115, C116: the front end [SaltLib]; C40: an injected refusal. *)
From Coq Require Import List ZArith Bool Strings.Byte Lia ZifyBool ZifyNat ZifyN.
From Verif Require Import PyBase PyBase_proofs IO IO_proofs Packets Packets_proofs A1A2_proofs Fields Crypto Crypto_proofs Time Session Session_proofs SessUse Session_steps Sched_proofs Session_fwd
  Session_sched Spec SaltLib SaltRand Backends ShaSpec SalsaSpec PolySpec CurveSpec EdSpec StdLib StdLib_proofs TwSalsa_proofs TwEd_proofs Props_Packets Props_Session Props_Session2 Props_Session3 Props_Std.
Import ListNotations.
Open Scope Z_scope.
Ltac Zify.zify_post_hook ::= Z.div_mod_to_equations.

(** ** C115: every operation of SaltLib is the standard's *)
Lemma std_native_box : forall k n c, l_open_afternm (a_lib (std_backends Native)) c n k = match std_unbox k n c with Some m => Ok m | None => Err BadEncryptedDataException end.
Proof.
  intros k n c. cbn [std_backends backends native_api a_lib native_lib l_open_afternm]. unfold native_open_afternm, BOXZEROBYTES, ZEROBYTES, zeros. cbn [std_sodium so_open_afternm].
  rewrite skipn_app, repeat_length, Nat.sub_diag, skipn_all2, skipn_O, app_nil_l by (rewrite repeat_length; lia).
  destruct (std_unbox k n c) as [m|]; [|reflexivity]. change (0 =? 0) with true. cbv iota.
  rewrite skipn_app, repeat_length, Nat.sub_diag, skipn_all2, skipn_O, app_nil_l by (rewrite repeat_length; lia). reflexivity.
Qed.
Lemma std_native_open : forall sm pk, l_sign_open (a_lib (std_backends Native)) sm pk = match std_open sm pk with Some m => Ok m | None => Err BadSignatureException end.
Proof.
  intros sm pk. cbn [std_backends backends native_api a_lib native_lib l_sign_open]. unfold native_sign_open. cbn [std_sodium so_sign_open].
  destruct (std_open sm pk) as [m|]; [|reflexivity]. change (0 =? 0) with true. cbv iota. unfold zlen. rewrite Nat2Z.id, firstn_app, firstn_all, Nat.sub_diag, firstn_O, app_nil_r. reflexivity.
Qed.
(** The answer of SaltLib to each request, over libraries that compute the published
    algorithms, for each back end *)
Theorem C115_operations : forall b,
  (forall m, salt_call std_backends (Some b) (QSha512 m) = Ok (ABytes (sha512 m))) /\
  (forall r, salt_call std_backends (Some b) (QSigKeys r) = if (32 <=? length r)%nat then Ok (AKeys (firstn 32 r ++ ed_public (firstn 32 r)) (ed_public (firstn 32 r))) else Err ValueError) /\
  (forall r, salt_call std_backends (Some b) (QEncKeys r) = if (length r =? 32)%nat then Ok (AKeys r (box_public r)) else Err ValueError) /\
  (forall m sk, salt_call std_backends (Some b) (QSign m sk) = Ok (ABytes (ed_sign (firstn 32 sk) (firstn 32 (skipn 32 sk)) m ++ m))) /\
  (forall sm pk, salt_call std_backends (Some b) (QSignOpen sm pk) =
     if ed_verify pk (firstn 64 sm) (skipn 64 sm) then Ok (ABytes (skipn 64 sm)) else Err BadSignatureException) /\
  (forall sk pk, salt_call std_backends (Some b) (QShared sk pk) =
     if (length sk =? 32)%nat && (length pk =? 32)%nat then Ok (ABytes (box_key pk sk)) else Err ValueError) /\
  (forall k n m, salt_call std_backends (Some b) (QEncrypt k n m) = Ok (ABytes (secretbox k n m))) /\
  (forall k n c m, salt_call std_backends (Some b) (QDecrypt k n c) = Ok (ABytes m) <-> c = secretbox k n m) /\
  (forall k n c e, salt_call std_backends (Some b) (QDecrypt k n c) = Err e -> e = BadEncryptedDataException).
Proof.
  intros b.
  assert (D : forall k n c, salt_call std_backends (Some b) (QDecrypt k n c) = match std_unbox k n c with Some m => Ok (ABytes m) | None => Err BadEncryptedDataException end).
  { intros k n c. unfold salt_call, with_api, bytes_of. destruct b; [rewrite std_native_box|cbn [std_backends backends wrapped_api a_lib wrapped_lib l_open_afternm std_bindings bi_open_afternm]..];
      destruct (std_unbox k n c); reflexivity. }
  split; [|split; [|split; [|split; [|split; [|split; [|split; [|split]]]]]]].
  - intros m. destruct b; reflexivity.
  - intros r. unfold salt_call, with_api, sig_keys_from, sign_keypair, zlen. rewrite firstn_length. destruct (Nat.leb_spec 32 (length r)) as [L|L].
    + replace (negb (Z.of_nat (Nat.min 32 (length r)) =? 32)) with false by lia. destruct b; reflexivity.
    + replace (negb (Z.of_nat (Nat.min 32 (length r)) =? 32)) with true by lia. reflexivity.
  - intros r. unfold salt_call, with_api, enc_keys_from, box_keypair, zlen. destruct (Nat.eqb_spec (length r) 32) as [L|L].
    + replace (negb (Z.of_nat (length r) =? 32)) with false by lia. destruct b; reflexivity.
    + replace (negb (Z.of_nat (length r) =? 32)) with true by lia. reflexivity.
  - intros m sk. destruct b; reflexivity.
  - intros sm pk. unfold salt_call, with_api, bytes_of.
    assert (E : l_sign_open (a_lib (std_backends b)) sm pk = match std_open sm pk with Some m => Ok m | None => Err BadSignatureException end).
    { destruct b; [apply std_native_open|..]; cbn [std_backends backends wrapped_api a_lib wrapped_lib l_sign_open std_bindings bi_sign_open]; destruct (std_open sm pk); reflexivity. }
    rewrite E. unfold std_open. destruct (ed_verify _ _ _); reflexivity.
  - intros sk pk. unfold salt_call, with_api, compute_shared_key, BOX_SECRETKEYBYTES, BOX_PUBLICKEYBYTES, zlen.
    destruct (Nat.eqb_spec (length sk) 32) as [L1|L1]; [replace (negb (Z.of_nat (length sk) =? 32)) with false by lia|replace (negb (Z.of_nat (length sk) =? 32)) with true by lia; reflexivity].
    destruct (Nat.eqb_spec (length pk) 32) as [L2|L2]; [replace (negb (Z.of_nat (length pk) =? 32)) with false by lia|replace (negb (Z.of_nat (length pk) =? 32)) with true by lia; reflexivity].
    destruct b; reflexivity.
  - intros k n m. unfold salt_call, with_api, bytes_of. rewrite (proj1 (std_box_call b m n k)). reflexivity.
  - intros k n c m. rewrite D. split.
    + destruct (std_unbox k n c) as [m'|] eqn:E; [|discriminate]. intros Q. assert (m' = m) by congruence. subst m'. symmetry. apply unbox_sound. exact E.
    + intros ->. rewrite unbox_box. reflexivity.
  - intros k n c e. rewrite D. destruct (std_unbox k n c); [discriminate|]. intros Q. congruence.
Qed.
Print Assumptions C115_operations.
(** What one back end seals or signs another opens. *)
Example C115_example : exists c, salt_call std_backends (Some Native) (QEncrypt (repeat x01 32) (repeat x02 24) [x68; x69]) = Ok (ABytes c) /\
  salt_call std_backends (Some PyNaCl) (QDecrypt (repeat x01 32) (repeat x02 24) c) = Ok (ABytes [x68; x69]) /\
  salt_call std_backends (Some Native) (QShared (repeat x01 31) (repeat x01 32)) = Err ValueError.
Proof.
  exists (secretbox (repeat x01 32) (repeat x02 24) [x68; x69]).
  destruct (C115_operations Native) as (_ & _ & _ & _ & _ & S & E & _). destruct (C115_operations PyNaCl) as (_ & _ & _ & _ & _ & _ & _ & D & _).
  split; [apply E|]. split; [apply D; reflexivity|]. rewrite S. reflexivity.
Qed.

(** ** C116: the library and the random generator of a process *)
(** Whether [SaltLib(t, r)] can succeed as the first one *)
Definition works (h : salt_call_args) : Prop := match sa_type h with LIB_BEST => sa_available h Native = true | _ => sa_rng h = RNG_URANDOM end.
Definition asked (h : salt_call_args) : saltlib * source :=
  match sa_type h with
  | LIB_BEST => (Some Native, match sa_rng h with RNG_URANDOM => Urandom | RNG_IMPL => Own Native end)
  | _ => (None, Urandom)
  end.
Definition refusal (h : salt_call_args) : exn := match sa_type h with LIB_BEST => NoSuchLibException | _ => AttributeError end.
Lemma news_app : forall l1 l2 c, salt_news c (l1 ++ l2) = let (c1, x1) := salt_news c l1 in let (c2, x2) := salt_news c1 l2 in (c2, x1 ++ x2).
Proof.
  induction l1 as [|h t IH]; intros l2 c; cbn [salt_news app]; [destruct (salt_news c l2); reflexivity|]. destruct (salt_new _ _ _ c) as [c1 x]. rewrite IH.
  destruct (salt_news c1 t) as [c2 xs]. destruct (salt_news c2 l2). reflexivity.
Qed.
Lemma news_fail : forall l, (forall h, In h l -> ~ works h) -> salt_news salt_class_init l = (salt_class_init, map (fun h => Err (refusal h)) l).
Proof.
  induction l as [|h t IH]; intros H; [reflexivity|]. cbn [salt_news map].
  assert (E : salt_new (sa_available h) (sa_type h) (sa_rng h) salt_class_init = (salt_class_init, Err (refusal h))).
  { pose proof (H h (or_introl eq_refl)) as W. unfold works in W. unfold salt_new, salt_init, refusal. cbn [sc_inst salt_class_init].
    destruct (sa_type h); cbn [get_lib lib_map]; [destruct (sa_available h Native); [contradiction W; reflexivity|reflexivity]|..]; destruct (sa_rng h); try reflexivity; contradiction W; reflexivity. }
  rewrite E, IH by (intros; apply H; right; assumption). reflexivity.
Qed.
Lemma news_done : forall l s g, salt_news (SaltClass (Some s) g) l = (SaltClass (Some s) g, map (fun _ => Ok s) l).
Proof. induction l as [|h t IH]; intros s g; [reflexivity|]. cbn [salt_news map salt_new sc_inst]. rewrite IH. reflexivity. Qed.
(** As long as no construction works there is neither library nor generator; the first
    that works decides both for the rest of the process. *)
Theorem C116_first_decides : forall pre h post, (forall h', In h' pre -> ~ works h') -> works h ->
  salt_news salt_class_init pre = (salt_class_init, map (fun h' => Err (refusal h')) pre) /\ random_source salt_class_init = Err AttributeError /\
  snd (salt_news salt_class_init (pre ++ h :: post)) = map (fun h' => Err (refusal h')) pre ++ repeat (Ok (fst (asked h))) (S (length post)) /\
  random_source (fst (salt_news salt_class_init (pre ++ h :: post))) = Ok (snd (asked h)).
Proof.
  intros pre h post HP W. split; [apply news_fail; exact HP|]. split; [reflexivity|]. rewrite news_app, news_fail by exact HP. cbn [salt_news].
  assert (E : salt_new (sa_available h) (sa_type h) (sa_rng h) salt_class_init = (SaltClass (Some (fst (asked h))) (Some (snd (asked h))), Ok (fst (asked h)))).
  { unfold works in W. unfold salt_new, salt_init, asked. cbn [sc_inst salt_class_init]. destruct (sa_type h); cbn [get_lib lib_map]; [rewrite W; destruct (sa_rng h); reflexivity|..]; rewrite W; reflexivity. }
  rewrite E, news_done. cbn [fst snd]. split; [|reflexivity]. cbn [repeat]. do 2 f_equal. clear. induction post as [|x t IH]; [reflexivity|]. cbn. rewrite IH. reflexivity.
Qed.
Print Assumptions C116_first_decides.
(** (expected: a construction that asks for the library's own generator gets it or raises)
    is false of the code: after any [SaltLib()] that worked with the default generator it
    has no effect. *)
Theorem C116_generator_refuted : forall h post, works h -> sa_rng h = RNG_URANDOM ->
  random_source (fst (salt_news salt_class_init (h :: post))) = Ok Urandom /\
  forall x, In x (snd (salt_news salt_class_init (h :: post))) -> exists s, x = Ok s.
Proof.
  intros h post W R. destruct (C116_first_decides [] h post ltac:(intros ? []) W) as (_ & _ & E & G). cbn [app map] in E, G. split.
  - rewrite G. unfold asked. rewrite R. destruct (sa_type h); reflexivity.
  - intros x I. rewrite E in I. apply repeat_spec in I. subst x. eexists. reflexivity.
Qed.
Print Assumptions C116_generator_refuted.
Example C116_example : let av := fun _ : backend => true in
  salt_news salt_class_init [SaltArgs (fun _ => false) LIB_BEST RNG_URANDOM; SaltArgs av LIB_PYNACL RNG_IMPL; SaltArgs av LIB_BEST RNG_IMPL; SaltArgs av LIB_BEST RNG_URANDOM] =
  (SaltClass (Some (Some Native)) (Some (Own Native)), [Err NoSuchLibException; Err AttributeError; Ok (Some Native); Ok (Some Native)]).
Proof. reflexivity. Qed.

(** ** C40: a server told to refuse (an injected A2 of the case NO_SUCH_SERVER) *)
Theorem C40_refusal : forall uw L TK TC sig e buf tk a1,
  (pkt_bytes a1 = A1_any \/ exists k, length k = 32%nat /\ pkt_bytes a1 = A1_pubkey k) ->
  pkt_bytes a2_no_such_server = A2_no_such_server_wire /\
  exists p s, a2_prots p = Ok [] /\ a2_get A2NoSuch p = VFlag true /\ ss_is_done s = true /\ ss_app s = None /\ ss_client_sig_key s = None /\
    always_ends (Sys (do_a1a2 uw a1 tt) (server_handshake L TK TC (ss_init sig (Some e) buf (Some a2_no_such_server) tk)) [] [])
                (Sys (Ret (tt, Ok p)) (Ret (s, Ok tt)) [] []).
Proof.
  intros uw L TK TC sig e buf tk a1 HA1. split; [reflexivity|].
  assert (HA : exists a, a1_ctor (pkt_bytes a1) = Ok a /\ pkt_bytes a1 <> []).
  { destruct HA1 as [->|(k & Hk & ->)]; [eexists; split; [reflexivity|discriminate]|].
    destruct (a1_pubkey_ok k Hk) as [a HA]. exists a. split; [exact HA|discriminate]. }
  destruct HA as (a & HA & HN).
  exists (Pkt [x09; x81; x00] (Some [])), (ss_set_is_done true (ss_set_m1 None (ss_init sig (Some e) buf (Some a2_no_such_server) tk))).
  split; [reflexivity|]. split; [reflexivity|]. split; [reflexivity|]. split; [reflexivity|]. split; [reflexivity|].
  eapply (always_ends_intro _ _ _ 4).
  eapply (steps_eq_ret _ _ 4 (Sys (do_a1a2 uw a1 tt) (server_machine L TK TC (ss_init sig (Some e) buf (Some a2_no_such_server) tk)) [] [])).
  2:{ split; [apply io_eq_refl|]. split; [apply io_eq_sym; apply server_eq|]. split; reflexivity. }
  unfold server_machine. cbn [ss_init ss_enc].
  unfold do_a1a2, mbind, mwrite, mread, mlift. cbn [iobind].
  stp. cbn [app iobind fst snd]. stp. rewrite (a1_not_m1 _ a HN HA), HA. change (ss_a2 (ss_init sig (Some e) buf (Some a2_no_such_server) tk)) with (Some a2_no_such_server).
  stp. cbn [app]. stp. cbn [iobind fst snd]. apply steps_O.
Qed.
Print Assumptions C40_refusal.
Example C40_refusal_example : forall L TK TC, exists p s, a2_get A2NoSuch p = VFlag true /\
  always_ends (Sys (do_a1a2 (fun _ => false) a1_new tt) (server_handshake L TK TC (ss_init (KeyPair [] []) (Some (KeyPair [] [])) false (Some a2_no_such_server) 0)) [] [])
              (Sys (Ret (tt, Ok p)) (Ret (s, Ok tt)) [] []).
Proof.
  intros L TK TC. destruct (C40_refusal (fun _ => false) L TK TC (KeyPair [] []) (KeyPair [] []) false 0 a1_new (or_introl eq_refl)) as (_ & p & s & _ & E & _ & _ & _ & H).
  exists p, s. split; [exact E|exact H].
Qed.
