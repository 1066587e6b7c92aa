(** Properties of the crypto back ends (C59-C61). *)
From Coq Require Import List ZArith Bool Strings.Byte Lia ZifyBool ZifyNat ZifyN.
From Verif Require Import PyBase PyBase_proofs Crypto Crypto_proofs SaltLib Backends EncChannel Props_Misc.
Import ListNotations.
Open Scope Z_scope.
Ltac Zify.zify_post_hook ::= Z.div_mod_to_equations.

(** NaCl's C interface, as its documentation states it: a message to encrypt starts with
    32 zero bytes, its ciphertext with 16, and the two have the same length. *)
Record sodium_laws (C : sodium) (sigpair encpair : bytes -> bytes -> Prop) : Prop := SodiumLaws {
  so_law_hash : forall m, exists h, so_hash C m = (0, h) /\ length h = 64%nat;
  so_law_sigpk : forall sk pk, sigpair sk pk -> length pk = 32%nat;
  so_law_sign : forall sk pk m, sigpair sk pk ->
    exists s junk, length s = 64%nat /\ so_sign C m sk = (0, s ++ m) /\
                   so_sign_open C (s ++ m) pk = (0, m ++ junk, zlen m);
  so_law_encsk : forall sk pk, encpair sk pk -> length sk = 32%nat;
  so_law_encpk : forall sk pk, encpair sk pk -> length pk = 32%nat;
  so_law_dh : forall ska pka skb pkb, encpair ska pka -> encpair skb pkb ->
    exists k, length k = 32%nat /\ so_beforenm C pkb ska = (0, k) /\ so_beforenm C pka skb = (0, k);
  so_law_box : forall m n k, length n = 24%nat -> length k = 32%nat ->
    exists c, length c = (16 + length m)%nat /\
      so_afternm C (repeat x00 32 ++ m) n k = (0, repeat x00 16 ++ c) /\
      so_open_afternm C (repeat x00 16 ++ c) n k = (0, repeat x00 32 ++ m)
}.

(** ** C59: the padding and result conventions of the native wrapper turn libsodium's C
    interface into the library the protocol code relies on: encryption adds exactly 16
    bytes, decryption returns exactly the message encrypted, [sign_open] returns exactly
    the message signed (not the rest of its scratch buffer), and key agreement agrees. *)
Theorem C59_native_wrapper : forall C sp ep, sodium_laws C sp ep -> nacl_laws (native_lib C) sp ep.
Proof.
  intros C sp ep H. destruct H as [Hh Hpk Hs Hesk Hepk Hdh Hb]. unfold native_lib. constructor; cbn [l_sha512 l_sign l_sign_open l_beforenm l_afternm l_open_afternm].
  - intros m. destruct (Hh m) as (h & E & Hl). unfold native_hash. rewrite E. unfold wrap. cbn. unfold zlen. rewrite Hl. reflexivity.
  - exact Hpk.
  - intros sk pk m HP. destruct (Hs sk pk m HP) as (s & junk & Hl & E1 & E2). exists s. split; [exact Hl|].
    unfold native_sign, native_sign_open. rewrite E1, E2. unfold wrap. cbn. split; [reflexivity|].
    unfold zlen. rewrite Nat2Z.id. rewrite firstn_app, Nat.sub_diag, firstn_all, app_nil_r. reflexivity.
  - exact Hesk.
  - exact Hepk.
  - intros ska pka skb pkb H1 H2. destruct (Hdh _ _ _ _ H1 H2) as (k & Hl & E1 & E2). exists k.
    unfold native_beforenm. rewrite E1, E2. repeat split; assumption.
  - intros m n k Hn Hk. destruct (Hb m n k Hn Hk) as (c & Hl & E1 & E2). exists c.
    unfold native_afternm, native_open_afternm, zeros, ZEROBYTES, BOXZEROBYTES. rewrite E1, E2. unfold wrap.
    change (0 =? 0) with true. cbv iota.
    rewrite !skipn_app, !repeat_length, !Nat.sub_diag, !skipn_all2 by (rewrite repeat_length; lia).
    split; [reflexivity|]. split; [lia|reflexivity].
Qed.
Print Assumptions C59_native_wrapper.

(** A C library satisfying the laws: the toy library with NaCl's padding. *)
Definition toy_sodium : sodium := Sodium
  (fun s => (0, s, s ++ s))
  (fun m sk => (0, toy_sig sk ++ m))
  (fun sm pk => if bytes_eqb (firstn 64 sm) (toy_sig pk)
                then (0, skipn 64 sm ++ repeat x07 64, zlen (skipn 64 sm)) else (-1, sm, 0))
  (fun s => (0, s))
  (fun pk sk => (0, add_bytes pk sk))
  (fun m n k => (0, repeat x00 16 ++ toy_tag n k ++ skipn 32 m))
  (fun c n k => if bytes_eqb (firstn 16 (skipn 16 c)) (toy_tag n k)
                then (0, repeat x00 32 ++ skipn 32 c) else (-1, repeat x00 (length c)))
  (fun m => (0, toy_hash m)).

Example C59_example : sodium_laws toy_sodium toy_pair toy_pair /\
  native_open_afternm toy_sodium (toy_tag (zeros 24) (zeros 32) ++ [x68; x69]) (zeros 24) (zeros 32) = Ok [x68; x69] /\
  native_sign_open toy_sodium (toy_sig (repeat x05 32) ++ [x68; x69]) (repeat x05 32) = Ok [x68; x69].
Proof.
  split; [|split; reflexivity].
  destruct toy_laws as [L1 L2 L3 L4 L5 L6 L7]. constructor; cbn [so_hash so_sign so_sign_open so_beforenm so_afternm so_open_afternm toy_sodium].
  - intros m. exists (toy_hash m). split; [reflexivity|]. specialize (L1 m). unfold zlen in L1. cbn in L1. cbn. lia.
  - exact L2.
  - intros sk pk m HP. assert (Hl : length (toy_sig sk) = 64%nat).
    { destruct HP as [_ Hl]. unfold toy_sig. rewrite firstn_length, !app_length, Hl. unfold zeros. rewrite repeat_length. lia. }
    exists (toy_sig sk), (repeat x07 64). split; [exact Hl|]. split; [reflexivity|].
    destruct HP as [<- _].
    assert (E1 : firstn 64 (toy_sig sk ++ m) = toy_sig sk) by (apply firstn_app_exact; exact Hl).
    assert (E2 : skipn 64 (toy_sig sk ++ m) = m) by (rewrite <- Hl, skipn_app, Nat.sub_diag, skipn_all; reflexivity).
    rewrite E1, E2, bytes_eqb_refl. reflexivity.
  - exact L4.
  - exact L5.
  - intros ska pka skb pkb H1 H2. destruct (L6 _ _ _ _ H1 H2) as (k & Hk & E1 & E2). exists k.
    cbn in E1, E2. injection E1 as E1. injection E2 as E2. rewrite E1, E2. auto.
  - intros m n k Hn Hk. exists (toy_tag n k ++ m).
    assert (Ht : length (toy_tag n k) = 16%nat).
    { unfold toy_tag. rewrite firstn_length, !app_length. unfold zeros. rewrite repeat_length. lia. }
    split; [rewrite app_length; lia|]. split; [reflexivity|].
    assert (E0 : skipn 16 (repeat x00 16 ++ toy_tag n k ++ m) = toy_tag n k ++ m) by reflexivity.
    assert (E1 : firstn 16 (toy_tag n k ++ m) = toy_tag n k) by (apply firstn_app_exact; exact Ht).
    assert (E2 : skipn 32 (repeat x00 16 ++ toy_tag n k ++ m) = m).
    { change (skipn 16 (toy_tag n k ++ m) = m). rewrite <- Ht, skipn_app, Nat.sub_diag, skipn_all. reflexivity. }
    rewrite E0, E1, E2, bytes_eqb_refl. reflexivity.
Qed.

(** ** C60: whatever the C library or the bindings do, through each of the three back ends
    a failed decryption is BadEncryptedDataException and a failed verification is
    BadSignatureException; nothing else escapes, and no bytes are returned when the C
    function reported failure. *)
Theorem C60_failures_uniform : forall C pynacl ext b,
  let L := a_lib (backends C pynacl ext b) in
  (forall c n k e, l_open_afternm L c n k = Err e -> e = BadEncryptedDataException) /\
  (forall sm pk e, l_sign_open L sm pk = Err e -> e = BadSignatureException) /\
  (b = Native ->
     (forall c n k, fst (so_open_afternm C (repeat x00 16 ++ c) n k) <> 0 ->
        l_open_afternm L c n k = Err BadEncryptedDataException) /\
     (forall sm pk, fst (fst (so_sign_open C sm pk)) <> 0 -> l_sign_open L sm pk = Err BadSignatureException) /\
     (forall pk sk, fst (so_beforenm C pk sk) <> 0 -> l_beforenm L pk sk = Err ValueError) /\
     (forall m n k, fst (so_afternm C (repeat x00 32 ++ m) n k) <> 0 -> l_afternm L m n k = Err ValueError) /\
     (forall m sk, fst (so_sign C m sk) <> 0 -> l_sign L m sk = Err ValueError) /\
     (forall seed, fst (fst (so_seed_keypair C seed)) <> 0 -> a_seed_keypair (backends C pynacl ext b) seed = Err ValueError) /\
     (forall sk, fst (so_scalarmult_base C sk) <> 0 -> a_scalarmult_base (backends C pynacl ext b) sk = Err ValueError)).
Proof.
  intros C pn ex b L. subst L. split; [|split].
  - destruct b; cbn [a_lib backends native_api wrapped_api native_lib wrapped_lib l_open_afternm]; intros c n k e.
    + unfold native_open_afternm. destruct (so_open_afternm C (zeros BOXZEROBYTES ++ c) n k) as [rc m]. destruct (rc =? 0); congruence.
    + unfold except_all. destruct (bi_open_afternm pn c n k); congruence.
    + unfold except_all. destruct (bi_open_afternm ex c n k); congruence.
  - destruct b; cbn [a_lib backends native_api wrapped_api native_lib wrapped_lib l_sign_open]; intros sm pk e.
    + unfold native_sign_open. destruct (so_sign_open C sm pk) as [[rc m] ml]. destruct (rc =? 0); congruence.
    + unfold except_all. destruct (bi_sign_open pn sm pk); congruence.
    + unfold except_all. destruct (bi_sign_open ex sm pk); congruence.
  - intros ->. cbn [a_lib a_seed_keypair a_scalarmult_base backends native_api native_lib l_open_afternm l_sign_open l_beforenm l_afternm l_sign].
    unfold native_seed_keypair, native_scalarmult_base, native_open_afternm, native_sign_open, native_beforenm, native_afternm, native_sign, wrap, zeros, BOXZEROBYTES, ZEROBYTES.
    split; [|split; [|split; [|split; [|split; [|split]]]]].
    + intros c n k. destruct (so_open_afternm C (repeat x00 16 ++ c) n k) as [rc m]. cbn [fst]. destruct (Z.eqb_spec rc 0); [contradiction|reflexivity].
    + intros sm pk. destruct (so_sign_open C sm pk) as [[rc m] ml]. cbn [fst]. destruct (Z.eqb_spec rc 0); [contradiction|reflexivity].
    + intros sm pk. destruct (so_beforenm C sm pk) as [rc m]. cbn [fst]. destruct (Z.eqb_spec rc 0); [contradiction|reflexivity].
    + intros c n k. destruct (so_afternm C (repeat x00 32 ++ c) n k) as [rc m]. cbn [fst]. destruct (Z.eqb_spec rc 0); [contradiction|reflexivity].
    + intros sm pk. destruct (so_sign C sm pk) as [rc m]. cbn [fst]. destruct (Z.eqb_spec rc 0); [contradiction|reflexivity].
    + intros seed. destruct (so_seed_keypair C seed) as [[rc pk] sk]. cbn [fst]. destruct (Z.eqb_spec rc 0); [contradiction|reflexivity].
    + intros sk. destruct (so_scalarmult_base C sk) as [rc pk]. cbn [fst]. destruct (Z.eqb_spec rc 0); [contradiction|reflexivity].
Qed.
Print Assumptions C60_failures_uniform.

Example C60_example :
  l_open_afternm (native_lib toy_sodium) (repeat x01 20) (zeros 24) (zeros 32) = Err BadEncryptedDataException /\
  l_sign_open (native_lib toy_sodium) (repeat x01 70) (zeros 32) = Err BadSignatureException.
Proof. split; reflexivity. Qed.
(** and a C library without key pairs, which writes its buffers all the same *)
Example C60_keypair_example :
  let C := Sodium (fun s => (-1, s, s ++ s)) (so_sign toy_sodium) (so_sign_open toy_sodium) (fun s => (-1, s))
             (so_beforenm toy_sodium) (so_afternm toy_sodium) (so_open_afternm toy_sodium) (so_hash toy_sodium) in
  sign_keypair (native_api C) (repeat x05 32) = Err ValueError /\ box_keypair (native_api C) (repeat x05 32) = Err ValueError.
Proof. split; reflexivity. Qed.

(** ** C61 (expected: every back end class of the package can be used) is false of the code.
    [SaltLibPure] leaves the abstract method [randombytes] undefined: in every history of
    constructions each [SaltLibPure()] raises TypeError, whereas the three classes of the
    library map can be instantiated. *)
Definition class_no (c : backend_class) : nat :=
  match c with CNative => 0 | CPyNaCl => 1 | CTweetNaClExt => 2 | CPure => 3 end.
Definition backend_construction (c : backend_class) : construction unit := Construction (class_no c) tt (abc_init c).

Theorem C61_pure_usable_refuted : forall (cs : list backend_class) n c x,
  nth_error cs n = Some c ->
  nth_error (snd (construct_all py_start (map backend_construction cs))) n = Some x ->
  (c = CPure -> x = Err TypeError) /\ (c <> CPure -> exists i, x = Ok i /\ i_class i = class_no c).
Proof.
  intros cs.
  assert (G : forall cs (p : pystate unit), (forall c i, reg_find c (p_instances p) = Some i -> c <> 3%nat /\ i_class i = c) ->
    forall n c x, nth_error cs n = Some c ->
    nth_error (snd (construct_all p (map backend_construction cs))) n = Some x ->
    (c = CPure -> x = Err TypeError) /\ (c <> CPure -> exists i, x = Ok i /\ i_class i = class_no c)).
  2:{ intros n c x. apply G. intros ? ? H. cbn in H. discriminate. }
  clear cs. induction cs as [|c0 cs IH]; intros p Hp n c x Hn Hx; [destruct n; discriminate|].
  cbn [map construct_all] in Hx. destruct (construct p (backend_construction c0)) as [p1 y] eqn:EC.
  destruct (construct_all p1 (map backend_construction cs)) as [p2 ys] eqn:EA.
  assert (HC : (forall c i, reg_find c (p_instances p1) = Some i -> c <> 3%nat /\ i_class i = c) /\
               (c0 = CPure -> y = Err TypeError) /\ (c0 <> CPure -> exists i, y = Ok i /\ i_class i = class_no c0)).
  { unfold construct in EC. cbn [backend_construction k_class k_init k_args] in EC.
    destruct (reg_find (class_no c0) (p_instances p)) as [i|] eqn:EF.
    - injection EC as <- <-. split; [exact Hp|]. destruct (Hp _ _ EF) as [H1 H2]. split.
      + intros ->. cbn in H1. congruence.
      + intros _. exists i. auto.
    - assert (EI : abc_init c0 = match c0 with CPure => Err TypeError | _ => Ok tt end) by (destruct c0; vm_compute; reflexivity).
      rewrite EI in EC.
      assert (G : c0 = CPure \/ (c0 <> CPure /\ class_no c0 <> 3%nat)) by (destruct c0; [right; split; discriminate..|left; reflexivity]).
      destruct G as [->|[G1 G2]].
      + injection EC as <- <-. split; [exact Hp|]. split; [reflexivity|congruence].
      + assert (EC2 : (PyState (S (p_next p)) ((class_no c0, Inst (p_next p) (class_no c0) tt) :: p_instances p),
                       Ok (Inst (p_next p) (class_no c0) tt)) = (p1, y)) by (destruct c0; [exact EC..|congruence]).
        injection EC2 as <- <-. split; [|split; [congruence|intros _; eexists; split; reflexivity]].
        intros c1 i1. cbn [p_instances reg_find]. destruct (Nat.eqb_spec c1 (class_no c0)) as [->|_].
        * intros H. injection H as <-. auto.
        * apply Hp. }
  destruct HC as (HC1 & HC2 & HC3).
  destruct n as [|n].
  - cbn in Hn, Hx. injection Hn as <-. injection Hx as <-. auto.
  - cbn in Hn, Hx. apply (IH p1 HC1 n c x Hn). rewrite EA. exact Hx.
Qed.
Print Assumptions C61_pure_usable_refuted.

Example C61_example :
  snd (construct_all py_start (map backend_construction [CPure; CNative; CPure; CNative])) =
  [Err TypeError; Ok (Inst 1 0 tt); Err TypeError; Ok (Inst 1 0 tt)].
Proof. reflexivity. Qed.
