(** C112-C114: the methods of the pure Python port with every exception a list, a bytearray
    and bytes() can raise. *)
From Coq Require Import List ZArith Bool Strings.Byte Lia ZifyBool ZifyNat ZifyN.
From Verif Require Import PyBase PyBase_proofs PyInt ShaSpec SalsaSpec PolySpec CurveSpec EdSpec TwPure TwSign ChkSign ChkSig_proofs ChkBox_proofs
  EdSig_proofs Props_Pure Props_Pure2 Props_Pure3 Props_Pure4 Props_Pure5.
Import ListNotations.
Open Scope Z_scope.
Ltac Zify.zify_post_hook ::= Z.div_mod_to_equations.

(** * C112 Hashes and signatures raise nothing on arguments of the right size *)
Theorem C112_hash : forall m, Z.of_nat (length m) < 2 ^ 64 -> method_hash m = Ok (sha512 m).
Proof. exact method_hash_ok. Qed.
Print Assumptions C112_hash.
Theorem C112_sign_keypair : forall seed, length seed = 32%nat -> method_sign_keypair seed = Ok (ed_public seed, seed ++ ed_public seed).
Proof. exact method_keypair_ok. Qed.
Print Assumptions C112_sign_keypair.
Theorem C112_sign : forall m sk, (64 <= length sk)%nat -> Z.of_nat (length m) + 64 < 2 ^ 64 ->
  method_sign m sk = Ok (ed_sign (firstn 32 sk) (firstn 32 (skipn 32 sk)) m ++ m).
Proof. exact method_sign_ok. Qed.
Print Assumptions C112_sign.
(** Opening gives the message of a signature that holds, and NameError otherwise. *)
Theorem C112_sign_open : forall sm pk, (32 <= length pk)%nat -> Z.of_nat (length sm) < 2 ^ 64 ->
  (forall m, method_sign_open sm pk = Ok m <-> exists sig, sm = sig ++ m /\ loose_valid (firstn 32 pk) sig m) /\
  (forall e, method_sign_open sm pk = Err e -> e = NameError).
Proof. intros sm pk L B. rewrite method_open_eq. exact (C83_open_exact sm pk L B). Qed.
Print Assumptions C112_sign_open.
(** The three together, on any seed and message. *)
Theorem C112_round_trip : forall seed m, length seed = 32%nat -> Z.of_nat (length m) + 64 < 2 ^ 64 ->
  exists pk sk sm, method_sign_keypair seed = Ok (pk, sk) /\ method_sign m sk = Ok sm /\ length sm = (length m + 64)%nat /\ method_sign_open sm pk = Ok m.
Proof.
  intros seed m L B. destruct (C82_sign_open seed m L B) as (pk & sk & sm & K & S & LS & _ & O). exists pk, sk, sm.
  rewrite method_open_eq, (method_keypair_ok seed L). rewrite (proj1 (C80_sign_keypair seed) L) in K. split; [exact K|].
  assert (Ls : (64 <= length sk)%nat). { destruct (Nat.le_gt_cases 64 (length sk)) as [Q|Q]; [exact Q|]. rewrite (proj2 (C81_sign m sk) Q) in S. discriminate. }
  rewrite (method_sign_ok m sk Ls B). rewrite (proj1 (C81_sign m sk) Ls B) in S. split; [exact S|split; assumption].
Qed.
Print Assumptions C112_round_trip.
Example C112_example : method_hash abc = Ok abc_digest /\ method_sign_open (repeat x00 63) (repeat x00 32) = Err NameError /\
  exists sm, method_sign abc (repeat x07 64) = Ok (sm ++ abc) /\ length sm = 64%nat.
Proof.
  rewrite C112_hash by reflexivity. rewrite (proj2 C67_example). split; [reflexivity|]. split; [rewrite method_open_eq; reflexivity|].
  rewrite C112_sign by (cbn; lia). eexists. split; [reflexivity|apply sign_parts].
Qed.

(** * C113 Boxes raise nothing on arguments of the right size *)
Theorem C113_box_keypair : forall sk, length sk = 32%nat -> method_box_keypair sk = Ok (box_public sk, sk).
Proof. intros sk L. rewrite method_box_keypair_eq, C76_keypair, L. reflexivity. Qed.
Print Assumptions C113_box_keypair.
Theorem C113_beforenm : forall pk sk, (32 <= length pk)%nat -> (32 <= length sk)%nat -> method_beforenm pk sk = Ok (box_key (firstn 32 pk) (firstn 32 sk)).
Proof. intros pk sk Lp Ls. rewrite method_beforenm_eq, C77_beforenm. replace ((length sk <? 32)%nat || (length pk <? 32)%nat) with false by lia. reflexivity. Qed.
Print Assumptions C113_beforenm.
(** Sealing succeeds for messages of every length, and gives NaCl's box up to 16416 bytes. *)
Theorem C113_afternm : forall m n k, (24 <= length n)%nat -> (32 <= length k)%nat ->
  exists c, method_afternm m n k = Ok c /\ length c = (16 + length m)%nat /\
    (length n = 24%nat -> length k = 32%nat -> (32 + length m <= 64 * 257)%nat -> c = secretbox k n m).
Proof.
  intros m n k Ln Lk. exists (pure_box_afternm m n k). rewrite method_afternm_eq. replace ((length n <? 24)%nat || (length k <? 32)%nat) with false by lia.
  split; [reflexivity|]. split; [apply afternm_length; assumption|]. intros. apply C71_box_partial; assumption.
Qed.
Print Assumptions C113_afternm.
(** Opening succeeds exactly on boxes that carry their tag. *)
Theorem C113_open_afternm : forall c n k, length n = 24%nat -> length k = 32%nat ->
  (tag_ok c n k -> method_open_afternm c n k = Ok []) /\ (~ tag_ok c n k -> method_open_afternm c n k = Err NameError).
Proof.
  intros c n k Ln Lk. rewrite method_open_afternm_eq, Ln, Lk. change ((24 <? 24)%nat || (32 <? 32)%nat) with false. cbv iota.
  destruct (open_cases c n k Ln Lk) as [[T E]|[T E]]; rewrite E; split; intros H; try reflexivity; contradiction.
Qed.
Print Assumptions C113_open_afternm.
(** Two key pairs share a key. *)
Theorem C113_shared_key : forall skA skB, length skA = 32%nat -> length skB = 32%nat ->
  exists pkA pkB k, method_box_keypair skA = Ok (pkA, skA) /\ method_box_keypair skB = Ok (pkB, skB) /\
    method_beforenm pkB skA = Ok k /\ method_beforenm pkA skB = Ok k /\ length k = 32%nat.
Proof.
  intros skA skB LA LB. exists (box_public skA), (box_public skB).
  assert (KA : pure_box_keypair_not_random skA = Ok (box_public skA, skA)) by (rewrite C76_keypair, LA; reflexivity).
  assert (KB : pure_box_keypair_not_random skB = Ok (box_public skB, skB)) by (rewrite C76_keypair, LB; reflexivity).
  destruct (C79_agreement _ _ _ _ KA KB) as (E & k & K & L). exists k. rewrite !method_box_keypair_eq, !method_beforenm_eq. rewrite <- E. repeat split; assumption.
Qed.
Print Assumptions C113_shared_key.

Example C113_example : exists c, method_afternm hi box_n box_k = Ok c /\ length c = 18%nat /\ method_open_afternm c box_n box_k = Ok [] /\
  method_open_afternm (x00 :: x00 :: skipn 2 c) box_n box_k = Err NameError.
Proof.
  exists (pure_box_afternm hi box_n box_k). rewrite method_afternm_eq, !method_open_afternm_eq. split; [reflexivity|]. split; [apply (proj1 C71_example)|].
  split; [exact C73_example|]. destruct (open_cases (x00 :: x00 :: skipn 2 (pure_box_afternm hi box_n box_k)) box_n box_k eq_refl eq_refl) as [[_ E]|[_ E]]; [|exact E].
  destruct (proj2 C72_example _ E).
Qed.

(** * C114 What arguments of the wrong size do *)
Theorem C114_seeds : forall s, length s <> 32%nat -> method_sign_keypair s = Err ValueError /\ method_box_keypair s = Err ValueError.
Proof. intros s L. unfold method_sign_keypair, method_box_keypair. replace (length s =? 32)%nat with false by lia. split; reflexivity. Qed.
Print Assumptions C114_seeds.
Theorem C114_short_sign : forall m sk, Z.of_nat (length m) + 64 < 2 ^ 64 -> (length sk < 64)%nat -> method_sign m sk = Err IndexError.
Proof. intros m sk B L. rewrite method_sign_eq by exact B. replace (length sk <? 64)%nat with true by lia. reflexivity. Qed.
Print Assumptions C114_short_sign.
Theorem C114_short_sign_open : forall sm pk, (length pk < 32)%nat -> method_sign_open sm pk = if (length sm <? 64)%nat then Err NameError else Err IndexError.
Proof.
  intros sm pk L. rewrite method_open_eq. unfold pure_crypto_sign_open. replace (length pk <? 32)%nat with true by lia. cbn [andb].
  destruct (length sm <? 64)%nat eqn:E; [|reflexivity]. cbn [negb]. unfold crypto_sign_ed25519_open. rewrite E. reflexivity.
Qed.
Print Assumptions C114_short_sign_open.
Theorem C114_short_beforenm : forall pk sk, (length pk < 32)%nat \/ (length sk < 32)%nat -> method_beforenm pk sk = Err IndexError.
Proof. intros pk sk L. rewrite method_beforenm_eq. unfold pure_box_beforenm. replace ((length sk <? 32)%nat || (length pk <? 32)%nat) with true by lia. reflexivity. Qed.
Print Assumptions C114_short_beforenm.
Theorem C114_short_afternm : forall m n k, (length n < 24)%nat \/ (length k < 32)%nat -> method_afternm m n k = Err IndexError.
Proof. intros m n k L. rewrite method_afternm_eq. replace ((length n <? 24)%nat || (length k <? 32)%nat) with true by lia. reflexivity. Qed.
Print Assumptions C114_short_afternm.
(** Opening a box hides the IndexError: a nonce or key that is too short looks like a forged box. *)
Theorem C114_short_open_afternm : forall c n k, (length n < 24)%nat \/ (length k < 32)%nat -> method_open_afternm c n k = Err NameError.
Proof. intros c n k L. rewrite method_open_afternm_eq. replace ((length n <? 24)%nat || (length k <? 32)%nat) with true by lia. reflexivity. Qed.
Print Assumptions C114_short_open_afternm.
Example C114_example : method_sign abc (repeat x01 63) = Err IndexError /\ method_sign abc (repeat x01 31) = Err IndexError /\
  method_afternm hi (repeat x01 23) box_k = Err IndexError /\ method_open_afternm (repeat x00 20) (repeat x01 23) box_k = Err NameError /\
  method_beforenm (repeat x00 32) (repeat x01 31) = Err IndexError /\ method_sign_keypair abc = Err ValueError.
Proof.
  rewrite !C114_short_sign by (reflexivity || (cbn; lia)). rewrite C114_short_afternm by (cbn; lia). rewrite C114_short_open_afternm by (cbn; lia).
  rewrite C114_short_beforenm by (cbn; lia). repeat split.
Qed.
