(** The toy library satisfies the laws assumed of the crypto library, so they are
    not contradictory. *)
From Coq Require Import List ZArith Bool Strings.Byte Lia ZifyBool ZifyNat ZifyN.
From Verif Require Import PyBase PyBase_proofs Crypto.
Import ListNotations.
Open Scope Z_scope.

Lemma add_bytes_length : forall a b, length a = length b -> length (add_bytes a b) = length a.
Proof. induction a as [|x a IH]; intros [|y b] H; cbn in *; try lia. f_equal. apply IH. lia. Qed.

Lemma add_bytes_comm : forall a b, add_bytes a b = add_bytes b a.
Proof.
  induction a as [|x a IH]; intros [|y b]; cbn [add_bytes]; auto.
  f_equal; auto. f_equal. lia.
Qed.

Lemma firstn_pad : forall n (a b : bytes), (n <= length b)%nat -> length (firstn n (a ++ b)) = n.
Proof. intros. rewrite firstn_length, app_length. lia. Qed.

Lemma toy_tag_length : forall n k, length (toy_tag n k) = 16%nat.
Proof. intros. unfold toy_tag. rewrite app_assoc. apply firstn_pad. cbn. lia. Qed.
Lemma toy_sig_length : forall sk, length (toy_sig sk) = 64%nat.
Proof. intros. unfold toy_sig. rewrite app_assoc. apply firstn_pad. cbn. lia. Qed.

Lemma bytes_eqb_refl : forall b, bytes_eqb b b = true.
Proof. intro. apply bytes_eqb_eq. reflexivity. Qed.

Lemma toy_laws : nacl_laws toy_lib toy_pair toy_pair.
Proof.
  constructor.
  - intro m. unfold toy_lib, l_sha512, toy_hash, zlen. rewrite firstn_pad; [reflexivity|cbn; lia].
  - intros sk pk [-> H]. exact H.
  - intros sk pk m [-> _]. exists (toy_sig pk). pose proof (toy_sig_length pk) as HL.
    split; [exact HL|]. split; [reflexivity|]. cbn [toy_lib l_sign_open].
    rewrite firstn_app_exact, skipn_app_exact, bytes_eqb_refl by exact HL. reflexivity.
  - intros sk pk [_ H]. exact H.
  - intros sk pk [-> H]. exact H.
  - intros ska pka skb pkb [<- Ha] [<- Hb]. exists (add_bytes skb ska).
    split; [rewrite add_bytes_length; congruence|]. split; [reflexivity|].
    cbn [toy_lib l_beforenm]. rewrite add_bytes_comm. reflexivity.
  - intros m n k _ _. exists (toy_tag n k ++ m). pose proof (toy_tag_length n k) as HL.
    split; [reflexivity|]. split; [rewrite app_length; lia|]. cbn [toy_lib l_open_afternm].
    rewrite firstn_app_exact, skipn_app_exact, bytes_eqb_refl by exact HL. reflexivity.
Qed.

Lemma toy_fail_laws : nacl_fail_laws toy_lib.
Proof.
  constructor.
  - intros c n k e H. cbn [toy_lib l_open_afternm] in H. destruct (bytes_eqb _ _); congruence.
  - intros sm pk e H. cbn [toy_lib l_sign_open] in H. destruct (bytes_eqb _ _); congruence.
  - intros c n k m H. cbn [toy_lib l_open_afternm l_afternm] in *.
    destruct (bytes_eqb (firstn 16 c) (toy_tag n k)) eqn:E; [|discriminate].
    apply bytes_eqb_eq in E. injection H as <-. rewrite <- E, firstn_skipn. reflexivity.
Qed.
