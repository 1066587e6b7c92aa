(** The order of the base point of Ed25519 is a prime number. *)
From Coq Require Import List ZArith Znumtheory Bool Lia.
From Verif Require Import CurveSpec Fast25519 Prime25519 EdSpec.
Import ListNotations.
Open Scope Z_scope.

Lemma prime_2551 : prime 2551. Proof. apply (prime_trial _ 50); [lia|lia|vm_compute; reflexivity]. Qed.
Lemma prime_3797 : prime 3797. Proof. apply (prime_trial _ 61); [lia|lia|vm_compute; reflexivity]. Qed.
Lemma prime_l21 : prime 1224481.
Proof. apply (cert_prime (powm _) _ 2551 2 7 (powm_spec _) prime_2551 prime_2). vm_compute. reflexivity. Qed.
Lemma prime_l20 : prime 531581.
Proof. apply (cert_prime (powm _) _ 3797 2 2 (powm_spec _) prime_3797 prime_2). vm_compute. reflexivity. Qed.
Lemma prime_l51 : prime 1257559732178653.
Proof. apply (cert_prime (powm _) _ 1224481 531581 2 (powm_spec _) prime_l21 prime_l20). vm_compute. reflexivity. Qed.
Lemma prime_l62 : prime 4434155615661930479.
Proof. apply (cert_prime (powm _) _ 1257559732178653 2 17 (powm_spec _) prime_l51 prime_2). vm_compute. reflexivity. Qed.
Lemma prime_l88 : prime 172054593956031949258510691.
Proof. apply (cert_prime (powm _) _ 4434155615661930479 2 2 (powm_spec _) prime_l62 prime_2). vm_compute. reflexivity. Qed.
Lemma prime_l134 : prime 19757330305831588566944191468367130476339.
Proof. apply (cert_prime (powm _) _ 172054593956031949258510691 2 2 (powm_spec _) prime_l88 prime_2). vm_compute. reflexivity. Qed.
Lemma prime_l138 : prime 276602624281642239937218680557139826668747.
Proof. apply (cert_prime (powm _) _ 19757330305831588566944191468367130476339 2 2 (powm_spec _) prime_l134 prime_2). vm_compute. reflexivity. Qed.
Theorem prime_L : prime rfc_L.
Proof. apply (cert_prime (powm _) _ 276602624281642239937218680557139826668747 2 2 (powm_spec _) prime_l138 prime_2). vm_compute. reflexivity. Qed.
