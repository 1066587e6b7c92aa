(** Property C66, continued: when M4 buffering changes no outcome. *)
From Coq Require Import List ZArith Bool Strings.Byte Lia ZifyBool ZifyNat ZifyN.
From Verif Require Import PyBase PyBase_proofs IO IO_proofs Packets Crypto Time EncChannel EncUse AppChannel AppUse
  Session SessUse Channel Stack Spec StackUse Pipe Pipe_proofs Props_App Props_Session Props_Session2 Props_Stack Props_Pipe.
Import ListNotations.
Open Scope Z_scope.

(** The program of a peer has returned [x] (its handshake succeeded). *)
Definition returns {S A} (p : io (S * option ac * res A)) (x : A) : Prop :=
  exists s a, p = Ret (s, Some a, Ok x).

Lemma same_end_returns : forall S A (p : io A) (x : io (S * option ac * res A)) y,
  same_end p x -> (returns x y <-> p = Ret y).
Proof.
  intros S A p x y H. destruct p as [z|k|ms l k]; cbn [same_end] in H.
  - destruct H as (s & a & ->). split.
    + intros (s' & a' & E). injection E as _ _ ->. reflexivity.
    + intro E. injection E as ->. exists s, a. reflexivity.
  - destruct H as (k0 & ->). split; [intros (s & a & E); discriminate|discriminate].
  - destruct H.
Qed.

(** *** C66: if the client's program starts with a write, the exchange ends with and
    without buffering, and what the two programs return is the same: what they return
    when they run over a plain message pipe.  Partial: programs of the client that read
    first are excluded; they never get past the handshake of the server
    (C66_buffered_m4_deadlock_refuted). *)
Theorem C66_write_first_partial : forall L sp ep TKc TKs TCc TCs csig ssig ce se sbuf w a2 tkc tks A B ms l k (q : io B) F nl nr,
  peers_ok L sp ep TKc TKs TCc TCs csig ssig ce se sbuf tkc tks ->
  modest nl (Write ms l k : io A) -> modest nr q -> Z.of_nat nl < 2 ^ 62 -> Z.of_nat nr < 2 ^ 62 ->
  always_ends (Sys (Write ms l k) q [] []) F ->
  let run buf := Sys (client_runs L TKc TCc (cs_init csig (Some ce) buf w tkc) (Write ms l k))
                     (server_runs L TKs TCs (ss_init ssig (Some se) sbuf a2 tks) q) [] [] in
  exists F1 F2, always_ends (run true) F1 /\ always_ends (run false) F2 /\
    (forall x, (returns (s_left F1) x <-> returns (s_left F2) x) /\ (returns (s_left F1) x <-> s_left F = Ret x)) /\
    (forall y, (returns (s_right F1) y <-> returns (s_right F2) y) /\ (returns (s_right F1) y <-> s_right F = Ret y)).
Proof.
  intros L sp ep TKc TKs TCc TCs csig ssig ce se sbuf w a2 tkc tks A B ms l k q F nl nr HP M1 M2 B1 B2 HE run.
  destruct (C65_message_pipe L sp ep TKc TKs TCc TCs csig ssig ce se true sbuf w a2 tkc tks A B (Write ms l k) q F nl nr HP M1 M2 B1 B2) as (F1 & E1 & P1 & Q1 & _);
    [eauto|exact HE|].
  destruct (C65_message_pipe L sp ep TKc TKs TCc TCs csig ssig ce se false sbuf w a2 tkc tks A B (Write ms l k) q F nl nr HP M1 M2 B1 B2) as (F2 & E2 & P2 & Q2 & _);
    [discriminate|exact HE|].
  exists F1, F2. split; [exact E1|]. split; [exact E2|].
  split; intro x; [pose proof (same_end_returns _ _ _ _ x P1); pose proof (same_end_returns _ _ _ _ x P2)
                  |pose proof (same_end_returns _ _ _ _ x Q1); pose proof (same_end_returns _ _ _ _ x Q2)]; tauto.
Qed.
Print Assumptions C66_write_first_partial.

(** The echo service with three messages. *)
Example C66_write_first_example : forall sb,
  let run buf := Sys (client_runs toy_lib one_two_three null_checker (cs_init ex_csig (Some ex_cenc) buf [] 0) (echo_client [[x61]; []; [x62; x63]] []))
                     (server_runs toy_lib null_keeper null_checker (ss_init ex_ssig (Some ex_senc) sb None 0) (echo_server 3)) [] [] in
  exists F1 F2, always_ends (run true) F1 /\ always_ends (run false) F2 /\
    returns (s_left F1) (Ok [[x61]; []; [x62; x63]]) /\ returns (s_left F2) (Ok [[x61]; []; [x62; x63]]).
Proof.
  intros sb run. destruct (echo_ends [[x61]; []; [x62; x63]] []) as (n & HE).
  assert (MC : modest 3 (echo_client [[x61]; []; [x62; x63]] [])).
  { apply (echo_modest [[x61]; []; [x62; x63]] []). repeat constructor; cbn; lia. }
  destruct (C66_write_first_partial toy_lib toy_pair toy_pair one_two_three null_keeper null_checker null_checker
    ex_csig ex_ssig ex_cenc ex_senc sb [] None 0 0 _ _ [[x61]] false _ (echo_server 3)
    (Sys (Ret (Ok [[x61]; []; [x62; x63]])) (Ret (Ok tt)) [] []) 3 3
    (proj1 (C32_example true sb)) MC (echo_server_modest 3) eq_refl eq_refl (always_ends_intro _ _ _ _ _ _ _ _ HE)) as (F1 & F2 & E1 & E2 & X & _).
  exists F1, F2. split; [exact E1|]. split; [exact E2|].
    destruct (X (Ok [[x61]; []; [x62; x63]])) as [X1 X2]. cbn [s_left] in X2. tauto.
Qed.
