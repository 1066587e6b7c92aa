(** Properties of honest sessions (v2/salt_client_session.py, salt_server_session.py):
    C32.  Client and server run as coroutines joined by two FIFO queues of frames
    ([sys], [step] in IO.v); the scheduler decides which peer moves next. *)
From Coq Require Import List ZArith Bool Strings.Byte Lia ZifyBool ZifyNat ZifyN.
From Verif Require Import PyBase PyBase_proofs IO IO_proofs Packets Packets_proofs Packets_proofs2 A1A2_proofs
  Crypto Crypto_proofs Time EncChannel EncUse EncChannel_proofs AppChannel AppUse AppChannel_proofs Session Session_proofs
  SessUse Session_steps Sched_proofs Session_fwd Session_sched Spec Props_App Props_Session.
Import ListNotations.
Open Scope Z_scope.
Ltac Zify.zify_post_hook ::= Z.div_mod_to_equations.

(** All schedules from [s] end in [F]: no schedule is longer than [n] steps, and
    wherever a schedule has got to, it goes on to [F]. *)
Definition always_ends {A B} (s F : sys A B) : Prop :=
  exists n, forall k b, steps k s b -> (k <= n)%nat /\ steps (n - k) b F.

(** In particular a schedule that cannot go on has arrived there. *)
Lemma always_ends_stuck : forall A B (s F b : sys A B) k, always_ends s F -> steps k s b -> stuck b -> b = F.
Proof.
  intros A B s F b k [n H] H1 H2. destruct (H _ _ H1) as [_ H3]. inversion H3; subst; [reflexivity|].
  exfalso. eapply H2. eassumption.
Qed.

Lemma always_ends_intro : forall A B (s : sys A B) n x y a b, steps n s (Sys (Ret x) (Ret y) a b) ->
  always_ends s (Sys (Ret x) (Ret y) a b).
Proof. intros A B s n x y a b H. exists n. intros k c Hc. eapply steps_confluent; eauto using stuck_ret. Qed.

(** The assumptions about the two honest peers: valid key pairs, and each peer's time
    checker accepts the other's times. *)
Record peers_ok (L : lib) (sp ep : bytes -> bytes -> Prop) (TKc TKs : tkeeper) (TCc TCs : tchecker)
    (csig ssig ce se : keypair) (sbuf : bool) (tkc tks : Z) : Prop := PeersOk {
  po_laws : nacl_laws L sp ep;
  po_csig : sp (kp_sec csig) (kp_pub csig);
  po_ssig : sp (kp_sec ssig) (kp_pub ssig);
  po_cenc : ep (kp_sec ce) (kp_pub ce);
  po_senc : ep (kp_sec se) (kp_pub se);
  po_first_s : tc_first TCs (fst (tk_first TKc tkc) mod 2 ^ 32) = Ok tt;
  po_first_c : tc_first TCc (fst (fst (server_times TKs sbuf tks)) mod 2 ^ 32) = Ok tt;
  po_check_c : accepts_times TCc;
  po_check_s : accepts_times TCs
}.

(** *** C32, handshakes: client not buffering M4.  Under every schedule both
    handshakes complete, with the same session key and each other's signing key, and
    the channels are in step in both directions. *)
Theorem C32_handshakes_complete : forall L sp ep TKc TKs TCc TCs csig ssig ce se sbuf w a2 tkc tks,
  peers_ok L sp ep TKc TKs TCc TCs csig ssig ce se sbuf tkc tks ->
  exists sC sS aC aS,
    always_ends
      (Sys (client_handshake L TKc TCc (cs_init csig (Some ce) false w tkc))
           (server_handshake L TKs TCs (ss_init ssig (Some se) sbuf a2 tks)) [] [])
      (Sys (Ret (sC, Ok tt)) (Ret (sS, Ok tt)) [] []) /\
    cs_session_key sC = ss_session_key sS /\
    l_beforenm L (kp_pub se) (kp_sec ce) = Ok (cs_session_key sC) /\
    option_map m34_sig_key (cs_m3 sC) = Some (kp_pub ssig) /\
    ss_client_sig_key sS = Some (kp_pub csig) /\ ss_is_done sS = false /\
    cs_app sC = Some aC /\ ss_app sS = Some aS /\
    linked (ac_enc aC) (ac_enc aS) /\ linked (ac_enc aS) (ac_enc aC).
Proof.
  intros L sp ep TKc TKs TCc TCs csig ssig ce se sbuf w a2 tkc tks [HL H1 H2 H3 H4 H5 H6 H7 H8].
  destruct (reach_wait L sp ep TKc TKs TCc TCs csig ssig ce se false sbuf w a2 tkc tks _ _ (fun x => Ret x) (fun x => Ret x)
              HL H1 H2 H3 H4 H5 H6 H7)
    as (n & key & sc & s3 & csg & sg & t3 & R1 & R2 & R0 & R3 & R4 & R5 & R6 & R7 & R8 & R9 & R10 & m & R11).
  cbv zeta in *.
  assert (Hp : length (kp_pub csig) = 32%nat) by (eapply law_sigpk_len; eauto).
  assert (Hq : length (kp_pub ssig) = 32%nat) by (eapply law_sigpk_len; eauto).
  pose proof (finish_unbuffered L sp ep TCs _ _ (fun x => Ret x) (fun x => Ret x) key sc s3
    (fst (tk_get TKc (snd (tk_first TKc tkc)))) (kp_pub csig) csg _ _ m HL R2 R3 Hp H8 R7 R10 R11) as R13.
  do 4 eexists. split.
  - eapply always_ends_intro. eapply steps_eq_ret; [eapply steps_app; [exact R1|exact R13]|].
    split; [|split; [|split; reflexivity]]; cbn [s_left s_right].
    + eapply io_eq_trans; [|apply io_eq_sym; apply client_eq]. apply iobind_ret_eq.
    + eapply io_eq_trans; [|apply io_eq_sym; apply server_eq]. apply iobind_ret_eq.
  - cbn. rewrite R5, R6, R8. cbn [option_map].
    split; [reflexivity|]. split; [exact R0|]. split.
    { f_equal. apply m34_fields; assumption. }
    split; [reflexivity|]. split; [exact R9|]. split; [reflexivity|]. split; [reflexivity|].
    unfold linked. cbn. repeat split; auto; lia.
Qed.
Print Assumptions C32_handshakes_complete.

(** A client that buffers M4 finishes its handshake alone; the server then waits for
    the client's first write, and every schedule leads there. *)
Theorem C32_buffered_client_completes : forall L sp ep TKc TKs TCc TCs csig ssig ce se sbuf w a2 tkc tks,
  peers_ok L sp ep TKc TKs TCc TCs csig ssig ce se sbuf tkc tks ->
  exists sC q,
    always_ends
      (Sys (client_handshake L TKc TCc (cs_init csig (Some ce) true w tkc))
           (server_handshake L TKs TCs (ss_init ssig (Some se) sbuf a2 tks)) [] [])
      (Sys (Ret (sC, Ok tt)) (Read q) [] []) /\
    l_beforenm L (kp_pub se) (kp_sec ce) = Ok (cs_session_key sC) /\
    option_map m34_sig_key (cs_m3 sC) = Some (kp_pub ssig).
Proof.
  intros L sp ep TKc TKs TCc TCs csig ssig ce se sbuf w a2 tkc tks [HL H1 H2 H3 H4 H5 H6 H7 H8].
  destruct (reach_wait L sp ep TKc TKs TCc TCs csig ssig ce se true sbuf w a2 tkc tks _ _ (fun x => Ret x) (fun x => Ret x)
              HL H1 H2 H3 H4 H5 H6 H7)
    as (n & key & sc & s3 & csg & sg & t3 & R1 & R2 & R0 & R3 & R4 & R5 & R6 & R7 & R8 & R9 & R10 & m & R11).
  cbv zeta in *. unfold client_last, server_wait in R1. cbn [iobind] in R1.
  assert (Hq : length (kp_pub ssig) = 32%nat) by (eapply law_sigpk_len; eauto).
  match type of R1 with steps _ _ (Sys (Ret (?a, _)) (Read ?b) _ _) => 
    destruct (steps_eq _ _ _ _ _ R1 (Sys (client_handshake L TKc TCc (cs_init csig (Some ce) true w tkc))
           (server_handshake L TKs TCs (ss_init ssig (Some se) sbuf a2 tks)) [] [])) as ([l r a' b'] & E0 & E1 & E2 & E3 & E4);
    [|exists a] end.
  { split; [|split; [|split; reflexivity]]; cbn [s_left s_right].
    + eapply io_eq_trans; [|apply io_eq_sym; apply client_eq]. apply iobind_ret_eq.
    + eapply io_eq_trans; [|apply io_eq_sym; apply server_eq]. apply iobind_ret_eq. }
  cbn [s_left s_right s_lr s_rl] in *. inversion E1; subst. inversion E2; subst.
  eexists. split.
  - exists n. intros k c Hc. eapply steps_confluent; [exact Hc|exact E0|]. intros t Ht. inversion Ht.
  - cbn [client_buffer cs_set_app cs_session_key cs_m3]. split; [exact R0|]. rewrite R6. cbn [option_map]. f_equal.
    apply m34_fields; assumption.
Qed.
Print Assumptions C32_buffered_client_completes.

(** *** C32, conversations: with either buffering option on either side, the client
    connects, writes a batch and reads the answer; the server accepts, reads the batch
    and writes its answer.  Under every schedule both programs finish, each with
    exactly the other's batch, nothing is left in flight or queued, and the channels
    are in step in both directions. *)
Theorem C32_conversation : forall L sp ep TKc TKs TCc TCs csig ssig ce se cbuf sbuf w a2 tkc tks cm cargs clast sm sargs slast,
  peers_ok L sp ep TKc TKs TCc TCs csig ssig ce se sbuf tkc tks ->
  fits (cm :: cargs) -> fits (sm :: sargs) ->
  Z.of_nat (length (cm :: cargs)) < 2 ^ 62 -> Z.of_nat (length (sm :: sargs)) < 2 ^ 62 ->
  exists sC sS aC aS,
    always_ends
      (Sys (client_asks L TKc TCc (cs_init csig (Some ce) cbuf w tkc) cm cargs clast (length (sm :: sargs)))
           (server_answers L TKs TCs (ss_init ssig (Some se) sbuf a2 tks) (length (cm :: cargs)) sm sargs slast) [] [])
      (Sys (Ret (sC, Some aC, Ok (sm :: sargs))) (Ret (sS, Some aS, Ok (cm :: cargs))) [] []) /\
    cs_session_key sC = ss_session_key sS /\
    l_beforenm L (kp_pub se) (kp_sec ce) = Ok (cs_session_key sC) /\
    option_map m34_sig_key (cs_m3 sC) = Some (kp_pub ssig) /\
    ss_client_sig_key sS = Some (kp_pub csig) /\ ss_is_done sS = false /\
    ac_readq aC = [] /\ ac_readq aS = [] /\ ac_buffered_m4 aC = None /\ ac_buffered_m4 aS = None /\
    linked (ac_enc aC) (ac_enc aS) /\ linked (ac_enc aS) (ac_enc aC).
Proof.
  intros L sp ep TKc TKs TCc TCs csig ssig ce se cbuf sbuf w a2 tkc tks cm cargs clast sm sargs slast
    [HL H1 H2 H3 H4 H5 H6 H7 H8] F1 F2 B1 B2.
  assert (Hp : length (kp_pub csig) = 32%nat) by (eapply law_sigpk_len; eauto).
  assert (Hq : length (kp_pub ssig) = 32%nat) by (eapply law_sigpk_len; eauto).
  set (KL := fun x : cs * res unit => match snd x, cs_app (fst x) with
      | Ok _, Some a => iobind (ac_write L TKc cm cargs clast a) (fun y =>
            match snd y with
            | Err e => Ret (fst x, Some (fst y), Err e)
            | Ok _ => iobind (read_n L TCc (length (sm :: sargs)) (fst y)) (fun z => Ret (fst x, Some (fst z), snd z))
            end)
      | Err e, a => Ret (fst x, a, Err e)
      | Ok _, None => Ret (fst x, None, Err AttributeError)
      end).
  set (KR := fun x : ss * res unit => match snd x, ss_app (fst x) with
      | Ok _, Some a =>
          iobind (read_n L TCs (length (cm :: cargs)) a) (fun y =>
            match snd y with
            | Err e => Ret (fst x, Some (fst y), Err e)
            | Ok l => iobind (ac_write L TKs sm sargs slast (fst y)) (fun z =>
                        Ret (fst x, Some (fst z), match snd z with Ok _ => Ok l | Err e => Err e end))
            end)
      | Err e, a => Ret (fst x, a, Err e)
      | Ok _, None => Ret (fst x, None, Err AttributeError)
      end).
  destruct (reach_wait L sp ep TKc TKs TCc TCs csig ssig ce se cbuf sbuf w a2 tkc tks _ _ KL KR
              HL H1 H2 H3 H4 H5 H6 H7)
    as (n & key & sc & s3 & csg & sg & t3 & R1 & R2 & R0 & R3 & R4 & R5 & R6 & R7 & R8 & R9 & R10 & m & R11).
  cbv zeta in *.
  set (tk4 := snd (tk_get TKc (snd (tk_first TKc tkc)))) in *.
  set (t4 := fst (tk_get TKc (snd (tk_first TKc tkc)))) in *.
  set (tk3 := snd (server_times TKs sbuf tks)) in *.
  (* the client's first write, its frames in flight, the server about to read them *)
  assert (MID : exists n2 sC t4' fs,
    sealed_all L key SESSION_NONCE 3 (mark clast (packets (fst (tk_get TKc tk4)) (cm :: cargs))) fs /\
    cs_session_key sC = key /\ cs_m3 sC = cs_m3 sc /\
    steps n2 (Sys (iobind (client_last L cbuf sc (M4_wire t4 (kp_pub csig) csg)) KL) (iobind (server_wait L TCs s3) KR) [] [])
      (Sys (iobind (read_n L TCc (length (sm :: sargs))
              (AC (EC key [] false 4 (3 + 2 * Z.of_nat (length (packets (fst (tk_get TKc tk4)) (cm :: cargs)))) SESSION_NONCE)
                  (snd (tk_get TKc tk4)) None [])) (fun z => Ret (sC, Some (fst z), snd z)))
           (KR (ss_set_client_sig_key (Some (kp_pub csig)) (ss_set_m4 (Some (M4_wire t4' (kp_pub csig) csg))
                  (ss_set_app (Some (ac_init (EC key [] false 3 4 SESSION_NONCE) tk3)) s3)), Ok tt)) fs [])).
  { pose proof (packets_length (fst (tk_get TKc tk4)) (cm :: cargs)) as PL.
    destruct cbuf.
    - destruct (ac_write_fwd L sp ep TKc key [] false 4 1 tk4 (Some (t4, kp_pub csig, csg)) [] cm cargs clast HL R2)
        as (fs & G1 & G2); [lia| |].
      { cbn [m4_part app length]. cbn [length] in B1, PL |- *. lia. }
      cbn [m4_part m4_of app] in G1, G2.
      destruct (packets (fst (tk_get TKc tk4)) (cm :: cargs)) as [|p0 ps] eqn:EP; [exfalso; eapply packets_nonempty; eauto|].
      cbn [mark] in G1. destruct fs as [|f4 fs]; [destruct G1|]. destruct G1 as [G1 G3].
      exists 2%nat. eexists. exists (fst (tk_get TKc tk4)), fs. split; [exact G3|].
      split; [|split; [|eapply (steps_app _ _ 1)]].
      3:{ unfold client_last. cbn [iobind]. unfold KL at 1. cbn [fst snd client_buffer cs_set_app cs_app].
          rewrite R7. cbn [ac_init ac_enc ac_tk ac_readq].
          match goal with |- context [ac_write ?a ?b ?c ?d ?e ?g] =>
            replace (ac_write a b c d e g) with (Write (f4 :: fs) clast (fun r => Ret (AC (EC key [] false 4 (1 + 2 * Z.of_nat (length
               (M4_wire (fst (tk_get TKc tk4)) (kp_pub csig) csg :: p0 :: ps))) SESSION_NONCE) (snd (tk_get TKc tk4)) None [], r))) by (symmetry; exact G2) end.
          cbn [iobind]. stp. cbn [app iobind fst snd]. constructor. }
      3:{ unfold server_wait. cbn [iobind]. stp.
          rewrite (server_m4_fwd L sp ep HL TCs s3 key tk3 (fst (tk_get TKc tk4)) csg f4 (Ok m) R10 R2 (kp_pub csig) Hp R3 (H8 _) G1 R11).
          cbn [iobind]. 
          match goal with |- context [EC key [] false 4 ?z SESSION_NONCE] =>
            replace z with (3 + 2 * Z.of_nat (length (p0 :: ps))) by (unfold bytes; cbn [length]; lia) end.
          apply steps_O. }
      + exact R5.
      + reflexivity.
    - destruct (ac_write_fwd L sp ep TKc key [] false 4 3 tk4 None [] cm cargs clast HL R2)
        as (fs & G1 & G2); [lia| |].
      { cbn [m4_part app]. cbn [length] in B1, PL |- *. lia. }
      cbn [m4_part m4_of app] in G1, G2.
      exists 3%nat. eexists. exists t4, fs. split; [exact G1|].
      split; [|split; [|eapply (steps_app _ _ 2)]].
      3:{ eapply finish_unbuffered; eauto. }
      3:{ unfold KL at 1. cbn [fst snd cs_set_app cs_app]. unfold ac_init at 1. rewrite G2. cbn [iobind]. stp. cbn [app iobind fst snd].
          apply steps_O. }
      + exact R5.
      + reflexivity. }
  destruct MID as (n2 & sC & t4' & fs & G1 & G2 & G3 & G4).
  set (sS := ss_set_client_sig_key (Some (kp_pub csig)) (ss_set_m4 (Some (M4_wire t4' (kp_pub csig) csg))
                  (ss_set_app (Some (ac_init (EC key [] false 3 4 SESSION_NONCE) tk3)) s3))) in *.
  destruct (exchange L sp ep TKs TCc TCs _ _
      (fun z => Ret (sC, Some (fst z), snd z)) (fun z => Ret (sS, Some (fst z), snd z))
      key 3 4 (snd (tk_get TKc tk4)) tk3 sm sargs slast (fst (tk_get TKc tk4)) cm cargs clast fs false false
      HL R2 H7 H8 F1 F2) as (n3 & fl1 & fl2 & G5); [lia|cbn [length] in *; lia|exact G1|]. cbn [fst snd] in G5.
  do 4 eexists. split.
  - eapply always_ends_intro. eapply steps_eq_ret.
    + eapply steps_app; [exact R1|]. eapply steps_app; [exact G4|]. exact G5.
    + split; [|split; [|split; reflexivity]]; cbn [s_left s_right].
      * unfold client_asks. fold KL. apply io_eq_bind. apply io_eq_sym. apply client_eq.
      * unfold server_answers. fold KR. apply io_eq_bind. apply io_eq_sym. apply server_eq.
  - rewrite G2, G3, R6. split; [symmetry; exact R8|]. split; [exact R0|]. split.
    { cbn [option_map]. f_equal. apply m34_fields; assumption. }
    split; [reflexivity|]. split; [exact R9|]. split; [reflexivity|]. split; [reflexivity|]. split; [reflexivity|]. split; [reflexivity|].
    unfold linked. cbn [ac_enc ec_key ec_session_nonce ec_pushback ec_write_nonce ec_read_nonce].
    repeat split; auto; lia.
Qed.
Print Assumptions C32_conversation.

(** The assumptions hold of concrete peers, and one schedule run to its end shows the
    messages arriving. *)
Example C32_example : forall cb sb,
  peers_ok toy_lib toy_pair toy_pair one_two_three null_keeper null_checker null_checker
    ex_csig ex_ssig ex_cenc ex_senc sb 0 0 /\
  let '((t, o), (u, q)) := run2 40
    (client_asks toy_lib one_two_three null_checker (cs_init ex_csig (Some ex_cenc) cb [] 0) [x01] [[x02; x03]; []] false 1)
    (server_answers toy_lib null_keeper null_checker (ss_init ex_ssig (Some ex_senc) sb None 0) 3 [x04] [] true) [] [] in
  option_map snd o = Some (Ok [[x04]]) /\ option_map snd q = Some (Ok [[x01]; [x02; x03]; []]) /\
  length t = (if cb then 5 else 6)%nat.
Proof.
  intros cb sb. split.
  - constructor; try exact toy_laws; try (split; reflexivity); try (destruct sb; reflexivity); intro x; reflexivity.
  - destruct cb, sb; vm_compute; auto.
Qed.
