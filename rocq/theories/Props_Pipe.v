(** The whole stack as a message pipe (C65, C66). *)
From Coq Require Import List ZArith Bool Strings.Byte Lia ZifyBool ZifyNat ZifyN.
From Verif Require Import PyBase PyBase_proofs IO IO_proofs Packets Packets_proofs Packets_proofs2
  Crypto Crypto_proofs Time EncChannel EncUse EncChannel_proofs AppChannel AppUse AppChannel_proofs Session Session_proofs
  SessUse Session_steps Sched_proofs Session_fwd Session_sched Channel Stack Spec StackUse Stack_proofs Stack_fit Pipe Pipe_proofs
  Props_App Props_Session Props_Session2 Props_Stack.
Import ListNotations.
Open Scope Z_scope.
Ltac Zify.zify_post_hook ::= Z.div_mod_to_equations.

Lemma always_ends_steps : forall A B (s F : sys A B), always_ends s F -> (exists n, steps n s F) /\ stuck F.
Proof.
  intros A B s F [n HE]. destruct (HE 0%nat _ (steps_O _)) as [_ HS]. rewrite Nat.sub_0_r in HS. split; [exists n; exact HS|].
  intros t Ht. pose proof (steps_app _ _ _ _ _ HS 1 t) as X. specialize (X ltac:(econstructor; [exact Ht|constructor])).
  destruct (HE _ _ X) as [X1 _]. lia.
Qed.

Lemma always_ends_step : forall A B (s t F : sys A B), always_ends s F -> step s t -> exists n, steps n t F.
Proof.
  intros A B s t F [n HE] HS. destruct (HE 1%nat t) as [_ H]; [econstructor; [exact HS|constructor]|]. eauto.
Qed.

Lemma modest_write : forall A n ms l (k : res unit -> io A), modest n (Write ms l k) ->
  exists n' m args, ms = m :: args /\ n = (length (m :: args) + n')%nat /\ fits (m :: args) /\ bulk (m :: args) /\ forall r, modest n' (k r).
Proof. intros A n ms l k H. inversion H; subst. eauto 10. Qed.

(** From the end of the handshakes on. *)
Lemma pipe_from : forall L sp ep TKl TKr TCl TCr key A B (s F : sys A B) (r : sys (cs * option ac * res A) (ss * option ac * res B)) sC sS n,
  nacl_laws L sp ep -> length key = 32%nat -> (forall x, tc_check TCl x = Ok tt) -> (forall x, tc_check TCr x = Ok tt) ->
  steps n s F -> stuck F ->
  rep L TKl TKr TCl TCr key A B _ _ (fun y => Ret (sC, Some (fst y), Ok (snd y))) (fun y => Ret (sS, Some (fst y), Ok (snd y))) s r ->
  exists m r', steps m r r' /\ stuck r' /\
    same_end (s_left F) (s_left r') /\ same_end (s_right F) (s_right r') /\
    (s_lr F = [] -> s_lr r' = []) /\ (s_rl F = [] -> s_rl r' = []).
Proof.
  intros L sp ep TKl TKr TCl TCr key A B s F r sC sS n HL Hk Tl Tr HS HF HR.
  destruct (rep_steps L sp ep TKl TKr TCl TCr key A B _ _ _ _ HL Hk Tl Tr n s F HS r HR) as (m & r' & S1 & R1).
  destruct (rep_stuck L TKl TKr TCl TCr key A B _ _ _ _ F r' HF R1) as (E1 & E2 & E3 & E4 & E5 & E6).
  exists m, r'. split; [exact S1|]. split; [|split; [|split; [|split; assumption]]].
  - intros t Ht. destruct F as [p q a b]; cbn [s_left s_right s_lr s_rl] in *. destruct r' as [p' q' a' b']; cbn [s_left s_right s_lr s_rl] in *.
    destruct p as [x|k|]; [destruct E1 as (z & ->)|destruct E1 as (z & ->)|destruct E1];
    (destruct q as [y|k'|]; [destruct E2 as (w & ->)|destruct E2 as (w & ->)|destruct E2]); cbn [reading] in *;
    try (rewrite E5 in E4 by reflexivity; rewrite E4 in Ht by reflexivity);
    try (rewrite E6 in E3 by reflexivity; rewrite E3 in Ht by reflexivity); inversion Ht.
  - destruct (s_left F); cbn [same_end]; [destruct E1 as (z & E1); exists sC; eexists; exact E1|exact E1|exact E1].
  - destruct (s_right F); cbn [same_end]; [destruct E2 as (z & E2); exists sS; eexists; exact E2|exact E2|exact E2].
Qed.

Lemma same_end_eq : forall S A (p : io A) (x y : io (S * option ac * res A)), same_end p x -> io_eq x y -> same_end p y.
Proof.
  intros S A p x y H E. destruct p; cbn [same_end] in *.
  - destruct H as (s & a0 & ->). inversion E; subst. eauto.
  - destruct H as (k0 & ->). inversion E; subst. eauto.
  - exact H.
Qed.

Lemma stuck_eq : forall A B (s t : sys A B), sys_eq s t -> stuck s -> stuck t.
Proof.
  intros A B s t (E1 & E2 & E3 & E4) HS u Hu. destruct (step_eq _ _ _ _ s Hu) as (u' & Hu' & _).
  - repeat split; [apply io_eq_sym; assumption|apply io_eq_sym; assumption|auto|auto].
  - exact (HS _ Hu').
Qed.

(** ** C65: two programs that use the application channels of a client and a server
    session end exactly as if they were joined by two perfect queues of messages: each
    finishes with the same result, or waits for a message where it would have waited, for
    every schedule of the frames, all message sizes and batches, both buffering options
    (a client that buffers M4 must write first), and nothing is in flight if no message
    is. *)
Theorem C65_message_pipe : forall L sp ep TKc TKs TCc TCs csig ssig ce se cbuf sbuf w a2 tkc tks A B (p : io A) (q : io B) F nl nr,
  peers_ok L sp ep TKc TKs TCc TCs csig ssig ce se sbuf tkc tks ->
  modest nl p -> modest nr q -> Z.of_nat nl < 2 ^ 62 -> Z.of_nat nr < 2 ^ 62 ->
  (cbuf = true -> exists ms l k, p = Write ms l k) ->
  always_ends (Sys p q [] []) F ->
  exists F',
    always_ends (Sys (client_runs L TKc TCc (cs_init csig (Some ce) cbuf w tkc) p)
                     (server_runs L TKs TCs (ss_init ssig (Some se) sbuf a2 tks) q) [] []) F' /\
    same_end (s_left F) (s_left F') /\ same_end (s_right F) (s_right F') /\
    (s_lr F = [] -> s_lr F' = []) /\ (s_rl F = [] -> s_rl F' = []).
Proof.
  intros L sp ep TKc TKs TCc TCs csig ssig ce se cbuf sbuf w a2 tkc tks A B p q F nl nr
    [HL H1 H2 H3 H4 H5 H6 H7 H8] M1 M2 B1 B2 HC HE.
  destruct (always_ends_steps _ _ _ _ HE) as [(n0 & HN) HF].
  assert (Hp : length (kp_pub csig) = 32%nat) by (eapply law_sigpk_len; eauto).
  set (KL := fun x : cs * res unit => match snd x, cs_app (fst x) with
      | Ok _, Some a => iobind (over_app L TKc TCc p a) (fun y => Ret (fst x, Some (fst y), Ok (snd y)))
      | Err e, a => Ret (fst x, a, Err e)
      | Ok _, None => Ret (fst x, None, Err AttributeError)
      end).
  set (KR := fun x : ss * res unit => match snd x, ss_app (fst x) with
      | Ok _, Some a => iobind (over_app L TKs TCs q a) (fun y => Ret (fst x, Some (fst y), Ok (snd y)))
      | Err e, a => Ret (fst x, a, Err e)
      | Ok _, None => Ret (fst x, None, Err AttributeError)
      end).
  destruct (reach_wait L sp ep TKc TKs TCc TCs csig ssig ce se cbuf sbuf w a2 tkc tks _ _ KL KR
              HL H1 H2 H3 H4 H5 H6 H7)
    as (n & key & sc & s3 & csg & sg & t3 & R1 & R2 & R0 & R3 & R4 & R5 & R6 & R7 & R8 & R9 & R10 & m & R11).
  cbv zeta in *.
  set (tk4 := snd (tk_get TKc (snd (tk_first TKc tkc)))) in *.
  set (t4 := fst (tk_get TKc (snd (tk_first TKc tkc)))) in *.
  set (tk3 := snd (server_times TKs sbuf tks)) in *.
  assert (MID : exists n2 sC sS s r n3,
    steps n2 (Sys (iobind (client_last L cbuf sc (M4_wire t4 (kp_pub csig) csg)) KL) (iobind (server_wait L TCs s3) KR) [] []) r /\
    steps n3 s F /\
    rep L TKc TKs TCc TCs key A B _ _ (fun y => Ret (sC, Some (fst y), Ok (snd y))) (fun y => Ret (sS, Some (fst y), Ok (snd y))) s r).
  { destruct cbuf.
    - destruct (HC eq_refl) as (ms & l & k & Ep). subst p.
      destruct (modest_write _ _ _ _ _ M1) as (n' & cm & cargs & -> & -> & HFit & HB & HM). clear M1.
      pose proof (packets_length (fst (tk_get TKc tk4)) (cm :: cargs)) as PL.
      destruct (ac_write_fwd L sp ep TKc key [] false 4 1 tk4 (Some (t4, kp_pub csig, csg)) [] cm cargs l HL R2)
        as (fs & G1 & G2); [lia| |].
      { cbn [m4_part app length]. cbn [length] in B1, PL |- *. lia. }
      cbn [m4_part m4_of app] in G1, G2.
      destruct (packets_decode TCs (fst (tk_get TKc tk4)) _ H8 HFit) as (mst & D1 & D2).
      destruct (packets (fst (tk_get TKc tk4)) (cm :: cargs)) as [|p0 ps] eqn:EP; [exfalso; eapply packets_nonempty; eauto|].
      cbn [mark] in G1. destruct fs as [|f4 fs]; [destruct G1|]. destruct G1 as [G1 G3].
      change (sealed_all L key SESSION_NONCE (1 + 2) (mark l (p0 :: ps)) fs) in G3.
      destruct (always_ends_step _ _ _ (Sys (k (Ok tt)) q (cm :: cargs) []) _ HE) as (n3 & H3s).
      { apply (st_lw (cm :: cargs) l k q [] []). }
      exists 2%nat. eexists. eexists. exists (Sys (k (Ok tt)) q (cm :: cargs) []). eexists. exists n3.
      split; [eapply (steps_app _ _ 1)|split; [exact H3s|]].
      { unfold client_last. cbn [iobind]. unfold KL at 1. cbn [fst snd client_buffer cs_set_app cs_app].
          rewrite R7. cbn [ac_init ac_enc ac_tk ac_readq over_app].
          match goal with |- context [ac_write ?a ?b ?c ?d ?e ?g] =>
            replace (ac_write a b c d e g) with (Write (f4 :: fs) l (fun r => Ret (AC (EC key [] false 4 (1 + 2 * Z.of_nat (length
               (M4_wire (fst (tk_get TKc tk4)) (kp_pub csig) csg :: p0 :: ps))) SESSION_NONCE) (snd (tk_get TKc tk4)) None [], r))) by (symmetry; exact G2) end.
          cbn [iobind]. stp. cbn [app iobind fst snd]. constructor. }
      { unfold server_wait. cbn [iobind]. stp.
          rewrite (server_m4_fwd L sp ep HL TCs s3 key tk3 (fst (tk_get TKc tk4)) csg f4 (Ok m) R10 R2 (kp_pub csig) Hp R3 (H8 _) G1 R11).
          cbn [iobind]. unfold KR at 1. cbn [fst snd ss_set_client_sig_key ss_set_m4 ss_set_app ss_app]. apply steps_O. }
      pose proof (sealed_all_length _ _ _ _ _ _ G3) as Hlen.
      assert (ML : length (mark l (p0 :: ps)) = length (p0 :: ps)).
      { rewrite <- (map_length fst), mark_fst'. reflexivity. }
      rewrite ML in Hlen.
      eexists n', nr, _, _, _, _, _, _, _, _, _, _, _, _. split; [reflexivity|]. cbn [s_left s_right s_lr s_rl].
      split; [apply HM|]. split; [exact M2|].
      assert (E4 : 1 + 2 * Z.of_nat (length (M4_wire (fst (tk_get TKc tk4)) (kp_pub csig) csg :: p0 :: ps)) = 3 + 2 * Z.of_nat (length fs)).
      { clear - Hlen. unfold bytes in *. rewrite Hlen. cbn [length]. lia. }
      assert (BL : Z.of_nat (length fs) <= Z.of_nat (length (cm :: cargs))) by (clear - Hlen PL; unfold bytes in *; lia).
      unfold bytes in *. rewrite E4. clear E4.
      split; [lia|]. split; [cbn [length] in *; lia|]. split; [lia|]. split; [lia|]. split.
      + exists (mark l (p0 :: ps)), mst. split; [exact G3|]. split; [rewrite mark_fst'; exact D1|]. split; [symmetry; exact D2|].
        split; [reflexivity|apply bulk_each; exact HB].
      + apply flow_nil.
    - exists 2%nat. eexists. eexists. exists (Sys p q [] []). eexists. exists n0. split; [|split; [exact HN|]].
      + eapply finish_unbuffered; eauto.
      + unfold KL, KR. cbn [fst snd ss_set_client_sig_key ss_set_m4 ss_set_app ss_app cs_set_app cs_app].
        eexists nl, nr, _, _, _, _, _, _, _, _, _, _, _, _. split; [reflexivity|]. cbn [s_left s_right s_lr s_rl].
        split; [exact M1|]. split; [exact M2|]. split; [lia|]. split; [lia|]. split; [lia|]. split; [lia|]. split; apply flow_nil. }
  destruct MID as (n2 & sC & sS & s & r & n3 & G1 & G2 & G3).
  destruct (pipe_from L sp ep TKc TKs TCc TCs key A B s F r sC sS n3 HL R2 H7 H8 G2 HF G3) as (n4 & r' & S1 & S2 & S3 & S4 & S5 & S6).
  pose proof (steps_app _ _ _ _ _ R1 _ _ (steps_app _ _ _ _ _ G1 _ _ S1)) as ST.
  destruct (steps_eq _ _ _ _ _ ST (Sys (client_runs L TKc TCc (cs_init csig (Some ce) cbuf w tkc) p)
                     (server_runs L TKs TCs (ss_init ssig (Some se) sbuf a2 tks) q) [] [])) as (F' & ST' & EQ).
  { split; [|split; [|split; reflexivity]]; cbn [s_left s_right].
    * unfold client_runs. fold KL. apply io_eq_bind. apply io_eq_sym. apply client_eq.
    * unfold server_runs. fold KR. apply io_eq_bind. apply io_eq_sym. apply server_eq. }
  pose proof (stuck_eq _ _ _ _ EQ S2) as SF'. destruct EQ as (E1 & E2 & E3 & E4).
  exists F'. split; [|split; [|split; [|split]]].
  - eexists. intros k c Hc. eapply steps_confluent; eauto.
  - eapply same_end_eq; eauto.
  - eapply same_end_eq; eauto.
  - rewrite <- E3. exact S5.
  - rewrite <- E4. exact S6.
Qed.
Print Assumptions C65_message_pipe.

(** The same over byte streams: sockets and asyncio streams in any mix, cut and scheduled
    in any way. *)
Theorem C65_pipe_over_streams : forall TL TR L sp ep TKc TKs TCc TCs csig ssig ce se cbuf sbuf w a2 tkc tks A B (p : io A) (q : io B) F nl nr,
  byte_channel TL -> byte_channel TR ->
  peers_ok L sp ep TKc TKs TCc TCs csig ssig ce se sbuf tkc tks -> nacl_fail_laws L -> a2_fits a2 ->
  modest nl p -> modest nr q -> Z.of_nat nl < 2 ^ 62 -> Z.of_nat nr < 2 ^ 62 ->
  (cbuf = true -> exists ms l k, p = Write ms l k) ->
  always_ends (Sys p q [] []) F ->
  inevitable (cstep TL TR)
    (fun c => same_end (s_left F) (c_left c) /\ same_end (s_right F) (c_right c) /\
       (s_lr F = [] -> c_rbuf c = [] /\ c_lr c = []) /\ (s_rl F = [] -> c_lbuf c = [] /\ c_rl c = []))
    (Conn (client_runs L TKc TCc (cs_init csig (Some ce) cbuf w tkc) p) []
          (server_runs L TKs TCs (ss_init ssig (Some se) sbuf a2 tks) q) [] [] []).
Proof.
  intros TL TR L sp ep TKc TKs TCc TCs csig ssig ce se cbuf sbuf w a2 tkc tks A B p q F nl nr HTL HTR HP HX HA M1 M2 B1 B2 HC HE.
  pose proof (po_laws _ _ _ _ _ _ _ _ _ _ _ _ _ _ HP) as LAWS.
  destruct (C65_message_pipe L sp ep TKc TKs TCc TCs csig ssig ce se cbuf sbuf w a2 tkc tks A B p q F nl nr HP M1 M2 B1 B2 HC HE)
    as (F' & E1 & E2 & E3 & E4 & E5).
  eapply inevitable_weaken; [|eapply C63_streams_follow_frames; [exact HTL|exact HTR| | |exact E1]].
  - intros c (-> & -> & Q1 & Q2). split; [exact E2|]. split; [exact E3|]. split.
    + intro E. rewrite (E4 E) in Q1. apply app_eq_nil. exact Q1.
    + intro E. rewrite (E5 E) in Q2. apply app_eq_nil. exact Q2.
  - eapply client_runs_fit; eauto.
  - eapply server_runs_fit; eauto.
Qed.
Print Assumptions C65_pipe_over_streams.

(** An echo service: the server answers [n] messages with themselves; the client sends
    [n] messages, one after the other, and collects the answers. *)
Fixpoint echo_server (n : nat) : io (res unit) :=
  match n with
  | O => Ret (Ok tt)
  | S n => Read (fun r => match r with
                          | Err e => Ret (Err e)
                          | Ok m => Write [m] false (fun r => match r with Err e => Ret (Err e) | Ok _ => echo_server n end)
                          end)
  end.
Fixpoint echo_client (ms got : list bytes) : io (res (list bytes)) :=
  match ms with
  | [] => Ret (Ok (rev got))
  | m :: ms => Write [m] (is_empty ms) (fun r => match r with
                 | Err e => Ret (Err e)
                 | Ok _ => Read (fun r => match r with Err e => Ret (Err e) | Ok x => echo_client ms (x :: got) end)
                 end)
  end.

Lemma echo_ends : forall ms got, exists n, steps n (Sys (echo_client ms got) (echo_server (length ms)) [] [])
  (Sys (Ret (Ok (rev got ++ ms))) (Ret (Ok tt)) [] []).
Proof.
  induction ms as [|m ms IH]; intro got; cbn [echo_client echo_server length].
  - exists 0%nat. rewrite app_nil_r. constructor.
  - destruct (IH (m :: got)) as (n & H). exists (4 + n)%nat. cbn [rev] in H. rewrite <- app_assoc in H. cbn [app] in H.
    eapply (steps_app _ _ 4); [|exact H]. stp. stp. stp. stp. constructor.
Qed.

Lemma fits_one : forall m, fits [m].
Proof. intro m. left. cbn [length]. lia. Qed.

Lemma echo_modest : forall ms got, Forall (fun m => bulk [m]) ms -> modest (length ms) (echo_client ms got).
Proof.
  induction ms as [|m ms IH]; intros got H; cbn [echo_client length]; [constructor|]. inversion H; subst.
  apply (mo_write (length ms) m []); [apply fits_one|assumption|]. intros [[]|e]; [|constructor]. constructor.
  intros [x|e] _; [apply IH; assumption|constructor].
Qed.

Lemma echo_server_modest : forall n, modest n (echo_server n).
Proof.
  induction n as [|n IH]; cbn [echo_server]; constructor. intros [m|e] H; [|constructor].
  apply (mo_write n m []); [apply fits_one|exact (H m eq_refl)|]. intros [[]|e]; [exact IH|constructor].
Qed.

(** Every echo client gets back exactly what it sent: every number and size of messages,
    both buffering options, sockets and asyncio streams, all cuttings and schedules. *)
Theorem C65_echo : forall TL TR L sp ep TKc TKs TCc TCs csig ssig ce se cbuf sbuf w a2 tkc tks ms,
  byte_channel TL -> byte_channel TR ->
  peers_ok L sp ep TKc TKs TCc TCs csig ssig ce se sbuf tkc tks -> nacl_fail_laws L -> a2_fits a2 ->
  ms <> [] -> Z.of_nat (length ms) < 2 ^ 62 -> Forall (fun m => Z.of_nat (length m) + 24 < 2 ^ 31) ms ->
  inevitable (cstep TL TR)
    (fun c => exists sC aC sS aS, c = Conn (Ret (sC, Some aC, Ok (Ok ms))) [] (Ret (sS, Some aS, Ok (Ok tt))) [] [] [])
    (Conn (client_runs L TKc TCc (cs_init csig (Some ce) cbuf w tkc) (echo_client ms [])) []
          (server_runs L TKs TCs (ss_init ssig (Some se) sbuf a2 tks) (echo_server (length ms))) [] [] []).
Proof.
  intros TL TR L sp ep TKc TKs TCc TCs csig ssig ce se cbuf sbuf w a2 tkc tks ms HTL HTR HP HX HA HN HB HM.
  destruct (echo_ends ms []) as (n & HE).
  eapply inevitable_weaken; [|eapply C65_pipe_over_streams with (F := Sys (Ret (Ok ms)) (Ret (Ok tt)) [] []); try eassumption].
  - intros [p lb q rb lr rl]. cbn [s_left s_right s_lr s_rl same_end c_left c_right c_lbuf c_rbuf c_lr c_rl].
    intros ((sC & aC & ->) & (sS & aS & ->) & E1 & E2). destruct (E1 eq_refl) as [-> ->]. destruct (E2 eq_refl) as [-> ->].
    exists sC, aC, sS, aS. reflexivity.
  - apply echo_modest. exact HM.
  - apply echo_server_modest.
  - intros _. destruct ms as [|m ms]; [congruence|]. cbn [echo_client]. eauto.
  - eapply always_ends_intro. exact HE.
Qed.
Print Assumptions C65_echo.

Example C65_example : forall cb sb paused,
  inevitable (cstep socket_transport (asyncio_transport paused))
    (fun c => exists sC aC sS aS, c = Conn (Ret (sC, Some aC, Ok (Ok [[x61]; []; [x62; x63]]))) [] (Ret (sS, Some aS, Ok (Ok tt))) [] [] [])
    (Conn (client_runs toy_lib one_two_three null_checker (cs_init ex_csig (Some ex_cenc) cb [] 0) (echo_client [[x61]; []; [x62; x63]] [])) []
          (server_runs toy_lib null_keeper null_checker (ss_init ex_ssig (Some ex_senc) sb None 0) (echo_server 3)) [] [] []).
Proof.
  intros cb sb paused. eapply (C65_echo _ _ toy_lib toy_pair toy_pair).
  - left; reflexivity.
  - right; eexists; reflexivity.
  - exact (proj1 (C32_example cb sb)).
  - exact toy_fail_laws.
  - exact I.
  - discriminate.
  - cbn. lia.
  - repeat constructor; cbn; lia.
Qed.

(** ** C66: "enabling M4 buffering changes no outcome" is false: if the client's program
    reads first, then whatever the programs, both peers wait for ever and nothing is in
    flight, although a client without buffering would have gone on. *)
Theorem C66_buffered_m4_deadlock_refuted : forall L sp ep TKc TKs TCc TCs csig ssig ce se sbuf w a2 tkc tks A B k (q : io B),
  peers_ok L sp ep TKc TKs TCc TCs csig ssig ce se sbuf tkc tks ->
  exists kl kr,
    always_ends (Sys (client_runs L TKc TCc (cs_init csig (Some ce) true w tkc) (Read k : io A))
                     (server_runs L TKs TCs (ss_init ssig (Some se) sbuf a2 tks) q) [] [])
                (Sys (Read kl) (Read kr) [] []).
Proof.
  intros L sp ep TKc TKs TCc TCs csig ssig ce se sbuf w a2 tkc tks A B k q [HL H1 H2 H3 H4 H5 H6 H7 H8].
  set (KL := fun x : cs * res unit => match snd x, cs_app (fst x) with
      | Ok _, Some a => iobind (over_app L TKc TCc (Read k : io A) a) (fun y => Ret (fst x, Some (fst y), Ok (snd y)))
      | Err e, a => Ret (fst x, a, Err e)
      | Ok _, None => Ret (fst x, None, Err AttributeError)
      end).
  set (KR := fun x : ss * res unit => match snd x, ss_app (fst x) with
      | Ok _, Some a => iobind (over_app L TKs TCs q a) (fun y => Ret (fst x, Some (fst y), Ok (snd y)))
      | Err e, a => Ret (fst x, a, Err e)
      | Ok _, None => Ret (fst x, None, Err AttributeError)
      end).
  destruct (reach_wait L sp ep TKc TKs TCc TCs csig ssig ce se true sbuf w a2 tkc tks _ _ KL KR
              HL H1 H2 H3 H4 H5 H6 H7)
    as (n & key & sc & s3 & csg & sg & t3 & R1 & R2 & R0 & R3 & R4 & R5 & R6 & R7 & R8 & R9 & R10 & m & R11).
  cbv zeta in *. unfold client_last, server_wait in R1. cbn [iobind] in R1. unfold KL at 2 in R1.
  cbn [fst snd client_buffer cs_set_app cs_app] in R1. rewrite R7 in R1. cbn [ac_init ac_enc ac_tk ac_readq over_app] in R1.
  unfold ac_read at 1, mbind, mget, mput, mret, mzoom, mlift, mmod, ec_read in R1.
  cbn [iobind fst snd ac_readq ac_enc ec_pushback is_empty] in R1.
  destruct (steps_eq _ _ _ _ _ R1 (Sys (client_runs L TKc TCc (cs_init csig (Some ce) true w tkc) (Read k))
                     (server_runs L TKs TCs (ss_init ssig (Some se) sbuf a2 tks) q) [] [])) as ([l r a b] & ST' & EQ).
  { split; [|split; [|split; reflexivity]]; cbn [s_left s_right].
    * unfold client_runs. fold KL. apply io_eq_bind. apply io_eq_sym. apply client_eq.
    * unfold server_runs. fold KR. apply io_eq_bind. apply io_eq_sym. apply server_eq. }
  destruct EQ as (E1 & E2 & E3 & E4). cbn [s_left s_right s_lr s_rl] in *. subst a b. inversion E1; subst. inversion E2; subst.
  eexists _, _. exists n. intros j c Hc. eapply steps_confluent; [exact Hc|exact ST'|]. intros t Ht. inversion Ht.
Qed.
Print Assumptions C66_buffered_m4_deadlock_refuted.

(** A server that greets first: without buffering both finish, with buffering both wait. *)
Example C66_example : forall sb,
  let q := Write [[x68; x69]] false (fun r => Ret r) in
  let go cb := run2 40 (client_runs toy_lib one_two_three null_checker (cs_init ex_csig (Some ex_cenc) cb [] 0) (Read (fun r => Ret r)))
                       (server_runs toy_lib null_keeper null_checker (ss_init ex_ssig (Some ex_senc) sb None 0) q) [] [] in
  (option_map snd (snd (fst (go false))), option_map snd (snd (snd (go false)))) = (Some (Ok (Ok [x68; x69])), Some (Ok (Ok tt))) /\
  (option_map snd (snd (fst (go true))), option_map snd (snd (snd (go true)))) = (None, None).
Proof. intros []; vm_compute; auto. Qed.
