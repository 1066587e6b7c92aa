(** What [last] says on the application channels of honest sessions (C103). *)
From Coq Require Import List ZArith Bool Strings.Byte Lia ZifyBool ZifyNat ZifyN.
From Verif Require Import PyBase PyBase_proofs IO IO_proofs Packets Packets_proofs Packets_proofs2
  Crypto Crypto_proofs Time EncChannel EncUse EncChannel_proofs AppChannel AppUse AppChannel_proofs Session Session_proofs
  SessUse Session_steps Sched_proofs Session_fwd Session_sched Channel Stack Spec StackUse Stack_proofs Stack_fit Pipe Pipe_proofs Flags Flags_proofs
  Props_App Props_Session Props_Session2 Props_Stack Props_Pipe.
Import ListNotations.
Open Scope Z_scope.
Ltac Zify.zify_post_hook ::= Z.div_mod_to_equations.

Lemma lmodest_write : forall P A n ms l (k : res unit -> lio A), lmodest P n (LWrite ms l k) ->
  exists n' m args, ms = m :: args /\ n = (length (m :: args) + n')%nat /\ fits (m :: args) /\ Forall P (m :: args) /\ forall r, lmodest P n' (k r).
Proof. intros P A n ms l k H. inversion H; subst. eauto 10. Qed.

Lemma lstep_diamond : forall A B (s t u : lsys A B), lstep s t -> lstep s u -> t = u \/ exists v, lstep t v /\ lstep u v.
Proof.
  intros A B s t u H1 H2. inversion H1; subst; inversion H2; subst; try (left; reflexivity); right; eexists; (split; [constructor|]);
    cbn [app]; constructor.
Qed.

Lemma lends_step : forall A B (s t F : lsys A B), lends s F -> lstep s t -> exists n, lsteps n t F.
Proof.
  intros A B s t F [(n & HN) HF] HS. revert s t HN HS. induction n as [|n IH]; intros s t HN HS.
  - inversion HN; subst. destruct (HF _ HS).
  - inversion HN as [|? ? t1 ? H1 H2]; subst. destruct (lstep_diamond _ _ _ _ _ H1 HS) as [<-|(v & V1 & V2)]; [eauto|].
    destruct (IH _ _ H2 V1) as (k & HK). exists (S k). econstructor; eauto.
Qed.

(** From the end of the handshakes on. *)
Lemma flag_pipe_from : forall P L sp ep TKl TKr TCl TCr key A B (s F : lsys A B) (r : sys (cs * option ac * res A) (ss * option ac * res B)) sC sS n,
  nacl_laws L sp ep -> length key = 32%nat -> (forall x, tc_check TCl x = Ok tt) -> (forall x, tc_check TCr x = Ok tt) ->
  lsteps n s F -> (forall t, ~ lstep F t) ->
  lrep P L TKl TKr TCl TCr key A B _ _ (fun y => Ret (sC, Some (fst y), Ok (snd y))) (fun y => Ret (sS, Some (fst y), Ok (snd y))) s r ->
  exists m r', steps m r r' /\ stuck r' /\
    lsame_end (l_left F) (s_left r') /\ lsame_end (l_right F) (s_right r') /\
    (l_lr F = [] -> s_lr r' = []) /\ (l_rl F = [] -> s_rl r' = []).
Proof.
  intros P L sp ep TKl TKr TCl TCr key A B s F r sC sS n HL Hk Tl Tr HS HF HR.
  destruct (lrep_steps P L sp ep TKl TKr TCl TCr key A B _ _ _ _ HL Hk Tl Tr n s F HS r HR) as (m & r' & S1 & R1).
  destruct (lrep_stuck P L TKl TKr TCl TCr key A B _ _ _ _ F r' HF R1) as (E1 & E2 & E3 & E4 & E5 & E6).
  exists m, r'. split; [exact S1|]. split; [|split; [|split; [|split; assumption]]].
  - intros t Ht. destruct F as [p f q g a b]; cbn [l_left l_right l_lr l_rl s_left s_right s_lr s_rl] in *. destruct r' as [p' q' a' b']; cbn [s_left s_right s_lr s_rl] in *.
    destruct p as [x|k| |]; [destruct E1 as (z & ->)|destruct E1 as (z & ->)|destruct E1|destruct E1];
    (destruct q as [y|k'| |]; [destruct E2 as (w & ->)|destruct E2 as (w & ->)|destruct E2|destruct E2]); cbn [lreading] in *;
    try (rewrite E5 in E4 by reflexivity; rewrite E4 in Ht by reflexivity);
    try (rewrite E6 in E3 by reflexivity; rewrite E3 in Ht by reflexivity); inversion Ht.
  - destruct (l_left F); cbn [lsame_end]; [destruct E1 as (z & E1); exists sC; eexists; exact E1|exact E1|exact E1|exact E1].
  - destruct (l_right F); cbn [lsame_end]; [destruct E2 as (z & E2); exists sS; eexists; exact E2|exact E2|exact E2|exact E2].
Qed.

Lemma lsame_end_eq : forall S A (p : lio A) (x y : io (S * option ac * res A)), lsame_end p x -> io_eq x y -> lsame_end p y.
Proof.
  intros S A p x y H E. destruct p; cbn [lsame_end] in *; auto.
  - destruct H as (s & a0 & ->). inversion E; subst. eauto.
  - destruct H as (k0 & ->). inversion E; subst. eauto.
Qed.

(** ** C103: programs that use the application channels of a client and a server session, and
    look at [last] whenever they like, end exactly as if they were joined by two perfect queues
    of messages with flags ([flagged]): [last] is False after the handshake, and after a read
    it is the flag of the message read, for every schedule, all message sizes and batches and
    both buffering options (a client that buffers M4 must write first).  (Nothing protects the
    flag against an attacker: C27.) *)
Theorem C103_flag_pipe : forall (P : bytes -> Prop) L sp ep TKc TKs TCc TCs csig ssig ce se cbuf sbuf w a2 tkc tks A B (p : lio A) (q : lio B) F nl nr,
  peers_ok L sp ep TKc TKs TCc TCs csig ssig ce se sbuf tkc tks ->
  lmodest P nl p -> lmodest P nr q -> Z.of_nat nl < 2 ^ 62 -> Z.of_nat nr < 2 ^ 62 ->
  (cbuf = true -> exists ms l k, p = LWrite ms l k) ->
  lends (LSys p false q false [] []) F ->
  exists F',
    always_ends (Sys (client_uses L TKc TCc (cs_init csig (Some ce) cbuf w tkc) p)
                     (server_uses L TKs TCs (ss_init ssig (Some se) sbuf a2 tks) q) [] []) F' /\
    lsame_end (l_left F) (s_left F') /\ lsame_end (l_right F) (s_right F') /\
    (l_lr F = [] -> s_lr F' = []) /\ (l_rl F = [] -> s_rl F' = []).
Proof.
  intros P L sp ep TKc TKs TCc TCs csig ssig ce se cbuf sbuf w a2 tkc tks A B p q F nl nr
    [HL H1 H2 H3 H4 H5 H6 H7 H8] M1 M2 B1 B2 HC HE.
  pose proof HE as [(n0 & HN) HF].
  assert (Hp : length (kp_pub csig) = 32%nat) by (eapply law_sigpk_len; eauto).
  set (KL := fun x : cs * res unit => match snd x, cs_app (fst x) with
      | Ok _, Some a => iobind (over_flags L TKc TCc p a) (fun y => Ret (fst x, Some (fst y), Ok (snd y)))
      | Err e, a => Ret (fst x, a, Err e)
      | Ok _, None => Ret (fst x, None, Err AttributeError)
      end).
  set (KR := fun x : ss * res unit => match snd x, ss_app (fst x) with
      | Ok _, Some a => iobind (over_flags L TKs TCs q a) (fun y => Ret (fst x, Some (fst y), Ok (snd y)))
      | Err e, a => Ret (fst x, a, Err e)
      | Ok _, None => Ret (fst x, None, Err AttributeError)
      end).
  destruct (reach_wait L sp ep TKc TKs TCc TCs csig ssig ce se cbuf sbuf w a2 tkc tks _ _ KL KR
              HL H1 H2 H3 H4 H5 H6 H7)
    as (n & key & sc & s3 & csg & sg & t3 & R1 & R2 & R0 & R3 & R4 & R5 & R6 & R7 & R8 & R9 & R10 & m & R11).
  cbv zeta in *.
  set (tk4 := snd (tk_get TKc (snd (tk_first TKc tkc)))) in *.
  set (t4 := fst (tk_get TKc (snd (tk_first TKc tkc)))) in *.
  set (tk3 := snd (server_times TKs sbuf tks)) in *.
  assert (MID : exists n2 sC sS s r n3,
    steps n2 (Sys (iobind (client_last L cbuf sc (M4_wire t4 (kp_pub csig) csg)) KL) (iobind (server_wait L TCs s3) KR) [] []) r /\
    lsteps n3 s F /\
    lrep P L TKc TKs TCc TCs key A B _ _ (fun y => Ret (sC, Some (fst y), Ok (snd y))) (fun y => Ret (sS, Some (fst y), Ok (snd y))) s r).
  { destruct cbuf.
    - destruct (HC eq_refl) as (ms & l & k & Ep). subst p.
      destruct (lmodest_write _ _ _ _ _ _ M1) as (n' & cm & cargs & -> & -> & HFit & HB & HM). clear M1.
      pose proof (packets_length (fst (tk_get TKc tk4)) (cm :: cargs)) as PL.
      destruct (ac_write_fwd L sp ep TKc key [] false 4 1 tk4 (Some (t4, kp_pub csig, csg)) [] cm cargs l HL R2)
        as (fs & G1 & G2); [lia| |].
      { cbn [m4_part app length]. cbn [length] in B1, PL |- *. lia. }
      cbn [m4_part m4_of app] in G1, G2.
      destruct (packets_bring TCs (fst (tk_get TKc tk4)) l cm cargs H8 HFit) as (mst & D1 & D2).
      destruct (packets (fst (tk_get TKc tk4)) (cm :: cargs)) as [|p0 ps] eqn:EP; [exfalso; eapply packets_nonempty; eauto|].
      cbn [mark] in G1. destruct fs as [|f4 fs]; [destruct G1|]. destruct G1 as [G1 G3].
      change (sealed_all L key SESSION_NONCE (1 + 2) (mark l (p0 :: ps)) fs) in G3.
      destruct (lends_step _ _ _ (LSys (k (Ok tt)) false q false (flagged l (cm :: cargs)) []) _ HE) as (n3 & H3s).
      { apply (ls_lw (cm :: cargs) l k false q false [] []). }
      exists 2%nat. eexists. eexists. exists (LSys (k (Ok tt)) false q false (flagged l (cm :: cargs)) []). eexists. exists n3.
      split; [eapply (steps_app _ _ 1)|split; [exact H3s|]].
      { unfold client_last. cbn [iobind]. unfold KL at 1. cbn [fst snd client_buffer cs_set_app cs_app].
          rewrite R7. cbn [ac_init ac_enc ac_tk ac_readq over_flags].
          match goal with |- context [ac_write ?a ?b ?c ?d ?e ?g] =>
            replace (ac_write a b c d e g) with (Write (f4 :: fs) l (fun r => Ret (AC (EC key [] false 4 (1 + 2 * Z.of_nat (length
               (M4_wire (fst (tk_get TKc tk4)) (kp_pub csig) csg :: p0 :: ps))) SESSION_NONCE) (snd (tk_get TKc tk4)) None [], r))) by (symmetry; exact G2) end.
          cbn [iobind]. stp. cbn [app iobind fst snd]. constructor. }
      { unfold server_wait. cbn [iobind]. stp.
          rewrite (server_m4_fwd L sp ep HL TCs s3 key tk3 (fst (tk_get TKc tk4)) csg f4 (Ok m) R10 R2 (kp_pub csig) Hp R3 (H8 _) G1 R11).
          cbn [iobind]. unfold KR at 1. cbn [fst snd ss_set_client_sig_key ss_set_m4 ss_set_app ss_app]. apply steps_O. }
      pose proof (sealed_all_length _ _ _ _ _ _ G3) as Hlen.
      assert (ML : length (mark l (p0 :: ps)) = length (p0 :: ps)).
      { rewrite <- (map_length fst), mark_fst'. reflexivity. }
      rewrite ML in Hlen.
      eexists n', nr, _, _, _, _, _, _, _, _, _, _. split; [reflexivity|]. cbn [l_left l_right l_lr l_rl l_lflag l_rflag].
      split; [apply HM|]. split; [exact M2|].
      assert (E4 : 1 + 2 * Z.of_nat (length (M4_wire (fst (tk_get TKc tk4)) (kp_pub csig) csg :: p0 :: ps)) = 3 + 2 * Z.of_nat (length fs)).
      { clear - Hlen. unfold bytes in *. rewrite Hlen. cbn [length]. lia. }
      assert (BL : Z.of_nat (length fs) <= Z.of_nat (length (cm :: cargs))) by (clear - Hlen PL; unfold bytes in *; lia).
      unfold bytes in *. rewrite E4. clear E4.
      split; [lia|]. split; [cbn [length] in *; lia|]. split; [lia|]. split; [lia|]. split.
      + exists (mark l (p0 :: ps)), mst. split; [exact G3|]. split; [exact D1|]. split; [symmetry; exact D2|].
        split; [reflexivity|apply flagged_all; exact HB].
      + apply fflow_nil.
    - exists 2%nat. eexists. eexists. exists (LSys p false q false [] []). eexists. exists n0. split; [|split; [exact HN|]].
      + eapply finish_unbuffered; eauto.
      + unfold KL, KR. cbn [fst snd ss_set_client_sig_key ss_set_m4 ss_set_app ss_app cs_set_app cs_app].
        eexists nl, nr, _, _, _, _, _, _, _, _, _, _. split; [reflexivity|]. cbn [s_left s_right s_lr s_rl].
        split; [exact M1|]. split; [exact M2|]. split; [lia|]. split; [lia|]. split; [lia|]. split; [lia|]. split; apply fflow_nil. }
  destruct MID as (n2 & sC & sS & s & r & n3 & G1 & G2 & G3).
  destruct (flag_pipe_from P L sp ep TKc TKs TCc TCs key A B s F r sC sS n3 HL R2 H7 H8 G2 HF G3) as (n4 & r' & S1 & S2 & S3 & S4 & S5 & S6).
  pose proof (steps_app _ _ _ _ _ R1 _ _ (steps_app _ _ _ _ _ G1 _ _ S1)) as ST.
  destruct (steps_eq _ _ _ _ _ ST (Sys (client_uses L TKc TCc (cs_init csig (Some ce) cbuf w tkc) p)
                     (server_uses L TKs TCs (ss_init ssig (Some se) sbuf a2 tks) q) [] [])) as (F' & ST' & EQ).
  { split; [|split; [|split; reflexivity]]; cbn [s_left s_right].
    * unfold client_uses. fold KL. apply io_eq_bind. apply io_eq_sym. apply client_eq.
    * unfold server_uses. fold KR. apply io_eq_bind. apply io_eq_sym. apply server_eq. }
  pose proof (stuck_eq _ _ _ _ EQ S2) as SF'. destruct EQ as (E1 & E2 & E3 & E4).
  exists F'. split; [|split; [|split; [|split]]].
  - eexists. intros k c Hc. eapply steps_confluent; eauto.
  - eapply lsame_end_eq; eauto.
  - eapply lsame_end_eq; eauto.
  - rewrite <- E3. exact S5.
  - rewrite <- E4. exact S6.
Qed.
Print Assumptions C103_flag_pipe.

(** The same over sockets and asyncio streams, cut and scheduled in any way. *)
Theorem C103_flags_over_streams : forall TL TR L sp ep TKc TKs TCc TCs csig ssig ce se cbuf sbuf w a2 tkc tks A B (p : lio A) (q : lio B) F nl nr,
  byte_channel TL -> byte_channel TR ->
  peers_ok L sp ep TKc TKs TCc TCs csig ssig ce se sbuf tkc tks -> nacl_fail_laws L -> a2_fits a2 ->
  lmodest (fun m => bulk [m]) nl p -> lmodest (fun m => bulk [m]) nr q -> Z.of_nat nl < 2 ^ 62 -> Z.of_nat nr < 2 ^ 62 ->
  (cbuf = true -> exists ms l k, p = LWrite ms l k) ->
  lends (LSys p false q false [] []) F ->
  inevitable (cstep TL TR)
    (fun c => lsame_end (l_left F) (c_left c) /\ lsame_end (l_right F) (c_right c) /\
       (l_lr F = [] -> c_rbuf c = [] /\ c_lr c = []) /\ (l_rl F = [] -> c_lbuf c = [] /\ c_rl c = []))
    (Conn (client_uses L TKc TCc (cs_init csig (Some ce) cbuf w tkc) p) []
          (server_uses L TKs TCs (ss_init ssig (Some se) sbuf a2 tks) q) [] [] []).
Proof.
  intros TL TR L sp ep TKc TKs TCc TCs csig ssig ce se cbuf sbuf w a2 tkc tks A B p q F nl nr HTL HTR HP HX HA M1 M2 B1 B2 HC HE.
  pose proof (po_laws _ _ _ _ _ _ _ _ _ _ _ _ _ _ HP) as LAWS.
  destruct (C103_flag_pipe (fun m => bulk [m]) L sp ep TKc TKs TCc TCs csig ssig ce se cbuf sbuf w a2 tkc tks A B p q F nl nr HP M1 M2 B1 B2 HC HE)
    as (F' & E1 & E2 & E3 & E4 & E5).
  eapply inevitable_weaken; [|eapply C63_streams_follow_frames; [exact HTL|exact HTR| | |exact E1]].
  - intros c (-> & -> & Q1 & Q2). split; [exact E2|]. split; [exact E3|]. split.
    + intro E. rewrite (E4 E) in Q1. apply app_eq_nil. exact Q1.
    + intro E. rewrite (E5 E) in Q2. apply app_eq_nil. exact Q2.
  - eapply client_uses_fit; eauto.
  - eapply wfq_fit with (Q := fun _ => True). eapply server_uses_fit; eauto.
Qed.
Print Assumptions C103_flags_over_streams.

(** What the receiver sees after each read: (message, last).  The first call's messages travel
    together, so both have the flag; the third message is from a second call without it. *)
Definition c103_reader : lio (list (bytes * bool)) :=
  LLast (fun f0 => LRead (fun r1 => LLast (fun f1 => LRead (fun r2 => LLast (fun f2 => LRead (fun r3 => LLast (fun f3 =>
    LRet (([], f0) :: map (fun x => match x with (Ok m, f) => (m, f) | (Err _, f) => ([], f) end) [(r1, f1); (r2, f2); (r3, f3)])))))))).
Definition c103_writer : lio unit :=
  LWrite [[x61]; [x62]] true (fun _ => LWrite [[x63]] false (fun _ => LRet tt)).
Example C103_example : forall cb sb,
  let go := run2 60 (client_uses toy_lib one_two_three null_checker (cs_init ex_csig (Some ex_cenc) cb [] 0) c103_writer)
                    (server_uses toy_lib null_keeper null_checker (ss_init ex_ssig (Some ex_senc) sb None 0) c103_reader) [] [] in
  option_map snd (snd (snd go)) = Some (Ok [([], false); ([x61], true); ([x62], true); ([x63], false)]) /\
  flagged true [[x61]; [x62]] = [([x61], true); ([x62], true)] /\
  lends (LSys c103_writer false c103_reader false [] [])
        (LSys (LRet tt) false (LRet [([], false); ([x61], true); ([x62], true); ([x63], false)]) false [] []).
Proof.
  intros cb sb go. split; [destruct cb, sb; vm_compute; reflexivity|]. split; [reflexivity|]. split.
  - exists 9%nat. unfold c103_writer, c103_reader. do 9 (econstructor; [constructor|]). constructor.
  - intros t Ht. inversion Ht.
Qed.
