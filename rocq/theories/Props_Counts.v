(** C125: the byte counts that the example programs print (saltchannel/dev/example_session1.py,
    example_session3.py, over saltchannel/dev/mitm_channel.py). *)
From Coq Require Import List ZArith Bool Strings.Byte Lia ZifyBool ZifyNat ZifyN.
From Verif Require Import PyBase PyBase_proofs IO IO_proofs Packets Crypto Time EncChannel AppChannel AppUse AppChannel_proofs Session SessUse Session_steps
  Sched_proofs Session_fwd Session_sched Channel Channel_proofs Stack Spec StackUse Stack_proofs Dev Props_Sizes Flags Props_App Props_Session Props_Session2 Props_Misc
  Props_Session4 Props_Stack Props_Pipe Props_Flags Examples Props_Examples Stack_run Counts Counts_proofs.
Import ListNotations.
Open Scope Z_scope.
Ltac Zify.zify_post_hook ::= Z.div_mod_to_equations.

(** ** Any two programs.  If, over perfect queues, they end with the values [a] and [b] after
    writes that cost [wl] and [wr] bytes (24 bytes for a message, or 26 and two per message for
    a batch in one packet, beside the messages), then under every schedule the client prints
    these counts: 162 + [wl] sent and 158 + [wr] received in all, of which, right after the
    handshake, 158 received and 162 sent, or only 42 if M4 is buffered. *)
Theorem C125_counts : forall (P : bytes -> Prop) L sp ep TKc TKs TCc TCs csig ssig ce se (cbuf sbuf : bool) w a2 tkc tks log A B
    (p : lio (res A)) (q : lio B) nl nr a b f g wl wr,
  peers_ok L sp ep TKc TKs TCc TCs csig ssig ce se sbuf tkc tks ->
  lmodest P nl p -> lmodest P nr q -> Z.of_nat nl < 2 ^ 62 -> Z.of_nat nr < 2 ^ 62 ->
  (cbuf = true -> exists ms l k, p = LWrite ms l k) ->
  lends (LSys (counted p (Some 0)) false (counted q (Some 0)) false [] []) (LSys (LRet (Ok a, Some wl)) f (LRet (b, Some wr)) g [] []) ->
  exists sS aS,
    always_ends
      (Sys (client_counts L TKc TCc (cs_init csig (Some ce) cbuf w tkc) p (mitm_init log))
           (server_uses L TKs TCs (ss_init ssig (Some se) sbuf a2 tks) q) [] [])
      (Sys (Ret (Ok (Printed (if cbuf then 42 else 162) 158 (162 + wl) (158 + wr), a))) (Ret (sS, Some aS, Ok b)) [] []).
Proof.
  intros P L sp ep TKc TKs TCc TCs csig ssig ce se cbuf sbuf w a2 tkc tks log A B p q nl nr a b f g wl wr HP M1 M2 B1 B2 HC HE.
  destruct (counts_run P L sp ep TKc TKs TCc TCs csig ssig ce se cbuf sbuf w a2 tkc tks log A B p q nl nr a b f g wl wr HP M1 M2 B1 B2 HC HE)
    as (n & sS & aS & HS & _).
  exists sS, aS. eapply always_ends_intro. exact HS.
Qed.
Print Assumptions C125_counts.

(** The same over sockets and asyncio streams, cut and scheduled in any way, if each side sends
    less than 2 GiB in all. *)
Theorem C125_counts_over_streams : forall TL TR (P : bytes -> Prop) L sp ep TKc TKs TCc TCs csig ssig ce se (cbuf sbuf : bool) w a2 tkc tks log A B
    (p : lio (res A)) (q : lio B) nl nr a b f g wl wr,
  byte_channel TL -> byte_channel TR ->
  peers_ok L sp ep TKc TKs TCc TCs csig ssig ce se sbuf tkc tks ->
  lmodest P nl p -> lmodest P nr q -> Z.of_nat nl < 2 ^ 62 -> Z.of_nat nr < 2 ^ 62 ->
  (cbuf = true -> exists ms l k, p = LWrite ms l k) ->
  lends (LSys (counted p (Some 0)) false (counted q (Some 0)) false [] []) (LSys (LRet (Ok a, Some wl)) f (LRet (b, Some wr)) g [] []) ->
  162 + wl < 2 ^ 31 -> 158 + wr < 2 ^ 31 ->
  inevitable (cstep TL TR)
    (fun c => exists sS aS, c = Conn (Ret (Ok (Printed (if cbuf then 42 else 162) 158 (162 + wl) (158 + wr), a))) []
                                     (Ret (sS, Some aS, Ok b)) [] [] [])
    (Conn (client_counts L TKc TCc (cs_init csig (Some ce) cbuf w tkc) p (mitm_init log)) []
          (server_uses L TKs TCs (ss_init ssig (Some se) sbuf a2 tks) q) [] [] []).
Proof.
  intros TL TR P L sp ep TKc TKs TCc TCs csig ssig ce se cbuf sbuf w a2 tkc tks log A B p q nl nr a b f g wl wr HTL HTR HP M1 M2 B1 B2 HC HE T1 T2.
  destruct (counts_run P L sp ep TKc TKs TCc TCs csig ssig ce se cbuf sbuf w a2 tkc tks log A B p q nl nr a b f g wl wr HP M1 M2 B1 B2 HC HE)
    as (n & sS & aS & _ & HS).
  eapply inevitable_weaken; [|eapply run_streams; [exact HTL|exact HTR|exact (HS T1 T2)|intros t Ht; inversion Ht]].
  intros [x lb y rb lr rl]. cbn [s_left s_right s_lr s_rl c_left c_right c_lbuf c_rbuf c_lr c_rl frames map concat].
  intros (-> & -> & Q1 & Q2). apply app_eq_nil in Q1, Q2. destruct Q1 as [-> ->], Q2 as [-> ->]. eauto.
Qed.
Print Assumptions C125_counts_over_streams.

(** ** The examples *)
Lemma example1_counted : forall m, lends (LSys (counted (example1_client m) (Some 0)) false (counted example1_server (Some 0)) false [] [])
  (LSys (LRet (Ok m, Some (24 + Z.of_nat (length m)))) false (LRet (Ok true, Some (24 + Z.of_nat (length m)))) true [] []).
Proof.
  intro m. split; [|intros t Ht; inversion Ht].
  assert (E : 0 + wire_cost [m] = 24 + Z.of_nat (length m)) by (unfold wire_cost; cbn; lia).
  exists 5%nat. unfold example1_client, example1_server. cbn [counted].
  econstructor; [apply ls_lw|]. cbn [next counted]. econstructor; [apply ls_rr|]. cbn [next counted]. econstructor; [apply ls_rw|]. cbn [next counted].
  econstructor; [apply ls_rl|]. cbn [next counted]. econstructor; [apply ls_lr|]. cbn [next counted]. rewrite E. constructor.
Qed.

Lemma example3_counted : forall a b c, exists f, let w := 24 + Z.of_nat (length a) + wire_cost [b; c] in
  lends (LSys (counted (example3_client a b c) (Some 0)) false (counted example3_server (Some 0)) false [] [])
  (LSys (LRet (Ok [a; b; c], Some w)) f (LRet (Ok false, Some w)) false [] []).
Proof.
  intros a b c. exists true. cbv zeta.
  assert (F2 : forall l, exists h, flagged l [b; c] = [(b, h); (c, l)] /\ (l = false -> h = false)).
  { intro l. unfold flagged. destruct ((1 <? Z.of_nat (length [b; c])) && forallb short [b; c]); cbn; eauto. }
  destruct (F2 false) as (h & E1 & E2). rewrite (E2 eq_refl) in E1. destruct (F2 true) as (h' & E3 & _).
  assert (E : 0 + wire_cost [a] = 24 + Z.of_nat (length a)) by (unfold wire_cost; cbn; lia).
  remember (wire_cost [b; c]) as x eqn:EX.
  split; [|intros t Ht; inversion Ht]. exists 11%nat. unfold example3_client, example3_server. cbn [counted].
  econstructor; [apply ls_lw|]. cbn [next counted]. econstructor; [apply ls_rr|]. cbn [next counted]. econstructor; [apply ls_rw|]. cbn [next counted].
  econstructor; [apply ls_lr|]. cbn [next counted].
  econstructor; [apply ls_lw|]. cbn [next counted]. rewrite E1. cbn [app]. econstructor; [apply ls_rr|]. cbn [next counted]. econstructor; [apply ls_rr|]. cbn [next counted].
  econstructor; [apply ls_rw|]. cbn [next counted]. rewrite E3. cbn [app].
  econstructor; [apply ls_rl|]. cbn [next counted]. econstructor; [apply ls_lr|]. cbn [next counted]. econstructor; [apply ls_lr|]. cbn [next counted].
  rewrite <- E, EX. constructor.
Qed.

(** example_session1 against its own server, any request, over sockets and asyncio streams:
    what is printed, and both ends return. *)
Theorem C125_example1 : forall TL TR L sp ep TKc TKs TCc TCs csig ssig ce se (cbuf sbuf : bool) w a2 tkc tks log n (request : bytes),
  byte_channel TL -> byte_channel TR ->
  peers_ok L sp ep TKc TKs TCc TCs csig ssig ce se sbuf tkc (tks 0%nat) ->
  Z.of_nat (length request) + 186 < 2 ^ 31 ->
  inevitable (cstep TL TR)
    (fun c => c = Conn (Ret (Ok (Printed (if cbuf then 42 else 162) 158 (186 + Z.of_nat (length request)) (182 + Z.of_nat (length request)), request : bytes))) []
                       (Ret (Some (Ok tt))) [] [] [])
    (Conn (client_counts L TKc TCc (cs_init csig (Some ce) cbuf w tkc) (example1_client request) (mitm_init log)) []
          (example_loop L TKs TCs (fun i => ss_init ssig (Some se) sbuf a2 (tks i)) example1_server (S n) 0) [] [] []).
Proof.
  intros TL TR L sp ep TKc TKs TCc TCs csig ssig ce se cbuf sbuf w a2 tkc tks log n request HTL HTR HP HB.
  destruct (counts_run (fun m => bulk [m]) L sp ep TKc TKs TCc TCs csig ssig ce se cbuf sbuf w a2 tkc (tks 0%nat) log _ _
    (example1_client request) example1_server 1 1 _ _ _ _ _ _ HP (example1_client_modest request ltac:(cbn [bulk]; lia)) example1_server_modest ltac:(lia) ltac:(lia)
    ltac:(intros _; unfold example1_client; eauto) (example1_counted request)) as (k & sS & aS & _ & HS).
  specialize (HS ltac:(lia) ltac:(lia)).
  eapply inevitable_weaken; [|eapply run_streams; [exact HTL|exact HTR| |]].
  2:{ cbn [example_loop]. match goal with |- fsteps _ (Sys _ (iobind _ ?g) _ _) _ => exact (fsteps_bind_right _ _ _ g _ _ _ HS) end. }
  2:{ cbn [s_left s_right s_lr s_rl iobind snd]. intros t Ht. inversion Ht. }
  intros [x lb y rb lr rl]. cbn [s_left s_right s_lr s_rl c_left c_right c_lbuf c_rbuf c_lr c_rl frames map concat iobind snd].
  intros (-> & -> & Q1 & Q2). apply app_eq_nil in Q1, Q2. destruct Q1 as [-> ->], Q2 as [-> ->].
  replace (162 + (24 + Z.of_nat (length request))) with (186 + Z.of_nat (length request)) by lia.
  replace (158 + (24 + Z.of_nat (length request))) with (182 + Z.of_nat (length request)) by lia. reflexivity.
Qed.
Print Assumptions C125_example1.

(** example_session3 against its own server, any requests: what is printed; the server is left
    waiting for another handshake (as in C104, here over byte streams) and returns when the
    connection breaks. *)
Theorem C125_example3 : forall TL TR L sp ep TKc TKs TCc TCs csig ssig ce se (cbuf sbuf : bool) w a2 tkc tks log n (r1 r21 r22 : bytes),
  byte_channel TL -> byte_channel TR ->
  peers_ok L sp ep TKc TKs TCc TCs csig ssig ce se sbuf tkc (tks 0%nat) ->
  half r1 -> half r21 -> half r22 ->
  Z.of_nat (length r1) + wire_cost [r21; r22] + 186 < 2 ^ 31 ->
  inevitable (cstep TL TR)
    (fun c => exists k, c = Conn (Ret (Ok (Printed (if cbuf then 42 else 162) 158 (186 + Z.of_nat (length r1) + wire_cost [r21; r22])
                                                   (182 + Z.of_nat (length r1) + wire_cost [r21; r22]), [r1; r21; r22]))) []
                       (Read k) [] [] [] /\ forall e, is_com e = true -> k (Err e) = Ret (Some (Ok tt)))
    (Conn (client_counts L TKc TCc (cs_init csig (Some ce) cbuf w tkc) (example3_client r1 r21 r22) (mitm_init log)) []
          (example_loop L TKs TCs (fun i => ss_init ssig (Some se) sbuf a2 (tks i)) example3_server (S (S n)) 0) [] [] []).
Proof.
  intros TL TR L sp ep TKc TKs TCc TCs csig ssig ce se cbuf sbuf w a2 tkc tks log n r1 r21 r22 HTL HTR HP H1 H2 H3 HB.
  destruct (example3_counted r1 r21 r22) as (f & HE).
  destruct (counts_run half L sp ep TKc TKs TCc TCs csig ssig ce se cbuf sbuf w a2 tkc (tks 0%nat) log _ _
    (example3_client r1 r21 r22) example3_server 3 3 _ _ _ _ _ _ HP (example3_client_modest _ _ _ H1 H2 H3) example3_server_modest ltac:(lia) ltac:(lia)
    ltac:(intros _; unfold example3_client; eauto) HE) as (k & sS & aS & _ & HS).
  specialize (HS ltac:(lia) ltac:(lia)).
  destruct (loop_waits L TKs TCs ssig se sbuf a2 tks example3_server n 1) as (kr & K1 & K2).
  eapply inevitable_weaken; [|eapply run_streams; [exact HTL|exact HTR| |]].
  2:{ rewrite (loop_turn _ _ _ _ _ (S n)). match goal with |- fsteps _ (Sys _ (iobind _ ?g) _ _) _ => exact (fsteps_bind_right _ _ _ g _ _ _ HS) end. }
  2:{ cbn [s_left s_right s_lr s_rl iobind snd]. rewrite K1. intros t Ht. inversion Ht. }
  intros [x lb y rb lr rl]. cbn [s_left s_right s_lr s_rl c_left c_right c_lbuf c_rbuf c_lr c_rl frames map concat iobind snd].
  rewrite K1. intros (-> & -> & Q1 & Q2). apply app_eq_nil in Q1, Q2. destruct Q1 as [-> ->], Q2 as [-> ->]. exists kr. split.
  - f_equal. f_equal. f_equal. f_equal. f_equal; lia.
  - intros e He. rewrite K2. unfold caught. rewrite He. reflexivity.
Qed.
Print Assumptions C125_example3.

(** "The handshake bytes that are printed are those of the four handshake packets" (42, 38, 120
    and 120) is false of example_session1, which buffers M4: for every request it prints 200
    instead of 320, and M4 is counted with the application data. *)
Theorem C125_handshake_bytes_refuted : forall TL TR L sp ep TKc TKs TCc TCs csig ssig ce se sbuf w a2 tkc tks log n (request : bytes),
  byte_channel TL -> byte_channel TR ->
  peers_ok L sp ep TKc TKs TCc TCs csig ssig ce se sbuf tkc (tks 0%nat) ->
  Z.of_nat (length request) + 186 < 2 ^ 31 ->
  inevitable (cstep TL TR)
    (fun c => exists pr, c_left c = Ret (Ok (pr, request)) /\ pr_write0 pr + pr_read0 pr = 200 /\
       (pr_write pr - pr_write0 pr) + (pr_read pr - pr_read0 pr) = 120 + 2 * (24 + Z.of_nat (length request)))
    (Conn (client_counts L TKc TCc (cs_init csig (Some ce) true w tkc) (example1_client request) (mitm_init log)) []
          (example_loop L TKs TCs (fun i => ss_init ssig (Some se) sbuf a2 (tks i)) example1_server (S n) 0) [] [] []).
Proof.
  intros TL TR L sp ep TKc TKs TCc TCs csig ssig ce se sbuf w a2 tkc tks log n request HTL HTR HP HB.
  eapply inevitable_weaken; [|eapply (C125_example1 TL TR L sp ep TKc TKs TCc TCs csig ssig ce se true); eauto].
  intros c ->. eexists. split; [reflexivity|]. cbn [pr_write0 pr_read0 pr_write pr_read]. split; lia.
Qed.
Print Assumptions C125_handshake_bytes_refuted.

(** The two examples with their own requests: 192 and 188 bytes, and 231 and 227. *)
Example C125_example : forall cb sb,
  let start (i : nat) := ss_init ex_ssig (Some ex_senc) sb None 0 in
  let go A (p : lio (res A)) body := snd (fst (run2 80 (client_counts toy_lib one_two_three null_checker (cs_init ex_csig (Some ex_cenc) cb [] 0) p (mitm_init true))
                         (example_loop toy_lib null_keeper null_checker start body 3 0) [] [])) in
  let r1 := [x01; x05; x05; x05; x05; x05] in let r21 := [x01; x04; x04; x04; x04] in let r22 := [x03; x03; x03; x03] in
  let w0 := if cb then 42 else 162 in
  go _ (example1_client r1) example1_server = Some (Ok (Printed w0 158 192 188, r1)) /\
  go _ (example3_client r1 r21 r22) example3_server = Some (Ok (Printed w0 158 231 227, [r1; r21; r22])) /\
  wire_cost [r21; r22] = 39.
Proof. intros [] []; vm_compute; auto. Qed.
