(** Properties C89, C90, C92: tasks sharing an application channel, and writes that
    fail. *)
From Coq Require Import List ZArith Bool Strings.Byte Lia ZifyBool ZifyNat ZifyN Permutation.
From Verif Require Import PyBase PyBase_proofs IO IO_proofs Packets Packets_proofs Packets_proofs2
  Crypto Crypto_proofs Time EncChannel EncUse EncChannel_proofs Props_Enc
  AppChannel AppUse AppChannel_proofs Props_App Tasks Tasks_proofs Spec.
Import ListNotations.
Open Scope Z_scope.

(** *** C89: any number of tasks use one channel, at most one of them reads, and they
    are scheduled in any way.  Every execution is one sequence of calls made one at a
    time: same results, same frames, same final state, and every task sees its own
    calls in its own order. *)
Theorem C89_linearizable : forall L TK TC s ps log s' ts',
  one_reader ps -> tsteps L TK TC s (map TRun ps) log s' ts' ->
  ac_hist L TK TC s (calls log) s' /\
  length ts' = length ps /\
  forall i p t, nth_error ps i = Some p -> nth_error ts' i = Some t ->
    follows p (calls_of i log) (rest_of t).
Proof.
  intros L TK TC s ps log s' ts' (j & HO) H. split; [|split].
  - eapply tsteps_hist; [exact H|]. exists j. split.
    + intros i t Hi Hn. rewrite nth_error_map in Hi. destruct (nth_error ps i) as [p|] eqn:E; [|discriminate].
      injection Hi as <-. exact (HO _ _ E Hn).
    + intros k Hk. rewrite nth_error_map in Hk. destruct (nth_error ps j); discriminate.
  - apply tsteps_length in H. rewrite H. apply map_length.
  - intros i p t Hp Ht. change p with (rest_of (TRun p)). eapply tsteps_follow; eauto.
    rewrite nth_error_map, Hp. reflexivity.
Qed.
Print Assumptions C89_linearizable.

(** Both peers run tasks: the tasks of [s] do anything, of those of [r] at most one
    reads, and that peer has been given the first frames written.  It gets the
    messages in the order in which the writes were made, whichever tasks made them. *)
Theorem C89_delivery : forall L sp ep TKs TCs TKr TC s r ts0 log s' ts' qs logr r' tr',
  nacl_laws L sp ep -> linked (ac_enc s) (ac_enc r) -> ec_pushback (ac_enc s) = [] ->
  ac_buffered_m4 s = None -> ac_readq r = [] -> accepts_times TC ->
  tsteps L TKs TCs s ts0 log s' ts' ->
  one_reader qs -> tsteps L TKr TC r (map TRun qs) logr r' tr' ->
  (forall m args last t x, In (EcWrite m args last t x) (calls log) -> fits (m :: args)) ->
  prefix_of (frames_in (calls logr)) (frames_out (calls log)) ->
  prefix_of (map fst (got_msgs (calls logr))) (map fst (sent_msgs (calls log))) /\
  (forall t e l, In (EcRead t (Err e) l) (calls logr) -> t = [ERead (Err e)]) /\
  (frames_in (calls logr) = frames_out (calls log) ->
   forall m rest, map fst (sent_msgs (calls log)) = map fst (got_msgs (calls logr)) ++ m :: rest ->
   forall t r1 x, exec (ac_read L TC r') t (Some (r1, x)) -> t = [] /\ x = Ok m).
Proof.
  intros L sp ep TKs TCs TKr TC s r ts0 log s' ts' qs logr r' tr' HL HK Hps HM HQ HT Hs HO Hr Hfit HP.
  destruct (C89_linearizable _ _ _ _ _ _ _ _ HO Hr) as (Hr' & _).
  destruct (tsteps_enc _ _ _ _ _ _ _ _ Hs Hps HM) as (es & S1 & _ & S2 & _ & S4 & _).
  assert (Hpb : ec_pushback (ac_enc r) = []) by apply HK.
  destruct (app_errors _ _ _ _ _ _ Hr' Hpb) as (er & R1 & R2 & R3 & R4).
  rewrite <- S2, <- R3 in HP.
  destruct (linked_deliver _ _ _ _ _ _ _ _ _ HL HK S1 R1 HP) as (D1 & D2 & D3).
  destruct (texts_decode TKs TC (ac_tk s) (calls log) HT Hfit) as (mss & T1 & T2).
  assert (T0 : Forall2 (decodes TC) (map fst (sent_msgs es)) mss) by (rewrite S4; exact T1).
  clear T1. rename T0 into T1.
  pose proof (Forall2_firstn _ _ _ (length (frames_in er)) _ _ T1) as T3.
  rewrite firstn_map', <- D1 in T3. destruct (R4 _ T3) as [R5 R6]. rewrite HQ in R5. cbn [app] in R5.
  destruct (concat_firstn_prefix _ (length (frames_in er)) mss) as [rest HC].
  split; [|split].
  - rewrite <- T2, HC, <- R5. exists (ac_readq r' ++ rest). rewrite app_assoc. reflexivity.
  - intros t e l Hin. eapply R6; eauto.
  - intros HE m rest' Hm t r1 x HX.
    assert (HA : firstn (length (frames_in er)) mss = mss).
    { apply firstn_all2. rewrite R3, HE, <- S2, <- D3.
      apply Forall2_length' in T1. rewrite map_length in T1. rewrite T1. apply le_n. }
    rewrite HA, T2, Hm in R5. apply app_inv_head in R5.
    apply ac_read_exec in HX. destruct HX as [(m' & q & Hq & -> & -> & _)|(Hq & _)].
    + split; auto. congruence.
    + congruence.
Qed.
Print Assumptions C89_delivery.

(** A server with two writing tasks and a reading one.  The reader waits; task 1 writes
    a batch and is suspended; task 2 writes; the reader gets its message; task 1
    goes on.  The client's reader gets the three batches in that order. *)
Definition wr (ms : list bytes) (p : prog) : prog :=
  match ms with m :: r => PWrite m r false (fun _ => p) | [] => p end.
Definition rd (n : nat) : prog := nat_rect _ PDone (fun _ p => PRead (fun _ => p)) n.
Definition ex_tasks : list prog := [rd 1; wr [[x61]; [x62]] (wr [[x63]] PDone); wr [[x64]] PDone].
Definition ex_from_client : bytes :=
  hd [] (frames_out (fst (ac_run toy_lib null_keeper null_checker (ex_app CLIENT) [OpWrite [x7a] [] false (Ok tt)]))).
Definition ex_run : list (nat * ecall) * ac * list task :=
  trun toy_lib one_two_three null_checker (ex_app SERVER) (map TRun ex_tasks)
    (map (fun i => (i, Ok ex_from_client, Ok tt)) [0; 1; 2; 0; 1; 1]%nat).
Definition ex_run_client (fs : list bytes) (sch : list nat) : list (nat * ecall) * ac * list task :=
  trun toy_lib null_keeper null_checker (ex_app CLIENT) (map TRun [rd 4; wr [[x7a]] PDone])
    (combine (combine sch (map Ok fs)) (repeat (Ok tt) (length sch))).
Example C89_example :
  tsteps toy_lib one_two_three null_checker (ex_app SERVER) (map TRun ex_tasks)
         (fst (fst ex_run)) (snd (fst ex_run)) (snd ex_run) /\
  one_reader ex_tasks /\
  map fst (fst (fst ex_run)) = [1; 2; 0; 1]%nat /\
  map fst (sent_msgs (calls (fst (fst ex_run)))) = [[x61]; [x62]; [x64]; [x63]] /\
  map fst (got_msgs (calls (fst (fst ex_run)))) = [[x7a]].
Proof.
  split; [|split].
  - apply (trun_steps _ _ _ (map (fun i => (i, Ok ex_from_client, Ok tt)) [0; 1; 2; 0; 1; 1]%nat)).
    unfold ex_run. destruct (trun _ _ _ _ _ _) as [[? ?] ?]. reflexivity.
  - exists 0%nat. intros [|[|[|i]]] p H Hn; cbn in H; try (exfalso; congruence).
    + injection H as <-. constructor. intros _. constructor. intros _. constructor.
    + injection H as <-. constructor. intros _. constructor.
    + destruct i; discriminate.
  - vm_compute. auto.
Qed.
Example C89_example_delivery :
  let fs := frames_out (calls (fst (fst ex_run))) in
  let f i := nth i fs [] in
  map fst (got_msgs (calls (fst (fst (ex_run_client [f 0; f 0; f 0; f 0; f 0; f 1; f 1; f 2; f 2] [0; 1; 0; 0; 0; 0; 1; 0; 0])))))%nat
  = [[x61]; [x62]; [x64]; [x63]].
Proof. vm_compute. reflexivity. Qed.

(** *** C90: several tasks read from one channel.  No message is lost, made up or
    delivered twice.  What is missing is the order. *)
Theorem C90_several_readers_partial : forall L sp ep TKs TCs TKr TC s r ts0 log s' ts' tr0 logr r' tr',
  nacl_laws L sp ep -> linked (ac_enc s) (ac_enc r) -> ec_pushback (ac_enc s) = [] ->
  ac_buffered_m4 s = None -> ac_buffered_m4 r = None -> ac_readq r = [] -> accepts_times TC ->
  tsteps L TKs TCs s ts0 log s' ts' -> tsteps L TKr TC r tr0 logr r' tr' ->
  (forall m args last t x, In (EcWrite m args last t x) (calls log) -> fits (m :: args)) ->
  prefix_of (frames_in (calls logr)) (frames_out (calls log)) ->
  (exists rest, Permutation (map fst (got_msgs (calls logr)) ++ rest) (map fst (sent_msgs (calls log)))) /\
  (forall t e l, In (EcRead t (Err e) l) (calls logr) -> t = [ERead (Err e)]) /\
  (frames_in (calls logr) = frames_out (calls log) ->
   (length (got_msgs (calls logr)) < length (sent_msgs (calls log)))%nat ->
   exists m, (forall t r1 x, exec (ac_read L TC r') t (Some (r1, x)) -> t = [] /\ x = Ok m) /\
     exists rest, Permutation (map fst (got_msgs (calls logr)) ++ m :: rest) (map fst (sent_msgs (calls log)))).
Proof.
  intros L sp ep TKs TCs TKr TC s r ts0 log s' ts' tr0 logr r' tr' HL HK Hps HM HMr HQ HT Hs Hr Hfit HP.
  destruct (tsteps_enc _ _ _ _ _ _ _ _ Hs Hps HM) as (es & S1 & _ & S2 & _ & S4 & _).
  assert (Hpb : ec_pushback (ac_enc r) = []) by apply HK.
  destruct (tsteps_enc _ _ _ _ _ _ _ _ Hr Hpb HMr) as (er & R1 & _ & R2 & R3 & _ & R4).
  rewrite <- S2, <- R3 in HP.
  destruct (linked_deliver _ _ _ _ _ _ _ _ _ HL HK S1 R1 HP) as (D1 & D2 & D3).
  destruct (texts_decode TKs TC (ac_tk s) (calls log) HT Hfit) as (mss & T1 & T2).
  assert (T0 : Forall2 (decodes TC) (map fst (sent_msgs es)) mss) by (rewrite S4; exact T1).
  clear T1. rename T0 into T1.
  pose proof (Forall2_firstn _ _ _ (length (frames_in er)) _ _ T1) as T3.
  rewrite firstn_map', <- D1 in T3. destruct (R4 _ T3) as [R5 R6]. rewrite HQ in R5. cbn [app] in R5.
  destruct (concat_firstn_prefix _ (length (frames_in er)) mss) as [rest HC].
  split; [|split].
  - exists (ac_readq r' ++ rest). rewrite <- T2, HC, app_assoc. apply Permutation_app_tail. exact R5.
  - intros t e l Hin. eapply R6; eauto.
  - intros HE Hlt.
    assert (HA : firstn (length (frames_in er)) mss = mss).
    { apply firstn_all2. rewrite R3, HE, <- S2, <- D3.
      apply Forall2_length' in T1. rewrite map_length in T1. rewrite T1. apply le_n. }
    rewrite HA, T2 in R5. destruct (ac_readq r') as [|m q] eqn:Eq.
    + exfalso. apply Permutation_length in R5. rewrite app_nil_r, !map_length in R5. lia.
    + exists m. split; [|exists q; exact R5]. intros t r1 x HX.
      apply ac_read_exec in HX. destruct HX as [(m' & q' & Hq & -> & -> & _)|(Hq & _)]; [|congruence].
      split; auto. congruence.
Qed.
Print Assumptions C90_several_readers_partial.

(** The peer writes [a] and [b] in one call and then [c].  Task 0 waits in [read] when
    task 1 calls it and is given the first frame; task 0 gets the second frame, and
    with it [c], before anyone has got [b]. *)
Theorem C90_several_readers_refuted : forall L sp ep TKs TCs TKr TC s r a b c t1 x1 t2 x2 s' f1 f2 k0 k1,
  nacl_laws L sp ep -> linked (ac_enc s) (ac_enc r) ->
  ac_buffered_m4 s = None -> ac_readq r = [] -> accepts_times TC ->
  short a = true -> short b = true ->
  ac_hist L TKs TCs s [EcWrite a [b] false t1 x1; EcWrite c [] false t2 x2] s' ->
  concat (map ev_out t1) = [f1] -> concat (map ev_out t2) = [f2] ->
  exists logr r' tr',
    tsteps L TKr TC r [TRun (PRead (fun _ => PRead k0)); TRun (PRead k1)] logr r' tr' /\
    frames_in (calls logr) = [f1; f2] /\ map fst (got_msgs (calls logr)) = [a; c; b].
Proof.
  intros L sp ep TKs TCs TKr TC s r a b c t1 x1 t2 x2 s' f1 f2 k0 k1 HL HK HM HQ HT Ha Hb Hs Hf1 Hf2.
  destruct (app_to_enc _ _ _ _ _ _ Hs None 0 HM) as (es & S1 & S2 & S3 & S4).
  assert (HF : frames_out es = [f1; f2]).
  { rewrite S2, !frames_out_cons. cbn [call_events]. rewrite Hf1, Hf2. reflexivity. }
  assert (Hpb : ec_pushback (ac_enc r) = []) by apply HK.
  destruct (ec_process L (ac_enc r) f1) as [e1 y1] eqn:P1.
  pose proof (ec_answer_pushback L (ac_enc r) (Ok f1) e1 y1 Hpb P1) as Hp1.
  destruct (ec_process L e1 f2) as [e2 y2] eqn:P2.
  assert (HH : ec_hist L (ac_enc r) [EcRead [ERead (Ok f1)] y1 (ec_last_flag e1);
                                     EcRead [ERead (Ok f2)] y2 (ec_last_flag e2)] e2).
  { econstructor; [rewrite <- P1; apply (ec_answer_exec L (ac_enc r) (Ok f1)); exact Hpb|].
    econstructor; [rewrite <- P2; apply (ec_answer_exec L e1 (Ok f2)); exact Hp1|]. constructor. }
  destruct (linked_deliver _ _ _ _ _ _ _ _ _ HL HK S1 HH) as (D & _).
  { exists []. rewrite HF. reflexivity. }
  rewrite S4 in D. cbn [clear_texts] in D. destruct (tk_get TKs (ac_tk s)) as [n1 tk1].
  destruct (tk_get TKs tk1) as [n2 tk2].
  assert (N1 : is_empty t1 = false) by (destruct t1; [discriminate|reflexivity]).
  assert (N2 : is_empty t2 = false) by (destruct t2; [discriminate|reflexivity]).
  rewrite N1, N2 in D.
  assert (Q1 : packets n1 [a; b] = [Multi_wire n1 [a; b]]).
  { unfold packets. cbn [forallb length]. rewrite Ha, Hb. reflexivity. }
  assert (Q2 : packets n2 [c] = [App_wire n2 c]) by reflexivity.
  rewrite Q1, Q2 in D. cbn [app mark length frames_in events map concat call_events ev_in firstn] in D.
  destruct y1 as [c1|]; [|cbn in D; destruct y2; discriminate]. destruct y2 as [c2|]; [|discriminate].
  unfold got_msgs in D. cbn [map concat call_got app] in D. injection D as -> _ -> _.
  destruct (multi_wire_decodes TC n1 [a; b] HT) as (d1 & q1 & I1 & J1).
  { discriminate. } { cbn. lia. }
  { unfold short in Ha, Hb. intros m [<-|[<-|[]]]; unfold zlen; lia. }
  injection J1 as <- <-.
  destruct (app_wire_decodes TC n2 c HT) as (d2 & q2 & I2 & J2). injection J2 as <- <-.
  eexists. eexists. eexists. split; [|split].
  - eapply (ts_step _ _ _ _ []). { apply st_wait; assumption. } cbn [app].
    eapply (ts_step _ _ _ _ [_]). { apply st_wait; assumption. } cbn [app].
    eapply (ts_step _ _ _ _ [_]).
    { eapply st_answer with (a := Ok f1). cbn [ac_answer]. unfold ac_finish. rewrite P1. cbv beta iota. rewrite I1. reflexivity. } cbn [app].
    eapply (ts_step _ _ _ _ []).
    { eapply st_answer with (a := Ok f2). cbn [ac_answer]. unfold ac_finish. cbn [ac_enc ac_set_enc ac_set_readq ac_readq].
      rewrite P2. cbv beta iota. rewrite I2. reflexivity. } cbn [app].
    eapply (ts_step _ _ _ _ []). { apply st_queue with (q := []). cbn. rewrite HQ. reflexivity. }
    apply ts_nil.
  - reflexivity.
  - reflexivity.
Qed.
Print Assumptions C90_several_readers_refuted.

(** The same with three more messages in flight. *)
Example C90_example :
  let fs := frames_out (fst (ac_run toy_lib one_two_three null_checker (ex_app SERVER)
              [OpWrite [x61] [[x62]] false (Ok tt); OpWrite [x63] [] false (Ok tt); OpWrite [x64] [[x65]] true (Ok tt)])) in
  let log := fst (fst (trun toy_lib null_keeper null_checker (ex_app CLIENT) (map TRun [rd 3; rd 2])
              [(0, Err OSError, Ok tt); (1, Err OSError, Ok tt); (1, Ok (nth 0 fs []), Ok tt);
               (0, Ok (nth 1 fs []), Ok tt); (1, Err OSError, Ok tt); (0, Err OSError, Ok tt);
               (0, Ok (nth 2 fs []), Ok tt); (0, Err OSError, Ok tt)]))%nat in
  map (fun x => (fst x, map fst (call_got (snd x)))) log
  = [(1, [[x61]]); (0, [[x63]]); (1, [[x62]]); (0, [[x64]]); (0, [[x65]])]%nat.
Proof. vm_compute. reflexivity. Qed.

(** *** C92: a write that raised (for instance because it was cancelled while waiting for
    the transport to drain) is expected not to have been delivered, so that it can be
    repeated.  It may have been: the messages then arrive twice. *)
Theorem C92_retry_refuted : forall L sp ep TKs TCs TKr TC s r m args last t e t2 y s' hr r',
  nacl_laws L sp ep -> linked (ac_enc s) (ac_enc r) ->
  ac_buffered_m4 s = None -> ac_readq r = [] -> accepts_times TC -> AppUse.fits (m :: args) ->
  ac_hist L TKs TCs s [EcWrite m args last t (Err e); EcWrite m args last t2 y] s' ->
  t <> [] -> t2 <> [] ->
  ac_hist L TKr TC r hr r' -> frames_in hr = concat (map ev_out t) ++ concat (map ev_out t2) ->
  prefix_of (map fst (got_msgs hr)) ((m :: args) ++ (m :: args)) /\
  ((length (got_msgs hr) < 2 * length (m :: args))%nat ->
   forall t3 r1 x, exec (ac_read L TC r') t3 (Some (r1, x)) ->
   t3 = [] /\ exists z rest, x = Ok z /\ (m :: args) ++ (m :: args) = map fst (got_msgs hr) ++ z :: rest).
Proof.
  intros L sp ep TKs TCs TKr TC s r m args last t e t2 y s' hr r' HL HK HM HQ HT Hfit Hs Ht Ht2 Hr HF.
  assert (HFo : frames_in hr = frames_out [EcWrite m args last t (Err e); EcWrite m args last t2 y]).
  { rewrite !frames_out_cons. cbn [call_events]. rewrite HF. change (frames_out []) with (@nil bytes).
    rewrite app_nil_r. reflexivity. }
  destruct (C28_linked L sp ep TKs TCs TKr TC s r _ s' hr r' HL HK HM HQ HT Hs Hr) as (A & _ & B).
  { intros m0 a0 l0 t0 x0 [Hin|[Hin|[]]]; injection Hin as <- <- <- <- <-; exact Hfit. }
  { exists []. rewrite app_nil_r. symmetry. exact HFo. }
  assert (HS : map fst (sent_msgs [EcWrite m args last t (Err e); EcWrite m args last t2 y]) = (m :: args) ++ (m :: args)).
  { unfold sent_msgs. destruct t; [congruence|]. destruct t2; [congruence|].
    cbn [map call_sent concat]. rewrite app_nil_r, map_app, !mark_fst'. reflexivity. }
  rewrite HS in A, B. split; [exact A|]. intros Hlt t3 r1 x HX. destruct A as [[|z rest] A].
  - exfalso. rewrite app_nil_r in A. apply (f_equal (@length bytes)) in A. rewrite app_length, map_length in A. lia.
  - destruct (B HFo z rest A t3 r1 x HX) as [-> ->]. split; [reflexivity|]. exists z, rest. auto.
Qed.
Print Assumptions C92_retry_refuted.

Example C92_example :
  let hs := fst (ac_run toy_lib one_two_three null_checker (ex_app SERVER)
              [OpWrite [x61] [[x62]] false (Err OSError); OpWrite [x61] [[x62]] false (Ok tt)]) in
  let hr := fst (ac_run toy_lib null_keeper null_checker (ex_app CLIENT)
              [OpRead (Ok (nth 0 (frames_out hs) [])); OpRead (Err OSError); OpRead (Ok (nth 1 (frames_out hs) [])); OpRead (Err OSError)]) in
  frames_in hr = frames_out hs /\ map fst (got_msgs hr) = [[x61]; [x62]; [x61]; [x62]].
Proof. vm_compute. auto. Qed.
