(** C126: running several client sessions (saltchannel/dev/client_server.py,
    client_server_a.py). *)
From Coq Require Import List Bool Arith Sorting.Permutation Lia.
From Verif Require Import PyBase Stack Servers Harness Harness_proofs.
Import ListNotations.

(** ** Threads ([MpClientServerPair.run_sessions]) *)

(** Wherever the schedule has got to: if [run_sessions] has returned, then no session is running,
    no client's socket is open, [is_session_active] is False, and exactly the exceptions of the
    clients that failed have been logged, in some order; and every client that could connect has
    been through its session, with its socket open. *)
Theorem C126_returned : forall fs k h, path (hstep fs) k (hinit fs) h -> h_main h = [] ->
  (forall i, ~ in_session h i /\ ~ has_socket fs h i) /\ h_flag h = false /\ Permutation (h_log h) (flat_map failure fs) /\
  (forall i r, nth_error fs i = Some (Session r) ->
     exists k1 k2 g, k = k1 + k2 /\ path (hstep fs) k1 (hinit fs) g /\ path (hstep fs) k2 g h /\ in_session g i /\ has_socket fs g i).
Proof.
  intros fs k h P HM. destruct (hinv_path _ _ _ _ (hinit_inv fs) P) as [HI _]. destruct (hinv_returned _ _ HI HM) as (HT & HF & HL).
  assert (HN : forall i p, nth_error (h_threads h) i = Some (Some p) -> p = []).
  { intros i p E. rewrite HT in E. apply nth_error_In in E. apply in_map_iff in E. destruct E as (? & E & _). congruence. }
  split; [|split; [exact HF|split; [apply Permutation_sym; exact HL|]]].
  - intro i. split.
    + intros (p & E & I & _). rewrite (HN i p E) in I. destruct I.
    + intros (f & dn & p & _ & E & EP & I1 & I2). rewrite (HN i p E), app_nil_r in EP. subst dn. revert I1 I2. destruct f as [e|e|[u|e]]; cbn; tauto.
  - intros i r Ei. cut (exists k1 k2 g, k = k1 + k2 /\ path (hstep fs) k1 (hinit fs) g /\ path (hstep fs) k2 g h /\ in_session g i).
    { intros (k1 & k2 & g & E & P1 & P2 & HS). exists k1, k2, g. repeat (split; [assumption|]). eapply in_session_socket; [|exact HS]. apply (hinv_path _ _ _ _ (hinit_inv fs) P1). }
    eapply passes_session; [exact P|apply hinit_inv|exact Ei|destruct r; cbn; tauto| |].
    + left. unfold hinit. cbn [h_threads]. rewrite (map_nth_error (fun _ => None) i fs Ei). reflexivity.
    + intros [E|(p & E & I)]; [|rewrite (HN i p E) in I; destruct I]. rewrite HT in E. apply nth_error_In in E. apply in_map_iff in E. destruct E as (? & E & _). congruence.
Qed.
Print Assumptions C126_returned.

(** And it does return, under every schedule, whatever happens to the clients: it never raises. *)
Theorem C126_returns : forall fs, inevitable (hstep fs) (fun h => h_main h = []) (hinit fs).
Proof.
  intro fs. apply (inevitable_measure _ _ (hinv fs) _ (hmu fs)); [|apply hinv_progress|apply hinit_inv].
  intros s t HI HS. destruct (hinv_step _ _ _ HI HS) as [H1 H2]. split; [exact H1|lia].
Qed.
Print Assumptions C126_returns.

(** "[is_session_active] is True exactly while a session is active": if it is True, a client has
    set it and not reset it; with one client it is also True whenever its session runs. *)
Theorem C126_flag_partial : forall fs k h, path (hstep fs) k (hinit fs) h ->
  (h_flag h = true -> exists i, holding fs h i) /\
  (forall f, fs = [f] -> (h_flag h = true <-> holding fs h 0) /\ (in_session h 0 -> h_flag h = true)).
Proof.
  intros fs k h P. destruct (hinv_path _ _ _ _ (hinit_inv fs) P) as [HI _]. pose proof HI as (HF & _ & HG & _). split; [exact HG|].
  intros f ->. split; [|intro HS; eapply single_flag; [exact P|]; eapply in_session_holds; eassumption]. split.
  - intro HB. destruct (HG HB) as (i & r & p & Er & I). pose proof (nth_lt _ _ _ _ Er) as Hi. cbn in Hi. replace i with 0 in * by lia. exists r, p. auto.
  - intro HH. eapply single_flag; eassumption.
Qed.
Print Assumptions C126_flag_partial.

(** With two clients or more, of which one can connect and another got as far as a socket, it can
    be False while a session is running. *)
Theorem C126_flag_refuted : forall fs i j f r, i <> j -> nth_error fs i = Some f -> (forall e, f <> NoSocket e) -> nth_error fs j = Some (Session r) ->
  exists k h, path (hstep fs) k (hinit fs) h /\ in_session h j /\ h_flag h = false.
Proof.
  intros fs i j f r N Ei HNS Ej. destruct (path_all_started fs) as (ts & P0 & T0).
  assert (EJ : exists q, run_session (Session r) = [Open; Flag true; Enter] ++ q /\ In Leave q /\ ~ In Enter q).
  { destruct r as [u|e]; cbn; eexists; (split; [reflexivity|]); cbn; (split; [tauto|intuition discriminate]). }
  destruct EJ as (q & EQ & I1 & I2).
  destruct (path_acts fs j [Open; Flag true; Enter] q (map Join (seq 0 (length fs))) ts false [] ltac:(rewrite <- EQ; apply T0; exact Ej)) as (ts1 & P1 & T1 & U1).
  destruct (path_acts fs i (run_session f) [] (map Join (seq 0 (length fs))) ts1 true (fold_left (fun l a => act_log a l) [Open; Flag true; Enter] [])) as (ts2 & P2 & T2 & U2).
  { rewrite app_nil_r, U1 by exact N. apply T0. exact Ei. }
  eexists. eexists. split; [eapply path_trans; [exact P0|]; eapply path_trans; [exact P1|exact P2]|]. split.
  - exists q. cbn [h_threads]. rewrite U2 by congruence. auto.
  - cbn [h_flag]. destruct f as [e|e|[u|e]]; try reflexivity. exfalso. eapply HNS. reflexivity.
Qed.
Print Assumptions C126_flag_refuted.

(** ** Processes ([ClientServerPairA.run_sessions]) *)

(** When it is over, all clients have ended; it has returned if all of them did, and otherwise it
    has raised the exception of one of them.  [is_session_active] is still True. *)
Theorem C126_processes : forall fs k h r, path (astep fs) k ainit h -> a_main h = Over r ->
  a_futures h = map Some fs /\ (r = Ok tt <-> forall x, In x fs -> x = Ok tt) /\ (forall e, r = Err e -> In (Err e) fs) /\ a_flag h = true.
Proof.
  intros fs k h r P HM. pose proof (where_path _ _ _ _ (where_init fs) P) as HI. unfold where_ok in HI. rewrite HM in HI. destruct HI as (HB & HX & HR).
  split; [exact HX|]. split; [|split; [|exact HB]].
  - destruct r as [[]|e]; [rewrite Forall_forall in HR; tauto|]. split; [discriminate|]. intro HA. specialize (HA _ HR). discriminate.
  - intros e ->. exact HR.
Qed.
Print Assumptions C126_processes.

(** And it is over at last, under every schedule. *)
Theorem C126_processes_end : forall fs, inevitable (astep fs) (fun h => exists r, a_main h = Over r) ainit.
Proof.
  intro fs. apply (inevitable_measure _ _ (where_ok fs) _ (amu fs)); [apply where_step|apply where_progress|apply where_init].
Qed.
Print Assumptions C126_processes_end.

(** "It raises the exception of the client that failed first" is false: as long as the wait is not
    over, whichever clients have already ended, it can still be that of any client that fails. *)
Theorem C126_first_refuted : forall fs i e k h, nth_error fs i = Some (Err e) ->
  path (astep fs) k ainit h -> (exists is, a_main h = AtWhile is) ->
  exists k' h', path (astep fs) k' h h' /\ a_main h' = Over (Err e).
Proof.
  intros fs i e k h Ei P (is & HM). pose proof (where_path _ _ _ _ (where_init fs) P) as HI. unfold where_ok in HI. destruct h as [m ts b]. cbn [a_main a_futures a_flag] in *. subst m.
  destruct HI as (HF & HB & HC). pose proof (nth_lt _ _ _ _ Ei) as Hi.
  assert (EC : is = seq 0 (length fs)).
  { destruct HC as [HC|(_ & _ & HA)]; [exact HC|]. exfalso. rewrite Forall_forall in HA. specialize (HA _ (nth_error_In _ _ Ei)). discriminate. }
  destruct (path_ends fs (AtWhile is) b _ ts eq_refl HF) as (k1 & P1).
  assert (HS : exists l, Permutation (i :: l) is).
  { assert (HIn : In i is) by (rewrite EC; apply in_seq; lia). apply in_split in HIn. destruct HIn as (l1 & l2 & E). exists (l1 ++ l2). rewrite E. apply Permutation_middle. }
  destruct HS as (l & HP). destruct is as [|s0 ss]; [apply Permutation_sym, Permutation_nil in HP; discriminate|].
  eexists. exists (HarnessA (Over (Err e)) (map Some fs) b). split; [|reflexivity].
  eapply path_trans; [exact P1|]. econstructor; [eapply as_wait; [exact HP|]|].
  - intros j Hj. assert (Hl : j < length fs) by (rewrite EC in Hj; apply in_seq in Hj; lia).
    destruct (nth_error fs j) as [r|] eqn:E; [|apply nth_error_None in E; lia]. exists r. apply map_nth_error. exact E.
  - econstructor; [eapply as_raise; apply map_nth_error; exact Ei|constructor].
Qed.
Print Assumptions C126_first_refuted.

(** ** Examples *)

(** Three clients: one that succeeds, one whose session fails, one that cannot connect.  There is
    a schedule after which the first session is running though [is_session_active] is False, and
    all schedules end with two exceptions logged. *)
Example C126_example :
  let fs := [Session (Ok tt); Session (Err BadPeer); NoConnection OSError] in
  (exists k h, path (hstep fs) k (hinit fs) h /\ in_session h 0 /\ h_flag h = false) /\
  (forall k h, path (hstep fs) k (hinit fs) h -> h_main h = [] -> h_log h = [BadPeer; OSError] \/ h_log h = [OSError; BadPeer]) /\
  (forall k h r, path (astep [Ok tt; Err BadPeer; Err OSError]) k ainit h -> a_main h = Over r -> r = Err BadPeer \/ r = Err OSError).
Proof.
  cbv zeta. split; [|split].
  - eapply (C126_flag_refuted _ 2 0); [lia|reflexivity|discriminate|reflexivity].
  - intros k h P HM. destruct (C126_returned _ _ _ P HM) as (_ & _ & HL & _). cbn in HL. apply Permutation_sym, Permutation_length_2_inv in HL. exact HL.
  - intros k h r P HM. destruct (C126_processes _ _ _ _ P HM) as (_ & [HO _] & HE & _). destruct r as [[]|e].
    + specialize (HO eq_refl (Err BadPeer) ltac:(cbn; tauto)). discriminate.
    + specialize (HE e eq_refl). cbn in HE. destruct HE as [HE|[HE|[HE|[]]]]; [discriminate|left|right]; congruence.
Qed.
