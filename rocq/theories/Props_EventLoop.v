(** C132: tasks of one event loop (saltchannel/channel.py:36-98). *)
From Coq Require Import List ZArith Bool Strings.Byte Lia.
From Verif Require Import PyBase PyBase_proofs IO IO_proofs Packets Crypto Crypto_proofs Time AppChannel Session Session_proofs Session_steps Sched_proofs Session_fwd
  Session_sched Flags Examples Props_Session Props_Session2 Props_Session3 Props_Pipe Props_Flags Props_Examples Props_Servers Harness Harness_proofs EventLoop.
Import ListNotations.

Lemma at_len : forall X (l : list X) i x, nth_error l i = Some x -> (i < length l)%nat.
Proof. intros X l i x H. apply nth_error_Some. congruence. Qed.

Lemma deliver_at : forall A to ms (ts : list (io A * list bytes)) j c q, nth_error ts j = Some (c, q) ->
  exists q', nth_error (deliver to ms ts) j = Some (c, q ++ q').
Proof.
  intros A [t|] ms ts j c q H; cbn [deliver]; [|exists []; rewrite app_nil_r; exact H].
  destruct (nth_error ts t) as [[c1 q1]|] eqn:E; [|exists []; rewrite app_nil_r; exact H].
  destruct (Nat.eq_dec t j) as [->|N].
  - rewrite H in E. injection E as <- <-. exists ms. rewrite set_at_same by (eapply at_len; eauto). reflexivity.
  - exists []. rewrite set_at_other by (try exact N; eapply at_len; eauto). rewrite app_nil_r. exact H.
Qed.

(** The other tasks are where they were; messages may have arrived for them. *)
Definition others_kept {A} (i : nat) (ts ts' : list (io A * list bytes)) : Prop :=
  forall j c q, j <> i -> nth_error ts j = Some (c, q) -> exists q', nth_error ts' j = Some (c, q ++ q').

(** A task over an AsyncioChannel does not keep the loop: when it waits for a message, and at the
    latest when it has used up those that have arrived, the loop is free again, and can then
    run any other task that is ready; nothing has happened to the others in the meantime but that
    messages may have arrived. *)
Theorem C132_turns : forall A susp peer (ts : list (io A * list bytes)) i x,
  nth_error ts i = Some x -> susp i = true ->
  inevitably susp peer (fun t => lo_run t = None /\ others_kept i ts (lo_tasks t) /\
     forall j c q, j <> i -> nth_error ts j = Some (c, q) -> ready susp j c q = true ->
       exists t', lo_step susp peer t None t' /\ lo_run t' = Some j) (Loop (Some i) ts).
Proof.
  intros A susp peer ts0 i [c q] H HS.
  assert (G : forall ts c q, nth_error ts i = Some (c, q) -> others_kept i ts0 ts ->
     forall r, after susp i r ->
     inevitably susp peer (fun t => lo_run t = None /\ others_kept i ts0 (lo_tasks t) /\
       forall j c q, j <> i -> nth_error ts0 j = Some (c, q) -> ready susp j c q = true ->
         exists t', lo_step susp peer t None t' /\ lo_run t' = Some j) (Loop r ts)).
  { clear c q H. intros ts c. revert ts. 
    assert (NONE : forall ts, others_kept i ts0 ts -> inevitably susp peer (fun t => lo_run t = None /\ others_kept i ts0 (lo_tasks t) /\
       forall j c q, j <> i -> nth_error ts0 j = Some (c, q) -> ready susp j c q = true ->
         exists t', lo_step susp peer t None t' /\ lo_run t' = Some j) (Loop None ts)).
    { intros ts HK. apply iv_now. split; [reflexivity|]. split; [exact HK|]. intros j c0 q0 N E R.
      destruct (HK j c0 q0 N E) as (q' & E'). eexists. split; [eapply lo_pick; [exact E'|]|reflexivity].
      destruct c0; cbn [ready] in *; try exact R. destruct (susp j); [|reflexivity]. destruct q0; [discriminate|reflexivity]. }
    induction c as [a|k IH|ms l k IH]; intros ts q E HK r [->|[_ ->]]; try (apply NONE; exact HK).
    - apply iv_later; [eexists; eapply lo_end; exact E|]. intros t HT.
      inversion HT; subst; rewrite E in *; try discriminate; apply NONE; exact HK.
    - apply iv_later.
      + destruct q as [|m q]; eexists; [eapply lo_wait; eauto|eapply lo_read; [exact E|left; reflexivity]].
      + intros t HT. inversion HT as [| |ts' i' k' m q' r HE HA| | |]; subst; rewrite E in *; try discriminate; try (apply NONE; exact HK).
        injection HE as -> ->. eapply IH; [|intros j c0 q0 N E0|exact HA].
        * rewrite set_at_same by (eapply at_len; eauto). reflexivity.
        * destruct (HK j c0 q0 N E0) as (q1 & E1). exists q1. rewrite set_at_other by (try (eapply at_len; eauto); congruence). exact E1.
    - apply iv_later; [eexists; eapply lo_write; [exact E|left; reflexivity]|].
      intros t HT. inversion HT as [|ts' i' ms' l' k' q' r HE HA| | | |]; subst; rewrite E in *; try discriminate.
      injection HE as -> -> -> ->.
      destruct (deliver_at A (peer i) ms' (set_at i (k' (Ok tt), q') ts) i (k' (Ok tt)) q') as (q2 & E2); [apply set_at_same; eapply at_len; eauto|].
      eapply IH; [exact E2|intros j c0 q0 N E0|exact HA].
      destruct (HK j c0 q0 N E0) as (q1 & E1).
      destruct (deliver_at A (peer i) ms' (set_at i (k' (Ok tt), q') ts) j c0 (q0 ++ q1)) as (q3 & E3).
      { rewrite set_at_other by (try (eapply at_len; eauto); congruence). exact E1. }
      exists (q1 ++ q3). rewrite E3, app_assoc. reflexivity. }
  eapply G; [exact H| |left; reflexivity].
  intros j c0 q0 _ E. exists []. rewrite app_nil_r. exact E.
Qed.
Print Assumptions C132_turns.

(** "Tasks go on while one of them waits" is false over a SocketChannel: once a task over one waits
    for a message, no task of the loop, over whatever channel, makes a step until something
    arrives for it from outside; if its peer is a task of the same loop that is never. *)
Theorem C132_blocks_refuted : forall A susp peer (ts : list (io A * list bytes)) i k ls t,
  nth_error ts i = Some (Read k, []) -> susp i = false ->
  lo_path susp peer ls (Loop (Some i) ts) t -> ~ In (Some i) ls ->
  lo_run t = Some i /\ map fst (lo_tasks t) = map fst ts /\ ~ In None ls.
Proof.
  intros A susp peer ts i k ls t E HS HP. remember (Loop (Some i) ts) as s eqn:Es. revert ts E Es.
  induction HP as [s|l ls s t u H HP IH]; intros ts E -> N.
  - repeat split; try reflexivity. intros [].
  - inversion H as [|ts' i' ms' l' k' q' r HE HA|ts' i' k' m q' r HE HA|ts' i' k' HE HA|ts' i' a q' HE|run ts' j c q m HE HA]; subst; try (rewrite E in HE; discriminate); [congruence|].
    assert (NE : j <> i) by (intros ->; apply N; left; reflexivity).
    destruct (IH (set_at j (c, q ++ [m]) ts)) as (R1 & R2 & R3); [|reflexivity|intro X; apply N; right; exact X|].
    + rewrite set_at_other by (try exact NE; eapply at_len; eauto). exact E.
    + split; [exact R1|]. split.
      * rewrite R2. clear - HE. revert j HE. induction ts as [|y ts IH]; intros j HE; [destruct j; discriminate|].
        destruct j as [|j]; [injection HE as ->; reflexivity|]. rewrite set_at_cons. cbn [map]. f_equal. apply IH. exact HE.
      * intros [X|X]; [discriminate|contradiction].
Qed.
Print Assumptions C132_blocks_refuted.

(** ** Two connected tasks *)

Definition both_suspend : nat -> bool := fun _ => true.
Definition neither_suspends : nat -> bool := fun _ => false.

Lemma steps_snoc : forall A B n (s t u : sys A B), steps n s t -> step t u -> steps (S n) s u.
Proof. intros A B n s t u H. induction H as [s|n s t v H1 H2 IH]; intro HS; econstructor; [exact HS|constructor|exact H1|apply IH; exact HS]. Qed.

(** Where the loop is, after [k] steps of it *)
Definition turn (i : nat) {A} (c : io A) (q : list bytes) (k j : nat) : Prop :=
  if ready both_suspend i c q then (k <= 3 * j + 1)%nat else (k + 1 <= 3 * j)%nat.

Definition pinv {A} (s0 : sys A A) (k : nat) (st : loop A) : Prop :=
  exists cl ql cr qr j, lo_tasks st = [(cl, ql); (cr, qr)] /\ steps j s0 (Sys cl cr qr ql) /\
    match lo_run st with
    | None => (k <= 3 * j)%nat
    | Some O => turn 0 cl ql k j
    | Some 1%nat => turn 1 cr qr k j
    | _ => False
    end.

Lemma turn_after : forall A i (c : io A) q k j, (k + 1 <= 3 * j)%nat -> turn i c q k j.
Proof. intros A i c q k j H. unfold turn. destruct (ready both_suspend i c q); lia. Qed.

Lemma pinv_step : forall A (s0 : sys A A) k st l st', pinv s0 k st -> lo_step both_suspend pair_peer st l st' -> pinv s0 (S k) st'.
Proof.
  intros A s0 k st l st' (cl & ql & cr & qr & j & E & HS & HR) H.
  inversion H as [ts i c q HE Hr|ts i ms la kk q r HE HA|ts i kk m q r HE HA|ts i kk HE Hs|ts i a q HE|run ts i c q m HE HP]; subst; cbn [lo_tasks lo_run] in *; subst ts.
  - destruct i as [|[|i]]; [| |destruct i; discriminate]; cbn in HE; injection HE as <- <-;
      exists cl, ql, cr, qr, j; (split; [reflexivity|]; split; [exact HS|]; cbn [lo_run]; unfold turn; rewrite Hr; lia).
  - destruct i as [|[|i]]; [| |contradiction]; cbn in HE; injection HE as -> ->; unfold turn in HR; cbn [ready] in HR.
    + exists (kk (Ok tt)), q, cr, (qr ++ ms), (S j). split; [reflexivity|]. split; [eapply steps_snoc; [exact HS|constructor]|].
      destruct HA as [->|[_ ->]]; cbn [lo_run]; [apply turn_after|]; lia.
    + exists cl, (ql ++ ms), (kk (Ok tt)), q, (S j). split; [reflexivity|]. split; [eapply steps_snoc; [exact HS|constructor]|].
      destruct HA as [->|[_ ->]]; cbn [lo_run]; [apply turn_after|]; lia.
  - destruct i as [|[|i]]; [| |contradiction]; cbn in HE; injection HE as -> ->; unfold turn in HR; cbn [ready both_suspend negb orb] in HR.
    + exists (kk (Ok m)), q, cr, qr, (S j). split; [reflexivity|]. split; [eapply steps_snoc; [exact HS|constructor]|].
      destruct HA as [->|[_ ->]]; cbn [lo_run]; [apply turn_after|]; lia.
    + exists cl, ql, (kk (Ok m)), q, (S j). split; [reflexivity|]. split; [eapply steps_snoc; [exact HS|constructor]|].
      destruct HA as [->|[_ ->]]; cbn [lo_run]; [apply turn_after|]; lia.
  - destruct i as [|[|i]]; [| |contradiction]; cbn in HE; injection HE as -> ->; unfold turn in HR; cbn [ready both_suspend negb orb] in HR;
      [exists (Read kk), [], cr, qr, j|exists cl, ql, (Read kk), [], j]; (split; [reflexivity|]; split; [exact HS|]; cbn [lo_run]; lia).
  - destruct i as [|[|i]]; [| |contradiction]; cbn in HE; injection HE as -> ->; unfold turn in HR; cbn [ready] in HR;
      [exists (Ret a), q, cr, qr, j|exists cl, ql, (Ret a), q, j]; (split; [reflexivity|]; split; [exact HS|]; cbn [lo_run]; lia).
  - destruct i as [|[|i]]; discriminate.
Qed.

Lemma pinv_path : forall A (s0 : sys A A) ls st st' k, lo_path both_suspend pair_peer ls st st' -> pinv s0 k st -> pinv s0 (k + length ls) st'.
Proof.
  intros A s0 ls st st' k H. revert k. induction H as [s|l ls s t u H1 H2 IH]; intros k HI; cbn [length]; [rewrite Nat.add_0_r; exact HI|].
  replace (k + S (length ls))%nat with (S k + length ls)%nat by lia. apply IH. eapply pinv_step; eauto.
Qed.

Lemma sends_lift : forall A B n (s t : sys A B), steps n s t ->
  steps n (Sys (@lefts A B (s_left s)) (@rights A B (s_right s)) (s_lr s) (s_rl s)) (Sys (lefts (s_left t)) (rights (s_right t)) (s_lr t) (s_rl t)).
Proof.
  intros A B n s t H. induction H as [s|n s t u H1 H2 IH]; [constructor|]. econstructor; [|exact IH].
  inversion H1; subst; unfold lefts, rights; cbn [s_left s_right s_lr s_rl iobind]; constructor.
Qed.

(** Over AsyncioChannels: if the two programs, joined by two queues, always end with [a] and [b]
    when they are scheduled freely, they do so as tasks of one loop as well: no schedule of
    the loop goes on for ever, and where one cannot go on both tasks are over, with these results. *)
Theorem C132_pair : forall A B (p : io A) (q : io B) a b u v,
  always_ends (Sys p q [] []) (Sys (Ret a) (Ret b) u v) ->
  exists N, forall ls t, lo_path both_suspend pair_peer ls (pair_start (lefts p) (rights q)) t ->
    (length ls <= N)%nat /\
    ((forall l t', ~ lo_step both_suspend pair_peer t l t') -> lo_run t = None /\ lo_tasks t = [(Ret (inl a), v); (Ret (inr b), u)]).
Proof.
  intros A B p q a b u v HE.
  assert (HE' : always_ends (Sys (@lefts A B p) (@rights A B q) [] []) (Sys (Ret (inl a)) (Ret (inr b)) u v)).
  { destruct (always_ends_steps _ _ _ _ HE) as [(n & HS) HF]. eapply ends_stuck; [exact (sends_lift _ _ _ _ _ HS)|].
    intros t HT. inversion HT. }
  destruct HE' as (n & HN). exists (3 * n + 1)%nat. intros ls t HP.
  assert (I0 : pinv (Sys (@lefts A B p) (@rights A B q) [] []) 0 (pair_start (lefts p) (rights q))).
  { eexists _, _, _, _, 0%nat. split; [reflexivity|]. split; [constructor|]. cbn. lia. }
  destruct (pinv_path _ _ _ _ _ 0 HP I0) as (cl & ql & cr & qr & j & E & HS & HR). destruct (HN _ _ HS) as [Hj HF]. split.
  { cbn [Nat.add] in HR. destruct (lo_run t) as [[|[|i]]|]; try contradiction; try lia; unfold turn in HR; destruct (ready _ _ _ _); lia. }
  intro STK. destruct t as [run ts]. cbn [lo_run lo_tasks] in *. subst ts. destruct run as [i|].
  - exfalso. destruct i as [|[|i]]; [| |contradiction].
    + destruct cl as [x|kk|ms la kk]; [|destruct ql as [|m ql]|].
      * eapply STK. eapply (lo_end _ _ _ 0). reflexivity.
      * eapply STK. eapply (lo_wait _ _ _ 0); reflexivity.
      * eapply STK. eapply (lo_read _ _ _ 0); [reflexivity|left; reflexivity].
      * eapply STK. eapply (lo_write _ _ _ 0); [reflexivity|left; reflexivity].
    + destruct cr as [x|kk|ms la kk]; [|destruct qr as [|m qr]|].
      * eapply STK. eapply (lo_end _ _ _ 1). reflexivity.
      * eapply STK. eapply (lo_wait _ _ _ 1); reflexivity.
      * eapply STK. eapply (lo_read _ _ _ 1); [reflexivity|left; reflexivity].
      * eapply STK. eapply (lo_write _ _ _ 1); [reflexivity|left; reflexivity].
  - split; [reflexivity|].
    assert (R0 : ready both_suspend 0 cl ql = false).
    { destruct (ready both_suspend 0 cl ql) eqn:R; [|reflexivity]. exfalso. eapply STK. eapply (lo_pick _ _ _ 0); [reflexivity|exact R]. }
    assert (R1 : ready both_suspend 1 cr qr = false).
    { destruct (ready both_suspend 1 cr qr) eqn:R; [|reflexivity]. exfalso. eapply STK. eapply (lo_pick _ _ _ 1); [reflexivity|exact R]. }
    inversion HF as [s E1 E2|n' s t' w HT HF' E1]; [reflexivity|]. exfalso. inversion HT; subst; discriminate.
Qed.
Print Assumptions C132_pair.

(** So a client and a server session, and what they do with their application channels, can be tasks
    of one loop over AsyncioChannels: they end as if the programs were joined by two queues. *)
Theorem C132_sessions : forall (P : bytes -> Prop) L sp ep TKc TKs TCc TCs csig ssig ce se cbuf sbuf w a2 tkc tks A B (p : lio A) (q : lio B) F nl nr a b,
  peers_ok L sp ep TKc TKs TCc TCs csig ssig ce se sbuf tkc tks ->
  lmodest P nl p -> lmodest P nr q -> (Z.of_nat nl < 2 ^ 62)%Z -> (Z.of_nat nr < 2 ^ 62)%Z ->
  (cbuf = true -> exists ms l k, p = LWrite ms l k) ->
  lends (LSys p false q false [] []) F -> l_left F = LRet a -> l_right F = LRet b ->
  exists N, forall ls t,
    lo_path both_suspend pair_peer ls
      (pair_start (lefts (client_uses L TKc TCc (cs_init csig (Some ce) cbuf w tkc) p))
                  (rights (server_uses L TKs TCs (ss_init ssig (Some se) sbuf a2 tks) q))) t ->
    (length ls <= N)%nat /\
    ((forall l t', ~ lo_step both_suspend pair_peer t l t') ->
       exists sC aC sS aS u v, lo_tasks t = [(Ret (inl (sC, Some aC, Ok a)), v); (Ret (inr (sS, Some aS, Ok b)), u)]).
Proof.
  intros P L sp ep TKc TKs TCc TCs csig ssig ce se cbuf sbuf w a2 tkc tks A B p q F nl nr a b HP M1 M2 B1 B2 HC HE E1 E2.
  destruct (C103_flag_pipe P L sp ep TKc TKs TCc TCs csig ssig ce se cbuf sbuf w a2 tkc tks A B p q F nl nr HP M1 M2 B1 B2 HC HE) as ([pl pr u v] & HA & H1 & H2 & _).
  rewrite E1 in H1. rewrite E2 in H2. cbn [lsame_end s_left s_right] in H1, H2. destruct H1 as (sC & aC & ->), H2 as (sS & aS & ->).
  destruct (C132_pair _ _ _ _ _ _ _ _ HA) as (N & HN). exists N. intros ls t HT. destruct (HN ls t HT) as [HL HS]. split; [exact HL|].
  intro STK. destruct (HS STK) as [_ E]. rewrite E. eauto 8.
Qed.
Print Assumptions C132_sessions.

Lemma server_reads_first : forall L TK TC sig e buf a2 tk B (q : lio B),
  exists k, server_uses L TK TC (ss_init sig (Some e) buf a2 tk) q = Read k.
Proof.
  intros L TK TC sig e buf a2 tk B q. pose proof (server_eq L TK TC (ss_init sig (Some e) buf a2 tk)) as Q.
  unfold server_machine in Q. cbn [ss_init ss_enc] in Q. unfold server_uses. inversion Q as [|k1 k2 HK E1 E2|]; subst.
  cbn [iobind]. eexists. reflexivity.
Qed.

(** With a client over a SocketChannel, and a server over whatever channel, they cannot: whichever
    the loop starts first, after at most two steps nothing happens any more; the client has not
    received anything, and neither session is over. *)
Theorem C132_sessions_refuted : forall L sp ep TKc TKs TCc TCs csig ssig ce se cbuf sbuf w a2 tkc tks A B (p : lio A) (q : lio B) susp,
  nacl_laws L sp ep -> ep (kp_sec ce) (kp_pub ce) -> susp 0%nat = false ->
  forall ls t,
    lo_path susp pair_peer ls
      (pair_start (lefts (client_uses L TKc TCc (cs_init csig (Some ce) cbuf w tkc) p))
                  (rights (server_uses L TKs TCs (ss_init ssig (Some se) sbuf a2 tks) q))) t ->
    (length ls <= 2)%nat /\
    exists cC kS inS, lo_tasks t = [(cC, []); (Read kS, inS)] /\ forall x, cC <> Ret x.
Proof.
  intros L sp ep TKc TKs TCc TCs csig ssig ce se cbuf sbuf w a2 tkc tks A B p q susp HL HE HS ls t HP.
  destruct (client_first L sp ep TKc TCc csig ce cbuf w tkc A p HL HE) as (m & l & kw & k & E1 & E2).
  destruct (server_reads_first L TKs TCs ssig se sbuf a2 tks B q) as (ks & E3).
  rewrite E1, E3 in HP. unfold lefts, rights, pair_start in HP. cbn [iobind] in HP.
  assert (STK : forall (ts : list (io ((cs * option ac * res A) + (ss * option ac * res B)) * list bytes)) i kk ls t, nth_error ts i = Some (Read kk, []) -> susp i = false -> (i < 2)%nat ->
            lo_path susp pair_peer ls (Loop (Some i) ts) t -> ls = [] /\ t = Loop (Some i) ts).
  { intros ts i kk ls0 t0 E Hi L2 H. inversion H as [|l0 ls1 s1 t1 u1 H1 H2]; subst; [auto|]. exfalso.
    inversion H1 as [|ts' i' ms' l' k' q' r HE' HA|ts' i' k' m' q' r HE' HA|ts' i' k' HE' HA|ts' i' a q' HE'|run ts' j c q' m' HE' HA]; subst; try (rewrite E in HE'; discriminate); try congruence.
    destruct j; discriminate. }
  inversion HP as [|l0 ls1 s1 t1 u1 H1 H2]; subst.
  { split; [cbn; lia|]. eexists _, _, _. split; [reflexivity|discriminate]. }
  inversion H1 as [ts i c q0 HN HR| | | | |run ts i c q0 m0 HN HQ]; subst; [|destruct i; discriminate].
  destruct i as [|[|i]]; [| |destruct i; discriminate].
  - cbn in HN. injection HN as <- <-. inversion H2 as [|l0 ls0 s1 t1 u1 H3 H4]; subst.
    { split; [cbn; lia|]. eexists _, _, _. split; [reflexivity|discriminate]. }
    inversion H3 as [|ts' i' ms' l' k' q' r HE' HA|ts' i' k' m' q' r HE' HA|ts' i' k' HE' HA|ts' i' a q' HE'|run ts' j c q' m' HE' HA]; subst; try discriminate; [|destruct j; discriminate].
    cbn in HE'. injection HE' as <- <- <- <-. destruct HA as [->|[HA _]]; [|congruence].
    cbn [pair_peer deliver nth_error set_at firstn skipn app] in H4. rewrite E2 in H4. cbn [iobind] in H4.
    pose proof (fun kk E => STK _ 0%nat kk _ _ E HS ltac:(lia) H4) as X. destruct (X _ eq_refl) as [-> ->]. split; [cbn; lia|].
    eexists _, _, _. split; [reflexivity|discriminate].
  - cbn in HN. injection HN as <- <-. cbn [ready] in HR. destruct (susp 1%nat) eqn:HS1; [discriminate|].
    pose proof (fun kk E => STK _ 1%nat kk _ _ E HS1 ltac:(lia) H2) as X. destruct (X _ eq_refl) as [-> ->]. split; [cbn; lia|].
    eexists _, _, _. split; [reflexivity|discriminate].
Qed.
Print Assumptions C132_sessions_refuted.

(** ** Examples *)

(** A client that sends a line and a server that sends it back: over AsyncioChannels they end *)
Definition ask (m : bytes) : io (res bytes) := Write [m] false (fun _ => Read (fun r => Ret r)).
Definition answer : io unit := Read (fun r => match r with Ok m => Write [m] false (fun _ => Ret tt) | Err _ => Ret tt end).

Example C132_pair_example : forall m, exists N, forall ls t,
  lo_path both_suspend pair_peer ls (pair_start (lefts (ask m)) (rights answer)) t ->
  (length ls <= N)%nat /\
  ((forall l t', ~ lo_step both_suspend pair_peer t l t') -> lo_run t = None /\ lo_tasks t = [(Ret (inl (Ok m)), []); (Ret (inr tt), [])]).
Proof.
  intro m. apply C132_pair. eapply (ends_stuck _ _ _ _ 4); [|intros t H; inversion H].
  unfold ask, answer. eapply steps_S; [apply st_lw|]. eapply steps_S; [apply st_rr|]. eapply steps_S; [apply st_rw|]. eapply steps_S; [apply st_lr|]. constructor.
Qed.

(** Over SocketChannels a schedule exists in which both are lost: the client waits, and the server
    is never started. *)
Example C132_blocks_example : forall m, exists t,
  lo_path neither_suspends pair_peer [None; None] (pair_start (lefts (ask m)) (rights answer)) t /\
  (forall l t', ~ lo_step neither_suspends pair_peer t l t') /\ lo_tasks t = [(Read (fun r => Ret (inl r)), []); (rights answer, [m])].
Proof.
  intro m. eexists. split; [|split].
  - eapply lp_cons; [eapply (lo_pick _ _ _ 0); reflexivity|]. eapply lp_cons; [eapply (lo_write _ _ _ 0); [reflexivity|left; reflexivity]|]. constructor.
  - intros l t' H. inversion H; subst; try discriminate. destruct i as [|[|i]]; discriminate.
  - reflexivity.
Qed.

(** A task over an AsyncioChannel beside one over a SocketChannel that waits: it gets no turn. *)
Example C132_mixed_example : forall (c : io bytes) ls t,
  lo_path (fun i => negb (Nat.eqb i 0)) (fun _ => None) ls (Loop (Some 0%nat) [(Read (fun r => Ret match r with Ok m => m | Err _ => [] end), []); (c, [])]) t ->
  ~ In (Some 0%nat) ls -> exists q, nth_error (lo_tasks t) 1 = Some (c, q).
Proof.
  intros c ls t H N. pose proof (fun k E => C132_blocks_refuted _ _ _ _ 0%nat k _ _ E eq_refl H N) as X. destruct (X _ eq_refl) as (_ & E & _).
  destruct (lo_tasks t) as [|x [|[c1 q] l]]; try discriminate. cbn in E. injection E as _ -> _. exists q. reflexivity.
Qed.
