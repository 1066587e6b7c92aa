(** C127: TunnelMP (saltchannel/dev/tunnel.py:26-41). *)
From Coq Require Import List Bool Lia Strings.Byte.
From Verif Require Import PyBase IO IO_proofs Dev Crypto Time Session Session_proofs SessUse Sched_proofs Session_sched Session_fwd Props_Session Props_Session2 Props_Session4 Props_Examples TunnelMP.
Import ListNotations.

(** ** "What one end writes, the other end reads" is false of the documented API: with messages
    passed as bytes every pair of programs stops at once, each ended or waiting in its first read,
    and nothing is ever in the pipe. *)
Lemma bytes_stop : forall A (p : io A), (exists a, over_pipe TBytes p = Ret a) \/ (exists k, over_pipe TBytes p = Read k).
Proof.
  intros A p. induction p as [a|k IH|ms l k IH]; [left; eexists; reflexivity|right; eexists; reflexivity|].
  destruct ms as [|m args]; cbn [over_pipe]; [apply IH|]. unfold mp_write. cbn [py_add]. apply IH.
Qed.

Theorem C127_bytes_refuted : forall A B (p : io A) (q : io B),
  stuck (Sys (over_pipe TBytes p) (over_pipe TBytes q) [] []) /\
  ((exists a, over_pipe TBytes p = Ret a) \/ (exists k, over_pipe TBytes p = Read k)) /\
  ((exists b, over_pipe TBytes q = Ret b) \/ (exists k, over_pipe TBytes q = Read k)).
Proof.
  intros A B p q. pose proof (bytes_stop A p) as HP. pose proof (bytes_stop B q) as HQ. split; [|split; assumption].
  intros t Ht. destruct HP as [[a Ea]|[k Ea]], HQ as [[b Eb]|[k' Eb]]; rewrite Ea, Eb in Ht; inversion Ht.
Qed.
Print Assumptions C127_bytes_refuted.

(** In particular a client session raises TypeError at its first write, and a server session waits
    for ever. *)
Theorem C127_sessions_refuted : forall L sp ep TK TC TK' TC' csig e cbuf w tk ssig e' sbuf a2 tk', nacl_laws L sp ep -> ep (kp_sec e) (kp_pub e) ->
  (exists c, over_pipe TBytes (client_handshake L TK TC (cs_init csig (Some e) cbuf w tk)) = Ret (c, Err TypeError)) /\
  (exists k, over_pipe TBytes (server_handshake L TK' TC' (ss_init ssig (Some e') sbuf a2 tk')) = Read k).
Proof.
  intros L sp ep TK TC TK' TC' csig e cbuf w tk ssig e' sbuf a2 tk' HL HE. split.
  - pose proof (client_eq L TK TC (cs_init csig (Some e) cbuf w tk)) as Q. unfold client_machine in Q. cbn [cs_enc cs_init] in Q.
    fold (cs_init csig (Some e) cbuf w tk) in Q. destruct (client_start_fwd L sp ep HL TK csig e HE cbuf w tk) as [pk Hp]. cbv zeta in Hp. rewrite Hp in Q.
    inversion Q as [|?|ms l k k' HK]; subst. cbn [over_pipe]. unfold mp_write. cbn [py_add].
    specialize (HK (Err TypeError)). inversion HK; subst. cbn [over_pipe]. eexists. reflexivity.
  - pose proof (server_eq L TK' TC' (ss_init ssig (Some e') sbuf a2 tk')) as Q. unfold server_machine in Q. cbn [ss_enc ss_init] in Q.
    inversion Q as [|k k' HK|]; subst. cbn [over_pipe]. eexists. reflexivity.
Qed.
Print Assumptions C127_sessions_refuted.

(** ** With the messages in tuples the pipe is a perfect pair of queues: whatever two programs do
    over such queues, they do over the pipe, under every schedule. *)
Lemma send_each_left : forall A B ms (k : io A) (q : io B) a b, exists n, steps n (Sys (send_each ms k) q a b) (Sys k q (a ++ ms) b).
Proof.
  intros A B ms. induction ms as [|m r IH]; intros k q a b; [exists 0; rewrite app_nil_r; constructor|].
  destruct (IH k q (a ++ [m]) b) as (n & H). exists (S n). cbn [send_each]. econstructor; [apply st_lw|]. rewrite <- app_assoc in H. exact H.
Qed.

Lemma send_each_right : forall A B ms (k : io B) (p : io A) a b, exists n, steps n (Sys p (send_each ms k) a b) (Sys p k a (b ++ ms)).
Proof.
  intros A B ms. induction ms as [|m r IH]; intros k p a b; [exists 0; rewrite app_nil_r; constructor|].
  destruct (IH k p a (b ++ [m])) as (n & H). exists (S n). cbn [send_each]. econstructor; [apply st_rw|]. rewrite <- app_assoc in H. exact H.
Qed.

Definition in_tuple (m : bytes) : tval := TTuple [m].

Lemma in_tuple_write : forall A m args (k : res unit -> io A), mp_write (in_tuple m) args k = send_each (m :: args) (k (Ok tt)).
Proof. reflexivity. Qed.

Lemma pipe_step : forall A B (s t : sys A B), step s t -> writes_some (s_left s) -> writes_some (s_right s) ->
  writes_some (s_left t) /\ writes_some (s_right t) /\
  exists n, steps n (Sys (over_pipe in_tuple (s_left s)) (over_pipe in_tuple (s_right s)) (s_lr s) (s_rl s))
                    (Sys (over_pipe in_tuple (s_left t)) (over_pipe in_tuple (s_right t)) (s_lr t) (s_rl t)).
Proof.
  intros A B s t H W1 W2. destruct H as [ms l k pr a b|k pr a m b|pl ms l k a b|pl k m a b]; cbn [s_left s_right s_lr s_rl] in *.
  - destruct W1 as [N W1]. destruct ms as [|m args]; [contradiction|]. split; [apply W1|]. split; [exact W2|].
    cbn [over_pipe]. rewrite in_tuple_write. apply (send_each_left A B (m :: args)).
  - split; [apply W1|]. split; [exact W2|]. exists 1. econstructor; [|constructor]. cbn [over_pipe]. apply (st_lr (fun r => over_pipe in_tuple (k r))).
  - destruct W2 as [N W2]. destruct ms as [|m args]; [contradiction|]. split; [exact W1|]. split; [apply W2|].
    cbn [over_pipe]. rewrite in_tuple_write. apply (send_each_right A B (m :: args)).
  - split; [exact W1|]. split; [apply W2|]. exists 1. econstructor; [|constructor]. cbn [over_pipe]. apply (st_rr _ (fun r => over_pipe in_tuple (k r))).
Qed.

Lemma pipe_steps : forall A B n (s t : sys A B), steps n s t -> writes_some (s_left s) -> writes_some (s_right s) ->
  exists k, steps k (Sys (over_pipe in_tuple (s_left s)) (over_pipe in_tuple (s_right s)) (s_lr s) (s_rl s))
                    (Sys (over_pipe in_tuple (s_left t)) (over_pipe in_tuple (s_right t)) (s_lr t) (s_rl t)).
Proof.
  intros A B n s t H. induction H as [s|n s t u HS H IH]; intros W1 W2; [exists 0; constructor|].
  destruct (pipe_step _ _ _ _ HS W1 W2) as (V1 & V2 & k1 & P1). destruct (IH V1 V2) as (k2 & P2). exists (k1 + k2). eapply steps_app; eassumption.
Qed.

Theorem C127_tuples_partial : forall A B (p : io A) (q : io B) x y n,
  writes_some p -> writes_some q ->
  steps n (Sys p q [] []) (Sys (Ret x) (Ret y) [] []) ->
  always_ends (Sys (over_pipe in_tuple p) (over_pipe in_tuple q) [] []) (Sys (Ret x) (Ret y) [] []).
Proof.
  intros A B p q x y n W1 W2 H. destruct (pipe_steps _ _ _ _ _ H W1 W2) as (k & P). cbn [s_left s_right s_lr s_rl over_pipe] in P.
  eapply ends_stuck; [exact P|apply stuck_ret].
Qed.
Print Assumptions C127_tuples_partial.

(** Two messages and an answer. *)
Example C127_example :
  let p := Write [[x01]; [x02]] false (fun _ => Read (fun r => Ret r)) in
  let q := Read (fun r => Read (fun r' => match r, r' with Ok a, Ok b => Write [a ++ b] false (fun _ => Ret tt) | _, _ => Ret tt end)) in
  always_ends (Sys (over_pipe in_tuple p) (over_pipe in_tuple q) [] []) (Sys (Ret (Ok [x01; x02])) (Ret tt) [] []) /\
  over_pipe TBytes p = Read (fun r => Ret r).
Proof.
  cbv zeta. split; [|reflexivity]. eapply (C127_tuples_partial _ _ _ _ _ _ 5).
  - cbn. split; [discriminate|auto].
  - cbn. intros [a|e] [b|e']; cbn; auto. split; [discriminate|auto].
  - econstructor; [apply st_lw|]. econstructor; [apply st_rr|]. econstructor; [apply st_rr|]. econstructor; [apply st_rw|]. econstructor; [apply st_lr|]. constructor.
Qed.
