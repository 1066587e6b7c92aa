(** C118, C119: a session object used for another handshake. *)
From Coq Require Import List ZArith Bool Strings.Byte Lia ZifyBool ZifyNat ZifyN.
From Verif Require Import PyBase PyBase_proofs IO IO_proofs Packets Packets_proofs A1A2_proofs Crypto Time EncChannel AppChannel Session Session_proofs SessUse Session_steps
  Sched_proofs Session_fwd Session_sched Spec Props_Packets Props_App Props_Session Props_Session2 Props_Session3.
Import ListNotations.
Open Scope Z_scope.

(** Two programs that do the same reads and writes, whatever the answers, and end with
    related results *)
Inductive alike {A B} (R : A -> B -> Prop) : io A -> io B -> Prop :=
| al_ret : forall a b, R a b -> alike R (Ret a) (Ret b)
| al_read : forall k k', (forall r, alike R (k r) (k' r)) -> alike R (Read k) (Read k')
| al_write : forall ms l k k', (forall r, alike R (k r) (k' r)) -> alike R (Write ms l k) (Write ms l k').
Lemma alike_eq : forall A B (R : A -> B -> Prop) p p' q q', alike R p q -> io_eq p' p -> io_eq q' q -> alike R p' q'.
Proof.
  intros A B R p p' q q' H. revert p' q'. induction H as [a b HR|k k' H IH|ms l k k' H IH]; intros p' q' E1 E2; inversion E1; subst; inversion E2; subst; constructor; eauto.
Qed.
Lemma alike_exec : forall A B (R : A -> B -> Prop) p q, alike R p q ->
  (forall t a, exec p t (Some a) -> exists b, exec q t (Some b) /\ R a b) /\ (forall t b, exec q t (Some b) -> exists a, exec p t (Some a) /\ R a b) /\
  (forall t, exec p t None <-> exec q t None).
Proof.
  intros A B R p q H. induction H as [a b HR|k k' H IH|ms l k k' H IH].
  - split; [|split].
    + intros t x E. apply exec_ret_any in E. destruct E as [-> [E|E]]; [discriminate|]. injection E as ->. exists b. split; [constructor|exact HR].
    + intros t x E. apply exec_ret_any in E. destruct E as [-> [E|E]]; [discriminate|]. injection E as ->. exists a. split; [constructor|exact HR].
    + intros t. split; intros E; apply exec_ret_any in E; destruct E as [-> _]; constructor.
  - split; [|split].
    + intros t x E. apply exec_read_inv in E. destruct E as [[_ E]|(r & t' & -> & E)]; [discriminate|]. destruct (proj1 (IH r) _ _ E) as (b & E2 & HR). exists b. split; [constructor; exact E2|exact HR].
    + intros t x E. apply exec_read_inv in E. destruct E as [[_ E]|(r & t' & -> & E)]; [discriminate|]. destruct (proj1 (proj2 (IH r)) _ _ E) as (b & E2 & HR). exists b. split; [constructor; exact E2|exact HR].
    + intros t. split; intros E; apply exec_read_inv in E; destruct E as [[-> _]|(r & t' & -> & E)]; constructor; apply (proj2 (proj2 (IH r))); exact E.
  - split; [|split].
    + intros t x E. apply exec_write_inv in E. destruct E as [[_ E]|(r & t' & -> & E)]; [discriminate|]. destruct (proj1 (IH r) _ _ E) as (b & E2 & HR). exists b. split; [constructor; exact E2|exact HR].
    + intros t x E. apply exec_write_inv in E. destruct E as [[_ E]|(r & t' & -> & E)]; [discriminate|]. destruct (proj1 (proj2 (IH r)) _ _ E) as (b & E2 & HR). exists b. split; [constructor; exact E2|exact HR].
    + intros t. split; intros E; apply exec_write_inv in E; destruct E as [[-> _]|(r & t' & -> & E)]; constructor; apply (proj2 (proj2 (IH r))); exact E.
Qed.

(** ** C118: client *)
(** What is left of the earlier handshakes after one more: nothing if it succeeded; the old
    channel if it failed before it had made one. *)
Definition client_after (s : cs) (x y : cs * res unit) : Prop :=
  snd x = snd y /\ (snd x = Ok tt -> fst x = fst y) /\
  (cs_app (fst x) = cs_app (fst y) \/ (cs_app (fst y) = None /\ cs_app (fst x) = cs_app s)).

Ltac cfin := apply al_ret; split; [reflexivity|]; split; [try discriminate; try (intros _; reflexivity)|];
  first [left; reflexivity|right; split; reflexivity].
Ltac csimp := cbn [cs_sig cs_enc cs_buffer_M4 cs_wanted_server_sig_key cs_tk cs_session_key cs_m1 cs_m1_hash cs_m2 cs_m2_hash cs_m3 cs_m4 cs_app
  cs_set_tk cs_set_session_key cs_set_m1 cs_set_m1_hash cs_set_m2 cs_set_m2_hash cs_set_m3 cs_set_m4 cs_set_app cs_init client_buffer app_enc_put fst snd negb].

Lemma client_alike : forall L TK TC s,
  alike (client_after s) (client_handshake L TK TC s) (client_handshake L TK TC (cs_init (cs_sig s) (cs_enc s) (cs_buffer_M4 s) (cs_wanted_server_sig_key s) (cs_tk s))).
Proof.
  intros L TK TC s. eapply alike_eq; [|apply client_eq|apply client_eq].
  destruct s as [sig enc buf w tk sk m1 h1 m2 h2 m3 m4 app]. unfold client_machine. csimp.
  destruct enc as [e|]; [|cfin]. unfold client_start. csimp. destruct (tk_first TK tk) as [t1 tk1].
  destruct (m1_set_client_enc_key (kp_pub e) (m1_set_time t1 (m1_create_opt_fields m1_new))) as [p1|x]; [|cfin].
  apply al_write. intros [[]|x]; [|cfin]. apply al_read. intros [chunk|x]; [|cfin].
  unfold client_m2. csimp. destruct (m2_ctor chunk) as [p2|x]; [|cfin]. destruct (tc_first TC (m2_time p2)) as [[]|x]; [|cfin].
  destruct (m2_no_such_server p2); [cfin|]. destruct (compute_shared_key L (kp_sec e) (m2_server_enc_key p2)) as [key|x]; [|cfin].
  destruct (ec_init key CLIENT SESSION_NONCE) as [ch|x]; [|cfin]. csimp. apply al_read. intros [f|x]; [|cfin].
  unfold client_m3. csimp. destruct (ec_process L ch f) as [ch1 [clear|x]]; [|cfin]. destruct (zlen clear =? 102); csimp; [|cfin].
  destruct (m3_ctor clear) as [p3|x]; [|cfin]. destruct (tc_check TC (m34_time p3)) as [[]|x]; [|cfin].
  destruct (l_sign_open L _ _) as [o|x]; [|destruct x; cfin]. destruct (tk_get TK tk1) as [t2 tk2].
  destruct (m34_set_sig_key (kp_pub sig) (m34_set_time t2 m4_new)) as [p4|x]; [|cfin].
  destruct (l_sign L _ _) as [sm|x]; [|cfin]. destruct (m34_set_signature (firstn SIGN_BYTES sm) p4) as [p5|x]; [|cfin].
  csimp. destruct buf; [cfin|]. destruct (ec_encrypt L _ p5) as [c|x]; [|cfin]. apply al_write. intros r. cfin.
Qed.

(** For every state an earlier use can have left the object in: another handshake does
    exactly the reads and writes of a new object with the same configuration and clock,
    with the same outcome; if it succeeds the two objects are equal. *)
Theorem C118_client : forall L TK TC s,
  let fresh := cs_init (cs_sig s) (cs_enc s) (cs_buffer_M4 s) (cs_wanted_server_sig_key s) (cs_tk s) in
  (forall t s1 r, exec (client_handshake L TK TC s) t (Some (s1, r)) -> exists f1, exec (client_handshake L TK TC fresh) t (Some (f1, r)) /\ (r = Ok tt -> s1 = f1)) /\
  (forall t f1 r, exec (client_handshake L TK TC fresh) t (Some (f1, r)) -> exists s1, exec (client_handshake L TK TC s) t (Some (s1, r)) /\ (r = Ok tt -> s1 = f1)) /\
  (forall t, exec (client_handshake L TK TC s) t None <-> exec (client_handshake L TK TC fresh) t None).
Proof.
  intros L TK TC s fresh. destruct (alike_exec _ _ _ _ _ (client_alike L TK TC s)) as (A & B & C). split; [|split; [|exact C]].
  - intros t s1 r E. destruct (A _ _ E) as ([f1 r'] & E2 & HR). destruct HR as (H1 & H2 & _). cbn [fst snd] in H1, H2. subst r'. eauto.
  - intros t f1 r E. destruct (B _ _ E) as ([s1 r'] & E2 & HR). destruct HR as (H1 & H2 & _). cbn [fst snd] in H1, H2. subst r'. eauto.
Qed.
Print Assumptions C118_client.

(** ** Server *)
Definition server_after (s : ss) (x y : ss * res unit) : Prop :=
  snd x = snd y /\
  (snd x = Ok tt ->
     (ss_app (fst y) <> None /\ fst x = ss_set_is_done (ss_is_done s) (fst y)) \/
     (fst y = ss_set_is_done true (ss_init (ss_sig s) (ss_enc s) (ss_buffer_m2 s) (ss_a2 s) (ss_tk s)) /\ fst x = ss_set_is_done true (ss_set_m1 None s))) /\
  (snd x <> Ok tt -> ss_is_done (fst x) = ss_is_done s) /\
  (ss_app (fst x) = ss_app (fst y) \/ (ss_app (fst y) = None /\ ss_app (fst x) = ss_app s)).
Ltac ssp := cbn [ss_sig ss_enc ss_buffer_m2 ss_a2 ss_tk ss_session_key ss_m1 ss_m1_hash ss_m2 ss_m2_hash ss_m4 ss_client_sig_key ss_is_done ss_app
  ss_set_tk ss_set_session_key ss_set_m1 ss_set_m1_hash ss_set_m2 ss_set_m2_hash ss_set_m4 ss_set_client_sig_key ss_set_is_done ss_set_app ss_init fst snd negb ac_enc ac_tk ac_init].
Ltac sfin := apply al_ret; split; [reflexivity|]; split; [try discriminate; intros _; first [left; split; [discriminate|reflexivity]|right; split; reflexivity]|]; split; [first [intros _; reflexivity|intros NO; exfalso; apply NO; reflexivity]|];
  first [left; reflexivity|right; split; reflexivity].
Lemma server_alike : forall L TK TC s,
  alike (server_after s) (server_handshake L TK TC s) (server_handshake L TK TC (ss_init (ss_sig s) (ss_enc s) (ss_buffer_m2 s) (ss_a2 s) (ss_tk s))).
Proof.
  intros L TK TC s. eapply alike_eq; [|apply server_eq|apply server_eq].
  destruct s as [sig enc buf a2 tk sk m1 h1 m2 h2 m4 ck done app]. unfold server_machine. ssp.
  destruct enc as [e|]; [|sfin]. apply al_read. intros [chunk|x]; [|sfin]. destruct (m1_ctor chunk) as [p1|x1].
  2:{ destruct (a1_ctor chunk) as [pa|x]; [|sfin]. apply al_write. intros [[]|x]; sfin. }
  unfold server_m1. ssp. destruct (tc_first TC (m1_time p1)) as [[]|x]; [|sfin].
  assert (GO : forall v, v = l_sha512 L chunk -> alike (server_after (SS sig (Some e) buf a2 tk sk m1 h1 m2 h2 m4 ck done app))
    (match server_m2 TK (SS sig (Some e) buf a2 tk sk (Some p1) v m2 h2 m4 ck done app) e with
     | (s2, Ok m2) => if buf then server_rest L TK TC s2 e p1 (Some m2)
                      else Write [m2_bytes m2] false (fun r => match r with Ok _ => server_rest L TK TC (ss_set_m2_hash (l_sha512 L (m2_bytes m2)) s2) e p1 None | Err x => Ret (s2, Err x) end)
     | (s2, Err x) => Ret (s2, Err x) end)
    (match server_m2 TK (SS sig (Some e) buf a2 tk [] (Some p1) v None [] None None false None) e with
     | (s2, Ok m2) => if buf then server_rest L TK TC s2 e p1 (Some m2)
                      else Write [m2_bytes m2] false (fun r => match r with Ok _ => server_rest L TK TC (ss_set_m2_hash (l_sha512 L (m2_bytes m2)) s2) e p1 None | Err x => Ret (s2, Err x) end)
     | (s2, Err x) => Ret (s2, Err x) end)).
  { intros v _. unfold server_m2. ssp. destruct (tk_first TK tk) as [t1 tk1].
    destruct (m2_set_server_enc_key (kp_pub e) (m2_set_time t1 m2_new)) as [p2|x]; [|sfin].
    assert (R : forall hold m2' h2a h2b, (hold = None -> h2a = h2b) ->
      alike (server_after (SS sig (Some e) buf a2 tk sk m1 h1 m2 h2 m4 ck done app))
        (server_rest L TK TC (SS sig (Some e) buf a2 tk1 sk (Some p1) v m2' h2a m4 ck done app) e p1 hold)
        (server_rest L TK TC (SS sig (Some e) buf a2 tk1 [] (Some p1) v m2' h2b None None false None) e p1 hold)).
    { intros hold m2' h2a h2b HH. unfold server_rest, server_m3. ssp. destruct (compute_shared_key L (kp_sec e) (m1_client_enc_key p1)) as [key|x]; [|sfin].
      destruct (ec_init key SERVER SESSION_NONCE) as [ch|x]; [|sfin].
      destruct hold as [m2h|]; [|rewrite (HH eq_refl)]; [destruct (tk_first TK tk1) as [t2 tk2]|destruct (tk_get TK tk1) as [t2 tk2]]; ssp;
      (destruct (m34_set_sig_key (kp_pub sig) (m34_set_time t2 m3_new)) as [p3|x]; [|sfin]; destruct (l_sign L _ _) as [sm|x]; [|sfin];
       destruct (m34_set_signature (firstn SIGN_BYTES sm) p3) as [p4|x]; [|sfin]; destruct (ec_encrypt L ch p4) as [c|x]; [|sfin];
       apply al_write; intros [[]|x]; [|sfin]; apply al_read; intros [f|x]; [|sfin]; unfold server_m4; ssp; destruct (ec_process L _ f) as [ch1 [clear|x]]; ssp; [|sfin];
       destruct (m4_ctor clear) as [p5|x]; [|sfin]; destruct (tc_check TC (m34_time p5)) as [[]|x]; [|sfin]; destruct (l_sign_open L _ _) as [o|x]; [|destruct x]; sfin). }
    destruct buf; [apply R; discriminate|]. apply al_write. intros [[]|x]; [|sfin]. ssp. apply R. reflexivity. }
  specialize (GO _ eq_refl). destruct (m1_flag p1); [|exact GO]. destruct (m1_server_sig_key p1) as [k|x]; [|sfin]. destruct (bytes_eqb (kp_pub sig) k); ssp; [exact GO|].
  destruct (tk_first TK tk) as [t1 tk1]. apply al_write. intros [[]|x]; sfin.
Qed.
(** The same for the server, but for [is_done]: after an M1-M4 handshake everything else is
    as in a new object. *)
Theorem C118_server : forall L TK TC s,
  let fresh := ss_init (ss_sig s) (ss_enc s) (ss_buffer_m2 s) (ss_a2 s) (ss_tk s) in
  (forall t s1 r, exec (server_handshake L TK TC s) t (Some (s1, r)) ->
     exists f1, exec (server_handshake L TK TC fresh) t (Some (f1, r)) /\ (r = Ok tt -> ss_is_done f1 = false -> s1 = ss_set_is_done (ss_is_done s) f1)) /\
  (forall t f1 r, exec (server_handshake L TK TC fresh) t (Some (f1, r)) ->
     exists s1, exec (server_handshake L TK TC s) t (Some (s1, r)) /\ (r = Ok tt -> ss_is_done f1 = false -> s1 = ss_set_is_done (ss_is_done s) f1)) /\
  (forall t, exec (server_handshake L TK TC s) t None <-> exec (server_handshake L TK TC fresh) t None).
Proof.
  intros L TK TC s fresh. destruct (alike_exec _ _ _ _ _ (server_alike L TK TC s)) as (A & B & C).
  assert (K : forall s1 f1 r r', server_after s (s1, r) (f1, r') -> r = r' /\ (r = Ok tt -> ss_is_done f1 = false -> s1 = ss_set_is_done (ss_is_done s) f1)).
  { intros s1 f1 r r' (H1 & H2 & _). cbn [fst snd] in H1, H2. split; [exact H1|]. intros E D. destruct (H2 E) as [[_ H]|[H _]]; [exact H|]. rewrite H in D. discriminate D. }
  split; [|split; [|exact C]].
  - intros t s1 r E. destruct (A _ _ E) as ([f1 r'] & E2 & HR). apply K in HR. destruct HR as [<- HR]. eauto.
  - intros t f1 r E. destruct (B _ _ E) as ([s1 r'] & E2 & HR). apply K in HR. destruct HR as [<- HR]. eauto.
Qed.
Print Assumptions C118_server.

(** ** C119 (expected: what a session object says after a handshake is about that handshake)
    is false of the code. *)
(** After any handshake, one that answers an A1 returns normally with the channel, the session
    key and the client's key of the earlier one still in place. *)
Theorem C119_stale_client_refuted : forall L TK TC s e f a, ss_enc s = Some e -> f <> [] -> a1_ctor f = Ok a ->
  exists a2 s1, exec (server_handshake L TK TC s) [ERead (Ok f); EWrite [a2] true (Ok tt)] (Some (s1, Ok tt)) /\
    ss_client_sig_key s1 = ss_client_sig_key s /\ ss_app s1 = ss_app s /\ ss_session_key s1 = ss_session_key s /\ ss_is_done s1 = true.
Proof.
  intros L TK TC s e f a HE HN HA. exists (pkt_bytes (match ss_a2 s with Some p => p | None => a2_default end)), (ss_set_is_done true (ss_set_m1 None s)). split; [|repeat split].
  eapply io_eq_exec; [|apply io_eq_sym; apply server_eq]. unfold server_machine. rewrite HE. apply ex_read. rewrite (a1_not_m1 _ a HN HA), HA. apply ex_write. apply ex_ret.
Qed.
Print Assumptions C119_stale_client_refuted.
(** Once an A1 has been answered the object says [is_done] for ever, whatever its later
    handshakes are. *)
Theorem C119_is_done_refuted : forall L TK TC s t s1 r, ss_is_done s = true -> exec (server_handshake L TK TC s) t (Some (s1, r)) -> ss_is_done s1 = true.
Proof.
  intros L TK TC s t s1 r HD E. destruct (proj1 (alike_exec _ _ _ _ _ (server_alike L TK TC s)) _ _ E) as ([f1 r'] & _ & HR). destruct HR as (H1 & H2 & H3 & _). cbn [fst snd] in *.
  destruct r as [[]|x]; [|rewrite H3 by discriminate; exact HD]. destruct (H2 eq_refl) as [[_ ->]|[_ ->]]; [exact HD|reflexivity].
Qed.
Print Assumptions C119_is_done_refuted.
(** A client whose new handshake fails before there is a new channel keeps the old one. *)
Theorem C119_stale_channel_refuted : forall L TK TC s e m1 x, cs_enc s = Some e -> m1_set_client_enc_key (kp_pub e) (m1_set_time (fst (tk_first TK (cs_tk s))) (m1_create_opt_fields m1_new)) = Ok m1 ->
  exists s1, exec (client_handshake L TK TC s) [EWrite [m1_bytes m1] false (Ok tt); ERead (Err x)] (Some (s1, Err x)) /\ cs_app s1 = cs_app s /\ cs_session_key s1 = cs_session_key s.
Proof.
  intros L TK TC s e m1 x HE HM. destruct (tk_first TK (cs_tk s)) as [t tk'] eqn:HT. cbn [fst] in HM. eexists. split; [eapply io_eq_exec; [|apply io_eq_sym; apply client_eq]|].
  - unfold client_machine. rewrite HE. unfold client_start. rewrite HT, HM. apply ex_write. apply ex_read. apply ex_ret.
  - split; reflexivity.
Qed.
Print Assumptions C119_stale_channel_refuted.
(** What holds instead: a successful M1-M4 handshake leaves nothing of earlier ones but
    [is_done] (C118), and the channel is never anything but the old or the new one. *)
Theorem C119_channel_partial : forall L TK TC s t s1 r, exec (server_handshake L TK TC s) t (Some (s1, r)) ->
  exists f1, exec (server_handshake L TK TC (ss_init (ss_sig s) (ss_enc s) (ss_buffer_m2 s) (ss_a2 s) (ss_tk s))) t (Some (f1, r)) /\
    (ss_app s1 = ss_app f1 \/ (ss_app f1 = None /\ ss_app s1 = ss_app s)).
Proof.
  intros L TK TC s t s1 r E. destruct (proj1 (alike_exec _ _ _ _ _ (server_alike L TK TC s)) _ _ E) as ([f1 r'] & E2 & HR). destruct HR as (H1 & _ & _ & H4). cbn [fst snd] in *. subst r'. eauto.
Qed.
Print Assumptions C119_channel_partial.

(** A handshake of the toy library, then an A1 on the same object, then another client *)
Example C119_example :
  match run2 40 (ex_client false []) (ex_server true) [] [] with
  | (_, (_, Some (s1, Ok tt))) =>
      ss_client_sig_key s1 = Some (kp_pub ex_csig) /\ ss_is_done s1 = false /\
      match run2 40 (do_a1a2 (fun _ => false) a1_new tt) (server_handshake toy_lib null_keeper null_checker s1) [] [] with
      | (_, (_, Some (s2, Ok tt))) =>
          ss_client_sig_key s2 = Some (kp_pub ex_csig) /\ ss_app s2 = ss_app s1 /\
          match run2 40 (client_handshake toy_lib null_keeper null_checker (cs_init ex_ssig (Some ex_cenc) false [] 0)) (server_handshake toy_lib null_keeper null_checker s2) [] [] with
          | (_, (_, Some (s3, Ok tt))) => ss_client_sig_key s3 = Some (kp_pub ex_ssig) /\ ss_is_done s3 = true
          | _ => False
          end
      | _ => False
      end
  | _ => False
  end.
Proof. vm_compute. repeat split. Qed.
(** The same client object, twice, against two servers *)
Example C118_example :
  match run2 40 (ex_client false []) (ex_server true) [] [] with
  | ((_, Some (c1, Ok tt)), _) =>
      match run2 40 (client_handshake toy_lib one_two_three null_checker c1) (ex_server false) [] [],
            run2 40 (client_handshake toy_lib one_two_three null_checker (cs_init ex_csig (Some ex_cenc) false [] (cs_tk c1))) (ex_server false) [] [] with
      | ((t, Some (c2, Ok tt)), _), ((t', Some (f, Ok tt)), _) => c2 = f /\ t = t' /\ length t = 4%nat /\ c1 <> cs_init ex_csig (Some ex_cenc) false [] (cs_tk c1)
      | _, _ => False
      end
  | _ => False
  end.
Proof. vm_compute. repeat split. discriminate. Qed.
