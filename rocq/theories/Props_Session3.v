(** Properties of the handshakes (v2/salt_client_session.py, salt_server_session.py,
    a1a2/a1_client_session.py): refusals, requests for information, bad first frames:
    C37-C43, C53. *)
From Coq Require Import List ZArith Bool Strings.Byte Lia ZifyBool ZifyNat ZifyN.
From Verif Require Import PyBase PyBase_proofs IO IO_proofs Packets Packets_proofs Packets_proofs2 A1A2_proofs
  Crypto Crypto_proofs Time EncChannel EncUse EncChannel_proofs AppChannel AppUse AppChannel_proofs Session Session_proofs
  SessUse Session_steps Sched_proofs Session_fwd Session_sched Spec PacketOps Props_Packets Props_App Props_Session Props_Session2.
Import ListNotations.
Open Scope Z_scope.
Ltac Zify.zify_post_hook ::= Z.div_mod_to_equations.

(** ** C37 (expected: a client that wants a particular server accepts no other) is
    false of the code: the wanted key is ignored. *)

(** The same session object with another wanted key. *)
Definition with_wanted (w : bytes) (s : cs) : cs :=
  CS (cs_sig s) (cs_enc s) (cs_buffer_M4 s) w (cs_tk s) (cs_session_key s) (cs_m1 s) (cs_m1_hash s)
     (cs_m2 s) (cs_m2_hash s) (cs_m3 s) (cs_m4 s) (cs_app s).
Definition ww {X} (w : bytes) (y : cs * X) : cs * X := (with_wanted w (fst y), snd y).

Ltac brk := repeat match goal with
  | |- context [match ?x with _ => _ end] =>
      match x with context [match _ with _ => _ end] => fail 1 | _ => destruct x end
  end.

Lemma start_wanted : forall L TK w s e, client_start L TK (with_wanted w s) e = ww w (client_start L TK s e).
Proof. intros L TK w s e. unfold client_start. cbn [with_wanted cs_tk]. brk; reflexivity. Qed.
Lemma m2_wanted : forall L TC w s e f, client_m2 L TC (with_wanted w s) e f = ww w (client_m2 L TC s e f).
Proof. intros L TC w s e f. unfold client_m2. cbn [with_wanted cs_tk]. brk; reflexivity. Qed.
Lemma m3_wanted : forall L TK TC w s ch f, client_m3 L TK TC (with_wanted w s) ch f = ww w (client_m3 L TK TC s ch f).
Proof. intros L TK TC w s ch f. unfold client_m3. cbn [with_wanted cs_tk cs_sig cs_m1_hash cs_m2_hash]. brk; reflexivity. Qed.

Lemma machine_wanted : forall L TK TC w s,
  io_eq (client_machine L TK TC (with_wanted w s)) (iobind (client_machine L TK TC s) (fun y => Ret (ww w y))).
Proof.
  intros L TK TC w s. unfold client_machine. cbn [with_wanted cs_enc cs_buffer_M4].
  destruct (cs_enc s) as [e|]; [|constructor].
  fold (with_wanted w s). rewrite start_wanted. destruct (client_start L TK s e) as [s1 [m1|x]]; cbn [ww fst snd iobind]; [|constructor].
  constructor. intros [[]|x]; cbn [iobind ww fst snd]; [|constructor].
  constructor. intros [c|x]; cbn [iobind ww fst snd]; [|constructor].
  rewrite m2_wanted. destruct (client_m2 L TC s1 e c) as [s2 [ch|x]]; cbn [ww fst snd iobind]; [|constructor].
  constructor. intros [f|x]; cbn [iobind ww fst snd]; [|constructor].
  rewrite m3_wanted. destruct (client_m3 L TK TC s2 ch f) as [s3 [m4|x]]; cbn [ww fst snd iobind]; [|constructor].
  destruct (cs_buffer_M4 s); [cbn [iobind]; constructor|].
  cbn [with_wanted cs_app]. destruct (cs_app s3) as [a|]; cbn [iobind]; [|constructor].
  destruct (ec_encrypt L (ac_enc a) m4) as [c2|x]; cbn [iobind]; [|constructor].
  constructor. intro r. constructor.
Qed.

(** For every library, keys, clock and network behaviour, and every other wanted
    key, the client behaves the same; and with an honest server it completes and
    reports a server key that is not the wanted one. *)
Theorem C37_wanted_key_refuted :
  (forall L TK TC sig enc buf w w' tk t s x,
     exec (client_handshake L TK TC (cs_init sig enc buf w tk)) t (Some (s, x)) ->
     exec (client_handshake L TK TC (cs_init sig enc buf w' tk)) t (Some (with_wanted w' s, x))) /\
  (forall L sp ep TKc TKs TCc TCs csig ssig ce se sbuf w a2 tkc tks,
     peers_ok L sp ep TKc TKs TCc TCs csig ssig ce se sbuf tkc tks -> w <> kp_pub ssig ->
     exists sC sS, always_ends
      (Sys (client_handshake L TKc TCc (cs_init csig (Some ce) false w tkc))
           (server_handshake L TKs TCs (ss_init ssig (Some se) sbuf a2 tks)) [] [])
      (Sys (Ret (sC, Ok tt)) (Ret (sS, Ok tt)) [] []) /\
      option_map m34_sig_key (cs_m3 sC) <> Some w).
Proof.
  split.
  - intros L TK TC sig enc buf w w' tk t s x H.
    apply io_eq_exec with (2 := client_eq L TK TC _) in H.
    eapply io_eq_exec; [|apply io_eq_sym; apply client_eq].
    change (cs_init sig enc buf w' tk) with (with_wanted w' (cs_init sig enc buf w tk)).
    eapply io_eq_exec; [|apply io_eq_sym; apply machine_wanted].
    rewrite <- (app_nil_r t). eapply exec_bind_fwd; [exact H|]. constructor.
  - intros L sp ep TKc TKs TCc TCs csig ssig ce se sbuf w a2 tkc tks HP Hne.
    destruct (C32_handshakes_complete L sp ep TKc TKs TCc TCs csig ssig ce se sbuf w a2 tkc tks HP)
      as (sC & sS & aC & aS & H1 & _ & _ & H2 & _).
    exists sC, sS. split; [exact H1|]. rewrite H2. congruence.
Qed.
Print Assumptions C37_wanted_key_refuted.

Example C37_example : forall sb,
  let '((_, o), _) := run2 20 (ex_client false (repeat x55 32)) (ex_server sb) [] [] in
  ok_of o = true /\ repeat x55 32 <> kp_pub ex_ssig.
Proof. intros []; vm_compute; (split; [reflexivity|discriminate]). Qed.

(** ** C38: refusals of requests for another server. *)

(** An execution that begins by reading [f] and its continuation. *)
Lemma server_first : forall L TK TC sig e buf a2 tk f t o,
  exec (server_handshake L TK TC (ss_init sig (Some e) buf a2 tk)) (ERead (Ok f) :: t) o ->
  exec (match m1_ctor f with
        | Err _ =>
            match a1_ctor f with
            | Err x => Ret (ss_set_m1 None (ss_init sig (Some e) buf a2 tk), Err x)
            | Ok _ =>
                Write [pkt_bytes (match a2 with Some p => p | None => a2_default end)] true
                  (fun r => match r with
                            | Err x => Ret (ss_set_m1 None (ss_init sig (Some e) buf a2 tk), Err x)
                            | Ok _ => Ret (ss_set_is_done true (ss_set_m1 None (ss_init sig (Some e) buf a2 tk)), Ok tt)
                            end)
            end
        | Ok m1 =>
            match server_m1 L TK TC (ss_init sig (Some e) buf a2 tk) f m1 with
            | (s1, Err x) => Ret (s1, Err x)
            | (s1, Ok (Some m2)) =>
                Write [m2] true (fun r => Ret (s1, match r with Ok _ => Err NoSuchServerException | Err x => Err x end))
            | (s1, Ok None) =>
                match server_m2 TK s1 e with
                | (s2, Err x) => Ret (s2, Err x)
                | (s2, Ok m2) =>
                    if buf then server_rest L TK TC s2 e m1 (Some m2)
                    else Write [m2_bytes m2] false (fun r => match r with
                           | Err x => Ret (s2, Err x)
                           | Ok _ => server_rest L TK TC (ss_set_m2_hash (l_sha512 L (m2_bytes m2)) s2) e m1 None
                           end)
                end
            end
        end) t o.
Proof.
  intros L TK TC sig e buf a2 tk f t o H.
  apply io_eq_exec with (2 := server_eq L TK TC _) in H. unfold server_machine in H. cbn [ss_init ss_enc] in H.
  fold (ss_init sig (Some e) buf a2 tk) in H.
  apply exec_read_inv in H. destruct H as [[H _]|(r & t' & H0 & H)]; [discriminate|]. injection H0 as <- <-. exact H.
Qed.

(** The server: after an M1 that names another key, the only thing it can do is write
    one M2 with NoSuchServer and the last flag, and end with that exception (or with
    the error of the write); there is no session key and no application channel. *)
Theorem C38_server_refuses : forall L TK TC sig e buf a2 tk tm ck k tr t o,
  length ck = 32%nat -> length k = 32%nat -> k <> kp_pub sig -> tc_first TC (tm mod 2 ^ 32) = Ok tt ->
  exec (server_handshake L TK TC (ss_init sig (Some e) buf a2 tk))
       (ERead (Ok (M1_wire tm ck (Some k) ++ tr)) :: t) o ->
  (t = [] /\ o = None) \/
  exists r, t = [EWrite [M2_wire true true (fst (tk_first TK tk)) (repeat x00 32)] true r] /\
    (o = None \/ exists s, o = Some (s, match r with Ok _ => Err NoSuchServerException | Err x => Err x end) /\
                           ss_app s = None /\ ss_session_key s = [] /\ ss_client_sig_key s = None).
Proof.
  intros L TK TC sig e buf a2 tk tm ck k tr t o H1 H2 Hne HT H. apply server_first in H.
  rewrite m1_ctor_wire in H by (auto; intros ? HH; injection HH as <-; auto).
  unfold server_m1 in H.
  assert (E : m1_time (M1 ((indicator ++ [x01; x01] ++ u32le tm) ++ ck) (Some k) None) = tm mod 2 ^ 32).
  { unfold m1_time, fget_int. cbn [m1_data]. rewrite <- !app_assoc.
    change (indicator ++ [x01; x01] ++ u32le tm ++ ck) with ((indicator ++ [x01; x01]) ++ u32le tm ++ ck).
    rewrite fget_app by reflexivity. apply le_dec_u32. }
  rewrite E, HT in H. cbn [m1_server_sig_key m1_opt m1_flag] in H.
  assert (EF : m1_flag (M1 ((indicator ++ [x01; x01] ++ u32le tm) ++ ck) (Some k) None) = true) by reflexivity.
  rewrite EF in H. cbn [ss_init ss_sig ss_tk] in H.
  assert (EB : bytes_eqb (kp_pub sig) k = false).
  { destruct (bytes_eqb (kp_pub sig) k) eqn:EB; [|reflexivity]. apply bytes_eqb_eq in EB. congruence. }
  rewrite EB in H. cbn [negb] in H. destruct (tk_first TK tk) as [t1 tk1]. rewrite m2_refusal in H. cbn [fst].
  apply exec_write_inv in H. destruct H as [[-> ->]|(r & t' & -> & H)]; [left; auto|]. right.
  apply exec_ret_any in H. destruct H as [-> H]. exists r. split; [reflexivity|].
  destruct H as [->| ->]; [left; reflexivity|]. right. eexists. split; [reflexivity|]. repeat split; reflexivity.
Qed.
Print Assumptions C38_server_refuses.

(** The client: an M2 with NoSuchServer ends the handshake with that exception, and
    nothing more is read or written. *)
Theorem C38_client_told : forall L TK TC sig e buf w tk m1 l0 lf tm k tr t o,
  length k = 32%nat -> tc_first TC (tm mod 2 ^ 32) = Ok tt ->
  exec (client_handshake L TK TC (cs_init sig (Some e) buf w tk))
       (EWrite m1 l0 (Ok tt) :: ERead (Ok (M2_wire true lf tm k ++ tr)) :: t) o ->
  t = [] /\ (o = None \/ exists s, o = Some (s, Err NoSuchServerException) /\ cs_app s = None /\ cs_session_key s = []).
Proof.
  intros L TK TC sig e buf w tk m1 l0 lf tm k tr t o Hk HT H. remember (M2_wire true lf tm k ++ tr) as f2 eqn:Ef.
  apply io_eq_exec with (2 := client_eq L TK TC _) in H. unfold client_machine in H. cbn [cs_init cs_enc] in H.
  fold (cs_init sig (Some e) buf w tk) in H.
  destruct (client_start L TK _ e) as [s1 [m|x]] eqn:E1; [|apply exec_ret_any in H; destruct H; discriminate].
  apply client_start_inv in E1. destruct E1 as (_ & _ & p & E1).
  apply exec_write_inv in H. destruct H as [[H _]|(r & t' & H0 & H)]; [discriminate|]. injection H0 as -> -> <- <-.
  apply exec_read_inv in H. destruct H as [[H _]|(r & t' & H0 & H)]; [discriminate|]. injection H0 as <- <-.
  unfold client_m2 in H. rewrite Ef in H at 1. rewrite m2_ctor_wire in H by auto.
  destruct (m2_fields_wire true lf tm k Hk) as (F1 & F2 & F3 & F4). rewrite F1, HT, F3 in H.
  apply exec_ret_any in H. destruct H as [-> H]. split; [reflexivity|].
  destruct H as [->| ->]; [left; reflexivity|]. right. eexists. split; [reflexivity|]. rewrite E1. split; reflexivity.
Qed.
Print Assumptions C38_client_told.

Example C38_example : exists s,
  exec (server_handshake toy_lib null_keeper null_checker (ss_init ex_ssig (Some ex_senc) true None 0))
    [ERead (Ok (M1_wire 1 (kp_pub ex_cenc) (Some (repeat x55 32))));
     EWrite [M2_wire true true 0 (repeat x00 32)] true (Ok tt)] (Some (s, Err NoSuchServerException)).
Proof.
  eexists. eapply io_eq_exec; [|apply io_eq_sym; apply server_eq].
  unfold server_machine. cbn [ss_init ss_enc]. apply ex_read. vm_compute. apply ex_write. apply ex_ret.
Qed.

(** ** C39 (expected: an A1 naming another server is answered with NoSuchServer) is
    false of the code: whatever key it names, the server answers with its own A2 and
    finishes normally. *)
Lemma a1_not_m1 : forall f a, f <> [] -> a1_ctor f = Ok a -> m1_ctor f = Err BadPeer.
Proof.
  intros f a Hne HA. destruct (m1_ctor f) as [p|x] eqn:E; [|f_equal; eapply m1_ctor_err; eauto].
  exfalso. assert (KM1 = KA1) by (eapply (C14_disjoint (fun _ => false) f); [exact Hne|exists p; exact E|exists a; exact HA]).
  discriminate.
Qed.

Lemma a1_pubkey_ok : forall k, length k = 32%nat -> exists a, a1_ctor (A1_pubkey k) = Ok a.
Proof.
  intros k Hk. unfold A1_pubkey. rewrite a1_ctor_spec.
  assert (E : zlen k = 32) by (unfold zlen, bytes in *; lia). rewrite E. cbn. eauto.
Qed.

(** Every valid A1 gets the same answer. *)
Theorem C40_server_answers : forall L TK TC sig e buf a2 tk f a t o,
  f <> [] -> a1_ctor f = Ok a ->
  exec (server_handshake L TK TC (ss_init sig (Some e) buf a2 tk)) (ERead (Ok f) :: t) o ->
  (t = [] /\ o = None) \/
  exists r, t = [EWrite [match a2 with Some p => pkt_bytes p | None => A2_wire A2_default_prots end] true r] /\
    (o = None \/ exists s, o = Some (s, r) /\ ss_app s = None /\ ss_client_sig_key s = None /\
                           (ss_is_done s = true <-> r = Ok tt)).
Proof.
  intros L TK TC sig e buf a2 tk f a t o Hne HA H. apply server_first in H.
  rewrite (a1_not_m1 f a Hne HA), HA in H.
  assert (HD : pkt_bytes (match a2 with Some p => p | None => a2_default end) =
               match a2 with Some p => pkt_bytes p | None => A2_wire A2_default_prots end) by (destruct a2; reflexivity).
  rewrite HD in H. clear HD.
  apply exec_write_inv in H. destruct H as [[-> ->]|(r & t' & -> & H)]; [left; auto|]. right.
  exists r. destruct r as [[]|x]; apply exec_ret_any in H; destruct H as [-> H]; (split; [reflexivity|]);
    (destruct H as [->| ->]; [left; reflexivity|right; eexists; split; [reflexivity|]]); cbn; repeat split; auto; discriminate.
Qed.
Print Assumptions C40_server_answers.

Theorem C39_no_such_server_refuted : forall L TK TC sig e buf tk k, length k = 32%nat -> k <> kp_pub sig ->
  (exists s, exec (server_handshake L TK TC (ss_init sig (Some e) buf None tk))
               [ERead (Ok (A1_pubkey k)); EWrite [A2_wire A2_default_prots] true (Ok tt)] (Some (s, Ok tt)) /\
             ss_is_done s = true) /\
  (forall a2 t o ms l r, exec (server_handshake L TK TC (ss_init sig (Some e) buf a2 tk)) (ERead (Ok (A1_pubkey k)) :: t) o ->
     In (EWrite ms l r) t -> ms = [match a2 with Some p => pkt_bytes p | None => A2_wire A2_default_prots end]) /\
  A2_wire A2_default_prots <> A2_no_such_server_wire.
Proof.
  intros L TK TC sig e buf tk k Hk Hne. destruct (a1_pubkey_ok k Hk) as [a HA].
  assert (HN : A1_pubkey k <> []) by discriminate.
  split; [|split; [|discriminate]].
  - eexists. split; [eapply io_eq_exec; [|apply io_eq_sym; apply server_eq]|].
    + unfold server_machine. cbn [ss_init ss_enc]. apply ex_read. rewrite (a1_not_m1 _ a HN HA), HA. cbn [ss_a2].
      change (pkt_bytes a2_default) with (A2_wire A2_default_prots). apply ex_write. apply ex_ret.
    + reflexivity.
  - intros a2 t o ms l r H Hin. destruct (C40_server_answers _ _ _ _ _ _ _ _ _ _ _ _ HN HA H) as [[-> _]|(r' & -> & _)].
    + destruct Hin.
    + destruct Hin as [Hin|[]]. congruence.
Qed.
Print Assumptions C39_no_such_server_refuted.

(** ** C40: the exchange of A1 and A2.  Under every schedule both peers finish, and
    the client decodes exactly the protocols the server offers (its injected A2, or
    the default). *)
Theorem C40_exchange : forall uw L TK TC sig e buf tk a1 l a2,
  (pkt_bytes a1 = A1_any \/ exists k, length k = 32%nat /\ pkt_bytes a1 = A1_pubkey k) ->
  (a2 = Some (a2_build l) \/ (a2 = None /\ l = A2_default_prots)) ->
  (length l <= 127)%nat ->
  Forall (fun q => length (fst q) = 10%nat /\ length (snd q) = 10%nat /\
                   Forall (fun b => documented_char (val b)) (fst q ++ snd q)) l ->
  exists p s, a2_prots p = Ok l /\ ss_is_done s = true /\ ss_app s = None /\ ss_client_sig_key s = None /\
    always_ends (Sys (do_a1a2 uw a1 tt) (server_handshake L TK TC (ss_init sig (Some e) buf a2 tk)) [] [])
                (Sys (Ret (tt, Ok p)) (Ret (s, Ok tt)) [] []).
Proof.
  intros uw L TK TC sig e buf tk a1 l a2 HA1 HA2 Hl HF.
  destruct (C12_a2_round_trip uw l Hl HF) as (HB & p & HP & HPL).
  assert (HA : exists a, a1_ctor (pkt_bytes a1) = Ok a /\ pkt_bytes a1 <> []).
  { destruct HA1 as [->|(k & Hk & ->)]; [eexists; split; [reflexivity|discriminate]|].
    destruct (a1_pubkey_ok k Hk) as [a HA]. exists a. split; [exact HA|discriminate]. }
  destruct HA as (a & HA & HN).
  assert (HW : pkt_bytes (match a2 with Some q => q | None => a2_default end) = A2_wire l).
  { destruct HA2 as [->|[-> ->]]; [exact HB|reflexivity]. }
  exists p, (ss_set_is_done true (ss_set_m1 None (ss_init sig (Some e) buf a2 tk))).
  split; [exact HPL|]. split; [reflexivity|]. split; [reflexivity|]. split; [reflexivity|].
  eapply (always_ends_intro _ _ _ 4).
  eapply (steps_eq_ret _ _ 4 (Sys (do_a1a2 uw a1 tt) (server_machine L TK TC (ss_init sig (Some e) buf a2 tk)) [] [])).
  2:{ split; [apply io_eq_refl|]. split; [apply io_eq_sym; apply server_eq|]. split; reflexivity. }
  unfold server_machine. cbn [ss_init ss_enc].
  unfold do_a1a2, mbind, mwrite, mread, mlift. cbn [iobind].
  stp. cbn [app iobind fst snd]. stp. rewrite (a1_not_m1 _ a HN HA), HA. change (ss_a2 (ss_init sig (Some e) buf a2 tk)) with a2. rewrite HW.
  stp. cbn [app]. stp. rewrite HP. cbn [iobind fst snd]. apply steps_O.
Qed.
Print Assumptions C40_exchange.

(** Against any peer the client returns exactly the protocols of a valid A2 and raises
    for every other frame. *)
Theorem C40_client : forall uw a1 t o, exec (do_a1a2 uw a1 tt) t o ->
  (t = [] /\ o = None) \/
  (exists e, t = [EWrite [pkt_bytes a1] false (Err e)] /\ (o = None \/ o = Some (tt, Err e))) \/
  (t = [EWrite [pkt_bytes a1] false (Ok tt)] /\ o = None) \/
  (exists e, t = [EWrite [pkt_bytes a1] false (Ok tt); ERead (Err e)] /\ (o = None \/ o = Some (tt, Err e))) \/
  (exists f x, t = [EWrite [pkt_bytes a1] false (Ok tt); ERead (Ok f)] /\ (o = None \/ o = Some (tt, x)) /\
     (f <> [] -> (forall l, (exists p, x = Ok p /\ a2_prots p = Ok l) <-> A2_frame uw f l) /\
                 (forall p, x = Ok p -> exists l, a2_prots p = Ok l))).
Proof.
  intros uw a1 t o H. unfold do_a1a2, mbind, mwrite, mread, mlift in H. cbn [iobind] in H.
  apply exec_write_inv in H. destruct H as [[-> ->]|(r & t' & -> & H)]; [left; auto|]. right.
  destruct r as [[]|e]; cbn [iobind fst snd] in H.
  2:{ apply exec_ret_any in H. destruct H as [-> H]. left. exists e. auto. }
  right. apply exec_read_inv in H. destruct H as [[-> ->]|(r & t'' & -> & H)]; [left; auto|]. right.
  destruct r as [f|e]; cbn [iobind fst snd] in H; apply exec_ret_any in H; destruct H as [-> H]; [right|left; exists e; auto].
  exists f, (a2_ctor uw f). split; [reflexivity|]. split; [exact H|]. intros Hf.
  destruct (C12_a2_acceptance uw f Hf) as (A & B & _). split; assumption.
Qed.
Print Assumptions C40_client.
Example C40_client_example : exec (do_a1a2 (fun _ => false) a1_new tt)
  [EWrite [A1_any] false (Ok tt); ERead (Ok [x09])] (Some (tt, Err ValueError)).
Proof. unfold do_a1a2, mbind, mwrite, mread, mlift. cbn [iobind]. apply ex_write. apply ex_read. apply ex_ret. Qed.

Example C40_example : pkt_bytes a1_new = A1_any /\
  Forall (fun q => length (fst q) = 10%nat /\ length (snd q) = 10%nat /\
                   Forall (fun b => documented_char (val b)) (fst q ++ snd q)) A2_default_prots.
Proof.
  split; [reflexivity|]. constructor; [|constructor]. split; [reflexivity|]. split; [reflexivity|].
  repeat (apply Forall_cons; [unfold documented_char; cbn; lia|]). apply Forall_nil.
Qed.

(** ** C41 (expected: a bad first time is BadPeer) is false of the code: with the
    repository's only time checker it is a TypeError, for every bad time, on both
    sides, and nothing is written in answer. *)
Theorem C41_bad_time_refuted : forall L TK sig e buf tk tm,
  tm mod 2 ^ 32 <> 0 -> tm mod 2 ^ 32 <> 1 ->
  (forall a2 ck k tr t s x, length ck = 32%nat -> (forall z, k = Some z -> length z = 32%nat) ->
     exec (server_handshake L TK null_checker (ss_init sig (Some e) buf a2 tk))
       (ERead (Ok (M1_wire tm ck k ++ tr)) :: t) (Some (s, x)) ->
     t = [] /\ x = Err TypeError) /\
  (forall w m1 l0 nss lf k tr t s x, length k = 32%nat ->
     exec (client_handshake L TK null_checker (cs_init sig (Some e) buf w tk))
       (EWrite m1 l0 (Ok tt) :: ERead (Ok (M2_wire nss lf tm k ++ tr)) :: t) (Some (s, x)) ->
     t = [] /\ x = Err TypeError).
Proof.
  intros L TK sig e buf tk tm H0 H1.
  assert (HT : tc_first null_checker (tm mod 2 ^ 32) = Err TypeError).
  { cbn [null_checker tc_first]. destruct (Z.eqb_spec (tm mod 2 ^ 32) 0); [contradiction|]. destruct (Z.eqb_spec (tm mod 2 ^ 32) 1); [contradiction|]. reflexivity. }
  split.
  - intros a2 ck k tr t s x Hck Hk H. apply server_first in H. rewrite m1_ctor_wire in H by auto.
    unfold server_m1 in H.
    match type of H with context [m1_time ?p] => assert (E : m1_time p = tm mod 2 ^ 32) end.
    { unfold m1_time, fget_int. cbn [m1_data]. rewrite <- !app_assoc.
      match goal with |- context [indicator ++ ?a ++ u32le tm ++ ck] =>
        rewrite (app_assoc indicator a) end.
      rewrite fget_app by reflexivity. apply le_dec_u32. }
    rewrite E, HT in H. apply exec_ret_any in H. destruct H as [-> [H|H]]; [discriminate|]. split; [reflexivity|congruence].
  - intros w m1 l0 nss lf k tr t s x Hk H. remember (M2_wire nss lf tm k ++ tr) as f2 eqn:Ef.
    apply io_eq_exec with (2 := client_eq L TK null_checker _) in H. unfold client_machine in H. cbn [cs_init cs_enc] in H.
    fold (cs_init sig (Some e) buf w tk) in H.
    destruct (client_start L TK _ e) as [s1 [m|y]] eqn:E1; [|apply exec_ret_any in H; destruct H; discriminate].
    apply exec_write_inv in H. destruct H as [[H _]|(r & t' & H2 & H)]; [discriminate|]. injection H2 as -> -> <- <-.
    apply exec_read_inv in H. destruct H as [[H _]|(r & t' & H2 & H)]; [discriminate|]. injection H2 as <- <-.
    unfold client_m2 in H. rewrite Ef in H at 1. rewrite m2_ctor_wire in H by auto.
    destruct (m2_fields_wire nss lf tm k Hk) as (F1 & F2 & F3 & F4). rewrite F1, HT in H.
    apply exec_ret_any in H. destruct H as [-> [H|H]]; [discriminate|]. split; [reflexivity|congruence].
Qed.
Print Assumptions C41_bad_time_refuted.

(** Such runs exist: an M1 with time 2. *)
Example C41_example : exists s,
  exec (ex_server true) [ERead (Ok (M1_wire 2 (kp_pub ex_cenc) None))] (Some (s, Err TypeError)).
Proof.
  eexists. eapply io_eq_exec; [|apply io_eq_sym; apply server_eq].
  unfold server_machine. cbn [ss_init ss_enc]. apply ex_read. vm_compute. apply ex_ret.
Qed.

(** ** C42: what a first frame can do to the server (repository's time checker, valid
    key pairs).  If the handshake raises before anything is written, the exception is
    BadPeer, ValueError or TypeError, or the crypto library's own error for the client
    key in the frame; otherwise the first write is an A2, a refusal, or M2. *)
Lemma a1_ctor_err : forall f x, a1_ctor f = Err x -> x = ValueError \/ x = BadPeer.
Proof.
  intros f x H. destruct f as [|b0 r0]; [discriminate|].
  destruct (Z.ltb_spec (zlen (b0 :: r0)) 5) as [Hl|Hl].
  - rewrite a1_ctor_short in H by (auto; discriminate). left. congruence.
  - destruct (five_split _ Hl) as (a & r & t & s0 & s1 & addr & E). rewrite E, a1_ctor_spec in H.
    destruct (_ && _); [discriminate|]. right. congruence.
Qed.

Lemma m1_flag_key : forall f p, m1_ctor f = Ok p -> m1_flag p = true -> exists k, m1_server_sig_key p = Ok k.
Proof.
  intros f p H HF. unfold m1_ctor in H. destruct (is_empty f); [injection H as <-; discriminate|].
  unfold finish, m1_from_bytes in H.
  match type of H with context [m1_validate ?q] => remember q as q0 eqn:Eq end.
  cbn [fst snd] in H. destruct (m1_validate q0) as [[]|]; [|discriminate]. injection H as <-. subst q0.
  unfold m1_flag in HF. cbn [m1_data] in HF. unfold m1_server_sig_key. cbn [m1_opt m1_shadow].
  unfold m1_opt_factory. rewrite HF. eauto.
Qed.

Lemma server_m3_errors : forall L sp ep TK ssig se s p f hold s3 x, nacl_laws L sp ep ->
  sp (kp_sec ssig) (kp_pub ssig) -> ep (kp_sec se) (kp_pub se) -> ss_sig s = ssig -> m1_ctor f = Ok p ->
  server_m3 L TK s se p hold = (s3, Err x) -> x = TypeError \/ l_beforenm L (field 10 32 f) (kp_sec se) = Err x.
Proof.
  intros L sp ep TK ssig se s p f hold s3 x HL Hs He Hsig Hp H. unfold server_m3 in H.
  assert (EK : m1_client_enc_key p = field 10 32 f) by (eapply m1_ctor_field; eauto; lia).
  rewrite EK in H.
  destruct (compute_shared_key L (kp_sec se) (field 10 32 f)) as [key|y] eqn:EC.
  2:{ injection H as <- <-. right. unfold compute_shared_key, BOX_SECRETKEYBYTES, BOX_PUBLICKEYBYTES, zlen in EC.
      pose proof (field_length 10 32 f) as FL. pose proof (law_encsk_len _ _ _ HL _ _ He) as SL. unfold bytes in *.
      rewrite FL, SL in EC. exact EC. }
  destruct (ec_init key SERVER SESSION_NONCE) as [ch|y] eqn:EI.
  2:{ left. unfold ec_init in EI. destruct (negb _); [|discriminate]. congruence. }
  exfalso. apply ec_init_ok in EI. destruct EI as [Hk ->].
  destruct (match hold with Some _ => _ | None => _ end) as [[[t tk'] pre] s2].
  destruct (law_sign _ _ _ HL _ _ (SIG1_PREFIX ++ ss_m1_hash s2 ++ ss_m2_hash s2) Hs) as (sg & G1 & G2 & G3).
  pose proof (law_sigpk_len _ _ _ HL _ _ Hs) as PL.
  destruct (m34_fwd (z2b TYPE_M3) t (kp_pub ssig) sg PL G1) as (p1 & M1 & M2).
  rewrite Hsig in H. change m3_new with (z2b TYPE_M3 :: zeros 101) in H. rewrite M1, G2 in H.
  unfold SIGN_BYTES in H. replace (firstn 64 (sg ++ SIG1_PREFIX ++ ss_m1_hash s2 ++ ss_m2_hash s2)) with sg in H
    by (symmetry; apply firstn_app_exact; exact G1).
  rewrite M2 in H.
  destruct (encrypt_fwd L sp ep key [] false 1 2 ([z2b TYPE_M3; x00] ++ u32le t ++ kp_pub ssig ++ sg) HL Hk) as (c & E1 & _); [lia|].
  rewrite E1 in H. discriminate.
Qed.

Theorem C42_first_frame : forall L sp ep TK sig e buf a2 tk f t s x,
  nacl_laws L sp ep -> sp (kp_sec sig) (kp_pub sig) -> ep (kp_sec e) (kp_pub e) ->
  exec (server_handshake L TK null_checker (ss_init sig (Some e) buf a2 tk)) (ERead (Ok f) :: t) (Some (s, Err x)) ->
  (t = [] /\ (x = BadPeer \/ x = ValueError \/ x = TypeError \/ l_beforenm L (field 10 32 f) (kp_sec e) = Err x)) \/
  (exists r, t = [EWrite [match a2 with Some p => pkt_bytes p | None => A2_wire A2_default_prots end] true r] /\ r = Err x) \/
  (exists r, t = [EWrite [M2_wire true true (fst (tk_first TK tk)) (repeat x00 32)] true r] /\
             (r = Err x \/ (r = Ok tt /\ x = NoSuchServerException))) \/
  (exists t2 fs l r rest, t = EWrite (M2_wire false false t2 (kp_pub e) :: fs) l r :: rest).
Proof.
  intros L sp ep TK sig e buf a2 tk f t s x HL Hs He H. apply server_first in H.
  destruct (m1_ctor f) as [p|y] eqn:E1.
  2:{ destruct (a1_ctor f) as [a|z] eqn:EA.
      - right. left. apply exec_write_inv in H. destruct H as [[_ H]|(r & t' & -> & H)]; [discriminate|].
        exists r. destruct r as [[]|y0]; apply exec_ret_any in H; destruct H as [-> [H|H]]; try discriminate.
        split; [destruct a2; reflexivity|congruence].
      - left. apply exec_ret_any in H. destruct H as [-> [H|H]]; [discriminate|].
        assert (x = z) by congruence. subst z. apply a1_ctor_err in EA. split; [reflexivity|]. tauto. }
  destruct (server_m1 L TK null_checker _ f p) as [s1 [[w|]|y]] eqn:E2.
  - right. right. left. destruct (server_m1_inv _ _ _ _ _ _ _ _ E2 E1) as (_ & -> & _).
    apply exec_write_inv in H. destruct H as [[_ H]|(r & t' & -> & H)]; [discriminate|]. exists r.
    apply exec_ret_any in H. destruct H as [-> [H|H]]; [discriminate|]. split; [reflexivity|].
    destruct r as [[]|y]; [right|left]; [split; [reflexivity|congruence]|congruence].
  - destruct (server_m1_inv _ _ _ _ _ _ _ _ E2 E1) as (_ & Hs1 & _).
    destruct (server_m2_fwd L sp ep HL TK e He s1) as [S2 S2b]. cbv zeta in S2, S2b. rewrite S2 in H.
    match type of S2 with _ = (?a, _) => set (s2 := a) in * end.
    assert (SG : ss_sig s2 = sig) by (subst s2 s1; reflexivity).
    unfold server_rest in H. destruct buf.
    + destruct (server_m3 L TK s2 e p _) as [s3 [fs|y]] eqn:E4.
      2:{ left. apply exec_ret_any in H. destruct H as [-> [H|H]]; [discriminate|]. assert (x = y) by congruence. subst y.
          split; [reflexivity|]. eapply server_m3_errors in E4; eauto. }
      right. right. right. apply exec_write_inv in H. destruct H as [[_ H]|(r & t' & -> & _)]; [discriminate|].
      eapply (server_m3_inv L TK _ _ _ f _ _ _ (fst (tk_first TK (ss_tk s1)))) in E4; [|exact E1|eapply law_encpk_len; eauto|right; reflexivity].
      destruct E4 as (key & sg & f3 & h2 & t3 & tk3 & E4). cbv zeta in E4. decompose [and] E4. subst fs.
      do 5 eexists. reflexivity.
    + right. right. right. rewrite S2b in H. apply exec_write_inv in H. destruct H as [[_ H]|(r & t' & -> & _)]; [discriminate|].
      do 5 eexists. reflexivity.
  - left. apply exec_ret_any in H. destruct H as [-> [H|H]]; [discriminate|]. assert (x = y) by congruence. subst y.
    split; [reflexivity|]. unfold server_m1 in E2. cbn [null_checker tc_first] in E2.
    destruct ((m1_time p =? 0) || (m1_time p =? 1)); [|right; right; left; congruence].
    destruct (m1_flag p) eqn:EF; [|discriminate]. destruct (m1_flag_key _ _ E1 EF) as [k EK]. rewrite EK in E2.
    destruct (negb _); [|discriminate]. destruct (tk_first TK _). discriminate.
Qed.
Print Assumptions C42_first_frame.

(** Each kind of refusal happens: a truncated A1, and garbage. *)
Example C42_example : (exists s, exec (ex_server true) [ERead (Ok [x08; x00])] (Some (s, Err ValueError))) /\
  (exists s, exec (ex_server true) [ERead (Ok (repeat xff 50))] (Some (s, Err BadPeer))).
Proof.
  split; eexists; (eapply io_eq_exec; [|apply io_eq_sym; apply server_eq]);
    unfold server_machine; cbn [ss_init ss_enc]; apply ex_read; vm_compute; apply ex_ret.
Qed.

(** ** C43 (expected: an empty frame is not a handshake) is false of the code.  The
    server that does not buffer M2 answers it with M2, for every library; a client
    that reads it as M2 goes on to wait for M3 whenever the library yields a key for
    the all-zero public key. *)
Theorem C43_empty_frame_refuted : forall L TK TC sig e tk,
  length (kp_pub e) = 32%nat -> length (kp_sec e) = 32%nat -> tc_first TC 0 = Ok tt ->
  (forall a2 t o, exec (server_handshake L TK TC (ss_init sig (Some e) false a2 tk)) (ERead (Ok []) :: t) o ->
     (t = [] /\ o = None) \/
     exists r t', t = EWrite [M2_wire false false (fst (tk_first TK tk)) (kp_pub e)] false r :: t') /\
  (forall a2, exec (server_handshake L TK TC (ss_init sig (Some e) false a2 tk))
     [ERead (Ok []); EWrite [M2_wire false false (fst (tk_first TK tk)) (kp_pub e)] false (Ok tt)] None) /\
  (forall buf w key x, l_beforenm L (repeat x00 32) (kp_sec e) = Ok key -> length key = 32%nat ->
     exists s, exec (client_handshake L TK TC (cs_init sig (Some e) buf w tk))
       [EWrite [M1_wire (fst (tk_first TK tk)) (kp_pub e) None] false (Ok tt); ERead (Ok []); ERead (Err x)]
       (Some (s, Err x)) /\ cs_session_key s = key).
Proof.
  intros L TK TC sig e tk Hp Hs HT.
  assert (SM1 : forall a2, server_m1 L TK TC (ss_init sig (Some e) false a2 tk) [] m1_new =
    (ss_set_m1_hash (l_sha512 L []) (ss_set_m1 (Some m1_new) (ss_init sig (Some e) false a2 tk)), Ok None)).
  { intro a2. unfold server_m1. change (m1_time m1_new) with 0. rewrite HT. reflexivity. }
  assert (SM2 : forall s, server_m2 TK s e = (ss_set_m2 (Some (M2_wire false false (fst (tk_first TK (ss_tk s))) (kp_pub e)))
      (ss_set_tk (snd (tk_first TK (ss_tk s))) s), Ok (M2_wire false false (fst (tk_first TK (ss_tk s))) (kp_pub e)))).
  { intro s. unfold server_m2. destruct (tk_first TK (ss_tk s)) as [t1 tk1]. cbn [fst snd].
    pose proof (m2_build_ok false false t1 (kp_pub e) Hp) as HB. unfold m2_build in HB.
    change (m2_set_last_flag false (m2_set_no_such_server false m2_new)) with m2_new in HB. rewrite HB. reflexivity. }
  assert (B2 : forall t, m2_bytes (M2_wire false false t (kp_pub e)) = M2_wire false false t (kp_pub e)).
  { intro t. rewrite m2_bytes_wire by exact Hp. reflexivity. }
  split; [|split].
  - intros a2 t o H. apply server_first in H. change (m1_ctor []) with (@Ok m1pkt m1_new) in H. cbv beta iota in H.
    rewrite SM1, SM2, B2 in H. apply exec_write_inv in H. destruct H as [[-> ->]|(r & t' & -> & _)]; [left; auto|].
    right. exists r, t'. reflexivity.
  - intro a2. eapply io_eq_exec; [|apply io_eq_sym; apply server_eq].
    unfold server_machine. cbn [ss_init ss_enc]. apply ex_read. change (m1_ctor []) with (@Ok m1pkt m1_new). cbv beta iota.
    fold (ss_init sig (Some e) false a2 tk). rewrite SM1, SM2, B2. cbn [ss_init ss_buffer_m2]. apply ex_write. apply ex_cut.
  - intros buf w key x HB Hl.
    destruct (m1_client_build_ok (fst (tk_first TK tk)) (kp_pub e) Hp) as [p Hpk].
    destruct (m1_client_build _ _ _ Hpk) as [_ HW].
    eexists. split; [eapply io_eq_exec; [|apply io_eq_sym; apply client_eq]|].
    + unfold client_machine. cbn [cs_init cs_enc]. fold (cs_init sig (Some e) buf w tk).
      assert (CS : client_start L TK (cs_init sig (Some e) buf w tk) e =
        (cs_set_m1_hash (l_sha512 L (m1_bytes p)) (cs_set_m1 (Some p) (cs_set_tk (snd (tk_first TK tk)) (cs_init sig (Some e) buf w tk))),
         Ok (m1_bytes p))).
      { unfold client_start. cbn [cs_init cs_tk]. destruct (tk_first TK tk) as [t1 tk1]. cbn [fst snd] in *. rewrite Hpk. reflexivity. }
      rewrite CS, HW. apply ex_write. apply ex_read. unfold client_m2.
      change (m2_ctor []) with (@Ok bytes m2_new). cbv beta iota. change (m2_time m2_new) with 0. rewrite HT.
      change (m2_no_such_server m2_new) with false. cbv beta iota.
      change (m2_server_enc_key m2_new) with (repeat x00 32).
      rewrite (shared_key_fwd L (kp_sec e) (repeat x00 32) key Hs (repeat_length _ _) HB). rewrite (ec_init_fwd key CLIENT SESSION_NONCE Hl).
      apply ex_read. apply ex_ret.
    + reflexivity.
Qed.
Print Assumptions C43_empty_frame_refuted.

Example C43_example : exists key, l_beforenm toy_lib (repeat x00 32) (kp_sec ex_cenc) = Ok key /\ length key = 32%nat.
Proof. eexists. split; vm_compute; reflexivity. Qed.

(** ** C53 (expected: a session whose handshake failed reports no peer key) is false of
    the code.  Anyone who can do the key exchange can put any 32 bytes [pk] into
    [client_sig_key] of a server: the handshake fails with BadPeer because the
    signature does not verify, but the attribute keeps [pk], and the application
    channel stays usable. *)
Theorem C53_unverified_key_refuted : forall L sp ep TK TC sig ce e buf a2 tk tm,
  nacl_laws L sp ep -> sp (kp_sec sig) (kp_pub sig) -> ep (kp_sec ce) (kp_pub ce) -> ep (kp_sec e) (kp_pub e) ->
  tc_first TC (tm mod 2 ^ 32) = Ok tt -> accepts_times TC ->
  let m1 := M1_wire tm (kp_pub ce) None in
  let m2 := M2_wire false false (fst (fst (server_times TK buf tk))) (kp_pub e) in
  exists key f3, l_beforenm L (kp_pub e) (kp_sec ce) = Ok key /\
    forall pk sg t4, length pk = 32%nat -> length sg = 64%nat ->
      l_sign_open L (sg ++ client_text L m1 m2) pk = Err BadSignatureException ->
    exists f4 s, seals L key 1 (M4_wire t4 pk sg) f4 /\
      exec (server_handshake L TK TC (ss_init sig (Some e) buf a2 tk))
        (ERead (Ok m1) :: (if buf then [EWrite [m2; f3] false (Ok tt)] else [EWrite [m2] false (Ok tt); EWrite [f3] false (Ok tt)])
         ++ [ERead (Ok f4)]) (Some (s, Err BadPeer)) /\
      ss_client_sig_key s = Some pk /\ ss_app s <> None.
Proof.
  intros L sp ep TK TC sig ce e buf a2 tk tm HL H1 H2 H3 HT HA m1 m2.
  destruct (server_to_wait L sp ep TK TC sig ce e buf a2 tk tm HL H1 H2 H3 HT) as (key & f3 & s3 & A1 & A2 & A3 & A4 & A5 & A6).
  exists key, f3. split; [exact A1|]. intros pk sg t4 Hp Hg HO.
  destruct (encrypt_fwd L sp ep key [] false 1 1 (M4_wire t4 pk sg) HL A2) as (c & E1 & E2); [lia|].
  exists (ec_wrap c false). eexists. split; [|split; [eapply io_eq_exec; [apply A6|apply io_eq_sym; apply server_eq]|]].
  - destruct E2 as (_ & c' & E3 & E4). exists c'. split; [exact E3|exact E4].
  - apply ex_read. rewrite (server_m4_fwd L sp ep HL TC s3 key _ t4 sg (ec_wrap c false) (Err BadSignatureException) A5 A2 pk Hp Hg (HA _) E2).
    + apply ex_ret.
    + rewrite A3, A4. exact HO.
  - split; [reflexivity|discriminate].
Qed.
Print Assumptions C53_unverified_key_refuted.

(** A signature that does not verify, with the toy library. *)
Example C53_example : forall m1 m2,
  l_sign_open toy_lib (repeat x00 64 ++ client_text toy_lib m1 m2) (repeat x55 32) = Err BadSignatureException.
Proof. reflexivity. Qed.
