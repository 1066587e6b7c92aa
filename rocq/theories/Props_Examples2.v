(** C117: the A1-A2 example, saltchannel/dev/example_session2.py. *)
From Coq Require Import List ZArith Bool Strings.Byte Lia ZifyBool ZifyNat ZifyN.
From Verif Require Import PyBase PyBase_proofs IO IO_proofs Packets Packets_proofs A1A2_proofs Crypto Time Session SessUse
  Session_proofs Session_steps Sched_proofs Session_fwd Session_sched Channel Channel_proofs Stack Spec StackUse Stack_proofs Stack_fit Dev
  Props_Packets Props_App Props_Session Props_Session2 Props_Session3 Props_Stack Props_Misc Props_Examples Examples.
Import ListNotations.
Open Scope Z_scope.
Ltac Zify.zify_post_hook ::= Z.div_mod_to_equations.

(** A p-string as documented: ten letters, digits, dots, slashes, hyphens or underscores *)
Definition pstring (p : bytes) : Prop := length p = 10%nat /\ Forall (fun b => documented_char (val b)) p.

Lemma example2_a1_wire : forall key, length key = 32%nat ->
  pkt_bytes (a1_set_address key (a1_set_address_size 32 (a1_set_address_type ADDRESS_TYPE_PUBKEY a1_new))) = A1_pubkey key.
Proof. reflexivity. Qed.
Lemma example2_a2_wire : forall p1 p2, pkt_bytes (example2_a2 p1 p2) = A2_wire [(p1, p2)].
Proof. intros p1 p2. unfold pkt_bytes, example2_a2, a2_set_prots. cbn [p_opt p_data map concat fst snd]. reflexivity. Qed.

Lemma example2_steps : forall uw L TK TC sig e buf tk key p1 p2 log, length key = 32%nat -> pstring p1 -> pstring p2 ->
  exists m s, mm_counter_write m = 37 /\ mm_counter_read m = 23 /\
  steps 4 (Sys (via_mitm (example2_client uw key) (mitm_init log)) (server_handshake L TK TC (ss_init sig (Some e) buf (Some (example2_a2 p1 p2)) tk)) [] [])
          (Sys (Ret (Ok (p1, p2), m)) (Ret (s, Ok tt)) [] []).
Proof.
  intros uw L TK TC sig e buf tk key p1 p2 log HK [L1 C1] [L2 C2].
  destruct (C12_a2_round_trip uw [(p1, p2)]) as (HB & p & HP & HPL); [cbn; lia|constructor; [cbn; rewrite Forall_app; auto|constructor]|].
  destruct (a1_pubkey_ok key HK) as [a HA]. assert (HN : A1_pubkey key <> []) by discriminate.
  assert (WL : zlen (A2_wire [(p1, p2)]) = 23) by (unfold zlen, A2_wire; cbn [map concat fst snd]; rewrite !app_length; cbn [length]; lia).
  assert (KL : zlen (A1_pubkey key) = 37) by (unfold zlen, A1_pubkey; rewrite app_length; cbn [length]; lia).
  exists (mitm_after (mitm_after (mitm_init log) [EWrite [A1_pubkey key] false (Ok tt)]) [ERead (Ok (A2_wire [(p1, p2)]))]).
  exists (ss_set_is_done true (ss_set_m1 None (ss_init sig (Some e) buf (Some (example2_a2 p1 p2)) tk))).
  split; [|split].
  - unfold mitm_after. cbn [mm_counter_write mitm_init total fold_right ev_write_len]. unfold sum_len. cbn [concat]. rewrite app_nil_r, KL. reflexivity.
  - unfold mitm_after. cbn [mm_counter_read mitm_init total fold_right ev_read_len]. rewrite WL. reflexivity.
  - eapply (steps_eq_ret _ _ 4 (Sys (via_mitm (example2_client uw key) (mitm_init log)) (server_machine L TK TC (ss_init sig (Some e) buf (Some (example2_a2 p1 p2)) tk)) [] [])).
    2:{ split; [apply io_eq_refl|]. split; [apply io_eq_sym; apply server_eq|]. split; reflexivity. }
    unfold server_machine. cbn [ss_init ss_enc].
    unfold example2_client, do_a1a2, mbind, mwrite, mread, mlift. rewrite (example2_a1_wire key HK). cbn [iobind].
    match goal with |- context [via_mitm (Write ?ms ?l ?k) ?s] => destruct (via_write _ ms l k s ltac:(discriminate)) as (k1 & E1 & V1); rewrite E1; clear E1 end.
    stp. rewrite V1. cbn [app iobind fst snd].
    match goal with |- context [via_mitm (Read ?k) ?s] => destruct (via_read _ k s) as (k2 & E2 & V2); rewrite E2; clear E2 end.
    stp. rewrite (a1_not_m1 _ a HN HA), HA. change (ss_a2 (ss_init sig (Some e) buf (Some (example2_a2 p1 p2)) tk)) with (Some (example2_a2 p1 p2)).
    cbv iota. rewrite example2_a2_wire. stp. cbn [app]. stp. rewrite V2, HP. cbn [iobind fst snd]. rewrite HPL. cbn [via_mitm]. apply steps_O.
Qed.

Lemma via_fit : forall A (p : io A), calls_ok p -> writes_fit p -> forall s, writes_fit (via_mitm p s).
Proof.
  intros A p. induction p as [a|k IH|ms l k IH]; intros HC HW s; [constructor|..].
  - inversion HC as [|k0 HK|]; subst. inversion HW as [|k1 HF|]; subst. destruct (via_read _ k s) as (k' & -> & V). constructor. intros r Hr. rewrite V. apply IH; auto.
  - inversion HC as [| |ms0 l0 k0 HN HK]; subst. inversion HW as [| |ms1 l1 k1 HS HF]; subst. destruct (via_write _ ms l k s HN) as (k' & -> & V). constructor; [assumption|].
    intros r. rewrite V. apply IH; auto.
Qed.
Lemma example2_client_shape : forall uw key, length key = 32%nat -> calls_ok (example2_client uw key) /\ writes_fit (example2_client uw key).
Proof.
  intros uw key HK. unfold example2_client, do_a1a2, mbind, mwrite, mread, mlift. rewrite (example2_a1_wire key HK). cbn [iobind].
  assert (F : forall y : res pkt, exists x : res (bytes * bytes), match y with
      | Ok p => match a2_prots p with Ok [] => Ret (Err IndexError) | Ok (q :: _) => Ret (Ok q) | Err e => Ret (Err e) end
      | Err e => Ret (Err e) end = Ret x).
  { intros [p|e]; [|eauto]. destruct (a2_prots p) as [[|q l]|e]; eauto. }
  split; constructor; try discriminate.
  - intros [[]|e]; cbn [iobind fst snd]; [|constructor]. constructor. intros [f|e]; cbn [iobind fst snd]; [|constructor]. destruct (F (a2_ctor uw f)) as [x ->]. constructor.
  - constructor; [|constructor]. unfold small, zlen, A1_pubkey. rewrite app_length, HK. reflexivity.
  - intros [[]|e]; cbn [iobind fst snd]; [|constructor]. constructor. intros [f|e] _; cbn [iobind fst snd]; [|constructor]. destruct (F (a2_ctor uw f)) as [x ->]. constructor.
Qed.

(** Over sockets and asyncio streams, with every cutting and schedule: both ends return, the
    client prints the P1 and P2 that the server was configured with, and it counts 37 bytes
    sent and 23 received; nothing is left on the wire. *)
Theorem C117_session : forall TL TR uw L sp ep TK TC sig e buf tk key p1 p2 log,
  byte_channel TL -> byte_channel TR -> nacl_laws L sp ep -> length key = 32%nat -> pstring p1 -> pstring p2 ->
  inevitable (cstep TL TR)
    (fun c => exists m, c = Conn (Ret (Ok (p1, p2), m)) [] (Ret (Ok tt)) [] [] [] /\ mm_counter_write m = 37 /\ mm_counter_read m = 23)
    (Conn (via_mitm (example2_client uw key) (mitm_init log)) []
          (example2_server L TK TC (ss_init sig (Some e) buf (Some (example2_a2 p1 p2)) tk)) [] [] []).
Proof.
  intros TL TR uw L sp ep TK TC sig e buf tk key p1 p2 log HTL HTR HL HK H1 H2.
  destruct (example2_steps uw L TK TC sig e buf tk key p1 p2 log HK H1 H2) as (m & s & M1 & M2 & HS).
  eapply inevitable_weaken; [|eapply C63_streams_follow_frames with (F := Sys (Ret (Ok (p1, p2), m)) (Ret (Ok tt)) [] []); [exact HTL|exact HTR| | |]].
  - intros [p lb q rb lr rl]. cbn [s_left s_right s_lr s_rl c_left c_right c_lbuf c_rbuf c_lr c_rl].
    intros (-> & -> & Q1 & Q2). apply app_eq_nil in Q1. apply app_eq_nil in Q2. destruct Q1 as [-> ->], Q2 as [-> ->]. eauto.
  - destruct (example2_client_shape uw key HK). apply via_fit; assumption.
  - eapply wfq_fit with (Q := fun _ => True). unfold example2_server. eapply wfq_bind; [eapply server_fit; [exact HL|]|].
    + cbn [a2_fits]. rewrite example2_a2_wire. destruct H1 as [L1 _], H2 as [L2 _]. unfold small, zlen, A2_wire. cbn [map concat fst snd]. rewrite !app_length, L1, L2. reflexivity.
    + intros [s' [[]|x]] _; constructor; exact I.
  - eapply always_ends_intro. unfold example2_server.
    match goal with |- context [iobind _ ?g] => exact (steps_bind_right _ _ _ g _ _ _ HS) end.
Qed.
Print Assumptions C117_session.

(** Against any peer: what the client prints are the first P1 and P2 of a well-formed A2. *)
Theorem C117_client : forall uw key t p1 p2, length key = 32%nat -> exec (example2_client uw key) t (Some (Ok (p1, p2))) ->
  exists f l, t = [EWrite [A1_pubkey key] false (Ok tt); ERead (Ok f)] /\ A2_frame uw f ((p1, p2) :: l).
Proof.
  intros uw key t p1 p2 HK H. unfold example2_client, do_a1a2, mbind, mwrite, mread, mlift in H. rewrite (example2_a1_wire key HK) in H. cbn [iobind] in H.
  apply exec_write_inv in H. destruct H as [[_ H]|(r & t' & -> & H)]; [discriminate|]. destruct r as [[]|e]; cbn [iobind fst snd] in H; [|apply exec_ret_any in H; destruct H as [_ [H|H]]; discriminate].
  apply exec_read_inv in H. destruct H as [[_ H]|(r & t2 & -> & H)]; [discriminate|]. destruct r as [f|e]; cbn [iobind fst snd] in H; [|apply exec_ret_any in H; destruct H as [_ [H|H]]; discriminate].
  destruct (a2_ctor uw f) as [p|e] eqn:E; [|apply exec_ret_any in H; destruct H as [_ [H|H]]; discriminate].
  destruct (a2_prots p) as [[|q l]|e] eqn:E2; apply exec_ret_any in H; destruct H as [-> [H|H]]; try discriminate.
  injection H as H. subst q. exists f, l. split; [reflexivity|]. assert (NF : f <> []) by (intros ->; injection E as <-; discriminate).
  apply (proj1 (C12_a2_acceptance uw f NF)). eauto.
Qed.
Print Assumptions C117_client.

(** (expected: the client reports a server that offers nothing, or that refuses) is false of
    the code: every A2 without entries makes it raise IndexError. *)
Theorem C117_refusal_refuted : forall uw key f t x, length key = 32%nat -> A2_frame uw f [] ->
  exec (example2_client uw key) (EWrite [A1_pubkey key] false (Ok tt) :: ERead (Ok f) :: t) (Some x) -> t = [] /\ x = Err IndexError.
Proof.
  intros uw key f t x HK HF H. unfold example2_client, do_a1a2, mbind, mwrite, mread, mlift in H. rewrite (example2_a1_wire key HK) in H. cbn [iobind] in H.
  inversion H as [| | |ms l k r t0 o H1]; subst. cbn [iobind fst snd] in H1. inversion H1 as [| |k r t1 o H2|]; subst. cbn [iobind fst snd] in H2.
  assert (NF : f <> []) by (destruct HF as (fl & ex & -> & _); discriminate).
  destruct (proj2 (proj1 (C12_a2_acceptance uw f NF) []) HF) as (p & EP & EL). rewrite EP, EL in H2. apply exec_ret_any in H2. destruct H2 as [-> [H2|H2]]; [discriminate|]. split; congruence.
Qed.
Print Assumptions C117_refusal_refuted.

(** The server against any peer: it uses the connection for one handshake and nothing more,
    and returns normally exactly if that succeeded or ended with a ComException. *)
Theorem C117_server : forall L TK TC s t x, exec (example2_server L TK TC s) t (Some x) <->
  exists s' y, exec (server_handshake L TK TC s) t (Some (s', y)) /\
    x = match y with Ok _ => Ok tt | Err e => if is_com e then Ok tt else Err e end.
Proof.
  intros L TK TC s t x. unfold example2_server. generalize (server_handshake L TK TC s). intro p. clear s. revert t. induction p as [a|k IH|ms l k IH]; intros t; cbn [iobind].
  - destruct a as [s' y]. cbn [snd]. split.
    + intros H. exists s', y. destruct y as [u|e]; apply exec_ret_any in H; destruct H as [-> [H|H]]; try discriminate; (split; [constructor|]).
      * injection H as <-. reflexivity.
      * unfold caught in H. injection H as <-. reflexivity.
    + intros (s2 & y2 & H & ->). apply exec_ret_any in H. destruct H as [-> [H|H]]; [discriminate|]. injection H as -> ->. destruct y as [u|e]; constructor.
  - split.
    + intros H. apply exec_read_inv in H. destruct H as [[_ H]|(r & t' & -> & H)]; [discriminate|]. apply IH in H. destruct H as (s' & y & H & E). exists s', y. split; [constructor; exact H|exact E].
    + intros (s' & y & H & E). apply exec_read_inv in H. destruct H as [[_ H]|(r & t' & -> & H)]; [discriminate|]. constructor. apply IH. eauto.
  - split.
    + intros H. apply exec_write_inv in H. destruct H as [[_ H]|(r & t' & -> & H)]; [discriminate|]. apply IH in H. destruct H as (s' & y & H & E). exists s', y. split; [constructor; exact H|exact E].
    + intros (s' & y & H & E). apply exec_write_inv in H. destruct H as [[_ H]|(r & t' & -> & H)]; [discriminate|]. constructor. apply IH. eauto.
Qed.
Print Assumptions C117_server.

(** The example as it is in the repository, over the toy library; and a refusing server *)
Example C117_example : let echo := [x45; x43; x48; x4f; x2d; x2d; x2d; x2d; x2d; x2d] in
  let key := repeat x08 32 in let uw := fun _ : Z => false in
  pstring SC2_PROT_STRING /\ pstring echo /\
  match run2 40 (via_mitm (example2_client uw key) (mitm_init true))
                (example2_server toy_lib null_keeper null_checker (ss_init ex_ssig (Some ex_senc) false (Some (example2_a2 SC2_PROT_STRING echo)) 0)) [] [] with
  | ((_, Some (r, m)), (_, Some y)) => r = Ok (SC2_PROT_STRING, echo) /\ mm_counter_write m + mm_counter_read m = 60 /\ y = Ok tt
  | _ => False
  end /\
  A2_frame uw A2_no_such_server_wire [].
Proof.
  split; [|split; [|split]].
  - split; [reflexivity|]. repeat (apply Forall_cons; [unfold documented_char; cbn; lia|]). apply Forall_nil.
  - split; [reflexivity|]. repeat (apply Forall_cons; [unfold documented_char; cbn; lia|]). apply Forall_nil.
  - vm_compute. repeat split.
  - apply (proj1 (C12_a2_acceptance (fun _ => false) A2_no_such_server_wire ltac:(discriminate))). eexists. split; reflexivity.
Qed.
