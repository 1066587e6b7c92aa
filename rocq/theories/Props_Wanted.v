(** Property C37, continued: what a client gets that compares the keys itself, since
    wanted_server_sig_key is ignored. *)
From Coq Require Import List ZArith Bool Strings.Byte Lia ZifyBool ZifyNat ZifyN.
From Verif Require Import PyBase PyBase_proofs IO IO_proofs Packets Packets_proofs Packets_proofs2
  Crypto Crypto_proofs Time EncChannel EncUse EncChannel_proofs AppChannel AppUse AppChannel_proofs Session Session_proofs
  SessUse Session_steps Sched_proofs Session_fwd Session_sched Spec Props_App Props_Session Props_Session2.
Import ListNotations.
Open Scope Z_scope.

(** The application: it runs the handshake and, if that succeeds, compares
    [session.m3.data.ServerSigKey] with the key it wants. *)
Definition checked (want : bytes) (h : io (cs * res unit)) : io (cs * res unit) :=
  iobind h (fun p => match p with
    | (s, Ok _) => Ret (s, match option_map m34_sig_key (cs_m3 s) with
                           | Some pk => if bytes_eqb pk want then Ok tt else Err BadPeer
                           | None => Err BadPeer
                           end)
    | (s, Err x) => Ret (s, Err x)
    end).

(** *** C37 for that application: when it succeeds it shares M1, M2 and the session key
    with a run of a server that has the wanted key, or a collision or a forgery of that
    very key is at hand. *)
Theorem C37_compare_partial : forall L sp ep TK TC sig e buf w want tk t s runs,
  nacl_laws L sp ep -> ep (kp_sec e) (kp_pub e) ->
  exec (checked want (client_handshake L TK TC (cs_init sig (Some e) buf w tk))) t (Some (s, Ok tt)) ->
  (forall r, In r runs -> srun_ok L r /\ ep (kp_sec (sr_enc r)) (kp_pub (sr_enc r))) ->
  option_map m34_sig_key (cs_m3 s) = Some want /\
  exists m1 m2 rest, t = EWrite [m1] false (Ok tt) :: ERead (Ok m2) :: rest /\
  ((exists r, In r runs /\ kp_pub (sr_sig r) = want /\ server_said (sr_t r) = Some (m1, m2) /\
      forall s', sr_o r = Some (s', Ok tt) -> ss_session_key s' = cs_session_key s) \/
   collision L \/
   exists sg, accepted L want sg (server_text L m1 m2) /\
     forall r a b, In r runs -> kp_pub (sr_sig r) = want -> server_said (sr_t r) = Some (a, b) ->
       server_text L a b <> server_text L m1 m2).
Proof.
  intros L sp ep TK TC sig e buf w want tk t s runs HL He H HR.
  unfold checked in H. apply exec_bind_some in H. destruct H as (t1 & t2 & [s0 [u|x]] & -> & H1 & H2).
  2:{ inversion H2. }
  destruct u. inversion H2; subst; clear H2.
  destruct (option_map m34_sig_key (cs_m3 s)) as [pk|] eqn:EK; [|discriminate].
  destruct (bytes_eqb pk want) eqn:EB; [|discriminate]. apply bytes_eqb_eq in EB. subst pk.
  split; [reflexivity|]. rewrite app_nil_r. eapply C35_client_agrees; eauto.
Qed.
Print Assumptions C37_compare_partial.

(** *** C37: with an honest server the comparison decides alone, under every schedule.
    The server completes all the same: a client that does not buffer M4 has told the
    wrong server who it is by the time it can compare. *)
Theorem C37_compare_ends : forall L sp ep TKc TKs TCc TCs csig ssig ce se sbuf w want a2 tkc tks,
  peers_ok L sp ep TKc TKs TCc TCs csig ssig ce se sbuf tkc tks ->
  exists sC sS r, always_ends
    (Sys (checked want (client_handshake L TKc TCc (cs_init csig (Some ce) false w tkc)))
         (server_handshake L TKs TCs (ss_init ssig (Some se) sbuf a2 tks)) [] [])
    (Sys (Ret (sC, r)) (Ret (sS, Ok tt)) [] []) /\
    (want = kp_pub ssig -> r = Ok tt) /\ (want <> kp_pub ssig -> r = Err BadPeer) /\
    ss_client_sig_key sS = Some (kp_pub csig).
Proof.
  intros L sp ep TKc TKs TCc TCs csig ssig ce se sbuf w want a2 tkc tks [HL H1 H2 H3 H4 H5 H6 H7 H8].
  set (kl := fun p : cs * res unit => match p with
    | (s, Ok _) => Ret (s, match option_map m34_sig_key (cs_m3 s) with
                           | Some pk => if bytes_eqb pk want then Ok tt else Err BadPeer
                           | None => Err BadPeer
                           end)
    | (s, Err x) => Ret (s, Err x)
    end).
  destruct (reach_wait L sp ep TKc TKs TCc TCs csig ssig ce se false sbuf w a2 tkc tks _ _ kl (fun x => Ret x)
              HL H1 H2 H3 H4 H5 H6 H7)
    as (n & key & sc & s3 & csg & sg & t3 & R1 & R2 & R0 & R3 & R4 & R5 & R6 & R7 & R8 & R9 & R10 & m & R11).
  cbv zeta in *.
  assert (Hp : length (kp_pub csig) = 32%nat) by (eapply law_sigpk_len; eauto).
  assert (Hq : length (kp_pub ssig) = 32%nat) by (eapply law_sigpk_len; eauto).
  pose proof (finish_unbuffered L sp ep TCs _ _ kl (fun x => Ret x) key sc s3
    (fst (tk_get TKc (snd (tk_first TKc tkc)))) (kp_pub csig) csg _ _ m HL R2 R3 Hp H8 R7 R10 R11) as R13.
  assert (HM : m34_sig_key (M3_wire t3 (kp_pub ssig) sg) = kp_pub ssig) by (apply m34_fields; assumption).
  unfold kl at 2 in R13. cbn [cs_set_app cs_m3] in R13. rewrite R6 in R13. cbn [option_map] in R13. rewrite HM in R13.
  do 3 eexists. split; [|split; [|split]].
  - eapply always_ends_intro. eapply steps_eq_ret; [eapply steps_app; [exact R1|exact R13]|].
    split; [|split; [|split; reflexivity]]; cbn [s_left s_right].
    + apply io_eq_bind. apply io_eq_sym. apply client_eq.
    + eapply io_eq_trans; [|apply io_eq_sym; apply server_eq]. apply iobind_ret_eq.
  - intros ->. rewrite bytes_eqb_refl. reflexivity.
  - intro N. destruct (bytes_eqb (kp_pub ssig) want) eqn:EB; [|reflexivity]. apply bytes_eqb_eq in EB. congruence.
  - reflexivity.
Qed.
Print Assumptions C37_compare_ends.

(** *** C37: with buffer_M4 nothing but M1 has been sent by then, whatever the peer is. *)
Theorem C37_compare_quiet : forall L TK TC sig e w want tk t o,
  length (kp_pub e) = 32%nat ->
  exec (checked want (client_handshake L TK TC (cs_init sig (Some e) true w tk))) t o ->
  (length (filter (fun ev => match ev with EWrite _ _ _ => true | _ => false end) t) <= 1)%nat /\
  forall ms l r, In (EWrite ms l r) t -> ms = [M1_wire (fst (tk_first TK tk)) (kp_pub e) None] /\ l = false.
Proof.
  intros L TK TC sig e w want tk t o Hp H. unfold checked in H.
  assert (S : forall t o, exec (client_handshake L TK TC (cs_init sig (Some e) true w tk)) t o ->
    t = [] \/ exists r t', t = EWrite [M1_wire (fst (tk_first TK tk)) (kp_pub e) None] false r :: t' /\
      forall ev, In ev t' -> exists x, ev = ERead x).
  { clear t o H. intros t o H. apply io_eq_exec with (2 := client_eq L TK TC _) in H.
    unfold client_machine in H. cbn [cs_init cs_enc] in H. fold (cs_init sig (Some e) true w tk) in H.
    destruct (m1_client_build_ok (fst (tk_first TK tk)) (kp_pub e) Hp) as [p Hpk].
    destruct (m1_client_build _ _ _ Hpk) as [_ HW].
    assert (CS : exists s1, client_start L TK (cs_init sig (Some e) true w tk) e = (s1, Ok (M1_wire (fst (tk_first TK tk)) (kp_pub e) None))).
    { unfold client_start. cbn [cs_init cs_tk]. destruct (tk_first TK tk) as [t1 tk1]. cbn [fst snd] in *. rewrite Hpk.
      rewrite <- HW. eexists. reflexivity. }
    destruct CS as [s1 CS]. rewrite CS in H.
    apply exec_write_inv in H. destruct H as [[-> _]|(r & t' & -> & H)]; [left; reflexivity|right].
    exists r, t'. split; [reflexivity|]. intros ev HI. destruct r as [[]|x]; [|apply exec_ret_any in H; destruct H as [-> _]; destruct HI].
    apply exec_read_inv in H. destruct H as [[-> _]|(r & t'' & -> & H)]; [destruct HI|].
    destruct HI as [<-|HI]; [eexists; reflexivity|].
    destruct r as [f|x]; [|apply exec_ret_any in H; destruct H as [-> _]; destruct HI].
    destruct (client_m2 L TC s1 e f) as [s2 [ch|x]]; [|apply exec_ret_any in H; destruct H as [-> _]; destruct HI].
    apply exec_read_inv in H. destruct H as [[-> _]|(r & t3 & -> & H)]; [destruct HI|].
    destruct HI as [<-|HI]; [eexists; reflexivity|].
    destruct r as [g|x]; [|apply exec_ret_any in H; destruct H as [-> _]; destruct HI].
    destruct (client_m3 L TK TC s2 ch g) as [s3 [m4|x]]; apply exec_ret_any in H; destruct H as [-> _]; destruct HI. }
  assert (T : exists t1 o1, exec (client_handshake L TK TC (cs_init sig (Some e) true w tk)) t1 o1 /\ t = t1).
  { destruct o as [b|].
    - apply exec_bind_some in H. destruct H as (t1 & t2 & [s0 [u|x]] & -> & H1 & H2); apply exec_ret_any in H2; destruct H2 as [-> _];
        (do 2 eexists; split; [exact H1|apply app_nil_r]).
    - apply exec_bind_none in H. destruct H as [H|(t1 & t2 & [s0 [u|x]] & -> & H1 & H2)]; [do 2 eexists; split; [exact H|reflexivity]| |];
        apply exec_ret_any in H2; destruct H2 as [-> _]; (do 2 eexists; split; [exact H1|apply app_nil_r]). }
  destruct T as (t1 & o1 & T & ->). apply S in T. destruct T as [->|(r & t' & -> & N)].
  { split; [cbn; lia|intros ms l r []]. }
  split.
  - cbn [filter length]. assert (E : filter (fun ev => match ev with EWrite _ _ _ => true | _ => false end) t' = []).
    { clear - N. induction t' as [|ev t' IH]; [reflexivity|]. cbn [filter]. destruct (N ev (or_introl eq_refl)) as [x ->].
      apply IH. intros ev H'. apply N. right. exact H'. }
    rewrite E. cbn. lia.
  - intros ms l r' [E|HI]; [injection E as <- <- _; auto|]. destruct (N _ HI) as [x E]. discriminate.
Qed.
Print Assumptions C37_compare_quiet.

(** The server of the examples, asked for by its own key and by another one. *)
Example C37_compare_example : forall cb sb,
  let run want := fst (run2 20 (checked want (ex_client cb [])) (ex_server sb) [] []) in
  option_map snd (snd (run (kp_pub ex_ssig))) = Some (Ok tt) /\
  option_map snd (snd (run (repeat x55 32))) = Some (Err BadPeer) /\
  length (filter (fun ev => match ev with EWrite _ _ _ => true | _ => false end) (fst (run (repeat x55 32)))) = (if cb then 1 else 2)%nat.
Proof. intros [] []; vm_compute; auto. Qed.
