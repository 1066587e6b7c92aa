(** C128-C130: threads that share a channel (v2/app_channel_v2.py:25-64, util/__init__.py:37-62,
    channel.py:58-98, v2/encrypted_channel_v2.py:22-32,68-77). *)
From Coq Require Import List ZArith Bool Strings.Byte Lia ZifyBool ZifyNat ZifyN.
From Verif Require Import PyBase PyBase_proofs IO IO_proofs Packets Packets_proofs Crypto Crypto_proofs Time Channel Channel_proofs
  EncChannel EncUse EncChannel_proofs Props_Enc AppChannel AppUse AppChannel_proofs Props_App Tasks Harness Harness_proofs Spec
  SaltLib Backends SalsaSpec PolySpec StdLib TwSalsa_proofs TwBox_proofs StdLib_proofs Props_Std Props_Pad Props_Channel Threads Threads_proofs.
From Verif Require Sync.
Import ListNotations.
Open Scope Z_scope.
Ltac Zify.zify_post_hook ::= Z.div_mod_to_equations.

(** *** C128: the synchronous methods of one [AppChannelV2] *)

(** A call that was refused: RuntimeError, and nothing happened on the channel below. *)
Definition is_refused (c : ecall) : Prop :=
  (exists last, c = EcRead [] (Err Sync.RuntimeError) last) \/ (exists m args last, c = EcWrite m args last [] (Err Sync.RuntimeError)).

(** Whatever the threads do, and however they are scheduled: the calls that were not refused had
    the effects they have one after the other, in the order in which they were over; and every
    thread made its own calls one after the other, each going on with the result it got. *)
Theorem C128_one_at_a_time : forall L TK TC s ps log s' ps',
  ssteps L TK TC (Shared s None ps) log (Shared s' None ps') ->
  ac_hist L TK TC s (accepted log) s' /\
  (forall i p, nth_error ps i = Some p -> exists q, nth_error ps' i = Some q /\ follows p (calls_of i (made log)) q) /\
  (forall i c, In (i, false, c) log -> is_refused c).
Proof.
  intros L TK TC s ps log s' ps' H. pose proof (sinv_steps _ _ _ _ _ _ H _ _ _ (sinv_init L TK TC s ps)) as (H1 & H2 & H3 & _).
  cbn [app sh_ac sh_threads] in *. auto.
Qed.
Print Assumptions C128_one_at_a_time.

(** So no two frames share a nonce. *)
Theorem C128_nonces : forall L TK TC key r sn s ps log s' ps',
  ec_init key r sn = Ok (ac_enc s) -> (ac_buffered_m4 s = None \/ exists t k g, ac_buffered_m4 s = Some (M4_wire t k g)) ->
  ssteps L TK TC (Shared s None ps) log (Shared s' None ps') ->
  exists ns xs, length ns = length (frames_out (accepted log)) /\ length xs = length (frames_out (accepted log)) /\
    NoDup (map (fun n => nonce24 n sn) ns) /\
    (forall i n m last f, nth_error ns i = Some n -> nth_error xs i = Some (m, last) -> nth_error (frames_out (accepted log)) i = Some f ->
       exists c, l_afternm L m (nonce24 n sn) key = Ok c /\ f = Enc_wire last c).
Proof.
  intros L TK TC key r sn s ps log s' ps' HI HM H. destruct (C128_one_at_a_time _ _ _ _ _ _ _ _ H) as (HH & _).
  assert (EM : exists m4 t0, ac_buffered_m4 s = match m4 with Some (k, g) => Some (M4_wire t0 k g) | None => None end).
  { destruct HM as [->|(t & k & g & ->)]; [exists None, 0; reflexivity|exists (Some (k, g)), t; reflexivity]. }
  destruct EM as (m4 & t0 & EM). destruct (app_to_enc _ _ _ _ _ _ HH m4 t0 EM) as (eh & HE & HF & _ & HX).
  destruct (C22_nonces_unique _ _ _ _ _ _ _ HI HE) as (ns & H1 & H2 & H3 & _ & H4). rewrite HF in *. exists ns, (sent_msgs eh). auto.
Qed.
Print Assumptions C128_nonces.

(** "While one thread waits in [read_sync] another can write" is false: from the moment a read
    waits for the peer, and until something arrives, every other call is refused, nothing is sent
    and the channel does not change. *)
Theorem C128_duplex_refuted : forall L TK TC s ps i j k m args last k',
  ac_readq s = [] -> ec_pushback (ac_enc s) = [] -> i <> j -> nth_error ps i = Some (PRead k) -> nth_error ps j = Some (PWrite m args last k') ->
  exists c, let x := Shared s (Some (InRead i k [] (Read c))) ps in
    ssteps L TK TC (Shared s None ps) [] x /\
    (exists y, ssteps L TK TC x [(j, false, EcWrite m args last [] (Err Sync.RuntimeError))] y) /\
    (forall log y, ssteps L TK TC x log y ->
       exists l1 l2, log = l1 ++ l2 /\ (forall c, In c l1 -> snd (fst c) = false) /\
         ((l2 = [] /\ sh_ac y = s /\ sh_run y = sh_run x) \/
          exists ps1 a, ssteps L TK TC x l1 (Shared s (Some (InRead i k [] (Read c))) ps1) /\ ssteps L TK TC (Shared s (Some (InRead i k [ERead a] (c a))) ps1) l2 y)).
Proof.
  intros L TK TC s ps i j k m args last k' HQ HP N Ei Ej.
  assert (EC : exists c, ac_read L TC s = Read c).
  { destruct s as [[ky pb lf rn wn sn] tk m4 q]. cbn [ac_readq ac_enc ec_pushback] in HQ, HP. subst q pb. eexists. reflexivity. }
  destruct EC as (c & EC). exists c. cbv zeta. split; [|split].
  - rewrite <- EC. apply (sss_step L TK TC _ None _ []  _ (ss_read L TK TC s ps i k Ei)). constructor.
  - eexists. eapply (sss_step L TK TC _ (Some _)); [apply ss_no_write; [exact Ej|cbn; congruence]|constructor].
  - intros log y H. remember (Shared s (Some (InRead i k [] (Read c))) ps) as x eqn:Ex. cbn [sh_run].
    assert (ER : sh_run x = Some (InRead i k [] (Read c))) by (rewrite Ex; reflexivity). rewrite ER. clear Ei Ej ER.
    revert ps Ex. induction H as [x|x o y l z HS H IH]; intros ps ->.
    + exists [], []. split; [reflexivity|]. split; [intros ? []|]. left. auto.
    + pose proof HS as HS'. apply waiting_step in HS'. destruct HS' as [(a & EY & ->)|(ps' & j' & call & -> & -> & Nj)].
      * exists [], l. split; [reflexivity|]. split; [intros ? []|]. right. exists ps, a. split; [constructor|].
        replace (Shared s (Some (InRead i k [ERead a] (c a))) ps) with y; [exact H|]. inversion HS; subst; cbn [sh_run] in EY; try discriminate. congruence.
      * destruct (IH _ eq_refl) as (l1 & l2 & -> & HR & HD). exists ((j', false, call) :: l1), l2. split; [reflexivity|]. split.
        { intros c0 [<-|I]; [reflexivity|auto]. }
        destruct HD as [HD|(ps1 & a & H1 & H2)]; [left; exact HD|]. right. exists ps1, a. split; [|exact H2].
        exact (sss_step L TK TC _ (Some _) _ _ _ HS H1).
Qed.
Print Assumptions C128_duplex_refuted.

(** *** C129: [write_sync] of one [SocketChannel] *)

(** Two threads write one message each.  There is an execution in which both calls return and the
    reader gets, first, a message that nobody wrote. *)
Theorem C129_interleaved_refuted : forall b r m2, Props_Channel.fits (b :: r) -> Props_Channel.fits m2 ->
  length (b :: r) <> length m2 -> b <> byte_of (Z.of_nat (length m2)) ->
  exists w, keeping wstep (fun _ => True) (winit [[(b :: r, [])]; [(m2, [])]]) w /\ w_threads w = [(None, []); (None, [])] /\
    forall s rest, reliable s -> sk_in s = w_sent w ++ rest -> exists s' x, read_sync s = Some (s', Ok x) /\ x <> b :: r /\ x <> m2.
Proof.
  intros b r m2 F1 F2 NL NB. set (m1 := b :: r) in *.
  assert (P1 : pack_frames [m1] = Ok (u32le (Z.of_nat (length m1)) ++ m1)).
  { rewrite pack_frames_ok by (constructor; [exact F1|constructor]). unfold frames, frame. cbn [map concat]. rewrite app_nil_r. reflexivity. }
  assert (P2 : pack_frames [m2] = Ok (u32le (Z.of_nat (length m2)) ++ m2)).
  { rewrite pack_frames_ok by (constructor; [exact F2|constructor]). unfold frames, frame. cbn [map concat]. rewrite app_nil_r. reflexivity. }
  set (w := Wire (u32le (Z.of_nat (length m1)) ++ (u32le (Z.of_nat (length m2)) ++ m2) ++ m1) [(None, []); (None, [])] [(0%nat, (m1, [])); (1%nat, (m2, []))]).
  exists w. split; [|split; [reflexivity|]].
  - unfold winit. cbn [map].
    eapply kp_step; [exact I|eapply (ws_begin _ _ _ 0); [reflexivity|exact P1]|]. cbn [set_at firstn skipn app].
    eapply kp_step; [exact I|eapply (ws_send _ _ _ 0 (u32le (Z.of_nat (length m1))) m1); [reflexivity|discriminate]|]. cbn [set_at firstn skipn].
    eapply kp_step; [exact I|eapply (ws_begin _ _ _ 1); [reflexivity|exact P2]|].
    eapply kp_step; [exact I|eapply (ws_send _ _ _ 1 (u32le (Z.of_nat (length m2)) ++ m2) []); [cbn; rewrite app_nil_r; reflexivity|discriminate]|].
    eapply kp_step; [exact I|eapply (ws_end _ _ _ 1); reflexivity|].
    eapply kp_step; [exact I|eapply (ws_send _ _ _ 0 m1 []); [cbn; rewrite app_nil_r; reflexivity|discriminate]|].
    eapply kp_step; [exact I|eapply (ws_end _ _ _ 0); reflexivity|].
    match goal with |- keeping _ _ ?x _ => replace x with w; [constructor; exact I|] end.
    unfold w. f_equal.
  - intros s rest HR HI. unfold w in HI. cbn [w_sent] in HI.
    set (tl := (u32le (Z.of_nat (length m2)) ++ m2) ++ m1) in *.
    assert (LT : (length m1 <= length tl)%nat) by (unfold tl; rewrite app_length; lia).
    assert (LX : length (firstn (length m1) tl) = length m1) by (rewrite firstn_length; lia).
    destruct (read_sync_frame (firstn (length m1) tl) (skipn (length m1) tl ++ rest) s) as (s' & E & _).
    + unfold small, zlen. rewrite LX. exact F1.
    + exact HR.
    + rewrite HI. unfold frame. rewrite LX. rewrite <- !app_assoc. f_equal. rewrite (app_assoc (firstn _ _)), firstn_skipn. reflexivity.
    + exists s', (firstn (length m1) tl). split; [exact E|]. split; [|intro Q; apply NL; rewrite <- Q, LX; reflexivity].
      intro Q. apply (f_equal (hd x00)) in Q. unfold tl, m1, u32le in Q. cbn in Q. congruence.
Qed.
Print Assumptions C129_interleaved_refuted.

(** With a lock around the calls every schedule is right: once no call is in progress, each thread
    has made its calls in order (those with a message too long raised), and the reader gets all
    messages of all calls, those of a call together, in the order of the calls. *)
Theorem C129_locked_partial : forall css w, keeping wstep (fun w => alone sending (w_threads w)) (winit css) w ->
  (forall x, In x (w_threads w) -> sending x = false) ->
  (forall i cs, nth_error css i = Some cs -> exists cs', nth_error (w_threads w) i = Some (None, cs') /\
     filter sendable cs = of_thread i (w_log w) ++ filter sendable cs') /\
  (forall i c, In (i, c) (w_log w) -> (i < length css)%nat) /\
  forall s rest, reliable s -> sk_in s = w_sent w ++ rest ->
    exists s', read_sync_n (length (messages (map snd (w_log w)))) s = Some (s', messages (map snd (w_log w)), None) /\ sk_in s' = rest.
Proof.
  intros css w H HN.
  assert (HI : winv css w) by (eapply (keeping_inv _ wstep _ (winv css)); [|exact H|apply winv_init]; intros; eapply winv_step; eassumption).
  destruct HI as (H1 & H2 & H3 & _ & H4). split; [|split].
  - intros i cs E. destruct (H3 i cs E) as (o & cs' & Eo & HF). exists cs'. split; [|exact HF]. specialize (HN _ (nth_error_In _ _ Eo)). destruct o; [discriminate|exact Eo].
  - exact H4.
  - intros s rest HR HS. rewrite pending_none, app_nil_r in H1 by (intros j y E; apply HN; eapply nth_error_In; exact E).
    apply C16_intact; [|exact HR|rewrite <- H1; exact HS]. unfold messages. clear -H2. induction H2 as [|[i [m args]] l E H IH]; cbn [map concat]; [constructor|].
    apply Forall_app. split; [|exact IH]. cbn [snd] in *. apply sendable_iff in E. exact E.
Qed.
Print Assumptions C129_locked_partial.

(** *** C130: [write] of one [EncryptedChannelV2] *)

(** Two threads write one message each: both can be encrypted under the same nonce. *)
Theorem C130_threads_refuted : forall L s m1 l1 c1 m2 l2 c2, let n := nonce24 (ec_write_nonce s) (ec_session_nonce s) in
  0 <= ec_write_nonce s < 2 ^ 64 -> l_afternm L m1 n (ec_key s) = Ok c1 -> l_afternm L m2 n (ec_key s) = Ok c2 ->
  exists x, keeping (nstep L) (fun _ => True) (ninit s [[(m1, [], l1)]; [(m2, [], l2)]]) x /\
    n_threads x = [(NOut, []); (NOut, [])] /\ n_sent x = [Enc_wire l1 c1; Enc_wire l2 c2].
Proof.
  intros L s m1 l1 c1 m2 l2 c2 n HW E1 E2.
  assert (A1 : ec_encrypt L s m1 = Ok c1) by (unfold ec_encrypt; rewrite nonce_bytes_ok by exact HW; exact E1).
  assert (A2 : ec_encrypt L s m2 = Ok c2) by (unfold ec_encrypt; rewrite nonce_bytes_ok by exact HW; exact E2).
  eexists. split; [|split].
  - unfold ninit. cbn [map].
    eapply kp_step; [exact I|eapply (ns_begin _ _ _ _ 0); reflexivity|].
    eapply kp_step; [exact I|eapply (ns_begin _ _ _ _ 1); reflexivity|].
    eapply kp_step; [exact I|eapply (ns_encrypt _ _ _ _ 0); [reflexivity|exact A1]|].
    eapply kp_step; [exact I|eapply (ns_encrypt _ _ _ _ 1); [reflexivity|exact A2]|].
    eapply kp_step; [exact I|eapply (ns_load _ _ _ _ 0); reflexivity|].
    eapply kp_step; [exact I|eapply (ns_store _ _ _ _ 0); reflexivity|].
    eapply kp_step; [exact I|eapply (ns_load _ _ _ _ 1); reflexivity|].
    eapply kp_step; [exact I|eapply (ns_store _ _ _ _ 1); reflexivity|].
    eapply kp_step; [exact I|eapply (ns_send _ _ _ _ 0); reflexivity|].
    eapply kp_step; [exact I|eapply (ns_send _ _ _ _ 1); reflexivity|].
    constructor. exact I.
  - reflexivity.
  - cbn [n_sent app is_empty]. rewrite !andb_true_r, !ec_wrap_enc. reflexivity.
Qed.
Print Assumptions C130_threads_refuted.

(** With cryptography that does what it should, an eavesdropper then has the exclusive or of the
    two messages. *)
Theorem C130_pad_refuted : forall b s m1 l1 m2 l2, 0 <= ec_write_nonce s < 2 ^ 64 ->
  exists x f1 f2, keeping (nstep (a_lib (std_backends b))) (fun _ => True) (ninit s [[(m1, [], l1)]; [(m2, [], l2)]]) x /\
    n_threads x = [(NOut, []); (NOut, [])] /\ n_sent x = [f1; f2] /\ xor_bytes (skipn 18 f1) (skipn 18 f2) = xor_bytes m1 m2.
Proof.
  intros b s m1 l1 m2 l2 HW.
  destruct (C130_threads_refuted (a_lib (std_backends b)) s m1 l1 _ m2 l2 _ HW (proj1 (std_box_call b m1 _ _)) (proj1 (std_box_call b m2 _ _))) as (x & H1 & H2 & H3).
  exists x. eexists. eexists. split; [exact H1|]. split; [exact H2|]. split; [exact H3|].
  unfold Enc_wire. cbn [app skipn]. apply two_boxes.
Qed.
Print Assumptions C130_pad_refuted.

(** It can be any number of nonces: a thread that is held up between reading the counter and
    storing it sets it back behind all that was written meanwhile.  Here thread 0 writes [a :: al],
    while thread 1 is held up writing [m], and afterwards [b :: bl]: its frames use the nonces from
    [w] on, and again from [w + 2] on. *)
Theorem C130_set_back_refuted : forall L s a al la m lm b bl lb, let w := ec_write_nonce s in
  (forall x n, exists c, l_afternm L x n (ec_key s) = Ok c) -> 0 <= w -> w + 2 * Z.of_nat (length al + length bl) + 4 <= 2 ^ 64 ->
  exists x fa fm fb, keeping (nstep L) (fun _ => True) (ninit s [[(a, al, la); (b, bl, lb)]; [(m, [], lm)]]) x /\
    n_threads x = [(NOut, []); (NOut, [])] /\ n_sent x = fa ++ [fm] ++ fb /\
    sealed_all L (ec_key s) (ec_session_nonce s) w (mark la (a :: al)) fa /\
    sealed L (ec_key s) (ec_session_nonce s) w (m, lm) fm /\
    sealed_all L (ec_key s) (ec_session_nonce s) (w + 2) (mark lb (b :: bl)) fb.
Proof.
  intros L s a al la m lm b bl lb w HL HW HB.
  destruct (wrap_all_total L la (a :: al) s HL HW) as (sa & fa & EA); [cbn [length]; fold w; lia|].
  destruct (wrap_all_ok _ _ _ _ _ _ EA) as (SA & QA). fold w in SA, QA.
  set (sb := ec_set_write (w + 2) sa).
  destruct (HL m (nonce24 w (ec_session_nonce s))) as (c & EC).
  assert (A1 : ec_encrypt L s m = Ok c) by (unfold ec_encrypt; rewrite nonce_bytes_ok by (fold w; lia); exact EC).
  destruct (wrap_all_total L lb (b :: bl) sb) as (s' & fb & EB).
  { intros y n. unfold sb. rewrite QA. apply HL. }
  { unfold sb. cbn [ec_set_write ec_write_nonce]. lia. }
  { unfold sb. cbn [ec_set_write ec_write_nonce length]. lia. }
  destruct (wrap_all_ok _ _ _ _ _ _ EB) as (SB & _).
  exists (Nonces s' ([] ++ fa ++ [ec_wrap c lm] ++ fb) [(NOut, []); (NOut, [])]), fa, (ec_wrap c lm), fb. split; [|split; [reflexivity|split; [reflexivity|split; [exact SA|split]]]].
  - unfold ninit. cbn [map].
    eapply kp_step; [exact I|eapply (ns_begin _ _ _ _ 1); reflexivity|].
    eapply kp_step; [exact I|eapply (ns_encrypt _ _ _ _ 1); [reflexivity|exact A1]|].
    eapply kp_step; [exact I|eapply (ns_load _ _ _ _ 1); reflexivity|].
    eapply kp_step; [exact I|eapply (ns_begin _ _ _ _ 0); reflexivity|].
    eapply keeping_trans; [eapply (runs_alone L la _ 0); [reflexivity|exact EA]|].
    eapply kp_step; [exact I|eapply (ns_store _ _ _ _ 1); reflexivity|]. fold w. fold sb.
    eapply kp_step; [exact I|eapply (ns_send _ _ _ _ 1); reflexivity|].
    eapply kp_step; [exact I|eapply (ns_begin _ _ _ _ 0); reflexivity|].
    eapply keeping_trans; [eapply (runs_alone L lb _ 0); [reflexivity|exact EB]|].
    cbn [is_empty]. rewrite andb_true_r. cbn [app]. rewrite <- app_assoc. cbn [app]. constructor. exact I.
  - split; [fold w; lia|]. exists c. split; [exact EC|apply ec_wrap_enc].
  - unfold sb in SB. rewrite QA in SB. exact SB.
Qed.
Print Assumptions C130_set_back_refuted.

(** With a lock around the calls no two frames share a nonce, whatever the schedule; and when no
    call is in progress the frames are those of the calls made, one call after the other ([xs] are
    their messages), each thread's in its order. *)
Theorem C130_locked_partial : forall L key r sn s0 css x,
  ec_init key r sn = Ok s0 -> keeping (nstep L) (fun x => alone writing (n_threads x)) (ninit s0 css) x ->
  exists log ns, let xs := sent_msgs (map snd log) in
    length ns = length (n_sent x) /\ length xs = length (n_sent x) /\ NoDup (map (fun n => nonce24 n sn) ns) /\
    (forall n, In n ns -> 0 < n < 2 ^ 64 /\ n mod 2 = first_counter r mod 2) /\
    (forall i n m last f, nth_error ns i = Some n -> nth_error xs i = Some (m, last) -> nth_error (n_sent x) i = Some f ->
       exists c, l_afternm L m (nonce24 n sn) key = Ok c /\ f = Enc_wire last c) /\
    ((forall y, In y (n_threads x) -> writing y = false) ->
       forall i cs, nth_error css i = Some cs -> exists cs', nth_error (n_threads x) i = Some (NOut, cs') /\ cs = flat_map written (of_thread i log) ++ cs').
Proof.
  intros L key r sn s0 css x HI H.
  assert (HV : ninv L s0 css x) by (eapply (keeping_inv _ (nstep L) _ (ninv L s0 css)); [|exact H|apply ninv_init]; intros; eapply ninv_step; eassumption).
  destruct HV as (log & s1 & HH & HF & HC). rewrite <- HF. exists log.
  destruct (C22_nonces_unique _ _ _ _ _ _ _ HI HH) as (ns & H1 & H2 & H3 & H4 & H5). exists ns. cbv zeta.
  split; [exact H1|]. split; [exact H2|]. split; [exact H3|]. split; [exact H4|]. split; [exact H5|].
  intros HN i cs E. destruct HC as [(_ & _ & HT)|(j & ph & cs' & m & args & last & Ej & HP & _)].
  - destruct (HT i cs E) as (ph & cs' & Ep & Ec). exists cs'. split; [|exact Ec]. specialize (HN _ (nth_error_In _ _ Ep)). destruct ph; [exact Ep|discriminate..].
  - specialize (HN _ (nth_error_In _ _ Ej)). rewrite (phase_busy _ _ _ _ _ _ _ _ cs' HP) in HN. discriminate.
Qed.
Print Assumptions C130_locked_partial.

(** ** Examples *)

(** A channel that holds two received messages: two threads each get one of them.  With nothing
    received the second thread's write is refused while the first one waits. *)
Example C128_example : forall L TK TC e tk,
  let ps := [PRead (fun _ => PDone); PRead (fun _ => PDone)] in
  ssteps L TK TC (Shared (AC e tk None [[x01]; [x02]]) None ps)
    [(1%nat, true, EcRead [] (Ok [x01]) (ec_last_flag e)); (0%nat, true, EcRead [] (Ok [x02]) (ec_last_flag e))]
    (Shared (AC e tk None []) None [PDone; PDone]).
Proof.
  intros L TK TC e tk. cbv zeta.
  eapply (sss_step L TK TC _ None); [apply (ss_read L TK TC _ _ 1 (fun _ => PDone)); reflexivity|].
  eapply (sss_step L TK TC _ (Some _)); [apply (ss_end_read L TK TC _ _ 1 (fun _ => PDone) [] (AC e tk None [[x02]]) (Ok [x01]))|].
  eapply (sss_step L TK TC _ None); [apply (ss_read L TK TC _ _ 0 (fun _ => PDone)); reflexivity|].
  eapply (sss_step L TK TC _ (Some _)); [apply (ss_end_read L TK TC _ _ 0 (fun _ => PDone) [] (AC e tk None []) (Ok [x02]))|].
  constructor.
Qed.

(** Threads that write "ab" and "x" on one socket: the reader can get two bytes that are neither.
    With a lock it cannot. *)
Example C129_example :
  (exists w, keeping wstep (fun _ => True) (winit [[([x61; x62], [])]; [([x78], [])]]) w /\ w_threads w = [(None, []); (None, [])] /\
     forall s rest, reliable s -> sk_in s = w_sent w ++ rest -> exists s' x, read_sync s = Some (s', Ok x) /\ x <> [x61; x62] /\ x <> [x78]) /\
  (forall w s rest, keeping wstep (fun w => alone sending (w_threads w)) (winit [[([x61; x62], [])]; [([x78], [])]]) w ->
     w_threads w = [(None, []); (None, [])] -> reliable s -> sk_in s = w_sent w ++ rest ->
     exists s', read_sync_n 2 s = Some (s', [[x61; x62]; [x78]], None) \/ read_sync_n 2 s = Some (s', [[x78]; [x61; x62]], None)).
Proof.
  split.
  - apply C129_interleaved_refuted; [reflexivity|reflexivity|discriminate|discriminate].
  - intros w s rest H ET HR HS. destruct (C129_locked_partial _ _ H) as (H1 & H2 & H3).
    { rewrite ET. intros x [<-|[<-|[]]]; reflexivity. }
    destruct (H1 0%nat _ eq_refl) as (cs0 & E0 & F0). destruct (H1 1%nat _ eq_refl) as (cs1 & E1 & F1). rewrite ET in E0, E1. cbn in E0, E1.
    injection E0 as <-. injection E1 as <-. rewrite app_nil_r in F0, F1. specialize (H3 s rest HR HS). destruct H3 as (s' & H3 & _). exists s'.
    remember (w_log w) as l eqn:El. clear -F0 F1 H2 H3. cbn in H2.
    assert (Q : map snd l = [([x61; x62], []); ([x78], [])] \/ map snd l = [([x78], []); ([x61; x62], [])]).
    { assert (HB : forall i c, In (i, c) l -> i = 0%nat \/ i = 1%nat) by (intros i c I; specialize (H2 i c I); lia). clear H2 H3.
      destruct l as [|[i1 c1] [|[i2 c2] [|[i3 c3] l]]]; [discriminate| | |].
      - destruct (HB i1 c1 ltac:(cbn; tauto)) as [->| ->]; discriminate.
      - destruct (HB i1 c1 ltac:(cbn; tauto)) as [->| ->], (HB i2 c2 ltac:(cbn; tauto)) as [->| ->]; cbn in F0, F1; try discriminate; injection F0 as <-; injection F1 as <-; [left|right]; reflexivity.
      - exfalso. destruct (HB i1 c1 ltac:(cbn; tauto)) as [->| ->], (HB i2 c2 ltac:(cbn; tauto)) as [->| ->], (HB i3 c3 ltac:(cbn; tauto)) as [->| ->]; cbn in F0, F1; discriminate. }
    destruct Q as [Q|Q]; rewrite Q in H3; [left|right]; exact H3.
Qed.

(** Threads that write "ab" and "xy" through one encrypted channel, as its first calls: the two
    frames can give away the exclusive or of the messages. *)
Example C130_example : forall b key sn s, ec_init key CLIENT sn = Ok s ->
  exists x f1 f2, keeping (nstep (a_lib (std_backends b))) (fun _ => True) (ninit s [[([x61; x62], [], false)]; [([x78; x79], [], false)]]) x /\
    n_sent x = [f1; f2] /\ xor_bytes (skipn 18 f1) (skipn 18 f2) = [x19; x1b].
Proof.
  intros b key sn s H. apply ec_init_inv in H. destruct H as (_ & _ & _ & _ & HW & _).
  destruct (C130_pad_refuted b s [x61; x62] false [x78; x79] false) as (x & f1 & f2 & H1 & _ & H3 & H4); [rewrite HW; cbn; lia|]. exists x, f1, f2. auto.
Qed.
