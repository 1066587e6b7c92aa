(** Properties of whole protocol stacks: sessions and application channels over byte
    streams (C62-C64). *)
From Coq Require Import List ZArith Bool Strings.Byte Lia ZifyBool ZifyNat ZifyN Relations.
From Verif Require Import PyBase PyBase_proofs IO IO_proofs Packets Packets_proofs Crypto Crypto_proofs Time EncChannel EncUse
  AppChannel AppUse AppChannel_proofs Session SessUse Session_steps Sched_proofs Session_fwd Channel Channel_proofs Stack Spec StackUse
  Stack_proofs Stack_fit Props_App Props_Session Props_Session2.
Import ListNotations.
Open Scope Z_scope.
Ltac Zify.zify_post_hook ::= Z.div_mod_to_equations.

(** ** C62: over a SocketChannel.  Whatever bytes arrive, however [recv] cuts them up and
    whatever fails, every program (a handshake, a session, a conversation) finishes, and
    it has behaved as in some execution [t] of its own, whose reads returned exactly the
    frames at the head of the incoming stream, in order, until the first failed read, and
    whose writes are exactly the bytes put on the socket; the channel's only exception is
    ComException.  Without network errors a read fails only if no complete frame is left.
    So what C33-C36 and C38-C43 say of all executions holds of all runs over TCP. *)
Theorem C62_over_socket : forall A (p : io A) s sends,
  exists out s' a t, over_socket p s sends = Some (out, s', a) /\ exec p t (Some a) /\
    concat out = sock_bytes t /\ Forall sock_answer t /\
    (exists rest, sk_in s = frames (received t) ++ rest /\ (reads_ok t = true -> rest = sk_in s')) /\
    ((forall e, ~ In (RFail e) (sk_sched s)) -> Forall (fun x => x = Ok tt) sends ->
       (forall ms l r, In (EWrite ms l r) t -> forallb small_b ms = true -> r = Ok tt) /\
       (reads_ok t = false -> forall m rest, small m -> sk_in s <> frames (received t) ++ frame m ++ rest)).
Proof.
  intros A p s sends. destruct (over_socket_spec A p s sends) as (out & s' & a & t & H1 & H2 & H3 & H4 & _ & H5 & H6 & H7).
  exists out, s', a, t. split; [exact H1|]. split; [exact H2|]. split; [exact H3|]. split; [exact H4|]. split; [exact H5|].
  intros HN HS. split; [apply H6; assumption|]. intros HR m rest Hm. destruct (H7 HN HR m rest) as [H|H]; [exact H|].
  unfold small in Hm. lia.
Qed.
Print Assumptions C62_over_socket.

(** The same over an AsyncioChannel: a read fails with IncompleteReadError, or with
    ValueError for a negative length; of an oversized batch the messages before the
    oversized one are sent. *)
Theorem C62_over_asyncio : forall A (p : io A) s drains out s' a, over_asyncio p s drains = (out, s', a) ->
  exists t, exec p t (Some a) /\ out = async_bytes t /\ Forall (async_answer drains) t /\
    (exists rest, ar_buf s ++ concat (ar_chunks s) = frames (received t) ++ rest /\
       (reads_ok t = true -> rest = ar_buf s' ++ concat (ar_chunks s'))) /\
    (reads_ok t = false -> forall m rest, small m ->
       ar_buf s ++ concat (ar_chunks s) <> frames (received t) ++ frame m ++ rest).
Proof.
  intros A p s drains out s' a H. destruct (over_asyncio_spec A p s drains out s' a H) as (t & H1 & H2 & H3 & H4 & H5).
  exists t. split; [exact H1|]. split; [exact H2|]. split; [exact H3|]. split; [exact H4|].
  intros HR m rest Hm. destruct (H5 HR m rest) as [Q|Q]; [exact Q|]. unfold small in Hm. lia.
Qed.
Print Assumptions C62_over_asyncio.

(** A server handshake over a socket, fed with the frames of a real client one, two or
    seven bytes at a time. *)
Definition ex_client_frames : bytes :=
  match fst (run2 40 (client_handshake toy_lib one_two_three null_checker (cs_init ex_csig (Some ex_cenc) false [] 0))
                     (server_handshake toy_lib null_keeper null_checker (ss_init ex_ssig (Some ex_senc) true None 0)) [] []) with
  | (t, _) => sock_bytes t
  end.
Example C62_example :
  match over_socket (server_handshake toy_lib null_keeper null_checker (ss_init ex_ssig (Some ex_senc) true None 0))
          (Sock (ex_client_frames ++ [x07]) (repeat (RChunk 1) 9 ++ [RChunk 2; RChunk 7])) [] with
  | Some (out, s', (s, r)) => r = Ok tt /\ sk_in s' = [x07] /\ length out = 1%nat /\ ss_client_sig_key s = Some (kp_pub ex_csig)
  | None => False
  end /\
  match over_socket (server_handshake toy_lib null_keeper null_checker (ss_init ex_ssig (Some ex_senc) true None 0))
          (Sock (firstn 60 ex_client_frames) []) [] with
  | Some (out, s', (s, r)) => r = Err ComException
  | None => False
  end.
Proof. vm_compute. auto. Qed.

(** ** C63: two peers joined by byte streams.  If all schedules of two programs exchanging
    whole frames end in [F], then all their runs over sockets or asyncio streams, with any
    cutting of the streams into chunks, any interleaving and any pausing of the readers,
    are finite and end with the same two outcomes, the undelivered bytes being exactly the
    frames left over in [F]. *)
Definition byte_channel (T : transport) : Prop := T = socket_transport \/ exists paused, T = asyncio_transport paused.

Lemma byte_channel_ok : forall T, byte_channel T -> transport_ok T.
Proof. intros T [->|(p & ->)]; [apply socket_transport_ok|apply asyncio_transport_ok]. Qed.

Theorem C63_streams_follow_frames : forall A B TL TR (p : io A) (q : io B) F,
  byte_channel TL -> byte_channel TR -> writes_fit p -> writes_fit q ->
  always_ends (Sys p q [] []) F ->
  inevitable (cstep TL TR)
    (fun c => c_left c = s_left F /\ c_right c = s_right F /\
              c_rbuf c ++ c_lr c = frames (s_lr F) /\ c_lbuf c ++ c_rl c = frames (s_rl F))
    (Conn p [] q [] [] []).
Proof.
  intros A B TL TR p q F HL HR HP HQ [n HE]. destruct (HE 0%nat _ (steps_O _)) as [_ HS]. rewrite Nat.sub_0_r in HS.
  assert (HF : stuck F).
  { intros t Ht. pose proof (steps_app _ _ _ _ _ HS 1 t) as X. specialize (X ltac:(econstructor; [exact Ht|constructor])).
    destruct (HE _ _ X) as [X1 _]. lia. }
  eapply inevitable_weaken; [|eapply carries_inevitable; eauto using byte_channel_ok].
  - intros c [H1 H2 H3 H4 _ _ _ _]. auto.
  - constructor; cbn; auto.
Qed.
Print Assumptions C63_streams_follow_frames.

Lemma bulk_count : forall msgs, bulk msgs -> Z.of_nat (length msgs) < 2 ^ 62.
Proof. intros [|m0 [|m1 msgs]] H; [cbn; lia|cbn; lia|]. unfold bulk in H. unfold bytes in *. lia. Qed.

(** Whole conversations, byte by byte: the client connects, writes a batch and reads the
    answer, the server accepts, reads and answers.  Over every pair of byte channels, for
    every segmentation and schedule, both finish with the other's batch and no byte is
    left anywhere. *)
Theorem C63_conversation : forall TL TR L sp ep TKc TKs TCc TCs csig ssig ce se cbuf sbuf w a2 tkc tks cm cargs clast sm sargs slast,
  byte_channel TL -> byte_channel TR ->
  peers_ok L sp ep TKc TKs TCc TCs csig ssig ce se sbuf tkc tks -> a2_fits a2 ->
  fits (cm :: cargs) -> fits (sm :: sargs) -> bulk (cm :: cargs) -> bulk (sm :: sargs) ->
  exists sC sS aC aS,
    inevitable (cstep TL TR)
      (fun c => c = Conn (Ret (sC, Some aC, Ok (sm :: sargs))) [] (Ret (sS, Some aS, Ok (cm :: cargs))) [] [] [])
      (Conn (client_asks L TKc TCc (cs_init csig (Some ce) cbuf w tkc) cm cargs clast (length (sm :: sargs))) []
            (server_answers L TKs TCs (ss_init ssig (Some se) sbuf a2 tks) (length (cm :: cargs)) sm sargs slast) [] [] []) /\
    cs_session_key sC = ss_session_key sS /\
    option_map m34_sig_key (cs_m3 sC) = Some (kp_pub ssig) /\
    ss_client_sig_key sS = Some (kp_pub csig) /\
    linked (ac_enc aC) (ac_enc aS) /\ linked (ac_enc aS) (ac_enc aC).
Proof.
  intros TL TR L sp ep TKc TKs TCc TCs csig ssig ce se cbuf sbuf w a2 tkc tks cm cargs clast sm sargs slast HL HR HP HA F1 F2 B1 B2.
  pose proof (po_laws _ _ _ _ _ _ _ _ _ _ _ _ _ _ HP) as LAWS.
  destruct (C32_conversation L sp ep TKc TKs TCc TCs csig ssig ce se cbuf sbuf w a2 tkc tks cm cargs clast sm sargs slast HP F1 F2)
    as (sC & sS & aC & aS & H1 & H2 & H3 & H4 & H5 & _ & _ & _ & _ & _ & H6 & H7).
  { apply bulk_count. exact B1. } { apply bulk_count. exact B2. }
  exists sC, sS, aC, aS. split; [|auto].
  eapply inevitable_weaken; [|eapply C63_streams_follow_frames; [exact HL|exact HR| | |exact H1]].
  - intros [p lb q rb lr rl]. cbn [s_left s_right s_lr s_rl c_left c_right c_lbuf c_rbuf c_lr c_rl frames map concat].
    intros (-> & -> & Q1 & Q2). apply app_eq_nil in Q1, Q2. destruct Q1 as [-> ->], Q2 as [-> ->]. reflexivity.
  - eapply client_asks_fit; [exact LAWS|exact B1].
  - eapply server_answers_fit; [exact LAWS|exact HA|exact B2].
Qed.
Print Assumptions C63_conversation.

Example C63_example : forall (cb sb : bool) paused, exists sC sS aC aS,
  inevitable (cstep socket_transport (asyncio_transport paused))
    (fun c => c = Conn (Ret (sC, Some aC, Ok [[x09]; [x01; x02]])) [] (Ret (sS, Some aS, Ok [[x61]; []; [x62]])) [] [] [])
    (Conn (client_asks toy_lib one_two_three null_checker (cs_init ex_csig (Some ex_cenc) cb [] 0) [x61] [[]; [x62]] false 2) []
          (server_answers toy_lib null_keeper null_checker (ss_init ex_ssig (Some ex_senc) sb None 0) 3 [x09] [[x01; x02]] true) [] [] []).
Proof.
  intros cb sb paused.
  destruct (C63_conversation socket_transport (asyncio_transport paused) toy_lib toy_pair toy_pair one_two_three null_keeper
    null_checker null_checker ex_csig ex_ssig ex_cenc ex_senc cb sb [] None 0 0 [x61] [[]; [x62]] false [x09] [[x01; x02]] true)
    as (sC & sS & aC & aS & H & _).
  - left; reflexivity.
  - right; eexists; reflexivity.
  - exact (proj1 (C32_example cb sb)).
  - exact I.
  - unfold fits. cbn. lia.
  - unfold fits. cbn. lia.
  - unfold bulk. cbn. lia.
  - unfold bulk. cbn. lia.
  - exists sC, sS, aC, aS. exact H.
Qed.

(** The steps of [socket_transport] are those of [read_sync]: every successful
    [read_sync], whatever the sizes of the chunks, is a run of the connection. *)
Definition csteps {A B} TL TR := clos_refl_trans (conn A B) (cstep TL TR).

Lemma recvall_takes : forall A B TR k (q : io B) rb lr pre total, 
  (forall x, zlen x < total -> recv_limit (pre ++ x) = total - zlen x) ->
  forall fuel count buf s s' b, recvall_loop fuel count buf s = Some (s', Ok (b, true)) -> count = total - zlen buf -> 0 <= count ->
  csteps (A := A) socket_transport TR (Conn (Read k) (pre ++ buf) q rb lr (sk_in s)) (Conn (Read k) (pre ++ b) q rb lr (sk_in s')).
Proof.
  intros A B TR k q rb lr pre total HT. induction fuel as [|f IH]; intros count buf s s' b H HC H0; [discriminate|].
  cbn [recvall_loop] in H. destruct (Z.eqb_spec count 0) as [E|E]; [injection H as <- <-; apply rt_refl|].
  destruct (recv count s) as [s1 [c|e]] eqn:ER; [|discriminate].
  pose proof (recv_spec count s s1 (Ok c) ltac:(lia) ER) as Q.
  destruct (is_empty c) eqn:EC; [discriminate|].
  assert (Q' : sk_in s = c ++ sk_in s1 /\ zlen c <= count) by (destruct Q as [_ Q]; intuition).
  destruct Q' as [Q1 Q2]. rewrite Q1. eapply rt_trans; [apply rt_step; apply cs_lt|].
  - intros ->. discriminate.
  - cbn [t_take socket_transport reading]. rewrite HT by lia. rewrite <- HC. cbn. lia.
  - rewrite <- app_assoc. eapply IH; [exact H| |].
    + unfold zlen in *. rewrite app_length. lia.
    + lia.
Qed.

Theorem C63_read_sync_is_a_run : forall A B TR (k : res bytes -> io A) (q : io B) rb lr s s' m,
  read_sync s = Some (s', Ok m) ->
  csteps socket_transport TR (Conn (Read k) [] q rb lr (sk_in s)) (Conn (k (Ok m)) [] q rb lr (sk_in s')).
Proof.
  intros A B TR k q rb lr s s' m H. pose proof H as HS. unfold read_sync in H.
  destruct (recvall 4 s) as [[s1 [[h [|]]|e]]|] eqn:E1; try discriminate.
  destruct (recvall (unpack_i h) s1) as [[s2 [[m' [|]]|e]]|] eqn:E2; try discriminate.
  injection H as -> ->.
  destruct (recvall_spec 4 s) as (x1 & x2 & x3 & X1 & _ & X2 & X3). rewrite E1 in X1. injection X1 as <- <-.
  destruct X3 as [-> X3].
  destruct (recvall_spec (unpack_i x3) s1) as (y1 & y2 & y3 & Y1 & _ & Y2 & Y3). rewrite E2 in Y1. injection Y1 as <- <-.
  destruct Y3 as [-> Y3].
  assert (L4 : length x3 = 4%nat) by (unfold zlen in X3; lia).
  assert (F4 : forall x : bytes, firstn 4 (x3 ++ x) = x3) by (intro x; apply firstn_app_exact; exact L4).
  assert (Z4 : forall x : bytes, zlen (x3 ++ x) = 4 + zlen x) by (intro x; unfold zlen; rewrite app_length; lia).
  unfold recvall in E1, E2.
  eapply rt_trans; [|eapply rt_trans].
  - eapply (recvall_takes A B TR k q rb lr [] 4); [|exact E1|reflexivity|lia].
    intros x Hx. cbn [app]. unfold recv_limit. destruct (Z.ltb_spec (zlen x) 4); lia.
  - cbn [app]. rewrite <- (app_nil_r x3) at 1. eapply (recvall_takes A B TR k q rb lr x3 (unpack_i x3)); [|exact E2| |].
    + intros x Hx. unfold recv_limit. rewrite F4, Z4. destruct (Z.ltb_spec (4 + zlen x) 4) as [Q|Q]; [unfold zlen in Q|]; lia.
    + cbn. lia.
    + unfold zlen in Y3. lia.
  - apply rt_step. apply cs_lr.
    + unfold t_ready. rewrite F4, Z4. unfold zlen in *. lia.
    + destruct (header_frame x3 y3) as [HF HM]; [exact L4|rewrite <- unpack_s32; symmetry; exact Y3|].
      rewrite HF. rewrite <- (app_nil_r (frame y3)). apply (to_read _ socket_transport_ok). exact HM.
Qed.
Print Assumptions C63_read_sync_is_a_run.

Example C63_example_read :
  read_sync (Sock (frame [x61; x62; x63]) [RChunk 3; RChunk 1; RChunk 2]) = Some (Sock [] [], Ok [x61; x62; x63]).
Proof. reflexivity. Qed.

(** ** C64: identity over TCP.  If a server session over a socket on which an attacker may
    put any bytes completes, the bytes it took are exactly two frames, the bytes it sent
    are exactly M2 and M3, and the second frame opens to a signature accepted under the
    reported key on the hashes of the first frame and of M2 (or the peer asked A1). *)
Theorem C64_server_over_socket : forall L TK TC sig enc buf a2 tk s sends out s' S,
  over_socket (server_handshake L TK TC (ss_init sig enc buf a2 tk)) s sends = Some (out, s', (S, Ok tt)) ->
  (ss_is_done S = true /\ ss_app S = None /\ ss_client_sig_key S = None) \/
  exists e m1 m2 f3 f4 c4, enc = Some e /\
    sk_in s = frame m1 ++ frame f4 ++ sk_in s' /\ concat out = frame m2 ++ frame f3 /\
    l_beforenm L (field 10 32 m1) (kp_sec e) = Ok (ss_session_key S) /\
    opens L (ss_session_key S) 1 f4 c4 /\
    accepted L (field 6 32 c4) (field 38 64 c4) (client_text L m1 m2) /\
    ss_client_sig_key S = Some (field 6 32 c4).
Proof.
  intros L TK TC sig enc buf a2 tk s sends out s' S H.
  destruct (C62_over_socket _ (server_handshake L TK TC (ss_init sig enc buf a2 tk)) s sends)
    as (out1 & s1 & a & t & H1 & H2 & H3 & H4 & (rest & H5 & H6) & _).
  rewrite H in H1. injection H1 as <- <- <-.
  destruct (C34_client_verified _ _ _ _ _ _ _ _ _ _ H2) as [Q|(_ & e & m1 & m2 & f3 & f4 & c4 & E1 & E2 & _ & E3 & E4 & E5 & E6)]; [left; exact Q|right].
  exists e, m1, m2, f3, f4, c4. split; [exact E1|]. split; [|split; [|auto]].
  - rewrite H5, H6 by (rewrite E2; destruct buf; reflexivity). rewrite E2. destruct buf; cbn [app received frames map concat];
      rewrite app_nil_r, <- app_assoc; reflexivity.
  - rewrite H3, E2. assert (SA : forall x l r, In (EWrite x l r) t -> r = Ok tt -> forallb small_b x = true).
    { intros x l r HI ->. rewrite Forall_forall in H4. exact (H4 _ HI). }
    rewrite E2 in SA. destruct buf; cbn [app sock_bytes].
    + rewrite (SA [m2; f3] false (Ok tt)) by (cbn; auto). unfold frames. cbn [map concat app]. rewrite !app_nil_r. reflexivity.
    + rewrite (SA [m2] false (Ok tt)) by (cbn; auto). rewrite (SA [f3] false (Ok tt)) by (cbn; auto).
      unfold frames. cbn [map concat app]. rewrite !app_nil_r. reflexivity.
Qed.
Print Assumptions C64_server_over_socket.

Theorem C64_client_over_socket : forall L TK TC sig enc buf wanted tk s sends out s' S,
  over_socket (client_handshake L TK TC (cs_init sig enc buf wanted tk)) s sends = Some (out, s', (S, Ok tt)) ->
  exists e m2 f3 c3 sent, enc = Some e /\
    let m1 := M1_wire (fst (tk_first TK tk)) (kp_pub e) None in
    (exists rest, sk_in s = frame m2 ++ frame f3 ++ rest) /\ concat out = frame m1 ++ sent /\
    l_beforenm L (field 6 32 m2) (kp_sec e) = Ok (cs_session_key S) /\
    opens L (cs_session_key S) 2 f3 c3 /\
    accepted L (field 6 32 c3) (field 38 64 c3) (server_text L m1 m2) /\
    option_map m34_sig_key (cs_m3 S) = Some (field 6 32 c3).
Proof.
  intros L TK TC sig enc buf wanted tk s sends out s' S H.
  destruct (C62_over_socket _ (client_handshake L TK TC (cs_init sig enc buf wanted tk)) s sends)
    as (out1 & s1 & a & t & H1 & H2 & H3 & H4 & (rest & H5 & H6) & _).
  rewrite H in H1. injection H1 as <- <- <-.
  destruct (C33_server_verified _ _ _ _ _ _ _ _ _ _ H2) as (e & m1 & m2 & f3 & r & c3 & E1 & E2 & E3 & E4 & E5 & E6 & E7 & E8).
  exists e, m2, f3, c3, (sock_bytes r). split; [exact E1|]. cbv zeta. rewrite <- E2. split; [|split; [|auto]].
  - exists (frames (received r) ++ rest). rewrite H5, E3. cbn [received]. rewrite !frames_cons, <- !app_assoc. reflexivity.
  - rewrite H3, E3. cbn [sock_bytes]. rewrite E3 in H4. inversion H4 as [|? ? Q _]; subst. cbn [sock_answer] in Q.
    rewrite Q. unfold frames. cbn [map concat]. rewrite app_nil_r. reflexivity.
Qed.
Print Assumptions C64_client_over_socket.

Example C64_example :
  match over_socket (server_handshake toy_lib null_keeper null_checker (ss_init ex_ssig (Some ex_senc) false None 0))
          (Sock ex_client_frames []) [] with
  | Some (out, s', (s, r)) => (r, length (concat out), ss_client_sig_key s) = (Ok tt, 166%nat, Some (kp_pub ex_csig))
  | None => False
  end.
Proof. vm_compute. reflexivity. Qed.
