(** Properties of the example programs in saltchannel/dev (C102, C104). *)
From Coq Require Import List ZArith Bool Strings.Byte Lia ZifyBool ZifyNat ZifyN.
From Verif Require Import PyBase PyBase_proofs IO IO_proofs Packets Crypto Time EncChannel AppChannel AppUse Session SessUse
  Session_proofs Session_steps Sched_proofs Session_fwd Session_sched Channel Channel_proofs Stack Spec StackUse Stack_proofs Stack_fit Pipe Pipe_proofs Flags Flags_proofs
  Props_App Props_Session Props_Session2 Props_Stack Props_Pipe Props_Flags Examples.
Import ListNotations.
Open Scope Z_scope.
Ltac Zify.zify_post_hook ::= Z.div_mod_to_equations.

(** ** C102: the echo programs *)

Definition message (m : bytes) : Prop := small m /\ m <> [].

Lemma is_empty_nil : forall (m : bytes), is_empty m = true -> m = [].
Proof. intros [|]; [reflexivity|discriminate]. Qed.

(** Every execution of the server over channels like SocketChannel. *)
Lemma echo_exec : forall n t r, exec (echo_loop n) t (Some r) -> Forall sock_answer t ->
  exists ms, Forall message ms /\ sock_bytes t = frames ms /\
    ((r = None /\ received t = ms /\ length ms = n) \/
     (r = Some (Ok tt) /\
      (received t = ms ++ [[]] \/ (received t = ms /\ reads_ok t = false) \/
       (received t = ms /\ exists m, small m /\ In (EWrite [m] false (Err ComException)) t)))).
Proof.
  induction n as [|n IH]; intros t r HE HA; cbn [echo_loop] in HE.
  - inversion HE; subst. exists []. repeat split; auto.
  - inversion HE as [| |k x t' o HE' |]; subst. inversion HA as [|? ? A1 A2]; subst. destruct x as [m|e].
    + cbn [sock_answer] in A1. destruct (is_empty m) eqn:EM.
      * apply is_empty_nil in EM. subst m. inversion HE'; subst. exists []. cbn. repeat split; auto.
      * assert (HM : message m) by (split; [exact A1|intros ->; discriminate]).
        inversion HE' as [| | |ms l k w t2 o HE2]; subst. inversion A2 as [|? ? A3 A4]; subst. destruct w as [[]|e].
        -- destruct (IH _ _ HE2 A4) as (ms & H1 & H2 & H3). exists (m :: ms). split; [constructor; assumption|]. split.
           { cbn [sock_bytes sock_answer] in *. rewrite A3, H2. cbn [frames map concat]. rewrite app_nil_r. reflexivity. }
           cbn [received reads_ok length app]. destruct H3 as [(-> & -> & <-)|(-> & H3)]; [left; auto|right]. split; [reflexivity|].
           destruct H3 as [->|[(-> & HR)|(-> & m' & S' & I')]]; [left; reflexivity|right; left; auto|right; right].
           split; [reflexivity|]. exists m'. cbn [In]. auto.
        -- cbn [sock_answer] in A3. subst e. cbn in HE2. inversion HE2; subst. exists [m]. split; [constructor; [assumption|constructor]|].
           split.
           { cbn [sock_bytes forallb]. replace (small_b m) with true by (symmetry; unfold small_b; apply Z.ltb_lt; exact A1).
             cbn [andb frames map concat]. rewrite !app_nil_r. reflexivity. }
           right. split; [reflexivity|]. right. right. split; [reflexivity|]. exists m. cbn [In]. auto.
    + cbn [sock_answer] in A1. subst e. cbn in HE'. inversion HE'; subst. exists []. cbn. repeat split; auto 10.
Qed.

Lemma frames_many : forall ms, (length ms <= length (frames ms))%nat.
Proof.
  induction ms as [|m ms IH]; [auto|]. cbn [frames map concat length]. rewrite app_length, frame_length.
  change (concat (map frame ms)) with (frames ms). lia.
Qed.

Lemma frames_snoc : forall a b, frames (a ++ b) = frames a ++ frames b.
Proof. intros a b. unfold frames. rewrite map_app, concat_app. reflexivity. Qed.

Lemma empty_frame_first : forall m rest rest', small m -> frame [] ++ rest = frame m ++ rest' -> m = [].
Proof.
  intros m rest rest' Q1 E. unfold frame in E. rewrite <- !app_assoc in E. apply app_inj_len in E; [|reflexivity]. destruct E as [E _].
  assert (Q : s32 (u32le (Z.of_nat (@length byte []))) = s32 (u32le (Z.of_nat (length m)))) by (rewrite E; reflexivity).
  rewrite !small_s32 in Q by (try exact Q1; reflexivity). destruct m; [reflexivity|discriminate].
Qed.

(** Whatever bytes a client sends, however they are cut up and whatever fails: the server of
    SimpleEchoSession on a SocketChannel returns without an exception (as soon as the stream
    ends), and it has sent back exactly the non-empty messages at the head of the stream, up
    to the first empty, incomplete or malformed one or the first failure.  ([n] bounds the
    turns of its loop; any number above the number of bytes will do.) *)
Theorem C102_socket_server : forall n s sends, (length (sk_in s) < n)%nat ->
  exists out s' ms rest, over_socket (echo_loop n) s sends = Some (out, s', Some (Ok tt)) /\
    Forall message ms /\ sk_in s = frames ms ++ rest /\ concat out = frames ms /\
    ((forall e, ~ In (RFail e) (sk_sched s)) -> Forall (fun x => x = Ok tt) sends ->
     forall m rest', message m -> rest <> frame m ++ rest').
Proof.
  intros n s sends HL. destruct (C62_over_socket _ (echo_loop n) s sends) as (out & s' & r & t & H1 & H2 & H3 & H4 & (rest & H5 & _) & H6).
  destruct (echo_exec _ _ _ H2 H4) as (ms & M1 & M2 & M3). exists out, s', ms.
  destruct M3 as [(-> & M3 & ML)|(-> & M3)].
  - exfalso. rewrite H5, M3, app_length in HL. pose proof (frames_many ms). unfold bytes in *. lia.
  - destruct M3 as [M3|[(M3 & MR)|(M3 & x & X1 & X2)]].
    + exists (frame [] ++ rest). split; [exact H1|]. split; [exact M1|]. split; [rewrite H5, M3, frames_snoc, <- app_assoc; reflexivity|].
      split; [rewrite H3; exact M2|]. intros _ _ m rest' [Q1 Q2] E. apply Q2.
      exact (empty_frame_first m rest rest' Q1 E).
    + exists rest. split; [exact H1|]. split; [exact M1|]. split; [rewrite H5, M3; reflexivity|]. split; [rewrite H3; exact M2|].
      intros N1 N2 m rest' [Q1 Q2] ->. destruct (H6 N1 N2) as [_ H7]. apply (H7 MR m rest' Q1). rewrite H5. reflexivity.
    + exists rest. split; [exact H1|]. split; [exact M1|]. split; [rewrite H5, M3; reflexivity|]. split; [rewrite H3; exact M2|].
      intros N1 N2 m rest' Q ->. exfalso. destruct (H6 N1 N2) as [H7 _].
      assert (Y : Err ComException = Ok tt); [|discriminate]. apply (H7 _ _ _ X2). cbn. unfold small_b. apply andb_true_iff.
      split; [apply Z.ltb_lt; exact X1|reflexivity].
Qed.
Print Assumptions C102_socket_server.

(** One, three and two bytes at a time; the third message is empty, so the fourth gets no answer. *)
Example C102_socket_example :
  match over_socket (echo_loop 40) (Sock (frames [[x61]; [x62; x63]; []; [x64]]) [RChunk 1; RChunk 3; RChunk 2]) [] with
  | Some (out, s', r) => concat out = frames [[x61]; [x62; x63]] /\ r = Some (Ok tt) /\ sk_in s' = frame [x64]
  | None => False
  end /\
  match over_socket (echo_loop 40) (Sock (frame [x61] ++ [x05; x00; x00; x00; x62]) []) [] with
  | Some (out, s', r) => concat out = frame [x61] /\ r = Some (Ok tt)
  | None => False
  end.
Proof. vm_compute. repeat split. Qed.

Lemma write_small : forall m, small m -> write_msg m = Ok (frame m).
Proof. intros m H. unfold write_msg. unfold small, zlen in H. rewrite pack_i_ok by (unfold zlen; lia). reflexivity. Qed.

Lemma at_eof_pending : forall b s, at_eof b s = true <-> b = true /\ pending s = [].
Proof.
  intros b [buf ch]. unfold at_eof, pending. cbn [ar_buf ar_chunks]. destruct b, buf as [|x buf], (concat ch) as [|y c]; cbn;
  split; try discriminate; auto; intros [H1 H2]; discriminate.
Qed.

(** The asyncio server: for all streams and cuttings it has written exactly the non-empty
    messages at the head of the stream.  It ends normally, and closes the connection, exactly if
    then an empty message follows, or nothing follows and the end of the stream had arrived when
    the loop tested for it; otherwise IncompleteReadError, or ValueError for a negative length,
    escapes and the connection is not closed. *)
Theorem C102_async_server : forall n eofs s, (length (ar_buf s ++ concat (ar_chunks s)) < n)%nat ->
  exists ms rest r closed, echo_loop_a n eofs s = (frames ms, Some r, closed) /\
    Forall message ms /\ ar_buf s ++ concat (ar_chunks s) = frames ms ++ rest /\
    (forall m rest', message m -> rest <> frame m ++ rest') /\
    (closed = true <-> r = Ok tt) /\
    (r = Ok tt <-> (exists rest', rest = frame [] ++ rest') \/ (rest = [] /\ nth (length ms) eofs true = true)) /\
    (forall e, r = Err e -> e = IncompleteReadError \/ (e = ValueError /\ exists h tail, rest = h ++ tail /\ length h = 4%nat /\ s32 h < 0)).
Proof.
  induction n as [|n IH]; intros eofs s HL; [exfalso; lia|]. cbn [echo_loop_a]. fold (pending s) in *.
  destruct (at_eof (hd true eofs) s) eqn:EA.
  - apply at_eof_pending in EA. destruct EA as [EA EP]. exists [], [], (Ok tt), true. split; [reflexivity|]. split; [constructor|].
    split; [exact EP|]. split; [intros m rest' [_ HM] E; destruct (frame m) eqn:EF; [|discriminate]; pose proof (frame_length m) as Q;
      rewrite EF in Q; discriminate|]. split; [tauto|]. split; [|discriminate]. split; [|reflexivity]. intros _. right. split; [reflexivity|].
    destruct eofs; exact EA.
  - pose proof (read_msg_spec s) as Q. destruct (read_msg s) as [s1 [m|e]] eqn:ER.
    + destruct Q as (h & Q1 & Hh & Hs). destruct (header_frame h m Hh Hs) as [HF HM]. rewrite app_assoc, HF in Q1. clear HF.
      destruct (is_empty m) eqn:EM.
      * apply is_empty_nil in EM. subst m. exists [], (frame [] ++ pending s1), (Ok tt), true. split; [reflexivity|]. split; [constructor|].
        split; [exact Q1|]. split; [intros m rest' [M1 M2] E; apply M2; exact (empty_frame_first _ _ _ M1 E)|]. split; [tauto|].
        split; [|discriminate]. split; [eauto|reflexivity].
      * rewrite write_small by exact HM.
        destruct (IH (tl eofs) s1) as (ms & rest & r & closed & E1 & E2 & E3 & E4 & E5 & E6 & E7).
        { fold (pending s1). rewrite Q1, app_length, frame_length in HL. lia. }
        rewrite E1. exists (m :: ms), rest, r, closed. split; [reflexivity|]. split.
        { constructor; [|exact E2]. split; [exact HM|]. intros ->. discriminate. }
        split. { cbn [frames map concat]. change (concat (map frame ms)) with (frames ms). fold (pending s1) in E3. rewrite Q1, E3, app_assoc. reflexivity. }
        split; [exact E4|]. split; [exact E5|]. split; [|exact E7]. rewrite E6. cbn [length].
        replace (nth (S (length ms)) eofs true) with (nth (length ms) (tl eofs) true); [reflexivity|].
        destruct eofs; [destruct (length ms)|]; reflexivity.
    + exists [], (pending s), (Err e), false. split; [reflexivity|]. split; [constructor|]. split; [reflexivity|].
      assert (NF : forall m rest', small m -> pending s <> frame m ++ rest').
      { intros m rest' Hm E. destruct (read_msg_frame m rest' s Hm E) as (s2 & R & _). rewrite ER in R. discriminate. }
      split; [intros m rest' [HM _]; apply NF; exact HM|]. split; [split; discriminate|]. split.
      * split; [discriminate|]. intros [(rest' & E)|[E1 E2]]; exfalso.
        -- apply (NF [] rest'); [reflexivity|exact E].
        -- assert (X : at_eof (hd true eofs) s = true); [|congruence]. apply at_eof_pending. split; [destruct eofs; exact E2|exact E1].
      * intros e' E. injection E as <-. destruct Q as [[-> _]|[-> Q]]; auto.
Qed.
Print Assumptions C102_async_server.

(** "Whenever the client closes the connection, the asyncio server closes its side" is false: if
    the client sends whole messages and closes without the empty message, and the server is
    already waiting for the next message, then IncompleteReadError ends the server and the
    connection is left open: for every list of messages and every cutting. *)
Theorem C102_async_close_refuted : forall ms, Forall message ms ->
  exists eofs, forall n s, ar_buf s ++ concat (ar_chunks s) = frames ms -> (length (frames ms) < n)%nat ->
    echo_loop_a n eofs s = (frames ms, Some (Err IncompleteReadError), false).
Proof.
  intros ms HM. exists (repeat false (S (length ms))). intros n s HP HL.
  destruct (C102_async_server n (repeat false (S (length ms))) s) as (ms' & rest & r & closed & E1 & E2 & E3 & E4 & E5 & E6 & E7).
  { rewrite HP. exact HL. }
  assert (X : ms' = ms /\ rest = []).
  { rewrite HP in E3. clear - HM E2 E3 E4. revert ms' HM E2 E3. induction ms as [|m ms IH]; intros [|m' ms'] HM E2 E3.
    - split; [reflexivity|symmetry; exact E3].
    - exfalso. cbn [frames map concat] in E3. destruct (frame m') eqn:EF; [pose proof (frame_length m') as Q; rewrite EF in Q|]; discriminate.
    - exfalso. inversion HM; subst. apply (E4 m (frames ms)); [assumption|]. symmetry. exact E3.
    - inversion HM as [|? ? [S1 _] HM']; inversion E2 as [|? ? [S2 _] E2']; subst. cbn [frames map concat] in E3.
      change (concat (map frame ms)) with (frames ms) in E3. change (concat (map frame ms')) with (frames ms') in E3.
      rewrite <- app_assoc in E3.
      assert (H : m = m' /\ frames ms = frames ms' ++ rest).
      { unfold frame in E3. rewrite <- !app_assoc in E3. 
        apply frame_split_unique in E3; [exact E3|reflexivity|reflexivity|apply small_s32; exact S1|apply small_s32; exact S2]. }
      destruct H as [-> H]. destruct (IH ms' HM' E2' H) as [-> ->]. auto. }
  destruct X as [-> ->]. rewrite E1.
  assert (NR : r <> Ok tt).
  { rewrite E6. intros [(rest' & E)|[_ E]]; [discriminate|]. clear - E.
    unfold bytes in E. revert E. match goal with |- nth ?a _ _ = _ -> _ => generalize a end. intro k. intro E.
    assert (X : nth k (repeat false (S k)) true = false) by (clear E; induction k; cbn; auto). rewrite X in E. discriminate. }
  assert (X : closed = false) by (destruct closed; [exfalso; tauto|reflexivity]). rewrite X.
  destruct r as [[]|e]; [congruence|]. destruct (E7 e eq_refl) as [->|(_ & h & tail & Q1 & Q2 & _)]; [reflexivity|].
  destruct h; discriminate.
Qed.
Print Assumptions C102_async_close_refuted.

(** With the empty message, and at a lucky moment without it, it closes. *)
Example C102_async_example :
  let s l := AReader [] l in
  echo_loop_a 40 (repeat false 40) (s [firstn 3 (frames [[x61]; [x62; x63]; []]); skipn 3 (frames [[x61]; [x62; x63]; []])])
    = (frames [[x61]; [x62; x63]], Some (Ok tt), true) /\
  echo_loop_a 40 [false; true] (s [frames [[x61]]]) = (frames [[x61]], Some (Ok tt), true) /\
  echo_loop_a 40 [false; false] (s [frames [[x61]]]) = (frames [[x61]], Some (Err IncompleteReadError), false).
Proof. vm_compute. auto. Qed.

(** *** Client and server together *)

Lemma ends_stuck : forall A B (s F : sys A B) n, steps n s F -> stuck F -> always_ends s F.
Proof. intros A B s F n H HF. exists n. intros k b Hb. eapply steps_confluent; eauto. Qed.

Lemma loop_fits : forall n, writes_fit (echo_loop n).
Proof.
  induction n as [|n IH]; cbn [echo_loop]; constructor. intros [m|e] H; [|constructor]. destruct (is_empty m); constructor.
  - constructor; [exact (H m eq_refl)|constructor].
  - intros [[]|e]; [exact IH|constructor].
Qed.
Lemma sends_fits : forall n d got, small d -> writes_fit (echo_sends n d got).
Proof.
  induction n as [|n IH]; intros d got H; cbn [echo_sends]; constructor; [constructor; [exact H|constructor]|].
  intros [[]|e]; constructor. intros [x|e] _; [apply IH; exact H|constructor].
Qed.
Lemma sends_a_fits : forall n d got, small d -> writes_fit (echo_sends_a n d got).
Proof.
  induction n as [|n IH]; intros d got H; cbn [echo_sends_a].
  - constructor; [constructor; [reflexivity|constructor]|]. intros [[]|e]; constructor.
  - constructor; [constructor; [exact H|constructor]|]. intros [[]|e]; constructor. intros [x|e] _; [apply IH; exact H|constructor].
Qed.

Lemma rev_repeat_app : forall A (x : A) n l, rev l ++ x :: repeat x n = rev (x :: l) ++ repeat x n.
Proof. intros. cbn [rev]. rewrite <- app_assoc. reflexivity. Qed.

Lemma sends_steps : forall loops d got m, d <> [] -> exists n,
  steps n (Sys (echo_sends loops d got) (echo_loop (loops + m)) [] []) (Sys (Ret (Ok (rev got ++ repeat d loops))) (echo_loop m) [] []).
Proof.
  induction loops as [|l IH]; intros d got m HD; cbn [echo_sends echo_loop Nat.add repeat].
  - exists 0%nat. rewrite app_nil_r. constructor.
  - destruct (IH d (d :: got) m HD) as (n & H). exists (4 + n)%nat. rewrite rev_repeat_app. eapply (steps_app _ _ 4); [|exact H].
    destruct d as [|b d]; [congruence|]. stp. stp. cbn [is_empty app]. stp. stp. constructor.
Qed.
Lemma sends_a_steps : forall loops d got m, d <> [] -> exists n,
  steps n (Sys (echo_sends_a loops d got) (echo_loop (S loops + m)) [] []) (Sys (Ret (Ok (rev got ++ repeat d loops))) (Ret (Some (Ok tt))) [] []).
Proof.
  induction loops as [|l IH]; intros d got m HD; cbn [echo_sends_a echo_loop Nat.add repeat].
  - exists 2%nat. rewrite app_nil_r. stp. stp. constructor.
  - destruct (IH d (d :: got) m HD) as (n & H). exists (4 + n)%nat. rewrite rev_repeat_app. eapply (steps_app _ _ 4); [|exact H].
    destruct d as [|b d]; [congruence|]. stp. stp. cbn [is_empty app]. stp. stp. constructor.
Qed.

(** Over sockets and asyncio streams, with every cutting, interleaving and pausing: every
    response the client reads is the message it sent, and then nothing is in flight and the
    server is waiting in its loop. *)
Theorem C102_echo_pair : forall TL TR loops data n, byte_channel TL -> byte_channel TR -> message data -> (loops < n)%nat ->
  inevitable (cstep TL TR)
    (fun c => exists k, c = Conn (Ret (Ok (repeat data loops))) [] (Read k) [] [] [])
    (Conn (echo_sends loops data []) [] (echo_loop n) [] [] []).
Proof.
  intros TL TR loops data n HL HR [H1 H2] HN. replace n with (loops + S (n - loops - 1))%nat by lia.
  destruct (sends_steps loops data [] (S (n - loops - 1)) H2) as (k & HS).
  eapply inevitable_weaken; [|eapply C63_streams_follow_frames; [exact HL|exact HR|apply sends_fits; exact H1|apply loop_fits|
    eapply ends_stuck; [exact HS|]]].
  - intros [p lb q rb lr rl]. cbn [s_left s_right s_lr s_rl c_left c_right c_lbuf c_rbuf c_lr c_rl].
    intros (-> & -> & E1 & E2). cbn [echo_loop rev app]. apply app_eq_nil in E1. apply app_eq_nil in E2. destruct E1 as [-> ->], E2 as [-> ->].
    eexists. reflexivity.
  - intros t Ht. inversion Ht.
Qed.
Print Assumptions C102_echo_pair.

(** With the asyncio client's empty message both ends return (over a stream whose end does
    not come before the server has read it). *)
Theorem C102_echo_pair_ends : forall TL TR loops data n, byte_channel TL -> byte_channel TR -> message data -> (loops < n)%nat ->
  inevitable (cstep TL TR)
    (fun c => c = Conn (Ret (Ok (repeat data loops))) [] (Ret (Some (Ok tt))) [] [] [])
    (Conn (echo_sends_a loops data []) [] (echo_loop n) [] [] []).
Proof.
  intros TL TR loops data n HL HR [H1 H2] HN. replace n with (S loops + (n - loops - 1))%nat by lia.
  destruct (sends_a_steps loops data [] (n - loops - 1) H2) as (k & HS).
  eapply inevitable_weaken; [|eapply C63_streams_follow_frames; [exact HL|exact HR|apply sends_a_fits; exact H1|apply loop_fits|
    eapply ends_stuck; [exact HS|]]].
  - intros [p lb q rb lr rl]. cbn [s_left s_right s_lr s_rl c_left c_right c_lbuf c_rbuf c_lr c_rl].
    intros (-> & -> & E1 & E2). cbn [rev app]. apply app_eq_nil in E1. apply app_eq_nil in E2. destruct E1 as [-> ->], E2 as [-> ->].
    reflexivity.
  - intros t Ht. inversion Ht.
Qed.
Print Assumptions C102_echo_pair_ends.

(** ** C104: the example sessions *)

Lemma steps_bind_right : forall A B C (f : B -> io C) n (s t : sys A B), steps n s t ->
  steps n (Sys (s_left s) (iobind (s_right s) f) (s_lr s) (s_rl s)) (Sys (s_left t) (iobind (s_right t) f) (s_lr t) (s_rl t)).
Proof.
  intros A B C f n s t H. induction H as [s|n s t u H1 H2 IH]; [constructor|]. econstructor; [|exact IH].
  inversion H1; subst; cbn [s_left s_right s_lr s_rl iobind]; constructor.
Qed.

Lemma example1_ends : forall m, lends (LSys (example1_client m) false example1_server false [] [])
  (LSys (LRet (Ok m)) false (LRet (Ok true)) true [] []).
Proof.
  intro m. split; [|intros t Ht; inversion Ht]. exists 5%nat. unfold example1_client, example1_server.
  econstructor; [apply ls_lw|]. econstructor; [apply ls_rr|]. econstructor; [apply ls_rw|]. econstructor; [apply ls_rl|].
  econstructor; [apply ls_lr|]. constructor.
Qed.

Lemma flagged_two : forall l a b, short a = true -> short b = true -> flagged l [a; b] = [(a, l); (b, l)].
Proof. intros l a b H1 H2. unfold flagged. cbn [length forallb]. rewrite H1, H2. reflexivity. Qed.

Lemma example3_ends : forall a b c, exists f, lends (LSys (example3_client a b c) false example3_server false [] [])
  (LSys (LRet (Ok [a; b; c])) f (LRet (Ok false)) false [] []).
Proof.
  intros a b c. exists true.
  assert (F2 : forall l, exists h, flagged l [b; c] = [(b, h); (c, l)] /\ (l = false -> h = false)).
  { intro l. unfold flagged. destruct ((1 <? Z.of_nat (length [b; c])) && forallb short [b; c]); cbn; eauto. }
  destruct (F2 false) as (h & E1 & E2). rewrite (E2 eq_refl) in E1. destruct (F2 true) as (h' & E3 & _).
  split; [|intros t Ht; inversion Ht]. exists 11%nat. unfold example3_client, example3_server.
  econstructor; [apply ls_lw|]. econstructor; [apply ls_rr|]. econstructor; [apply ls_rw|]. econstructor; [apply ls_lr|].
  econstructor; [apply ls_lw|]. rewrite E1. cbn [app]. econstructor; [apply ls_rr|]. econstructor; [apply ls_rr|].
  econstructor; [apply ls_rw|]. rewrite E3. cbn [app].
  econstructor; [apply ls_rl|]. econstructor; [apply ls_lr|]. econstructor; [apply ls_lr|]. constructor.
Qed.

Lemma example1_client_modest : forall m, bulk [m] -> lmodest (fun m => bulk [m]) 1 (example1_client m).
Proof.
  intros m H. apply (lm_write _ 0 m []); [apply fits_one|exact H|repeat constructor; exact H|]. intros [[]|e]; constructor.
  intros r _. constructor.
Qed.
Lemma example1_server_modest : lmodest (fun m => bulk [m]) 1 example1_server.
Proof.
  constructor. intros [m|e] H; [|constructor]. cbn [next].
  apply (lm_write _ 0 m []); [apply fits_one|exact (H m eq_refl)|repeat constructor; exact (H m eq_refl)|].
  intros [[]|e]; constructor. intro f. constructor.
Qed.

Lemma example_loop_fits : forall L sp ep TK TC sig e buf a2 tk body n, nacl_laws L sp ep -> nacl_fail_laws L -> a2_fits a2 ->
  lmodest (fun m => bulk [m]) n body ->
  forall k i, wfq (fun _ => True) (example_loop L TK TC (fun i => ss_init sig (Some e) buf a2 (tk i)) body k i).
Proof.
  intros L sp ep TK TC sig e buf a2 tk body n HL HX HA HM. induction k as [|k IH]; intro i; cbn [example_loop]; [constructor; exact I|].
  eapply wfq_bind; [eapply server_uses_fit; eauto|]. intros y _. destruct (snd y) as [[[]|x]|x]; try (constructor; exact I). apply IH.
Qed.

(** example_session1: against its own client (any request, with and without buffering, over
    sockets and asyncio streams, every cutting and schedule) the server answers the request with
    itself and then leaves its loop because of the client's LastFlag: both ends return, and
    nothing is left on the wire. *)
Theorem C104_example1 : forall TL TR L sp ep TKc TKs TCc TCs csig ssig ce se cbuf sbuf w a2 tkc tks n request,
  byte_channel TL -> byte_channel TR ->
  peers_ok L sp ep TKc TKs TCc TCs csig ssig ce se sbuf tkc (tks 0%nat) -> nacl_fail_laws L -> a2_fits a2 ->
  Z.of_nat (length request) + 24 < 2 ^ 31 ->
  inevitable (cstep TL TR)
    (fun c => exists sC aC, c = Conn (Ret (sC, Some aC, Ok (Ok request))) [] (Ret (Some (Ok tt))) [] [] [])
    (Conn (client_uses L TKc TCc (cs_init csig (Some ce) cbuf w tkc) (example1_client request)) []
          (example_loop L TKs TCs (fun i => ss_init ssig (Some se) sbuf a2 (tks i)) example1_server (S n) 0) [] [] []).
Proof.
  intros TL TR L sp ep TKc TKs TCc TCs csig ssig ce se cbuf sbuf w a2 tkc tks n request HTL HTR HP HX HA HB.
  pose proof (po_laws _ _ _ _ _ _ _ _ _ _ _ _ _ _ HP) as LAWS.
  destruct (C103_flag_pipe (fun m => bulk [m]) L sp ep TKc TKs TCc TCs csig ssig ce se cbuf sbuf w a2 tkc (tks 0%nat) _ _
    (example1_client request) example1_server _ 1 1 HP (example1_client_modest _ HB) example1_server_modest ltac:(lia) ltac:(lia)
    ltac:(intros _; unfold example1_client; eauto) (example1_ends request)) as ([p q a b] & E1 & E2 & E3 & E4 & E5).
  cbn [l_left l_right l_lr l_rl s_left s_right s_lr s_rl lsame_end] in *. rewrite (E4 eq_refl), (E5 eq_refl) in E1. clear E4 E5 a b.
  destruct E2 as (sC & aC & ->). destruct E3 as (sS & aS & ->).
  destruct (always_ends_steps _ _ _ _ E1) as [(k & HS) _].
  eapply inevitable_weaken; [|eapply C63_streams_follow_frames with (F := Sys (Ret (sC, Some aC, Ok (Ok request))) (Ret (Some (Ok tt))) [] []); [exact HTL|exact HTR| | |]].
  - intros [p lb q rb lr rl]. cbn [s_left s_right s_lr s_rl c_left c_right c_lbuf c_rbuf c_lr c_rl].
    intros (-> & -> & Q1 & Q2). apply app_eq_nil in Q1. apply app_eq_nil in Q2. destruct Q1 as [-> ->], Q2 as [-> ->]. eauto.
  - eapply client_uses_fit; eauto using example1_client_modest.
  - eapply wfq_fit with (Q := fun _ => True). eapply example_loop_fits; eauto using example1_server_modest.
  - eapply always_ends_intro. cbn [example_loop].
    match goal with |- context [iobind _ ?g] => exact (steps_bind_right _ _ _ g _ _ _ HS) end.
Qed.
Print Assumptions C104_example1.

Definition half (m : bytes) : Prop := 2 * Z.of_nat (length m) + 30 < 2 ^ 31.

Lemma half_two : forall a b, half a -> half b -> fits [a; b] /\ bulk [a; b].
Proof.
  intros a b H1 H2. unfold half in *. split; [left; cbn [length]; lia|]. cbn [bulk concat]. rewrite app_nil_r, app_length. cbn [length]. lia.
Qed.
Lemma half_one : forall a, half a -> bulk [a].
Proof. intros a H. unfold half in H. cbn [bulk]. lia. Qed.

Lemma example3_client_modest : forall a b c, half a -> half b -> half c -> lmodest half 3 (example3_client a b c).
Proof.
  intros a b c H1 H2 H3. apply (lm_write _ 2 a []); [apply fits_one|apply half_one; exact H1|repeat constructor; exact H1|].
  intros [[]|e]; constructor. intros [x|e] _; [|constructor].
  apply (lm_write _ 0 b [c]); [apply half_two; assumption|apply half_two; assumption|repeat constructor; assumption|].
  intros [[]|e]; constructor. intros [y|e] _; constructor. intros [z|e] _; constructor.
Qed.
Lemma example3_server_modest : lmodest half 3 example3_server.
Proof.
  constructor. intros [m|e] H; [|constructor]. specialize (H m eq_refl).
  apply (lm_write _ 2 m []); [apply fits_one|apply half_one; exact H|repeat constructor; exact H|].
  intros [[]|e]; constructor. intros [x|e] H1; constructor. intros [y|e] H2; [|constructor].
  specialize (H1 x eq_refl). specialize (H2 y eq_refl).
  apply (lm_write _ 0 x [y]); [apply half_two; assumption|apply half_two; assumption|repeat constructor; assumption|].
  intros [[]|e]; constructor. intro f. constructor.
Qed.

Lemma loop_turn : forall L TK TC start body n i, example_loop L TK TC start body (S n) i =
  iobind (server_uses L TK TC (start i) body) (fun y =>
    match snd y with
    | Ok (Ok true) => Ret (Some (Ok tt))
    | Ok (Ok false) => example_loop L TK TC start body n (S i)
    | Ok (Err e) => Ret (Some (caught e))
    | Err e => Ret (Some (caught e))
    end).
Proof. reflexivity. Qed.

Lemma loop_waits : forall L TK TC sig e buf a2 tk body n i, exists k,
  example_loop L TK TC (fun i => ss_init sig (Some e) buf a2 (tk i)) body (S n) i = Read k /\
  forall x, k (Err x) = Ret (Some (caught x)).
Proof.
  intros. cbn [example_loop]. unfold server_uses. eexists. split; [reflexivity|]. intro x. reflexivity.
Qed.

(** example_session3: the client gets its three requests back; but as it never sets the
    LastFlag (the server's own flag in its last message does not matter), the server does not
    stop: it waits for a second handshake on the same connection, and returns only when the
    connection breaks (with any ComException). *)
Theorem C104_example3 : forall L sp ep TKc TKs TCc TCs csig ssig ce se cbuf sbuf w a2 tkc tks n r1 r21 r22,
  peers_ok L sp ep TKc TKs TCc TCs csig ssig ce se sbuf tkc (tks 0%nat) ->
  half r1 -> half r21 -> half r22 ->
  exists sC aC k,
    always_ends (Sys (client_uses L TKc TCc (cs_init csig (Some ce) cbuf w tkc) (example3_client r1 r21 r22))
                     (example_loop L TKs TCs (fun i => ss_init ssig (Some se) sbuf a2 (tks i)) example3_server (S (S n)) 0) [] [])
                (Sys (Ret (sC, Some aC, Ok (Ok [r1; r21; r22]))) (Read k) [] []) /\
    forall e, is_com e = true -> k (Err e) = Ret (Some (Ok tt)).
Proof.
  intros L sp ep TKc TKs TCc TCs csig ssig ce se cbuf sbuf w a2 tkc tks n r1 r21 r22 HP H1 H2 H3.
  destruct (example3_ends r1 r21 r22) as (f & HE).
  destruct (C103_flag_pipe half L sp ep TKc TKs TCc TCs csig ssig ce se cbuf sbuf w a2 tkc (tks 0%nat) _ _
    (example3_client r1 r21 r22) example3_server _ 3 3 HP (example3_client_modest _ _ _ H1 H2 H3) example3_server_modest ltac:(lia) ltac:(lia)
    ltac:(intros _; unfold example3_client; eauto) HE) as ([p q a b] & E1 & E2 & E3 & E4 & E5).
  cbn [l_left l_right l_lr l_rl s_left s_right s_lr s_rl lsame_end] in *. rewrite (E4 eq_refl), (E5 eq_refl) in E1. clear E4 E5 a b.
  destruct E2 as (sC & aC & ->). destruct E3 as (sS & aS & ->).
  destruct (always_ends_steps _ _ _ _ E1) as [(k & HS) _].
  destruct (loop_waits L TKs TCs ssig se sbuf a2 tks example3_server n 1) as (kr & K1 & K2).
  exists sC, aC, kr. split.
  - eapply ends_stuck; [|intros t Ht; inversion Ht]. rewrite <- K1.
    rewrite (loop_turn _ _ _ _ _ (S n)).
    match goal with |- context [iobind _ ?g] => exact (steps_bind_right _ _ _ g _ _ _ HS) end.
  - intros e He. rewrite K2. unfold caught. rewrite He. reflexivity.
Qed.
Print Assumptions C104_example3.

(** "A server session of the examples never raises" is false: it catches only ComException, and
    a client that sends the A1 request (which the session answers) makes the use of
    [app_channel], which is None, raise AttributeError: for every library, every key pair,
    both examples and every number of earlier turns. *)
Theorem C104_server_never_raises_refuted : forall L TK TC sig e buf a2 tk n i body, body = example1_server \/ body = example3_server ->
  exists a2frame, exec (example_loop L TK TC (fun i => ss_init sig (Some e) buf a2 (tk i)) body (S n) i)
    [ERead (Ok (pkt_bytes a1_new)); EWrite [a2frame] true (Ok tt)] (Some (Some (Err AttributeError))).
Proof.
  intros L TK TC sig e buf a2 tk n i body HB. eexists. cbn [example_loop]. unfold server_uses.
  constructor. cbn. constructor. cbn. constructor.
Qed.
Print Assumptions C104_server_never_raises_refuted.

(** The sessions of the toy library, with the second client closing the connection. *)
Example C104_example : forall cb sb,
  let start (i : nat) := ss_init ex_ssig (Some ex_senc) sb None 0 in
  let go A (p : lio (res A)) body := run2 80 (client_uses toy_lib one_two_three null_checker (cs_init ex_csig (Some ex_cenc) cb [] 0) p)
                         (example_loop toy_lib null_keeper null_checker start body 3 0) [] [] in
  option_map snd (snd (fst (go _ (example1_client [x01; x05]) example1_server))) = Some (Ok (Ok [x01; x05])) /\
  snd (snd (go _ (example1_client [x01; x05]) example1_server)) = Some (Some (Ok tt)) /\
  option_map snd (snd (fst (go _ (example3_client [x01] [x02; x04] []) example3_server))) = Some (Ok (Ok [[x01]; [x02; x04]; []])) /\
  snd (snd (go _ (example3_client [x01] [x02; x04] []) example3_server)) = None.
Proof. intros [] []; vm_compute; auto. Qed.
