(** Lemmas about programs over byte streams. *)
From Coq Require Import List ZArith Bool Strings.Byte Lia ZifyBool ZifyNat ZifyN.
From Verif Require Import PyBase PyBase_proofs Packets_proofs IO IO_proofs Channel Channel_proofs Sched_proofs Stack Spec StackUse.
Import ListNotations.
Open Scope Z_scope.
Ltac Zify.zify_post_hook ::= Z.div_mod_to_equations.

Lemma small_b_spec : forall ms, forallb small_b ms = true <-> Forall small ms.
Proof.
  induction ms as [|m ms IH]; cbn [forallb]; [split; constructor|].
  rewrite andb_true_iff, IH. unfold small_b, small. split.
  - intros [H1 H2]. constructor; [lia|exact H2].
  - intros H. inversion H; subst. split; [lia|assumption].
Qed.
Lemma small_b_false : forall ms, forallb small_b ms = false -> exists m, In m ms /\ 2 ^ 31 <= zlen m.
Proof.
  induction ms as [|m ms IH]; cbn [forallb]; [discriminate|]. rewrite andb_false_iff. intros [H|H].
  - exists m. split; [left; reflexivity|]. unfold small_b in H. lia.
  - destruct (IH H) as (b & H1 & H2). exists b. split; [right; exact H1|exact H2].
Qed.

(** a 4-byte prefix announcing the length of a message is the prefix of its frame *)
Lemma header_frame : forall h m, length h = 4%nat -> s32 h = zlen m -> h ++ m = frame m /\ zlen m < 2 ^ 31.
Proof.
  intros h m Hh Hs.
  pose proof (le_dec_range h) as Q. unfold zlen in Q at 1. rewrite Hh in Q. change (256 ^ Z.of_nat 4) with (2 ^ 32) in Q.
  unfold s32 in Hs. rewrite le_val_le_dec in Hs. assert (P : 0 <= zlen m) by (unfold zlen; lia).
  assert (E : zlen m = le_dec h /\ zlen m < 2 ^ 31).
  { destruct (Z.ltb_spec (le_dec h) (2 ^ 31)); lia. }
  destruct E as [E R]. split; [|exact R]. unfold frame. f_equal. fold (zlen m). rewrite E, <- le_enc_u32, <- Hh.
  symmetry. apply le_enc_dec.
Qed.

(** ** One peer on a socket *)
Lemma socket_write_spec : forall send ms bufs r, socket_write send ms = (bufs, r) ->
  concat bufs = (if forallb small_b ms then frames ms else []) /\
  (r = Ok tt \/ r = Err ComException) /\ (r = Ok tt -> forallb small_b ms = true) /\
  (forallb small_b ms = true -> send = Ok tt -> r = Ok tt).
Proof.
  intros send [|m args] bufs r H; unfold socket_write in H.
  - injection H as <- <-. auto.
  - unfold write_sync in H. destruct (forallb small_b (m :: args)) eqn:E.
    + rewrite pack_frames_ok in H by (apply small_b_spec; exact E). injection H as <- <-.
      split; [cbn [concat]; apply app_nil_r|]. destruct send as [[]|e]; split; auto; split; auto; congruence.
    + rewrite pack_frames_big in H by (apply small_b_false; exact E). injection H as <- <-.
      split; [reflexivity|]. split; [auto|]. split; congruence.
Qed.

Lemma over_socket_spec : forall A (p : io A) s sends,
  exists out s' a t, over_socket p s sends = Some (out, s', a) /\ exec p t (Some a) /\
    concat out = sock_bytes t /\ Forall sock_answer t /\ suffix (sk_sched s') (sk_sched s) /\
    (exists rest, sk_in s = frames (received t) ++ rest /\ (reads_ok t = true -> rest = sk_in s')) /\
    (nofail (sk_sched s) -> Forall (fun x => x = Ok tt) sends -> forall ms l r, In (EWrite ms l r) t -> forallb small_b ms = true -> r = Ok tt) /\
    (nofail (sk_sched s) -> reads_ok t = false -> forall m rest, sk_in s <> frames (received t) ++ frame m ++ rest \/ 2 ^ 31 <= zlen m).
Proof.
  intros A. induction p as [a|k IH|ms l k IH]; intros s sends; cbn [over_socket].
  - exists [], s, a, []. repeat split; try constructor; auto using suffix_refl.
    + exists (sk_in s). auto.
    + intros _ _ ms l r [].
    + discriminate.
  - destruct (read_sync_spec s) as (s1 & r & c & H1 & H2 & H3 & H4). rewrite H1.
    destruct (IH r s1 sends) as (out & s' & a & t & E & X & O & AN & SU & (rest & I1 & I2) & W & F). 
    exists out, s', a, (ERead r :: t). split; [exact E|]. split; [constructor; exact X|]. split; [exact O|].
    destruct r as [m|e].
    + destruct H4 as (h & -> & Hh & Hs). destruct (header_frame h m Hh Hs) as [HF HM].
      split; [constructor; [exact HM|exact AN]|]. split; [eapply suffix_trans; eauto|].
      cbn [received reads_ok]. rewrite HF in H3. split; [|split].
      * exists rest. rewrite frames_cons, <- app_assoc, H3, I1. auto.
      * intros HN HS ms l r [HI|HI]; [discriminate|]. apply (W (nofail_suffix _ _ H2 HN) HS ms l r HI).
      * intros HN HR m0 rest0. destruct (F (nofail_suffix _ _ H2 HN) HR m0 rest0) as [F0|F0]; [left|right; exact F0].
        rewrite frames_cons, <- app_assoc, H3. intro HQ. apply app_inv_head in HQ. contradiction.
    + destruct H4 as (-> & HW & _). split; [constructor; [reflexivity|exact AN]|]. split; [eapply suffix_trans; eauto|].
      cbn [received reads_ok]. split; [|split].
      * exists (sk_in s). split; [reflexivity|discriminate].
      * intros HN HS ms l r [HI|HI]; [discriminate|]. apply (W (nofail_suffix _ _ H2 HN) HS ms l r HI).
      * intros HN _ m rest0. destruct (Z.lt_ge_cases (zlen m) (2 ^ 31)) as [Hm|Hm]; [left|right; exact Hm].
        intro HQ. cbn [frames map concat app] in HQ.
        destruct (read_sync_frame m rest0 s Hm HN HQ) as (s2 & HR & _). rewrite H1 in HR. discriminate.
  - destruct (socket_write (hd (Ok tt) sends) ms) as [bufs r] eqn:EW.
    destruct (socket_write_spec _ _ _ _ EW) as (W1 & W2 & W3 & W4).
    destruct (IH r s (if is_empty bufs then sends else tl sends)) as (out & s' & a & t & E & X & O & AN & SU & I & W & F).
    rewrite E. exists (bufs ++ out), s', a, (EWrite ms l r :: t). split; [reflexivity|]. split; [constructor; exact X|].
    split; [rewrite concat_app, W1, O; reflexivity|].
    split; [constructor; [|exact AN]; destruct W2 as [->| ->]; cbn; auto|].
    split; [exact SU|]. split; [exact I|]. split; [|exact F].
    intros HN HS ms0 l0 r0 [HI|HI].
    + injection HI as -> -> ->. intro HB. apply W4; [exact HB|]. destruct sends as [|x sends]; [reflexivity|].
      inversion HS; subst. reflexivity.
    + apply (W HN) with (l := l0); [|exact HI]. destruct (is_empty bufs); [exact HS|].
      destruct HS; cbn [tl]; [constructor|assumption].
Qed.

(** ** One peer on an asyncio stream *)

Lemma async_write_spec : forall d ms, async_write d ms =
  (frames (small_prefix ms), if forallb small_b ms then d else Err StructError).
Proof.
  induction ms as [|m ms IH]; cbn [async_write small_prefix forallb]; [reflexivity|].
  unfold write_msg, small_b at 1 2. destruct (Z.ltb_spec (zlen m) (2 ^ 31)) as [H|H].
  - rewrite pack_i_ok by (unfold zlen in *; lia). rewrite IH. reflexivity.
  - rewrite pack_i_big by exact H. reflexivity.
Qed.

Lemma over_asyncio_spec : forall A (p : io A) s drains out s' a, over_asyncio p s drains = (out, s', a) ->
  exists t, exec p t (Some a) /\ out = async_bytes t /\ Forall (async_answer drains) t /\
    (exists rest, pending s = frames (received t) ++ rest /\ (reads_ok t = true -> rest = pending s')) /\
    (reads_ok t = false -> forall m rest, pending s <> frames (received t) ++ frame m ++ rest \/ 2 ^ 31 <= zlen m).
Proof.
  intros A. induction p as [a|k IH|ms l k IH]; intros s drains out s' a0; cbn [over_asyncio].
  - intro H. injection H as <- <- <-. exists []. repeat split; try constructor.
    + exists (pending s). auto.
    + discriminate.
  - destruct (read_msg s) as [s1 r] eqn:ER. intro H.
    destruct (IH r s1 drains out s' a0 H) as (t & X & O & AN & (rest & I1 & I2) & F).
    exists (ERead r :: t). split; [constructor; exact X|]. split; [exact O|].
    pose proof (read_msg_spec s) as Q. rewrite ER in Q. destruct r as [m|e].
    + destruct Q as (h & Q1 & Hh & Hs). destruct (header_frame h m Hh Hs) as [HF HM].
      rewrite app_assoc, HF in Q1. cbn [received reads_ok].
      split; [constructor; [exact HM|exact AN]|]. split.
      * exists rest. rewrite frames_cons, <- app_assoc, Q1, I1. auto.
      * intros HR m0 rest0. destruct (F HR m0 rest0) as [F0|F0]; [left|right; exact F0].
        rewrite frames_cons, <- app_assoc, Q1. intro HQ. apply app_inv_head in HQ. contradiction.
    + split; [constructor; [cbn; tauto|exact AN]|]. cbn [received reads_ok]. split.
      * exists (pending s). split; [reflexivity|discriminate].
      * intros _ m rest0. destruct (Z.lt_ge_cases (zlen m) (2 ^ 31)) as [Hm|Hm]; [left|right; exact Hm].
        intro HQ. cbn [frames map concat app] in HQ.
        destruct (read_msg_frame m rest0 s Hm HQ) as (s2 & HR & _). rewrite ER in HR. discriminate.
  - rewrite async_write_spec. set (r := if forallb small_b ms then hd (Ok tt) drains else Err StructError).
    destruct (over_asyncio (k r) s (tl drains)) as [[out1 s1] a1] eqn:E1. intro H. injection H as <- <- <-.
    destruct (IH r s (tl drains) _ _ _ E1) as (t & X & O & AN & I & F).
    exists (EWrite ms l r :: t). split; [constructor; exact X|]. split; [cbn [async_bytes]; rewrite O; reflexivity|].
    split; [|split; [exact I|exact F]]. constructor.
    + unfold async_answer, r. destruct (forallb small_b ms); [|reflexivity].
      destruct drains as [|d ds]; cbn; auto.
    + eapply Forall_impl; [|exact AN]. intros [[m|e]|ms0 l0 r0]; cbn; auto.
      destruct (forallb small_b ms0); [|auto]. intros [H|H]; [auto|right]. destruct drains; [exact H|right; exact H].
Qed.

(** ** Two peers *)

Lemma socket_transport_ok : transport_ok socket_transport.
Proof.
  constructor; cbn [t_write t_read t_take socket_transport].
  - intros ms H. destruct (socket_write (Ok tt) ms) as [bufs r] eqn:E.
    destruct (socket_write_spec _ _ _ _ E) as (W1 & _ & _ & W4).
    apply small_b_spec in H. rewrite H in *. rewrite W1, W4; auto.
  - intros m rest H. destruct (read_sync_frame m rest (Sock (frame m ++ rest) []) H) as (s & E & I & _); [intros e []|reflexivity|].
    rewrite E, I. reflexivity.
  - intros buf H. unfold t_ready in H. unfold recv_limit. destruct (Z.ltb_spec (zlen buf) 4); lia.
Qed.

Lemma await_data_chunks : forall n buf, ar_chunks (fst (await_data n buf [])) = [].
Proof. intros n buf. cbn. destruct (n <=? zlen buf); reflexivity. Qed.
Lemma read_msg_chunks : forall s, ar_chunks s = [] -> ar_chunks (fst (read_msg s)) = [].
Proof.
  intros [buf ch] E. cbn in E. subst ch. unfold read_msg.
  assert (R : forall n s, ar_chunks s = [] -> ar_chunks (fst (readexactly n s)) = []).
  { intros n [b c] E. cbn in E. subst c. unfold readexactly. destruct (n <? 0); [reflexivity|]. apply await_data_chunks. }
  pose proof (R 4 (AReader buf []) eq_refl) as Q. destruct (readexactly 4 (AReader buf [])) as [s1 [h|e]]; [|exact Q].
  apply R. exact Q.
Qed.

Lemma asyncio_transport_ok : forall paused, transport_ok (asyncio_transport paused).
Proof.
  intro paused. constructor; cbn [t_write t_read t_take asyncio_transport].
  - intros ms H. apply async_write_ok. exact H.
  - intros m rest H. destruct (read_msg_frame m rest (AReader (frame m ++ rest) []) H) as (s & E & I); [unfold pending; cbn [ar_buf ar_chunks concat]; apply app_nil_r|].
    rewrite E. f_equal. destruct s as [b ch]. pose proof (read_msg_chunks (AReader (frame m ++ rest) [])) as Q. 
    rewrite E in Q. cbn in Q. rewrite (Q eq_refl) in I. unfold pending in I. cbn in I. rewrite app_nil_r in I. exact I.
  - intros buf H. rewrite H. reflexivity.
Qed.

Lemma app_prefix_len : forall A (a b c d : list A), a ++ b = c ++ d -> (length c <= length a)%nat -> exists e, a = c ++ e /\ d = e ++ b.
Proof.
  intros A a b c. revert a. induction c as [|x c IH]; intros a d H HL.
  - exists a. split; [reflexivity|]. symmetry. exact H.
  - destruct a as [|y a]; [cbn in HL; lia|]. cbn [app] in H. injection H as -> H.
    destruct (IH a d H) as (e & -> & ->); [cbn in HL; lia|]. exists e. auto.
Qed.

Lemma ready_frames : forall buf rest fs, t_ready buf = true -> buf ++ rest = frames fs -> Forall small fs ->
  exists m r buf', fs = m :: r /\ buf = frame m ++ buf' /\ buf' ++ rest = frames r.
Proof.
  intros buf rest fs HR HE HS. unfold t_ready in HR. apply andb_true_iff in HR. destruct HR as [H4 HN].
  apply Z.leb_le in H4, HN.
  destruct fs as [|m r]; [apply app_eq_nil in HE; destruct HE as [-> _]; cbn in H4; lia|].
  inversion HS as [|? ? Hm Hr]; subst. rewrite frames_cons in HE.
  exists m, r.
  assert (E4 : firstn 4 buf = u32le (Z.of_nat (length m))).
  { unfold frame in HE. rewrite <- app_assoc in HE.
    destruct (app_prefix_len _ _ _ _ _ HE) as (e & -> & _); [unfold zlen in H4; cbn; lia|]. reflexivity. }
  rewrite E4, unpack_s32, small_s32 in HN by exact Hm.
  destruct (app_prefix_len _ _ _ _ _ HE) as (e & -> & E); [rewrite frame_length; unfold zlen in *; lia|].
  exists e. auto.
Qed.

Lemma unready_frames : forall buf rest m r, t_ready buf = false -> buf ++ rest = frames (m :: r) -> small m -> rest <> [].
Proof.
  intros buf rest m r HR HE Hm ->. rewrite app_nil_r in HE. subst buf. revert HR. unfold t_ready.
  rewrite frames_cons. assert (E4 : firstn 4 (frame m ++ frames r) = u32le (Z.of_nat (length m))) by reflexivity.
  rewrite E4, unpack_s32, small_s32 by exact Hm.
  assert (Q : zlen (frame m ++ frames r) >= 4 + zlen m).
  { unfold zlen. rewrite app_length, frame_length. lia. }
  assert (0 <= zlen m) by (unfold zlen; lia).
  intro HR. apply andb_false_iff in HR. destruct HR as [HR|HR]; apply Z.leb_gt in HR; unfold bytes in *; lia.
Qed.

(** What one step of the connection does to the frames: one step, or nothing but the
    arrival of bytes. *)
Lemma cstep_sim : forall A B TL TR (c c' : conn A B) f, transport_ok TL -> transport_ok TR ->
  cstep TL TR c c' -> carries c f ->
  (exists f', step f f' /\ carries c' f') \/
  (carries c' f /\ (length (c_lr c') + length (c_rl c') < length (c_lr c) + length (c_rl c))%nat).
Proof.
  intros A B TL TR c c' [p q fl fr] HL HR H [E1 E2 E3 E4 E5 E6 E7 E8]. cbn [s_left s_right s_lr s_rl] in *.
  inversion H; subst; cbn [c_left c_right c_lbuf c_rbuf c_lr c_rl] in *; subst.
  - left. inversion E7; subst. rewrite (to_write TL HL) in H0 by assumption. injection H0 as <- <-.
    eexists. split; [constructor|]. constructor; cbn [s_left s_right s_lr s_rl c_left c_right c_lbuf c_rbuf c_lr c_rl]; auto.
    + rewrite frames_app, <- E3, app_assoc. reflexivity.
    + apply Forall_app. auto.
  - right. split.
    + constructor; cbn [s_left s_right s_lr s_rl c_left c_right c_lbuf c_rbuf c_lr c_rl]; auto. rewrite <- app_assoc. exact E4.
    + destruct c0; [contradiction|]. rewrite app_length. cbn [length]. lia.
  - left. destruct (ready_frames _ _ _ H0 E4 E6) as (m & r' & buf' & -> & -> & E). inversion E6; subst.
    rewrite (to_read TL HL) in H1 by assumption. injection H1 as <- <-.
    eexists. split; [constructor|]. inversion E7; subst.
    constructor; cbn [s_left s_right s_lr s_rl c_left c_right c_lbuf c_rbuf c_lr c_rl]; auto.
    match goal with H : forall r, _ -> writes_fit _ |- _ => apply H end. intros x Ex. injection Ex as <-. assumption.
  - left. inversion E8; subst. rewrite (to_write TR HR) in H0 by assumption. injection H0 as <- <-.
    eexists. split; [constructor|]. constructor; cbn [s_left s_right s_lr s_rl c_left c_right c_lbuf c_rbuf c_lr c_rl]; auto.
    + rewrite frames_app, <- E4, app_assoc. reflexivity.
    + apply Forall_app. auto.
  - right. split.
    + constructor; cbn [s_left s_right s_lr s_rl c_left c_right c_lbuf c_rbuf c_lr c_rl]; auto. rewrite <- app_assoc. exact E3.
    + destruct c0; [contradiction|]. rewrite app_length. cbn [length]. lia.
  - left. destruct (ready_frames _ _ _ H0 E3 E5) as (m & r' & buf' & -> & -> & E). inversion E5; subst.
    rewrite (to_read TR HR) in H1 by assumption. injection H1 as <- <-.
    eexists. split; [constructor|]. inversion E8; subst.
    constructor; cbn [s_left s_right s_lr s_rl c_left c_right c_lbuf c_rbuf c_lr c_rl]; auto.
    match goal with H : forall r, _ -> writes_fit _ |- _ => apply H end. intros x Ex. injection Ex as <-. assumption.
Qed.

(** If the frames can move, so can the bytes. *)
Lemma cstep_progress : forall A B TL TR (c : conn A B) f f', transport_ok TL -> transport_ok TR ->
  carries c f -> step f f' -> exists c', cstep TL TR c c'.
Proof.
  intros A B TL TR [p lb q rb lr rl] f f' HL HR [E1 E2 E3 E4 E5 E6 E7 E8] H.
  inversion H; subst; cbn [s_left s_right s_lr s_rl c_left c_right c_lbuf c_rbuf c_lr c_rl] in *; subst.
  - destruct (t_write TL ms) as [bs r] eqn:E. eexists. apply cs_lw. exact E.
  - destruct (t_ready lb) eqn:ER.
    + destruct (t_read TL lb) as [lb' r] eqn:E. eexists. eapply cs_lr; eauto.
    + inversion E6; subst. pose proof (unready_frames _ _ _ _ ER E4 ltac:(assumption)) as HN.
      destruct rl as [|x rl]; [contradiction|]. eexists. apply (cs_lt TL TR _ lb _ _ _ [x] rl); [discriminate|].
      apply (to_take TL HL). exact ER.
  - destruct (t_write TR ms) as [bs r] eqn:E. eexists. apply cs_rw. exact E.
  - destruct (t_ready rb) eqn:ER.
    + destruct (t_read TR rb) as [rb' r] eqn:E. eexists. eapply cs_rr; eauto.
    + inversion E5; subst. pose proof (unready_frames _ _ _ _ ER E3 ltac:(assumption)) as HN.
      destruct lr as [|x lr]; [contradiction|]. eexists. apply (cs_rt TL TR _ _ _ rb [x] lr _); [discriminate|].
      apply (to_take TR HR). exact ER.
Qed.

Lemma bounded_search : forall (g : nat -> bool) n, (exists i, (i < n)%nat /\ g i = true) \/ (forall i, (i < n)%nat -> g i = false).
Proof.
  intros g. induction n as [|n [(i & Hi & H)|IH]].
  - right. intros i H. lia.
  - left. exists i. split; [lia|exact H].
  - destruct (g n) eqn:E; [left; exists n; split; [lia|exact E]|right]. intros i Hi.
    destruct (Nat.eq_dec i n) as [->|]; [exact E|]. apply IH. lia.
Qed.

Lemma prefix_search : forall (g : Z -> bool) (s : bytes),
  (exists c r, s = c ++ r /\ c <> [] /\ g (zlen c) = true) \/ (forall c r, s = c ++ r -> c <> [] -> g (zlen c) = false).
Proof.
  intros g s. destruct (bounded_search (fun i => g (Z.of_nat (S i))) (length s)) as [(i & Hi & H)|H].
  - left. exists (firstn (S i) s), (skipn (S i) s). split; [symmetry; apply firstn_skipn|].
    assert (HL : length (firstn (S i) s) = S i) by (rewrite firstn_length; lia).
    split; [intro Q; rewrite Q in HL; discriminate|]. unfold zlen. unfold bytes in *. rewrite HL. exact H.
  - right. intros c r -> Hc. destruct c as [|x c]; [contradiction|]. rewrite app_length in H. cbn [length] in H.
    unfold zlen. cbn [length]. apply H. lia.
Qed.

(** Whether anything can happen is decidable in a state whose frames are at rest. *)
Lemma cstep_search : forall A B TL TR (c : conn A B), (exists c', cstep TL TR c c') \/ (forall c', ~ cstep TL TR c c').
Proof.
  intros A B TL TR [p lb q rb lr rl].
  destruct (prefix_search (t_take TL (reading p) lb) rl) as [(x & r & -> & Hx & Ht)|HA].
  { left. eexists. apply cs_lt; eauto. }
  destruct (prefix_search (t_take TR (reading q) rb) lr) as [(x & r & -> & Hx & Ht)|HB].
  { left. eexists. apply cs_rt; eauto. }
  destruct (match p with Write _ _ _ => true | Read _ => t_ready lb | Ret _ => false end) eqn:EP.
  { left. destruct p as [a|k|ms l k]; [discriminate| |].
    - destruct (t_read TL lb) as [lb' r] eqn:E. eexists. eapply cs_lr; eauto.
    - destruct (t_write TL ms) as [bs r] eqn:E. eexists. apply cs_lw. exact E. }
  destruct (match q with Write _ _ _ => true | Read _ => t_ready rb | Ret _ => false end) eqn:EQ.
  { left. destruct q as [a|k|ms l k]; [discriminate| |].
    - destruct (t_read TR rb) as [rb' r] eqn:E. eexists. eapply cs_rr; eauto.
    - destruct (t_write TR ms) as [bs r] eqn:E. eexists. apply cs_rw. exact E. }
  right. intros c' H. inversion H; subst; try congruence.
  - rewrite (HA c rl0 eq_refl) in H8 by assumption. discriminate.
  - rewrite (HB c lr0 eq_refl) in H8 by assumption. discriminate.
Qed.

(** Runs of a connection end where the runs of its frames end. *)
Lemma carries_inevitable : forall A B TL TR, transport_ok TL -> transport_ok TR ->
  forall n (f F : sys A B), steps n f F -> stuck F -> forall c, carries c f ->
  inevitable (cstep TL TR) (fun c' => carries c' F) c.
Proof.
  intros A B TL TR HL HR. induction n as [n IHn] using lt_wf_ind. intros f F HS HF c.
  remember (length (c_lr c) + length (c_rl c))%nat as k eqn:Ek. revert c Ek.
  induction k as [k IHk] using lt_wf_ind. intros c -> HC.
  assert (NEXT : forall c', cstep TL TR c c' -> inevitable (cstep TL TR) (fun c' => carries c' F) c').
  { intros c' H. destruct (cstep_sim _ _ _ _ _ _ _ HL HR H HC) as [(f' & H1 & H2)|[H1 H2]].
    - destruct (steps_one _ _ _ _ _ _ HS HF H1) as (m & -> & Hm). apply (IHn m ltac:(lia) f' F Hm HF c' H2).
    - apply (IHk _ H2 c' eq_refl H1). }
  inversion HS as [s|m s t u H1 H2]; subst.
  - destruct (cstep_search _ _ TL TR c) as [H|H]; [apply inev_step; assumption|apply inev_done; assumption].
  - apply inev_step; [|exact NEXT]. eapply cstep_progress; eauto.
Qed.

Lemma inevitable_weaken : forall S (R : S -> S -> Prop) (P Q : S -> Prop), (forall s, P s -> Q s) ->
  forall s, inevitable R P s -> inevitable R Q s.
Proof.
  intros S R P Q HPQ s H. induction H as [s H1 H2|s H1 H2 IH].
  - apply inev_done; auto.
  - apply inev_step; auto.
Qed.
