(** Property C91: cancelled reads. *)
From Coq Require Import List ZArith Bool Strings.Byte Lia ZifyBool ZifyNat ZifyN.
From Verif Require Import PyBase PyBase_proofs Packets_proofs Channel Channel_proofs Props_Channel Cancel Spec.
Import ListNotations.
Open Scope Z_scope.

(** The bytes that have arrived once [j] more chunks have. *)
Definition arrived (j : nat) (s : areader) : bytes := ar_buf s ++ concat (firstn j (ar_chunks s)).

Lemma await_cancel_spec : forall j chunks n buf, 0 <= n ->
  match await_cancel j n buf chunks with
  | (s', j', Ok b) =>
      buf ++ concat chunks = b ++ incoming s' /\ zlen b = n /\
      buf ++ concat (firstn j chunks) = b ++ arrived j' s' /\
      zlen (buf ++ concat (firstn j chunks)) >= n
  | (s', _, Err e) =>
      zlen (buf ++ concat (firstn j chunks)) < n /\
      (e = CancelledError /\ incoming s' = buf ++ concat chunks \/ e = IncompleteReadError)
  end.
Proof.
  unfold incoming, arrived. induction j as [|j IH]; intros chunks n buf Hn; cbn [await_cancel].
  - destruct (Z.leb_spec n (zlen buf)) as [H|H]; cbn [ar_buf ar_chunks firstn concat].
    + rewrite !app_nil_r, firstn_skipn, app_assoc, firstn_skipn.
      repeat split; auto; unfold zlen in *; try rewrite firstn_length; lia.
    + rewrite app_nil_r. split; [exact H|]. left. auto.
  - destruct (Z.leb_spec n (zlen buf)) as [H|H]; cbn [ar_buf ar_chunks].
    + rewrite !app_assoc, firstn_skipn. repeat split; auto; unfold zlen in *; rewrite ?firstn_length, ?app_length; lia.
    + destruct chunks as [|c r]; cbn [firstn concat].
      * rewrite app_nil_r. split; [exact H|]. right. reflexivity.
      * specialize (IH r n (buf ++ c) Hn). rewrite <- !app_assoc in IH. exact IH.
Qed.

(** Cancelling is harmless until the four bytes of the length prefix have arrived;
    later it loses the prefix. *)
Lemma read_cancel_spec : forall j s s', read_cancel j s = (s', Err CancelledError) ->
  (Z.of_nat (length (arrived j s)) < 4 /\ incoming s' = incoming s) \/
  (4 <= Z.of_nat (length (arrived j s)) /\
   exists h, length h = 4%nat /\ incoming s = h ++ incoming s' /\ Z.of_nat (length (arrived j s)) < 4 + s32 h).
Proof.
  intros j s s' H. unfold read_cancel, readexactly_cancel in H. change (4 <? 0) with false in H. cbv iota in H.
  pose proof (await_cancel_spec j (ar_chunks s) 4 (ar_buf s) ltac:(lia)) as K.
  fold (arrived j s) in K. fold (incoming s) in K.
  destruct (await_cancel j 4 (ar_buf s) (ar_chunks s)) as [[s1 j1] [h|e]].
  - right. destruct K as (K1 & K2 & K3 & K4). unfold zlen in K2, K4.
    assert (Hh : length h = 4%nat) by lia. split; [lia|].
    rewrite unpack_s32 in H by lia. destruct (Z.ltb_spec (s32 h) 0) as [Hs|Hs]; [discriminate H|].
    pose proof (await_cancel_spec j1 (ar_chunks s1) (s32 h) (ar_buf s1) Hs) as Q.
    fold (arrived j1 s1) in Q. fold (incoming s1) in Q.
    destruct (await_cancel j1 (s32 h) (ar_buf s1) (ar_chunks s1)) as [[s2 j2] [m|e]]; [discriminate H|].
    injection H as -> ->. destruct Q as [Q1 [[_ Q2]|Q2]]; [|discriminate Q2].
    exists h. rewrite K1, Q2. split; [exact Hh|]. split; [reflexivity|].
    rewrite K3, app_length, Hh. unfold zlen in Q1. lia.
  - left. injection H as -> ->. destruct K as [K1 [[_ K2]|K2]]; [|discriminate K2]. unfold zlen in K1. auto.
Qed.

(** *** C91: a read was cancelled before the length prefix of a message had arrived:
    the following reads return every message written.  What is missing is the claim
    for a read cancelled later. *)
Theorem C91_cancelled_read_partial : forall calls rest s j s',
  Forall fits (messages calls) -> incoming s = async_sent calls ++ rest ->
  read_cancel j s = (s', Err CancelledError) -> Z.of_nat (length (arrived j s)) < 4 ->
  exists s2, read_msg_n (length (messages calls)) s' = (s2, messages calls, None) /\ incoming s2 = rest.
Proof.
  intros calls rest s j s' Hf Hi H Hj. apply read_cancel_spec in H. destruct H as [[_ H]|[H _]]; [|lia].
  apply C20_intact; [exact Hf|]. rewrite H. exact Hi.
Qed.
Print Assumptions C91_cancelled_read_partial.

(** A read was cancelled when the prefix of [m] had arrived but not all of [m]: the
    following reads take the contents of [m] for frames.  In particular they return
    any [ms'] that [m] begins with the frames of, and not [m]. *)
Theorem C91_cancelled_read_refuted : forall m calls rest s j s' ms' tail,
  Forall fits (m :: messages calls) -> incoming s = async_sent ((m, []) :: calls) ++ rest ->
  read_cancel j s = (s', Err CancelledError) -> 4 <= Z.of_nat (length (arrived j s)) ->
  incoming s' = m ++ async_sent calls ++ rest /\
  (m = frames ms' ++ tail -> Forall fits ms' ->
   exists s2, read_msg_n (length ms') s' = (s2, ms', None) /\ incoming s2 = tail ++ async_sent calls ++ rest).
Proof.
  intros m calls rest s j s' ms' tail Hf Hi H Hj. inversion Hf as [|x l Hm Hc]; subst x l.
  apply read_cancel_spec in H. destruct H as [[H _]|[_ (h & Hh & H & _)]]; [lia|].
  assert (E : incoming s' = m ++ async_sent calls ++ rest).
  { rewrite Hi in H.
    rewrite async_sent_frames in H by (cbn; constructor; [exact Hm|exact Hc]).
    unfold messages in H. cbn [map concat fst snd app] in H. fold (messages calls) in H.
    rewrite frames_cons, <- app_assoc in H. rewrite <- async_sent_frames in H by exact Hc.
    unfold frame in H. rewrite <- app_assoc in H.
    assert (HL : length (u32le (Z.of_nat (length m))) = length h) by (rewrite Hh; reflexivity).
    apply (f_equal (skipn (length h))) in H. rewrite <- HL in H at 1.
    rewrite !skipn_app, !Nat.sub_diag, !skipn_all in H. cbn [app skipn] in H. symmetry. exact H. }
  split; [exact E|]. intros -> Hs. apply (read_msg_n_frames ms' (tail ++ async_sent calls ++ rest) s' Hs).
  change (pending s') with (incoming s'). rewrite E, <- app_assoc. reflexivity.
Qed.
Print Assumptions C91_cancelled_read_refuted.

(** A read that is not cancelled is an ordinary one, whatever the stream holds. *)
Theorem C91_not_cancelled : forall j s, (length (ar_chunks s) < j)%nat -> read_cancel j s = read_msg s.
Proof.
  assert (A : forall n ch j buf, (length ch < j)%nat -> exists j', await_cancel j n buf ch = (let (s, r) := await_data n buf ch in (s, j', r)) /\
                (length (ar_chunks (fst (await_data n buf ch))) < j')%nat).
  { intros n ch. induction ch as [|c ch IH]; intros j buf H; destruct j as [|j]; try (cbn in H; lia); cbn [await_cancel await_data].
    - destruct (n <=? zlen buf); eexists; (split; [reflexivity|]); cbn in *; lia.
    - destruct (n <=? zlen buf); [eexists; split; [reflexivity|]; cbn [fst ar_chunks]; exact H|]. apply IH. cbn in H. lia. }
  intros j s H. unfold read_cancel, read_msg, readexactly_cancel, readexactly. change (4 <? 0) with false. cbv iota.
  destruct (A 4 (ar_chunks s) j (ar_buf s) H) as (j1 & -> & H1). destruct (await_data 4 (ar_buf s) (ar_chunks s)) as [s1 [h|e]]; [|reflexivity].
  cbn [fst] in H1. destruct (unpack_i h <? 0); [reflexivity|]. destruct (A (unpack_i h) (ar_chunks s1) j1 (ar_buf s1) H1) as (j2 & -> & _).
  destruct (await_data _ _ _); reflexivity.
Qed.
Print Assumptions C91_not_cancelled.

(** One message of five bytes, whose contents look like the frame of "a"; a read is
    cancelled when two bytes, or five, have arrived. *)
Example C91_example :
  let s := AReader [] [[x05; x00]; [x00; x00; x01]; [x00; x00; x00; x61]] in
  incoming s = async_sent [(frame [x61], [])] /\
  read_cancel 1 s = (AReader [x05; x00] [[x00; x00; x01]; [x00; x00; x00; x61]], Err CancelledError) /\
  snd (read_msg (fst (read_cancel 1 s))) = Ok (frame [x61]) /\
  snd (read_cancel 2 s) = Err CancelledError /\
  snd (read_msg (fst (read_cancel 2 s))) = Ok [x61] /\
  snd (read_cancel 3 s) = Ok (frame [x61]).
Proof. vm_compute. auto 10. Qed.
