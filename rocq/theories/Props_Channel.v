(** Properties C16-C21: message framing on sockets and asyncio streams. *)
From Coq Require Import List ZArith Bool Strings.Byte Lia ZifyBool ZifyNat.
From Verif Require Import PyBase PyBase_proofs Packets_proofs Channel Channel_proofs Spec.
Import ListNotations.
Open Scope Z_scope.

(** A message whose length fits the signed 32-bit prefix. *)
Definition fits (m : list byte) : Prop := Z.of_nat (length m) < 2 ^ 31.

(** The network reports no error. *)
Definition reliable (s : sock) : Prop := forall e, ~ In (RFail e) (sk_sched s).

(** The bytes that successful [write_sync(m, *args)] calls hand to the socket. *)
Definition sent (calls : list (bytes * list bytes)) : bytes :=
  concat (map (fun c => concat (fst (write_sync (Ok tt) (fst c) (snd c)))) calls).

(** The messages of those calls. *)
Definition messages (calls : list (bytes * list bytes)) : list bytes :=
  concat (map (fun c => fst c :: snd c) calls).

Lemma sent_frames : forall calls, Forall fits (messages calls) -> sent calls = frames (messages calls).
Proof.
  induction calls as [|[m args] calls IH]; intro H; [reflexivity|].
  unfold messages in *. unfold sent in *. cbn [map concat fst snd] in *.
  apply Forall_app in H. destruct H as [H1 H2]. rewrite frames_app, <- IH by exact H2.
  f_equal. unfold write_sync. rewrite pack_frames_ok by exact H1. cbn [fst concat]. apply app_nil_r.
Qed.

(** *** C16 *)
Theorem C16_intact : forall calls rest s,
  Forall fits (messages calls) -> reliable s -> sk_in s = sent calls ++ rest ->
  exists s', read_sync_n (length (messages calls)) s = Some (s', messages calls, None) /\
             sk_in s' = rest.
Proof.
  intros calls rest s Hf Hr Hi. rewrite sent_frames in Hi by exact Hf.
  destruct (read_sync_n_frames (messages calls) rest s Hf Hr Hi) as (s' & H1 & H2 & _). eauto.
Qed.
Print Assumptions C16_intact.

(** Two calls, three messages (one empty), delivered one byte at a time and then
    in bigger pieces that straddle the frame boundaries. *)
Example C16_example :
  let calls := [([x61; x62], [[]]); ([x63], [])] in
  read_sync_n 3 (Sock (sent calls ++ [x7a]) [RChunk 1; RChunk 1; RChunk 9; RChunk 0; RChunk 3])
  = Some (Sock [x7a] [], [[x61; x62]; []; [x63]], None).
Proof. vm_compute. reflexivity. Qed.

(** "Every fragmentation": the socket of the model can cut what arrived at any places.  For every
    way of splitting the bytes into non-empty pieces there is a socket whose calls of [recv] return
    exactly these pieces, whatever (large enough) sizes are asked for. *)
Fixpoint recvs (ns : list Z) (s : sock) : list (res bytes) * sock :=
  match ns with
  | [] => ([], s)
  | n :: ns' => let '(s1, r) := recv n s in let '(rs, s2) := recvs ns' s1 in (r :: rs, s2)
  end.

Theorem C16_every_fragmentation : forall (pieces : list bytes) rest, Forall (fun c => c <> []) pieces ->
  exists s, sk_in s = concat pieces ++ rest /\ reliable s /\
    forall ns, Forall2 (fun c n => Z.of_nat (length c) <= n) pieces ns ->
      exists s', recvs ns s = (map Ok pieces, s') /\ sk_in s' = rest.
Proof.
  intros pieces rest H. exists (Sock (concat pieces ++ rest) (map (fun c : bytes => RChunk (length c)) pieces)).
  split; [reflexivity|]. split.
  - intros e I. cbn [sk_sched] in I. apply in_map_iff in I. destruct I as (c & E & _). discriminate E.
  - intros ns F. induction F as [|c n pieces ns Hc F IH]; [eexists; split; reflexivity|].
    inversion H as [|? ? Hn H']; subst. destruct (IH H') as (s' & E & R). exists s'. split; [|exact R].
    cbn [recvs map concat]. unfold recv at 1. cbn [sk_sched sk_in].
    assert (L : (1 <= length c)%nat) by (destruct c; [congruence|cbn [length]; lia]).
    destruct (Z.ltb_spec n 0) as [X|_]; [lia|].
    replace (Nat.min (Z.to_nat n) (Nat.max 1 (length c))) with (length c) by lia.
    rewrite <- app_assoc, skipn_app, firstn_app, Nat.sub_diag, skipn_all, firstn_all. cbn [skipn firstn app].
    rewrite app_nil_r, E. reflexivity.
Qed.
Print Assumptions C16_every_fragmentation.

Example C16_pieces : exists s,
  sk_in s = [x61; x62; x63; x64] /\ recvs [4; 9] s = ([Ok [x61]; Ok [x62; x63; x64]], Sock [] []).
Proof. exists (Sock [x61; x62; x63; x64] [RChunk 1; RChunk 3]). split; reflexivity. Qed.

(** *** C17: [k] is the number of bytes that arrive; [j] the number of complete
    messages among them. *)
Theorem C17_connection_loss : forall calls k s,
  Forall fits (messages calls) -> reliable s -> (k <= length (sent calls))%nat ->
  sk_in s = firstn k (sent calls) ->
  exists j s', (j <= length (messages calls))%nat /\
    (length (frames (firstn j (messages calls))) <= k)%nat /\
    (j < length (messages calls) -> k < length (frames (firstn (S j) (messages calls))))%nat /\
    (k = length (sent calls) -> j = length (messages calls)) /\
    read_sync_n (S j) s = Some (s', firstn j (messages calls), Some ComException).
Proof.
  intros calls k s Hf Hr Hk Hi. rewrite sent_frames in * by exact Hf.
  exact (read_sync_n_cut (messages calls) k s Hf Hr Hk Hi).
Qed.
Print Assumptions C17_connection_loss.

Example C17_example :
  let calls := [([x61; x62], [[]]); ([x63], [])] in
  read_sync_n 3 (Sock (firstn 14 (sent calls)) [RChunk 7])
  = Some (Sock [] [], [[x61; x62]; []], Some ComException).
Proof. vm_compute. reflexivity. Qed.

(** *** C18: every stream, every schedule, errors included.  [c] is what was taken
    from the stream. *)
Theorem C18_arbitrary_stream : forall s, exists s' r c,
  read_sync s = Some (s', r) /\ sk_in s = c ++ sk_in s' /\
  match r with
  | Ok m => exists h, c = h ++ m /\ length h = 4%nat /\ s32 h = Z.of_nat (length m)
  | Err e =>
      e = ComException /\
      (Z.of_nat (length c) <= 4 \/ Z.of_nat (length c) <= 4 + s32 (firstn 4 (sk_in s))) /\
      ((exists e', In (RFail e') (sk_sched s)) \/
       Z.of_nat (length (sk_in s)) < 4 \/
       s32 (firstn 4 (sk_in s)) < 0 \/
       Z.of_nat (length (sk_in s)) < 4 + s32 (firstn 4 (sk_in s)))
  end.
Proof.
  intro s. destruct (read_sync_spec s) as (s' & r & c & H1 & _ & H3 & H4).
  exists s', r, c. split; [exact H1|]. split; [exact H3|].
  destruct r as [m|e]; [exact H4|]. destruct H4 as (He & Hw & Hc).
  split; [exact He|]. split; [exact Hc|].
  destruct Hw as [Hw|[Hw|(h & r & Hr & Hh & Hw)]]; [auto|auto|].
  right. right. rewrite Hr, (firstn_app_exact _ 4 h r Hh), app_length.
  unfold zlen in Hw. destruct Hw as [Hw|Hw]; [left; exact Hw|right; lia].
Qed.
Print Assumptions C18_arbitrary_stream.

(** A negative announced length (-1), and an error of the network in mid-frame. *)
Example C18_example_negative :
  read_sync (Sock [xff; xff; xff; xff; x01] []) = Some (Sock [x01] [], Err ComException).
Proof. vm_compute. reflexivity. Qed.
Example C18_example_error :
  read_sync (Sock [x02; x00; x00; x00; x61; x62] [RChunk 3; RChunk 5; RFail OSError])
  = Some (Sock [x61; x62] [], Err ComException).
Proof. vm_compute. reflexivity. Qed.

(** Without network errors the outcome is decided by the bytes alone. *)
Theorem C18_schedule_independent : forall b sch1 sch2 s1 s2 r1 r2,
  reliable (Sock b sch1) -> reliable (Sock b sch2) ->
  read_sync (Sock b sch1) = Some (s1, r1) -> read_sync (Sock b sch2) = Some (s2, r2) ->
  r1 = r2 /\ (forall m, r1 = Ok m -> sk_in s1 = sk_in s2).
Proof.
  intros b sch1 sch2 s1 s2 r1 r2 R1 R2 E1 E2.
  destruct (read_sync_spec (Sock b sch1)) as (s1' & r1' & c1 & A1 & _ & B1 & C1).
  destruct (read_sync_spec (Sock b sch2)) as (s2' & r2' & c2 & A2 & _ & B2 & C2).
  rewrite E1 in A1. injection A1 as <- <-. rewrite E2 in A2. injection A2 as <- <-.
  cbn [sk_in sk_sched] in *.
  assert (K : forall sch h m s e (c : list byte), reliable (Sock b sch) -> b = (h ++ m) ++ sk_in s ->
     length h = 4%nat -> s32 h = zlen m ->
     (e = ComException /\ ((exists e', In (RFail e') sch) \/ zlen b < 4 \/
       (exists h r, b = h ++ r /\ length h = 4%nat /\ (s32 h < 0 \/ zlen r < s32 h))) /\
       (zlen c <= 4 \/ zlen c <= 4 + s32 (firstn 4 b))) -> False).
  { intros sch h m s e c HR Hb Hh Hs (_ & [[e' X]|[X|(h' & r & Hr & Hh' & X)]] & _).
    - apply (HR e'). exact X.
    - rewrite Hb in X. unfold zlen in X. rewrite !app_length in X. lia.
    - rewrite Hb, <- app_assoc in Hr. apply app_inj_len in Hr; [|congruence].
      destruct Hr as [<- <-]. unfold zlen in *. rewrite app_length in X. lia. }
  destruct r1 as [m1|e1], r2 as [m2|e2].
  - destruct C1 as (h1 & -> & L1 & S1), C2 as (h2 & -> & L2 & S2).
    rewrite B1, <- !app_assoc in B2.
    apply frame_split_unique in B2; auto. destruct B2 as [-> B2]. split; auto.
  - exfalso. destruct C1 as (h1 & -> & L1 & S1). eapply (K sch2); eauto.
  - exfalso. destruct C2 as (h2 & -> & L2 & S2). eapply (K sch1); eauto.
  - destruct C1 as [-> _], C2 as [-> _]. split; [auto|]. intros m H; discriminate H.
Qed.
Print Assumptions C18_schedule_independent.

Example C18_example_schedules :
  read_sync (Sock (frame [x61; x62]) [RChunk 1; RChunk 2]) = Some (Sock [] [], Ok [x61; x62]) /\
  read_sync (Sock (frame [x61; x62]) [RChunk 100]) = Some (Sock [] [], Ok [x61; x62]).
Proof. vm_compute. auto. Qed.

(** *** C19: [send] is what [sendall] does *)
Theorem C19_all_or_nothing : forall send m args,
  (Forall fits (m :: args) ->
     write_sync send m args =
       ([frames (m :: args)], match send with Ok _ => Ok tt | Err _ => Err ComException end)) /\
  (~ Forall fits (m :: args) -> write_sync send m args = ([], Err ComException)).
Proof.
  intros send m args. split; intro H; unfold write_sync.
  - rewrite pack_frames_ok by exact H. reflexivity.
  - rewrite pack_frames_big; [reflexivity|].
    assert (HD : forall x : list byte, fits x \/ ~ fits x) by (intro x; unfold fits; lia).
    assert (HE : forall l : list (list byte), ~ Forall fits l -> exists b, In b l /\ 2 ^ 31 <= zlen b).
    { intros l. induction l as [|x l IH]; intro HN; [exfalso; apply HN; constructor|].
      destruct (HD x) as [Hx|Hx].
      - destruct IH as (b & Hb & Hz).
        + intro HF. apply HN. constructor; auto.
        + exists b. split; [right; exact Hb|exact Hz].
      - exists x. split; [left; reflexivity|]. unfold fits, zlen in *. lia. }
    exact (HE (m :: args) H).
Qed.
Print Assumptions C19_all_or_nothing.

Example C19_example_ok : write_sync (Ok tt) [x61] [[x62; x63]] =
  ([[x01; x00; x00; x00; x61; x02; x00; x00; x00; x62; x63]], Ok tt).
Proof. vm_compute. reflexivity. Qed.
Example C19_example_big : forall n, 2 ^ 31 <= n ->
  write_sync (Ok tt) [x61] [repeat x00 (Z.to_nat n)] = ([], Err ComException).
Proof.
  intros n Hn. apply C19_all_or_nothing. intro H. apply Forall_inv_tail, Forall_inv in H.
  unfold fits in H. rewrite repeat_length in H. lia.
Qed.

(** *** C20 *)

(** All bytes that a reader has received or will receive. *)
Definition incoming (s : areader) : bytes := ar_buf s ++ concat (ar_chunks s).

(** The bytes that successful [AsyncioChannel.write(m, *args)] calls give to the transport. *)
Definition async_sent (calls : list (bytes * list bytes)) : bytes :=
  concat (map (fun c => fst (async_write (Ok tt) (fst c :: snd c))) calls).

Lemma async_sent_frames : forall calls, Forall fits (messages calls) ->
  async_sent calls = frames (messages calls).
Proof.
  induction calls as [|[m args] calls IH]; intro H; [reflexivity|].
  unfold messages, async_sent in *. cbn [map concat fst snd] in *.
  apply Forall_app in H. destruct H as [H1 H2]. rewrite frames_app, <- IH by exact H2.
  f_equal. rewrite async_write_ok by exact H1. reflexivity.
Qed.

Theorem C20_intact : forall calls rest s,
  Forall fits (messages calls) -> incoming s = async_sent calls ++ rest ->
  exists s', read_msg_n (length (messages calls)) s = (s', messages calls, None) /\
             incoming s' = rest.
Proof.
  intros calls rest s Hf Hi. rewrite async_sent_frames in Hi by exact Hf.
  exact (read_msg_n_frames (messages calls) rest s Hf Hi).
Qed.
Print Assumptions C20_intact.

Theorem C20_end_of_stream : forall calls k s,
  Forall fits (messages calls) -> (k <= length (async_sent calls))%nat ->
  incoming s = firstn k (async_sent calls) ->
  exists j s', (j <= length (messages calls))%nat /\
    (length (frames (firstn j (messages calls))) <= k)%nat /\
    (j < length (messages calls) -> k < length (frames (firstn (S j) (messages calls))))%nat /\
    (k = length (async_sent calls) -> j = length (messages calls)) /\
    read_msg_n (S j) s = (s', firstn j (messages calls), Some IncompleteReadError).
Proof.
  intros calls k s Hf Hk Hi. rewrite async_sent_frames in * by exact Hf.
  exact (read_msg_n_cut (messages calls) k s Hf Hk Hi).
Qed.
Print Assumptions C20_end_of_stream.

(** Every stream: exactly the announced bytes, or one of two exceptions. *)
Theorem C20_arbitrary_stream : forall s,
  match read_msg s with
  | (s', Ok m) => exists h, incoming s = h ++ m ++ incoming s' /\ length h = 4%nat /\
                            s32 h = Z.of_nat (length m)
  | (s', Err e) =>
      (e = IncompleteReadError /\ (Z.of_nat (length (incoming s)) < 4 \/
         exists h r, incoming s = h ++ r /\ length h = 4%nat /\ Z.of_nat (length r) < s32 h)) \/
      (e = ValueError /\ exists h r, incoming s = h ++ r /\ length h = 4%nat /\ s32 h < 0)
  end.
Proof. exact read_msg_spec. Qed.
Print Assumptions C20_arbitrary_stream.

(** Unlike SocketChannel, an oversized message leaves the earlier messages of the
    same call on the wire. *)
Theorem C20_oversized : forall drain pre big rest,
  Forall fits pre -> ~ fits big ->
  async_write drain (pre ++ big :: rest) = (frames pre, Err StructError).
Proof.
  intros drain pre big rest Hp Hb. apply async_write_big; [exact Hp|].
  unfold fits, zlen in *. lia.
Qed.
Print Assumptions C20_oversized.

Example C20_example :
  let calls := [([x61; x62], [[]]); ([x63], [])] in
  read_msg_n 3 (AReader [x02; x00] [[x00]; []; [x00; x61]; [x62; x00; x00; x00; x00; x01; x00; x00; x00; x63; x7a]])
  = (AReader [x7a] [], messages calls, None).
Proof. vm_compute. reflexivity. Qed.
Example C20_example_cut :
  read_msg_n 2 (AReader [] [frame [x61]; [x01; x00; x00; x00]]) = (AReader [] [], [[x61]], Some IncompleteReadError).
Proof. vm_compute. reflexivity. Qed.
Example C20_example_negative :
  read_msg (AReader [] [[x00; x00; x00; x80]]) = (AReader [] [], Err ValueError).
Proof. vm_compute. reflexivity. Qed.

(** *** C21: false of AsyncioChannel, true of SocketChannel. *)
Theorem C21_com_exceptions_refuted :
  ~ (forall s, match read_msg s with (_, Err e) => is_com e = true | _ => True end).
Proof.
  intro H. specialize (H (AReader [] [[x01]])). vm_compute in H. discriminate H.
Qed.
Print Assumptions C21_com_exceptions_refuted.

(** In fact no failing read of AsyncioChannel is a ComException. *)
Theorem C21_asyncio_never_com : forall s s' e, read_msg s = (s', Err e) -> is_com e = false.
Proof.
  intros s s' e H. pose proof (read_msg_spec s) as K. rewrite H in K.
  destruct K as [[-> _]|[-> _]]; reflexivity.
Qed.
Print Assumptions C21_asyncio_never_com.

Theorem C21_com_exceptions_partial :
  (forall s s' e, read_sync s = Some (s', Err e) -> is_com e = true) /\
  (forall send m args bs e, write_sync send m args = (bs, Err e) -> is_com e = true).
Proof.
  split.
  - intros s s' e H. destruct (read_sync_spec s) as (s1 & r & c & H1 & _ & _ & H4).
    rewrite H in H1. injection H1 as <- <-. destruct H4 as [-> _]. reflexivity.
  - intros send m args bs e H. unfold write_sync in H.
    destruct (pack_frames (m :: args)); [destruct send|]; inversion H; reflexivity.
Qed.
Print Assumptions C21_com_exceptions_partial.

Example C21_example :
  read_sync (Sock [x01] []) = Some (Sock [] [], Err ComException) /\
  read_msg (AReader [] [[x01]]) = (AReader [] [], Err IncompleteReadError).
Proof. vm_compute. auto. Qed.
