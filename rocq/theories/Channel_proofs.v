(** Lemmas about the transport channels. *)
From Coq Require Import List ZArith Bool Strings.Byte Lia ZifyBool ZifyNat ZifyN.
From Verif Require Import PyBase PyBase_proofs Packets_proofs Channel Spec.
Import ListNotations.
Open Scope Z_scope.
Ltac Zify.zify_post_hook ::= Z.div_mod_to_equations.

(** ** Length prefixes *)

Lemma unpack_s32 : forall h, unpack_i h = s32 h.
Proof. intro h. unfold s32. rewrite le_val_le_dec. reflexivity. Qed.

Lemma s32_u32le : forall z, 0 <= z < 2 ^ 31 -> s32 (u32le z) = z.
Proof.
  intros z H. unfold s32. rewrite le_val_le_dec, le_dec_u32.
  rewrite Z.mod_small by lia. destruct (Z.ltb_spec z (2 ^ 31)); lia.
Qed.

Lemma pack_i_ok : forall z, 0 <= z < 2 ^ 31 -> pack_i z = Ok (u32le z).
Proof.
  intros z H. unfold pack_i. assert ((- 2 ^ 31 <=? z) && (z <? 2 ^ 31) = true) as -> by lia.
  rewrite le_enc_u32. reflexivity.
Qed.

Lemma pack_i_big : forall z, 2 ^ 31 <= z -> pack_i z = Err StructError.
Proof.
  intros z H. unfold pack_i. assert ((- 2 ^ 31 <=? z) && (z <? 2 ^ 31) = false) as -> by lia. reflexivity.
Qed.

Definition small (m : bytes) : Prop := zlen m < 2 ^ 31.

Lemma small_s32 : forall m, small m -> s32 (u32le (Z.of_nat (length m))) = zlen m.
Proof. intros m H. apply s32_u32le. unfold small, zlen in *. lia. Qed.

Lemma frames_cons : forall m ms, frames (m :: ms) = frame m ++ frames ms.
Proof. reflexivity. Qed.

Lemma frames_app : forall a b, frames (a ++ b) = frames a ++ frames b.
Proof. intros. unfold frames. rewrite map_app, concat_app. reflexivity. Qed.

Lemma frame_length : forall m, length (frame m) = (4 + length m)%nat.
Proof. intro m. unfold frame. rewrite app_length. reflexivity. Qed.

Lemma pack_frames_ok : forall ms, Forall small ms -> pack_frames ms = Ok (frames ms).
Proof.
  induction ms as [|m ms IH]; intro H; cbn [pack_frames]; auto.
  inversion H as [|? ? Hm Hms]; subst. unfold small, zlen in Hm.
  rewrite pack_i_ok by (unfold zlen; lia). rewrite IH by auto.
  rewrite frames_cons. unfold frame, zlen. rewrite <- app_assoc. reflexivity.
Qed.

Lemma pack_frames_big : forall ms, (exists m, In m ms /\ 2 ^ 31 <= zlen m) ->
  pack_frames ms = Err StructError.
Proof.
  induction ms as [|m ms IH]; intros (b & HI & Hb); [destruct HI|]. cbn [pack_frames].
  destruct (Z.lt_ge_cases (zlen m) (2 ^ 31)) as [Hm|Hm].
  - rewrite pack_i_ok by (unfold zlen in *; lia). rewrite IH; auto.
    destruct HI as [<-|HI]; [lia|]. eauto.
  - rewrite pack_i_big by auto. reflexivity.
Qed.

(** ** recvall *)
Definition nofail (l : list recv_choice) : Prop := forall e, ~ In (RFail e) l.
Definition suffix {A} (s l : list A) : Prop := exists p, l = p ++ s.

Lemma nofail_suffix : forall s l, suffix s l -> nofail l -> nofail s.
Proof. intros s l [p ->] H e HI. apply (H e). apply in_or_app; auto. Qed.

Lemma suffix_refl : forall A (l : list A), suffix l l.
Proof. intros. exists []. reflexivity. Qed.
Lemma suffix_trans : forall A (a b c : list A), suffix a b -> suffix b c -> suffix a c.
Proof. intros A a b c [p ->] [q ->]. exists (q ++ p). rewrite app_assoc. reflexivity. Qed.

Lemma recv_spec : forall n s s' r, 0 < n -> recv n s = (s', r) ->
  suffix (sk_sched s') (sk_sched s) /\
  match r with
  | Err e => In (RFail e) (sk_sched s) /\ sk_in s' = sk_in s
  | Ok b => sk_in s = b ++ sk_in s' /\ zlen b <= n /\ (b = [] -> sk_in s = [])
  end.
Proof.
  intros n [inp sch] s' r Hn H. unfold recv in H. cbn [sk_in sk_sched] in *.
  assert (n <? 0 = false) as E by lia. rewrite E in H.
  destruct sch as [|[k|e] sch].
  - injection H as <- <-. cbn [sk_in sk_sched]. split; [apply suffix_refl|].
    rewrite firstn_skipn. split; auto. split; [unfold zlen; rewrite firstn_length; lia|].
    intro HE. destruct inp; auto. apply (f_equal (@length byte)) in HE. rewrite firstn_length in HE. cbn [length] in HE. lia.
  - injection H as <- <-. cbn [sk_in sk_sched]. split; [exists [RChunk k]; reflexivity|].
    rewrite firstn_skipn. split; auto. split; [unfold zlen; rewrite firstn_length; lia|].
    intro HE. destruct inp; auto. apply (f_equal (@length byte)) in HE. rewrite firstn_length in HE. cbn [length] in HE. destruct k; lia.
  - injection H as <- <-. cbn [sk_in sk_sched]. split; [exists [RFail e]; reflexivity|].
    split; auto. left; auto.
Qed.

Lemma recvall_loop_spec : forall fuel count buf s, 0 <= count -> (Z.to_nat count < fuel)%nat ->
  exists s' r a, recvall_loop fuel count buf s = Some (s', r) /\
    suffix (sk_sched s') (sk_sched s) /\ sk_in s = a ++ sk_in s' /\ zlen a <= count /\
    match r with
    | Err e => In (RFail e) (sk_sched s)
    | Ok (b, true) => b = buf ++ a /\ zlen a = count
    | Ok (b, false) => b = buf ++ a /\ sk_in s' = [] /\ zlen a < count
    end.
Proof.
  induction fuel as [|f IH]; intros count buf s Hc Hf; [lia|]. cbn [recvall_loop].
  destruct (Z.eqb_spec count 0) as [->|Hne].
  - exists s, (Ok (buf, true)), []. repeat split; auto; try apply suffix_refl.
    + rewrite app_nil_r; auto.
  - destruct (recv count s) as [s1 r1] eqn:ER.
    pose proof (recv_spec count s s1 r1 ltac:(lia) ER) as [HS1 HR].
    destruct r1 as [nb|e].
    + destruct HR as (Hin & Hle & Hemp).
      destruct nb as [|x nb]; cbn [is_empty].
      * exists s1, (Ok (buf, false)), []. repeat split; auto; try (cbn; lia).
        -- rewrite app_nil_r; auto.
        -- rewrite Hemp in Hin by auto. destruct (sk_in s1); [auto|discriminate].
      * destruct (IH (count - zlen (x :: nb)) (buf ++ x :: nb) s1) as (s' & r & a & H1 & H2 & H3 & H4 & H5).
        { lia. }
        { unfold zlen in *. cbn [length] in *. lia. }
        exists s', r, ((x :: nb) ++ a). split; auto. split; [eapply suffix_trans; eauto|].
        assert (HZ : zlen ((x :: nb) ++ a) = zlen (x :: nb) + zlen a) by (unfold zlen; rewrite app_length; lia).
        split; [rewrite Hin, H3, app_assoc; reflexivity|]. split; [lia|].
        destruct r as [[b [|]]|e].
        -- destruct H5 as [-> H5]. split; [rewrite <- app_assoc; auto|lia].
        -- destruct H5 as (-> & H5 & H6). repeat split; [rewrite <- app_assoc; auto|auto|lia].
        -- destruct HS1 as [p Hp]. rewrite Hp. apply in_or_app; auto.
    + destruct HR as [HR Hin]. exists s1, (Err e), []. repeat split; auto.
Qed.

(** The result of [recvall] for every count, negative ones included. *)
Lemma recvall_spec : forall count s, exists s' r a, recvall count s = Some (s', r) /\
  suffix (sk_sched s') (sk_sched s) /\ sk_in s = a ++ sk_in s' /\
  match r with
  | Err e => (In (RFail e) (sk_sched s) /\ zlen a <= count) \/ (count < 0 /\ a = [])
  | Ok (b, true) => b = a /\ zlen a = count
  | Ok (b, false) => b = a /\ sk_in s' = [] /\ zlen a < count
  end.
Proof.
  intros count s. destruct (Z.lt_ge_cases count 0) as [Hc|Hc].
  - exists s, (Err ValueError), []. unfold recvall. cbn [recvall_loop].
    assert (count =? 0 = false) as -> by lia. unfold recv.
    assert (count <? 0 = true) as -> by lia. repeat split; auto. apply suffix_refl.
  - destruct (recvall_loop_spec (S (Z.to_nat count)) count [] s) as (s' & r & a & H1 & H2 & H3 & H4 & H5); try lia.
    exists s', r, a. unfold recvall. repeat split; auto.
    destruct r as [[b [|]]|e]; auto.
Qed.

(** ** read_sync *)
Lemma read_sync_spec : forall s, exists s' r c, read_sync s = Some (s', r) /\
  suffix (sk_sched s') (sk_sched s) /\ sk_in s = c ++ sk_in s' /\
  match r with
  | Ok m => exists h, c = h ++ m /\ length h = 4%nat /\ s32 h = zlen m
  | Err e => e = ComException /\
      ((exists e', In (RFail e') (sk_sched s)) \/
       (zlen (sk_in s) < 4) \/
       (exists h r, sk_in s = h ++ r /\ length h = 4%nat /\ (s32 h < 0 \/ zlen r < s32 h))) /\
      (zlen c <= 4 \/ zlen c <= 4 + s32 (firstn 4 (sk_in s)))
  end.
Proof.
  intro s. unfold read_sync.
  destruct (recvall_spec 4 s) as (s1 & r1 & a & H1 & H2 & H3 & H4). rewrite H1.
  destruct r1 as [[b [|]]|e].
  - destruct H4 as [-> Ha].
    destruct (recvall_spec (unpack_i a) s1) as (s2 & r2 & a2 & K1 & K2 & K3 & K4). rewrite K1.
    rewrite unpack_s32 in *.
    assert (Ha4 : length a = 4%nat) by (unfold zlen in Ha; lia).
    assert (HF4 : firstn 4 (sk_in s) = a) by (rewrite H3; apply firstn_app_exact; auto).
    assert (HZ : zlen (a ++ a2) = 4 + zlen a2) by (unfold zlen in *; rewrite app_length; lia).
    destruct r2 as [[b2 [|]]|e2].
    + destruct K4 as [-> K4]. exists s2, (Ok a2), (a ++ a2). split; auto.
      split; [eapply suffix_trans; eauto|]. split; [rewrite H3, K3, app_assoc; auto|].
      exists a. repeat split; auto.
    + destruct K4 as (-> & K4 & K5). exists s2, (Err ComException), (a ++ a2). split; auto.
      split; [eapply suffix_trans; eauto|]. split; [rewrite H3, K3, app_assoc; auto|].
      split; auto. split.
      * right. right. exists a, (sk_in s1). repeat split; auto. right.
        rewrite K3, K4, app_nil_r. auto.
      * right. rewrite HF4. lia.
    + exists s2, (Err ComException), (a ++ a2). split; auto.
      split; [eapply suffix_trans; eauto|]. split; [rewrite H3, K3, app_assoc; auto|].
      split; auto. split.
      * destruct K4 as [[K4 _]|[K4 _]].
        -- left. exists e2. destruct H2 as [p Hp]. rewrite Hp. apply in_or_app; auto.
        -- right. right. exists a, (sk_in s1). repeat split; auto.
      * destruct K4 as [[_ K4]|[_ ->]]; [right; rewrite HF4; lia|left].
        rewrite app_nil_r. lia.
  - destruct H4 as (-> & H4 & H5). exists s1, (Err ComException), a. repeat split; auto.
    + right. left. rewrite H3, H4, app_nil_r. auto.
    + left; lia.
  - exists s1, (Err ComException), a. repeat split; auto.
    + left. destruct H4 as [[H4 _]|[H4 _]]; [eauto|lia].
    + destruct H4 as [[_ H4]|[H4 _]]; [left; auto|lia].
Qed.

Lemma frame_split_unique : forall h m r h' m' r', length h = 4%nat -> length h' = 4%nat ->
  s32 h = zlen m -> s32 h' = zlen m' -> h ++ m ++ r = h' ++ m' ++ r' -> m = m' /\ r = r'.
Proof.
  intros h m r h' m' r' H4 H4' Hs Hs' HE.
  apply app_inj_len in HE; [|congruence]. destruct HE as [<- HE].
  apply app_inj_len in HE; [|unfold zlen in *; lia]. exact HE.
Qed.

(** A frame at the head of a stream without network errors is read exactly. *)
Lemma read_sync_frame : forall m rest s, small m -> nofail (sk_sched s) ->
  sk_in s = frame m ++ rest ->
  exists s', read_sync s = Some (s', Ok m) /\ sk_in s' = rest /\ nofail (sk_sched s').
Proof.
  intros m rest s Hm Hn Hi.
  destruct (read_sync_spec s) as (s' & r & c & H1 & H2 & H3 & H4).
  unfold frame in Hi. rewrite <- app_assoc in Hi.
  assert (Hs : s32 (u32le (Z.of_nat (length m))) = zlen m).
  { apply small_s32. assumption. }
  exists s'. destruct r as [m'|e].
  - destruct H4 as (h & -> & Hh & Hs'). rewrite H3, <- app_assoc in Hi.
    apply frame_split_unique in Hi; auto. destruct Hi as [-> Hi].
    repeat split; auto. eapply nofail_suffix; eauto.
  - exfalso. destruct H4 as (_ & [[e' He]|[Hl|(h & r & Hr & Hh & Hx)]] & _).
    + eapply Hn; eauto.
    + rewrite Hi in Hl. unfold zlen in Hl. rewrite app_length in Hl.
      change (length (u32le (Z.of_nat (length m)))) with 4%nat in Hl. lia.
    + rewrite Hr in Hi. apply app_inj_len in Hi; [|rewrite Hh; reflexivity].
      destruct Hi as [-> ->]. rewrite Hs in Hx. unfold zlen in Hx. rewrite app_length in Hx. lia.
Qed.

(** A strict prefix of a frame raises ComException. *)
Lemma read_sync_cut : forall m k s, small m -> nofail (sk_sched s) ->
  (k < length (frame m))%nat -> sk_in s = firstn k (frame m) ->
  exists s', read_sync s = Some (s', Err ComException).
Proof.
  intros m k s Hm Hn Hk Hi.
  destruct (read_sync_spec s) as (s' & r & c & H1 & H2 & H3 & H4).
  exists s'. destruct r as [m'|e]; [|destruct H4 as [-> _]; auto].
  exfalso. destruct H4 as (h & -> & Hh & Hs'). rewrite H3 in Hi.
  rewrite frame_length in Hk.
  assert (HL : length (firstn k (frame m)) = k) by (rewrite firstn_length, frame_length; lia).
  assert (Hfr : frame m = h ++ m' ++ sk_in s' ++ skipn k (frame m)).
  { rewrite <- (firstn_skipn k (frame m)) at 1. rewrite <- Hi, <- !app_assoc. reflexivity. }
  rewrite <- (app_nil_r (frame m)) in Hfr at 1. unfold frame in Hfr at 1. rewrite <- app_assoc in Hfr.
  apply frame_split_unique in Hfr; auto.
  - destruct Hfr as [<- _]. rewrite <- Hi in HL. rewrite !app_length in HL. lia.
  - apply small_s32. assumption.
Qed.

Lemma read_sync_n_frames : forall ms rest s, Forall small ms -> nofail (sk_sched s) ->
  sk_in s = frames ms ++ rest ->
  exists s', read_sync_n (length ms) s = Some (s', ms, None) /\ sk_in s' = rest /\ nofail (sk_sched s').
Proof.
  induction ms as [|m ms IH]; intros rest s Hs Hn Hi; cbn [length read_sync_n].
  - exists s. auto.
  - inversion Hs; subst. rewrite frames_cons, <- app_assoc in Hi.
    destruct (read_sync_frame m (frames ms ++ rest) s) as (s1 & R1 & R2 & R3); auto.
    rewrite R1. destruct (IH rest s1) as (s2 & Q1 & Q2 & Q3); auto.
    rewrite Q1. exists s2. auto.
Qed.

Lemma read_sync_n_app : forall n1 n2 s s1 l1, read_sync_n n1 s = Some (s1, l1, None) ->
  read_sync_n (n1 + n2) s =
    match read_sync_n n2 s1 with
    | None => None | Some (s2, l2, e) => Some (s2, l1 ++ l2, e) end.
Proof.
  induction n1 as [|n1 IH]; intros n2 s s1 l1 H; cbn [read_sync_n Nat.add] in *.
  - injection H as <- <-. destruct (read_sync_n n2 s) as [[[? ?] ?]|]; reflexivity.
  - destruct (read_sync s) as [[s' [m|e]]|]; try discriminate.
    destruct (read_sync_n n1 s') as [[[s2 l2] e2]|] eqn:E; try discriminate.
    injection H as -> <- ->. rewrite (IH n2 s' s1 l2 E).
    destruct (read_sync_n n2 s1) as [[[? ?] ?]|]; reflexivity.
Qed.

(** The number of complete messages among the first [k] bytes. *)
Lemma cut_split : forall ms k, (k <= length (frames ms))%nat -> exists j,
  (j <= length ms)%nat /\ (length (frames (firstn j ms)) <= k)%nat /\
  (j < length ms -> k < length (frames (firstn (S j) ms)))%nat /\
  (k = length (frames ms) -> j = length ms).
Proof.
  induction ms as [|m ms IH]; intros k Hk.
  - exists 0%nat. cbn in *. repeat split; lia.
  - destruct (Nat.lt_ge_cases k (length (frame m))) as [Hlt|Hge].
    + exists 0%nat. split; [lia|]. split; [cbn; lia|]. split.
      * intros _. change (frames (firstn 1 (m :: ms))) with (frame m ++ []). rewrite app_length. lia.
      * rewrite frames_cons, app_length. lia.
    + rewrite frames_cons, app_length in Hk.
      destruct (IH (k - length (frame m))%nat) as (j & H1 & H2 & H3 & H4); [lia|].
      exists (S j). cbn [length]. split; [lia|]. split.
      { cbn [firstn]. rewrite frames_cons, app_length. lia. }
      split.
      { intro HJ. specialize (H3 ltac:(lia)).
        change (firstn (S (S j)) (m :: ms)) with (m :: firstn (S j) ms).
        rewrite frames_cons, app_length. lia. }
      { intro HK. f_equal. apply H4. rewrite frames_cons, app_length in HK. lia. }
Qed.

Lemma read_sync_n_cut : forall ms k s, Forall small ms -> nofail (sk_sched s) ->
  (k <= length (frames ms))%nat -> sk_in s = firstn k (frames ms) ->
  exists j s', (j <= length ms)%nat /\ (length (frames (firstn j ms)) <= k)%nat /\
    (j < length ms -> k < length (frames (firstn (S j) ms)))%nat /\
    (k = length (frames ms) -> j = length ms) /\
    read_sync_n (S j) s = Some (s', firstn j ms, Some ComException).
Proof.
  intros ms k s Hs Hn Hk Hi.
  unfold bytes in *. destruct (cut_split ms k Hk) as (j & H1 & H2 & H3 & H4).
  assert (Hsplit : frames ms = frames (firstn j ms) ++ frames (skipn j ms)).
  { rewrite <- frames_app, firstn_skipn. reflexivity. }
  assert (Hsj : Forall small (firstn j ms) /\ Forall small (skipn j ms)).
  { rewrite <- Forall_app, firstn_skipn. auto. }
  destruct Hsj as [Hs1 Hs2].
  rewrite Hsplit, firstn_app, (firstn_all2 (frames (firstn j ms)) H2) in Hi.
  set (k' := (k - length (frames (firstn j ms)))%nat) in *.
  destruct (read_sync_n_frames (firstn j ms) (firstn k' (frames (skipn j ms))) s) as (s1 & R1 & R2 & R3); auto.
  rewrite firstn_length_le in R1 by auto.
  assert (HT : exists s2, read_sync_n 1 s1 = Some (s2, [], Some ComException)).
  { cbn [read_sync_n]. destruct (skipn j ms) as [|m r] eqn:ESk.
    - change (frames []) with (@nil byte) in R2. rewrite firstn_nil in R2.
      destruct (read_sync_spec s1) as (s2 & r & c & Q1 & Q2 & Q3 & Q4).
      destruct r as [m|e].
      + exfalso. destruct Q4 as (h & -> & Hh & _). rewrite Q3 in R2.
        apply (f_equal (@length byte)) in R2. rewrite !app_length, Hh in R2. cbn [length] in R2. lia.
      + rewrite Q1. destruct Q4 as [-> _]. eauto.
    - inversion Hs2; subst.
      assert (Hj : (j < length ms)%nat).
      { apply (f_equal (@length (list byte))) in ESk. rewrite skipn_length in ESk. cbn [length] in ESk. lia. }
      assert (HSj : firstn (S j) ms = firstn j ms ++ [m]).
      { rewrite <- (firstn_skipn j ms) at 1. rewrite ESk. rewrite firstn_app.
        rewrite firstn_length_le by lia. replace (S j - j)%nat with 1%nat by lia.
        rewrite firstn_all2 by (rewrite firstn_length_le by lia; lia). reflexivity. }
      specialize (H3 Hj). rewrite HSj, frames_app, app_length in H3.
      change (frames [m]) with (frame m ++ []) in H3. rewrite app_nil_r in H3.
      destruct (read_sync_cut m k' s1) as (s2 & Q); auto.
      + unfold k'. lia.
      + rewrite R2, frames_cons. rewrite firstn_app.
        replace (k' - length (frame m))%nat with 0%nat by (unfold k'; lia).
        cbn [firstn]. rewrite app_nil_r. reflexivity.
      + rewrite Q. eauto. }
  destruct HT as [s2 HT]. exists j, s2. repeat split; auto.
  replace (S j) with (j + 1)%nat by lia. rewrite (read_sync_n_app _ _ _ _ _ R1), HT, app_nil_r. reflexivity.
Qed.

(** ** asyncio *)
Definition pending (s : areader) : bytes := ar_buf s ++ concat (ar_chunks s).

Lemma await_data_spec : forall chunks n buf, 0 <= n ->
  match await_data n buf chunks with
  | (s', Ok b) => buf ++ concat chunks = b ++ pending s' /\ zlen b = n
  | (s', Err e) => e = IncompleteReadError /\ zlen (buf ++ concat chunks) < n /\ pending s' = []
  end.
Proof.
  unfold pending. induction chunks as [|c r IH]; intros n buf Hn; cbn [await_data].
  - destruct (Z.leb_spec n (zlen buf)) as [H|H]; cbn [ar_buf ar_chunks concat].
    + rewrite !app_nil_r, firstn_skipn. split; auto. unfold zlen in *. rewrite firstn_length. lia.
    + rewrite app_nil_r. auto.
  - destruct (Z.leb_spec n (zlen buf)) as [H|H]; cbn [ar_buf ar_chunks concat].
    + rewrite (app_assoc (firstn _ _)), firstn_skipn. split; auto. unfold zlen in *. rewrite firstn_length. lia.
    + specialize (IH n (buf ++ c) Hn). rewrite <- app_assoc in IH. exact IH.
Qed.

Lemma read_msg_spec : forall s,
  match read_msg s with
  | (s', Ok m) => exists h, pending s = h ++ m ++ pending s' /\ length h = 4%nat /\ s32 h = zlen m
  | (s', Err e) =>
      (e = IncompleteReadError /\ (zlen (pending s) < 4 \/
         exists h r, pending s = h ++ r /\ length h = 4%nat /\ zlen r < s32 h)) \/
      (e = ValueError /\ exists h r, pending s = h ++ r /\ length h = 4%nat /\ s32 h < 0)
  end.
Proof.
  intro s. unfold read_msg, readexactly. change (4 <? 0) with false. cbv iota.
  pose proof (await_data_spec (ar_chunks s) 4 (ar_buf s) ltac:(lia)) as H.
  destruct (await_data 4 (ar_buf s) (ar_chunks s)) as [s1 [h|e]].
  - destruct H as [H1 H2]. fold (pending s) in H1. rewrite unpack_s32.
    assert (Hh : length h = 4%nat) by (unfold zlen in H2; lia).
    destruct (Z.ltb_spec (s32 h) 0) as [Hs|Hs].
    + right. split; auto. exists h, (pending s1). auto.
    + pose proof (await_data_spec (ar_chunks s1) (s32 h) (ar_buf s1) Hs) as K.
      destruct (await_data (s32 h) (ar_buf s1) (ar_chunks s1)) as [s2 [m|e]].
      * destruct K as [K1 K2]. fold (pending s1) in K1. exists h. rewrite H1, K1. auto.
      * destruct K as (-> & K1 & K2). fold (pending s1) in K1. left. split; auto. right.
        exists h, (pending s1). auto.
  - destruct H as (-> & H & _). left. split; auto.
Qed.

Lemma read_msg_frame : forall m rest s, small m -> pending s = frame m ++ rest ->
  exists s', read_msg s = (s', Ok m) /\ pending s' = rest.
Proof.
  intros m rest s Hm Hi. pose proof (read_msg_spec s) as H.
  unfold frame in Hi. rewrite <- app_assoc in Hi.
  assert (Hs : s32 (u32le (Z.of_nat (length m))) = zlen m).
  { apply small_s32. assumption. }
  destruct (read_msg s) as [s' [m'|e]].
  - destruct H as (h & H1 & H2 & H3). rewrite H1 in Hi.
    apply frame_split_unique in Hi; auto. destruct Hi as [-> <-]. eauto.
  - exfalso. destruct H as [[_ [H|(h & r & H1 & H2 & H3)]]|[_ (h & r & H1 & H2 & H3)]].
    + rewrite Hi in H. unfold zlen in H. rewrite app_length in H.
      change (length (u32le (Z.of_nat (length m)))) with 4%nat in H. lia.
    + rewrite H1 in Hi. apply app_inj_len in Hi; [|rewrite H2; reflexivity]. destruct Hi as [-> ->].
      rewrite Hs in H3. unfold zlen in H3. rewrite app_length in H3. lia.
    + rewrite H1 in Hi. apply app_inj_len in Hi; [|rewrite H2; reflexivity]. destruct Hi as [-> ->].
      rewrite Hs in H3. unfold zlen in H3. lia.
Qed.

Lemma read_msg_n_frames : forall ms rest s, Forall small ms -> pending s = frames ms ++ rest ->
  exists s', read_msg_n (length ms) s = (s', ms, None) /\ pending s' = rest.
Proof.
  induction ms as [|m ms IH]; intros rest s Hs Hi; cbn [length read_msg_n].
  - exists s. auto.
  - inversion Hs; subst. rewrite frames_cons, <- app_assoc in Hi.
    destruct (read_msg_frame m (frames ms ++ rest) s) as (s1 & R1 & R2); auto.
    rewrite R1. destruct (IH rest s1) as (s2 & Q1 & Q2); auto. rewrite Q1. exists s2. auto.
Qed.

Lemma read_msg_n_app : forall n1 n2 s s1 l1, read_msg_n n1 s = (s1, l1, None) ->
  read_msg_n (n1 + n2) s =
    match read_msg_n n2 s1 with (s2, l2, e) => (s2, l1 ++ l2, e) end.
Proof.
  induction n1 as [|n1 IH]; intros n2 s s1 l1 H; cbn [read_msg_n Nat.add] in *.
  - injection H as <- <-. destruct (read_msg_n n2 s) as [[? ?] ?]; reflexivity.
  - destruct (read_msg s) as [s' [m|e]]; try discriminate.
    destruct (read_msg_n n1 s') as [[s2 l2] e2] eqn:E.
    injection H as -> <- ->. rewrite (IH n2 s' s1 l2 E).
    destruct (read_msg_n n2 s1) as [[? ?] ?]; reflexivity.
Qed.

Lemma read_msg_cut : forall m k s, small m -> (k < length (frame m))%nat ->
  pending s = firstn k (frame m) -> exists s', read_msg s = (s', Err IncompleteReadError).
Proof.
  intros m k s Hm Hk Hi. pose proof (read_msg_spec s) as H.
  rewrite frame_length in Hk.
  assert (HL : length (firstn k (frame m)) = k) by (rewrite firstn_length, frame_length; lia).
  assert (Hs : s32 (u32le (Z.of_nat (length m))) = zlen m).
  { apply small_s32. assumption. }
  destruct (read_msg s) as [s' [m'|e]].
  - exfalso. destruct H as (h & H1 & H2 & H3). rewrite H1 in Hi.
    assert (Hfr : frame m ++ [] = h ++ m' ++ pending s' ++ skipn k (frame m)).
    { rewrite app_nil_r. rewrite <- (firstn_skipn k (frame m)) at 1. rewrite <- Hi, <- !app_assoc. reflexivity. }
    unfold frame in Hfr at 1. rewrite <- app_assoc in Hfr.
    apply frame_split_unique in Hfr; auto.
    destruct Hfr as [<- _]. rewrite <- Hi in HL. rewrite !app_length in HL. lia.
  - exists s'. destruct H as [[-> _]|[_ (h & r & H1 & H2 & H3)]]; auto. exfalso.
    rewrite H1 in Hi.
    assert (Hfr : frame m = h ++ r ++ skipn k (frame m)).
    { rewrite <- (firstn_skipn k (frame m)) at 1. rewrite <- Hi, <- !app_assoc. reflexivity. }
    unfold frame in Hfr at 1. apply app_inj_len in Hfr; [|rewrite H2; reflexivity].
    destruct Hfr as [<- _]. rewrite Hs in H3. unfold zlen in H3. lia.
Qed.

Lemma read_msg_n_cut : forall ms k s, Forall small ms ->
  (k <= length (frames ms))%nat -> pending s = firstn k (frames ms) ->
  exists j s', (j <= length ms)%nat /\ (length (frames (firstn j ms)) <= k)%nat /\
    (j < length ms -> k < length (frames (firstn (S j) ms)))%nat /\
    (k = length (frames ms) -> j = length ms) /\
    read_msg_n (S j) s = (s', firstn j ms, Some IncompleteReadError).
Proof.
  intros ms k s Hs Hk Hi.
  unfold bytes in *. destruct (cut_split ms k Hk) as (j & H1 & H2 & H3 & H4).
  assert (Hsplit : frames ms = frames (firstn j ms) ++ frames (skipn j ms)).
  { rewrite <- frames_app, firstn_skipn. reflexivity. }
  assert (Hsj : Forall small (firstn j ms) /\ Forall small (skipn j ms)).
  { rewrite <- Forall_app, firstn_skipn. auto. }
  destruct Hsj as [Hs1 Hs2].
  rewrite Hsplit, firstn_app, (firstn_all2 (frames (firstn j ms)) H2) in Hi.
  set (k' := (k - length (frames (firstn j ms)))%nat) in *.
  destruct (read_msg_n_frames (firstn j ms) (firstn k' (frames (skipn j ms))) s) as (s1 & R1 & R2); auto.
  rewrite firstn_length_le in R1 by auto.
  assert (HT : exists s2, read_msg_n 1 s1 = (s2, [], Some IncompleteReadError)).
  { cbn [read_msg_n]. destruct (skipn j ms) as [|m r] eqn:ESk.
    - change (frames []) with (@nil byte) in R2. rewrite firstn_nil in R2.
      pose proof (read_msg_spec s1) as Q. destruct (read_msg s1) as [s2 [m|e]].
      + exfalso. destruct Q as (h & Q1 & Hh & _). rewrite Q1 in R2.
        apply (f_equal (@length byte)) in R2. rewrite !app_length, Hh in R2. cbn [length] in R2. lia.
      + destruct Q as [[-> _]|[_ (h & r & Q1 & Hh & _)]]; [eauto|]. exfalso.
        rewrite Q1 in R2. apply (f_equal (@length byte)) in R2. rewrite !app_length, Hh in R2. cbn [length] in R2. lia.
    - inversion Hs2; subst.
      assert (Hj : (j < length ms)%nat).
      { apply (f_equal (@length (list byte))) in ESk. rewrite skipn_length in ESk. cbn [length] in ESk. lia. }
      assert (HSj : firstn (S j) ms = firstn j ms ++ [m]).
      { rewrite <- (firstn_skipn j ms) at 1. rewrite ESk. rewrite firstn_app.
        rewrite firstn_length_le by lia. replace (S j - j)%nat with 1%nat by lia.
        rewrite firstn_all2 by (rewrite firstn_length_le by lia; lia). reflexivity. }
      specialize (H3 Hj). rewrite HSj, frames_app, app_length in H3.
      change (frames [m]) with (frame m ++ []) in H3. rewrite app_nil_r in H3.
      destruct (read_msg_cut m k' s1) as (s2 & Q); auto.
      + unfold k'. lia.
      + rewrite R2, frames_cons. rewrite firstn_app.
        replace (k' - length (frame m))%nat with 0%nat by (unfold k'; lia).
        cbn [firstn]. rewrite app_nil_r. reflexivity.
      + rewrite Q. eauto. }
  destruct HT as [s2 HT]. exists j, s2. repeat split; auto.
  replace (S j) with (j + 1)%nat by lia. rewrite (read_msg_n_app _ _ _ _ _ R1), HT, app_nil_r. reflexivity.
Qed.

Lemma async_write_ok : forall ms d, Forall small ms -> async_write d ms = (frames ms, d).
Proof.
  induction ms as [|m ms IH]; intros d H; cbn [async_write]; auto.
  inversion H as [|? ? Hm Hms]; subst. unfold write_msg. unfold small, zlen in Hm.
  rewrite pack_i_ok by (unfold zlen; lia). rewrite IH by auto. reflexivity.
Qed.

Lemma async_write_big : forall ms d big rest, Forall small ms -> 2 ^ 31 <= zlen big ->
  async_write d (ms ++ big :: rest) = (frames ms, Err StructError).
Proof.
  induction ms as [|m ms IH]; intros d big rest H Hb; cbn [app async_write].
  - unfold write_msg. rewrite pack_i_big by auto. reflexivity.
  - inversion H as [|? ? Hm Hms]; subst. unfold write_msg. unfold small, zlen in Hm.
    rewrite pack_i_ok by (unfold zlen; lia). rewrite IH by auto. reflexivity.
Qed.
