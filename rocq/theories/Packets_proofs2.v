(** Lemmas about MultiAppPacket parsing, packet type separation, fixed lengths and
    reuse of packet objects. *)
From Coq Require Import List ZArith Bool Strings.Byte Lia ZifyBool ZifyNat ZifyN.
From Verif Require Import PyBase PyBase_proofs Packets Packets_proofs A1A2_proofs Spec.
Import ListNotations.
Open Scope Z_scope.
Ltac Zify.zify_post_hook ::= Z.div_mod_to_equations.

(** ** MultiAppPacket *)

Lemma u16le_le_dec : forall h0 h1, u16le (le_dec [h0; h1]) = [h0; h1].
Proof.
  intros. unfold u16le. rewrite !byte_of_z2b. cbn [le_dec].
  pose proof (b2z_range h0); pose proof (b2z_range h1).
  f_equal; [|f_equal].
  - apply b2z_inj. rewrite b2z_z2b. lia.
  - apply b2z_inj. rewrite b2z_z2b. lia.
Qed.

Lemma le_dec_2 : forall (h : bytes), length h = 2%nat -> 0 <= le_dec h <= 65535.
Proof.
  intros h H. pose proof (le_dec_range h) as R. unfold zlen in R. rewrite H in R. cbn in R. lia.
Qed.

Lemma multi_loop_inv : forall n off src ms, multi_loop (S n) off src = Ok ms ->
  exists init last announced rest,
    ms = init ++ [last] /\ length init = n /\
    skipn off src = Multi_payload init ++ u16le announced ++ last ++ rest /\
    Forall (fun m => Z.of_nat (length m) <= 65535) init /\
    0 <= announced <= 65535 /\ zlen last <= announced /\ (zlen last < announced -> rest = []).
Proof.
  induction n as [|n IH]; intros off src ms H.
  - cbn [multi_loop] in H.
    destruct (Nat.ltb_spec (length (slice off 2 src)) 2) as [|HL]; [discriminate|].
    injection H as <-.
    assert (H2 : length (slice off 2 src) = 2%nat).
    { unfold slice in *. rewrite firstn_length in *. lia. }
    destruct (slice off 2 src) as [|h0 [|h1 [|]]] eqn:E; cbn [length] in H2; try lia.
    pose proof (le_dec_2 [h0; h1] eq_refl) as R.
    set (a := le_dec [h0; h1]) in *.
    exists [], (slice (off + 2) (Z.to_nat a) src), a, (skipn (Z.to_nat a) (skipn (off + 2) src)).
    repeat split; auto; try lia.
    + unfold Multi_payload. cbn [map concat app].
      unfold a at 1. rewrite u16le_le_dec, <- E. unfold slice.
      rewrite firstn_skipn. rewrite Nat.add_comm, <- skipn_skipn, firstn_skipn. reflexivity.
    + unfold slice, zlen. rewrite firstn_length. lia.
    + unfold slice, zlen. rewrite firstn_length. intro HH. apply skipn_all2. lia.
  - remember (S n) as n' eqn:Hn'. cbn [multi_loop] in H.
    destruct (Nat.ltb_spec (length (slice off 2 src)) 2) as [|HL]; [discriminate|].
    assert (H2 : length (slice off 2 src) = 2%nat).
    { unfold slice in *. rewrite firstn_length in *. lia. }
    destruct (slice off 2 src) as [|h0 [|h1 [|]]] eqn:E; cbn [length] in H2; try lia.
    pose proof (le_dec_2 [h0; h1] eq_refl) as R.
    set (a := le_dec [h0; h1]) in *.
    destruct (multi_loop n' (off + 2 + Z.to_nat a) src) as [ms'|] eqn:EL; [|discriminate].
    injection H as <-. subst n'.
    pose proof EL as EL'. apply IH in EL'.
    destruct EL' as (init & last & an & rest & -> & Hi & Hs & HF & Ha & Hl & Hr).
    assert (HLen : (Z.to_nat a <= length (skipn (off + 2) src))%nat).
    { rewrite Nat.add_comm, <- skipn_skipn in Hs.
      destruct (Nat.le_gt_cases (Z.to_nat a) (length (skipn (off + 2) src))); auto.
      rewrite skipn_all2 in Hs by lia.
      apply (f_equal (@length byte)) in Hs. rewrite !app_length in Hs.
      change (length (u16le an)) with 2%nat in Hs. cbn [length] in Hs. lia. }
    exists (slice (off + 2) (Z.to_nat a) src :: init), last, an, rest.
    repeat split; auto; try lia.
    + cbn [length]. lia.
    + unfold Multi_payload in *. cbn [map concat]. rewrite <- !app_assoc.
      rewrite <- Hs.
      assert (HLs : Z.of_nat (length (slice (off + 2) (Z.to_nat a) src)) = a).
      { unfold slice. rewrite firstn_length. lia. }
      rewrite HLs. unfold a at 1. rewrite u16le_le_dec, <- E. unfold slice.
      replace (skipn (off + 2 + Z.to_nat a) src) with (skipn (Z.to_nat a) (skipn (off + 2) src))
        by (rewrite skipn_skipn; f_equal; lia).
      rewrite firstn_skipn.
      replace (skipn (off + 2) src) with (skipn 2 (skipn off src))
        by (rewrite skipn_skipn; f_equal; lia).
      rewrite firstn_skipn. reflexivity.
    + constructor; auto. unfold slice. rewrite firstn_length. lia.
Qed.

Lemma Multi_payload_app : forall a b, Multi_payload (a ++ b) = Multi_payload a ++ Multi_payload b.
Proof. intros. unfold Multi_payload. rewrite map_app, concat_app. reflexivity. Qed.

Lemma le_dec_u16_small : forall z, 0 <= z <= 65535 -> le_dec (u16le z) = z.
Proof. intros z H. rewrite le_dec_u16. apply Z.mod_small. lia. Qed.

Lemma multi_loop_fwd : forall init off src last an rest,
  skipn off src = Multi_payload init ++ u16le an ++ last ++ rest ->
  Forall (fun m => Z.of_nat (length m) <= 65535) init ->
  0 <= an <= 65535 -> zlen last <= an -> (zlen last < an -> rest = []) ->
  multi_loop (S (length init)) off src = Ok (init ++ [last]).
Proof.
  induction init as [|m init IH]; intros off src last an rest Hs HF Ha Hl Hr.
  - unfold Multi_payload in Hs. cbn [map concat app] in Hs.
    cbn [length multi_loop].
    assert (HH : slice off 2 src = u16le an).
    { unfold slice. rewrite Hs. apply firstn_app_exact. reflexivity. }
    rewrite HH. change (Nat.ltb (length (u16le an)) 2) with false. cbv iota.
    rewrite le_dec_u16_small by auto. cbn [app]. f_equal. f_equal.
    unfold slice. rewrite Nat.add_comm, <- skipn_skipn, Hs.
    rewrite skipn_app_exact by reflexivity.
    unfold zlen in *. destruct (Z.eq_dec (Z.of_nat (length last)) an).
    + apply firstn_app_exact. lia.
    + rewrite Hr by lia. rewrite app_nil_r. apply firstn_all2. lia.
  - unfold Multi_payload in Hs. cbn [map concat] in Hs. rewrite <- !app_assoc in Hs.
    inversion HF as [|? ? Hm HF']; subst.
    cbn [length]. remember (S (length init)) as n eqn:Hn. cbn [multi_loop].
    assert (HH : slice off 2 src = u16le (Z.of_nat (length m))).
    { unfold slice. rewrite Hs. apply firstn_app_exact. reflexivity. }
    rewrite HH. change (Nat.ltb (length (u16le _)) 2) with false. cbv iota.
    rewrite le_dec_u16_small by lia. rewrite Nat2Z.id.
    assert (HS1 : skipn (off + 2) src = m ++ Multi_payload init ++ u16le an ++ last ++ rest).
    { rewrite Nat.add_comm, <- skipn_skipn, Hs. rewrite skipn_app_exact by reflexivity. reflexivity. }
    subst n. rewrite (IH (off + 2 + length m)%nat src last an rest); auto.
    + f_equal. cbn [app]. f_equal. unfold slice. rewrite HS1. apply firstn_app_exact; auto.
    + rewrite Nat.add_comm, <- skipn_skipn, HS1. apply skipn_app_exact; auto.
Qed.

Lemma multi_buf : forall src, src <> [] ->
  length (struct_from_bytes (mp_data multi_new) src) = 8%nat.
Proof. intros. rewrite struct_from_bytes_length. reflexivity. Qed.

Lemma multi_err : forall src e, multi_ctor src true = Err e -> e = BadPeer \/ e = ValueError.
Proof.
  intros src e. unfold multi_ctor. destruct (is_empty src) eqn:EE; [discriminate|].
  unfold finish, multi_from_bytes. rewrite EE.
  destruct (multi_loop _ _ _) as [ms|e'] eqn:E; cbn [fst snd].
  - unfold multi_validate. cbn [mp_msgs mp_data].
    unfold validate_type. destruct (_ =? TYPE_MULTIAPP_PACKET); [|intro H; injection H; auto].
    destruct (_ <? 1); [intro H; injection H; auto|].
    destruct (_ =? _); [discriminate|intro H; injection H; auto].
  - apply multi_loop_err in E. intro H; injection H as <-. auto.
Qed.

Lemma multi_accept_inv : forall src p, src <> [] -> multi_ctor src true = Ok p ->
  exists ms, mp_msgs p = Some ms /\ Multi_frame src ms /\ mp_data p = firstn 8 src.
Proof.
  intros src p Hne H. rewrite multi_ctor_nonempty in H by auto.
  unfold finish, multi_from_bytes in H. destruct src as [|b0 src0]; [contradiction|].
  cbn [is_empty] in H. remember (b0 :: src0) as src eqn:Hsrc.
  set (d := struct_from_bytes (mp_data multi_new) src) in *.
  destruct (multi_loop _ _ _) as [ms|e'] eqn:E; cbn [fst snd] in H; [|discriminate].
  destruct (multi_validate _) as [[]|] eqn:EV; [|discriminate].
  injection H as <-. cbn [mp_msgs mp_data]. exists ms. split; auto.
  unfold multi_validate in EV. cbn [mp_data mp_msgs] in EV.
  unfold validate_type in EV. destruct (Z.eqb_spec (fget_int 0 1 d) TYPE_MULTIAPP_PACKET) as [ET|]; [|discriminate].
  unfold multi_count in EV. cbn [mp_data] in EV.
  destruct (Z.ltb_spec (fget_int 6 2 d) 1) as [|EC]; [discriminate|].
  destruct (Z.eqb_spec (zlen ms) (fget_int 6 2 d)) as [EL|]; [|discriminate].
  assert (Hd : length d = 8%nat) by (apply multi_buf; auto).
  rewrite Hd in E.
  destruct (Z.to_nat (fget_int 6 2 d)) as [|n] eqn:EN; [lia|].
  apply multi_loop_inv in E.
  destruct E as (init & last & an & rest & -> & Hi & Hs & HF & Ha & Hl & Hr).
  change (skipn 0 (skipn 8 src)) with (skipn 8 src) in Hs.
  assert (H8 : (8 <= length src)%nat).
  { destruct (Nat.le_gt_cases 8 (length src)); auto.
    rewrite skipn_all2 in Hs by lia. apply (f_equal (@length byte)) in Hs.
    rewrite !app_length in Hs. change (length (u16le an)) with 2%nat in Hs. cbn [length] in Hs. lia. }
  assert (HD : d = firstn 8 src).
  { unfold d. rewrite struct_from_bytes_full by exact H8. reflexivity. }
  split; [|auto].
  pose proof (firstn_skipn 8 src) as HS. rewrite Hs in HS. rewrite <- HD in HS.
  unfold Multi_frame.
  destruct d as [|t0 [|r [|t1 [|t2 [|t3 [|t4 [|c0 [|c1 [|]]]]]]]]]; cbn [length] in Hd; try lia.
  rewrite fget_int_1_cons in ET.
  assert (t0 = x0b) as -> by (apply b2z_inj; rewrite ET; reflexivity).
  exists r, t1, t2, t3, t4, c0, c1, init, last, an, rest.
  split; [auto|]. split; [auto|]. split; [|repeat split; auto; lia].
  rewrite le_val_le_dec. unfold zlen in EL. symmetry. exact EL.
Qed.

Lemma multi_accept_fwd : forall src ms, Multi_frame src ms ->
  multi_ctor src true = Ok (MPkt (firstn 8 src) (Some ms)).
Proof.
  intros src ms (r & t0 & t1 & t2 & t3 & c0 & c1 & init & last & an & rest & -> & -> & HC & HF & Ha & Hl & Hr).
  cbn [firstn app]. rewrite multi_ctor_nonempty by discriminate.
  unfold finish, multi_from_bytes.
  set (tl := Multi_payload init ++ u16le an ++ last ++ rest).
  assert (HD : struct_from_bytes (mp_data multi_new) (x0b :: r :: t0 :: t1 :: t2 :: t3 :: c0 :: c1 :: tl)
               = [x0b; r; t0; t1; t2; t3; c0; c1]).
  { rewrite struct_from_bytes_full by (cbn; lia). reflexivity. }
  rewrite HD. cbn [length skipn].
  change (fget_int 6 2 [x0b; r; t0; t1; t2; t3; c0; c1]) with (le_dec [c0; c1]).
  rewrite le_val_le_dec in HC. rewrite HC. rewrite Nat2Z.id.
  replace (length (init ++ [last])) with (S (length init)) by (rewrite app_length; cbn [length]; lia).
  rewrite (multi_loop_fwd init 0 tl last an rest); auto. cbn [fst snd].
  unfold multi_validate, validate_type, multi_count. cbn [mp_data mp_msgs].
  change (fget_int 6 2 [x0b; r; t0; t1; t2; t3; c0; c1]) with (le_dec [c0; c1]).
  rewrite fget_int_1_cons. change (b2z x0b =? TYPE_MULTIAPP_PACKET) with true. cbv iota.
  rewrite HC. rewrite app_length. cbn [length].
  assert (Z.of_nat (length init + 1) <? 1 = false) as -> by lia.
  unfold zlen. rewrite app_length. cbn [length]. rewrite Z.eqb_refl. reflexivity.
Qed.

Lemma Multi_wire_frame : forall t ms tail, ms <> [] -> zlen ms <= 65535 ->
  (forall m, In m ms -> zlen m <= 65535) -> Multi_frame (Multi_wire t ms ++ tail) ms.
Proof.
  intros t ms tail Hne HL Hm.
  destruct (exists_last Hne) as (init & last & ->).
  unfold Multi_frame, Multi_wire.
  exists x00, (byte_of t), (byte_of (t / 2 ^ 8)), (byte_of (t / 2 ^ 16)), (byte_of (t / 2 ^ 24)),
    (byte_of (zlen (init ++ [last]))), (byte_of (zlen (init ++ [last]) / 256)), init, last, (zlen last), tail.
  split.
  { rewrite Multi_payload_app. unfold Multi_payload at 2. cbn [map concat]. rewrite app_nil_r.
    rewrite <- !app_assoc. reflexivity. }
  split; auto. split.
  { rewrite le_val_le_dec. change [byte_of ?a; byte_of (?a / 256)] with (u16le a).
    apply le_dec_u16_small. unfold zlen in *. lia. }
  split.
  { apply Forall_forall. intros m Hin. apply Hm. apply in_or_app; auto. }
  assert (zlen last <= 65535) by (apply Hm; apply in_or_app; right; left; auto).
  unfold zlen in *. repeat split; try lia.
Qed.

(** ** First byte of every accepted frame *)
Lemma fixed_first : forall ty new src d, (0 < length new)%nat -> src <> [] ->
  fixed_ctor ty new src = Ok d -> exists x r, src = x :: r /\ val x = ty.
Proof. intros ty new src d Hn Hne H. apply (fixed_accept ty new src Hn Hne). eauto. Qed.

Lemma m1_first : forall src p, src <> [] -> m1_ctor src = Ok p -> exists x r, src = x :: r /\ val x = 83.
Proof.
  intros src p Hne H. assert (HA : exists p, m1_ctor src = Ok p) by eauto.
  apply m1_ctor_accept in HA; auto. destruct src as [|x r]; [congruence|].
  destruct HA as [t Ht]. cbn [firstn app] in Ht. injection Ht as <- _. exists x53, r. auto.
Qed.

Lemma ep_first : forall src p, src <> [] -> ep_ctor src = Ok p -> exists x r, src = x :: r /\ val x = 6.
Proof.
  intros src p Hne H. destruct src as [|x [|f body]]; [congruence|discriminate H|].
  rewrite ep_ctor_spec in H. destruct (Z.eqb_spec (b2z x) 6); [|discriminate]. eauto.
Qed.

Lemma app_first : forall src p, src <> [] -> app_ctor src true = Ok p -> exists x r, src = x :: r /\ val x = 5.
Proof.
  intros src p Hne H. destruct (Z.lt_ge_cases (zlen src) 6) as [HS|HS].
  { rewrite app_ctor_short in H by auto. discriminate. }
  destruct (split_at _ 6 src) as (h & d & -> & Hh); [unfold zlen in HS; lia|].
  rewrite app_ctor_spec in H by auto. destruct h as [|x h]; [discriminate|].
  rewrite fget_int_1_cons in H. destruct (Z.eqb_spec (b2z x) 5); [|discriminate].
  exists x, (h ++ d). auto.
Qed.

Lemma multi_first : forall src p, src <> [] -> multi_ctor src true = Ok p -> exists x r, src = x :: r /\ val x = 11.
Proof.
  intros src p Hne H. apply multi_accept_inv in H; auto.
  destruct H as (ms & _ & (r & t0 & t1 & t2 & t3 & c0 & c1 & init & last & an & rest & -> & _) & _).
  exists x0b. eexists. split; [cbn [app]; reflexivity|reflexivity].
Qed.

Lemma a1_first : forall src p, src <> [] -> a1_ctor src = Ok p -> exists x r, src = x :: r /\ val x = 8.
Proof.
  intros src p Hne H. destruct (Z.lt_ge_cases (zlen src) 5) as [HS|HS].
  { rewrite a1_ctor_short in H by auto. discriminate. }
  destruct (five_split src) as (a & r & t & s0 & s1 & addr & ->); [lia|].
  rewrite a1_ctor_spec in H. destruct (Z.eqb_spec (b2z a) 8); [|discriminate]. cbn [app]. eauto.
Qed.

Lemma a2_first : forall uw src p, src <> [] -> a2_ctor uw src = Ok p -> exists x r, src = x :: r /\ val x = 9.
Proof.
  intros uw src p Hne H. destruct (Z.lt_ge_cases (zlen src) 3) as [HS|HS].
  { rewrite a2_ctor_short in H by auto. discriminate. }
  destruct (a2_split uw src) as (a & f & c & l & extra & -> & Hl & He); [lia|].
  rewrite a2_ctor_spec in H by auto. destruct (Z.eqb_spec (b2z a) 9); [|discriminate]. cbn [app]. eauto.
Qed.

(** ** Truncated MultiAppPackets *)
Lemma multi_loop_cut : forall ms last off src k,
  (forall m, In m (ms ++ [last]) -> zlen m <= 65535) ->
  skipn off src = firstn k (Multi_payload (ms ++ [last])) ->
  (k + length last < length (Multi_payload (ms ++ [last])))%nat ->
  multi_loop (S (length ms)) off src = Err ValueError.
Proof.
  induction ms as [|m ms IH]; intros last off src k Hm Hs Hk.
  - unfold Multi_payload in *. cbn [app map concat length multi_loop] in *. rewrite app_nil_r in *.
    rewrite app_length in Hk. change (length (u16le (Z.of_nat (length last)))) with 2%nat in Hk.
    assert (Nat.ltb (length (slice off 2 src)) 2 = true) as ->.
    { apply Nat.ltb_lt. unfold slice. rewrite Hs. rewrite !firstn_length. lia. }
    reflexivity.
  - cbn [app] in *.
    assert (Hp : Multi_payload (m :: ms ++ [last]) = u16le (zlen m) ++ m ++ Multi_payload (ms ++ [last])).
    { unfold Multi_payload. cbn [map concat]. rewrite <- app_assoc. reflexivity. }
    rewrite Hp in *. rewrite !app_length in Hk. change (length (u16le (zlen m))) with 2%nat in Hk.
    cbn [length]. remember (S (length ms)) as n eqn:Hn. cbn [multi_loop].
    destruct (Nat.ltb_spec (length (slice off 2 src)) 2) as [|H2]; auto.
    assert (Hk2 : (2 <= k)%nat).
    { unfold slice in H2. rewrite Hs, !firstn_length in H2. lia. }
    assert (HH : slice off 2 src = u16le (zlen m)).
    { unfold slice. rewrite Hs, firstn_firstn. replace (Nat.min 2 k) with 2%nat by lia.
      apply firstn_app_exact. reflexivity. }
    assert (Hm0 : zlen m <= 65535) by (apply Hm; left; auto).
    rewrite HH, le_dec_u16_small by (unfold zlen in *; lia).
    subst n. rewrite (IH last (off + 2 + Z.to_nat (zlen m))%nat src (k - 2 - length m)%nat); auto.
    + intros m' Hm'. apply Hm. right; auto.
    + replace (off + 2 + Z.to_nat (zlen m))%nat with ((2 + length m) + off)%nat by (unfold zlen; lia).
      rewrite <- skipn_skipn, Hs.
      rewrite skipn_firstn_comm. f_equal; [lia|].
      rewrite app_assoc. apply skipn_app_exact. rewrite app_length. reflexivity.
    + assert (length last < length (Multi_payload (ms ++ [last])))%nat; [|lia].
      rewrite Multi_payload_app, app_length. unfold Multi_payload at 2. cbn [map concat].
      rewrite !app_length. change (length (u16le (Z.of_nat (length last)))) with 2%nat. lia.
Qed.

Lemma multi_cut : forall t ms last n,
  zlen (ms ++ [last]) <= 65535 -> (forall m, In m (ms ++ [last]) -> zlen m <= 65535) ->
  (8 <= n)%nat -> (n + length last < length (Multi_wire t (ms ++ [last])))%nat ->
  multi_ctor (firstn n (Multi_wire t (ms ++ [last]))) true = Err ValueError.
Proof.
  intros t ms last n HL Hm Hn Hn2.
  unfold Multi_wire in *. rewrite !app_assoc in *.
  set (h := ([x0b; x00] ++ u32le t) ++ u16le (Z.of_nat (length (ms ++ [last])))) in *.
  assert (Hh : length h = 8%nat) by reflexivity.
  assert (Hf : firstn n (h ++ Multi_payload (ms ++ [last])) = h ++ firstn (n - 8) (Multi_payload (ms ++ [last]))).
  { rewrite firstn_app, Hh. rewrite firstn_all2 by lia. reflexivity. }
  rewrite Hf. rewrite multi_ctor_nonempty.
  2:{ intro HE. apply (f_equal (@length byte)) in HE. rewrite app_length in HE. cbn [length] in HE. lia. }
  unfold finish, multi_from_bytes.
  assert (HD : struct_from_bytes (mp_data multi_new) (h ++ firstn (n - 8) (Multi_payload (ms ++ [last]))) = h).
  { rewrite struct_from_bytes_full.
    - change (length (mp_data multi_new)) with 8%nat. apply firstn_app_exact; auto.
    - change (length (mp_data multi_new)) with 8%nat. rewrite app_length. lia. }
  rewrite HD, Hh. rewrite skipn_app_exact by auto.
  assert (HC : fget_int 6 2 h = Z.of_nat (length (ms ++ [last]))).
  { unfold fget_int, h. rewrite fget_app_end by reflexivity. apply le_dec_u16_small.
    unfold zlen in HL. lia. }
  rewrite HC, Nat2Z.id. rewrite app_length at 1. cbn [length]. rewrite Nat.add_1_r.
  rewrite (multi_loop_cut ms last 0 (firstn (n - 8) (Multi_payload (ms ++ [last]))) (n - 8)); auto.
  rewrite app_length in Hn2. lia.
Qed.

Lemma multi_cut_header : forall w n, (n < 8)%nat -> (0 < n <= length w)%nat ->
  exists e, multi_ctor (firstn n w) true = Err e /\ (e = BadPeer \/ e = ValueError).
Proof.
  intros w n Hn [H0 Hw].
  assert (HL : length (firstn n w) = n) by (rewrite firstn_length; lia).
  assert (Hne : firstn n w <> []) by (intro HE; rewrite HE in HL; cbn in HL; lia).
  destruct (multi_ctor (firstn n w) true) as [p|e] eqn:E.
  - exfalso. apply multi_accept_inv in E; auto. destruct E as (ms & _ & HF & _).
    destruct HF as (r & t0 & t1 & t2 & t3 & c0 & c1 & init & last & an & rest & Hs & _).
    rewrite Hs in HL. cbn [app length] in HL. lia.
  - exists e. split; auto. eapply multi_err; eauto.
Qed.

(** ** Bytes of protocol strings *)
Lemma utf8_high : forall c, 128 <= c -> Forall (fun b => 128 <= val b) (utf8 c) \/ 1114111 < c.
Proof.
  intros c H. destruct (Z.lt_ge_cases 1114111 c) as [|HU]; [right; auto|left].
  assert (K : forall z, 128 <= z < 256 -> 128 <= val (z2b z)).
  { intros z Hz. rewrite val_b2z, b2z_z2b, Z.mod_small; lia. }
  destruct (Z.lt_ge_cases c 2048).
  { rewrite utf8_2 by lia. repeat constructor; apply K; lia. }
  destruct (Z.lt_ge_cases c 65536).
  { rewrite utf8_3 by lia. repeat constructor; apply K; lia. }
  rewrite utf8_4 by lia. repeat constructor; apply K; lia.
Qed.

Lemma pstring_bytes : forall uw p, accepted_pstring uw p ->
  exists body tail, p = body ++ tail /\ (tail = [] \/ tail = [x0a]) /\ body <> [] /\
    Forall (fun b => val b < 128 -> documented_char (val b)) body.
Proof.
  intros uw p (body & tail & [HS ->] & Hne & HF & HT).
  apply Forall_app in HS. destruct HS as [HS _].
  rewrite map_app, concat_app.
  exists (concat (map utf8 body)), (concat (map utf8 tail)). split; auto. split.
  { destruct HT as [-> | ->]; [left|right]; reflexivity. }
  split.
  { destruct body as [|c body]; [congruence|]. cbn [map concat]. unfold utf8 at 1.
    intro HE. apply app_eq_nil in HE. destruct HE as [HE _].
    revert HE. unfold utf8. destruct (c <? 128), (c <? 2048), (c <? 65536); discriminate. }
  clear Hne HT. induction body as [|c body IH]; cbn [map concat]; [constructor|].
  inversion HS; inversion HF; subst. apply Forall_app. split; [|apply IH; auto].
  destruct (Z.lt_ge_cases c 128) as [HC|HC].
  - rewrite utf8_1 by auto. constructor; [|constructor].
    unfold scalar in H1. rewrite val_b2z, b2z_z2b, Z.mod_small by lia. intros _.
    destruct H5 as [|[]]; [auto|lia].
  - destruct (utf8_high c HC) as [HH|HH]; [|unfold scalar in H1; lia].
    rewrite Forall_forall in *. intros b Hb Hlt. specialize (HH b Hb). lia.
Qed.
