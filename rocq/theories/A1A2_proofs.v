(** Lemmas about A1 and A2 packets. *)
From Coq Require Import List ZArith Bool Strings.Byte Lia ZifyBool ZifyNat ZifyN.
From Verif Require Import PyBase PyBase_proofs Packets Packets_proofs Spec.
Import ListNotations.
Open Scope Z_scope.
Ltac Zify.zify_post_hook ::= Z.div_mod_to_equations.

(** ** A1 *)

Lemma a1_ctor_short : forall src, src <> [] -> zlen src < 5 -> a1_ctor src = Err ValueError.
Proof.
  intros src Hne H. unfold a1_ctor. rewrite (proj2 (is_empty_false _ src) Hne).
  unfold finish, a1_from_bytes. assert (zlen src - 5 <? 0 = true) as -> by lia. reflexivity.
Qed.

Lemma a1_ctor_spec : forall a r t s0 s1 addr,
  a1_ctor ([a; r; t; s0; s1] ++ addr) =
    if (b2z a =? 8) && (b2z s0 + 256 * b2z s1 =? zlen addr) &&
       (((b2z t =? 0) && (zlen addr =? 0)) || ((b2z t =? 1) && (zlen addr =? 32)))
    then Ok (Pkt [a; r; t; s0; s1] (Some addr)) else Err BadPeer.
Proof.
  intros a r t s0 s1 addr. unfold a1_ctor. cbn [is_empty app]. unfold finish, a1_from_bytes.
  assert (HZ : zlen (a :: r :: t :: s0 :: s1 :: addr) - 5 = zlen addr) by (unfold zlen; cbn [length]; lia).
  rewrite HZ. assert (zlen addr <? 0 = false) as -> by (unfold zlen; lia).
  assert (HD : struct_from_bytes (p_data a1_new) (a :: r :: t :: s0 :: s1 :: addr) = [a; r; t; s0; s1]).
  { rewrite struct_from_bytes_full by (cbn; lia). reflexivity. }
  rewrite HD. cbn [length skipn fst snd].
  replace (S (S (S (S (S (length addr))))) - 5)%nat with (length addr) by lia.
  rewrite struct_zeros by auto.
  unfold a1_validate, validate_type, a1_address, a1_address_size, a1_address_type, TYPE_A1,
    MAX_ADDRESS_LENGTH, ADDRESS_TYPE_ANY, ADDRESS_TYPE_PUBKEY.
  cbn [p_data p_opt opt_field]. unfold fget_int, fget, slice. cbn [skipn firstn le_dec].
  pose proof (b2z_range a); pose proof (b2z_range t); pose proof (b2z_range s0); pose proof (b2z_range s1).
  replace (b2z a + 256 * 0) with (b2z a) by lia.
  replace (b2z t + 256 * 0) with (b2z t) by lia.
  replace (b2z s0 + 256 * (b2z s1 + 256 * 0)) with (b2z s0 + 256 * b2z s1) by lia.
  destruct (Z.eqb_spec (b2z a) 8); cbn [andb]; auto.
  destruct (Z.eqb_spec (b2z s0 + 256 * b2z s1) (zlen addr)) as [E|E]; cbn [negb andb]; auto.
  rewrite E.
  assert (65535 <? zlen addr = false) as -> by lia.
  destruct (Z.eqb_spec (b2z t) 0) as [T|T]; cbn [andb orb].
  - destruct (Z.eqb_spec (zlen addr) 0); cbn [negb andb orb]; auto.
    assert (b2z t =? 1 = false) as -> by lia. reflexivity.
  - destruct (Z.eqb_spec (b2z t) 1); cbn [andb]; auto.
    destruct (Z.eqb_spec (zlen addr) 32); reflexivity.
Qed.

Lemma five_split : forall src : bytes, 5 <= zlen src ->
  exists a r t s0 s1 addr, src = [a; r; t; s0; s1] ++ addr.
Proof.
  intros src H. destruct src as [|a [|r [|t [|s0 [|s1 addr]]]]];
    unfold zlen in H; cbn [length] in H; try lia.
  exists a, r, t, s0, s1, addr. reflexivity.
Qed.

(** ** UTF-8 *)

Lemma z2b_eq : forall b z, b2z b = z -> z2b z = b.
Proof. intros b z <-. apply z2b_b2z. Qed.

Lemma utf8_1 : forall c, c < 128 -> utf8 c = [z2b c].
Proof. intros c H. unfold utf8. assert (c <? 128 = true) as -> by lia. reflexivity. Qed.
Lemma utf8_2 : forall c, 128 <= c < 2048 -> utf8 c = [z2b (192 + c / 64); z2b (128 + c mod 64)].
Proof.
  intros c H. unfold utf8. destruct (Z.ltb_spec c 128); [lia|].
  destruct (Z.ltb_spec c 2048); [|lia]. reflexivity.
Qed.
Lemma utf8_3 : forall c, 2048 <= c < 65536 ->
  utf8 c = [z2b (224 + c / 4096); z2b (128 + c / 64 mod 64); z2b (128 + c mod 64)].
Proof.
  intros c H. unfold utf8. destruct (Z.ltb_spec c 128); [lia|].
  destruct (Z.ltb_spec c 2048); [lia|]. destruct (Z.ltb_spec c 65536); [|lia]. reflexivity.
Qed.
Lemma utf8_4 : forall c, 65536 <= c ->
  utf8 c = [z2b (240 + c / 262144); z2b (128 + c / 4096 mod 64);
            z2b (128 + c / 64 mod 64); z2b (128 + c mod 64)].
Proof.
  intros c H. unfold utf8. destruct (Z.ltb_spec c 128); [lia|].
  destruct (Z.ltb_spec c 2048); [lia|]. destruct (Z.ltb_spec c 65536); [lia|]. reflexivity.
Qed.

Lemma utf8_sound : forall n b l, utf8_decode n b = Some l -> utf8_text b l.
Proof.
  unfold utf8_text.
  induction n as [|n IH]; intros b l; cbn [utf8_decode].
  - destruct b; [|discriminate]. intro H; injection H as <-. split; constructor.
  - destruct b as [|b0 r0]; [intro H; injection H as <-; split; constructor|].
    pose proof (b2z_range b0) as R0.
    destruct (Z.ltb_spec (b2z b0) 128) as [C0|C0].
    { destruct (utf8_decode n r0) eqn:E; [|discriminate]. intro H; injection H as <-.
      apply IH in E. destruct E as [F ->]. split.
      - constructor; auto. unfold scalar. lia.
      - cbn [map concat]. rewrite utf8_1 by lia. rewrite z2b_b2z. reflexivity. }
    destruct (Z.ltb_spec (b2z b0) 194) as [C1|C1]; [discriminate|].
    destruct (Z.ltb_spec (b2z b0) 224) as [C2|C2].
    { destruct r0 as [|b1 r1]; [discriminate|]. pose proof (b2z_range b1) as R1.
      unfold cont. destruct (_ && _) eqn:K; [|discriminate].
      destruct (utf8_decode n r1) eqn:E; [|discriminate]. intro H; injection H as <-.
      apply IH in E. destruct E as [F ->]. split.
      - constructor; auto. unfold scalar. lia.
      - cbn [map concat]. set (c := (b2z b0 - 192) * 64 + (b2z b1 - 128)).
        rewrite utf8_2 by lia. cbn [app].
        rewrite (z2b_eq b0) by lia. rewrite (z2b_eq b1) by lia. reflexivity. }
    destruct (Z.ltb_spec (b2z b0) 240) as [C3|C3].
    { destruct r0 as [|b1 [|b2 r2]]; try discriminate.
      pose proof (b2z_range b1) as R1. pose proof (b2z_range b2) as R2.
      set (c := (b2z b0 - 224) * 4096 + (b2z b1 - 128) * 64 + (b2z b2 - 128)).
      unfold cont. destruct (_ && _) eqn:K; [|discriminate].
      destruct (utf8_decode n r2) eqn:E; [|discriminate]. intro H; injection H as <-.
      apply IH in E. destruct E as [F ->]. split.
      - constructor; auto. unfold scalar. lia.
      - cbn [map concat]. rewrite utf8_3 by lia. cbn [app].
        rewrite (z2b_eq b0) by lia. rewrite (z2b_eq b1) by lia. rewrite (z2b_eq b2) by lia. reflexivity. }
    destruct (Z.ltb_spec (b2z b0) 245) as [C4|C4]; [|discriminate].
    destruct r0 as [|b1 [|b2 [|b3 r3]]]; try discriminate.
    pose proof (b2z_range b1) as R1. pose proof (b2z_range b2) as R2. pose proof (b2z_range b3) as R3.
    set (c := (b2z b0 - 240) * 262144 + (b2z b1 - 128) * 4096 + (b2z b2 - 128) * 64 + (b2z b3 - 128)).
    unfold cont. destruct (_ && _) eqn:K; [|discriminate].
    destruct (utf8_decode n r3) eqn:E; [|discriminate]. intro H; injection H as <-.
    apply IH in E. destruct E as [F ->]. split.
    + constructor; auto. unfold scalar. lia.
    + cbn [map concat]. rewrite utf8_4 by lia. cbn [app].
      rewrite (z2b_eq b0) by lia. rewrite (z2b_eq b1) by lia.
      rewrite (z2b_eq b2) by lia. rewrite (z2b_eq b3) by lia. reflexivity.
Qed.

Lemma utf8_complete : forall l n, Forall scalar l ->
  (length (concat (map utf8 l)) <= n)%nat ->
  utf8_decode n (concat (map utf8 l)) = Some l.
Proof.
  induction l as [|c l IH]; intros n HF HL; cbn [map concat].
  - destruct n; reflexivity.
  - inversion HF as [|? ? Hc HF']; subst. cbn [map concat] in HL. rewrite app_length in HL.
    unfold scalar in Hc.
    destruct (Z.ltb_spec c 128) as [C0|C0].
    { rewrite utf8_1 in * by lia. cbn [length] in HL. destruct n as [|n]; [lia|]. cbn [app utf8_decode].
      rewrite b2z_z2b, Z.mod_small by lia.
      assert (c <? 128 = true) as -> by lia. rewrite IH; auto; lia. }
    destruct (Z.ltb_spec c 2048) as [C1|C1].
    { rewrite utf8_2 in * by lia. cbn [length] in HL. destruct n as [|n]; [lia|]. cbn [app utf8_decode].
      rewrite !b2z_z2b.
      rewrite (Z.mod_small (192 + c / 64)) by lia.
      rewrite (Z.mod_small (128 + c mod 64)) by lia.
      assert (192 + c / 64 <? 128 = false) as -> by lia.
      assert (192 + c / 64 <? 194 = false) as -> by lia.
      assert (192 + c / 64 <? 224 = true) as -> by lia.
      unfold cont. assert ((128 <=? 128 + c mod 64) && (128 + c mod 64 <? 192) = true) as -> by lia.
      rewrite IH by (auto; lia). f_equal. f_equal. lia. }
    destruct (Z.ltb_spec c 65536) as [C2|C2].
    { rewrite utf8_3 in * by lia. cbn [length] in HL. destruct n as [|n]; [lia|]. cbn [app utf8_decode].
      rewrite !b2z_z2b.
      rewrite (Z.mod_small (224 + c / 4096)) by lia.
      rewrite (Z.mod_small (128 + c / 64 mod 64)) by lia.
      rewrite (Z.mod_small (128 + c mod 64)) by lia.
      assert (224 + c / 4096 <? 128 = false) as -> by lia.
      assert (224 + c / 4096 <? 194 = false) as -> by lia.
      assert (224 + c / 4096 <? 224 = false) as -> by lia.
      assert (224 + c / 4096 <? 240 = true) as -> by lia.
      assert (HC : (224 + c / 4096 - 224) * 4096 + (128 + c / 64 mod 64 - 128) * 64 + (128 + c mod 64 - 128) = c) by lia.
      rewrite HC. unfold cont.
      assert ((128 <=? 128 + c / 64 mod 64) && (128 + c / 64 mod 64 <? 192) = true) as -> by lia.
      assert ((128 <=? 128 + c mod 64) && (128 + c mod 64 <? 192) = true) as -> by lia.
      assert (2048 <=? c = true) as -> by lia.
      assert (negb ((55296 <=? c) && (c <=? 57343)) = true) as -> by lia. cbn [andb].
      rewrite IH by (auto; lia). reflexivity. }
    rewrite utf8_4 in * by lia. cbn [length] in HL. destruct n as [|n]; [lia|]. cbn [app utf8_decode].
    rewrite !b2z_z2b.
    rewrite (Z.mod_small (240 + c / 262144)) by lia.
    rewrite (Z.mod_small (128 + c / 4096 mod 64)) by lia.
    rewrite (Z.mod_small (128 + c / 64 mod 64)) by lia.
    rewrite (Z.mod_small (128 + c mod 64)) by lia.
    assert (240 + c / 262144 <? 128 = false) as -> by lia.
    assert (240 + c / 262144 <? 194 = false) as -> by lia.
    assert (240 + c / 262144 <? 224 = false) as -> by lia.
    assert (240 + c / 262144 <? 240 = false) as -> by lia.
    assert (240 + c / 262144 <? 245 = true) as -> by lia.
    assert (HC : (240 + c / 262144 - 240) * 262144 + (128 + c / 4096 mod 64 - 128) * 4096
                 + (128 + c / 64 mod 64 - 128) * 64 + (128 + c mod 64 - 128) = c) by lia.
    rewrite HC. unfold cont.
    assert ((128 <=? 128 + c / 4096 mod 64) && (128 + c / 4096 mod 64 <? 192) = true) as -> by lia.
    assert ((128 <=? 128 + c / 64 mod 64) && (128 + c / 64 mod 64 <? 192) = true) as -> by lia.
    assert ((128 <=? 128 + c mod 64) && (128 + c mod 64 <? 192) = true) as -> by lia.
    assert (65536 <=? c = true) as -> by lia.
    assert (c <=? 1114111 = true) as -> by lia. cbn [andb].
    rewrite IH by (auto; lia). reflexivity.
Qed.

Lemma utf8_decode_iff : forall b l, utf8_decode (length b) b = Some l <-> utf8_text b l.
Proof.
  intros b l. split.
  - apply utf8_sound.
  - intros [HF ->]. apply utf8_complete; auto.
Qed.

(** ** Protocol strings *)
Section R.
Variable uw : Z -> bool.

Lemma proto_char_iff : forall c, 0 <= c -> proto_char uw c = true <->
  (documented_char c \/ (128 <= c /\ uw c = true)).
Proof.
  intros c H0. unfold proto_char, word_char, documented_char.
  destruct (Z.ltb_spec c 128).
  - lia.
  - destruct (uw c); lia.
Qed.

Lemma proto_char_10 : proto_char uw 10 = false.
Proof. reflexivity. Qed.

Lemma class_rest_spec : forall s, exists t, s = t ++ class_rest uw s /\
  Forall (fun c => proto_char uw c = true) t /\
  match class_rest uw s with [] => True | c :: _ => proto_char uw c = false end.
Proof.
  induction s as [|c s IH]; cbn [class_rest].
  - exists []. repeat split; constructor.
  - destruct (proto_char uw c) eqn:E.
    + destruct IH as (t & H1 & H2 & H3). exists (c :: t). repeat split; auto.
      cbn [app]. f_equal. auto.
    + exists []. repeat split; auto.
Qed.

Lemma class_rest_app : forall t r, Forall (fun c => proto_char uw c = true) t ->
  class_rest uw (t ++ r) = class_rest uw r.
Proof.
  induction t as [|c t IH]; intros r HF; cbn [app class_rest]; auto.
  inversion HF; subst. rewrite H1. auto.
Qed.

Lemma proto_match_iff : forall s, proto_match uw s = true <->
  exists body tail, s = body ++ tail /\ body <> [] /\
    Forall (fun c => proto_char uw c = true) body /\ (tail = [] \/ tail = [10]).
Proof.
  intro s. split.
  - destruct s as [|c r]; cbn [proto_match]; [discriminate|].
    intro H. apply andb_prop in H. destruct H as [H1 H2].
    destruct (class_rest_spec r) as (t & Hr & HF & _).
    exists (c :: t), (class_rest uw r). repeat split.
    + cbn [app]. f_equal; auto.
    + discriminate.
    + constructor; auto.
    + destruct (class_rest uw r) as [|c' [|]]; auto; try discriminate.
      right. f_equal. lia.
  - intros (body & tail & -> & Hne & HF & HT).
    destruct body as [|c t]; [congruence|]. inversion HF; subst.
    cbn [app proto_match]. rewrite H1. cbn [andb]. rewrite class_rest_app by auto.
    destruct HT as [-> | ->]; reflexivity.
Qed.

Lemma p_check_true : forall p, p_check uw p = Ok true <-> accepted_pstring uw p.
Proof.
  intro p. unfold p_check, accepted_pstring. split.
  - destruct (utf8_decode (length p) p) as [s|] eqn:E; [|discriminate].
    intro H. injection H as H. apply proto_match_iff in H.
    destruct H as (body & tail & -> & Hne & HF & HT).
    apply utf8_decode_iff in E. exists body, tail. repeat split; auto; try apply E.
    destruct E as [HS _]. apply Forall_app in HS. destruct HS as [HS _].
    rewrite Forall_forall in *. intros c Hc. apply proto_char_iff; auto.
    specialize (HS c Hc). unfold scalar in HS. lia.
  - intros (body & tail & HU & Hne & HF & HT).
    pose proof HU as HU'. apply utf8_decode_iff in HU. rewrite HU. f_equal.
    apply proto_match_iff. exists body, tail. repeat split; auto.
    destruct HU' as [HS _]. apply Forall_app in HS. destruct HS as [HS _].
    rewrite Forall_forall in *. intros c Hc. apply proto_char_iff; auto.
    specialize (HS c Hc). unfold scalar in HS. lia.
Qed.

Lemma p_check_err : forall p e, p_check uw p = Err e ->
  e = UnicodeDecodeError /\ forall text, ~ utf8_text p text.
Proof.
  intros p e. unfold p_check. destruct (utf8_decode (length p) p) as [s|] eqn:E; [discriminate|].
  intro H; injection H as <-. split; auto. intros t Ht. apply utf8_decode_iff in Ht. congruence.
Qed.

Lemma prots_validate_iff : forall l, prots_validate uw l = Ok tt <->
  Forall (fun q => accepted_pstring uw (fst q) /\ accepted_pstring uw (snd q)) l.
Proof.
  induction l as [|q l IH]; cbn [prots_validate].
  - split; auto.
  - unfold prot_validate. split.
    + intro H. destruct (p_check uw (fst q)) as [[|]|] eqn:E1; try discriminate.
      destruct (p_check uw (snd q)) as [[|]|] eqn:E2; try discriminate.
      constructor.
      * split; apply p_check_true; auto.
      * apply IH; auto.
    + intro H. inversion H as [|? ? [H1 H2] H3]; subst. destruct q as [p1 p2]. cbn [fst snd] in *.
      apply p_check_true in H1. apply p_check_true in H2. rewrite H1, H2. apply IH; auto.
Qed.

Lemma prots_validate_err : forall l e, prots_validate uw l = Err e ->
  e = BadPeer \/ (e = UnicodeDecodeError /\
    exists q p, In q l /\ (p = fst q \/ p = snd q) /\ forall text, ~ utf8_text p text).
Proof.
  induction l as [|q l IH]; intros e; cbn [prots_validate]; [discriminate|].
  unfold prot_validate. destruct (p_check uw (fst q)) as [[|]|e1] eqn:E1.
  - destruct (p_check uw (snd q)) as [[|]|e2] eqn:E2.
    + intro H. apply IH in H. destruct H as [H | [H (q' & p & Hq & Hp)]]; auto.
      right; split; auto. exists q', p. split; [right|]; auto.
    + intro H; injection H as <-; auto.
    + intro H; injection H as <-. apply p_check_err in E2. destruct E2. right; split; auto.
      exists q, (snd q). split; [left|]; auto.
  - intro H; injection H as <-; auto.
  - intro H; injection H as <-. apply p_check_err in E1. destruct E1. right; split; auto.
    exists q, (fst q). split; [left|]; auto.
Qed.

(** ** The protocol array *)
Definition flat (l : list (bytes * bytes)) : bytes := concat (map (fun q => fst q ++ snd q) l).
Definition ten (l : list (bytes * bytes)) : Prop :=
  Forall (fun q => length (fst q) = 10%nat /\ length (snd q) = 10%nat) l.

Lemma flat_length : forall l, ten l -> length (flat l) = (20 * length l)%nat.
Proof.
  unfold flat. induction l as [|q l IH]; intro H; cbn [map concat length]; auto.
  inversion H as [|? ? [H1 H2] H3]; subst.
  rewrite !app_length, IH by auto. lia.
Qed.

Lemma prots_flat : forall l extra, ten l -> prots (length l) (flat l ++ extra) = l.
Proof.
  unfold flat. induction l as [|[p1 p2] l IH]; intros extra H; cbn [length prots map concat fst snd]; auto.
  inversion H as [|? ? [H1 H2] H3]; subst. cbn [fst snd] in *.
  rewrite <- !app_assoc. f_equal; [f_equal|].
  - unfold slice. cbn [skipn]. apply firstn_app_exact; auto.
  - unfold slice. rewrite skipn_app_exact by auto. apply firstn_app_exact; auto.
  - rewrite app_assoc. rewrite skipn_app_exact by (rewrite app_length; lia). apply IH; auto.
Qed.

Lemma flat_exists : forall n b, length b = (20 * n)%nat ->
  exists l, b = flat l /\ length l = n /\ ten l.
Proof.
  induction n; intros b H.
  - destruct b; [|cbn in H; lia]. exists []. repeat split; constructor.
  - destruct (split_at _ 10 b) as (p1 & r1 & -> & H1); [lia|].
    rewrite app_length in H.
    destruct (split_at _ 10 r1) as (p2 & r2 & -> & H2); [lia|].
    rewrite app_length in H.
    destruct (IHn r2) as (l & -> & Hl & Ht); [lia|].
    exists ((p1, p2) :: l). repeat split.
    + unfold flat. cbn [map concat fst snd]. rewrite <- app_assoc. reflexivity.
    + cbn [length]. lia.
    + constructor; auto.
Qed.

Lemma a2_ctor_short : forall src, src <> [] -> zlen src < 3 -> a2_ctor uw src = Err ValueError.
Proof.
  intros src Hne H. unfold a2_ctor. rewrite (proj2 (is_empty_false _ src) Hne).
  unfold finish, a2_from_bytes.
  assert ((zlen src - 3) / 20 <? 0 = true) as ->.
  { unfold zlen in *. lia. }
  reflexivity.
Qed.

Lemma le_dec_signed_1 : forall c, le_dec_signed 1 [c] = if b2z c <? 128 then b2z c else b2z c - 256.
Proof.
  intro c. unfold le_dec_signed. cbn [le_dec].
  change (2 ^ (8 * Z.of_nat 1 - 1)) with 128. change (2 ^ (8 * Z.of_nat 1)) with 256.
  replace (b2z c + 256 * 0) with (b2z c) by lia. reflexivity.
Qed.

Lemma a2_ctor_spec : forall a f c l extra, ten l -> (length extra < 20)%nat ->
  a2_ctor uw ([a; f; c] ++ flat l ++ extra) =
    if (b2z a =? 9) && bit f 7 && negb (bit f 0 && negb (is_empty l)) &&
       (b2z c =? zlen l) && (zlen l <=? 127)
    then match prots_validate uw l with
         | Ok _ => Ok (Pkt [a; f; c] (Some (flat l)))
         | Err e => Err e
         end
    else Err BadPeer.
Proof.
  intros a f c l extra Hl He. unfold a2_ctor. cbn [is_empty app]. unfold finish, a2_from_bytes.
  pose proof (flat_length l Hl) as HF.
  assert (HN : (zlen (a :: f :: c :: flat l ++ extra) - 3) / 20 = zlen l).
  { unfold zlen. cbn [length]. rewrite app_length, HF. lia. }
  rewrite HN. assert (zlen l <? 0 = false) as -> by (unfold zlen; lia).
  assert (HD : struct_from_bytes (p_data a2_new) (a :: f :: c :: flat l ++ extra) = [a; f; c]).
  { rewrite struct_from_bytes_full by (cbn; lia). reflexivity. }
  rewrite HD. cbn [length skipn fst snd].
  replace (20 * Z.to_nat (zlen l))%nat with (length (flat l)) by (unfold zlen; rewrite Nat2Z.id; lia).
  assert (HO : struct_from_bytes (zeros (length (flat l))) (flat l ++ extra) = flat l).
  { rewrite struct_from_bytes_full by (rewrite zeros_length, app_length; lia).
    rewrite zeros_length. apply firstn_app_exact; auto. }
  rewrite HO. unfold a2_validate, a2_prots. cbn [p_opt p_data].
  unfold validate_type. rewrite fget_int_1_cons. unfold TYPE_A2.
  destruct (b2z a =? 9); cbn [andb]; auto.
  assert (HNP : a2_nprots (flat l) = length l).
  { unfold a2_nprots. rewrite HF, Nat.mul_comm. apply Nat.div_mul. lia. }
  rewrite HNP. assert (HPF : prots (length l) (flat l) = l) by (rewrite <- (app_nil_r (flat l)); apply prots_flat; auto). rewrite HPF.
  unfold a2_no_such_server_flag, a2_last_flag, a2_count. cbn [p_data].
  assert (HB : forall i, fget_bit 1 i [a; f; c] = bit f i).
  { intro i. unfold fget_bit, fget_int, fget, slice, bit, val. cbn [skipn firstn le_dec].
    f_equal. unfold b2z. lia. }
  rewrite !HB. change (fget 2 1 [a; f; c]) with [c]. rewrite le_dec_signed_1.
  pose proof (b2z_range c) as RC.
  assert (HE : is_empty l = (zlen l =? 0)).
  { unfold zlen. destruct l; cbn [is_empty length]; lia. }
  rewrite HE.
  assert (RL : 0 <= zlen l) by (unfold zlen; lia).
  destruct (Z.ltb_spec (b2z c) 128); destruct (bit f 0), (bit f 7); cbn [andb negb];
  repeat match goal with
  | |- context [?x =? ?y] => destruct (Z.eqb_spec x y); cbn [andb negb orb]
  | |- context [?x <=? ?y] => destruct (Z.leb_spec x y); cbn [andb negb orb]
  | |- context [?x <? ?y] => destruct (Z.ltb_spec x y); cbn [andb negb orb]
  end; try lia; try reflexivity;
  destruct (prots_validate uw l) as [[]|]; try reflexivity.
Qed.

Lemma a2_split : forall src : bytes, 3 <= zlen src -> exists a f c l extra,
  src = [a; f; c] ++ flat l ++ extra /\ ten l /\ (length extra < 20)%nat.
Proof.
  intros src H. destruct src as [|a [|f [|c r]]]; unfold zlen in H; cbn [length] in H; try lia.
  destruct (split_at _ (20 * (length r / 20)) r) as (b & extra & -> & Hb).
  { pose proof (Nat.div_mod_eq (length r) 20). lia. }
  destruct (flat_exists _ _ Hb) as (l & -> & Hl & Ht).
  exists a, f, c, l, extra. repeat split; auto.
  rewrite app_length in *. pose proof (Nat.mod_upper_bound (length (flat l) + length extra) 20).
  pose proof (Nat.div_mod_eq (length (flat l) + length extra) 20). lia.
Qed.

Lemma A2_frame_iff : forall a f c l extra ps, ten l -> (length extra < 20)%nat ->
  (A2_frame uw ([a; f; c] ++ flat l ++ extra) ps <->
   ps = l /\ b2z a = 9 /\ bit f 7 = true /\ (bit f 0 = true -> l = []) /\ b2z c = zlen l /\
   zlen l <= 127 /\ prots_validate uw l = Ok tt).
Proof.
  intros a f c l extra ps Hl He. unfold A2_frame. split.
  - intros (flags & extra' & Heq & He' & H127 & H7 & H0 & HP).
    assert (Hps : ten ps).
    { unfold ten. rewrite Forall_forall in *. intros q Hq. specialize (HP q Hq). tauto. }
    cbn [app] in Heq. injection Heq as -> -> Hc HF.
    change (concat (map (fun q : list byte * list byte => fst q ++ snd q) ps)) with (flat ps) in HF.
    assert (HLL : length ps = length l).
    { apply (f_equal (@length byte)) in HF. rewrite !app_length, !flat_length in HF by auto. unfold bytes in *. lia. }
    apply app_inj_len in HF; [|rewrite !flat_length by auto; unfold bytes in *; lia].
    destruct HF as [HF ->].
    assert (ps = l).
    { pose proof (prots_flat l [] Hl) as P1. pose proof (prots_flat ps [] Hps) as P2.
      rewrite app_nil_r in *. unfold bytes in *. rewrite <- P1, <- P2, HF, HLL. reflexivity. }
    subst ps. repeat split; auto.
    + rewrite Hc, byte_of_z2b, b2z_z2b. unfold zlen. apply Z.mod_small. lia.
    + unfold zlen. lia.
    + apply prots_validate_iff. rewrite Forall_forall in *. intros q Hq. specialize (HP q Hq). tauto.
  - intros (-> & Ha & H7 & H0 & Hc & H127 & HV).
    exists f, extra. repeat split; auto.
    + cbn [app]. f_equal.
      * apply b2z_inj. rewrite Ha. reflexivity.
      * f_equal. f_equal. apply b2z_inj. rewrite byte_of_z2b, b2z_z2b, Hc. unfold zlen, bytes in *.
        rewrite Z.mod_small; lia.
    + unfold zlen, bytes in *. lia.
    + apply prots_validate_iff in HV. unfold ten in Hl. rewrite Forall_forall in *.
      intros q Hq. specialize (HV q Hq). specialize (Hl q Hq). tauto.
Qed.
End R.

(** ** The acceptance theorem for A2 *)
Lemma a2_prots_of : forall d l, ten l -> a2_prots (Pkt d (Some (flat l))) = Ok l.
Proof.
  intros d l Hl. unfold a2_prots. cbn [p_opt].
  assert (HNP : a2_nprots (flat l) = length l).
  { unfold a2_nprots. rewrite flat_length by auto. rewrite Nat.mul_comm. apply Nat.div_mul. lia. }
  rewrite HNP. rewrite <- (app_nil_r (flat l)). rewrite prots_flat by auto. reflexivity.
Qed.

Lemma flat_entry : forall (l : list (bytes * bytes)) q p rest, ten l -> In q l -> p = fst q \/ p = snd q ->
  exists i, p = firstn 10 (skipn (10 * i) (flat l ++ rest)) /\ length p = 10%nat.
Proof.
  unfold flat. induction l as [|[p1 p2] l IH]; intros q p rest Ht HI Hp; [destruct HI|].
  inversion Ht as [|? ? [H1 H2] H3]; subst. cbn [fst snd] in *.
  cbn [map concat]. rewrite <- !app_assoc. destruct HI as [<- | HI].
  - cbn [fst snd] in Hp. destruct Hp as [-> | ->].
    + exists 0%nat. change (10 * 0)%nat with 0%nat. cbn [skipn fst snd]. rewrite firstn_app_exact by auto. auto.
    + exists 1%nat. replace (10 * 1)%nat with 10%nat by lia. cbn [fst snd].
      rewrite skipn_app_exact by auto. rewrite firstn_app_exact by auto. auto.
  - destruct (IH q p rest H3 HI Hp) as (i & Hi & HL). exists (2 + i)%nat. split; auto.
    replace (10 * (2 + i))%nat with (10 * i + 20)%nat by lia. rewrite <- skipn_skipn.
    cbn [fst snd]. rewrite (app_assoc p1 p2). rewrite (skipn_app_exact _ 20%nat) by (rewrite app_length; lia). auto.
Qed.

Lemma a2_acceptance : forall (uw : Z -> bool) (src : bytes), src <> [] ->
  (forall l, (exists p, a2_ctor uw src = Ok p /\ a2_prots p = Ok l) <-> A2_frame uw src l) /\
  (forall p, a2_ctor uw src = Ok p -> exists l, a2_prots p = Ok l) /\
  ((length src < 3)%nat -> a2_ctor uw src = Err ValueError) /\
  (forall e, (3 <= length src)%nat -> a2_ctor uw src = Err e ->
     e = BadPeer \/
     (e = UnicodeDecodeError /\ exists i p, p = firstn 10 (skipn (3 + 10 * i) src) /\
        length p = 10%nat /\ forall text, ~ utf8_text p text)).
Proof.
  intros uw src Hne. destruct (Z.lt_ge_cases (zlen src) 3) as [HS|HS].
  - rewrite a2_ctor_short by auto. unfold zlen in HS. split; [|split; [|split]]; try lia; try discriminate; auto.
    intro l. split.
    + intros (p & H & _); discriminate.
    + intros (f & ex & -> & _). cbn [app length] in HS. lia.
  - destruct (a2_split uw src) as (a & f & c & l & extra & -> & Hl & He); [lia|].
    pose proof (a2_ctor_spec uw a f c l extra Hl He) as HC. rewrite HC.
    pose proof (A2_frame_iff uw a f c l extra) as HFI.
    assert (RL : 0 <= zlen l) by (unfold zlen; lia).
    assert (HEm : is_empty l = true <-> l = []) by (destruct l; cbn; split; congruence).
    destruct ((b2z a =? 9) && bit f 7 && negb (bit f 0 && negb (is_empty l)) &&
       (b2z c =? zlen l) && (zlen l <=? 127)) eqn:E.
    + assert (HB : b2z a = 9 /\ bit f 7 = true /\ (bit f 0 = true -> l = []) /\ b2z c = zlen l /\ zlen l <= 127).
      { apply andb_prop in E. destruct E as [E E5]. apply andb_prop in E. destruct E as [E E4].
        apply andb_prop in E. destruct E as [E E3]. apply andb_prop in E. destruct E as [E1 E2].
        split; [lia|]. split; [auto|]. split; [|lia]. intro H0. apply HEm. rewrite H0 in E3.
        destruct (is_empty l); [auto|discriminate]. }
      destruct HB as (B1 & B2 & B3 & B4 & B5).
      destruct (prots_validate uw l) as [[]|e0] eqn:EV.
      * split; [|split; [|split]].
        -- intro l'. rewrite HFI by auto. split.
           ++ intros (p & HP & HQ). injection HP as <-. rewrite a2_prots_of in HQ by auto.
              injection HQ as <-. repeat split; auto.
           ++ intros (-> & _). eexists. split; [reflexivity|]. apply a2_prots_of; auto.
        -- intros p HP. injection HP as <-. eexists. apply a2_prots_of; auto.
        -- cbn [app length]. lia.
        -- discriminate.
      * split; [|split; [|split]].
        -- intro l'. rewrite HFI by auto. split.
           ++ intros (p & HP & _). discriminate.
           ++ intros (-> & _ & _ & _ & _ & _ & HV). congruence.
        -- discriminate.
        -- cbn [app length]. lia.
        -- intros e _ HE. injection HE as <-. apply prots_validate_err in EV.
           destruct EV as [|[-> (q & p & HI & Hp & HT)]]; auto. right. split; auto.
           destruct (flat_entry l q p extra Hl HI Hp) as (i & Hi & HL). exists i, p.
           split; auto.
    + split; [|split; [|split]].
      * intro l'. rewrite HFI by auto. split.
        -- intros (p & HP & _). discriminate.
        -- intros (-> & B1 & B2 & B3 & B4 & B5 & _). exfalso. rewrite B1, B2, B4 in E.
           destruct (bit f 0); [rewrite B3 in E by auto; cbn in E; lia|]. cbn in E. lia.
      * discriminate.
      * cbn [app length]. lia.
      * intros e _ HE. injection HE as <-. auto.
Qed.

(** ** Building A2 *)
Lemma ascii_utf8 : forall s : bytes, Forall (fun b => documented_char (val b)) s ->
  utf8_text s (map val s).
Proof.
  induction s as [|b s IH]; intro H; [split; constructor|].
  inversion H; subst. destruct (IH H3) as [I1 I2]. unfold documented_char in H2. split; cbn [map concat].
  - constructor; auto. unfold scalar. lia.
  - rewrite utf8_1 by lia. change (val b) with (b2z b). rewrite z2b_b2z. cbn [app]. f_equal. auto.
Qed.

Lemma ascii_pstring : forall uw (s : bytes), s <> [] -> Forall (fun b => documented_char (val b)) s ->
  accepted_pstring uw s.
Proof.
  intros uw s Hne H. exists (map val s), []. rewrite app_nil_r. split; [apply ascii_utf8; auto|].
  split; [destruct s; [congruence|discriminate]|]. split; auto.
  apply Forall_forall. intros c Hc. apply in_map_iff in Hc. destruct Hc as (b & <- & Hb).
  rewrite Forall_forall in H. left. auto.
Qed.

Lemma a2_round_trip : forall (uw : Z -> bool) (l : list (bytes * bytes)),
  (length l <= 127)%nat ->
  Forall (fun q => length (fst q) = 10%nat /\ length (snd q) = 10%nat /\
                   Forall (fun b => documented_char (val b)) (fst q ++ snd q)) l ->
  pkt_bytes (a2_build l) = A2_wire l /\
  exists p, a2_ctor uw (A2_wire l) = Ok p /\ a2_prots p = Ok l.
Proof.
  intros uw l HL HF. split.
  - unfold pkt_bytes, a2_build, a2_set_prots, a2_set_count, fput_int. cbn [p_data p_opt opt_bytes].
    unfold zlen. cbn [le_enc]. reflexivity.
  - apply a2_acceptance; [discriminate|].
    exists x80, []. split; [rewrite app_nil_r; reflexivity|]. cbn [length].
    split; [lia|]. split; [exact HL|]. split; [reflexivity|]. split; [discriminate|].
    rewrite Forall_forall in *. intros q Hq. destruct (HF q Hq) as (H1 & H2 & H3).
    apply Forall_app in H3. destruct H3 as [H3 H4]. repeat split; auto;
      apply ascii_pstring; auto; intro HE; rewrite HE in *; cbn [length] in *; lia.
Qed.
