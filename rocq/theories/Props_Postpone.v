(** C111: parsing application packets without validation
    (v2/packets.py:239-251, 318-337). *)
From Coq Require Import List ZArith Bool Strings.Byte Lia ZifyBool ZifyNat ZifyN.
From Verif Require Import PyBase PyBase_proofs Packets Packets_proofs Packets_proofs2 Spec.
Import ListNotations.
Open Scope Z_scope.
Ltac Zify.zify_post_hook ::= Z.div_mod_to_equations.

(** [AppPacket(src, validate=False)] takes every string of at least six bytes (or
    none): the type byte is not looked at, time and data are those of the same
    string with the right type; [validate()] afterwards tells what
    [AppPacket(src)] would have told. *)
Theorem C111_app : forall b r,
  ((exists p, app_ctor (b :: r) false = Ok p) <-> 5 <= zlen r) /\
  (forall p, app_ctor (b :: r) false = Ok p -> exists q, app_ctor (x05 :: r) true = Ok q /\
     app_type p = val b /\ app_time p = app_time q /\ app_data p = app_data q /\ pkt_bytes p = b :: r) /\
  (forall p, app_ctor (b :: r) false = Ok p ->
     (app_validate p = Ok tt <-> app_ctor (b :: r) true = Ok p) /\ (app_validate p = Err BadPeer <-> app_ctor (b :: r) true = Err BadPeer)) /\
  (forall y, app_ctor (b :: r) false = Err y -> y = BadPeer /\ app_ctor (b :: r) true = Err BadPeer).
Proof.
  intros b r. destruct (Z.leb_spec 5 (zlen r)) as [H|H].
  - destruct r as [|b1 [|t0 [|t1 [|t2 [|t3 d]]]]]; unfold zlen in H; cbn [length] in H; try lia.
    pose proof (app_ctor_spec [b; b1; t0; t1; t2; t3] d false eq_refl) as F. cbn [andb] in F.
    pose proof (app_ctor_spec [b; b1; t0; t1; t2; t3] d true eq_refl) as T. cbn [andb] in T.
    pose proof (app_ctor_spec [x05; b1; t0; t1; t2; t3] d true eq_refl) as G. cbn [andb] in G.
    cbn [app] in *. rewrite F, T, G. clear F T G.
    split; [split; [intros _; unfold zlen; cbn [length]; lia|intros _; eauto]|].
    split; [intros p E; injection E as <-; eexists; split; [reflexivity|]; repeat split; apply fget_int_1_cons|].
    split; [|discriminate].
    intros p E. injection E as <-. unfold app_validate, validate_type, TYPE_APP_PACKET. cbn [p_data].
    destruct (fget_int 0 1 [b; b1; t0; t1; t2; t3] =? 5); cbn [negb]; split; split; intro; congruence.
  - assert (S : forall c v, app_ctor (c :: r) v = Err BadPeer).
    { intros c v. apply app_ctor_short; [discriminate|]. unfold zlen in *. cbn [length]. lia. }
    rewrite !S. split; [split; [intros [p E]; discriminate|lia]|]. split; [discriminate|]. split; [discriminate|].
    intros y E. split; [congruence|reflexivity].
Qed.
Print Assumptions C111_app.

(** [MultiAppPacket(src, validate=False)]: the type byte is not looked at, and a
    count of 0 (with no messages) is taken too. *)
Theorem C111_multi : forall b r,
  (forall p, multi_ctor (b :: r) false = Ok p <->
     (exists q, multi_ctor (x0b :: r) true = Ok q /\ p = MPkt (b :: skipn 1 (mp_data q)) (mp_msgs q)) \/
     (le_val (field 6 2 (b :: r)) = 0 /\ p = MPkt (field 0 8 (b :: r)) (Some []))) /\
  (forall p, multi_ctor (b :: r) false = Ok p ->
     (multi_validate p = Ok tt <-> multi_ctor (b :: r) true = Ok p) /\ (multi_validate p = Err BadPeer <-> multi_ctor (b :: r) true = Err BadPeer)) /\
  (forall y, multi_ctor (b :: r) false = Err y -> y = ValueError /\ multi_ctor (b :: r) true = Err ValueError).
Proof.
  intros b r.
  assert (D : forall c, struct_from_bytes (mp_data multi_new) (c :: r) = c :: firstn 7 (r ++ repeat x00 7)).
  { intro c. unfold struct_from_bytes. change (mp_data multi_new) with (x0b :: repeat x00 7).
    destruct r as [|r0 [|r1 [|r2 [|r3 [|r4 [|r5 [|r6 r]]]]]]]; try reflexivity.
    cbn [is_empty length repeat Nat.min firstn skipn app]. rewrite Nat.min_0_r. reflexivity. }
  remember (firstn 7 (r ++ repeat x00 7)) as h eqn:Eh.
  assert (Hh : length h = 7%nat).
  { subst h. apply firstn_length_le. rewrite app_length, repeat_length. lia. }
  assert (F1 : field 6 2 (b :: r) = skipn 5 h).
  { subst h. unfold field. destruct r as [|r0 [|r1 [|r2 [|r3 [|r4 [|r5 [|r6 r]]]]]]]; reflexivity. }
  assert (F2 : field 0 8 (b :: r) = b :: h).
  { subst h. unfold field. destruct r as [|r0 [|r1 [|r2 [|r3 [|r4 [|r5 [|r6 r]]]]]]]; reflexivity. }
  assert (F3 : forall c, fget_int 6 2 (c :: h) = le_val (skipn 5 h)).
  { intro c. unfold fget_int, fget, slice. symmetry. etransitivity; [apply le_val_le_dec|]. f_equal.
    destruct h as [|h0 [|h1 [|h2 [|h3 [|h4 [|h5 [|h6 [|]]]]]]]]; cbn [length] in Hh; try lia. reflexivity. }
  assert (LP : forall c, skipn (length (c :: h)) (c :: r) = skipn 7 r).
  { intro c. cbn [length]. rewrite Hh. reflexivity. }
  rewrite F1, F2. clear F1 F2.
  assert (ML : forall c v, multi_ctor (c :: r) v =
    match multi_loop (Z.to_nat (le_val (skipn 5 h))) 0 (skipn 7 r) with
    | Ok ms => match (if v then multi_validate (MPkt (c :: h) (Some ms)) else Ok tt) with
               | Ok _ => Ok (MPkt (c :: h) (Some ms)) | Err e => Err e end
    | Err e => Err e
    end).
  { intros c v. unfold multi_ctor. cbn [is_empty]. unfold multi_from_bytes. rewrite D. cbn [is_empty].
    rewrite F3, LP. unfold finish. destruct (multi_loop _ _ _) as [ms|e]; cbn [fst snd]; [|reflexivity].
    destruct v; cbn [fst snd]; [destruct (multi_validate _)|]; reflexivity. }
  rewrite !ML. clear ML.
  assert (POS : 0 <= le_val (skipn 5 h)).
  { destruct h as [|h0 [|h1 [|h2 [|h3 [|h4 [|h5 [|h6 [|]]]]]]]]; cbn [length] in Hh; try lia. cbn [skipn le_val].
    pose proof (b2z_range h5). pose proof (b2z_range h6). unfold b2z in *. unfold val. lia. }
  destruct (multi_loop (Z.to_nat (le_val (skipn 5 h))) 0 (skipn 7 r)) as [ms|e] eqn:EL.
  - pose proof (multi_loop_length _ _ _ _ EL) as HL.
    assert (V : multi_validate (MPkt (x0b :: h) (Some ms)) = if le_val (skipn 5 h) <? 1 then Err BadPeer else Ok tt).
    { unfold multi_validate, validate_type, multi_count. cbn [mp_data mp_msgs]. rewrite fget_int_1_cons, F3.
      change (b2z x0b =? TYPE_MULTIAPP_PACKET) with true. cbv iota.
      destruct (Z.ltb_spec (le_val (skipn 5 h)) 1) as [H1|H1]; [reflexivity|].
      assert (zlen ms =? le_val (skipn 5 h) = true) as -> by (unfold zlen; lia). reflexivity. }
    rewrite V. cbv iota.
    assert (ms = [] <-> le_val (skipn 5 h) = 0) as M0.
    { split; [intros ->; cbn [length] in HL; lia|]. intro E. destruct ms; [reflexivity|]. cbn [length] in HL. lia. }
    split; [|split; [|discriminate]].
    + intro p. split.
      * intro E. injection E as <-. destruct (Z.ltb_spec (le_val (skipn 5 h)) 1) as [H1|H1].
        -- right. split; [lia|]. f_equal. f_equal. apply M0. lia.
        -- left. eexists. split; [reflexivity|]. reflexivity.
      * intros [(q & E & ->)|(E & ->)].
        -- destruct (Z.ltb_spec (le_val (skipn 5 h)) 1) as [H1|H1]; [discriminate|]. injection E as <-. reflexivity.
        -- apply M0 in E. rewrite E. reflexivity.
    + intros p E. injection E as <-. destruct (multi_validate (MPkt (b :: h) (Some ms))) as [[]|y];
        split; split; intro; congruence.
  - pose proof (multi_loop_err _ _ _ _ EL) as ->. split; [|split; [discriminate|]].
    + intro p. split; [discriminate|]. intros [(q & E & _)|(E & _)]; [discriminate|].
      exfalso. rewrite E in EL. discriminate EL.
    + intros y E. split; [congruence|reflexivity].
Qed.
Print Assumptions C111_multi.

Example C111_case :
  app_ctor [x0b; x00; x01; x00; x00; x00; x61] false = Ok (Pkt [x0b; x00; x01; x00; x00; x00] (Some [x61])) /\
  app_ctor [x0b; x00; x01; x00; x00; x00; x61] true = Err BadPeer /\
  multi_ctor [x05; x00; x01; x00; x00; x00; x01; x00; x01; x00; x61] false
    = Ok (MPkt [x05; x00; x01; x00; x00; x00; x01; x00] (Some [[x61]])) /\
  multi_ctor [x05; x00; x01; x00; x00; x00; x01; x00; x01; x00; x61] true = Err BadPeer /\
  multi_ctor [x0b; x00] false = Ok (MPkt [x0b; x00; x00; x00; x00; x00; x00; x00] (Some [])).
Proof. repeat split. Qed.
