(** Application channels as message pipes. *)
From Coq Require Import List ZArith Bool Strings.Byte Lia ZifyBool ZifyNat ZifyN.
From Verif Require Import PyBase PyBase_proofs IO IO_proofs Packets Packets_proofs Packets_proofs2
  Crypto Crypto_proofs Time EncChannel EncUse EncChannel_proofs AppChannel AppUse AppChannel_proofs Session Session_proofs
  SessUse Session_steps Sched_proofs Session_fwd Session_sched Channel Stack Spec StackUse Stack_proofs Stack_fit Pipe.
Import ListNotations.
Open Scope Z_scope.
Ltac Zify.zify_post_hook ::= Z.div_mod_to_equations.

Lemma sealed_all_app : forall L key sn xs w fs ys gs, sealed_all L key sn w xs fs ->
  sealed_all L key sn (w + 2 * Z.of_nat (length fs)) ys gs -> sealed_all L key sn w (xs ++ ys) (fs ++ gs).
Proof.
  intros L key sn. induction xs as [|x xs IH]; intros w [|f fs] ys gs H1 H2; cbn [sealed_all app] in *; try tauto.
  - cbn [length] in H2. replace (w + 2 * Z.of_nat 0) with w in H2 by lia. exact H2.
  - destruct H1 as [H1 H3]. split; [exact H1|]. apply IH; [exact H3|].
    replace (w + 2 + 2 * Z.of_nat (length fs)) with (w + 2 * Z.of_nat (length (f :: fs))) by (cbn [length]; lia). exact H2.
Qed.

(** One direction: [msgs] are what the receiver, with queue [q] and counter [rd], will
    read from the frames [fs] in flight; the sender's counter is [w]. *)
Definition flow (L : lib) (TC : tchecker) (key : bytes) (w rd : Z) (q fs msgs : list bytes) : Prop :=
  exists xs mss, sealed_all L key SESSION_NONCE rd xs fs /\ Forall2 (decodes TC) (map fst xs) mss /\
    msgs = q ++ concat mss /\ w = rd + 2 * Z.of_nat (length fs) /\ Forall (fun m => bulk [m]) msgs.

Lemma flow_nil : forall L TC key w, flow L TC key w w [] [] [].
Proof. intros. exists [], []. repeat split; [constructor|cbn; lia|constructor]. Qed.

Lemma bulk_each : forall msgs, bulk msgs -> Forall (fun m => bulk [m]) msgs.
Proof.
  intros [|m0 [|m1 msgs]] H; [constructor|constructor; [exact H|constructor]|].
  unfold bulk in H. apply Forall_forall. intros m Hm. apply in_concat_len in Hm. cbn [bulk].
  remember (m0 :: m1 :: msgs) as all. clear Heqall. unfold bytes in *. lia.
Qed.

Lemma flow_write : forall L sp ep TK TC key pb fl rd0 w rd tk q0 q fs msgs m args last n,
  nacl_laws L sp ep -> length key = 32%nat -> (forall x, tc_check TC x = Ok tt) -> fits (m :: args) -> bulk (m :: args) ->
  flow L TC key w rd q fs msgs -> 0 <= w -> w + 2 * Z.of_nat (length (m :: args) + n) <= 2 ^ 64 ->
  exists gs w' , ac_write L TK m args last (AC (EC key pb fl rd0 w SESSION_NONCE) tk None q0) =
      Write gs last (fun r => Ret (AC (EC key pb fl rd0 w' SESSION_NONCE) (snd (tk_get TK tk)) None q0, r)) /\
    flow L TC key w' rd q (fs ++ gs) (msgs ++ m :: args) /\ 0 <= w' /\ w' + 2 * Z.of_nat n <= 2 ^ 64.
Proof.
  intros L sp ep TK TC key pb fl rd0 w rd tk q0 q fs msgs m args last n HL Hk HT HF HB (xs & mss & F1 & F2 & F3 & F4 & F5) Hw Hb.
  pose proof (packets_length (fst (tk_get TK tk)) (m :: args)) as PL.
  destruct (ac_write_fwd L sp ep TK key pb fl rd0 w tk None q0 m args last HL Hk Hw) as (gs & G1 & G2).
  { cbn [m4_part app]. lia. }
  cbn [m4_part m4_of app] in G1, G2. eexists gs, _. split; [exact G2|].
  destruct (packets_decode TC (fst (tk_get TK tk)) _ HT HF) as (mst & D1 & D2).
  pose proof (sealed_all_length _ _ _ _ _ _ G1) as Hlen.
  assert (ML : length (mark last (packets (fst (tk_get TK tk)) (m :: args))) = length (packets (fst (tk_get TK tk)) (m :: args))).
  { rewrite <- (map_length fst), mark_fst'. reflexivity. }
  rewrite ML in Hlen. split; [|lia].
  exists (xs ++ mark last (packets (fst (tk_get TK tk)) (m :: args))), (mss ++ mst). split; [|split; [|split; [|split]]].
  - apply sealed_all_app; [exact F1|]. rewrite <- F4. exact G1.
  - rewrite map_app. apply Forall2_app; [exact F2|]. rewrite mark_fst'. exact D1.
  - rewrite F3, concat_app, D2, app_assoc. reflexivity.
  - rewrite app_length. lia.
  - apply Forall_app. split; [exact F5|apply bulk_each; exact HB].
Qed.

(** Reading: from the queue, or the next frame. *)
Lemma flow_read : forall L sp ep TC key w0 w rd tk fl q fs m msgs,
  nacl_laws L sp ep -> length key = 32%nat -> flow L TC key w rd q fs (m :: msgs) ->
  bulk [m] /\ (
  (exists q', q = m :: q' /\ flow L TC key w rd q' fs msgs /\
     ac_read L TC (AC (EC key [] fl rd w0 SESSION_NONCE) tk None q) = Ret (AC (EC key [] fl rd w0 SESSION_NONCE) tk None q', Ok m)) \/
  (exists f fs' k fl' q', q = [] /\ fs = f :: fs' /\ flow L TC key w (rd + 2) q' fs' msgs /\
     ac_read L TC (AC (EC key [] fl rd w0 SESSION_NONCE) tk None q) = Read k /\
     k (Ok f) = Ret (AC (EC key [] fl' (rd + 2) w0 SESSION_NONCE) tk None q', Ok m))).
Proof.
  intros L sp ep TC key w0 w rd tk fl q fs m msgs HL Hk (xs & mss & F1 & F2 & F3 & F4 & F5).
  split; [inversion F5; assumption|]. assert (F6 : Forall (fun m => bulk [m]) msgs) by (inversion F5; assumption). clear F5.
  destruct q as [|m' q].
  - right. destruct mss as [|ms mss]; [discriminate|]. inversion F2 as [|raw ms' xs' mss' D1 D2 E1 E2]; subst ms' mss'.
    destruct xs as [|x xs]; [discriminate|]. cbn [map] in E1. injection E1 as -> ->.
    destruct fs as [|f fs]; [destruct F1|]. cbn [sealed_all] in F1. destruct F1 as [F1 F1'].
    destruct D1 as (d & q & D1 & ->). cbn [concat app] in F3. injection F3 as -> ->.
    exists f, fs. eexists. exists (snd x), q. split; [reflexivity|]. split; [reflexivity|]. split; [|split].
    + exists xs, mss. repeat split; auto. cbn [length] in F4. lia.
    + unfold ac_read, mbind, mget, mput, mret, mzoom, mlift, mmod, ec_read.
      cbn [iobind fst snd ac_readq ac_enc ec_pushback is_empty]. reflexivity.
    + cbv beta iota. rewrite (sealed_process L sp ep key [] fl rd w0 x f HL Hk F1).
      cbn [iobind fst snd]. rewrite D1. cbn [iobind fst snd]. reflexivity.
  - left. cbn [app] in F3. injection F3 as -> ->. exists q. split; [reflexivity|]. split; [|reflexivity].
    exists xs, mss. auto.
Qed.

Lemma flow_empty : forall L TC key w rd q fs, flow L TC key w rd q fs [] -> q = [] /\ fs = [].
Proof.
  intros L TC key w rd q fs (xs & mss & F1 & F2 & F3 & F4 & F5). symmetry in F3. apply app_eq_nil in F3. destruct F3 as [-> F3].
  split; [reflexivity|]. destruct mss as [|ms mss].
  - inversion F2 as [E|]. destruct xs; [|discriminate]. destruct fs; [reflexivity|destruct F1].
  - inversion F2 as [|? ? ? ? D]; subst. destruct D as (d & r & _ & ->). discriminate.
Qed.

Section Sim.
  Variables (L : lib) (sp ep : bytes -> bytes -> Prop) (TKl TKr : tkeeper) (TCl TCr : tchecker) (key : bytes).
  Variables (A B X Y : Type) (kl : ac * A -> io X) (kr : ac * B -> io Y).
  Hypotheses (HL : nacl_laws L sp ep) (Hk : length key = 32%nat).
  Hypotheses (Tl : forall x, tc_check TCl x = Ok tt) (Tr : forall x, tc_check TCr x = Ok tt).

  Definition chan (fl : bool) (rd w tk : Z) (q : list bytes) : ac := AC (EC key [] fl rd w SESSION_NONCE) tk None q.

  Definition rep (s : sys A B) (r : sys X Y) : Prop :=
    exists nl nr fl fr rl wl tl ql rr wr tr qr ab ba,
      r = Sys (iobind (over_app L TKl TCl (s_left s) (chan fl rl wl tl ql)) kl)
              (iobind (over_app L TKr TCr (s_right s) (chan fr rr wr tr qr)) kr) ab ba /\
      modest nl (s_left s) /\ modest nr (s_right s) /\
      0 <= wl /\ wl + 2 * Z.of_nat nl <= 2 ^ 64 /\ 0 <= wr /\ wr + 2 * Z.of_nat nr <= 2 ^ 64 /\
      flow L TCr key wl rr qr ab (s_lr s) /\ flow L TCl key wr rl ql ba (s_rl s).

  Lemma rep_step : forall s s' r, step s s' -> rep s r -> exists n r', steps n r r' /\ rep s' r'.
  Proof.
    intros s s' r HS (nl & nr & fl & fr & rl & wl & tl & ql & rr & wr & tr & qr & ab & ba & -> & M1 & M2 & B1 & B2 & B3 & B4 & F1 & F2).
    inversion HS; subst; cbn [s_left s_right s_lr s_rl] in *.
    - inversion M1 as [| |n m args l' k' HF HB HM E1 E2]; subst. unfold chan.
      destruct (flow_write L sp ep TKl TCr key [] fl rl wl rr tl ql qr ab a m args l n HL Hk Tr HF HB F1 B1 B2) as (gs & w' & G1 & G2 & G3 & G4).
      cbn [over_app]. rewrite G1. cbn [iobind].
      exists 1%nat. eexists. split; [econstructor; [apply st_lw|apply steps_O]|]. cbn [iobind fst snd].
      exists n, nr, fl, fr, rl, w', (snd (tk_get TKl tl)), ql, rr, wr, tr, qr, (ab ++ gs), ba.
      split; [reflexivity|]. cbn [s_left s_right s_lr s_rl]. auto 20.
    - inversion M1 as [|n k' HM|]; subst. unfold chan.
      destruct (flow_read L sp ep TCl key wl wr rl tl fl ql ba m b HL Hk F2) as [BM [(q' & -> & G1 & G2)|(f & fs' & k' & fl' & q' & -> & -> & G1 & G2 & G3)]].
      + specialize (HM (Ok m) ltac:(intros x Ex; injection Ex as <-; exact BM)). cbn [over_app]. rewrite G2. cbn [iobind fst snd]. exists 0%nat. eexists. split; [apply steps_O|].
        exists nl, nr, fl, fr, rl, wl, tl, q', rr, wr, tr, qr, ab, ba. split; [reflexivity|]. cbn [s_left s_right s_lr s_rl]. auto 20.
      + specialize (HM (Ok m) ltac:(intros x Ex; injection Ex as <-; exact BM)). cbn [over_app]. rewrite G2. cbn [iobind]. exists 1%nat. eexists. split; [econstructor; [apply st_lr|apply steps_O]|].
        cbv beta. rewrite G3. cbn [iobind fst snd].
        exists nl, nr, fl', fr, (rl + 2), wl, tl, q', rr, wr, tr, qr, ab, fs'. split; [reflexivity|]. cbn [s_left s_right s_lr s_rl]. auto 20.
    - inversion M2 as [| |n m args l' k' HF HB HM E1 E2]; subst. unfold chan.
      destruct (flow_write L sp ep TKr TCl key [] fr rr wr rl tr qr ql ba b m args l n HL Hk Tl HF HB F2 B3 B4) as (gs & w' & G1 & G2 & G3 & G4).
      cbn [over_app]. rewrite G1. cbn [iobind].
      exists 1%nat. eexists. split; [econstructor; [apply st_rw|apply steps_O]|]. cbn [iobind fst snd].
      exists nl, n, fl, fr, rl, wl, tl, ql, rr, w', (snd (tk_get TKr tr)), qr, ab, (ba ++ gs).
      split; [reflexivity|]. cbn [s_left s_right s_lr s_rl]. auto 20.
    - inversion M2 as [|n k' HM|]; subst. unfold chan.
      destruct (flow_read L sp ep TCr key wr wl rr tr fr qr ab m a HL Hk F1) as [BM [(q' & -> & G1 & G2)|(f & fs' & k' & fl' & q' & -> & -> & G1 & G2 & G3)]].
      + specialize (HM (Ok m) ltac:(intros x Ex; injection Ex as <-; exact BM)). cbn [over_app]. rewrite G2. cbn [iobind fst snd]. exists 0%nat. eexists. split; [apply steps_O|].
        exists nl, nr, fl, fr, rl, wl, tl, ql, rr, wr, tr, q', ab, ba. split; [reflexivity|]. cbn [s_left s_right s_lr s_rl]. auto 20.
      + specialize (HM (Ok m) ltac:(intros x Ex; injection Ex as <-; exact BM)). cbn [over_app]. rewrite G2. cbn [iobind]. exists 1%nat. eexists. split; [econstructor; [apply st_rr|apply steps_O]|].
        cbv beta. rewrite G3. cbn [iobind fst snd].
        exists nl, nr, fl, fl', rl, wl, tl, ql, (rr + 2), wr, tr, q', fs', ba. split; [reflexivity|]. cbn [s_left s_right s_lr s_rl]. auto 20.
  Qed.

  Lemma rep_steps : forall n s s', steps n s s' -> forall r, rep s r -> exists m r', steps m r r' /\ rep s' r'.
  Proof.
    intros n s s' H. induction H as [s|n s t u H1 H2 IH]; intros r HR.
    - exists 0%nat, r. split; [apply steps_O|exact HR].
    - destruct (rep_step _ _ _ H1 HR) as (m & r1 & S1 & R1). destruct (IH _ R1) as (m2 & r2 & S2 & R2).
      exists (m + m2)%nat, r2. split; [eapply steps_app; eauto|exact R2].
  Qed.

  (** Where the ideal system is stuck, so is the real one, in the same way. *)
  Lemma rep_stuck : forall s r, stuck s -> rep s r ->
    (match s_left s with Ret x => exists a, s_left r = kl (a, x) | Read _ => exists k, s_left r = Read k | Write _ _ _ => False end) /\
    (match s_right s with Ret x => exists a, s_right r = kr (a, x) | Read _ => exists k, s_right r = Read k | Write _ _ _ => False end) /\
    (s_lr s = [] -> s_lr r = []) /\ (s_rl s = [] -> s_rl r = []) /\
    (reading (s_left s) = true -> s_rl s = []) /\ (reading (s_right s) = true -> s_lr s = []).
  Proof.
    intros [p q a b] r HS (nl & nr & fl & fr & rl & wl & tl & ql & rr & wr & tr & qr & ab & ba & -> & M1 & M2 & B1 & B2 & B3 & B4 & F1 & F2).
    cbn [s_left s_right s_lr s_rl] in *.
    assert (RL : reading p = true -> b = []).
    { intro E. destruct p; try discriminate. destruct b as [|m b]; [reflexivity|]. exfalso. eapply HS. apply st_lr. }
    assert (RR : reading q = true -> a = []).
    { intro E. destruct q; try discriminate. destruct a as [|m a]; [reflexivity|]. exfalso. eapply HS. apply st_rr. }
    split; [|split; [|split; [|split; [|split]]]].
    - destruct p as [x|k|ms l k].
      + eexists. reflexivity.
      + rewrite (RL eq_refl) in F2. apply flow_empty in F2. destruct F2 as [-> ->].
        eexists. reflexivity.
      + eapply HS. apply st_lw.
    - destruct q as [x|k|ms l k].
      + eexists. reflexivity.
      + rewrite (RR eq_refl) in F1. apply flow_empty in F1. destruct F1 as [-> ->].
        eexists. reflexivity.
      + eapply HS. apply st_rw.
    - intros ->. apply flow_empty in F1. tauto.
    - intros ->. apply flow_empty in F2. tauto.
    - exact RL.
    - exact RR.
  Qed.
End Sim.

(** ** Frame sizes *)
Definition ac_fine (a : ac) : Prop :=
  ac_good a /\ Forall (fun m => bulk [m]) (ac_readq a) /\ ec_pushback (ac_enc a) = [].

Lemma ac_write_good : forall L sp ep TK m args last a, nacl_laws L sp ep -> ac_fine a -> bulk (m :: args) ->
  wfq (fun x => ac_fine (fst x)) (ac_write L TK m args last a).
Proof.
  intros L sp ep TK m args last a HL (G & GQ & GP) HB. pose proof (ac_write_fit L sp ep TK m args last a HL G HB) as W. unfold ac_write in *.
  destruct G as (G1 & G2 & _).
  destruct (tk_get TK (ac_tk a)) as [t tk']. destruct (_ ++ _) as [|x xs]; [constructor; unfold ac_fine, ac_good; cbn; auto|].
  unfold mzoom in *. cbn [ac_enc] in *. unfold ec_write in *. destruct (ec_wrap_all L (ac_enc a) last (x :: xs)) as [s' [fs|e0]] eqn:EW.
  - unfold mwrite in *. cbn [iobind] in *. inversion W; subst. constructor; [assumption|]. intro r. constructor.
    apply wrap_all_ok in EW. destruct EW as [_ ->]. unfold ac_fine, ac_good. cbn. auto.
  - cbn [iobind]. constructor. cbn [fst]. apply wrap_all_err in EW. destruct EW as (i & _ & -> & _). unfold ac_fine, ac_good. cbn. auto.
Qed.

Lemma interpret_bulk : forall TC raw d q, zlen raw + 18 < 2 ^ 31 -> ac_interpret TC raw = Ok (d, q) ->
  Forall (fun m => bulk [m]) (d :: q).
Proof.
  intros TC raw d q HR H. unfold ac_interpret in H. destruct raw as [|b raw].
  - cbn in H. destruct (tc_check TC _); discriminate.
  - destruct (app_ctor (b :: raw) false) as [ap|e0] eqn:EA; [|discriminate].
    destruct (app_type ap =? TYPE_APP_PACKET) eqn:ET.
    + unfold app_validate, validate_type in H. unfold app_type in ET. rewrite ET in H.
      destruct (tc_check TC _) eqn:E; [|discriminate].
      destruct (Nat.lt_ge_cases (length (b :: raw)) 6) as [HS|HS].
      * exfalso. unfold app_ctor in EA. cbn [is_empty] in EA. unfold finish, app_from_bytes in EA.
        destruct (Z.ltb_spec (zlen (b :: raw) - 6) 0) as [Q|Q]; [discriminate|]. unfold zlen in Q. lia.
      * rewrite <- (firstn_skipn 6 (b :: raw)), app_ctor_spec in EA by (rewrite firstn_length; lia).
        cbn [andb] in EA. injection EA as <-. cbn in H. injection H as <- <-. constructor; [|constructor].
        cbn [bulk]. pose proof (skipn_length 6 (b :: raw)) as SL. unfold zlen in HR. cbn [skipn] in SL. unfold bytes in *. cbn [length] in *. lia.
    + destruct (multi_ctor (b :: raw) true) as [mp|e0] eqn:EM; [|discriminate].
      destruct (tc_check TC _) eqn:E; [|discriminate].
      apply multi_accept_inv in EM; [|discriminate]. destruct EM as (ms & EM & HF & _). rewrite EM in H.
      destruct HF as (? & ? & ? & ? & ? & ? & ? & init & l & an & ? & _ & EMS & _ & HI & HA & HLs & _).
      assert (HB : Forall (fun m => bulk [m]) ms).
      { rewrite EMS. apply Forall_app. split.
        - eapply Forall_impl; [|exact HI]. intros m Hm. cbn [bulk]. cbn beta in Hm. unfold bytes in *. lia.
        - constructor; [|constructor]. cbn [bulk]. unfold bytes in *. lia. }
      destruct ms as [|m r]; [discriminate|]. injection H as <- <-. exact HB.
Qed.

Lemma ac_read_good : forall L sp ep TC a, nacl_laws L sp ep -> nacl_fail_laws L -> ac_fine a ->
  wfq (fun x => ac_fine (fst x) /\ forall m, snd x = Ok m -> bulk [m]) (ac_read L TC a).
Proof.
  intros L sp ep TC a HL HX (G & GQ & GP). unfold ac_read, mbind, mget, mput, mret, mlift, mmod, mzoom. cbn [iobind fst snd].
  pose proof G as (G1 & G2 & G3).
  destruct (ac_readq a) as [|m q] eqn:EQ; cbn [iobind fst snd].
  - unfold ec_read. rewrite GP. cbn [is_empty iobind]. constructor. intros [raw|e] HS; cbn [iobind fst snd].
    + specialize (HS raw eq_refl).
      destruct (ec_process L (ac_enc a) raw) as [e1 [clear|x]] eqn:EP; cbn [iobind fst snd].
      * apply ec_process_inv in EP. destruct EP as (t & fl & body & -> & _ & _ & _ & EO & ->).
        apply (law_open_unique _ HX) in EO.
        destruct (law_box _ _ _ HL clear (nonce24 (ec_read_nonce (ac_enc a)) (ec_session_nonce (ac_enc a))) (ec_key (ac_enc a))) as (c' & C1 & C2 & _).
        { apply nonce24_length; exact G2. } { exact G1. }
        rewrite EO in C1. injection C1 as <-.
        assert (ZC : zlen clear + 18 < 2 ^ 31).
        { unfold small, zlen in *. unfold bytes in *. cbn [length] in HS. rewrite C2 in HS. lia. }
        destruct (ac_interpret TC clear) as [[d q]|x] eqn:EI; cbn [iobind fst snd]; constructor; (split; [split; [|split]|]);
          unfold ac_good; cbn; auto; try discriminate.
        -- apply (interpret_bulk TC clear d q ZC) in EI. inversion EI; assumption.
        -- apply (interpret_bulk TC clear d q ZC) in EI. inversion EI; subst. intros m Em. injection Em as <-. assumption.
        -- rewrite EQ. constructor.
      * apply ec_process_err in EP. destruct EP as (P1 & P2 & P3 & P4 & P5). constructor.
        split; [split; [|split]|]; unfold ac_good; cbn; auto; try discriminate.
        -- rewrite P1, P5. auto.
        -- rewrite EQ. constructor.
        -- congruence.
    + constructor. split; [split; [|split]|]; unfold ac_good; cbn; auto; try discriminate. rewrite EQ. constructor.
  - inversion GQ; subst. constructor. split; [split; [|split]|]; unfold ac_good; cbn; auto. intros x Ex. injection Ex as <-. assumption.
Qed.

Lemma over_app_fit : forall L sp ep TK TC A n (p : io A), nacl_laws L sp ep -> nacl_fail_laws L -> modest n p -> forall a, ac_fine a ->
  wfq (fun _ => True) (over_app L TK TC p a).
Proof.
  intros L sp ep TK TC A n p HL HX H. induction H as [n x|n k H IH|n m args l k HF HB H IH]; intros a G; cbn [over_app].
  - constructor. exact I.
  - eapply wfq_bind; [eapply ac_read_good; eauto|]. intros y [Gy Gm]. apply IH; [exact Gm|exact Gy].
  - eapply wfq_bind; [eapply ac_write_good; eauto|]. intros y Gy. apply IH. exact Gy.
Qed.

Lemma client_runs_fit : forall L sp ep TK TC sig e buf w tk A n (p : io A), nacl_laws L sp ep -> nacl_fail_laws L -> modest n p ->
  writes_fit (client_runs L TK TC (cs_init sig (Some e) buf w tk) p).
Proof.
  intros L sp ep TK TC sig e buf w tk A n p HL HX HM. eapply wfq_fit with (Q := fun _ => True).
  unfold client_runs. eapply wfq_bind; [eapply client_fit; exact HL|]. intros [s [[]|x]] HP; cbn [fst snd]; [|constructor; exact I].
  destruct (cs_app s) as [a|] eqn:EA; [|constructor; exact I].
  destruct (HP eq_refl a EA) as (P1 & P2 & P3).
  eapply wfq_bind; [eapply over_app_fit; [exact HL|exact HX|exact HM|]|].
  { split; [exact P1|]. split; [rewrite P2; constructor|exact P3]. } intros; constructor; exact I.
Qed.

Lemma server_runs_fit : forall L sp ep TK TC sig e buf a2 tk A n (p : io A), nacl_laws L sp ep -> nacl_fail_laws L -> a2_fits a2 -> modest n p ->
  writes_fit (server_runs L TK TC (ss_init sig (Some e) buf a2 tk) p).
Proof.
  intros L sp ep TK TC sig e buf a2 tk A n p HL HX HA HM. eapply wfq_fit with (Q := fun _ => True).
  unfold server_runs. eapply wfq_bind; [eapply server_fit; [exact HL|exact HA]|]. intros [s [[]|x]] HP; cbn [fst snd]; [|constructor; exact I].
  destruct (ss_app s) as [a|] eqn:EA; [|constructor; exact I].
  destruct (HP eq_refl a EA) as (P1 & P2 & P3).
  eapply wfq_bind; [eapply over_app_fit; [exact HL|exact HX|exact HM|]|].
  { split; [exact P1|]. split; [rewrite P2; constructor|exact P3]. } intros; constructor; exact I.
Qed.
