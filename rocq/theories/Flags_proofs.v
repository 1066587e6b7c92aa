(** Application channels as pipes of messages with flags. *)
From Coq Require Import List ZArith Bool Strings.Byte Lia ZifyBool ZifyNat ZifyN.
From Verif Require Import PyBase PyBase_proofs IO IO_proofs Packets Packets_proofs Packets_proofs2
  Crypto Crypto_proofs Time EncChannel EncUse EncChannel_proofs AppChannel AppUse AppChannel_proofs Session Session_proofs
  SessUse Session_steps Sched_proofs Session_fwd Session_sched Channel Stack Spec StackUse Stack_proofs Stack_fit Pipe Pipe_proofs Flags.
Import ListNotations.
Open Scope Z_scope.
Ltac Zify.zify_post_hook ::= Z.div_mod_to_equations.

(** What one packet with its flag brings. *)
Definition brings (TC : tchecker) (x : bytes * bool) (ms : list (bytes * bool)) : Prop :=
  decodes TC (fst x) (map fst ms) /\ map snd ms = map (fun _ => snd x) ms.

Lemma const_flags : forall (l : bool) (ms : list bytes), map fst (map (fun m => (m, l)) ms) = ms /\
  map snd (map (fun m => (m, l)) ms) = map (fun _ => l) (map (fun m => (m, l)) ms).
Proof. intros l ms. rewrite !map_map. split; [apply map_id|reflexivity]. Qed.

Lemma singles : forall (mss : list (list bytes)) (ms : list bytes), Forall (fun m => m <> []) mss -> length mss = length ms -> concat mss = ms ->
  mss = map (fun m => [m]) ms.
Proof.
  induction mss as [|x mss IH]; intros ms HN HL HC; destruct ms as [|m ms]; try discriminate; [reflexivity|].
  inversion HN as [|? ? N1 N2]; subst. destruct x as [|y x]; [congruence|]. cbn [concat app] in HC. injection HC as -> HC.
  assert (LE : (length mss <= length (concat mss))%nat).
  { clear - N2. induction mss as [|z mss IH]; cbn; [lia|]. inversion N2; subst. rewrite app_length. destruct z; [congruence|]. cbn.
    specialize (IH H2). lia. }
  assert (EL : length (x ++ concat mss) = length ms) by (exact (f_equal (@length bytes) HC)).
  rewrite app_length in EL. cbn [length] in HL. destruct x as [|z x]; [|cbn [length] in EL; unfold bytes in *; lia].
  cbn [app] in HC. cbn [map]. f_equal. apply IH; [exact N2|congruence|exact HC].
Qed.

Lemma brings_marks : forall TC f l ms, Forall2 (decodes TC) (map f ms) (map (fun m : bytes => [m]) ms) ->
  Forall2 (brings TC) (mark l (map f ms)) (map (fun p => [p]) (mark l ms)).
Proof.
  intros TC f l ms. induction ms as [|m ms IH]; intro H; [constructor|]. cbn [map] in H.
  inversion H as [|? ? ? ? H1 H2]; subst. destruct ms as [|m' ms].
  - cbn. constructor; [split; [exact H1|reflexivity]|constructor].
  - change (mark l (map f (m :: m' :: ms))) with ((f m, false) :: mark l (map f (m' :: ms))).
    change (mark l (m :: m' :: ms)) with ((m, false) :: mark l (m' :: ms)). cbn [map].
    constructor; [split; [exact H1|reflexivity]|]. apply IH. exact H2.
Qed.

Lemma concat_singles : forall A (l : list A), concat (map (fun p => [p]) l) = l.
Proof. induction l; cbn; congruence. Qed.

Lemma Forall2_len : forall A B (R : A -> B -> Prop) l m, Forall2 R l m -> length l = length m.
Proof. intros A B R l m H. induction H; cbn; congruence. Qed.

Lemma packets_bring : forall TC t l m args, (forall x, tc_check TC x = Ok tt) -> fits (m :: args) ->
  exists mss, Forall2 (brings TC) (mark l (packets t (m :: args))) mss /\ concat mss = flagged l (m :: args).
Proof.
  intros TC t l m args HT HF. destruct (packets_decode TC t (m :: args) HT HF) as (mst & D1 & D2).
  unfold flagged. unfold packets in *. destruct ((1 <? Z.of_nat (length (m :: args))) && forallb short (m :: args)) eqn:E.
  - inversion D1 as [|? x ? r H1 H2]; subst. inversion H2; subst. cbn [concat] in D2. rewrite app_nil_r in D2. subst x.
    exists [map (fun x => (x, l)) (m :: args)]. split; [|cbn [concat]; apply app_nil_r]. cbn [mark]. constructor; [|constructor].
    destruct (const_flags l (m :: args)) as [C1 C2]. split; [cbn [fst snd]; rewrite C1; exact H1|exact C2].
  - exists (map (fun p => [p]) (mark l (m :: args))). split; [|apply concat_singles]. apply brings_marks.
    assert (ES : mst = map (fun x => [x]) (m :: args)); [|rewrite <- ES; exact D1].
    apply singles; [|rewrite <- (Forall2_len _ _ _ _ _ D1); apply map_length|exact D2].
    clear - D1. induction D1 as [|a x r s H1 H2 IH]; constructor; [|exact IH]. destruct H1 as (d & q & _ & ->). discriminate.
Qed.

(** One direction, as [flow] in Pipe_proofs.v, with the receiver's [last]. *)
Definition fflow (P : bytes -> Prop) (L : lib) (TC : tchecker) (key : bytes) (w rd : Z) (fl : bool) (q fs : list bytes) (msgs : list (bytes * bool)) : Prop :=
  exists xs mss, sealed_all L key SESSION_NONCE rd xs fs /\ Forall2 (brings TC) xs mss /\
    msgs = map (fun m => (m, fl)) q ++ concat mss /\ w = rd + 2 * Z.of_nat (length fs) /\ Forall (fun m => P (fst m)) msgs.

Lemma fflow_nil : forall P L TC key w fl, fflow P L TC key w w fl [] [] [].
Proof. intros. exists [], []. repeat split; [constructor|cbn; lia|constructor]. Qed.

Lemma flagged_fst : forall l ms, map fst (flagged l ms) = ms.
Proof. intros l ms. unfold flagged. destruct (_ && _); [apply const_flags|apply mark_fst']. Qed.

Lemma flagged_all : forall (P : bytes -> Prop) l ms, Forall P ms -> Forall (fun m => P (fst m)) (flagged l ms).
Proof.
  intros P l ms H. rewrite <- (flagged_fst l ms) in H. rewrite Forall_map in H. exact H.
Qed.

Lemma fflow_write : forall P L sp ep TK TC key pb fl0 rd0 w rd fl tk q0 q fs msgs m args last n,
  nacl_laws L sp ep -> length key = 32%nat -> (forall x, tc_check TC x = Ok tt) -> fits (m :: args) -> Forall P (m :: args) ->
  fflow P L TC key w rd fl q fs msgs -> 0 <= w -> w + 2 * Z.of_nat (length (m :: args) + n) <= 2 ^ 64 ->
  exists gs w' , ac_write L TK m args last (AC (EC key pb fl0 rd0 w SESSION_NONCE) tk None q0) =
      Write gs last (fun r => Ret (AC (EC key pb fl0 rd0 w' SESSION_NONCE) (snd (tk_get TK tk)) None q0, r)) /\
    fflow P L TC key w' rd fl q (fs ++ gs) (msgs ++ flagged last (m :: args)) /\ 0 <= w' /\ w' + 2 * Z.of_nat n <= 2 ^ 64.
Proof.
  intros P L sp ep TK TC key pb fl0 rd0 w rd fl tk q0 q fs msgs m args last n HL Hk HT HF HP (xs & mss & F1 & F2 & F3 & F4 & F5) Hw Hb.
  pose proof (packets_length (fst (tk_get TK tk)) (m :: args)) as PL.
  destruct (ac_write_fwd L sp ep TK key pb fl0 rd0 w tk None q0 m args last HL Hk Hw) as (gs & G1 & G2).
  { cbn [m4_part app]. lia. }
  cbn [m4_part m4_of app] in G1, G2. eexists gs, _. split; [exact G2|].
  destruct (packets_bring TC (fst (tk_get TK tk)) last m args HT HF) as (mst & D1 & D2).
  pose proof (sealed_all_length _ _ _ _ _ _ G1) as Hlen.
  assert (ML : length (mark last (packets (fst (tk_get TK tk)) (m :: args))) = length (packets (fst (tk_get TK tk)) (m :: args))).
  { rewrite <- (map_length fst), mark_fst'. reflexivity. }
  rewrite ML in Hlen. split; [|lia].
  exists (xs ++ mark last (packets (fst (tk_get TK tk)) (m :: args))), (mss ++ mst). split; [|split; [|split; [|split]]].
  - apply sealed_all_app; [exact F1|]. rewrite <- F4. exact G1.
  - apply Forall2_app; [exact F2|exact D1].
  - rewrite F3, concat_app, D2, app_assoc. reflexivity.
  - rewrite app_length. lia.
  - apply Forall_app. split; [exact F5|apply flagged_all; exact HP].
Qed.

Lemma fflow_read : forall P L sp ep TC key w0 w rd tk fl q fs m h msgs,
  nacl_laws L sp ep -> length key = 32%nat -> fflow P L TC key w rd fl q fs ((m, h) :: msgs) ->
  P m /\ (
  (exists q', q = m :: q' /\ h = fl /\ fflow P L TC key w rd fl q' fs msgs /\
     ac_read L TC (AC (EC key [] fl rd w0 SESSION_NONCE) tk None q) = Ret (AC (EC key [] fl rd w0 SESSION_NONCE) tk None q', Ok m)) \/
  (exists f fs' k q', q = [] /\ fs = f :: fs' /\ fflow P L TC key w (rd + 2) h q' fs' msgs /\
     ac_read L TC (AC (EC key [] fl rd w0 SESSION_NONCE) tk None q) = Read k /\
     k (Ok f) = Ret (AC (EC key [] h (rd + 2) w0 SESSION_NONCE) tk None q', Ok m))).
Proof.
  intros P L sp ep TC key w0 w rd tk fl q fs m h msgs HL Hk (xs & mss & F1 & F2 & F3 & F4 & F5).
  split; [inversion F5; assumption|]. assert (F6 : Forall (fun m => P (fst m)) msgs) by (inversion F5; assumption). clear F5.
  destruct q as [|m' q].
  - right. cbn [map app] in F3. destruct mss as [|ms mss]; [discriminate|]. inversion F2 as [|x ms' xs' mss' D1 D2 E1 E2]; subst ms' mss' xs.
    destruct fs as [|f fs]; [destruct F1|]. cbn [sealed_all] in F1. destruct F1 as [F1 F1'].
    destruct D1 as [(d & q & D1 & D3) D4]. destruct ms as [|[m0 h0] ms]; [discriminate|]. cbn [map fst snd] in D3, D4.
    injection D3 as -> <-. injection D4 as -> D4.
    cbn [concat app] in F3. injection F3 as -> -> ->.
    exists f, fs. eexists. exists (map fst ms). split; [reflexivity|]. split; [reflexivity|]. split; [|split].
    + exists xs', mss. split; [exact F1'|]. split; [exact D2|]. split; [|split; [cbn [length] in F4; lia|exact F6]].
      f_equal. clear - D4. induction ms as [|[a b] ms IH]; [reflexivity|]. cbn [map fst snd] in *. injection D4 as -> D4. f_equal. apply IH. exact D4.
    + unfold ac_read, mbind, mget, mput, mret, mzoom, mlift, mmod, ec_read.
      cbn [iobind fst snd ac_readq ac_enc ec_pushback is_empty]. reflexivity.
    + cbv beta iota. rewrite (sealed_process L sp ep key [] fl rd w0 x f HL Hk F1).
      cbn [iobind fst snd]. rewrite D1. cbn [iobind fst snd]. reflexivity.
  - left. cbn [map app] in F3. injection F3 as -> -> ->. exists q. split; [reflexivity|]. split; [reflexivity|]. split; [|reflexivity].
    exists xs, mss. auto.
Qed.

Lemma fflow_empty : forall P L TC key w rd fl q fs, fflow P L TC key w rd fl q fs [] -> q = [] /\ fs = [].
Proof.
  intros P L TC key w rd fl q fs (xs & mss & F1 & F2 & F3 & F4 & F5). symmetry in F3. apply app_eq_nil in F3. destruct F3 as [E F3].
  apply map_eq_nil in E. subst q. split; [reflexivity|]. destruct mss as [|ms mss].
  - inversion F2 as [E|]. subst xs. destruct fs; [reflexivity|destruct F1].
  - inversion F2 as [|? ? ? ? D]; subst. destruct D as [(d & r & _ & D) _]. destruct ms; [discriminate D|discriminate F3].
Qed.

Section Sim.
  Variables (P : bytes -> Prop) (L : lib) (sp ep : bytes -> bytes -> Prop) (TKl TKr : tkeeper) (TCl TCr : tchecker) (key : bytes).
  Variables (A B X Y : Type) (kl : ac * A -> io X) (kr : ac * B -> io Y).
  Hypotheses (HL : nacl_laws L sp ep) (Hk : length key = 32%nat).
  Hypotheses (Tl : forall x, tc_check TCl x = Ok tt) (Tr : forall x, tc_check TCr x = Ok tt).

  Definition lrep (s : lsys A B) (r : sys X Y) : Prop :=
    exists nl nr rl wl tl ql rr wr tr qr ab ba,
      r = Sys (iobind (over_flags L TKl TCl (l_left s) (chan key (l_lflag s) rl wl tl ql)) kl)
              (iobind (over_flags L TKr TCr (l_right s) (chan key (l_rflag s) rr wr tr qr)) kr) ab ba /\
      lmodest P nl (l_left s) /\ lmodest P nr (l_right s) /\
      0 <= wl /\ wl + 2 * Z.of_nat nl <= 2 ^ 64 /\ 0 <= wr /\ wr + 2 * Z.of_nat nr <= 2 ^ 64 /\
      fflow P L TCr key wl rr (l_rflag s) qr ab (l_lr s) /\ fflow P L TCl key wr rl (l_lflag s) ql ba (l_rl s).

  Lemma lrep_step : forall s s' r, lstep s s' -> lrep s r -> exists n r', steps n r r' /\ lrep s' r'.
  Proof.
    intros s s' r HS (nl & nr & rl & wl & tl & ql & rr & wr & tr & qr & ab & ba & -> & M1 & M2 & B1 & B2 & B3 & B4 & F1 & F2).
    inversion HS; subst; cbn [l_left l_right l_lr l_rl l_lflag l_rflag] in *.
    - inversion M1 as [| |n m args l' k' HF HB HP HM E1 E2|]; subst. unfold chan.
      destruct (fflow_write P L sp ep TKl TCr key [] f rl wl rr g tl ql qr ab a m args l n HL Hk Tr HF HP F1 B1 B2) as (gs & w' & G1 & G2 & G3 & G4).
      cbn [over_flags]. rewrite G1. cbn [iobind].
      exists 1%nat. eexists. split; [econstructor; [apply st_lw|apply steps_O]|]. cbn [iobind fst snd].
      exists n, nr, rl, w', (snd (tk_get TKl tl)), ql, rr, wr, tr, qr, (ab ++ gs), ba.
      split; [reflexivity|]. cbn [l_left l_right l_lr l_rl l_lflag l_rflag]. auto 20.
    - inversion M1 as [|n k' HM| |]; subst. unfold chan.
      destruct (fflow_read P L sp ep TCl key wl wr rl tl f ql ba m h b HL Hk F2) as [BM [(q' & -> & -> & G1 & G2)|(f' & fs' & k' & q' & -> & -> & G1 & G2 & G3)]].
      + specialize (HM (Ok m) ltac:(intros x Ex; injection Ex as <-; exact BM)). cbn [over_flags]. rewrite G2. cbn [iobind fst snd]. exists 0%nat. eexists. split; [apply steps_O|].
        exists nl, nr, rl, wl, tl, q', rr, wr, tr, qr, ab, ba. split; [reflexivity|]. cbn [l_left l_right l_lr l_rl l_lflag l_rflag]. auto 20.
      + specialize (HM (Ok m) ltac:(intros x Ex; injection Ex as <-; exact BM)). cbn [over_flags]. rewrite G2. cbn [iobind]. exists 1%nat. eexists. split; [econstructor; [apply st_lr|apply steps_O]|].
        cbv beta. rewrite G3. cbn [iobind fst snd].
        exists nl, nr, (rl + 2), wl, tl, q', rr, wr, tr, qr, ab, fs'. split; [reflexivity|]. cbn [l_left l_right l_lr l_rl l_lflag l_rflag]. auto 20.
    - inversion M1 as [| | |n k' HM]; subst. exists 0%nat. eexists. split; [apply steps_O|].
      exists nl, nr, rl, wl, tl, ql, rr, wr, tr, qr, ab, ba. cbn [l_left l_right l_lr l_rl l_lflag l_rflag over_flags]. split; [reflexivity|]. auto 20.
    - inversion M2 as [| |n m args l' k' HF HB HP HM E1 E2|]; subst. unfold chan.
      destruct (fflow_write P L sp ep TKr TCl key [] g rr wr rl f tr qr ql ba b m args l n HL Hk Tl HF HP F2 B3 B4) as (gs & w' & G1 & G2 & G3 & G4).
      cbn [over_flags]. rewrite G1. cbn [iobind].
      exists 1%nat. eexists. split; [econstructor; [apply st_rw|apply steps_O]|]. cbn [iobind fst snd].
      exists nl, n, rl, wl, tl, ql, rr, w', (snd (tk_get TKr tr)), qr, ab, (ba ++ gs).
      split; [reflexivity|]. cbn [l_left l_right l_lr l_rl l_lflag l_rflag]. auto 20.
    - inversion M2 as [|n k' HM| |]; subst. unfold chan.
      destruct (fflow_read P L sp ep TCr key wr wl rr tr g qr ab m h a HL Hk F1) as [BM [(q' & -> & -> & G1 & G2)|(f' & fs' & k' & q' & -> & -> & G1 & G2 & G3)]].
      + specialize (HM (Ok m) ltac:(intros x Ex; injection Ex as <-; exact BM)). cbn [over_flags]. rewrite G2. cbn [iobind fst snd]. exists 0%nat. eexists. split; [apply steps_O|].
        exists nl, nr, rl, wl, tl, ql, rr, wr, tr, q', ab, ba. split; [reflexivity|]. cbn [l_left l_right l_lr l_rl l_lflag l_rflag]. auto 20.
      + specialize (HM (Ok m) ltac:(intros x Ex; injection Ex as <-; exact BM)). cbn [over_flags]. rewrite G2. cbn [iobind]. exists 1%nat. eexists. split; [econstructor; [apply st_rr|apply steps_O]|].
        cbv beta. rewrite G3. cbn [iobind fst snd].
        exists nl, nr, rl, wl, tl, ql, (rr + 2), wr, tr, q', fs', ba. split; [reflexivity|]. cbn [l_left l_right l_lr l_rl l_lflag l_rflag]. auto 20.
    - inversion M2 as [| | |n k' HM]; subst. exists 0%nat. eexists. split; [apply steps_O|].
      exists nl, nr, rl, wl, tl, ql, rr, wr, tr, qr, ab, ba. cbn [l_left l_right l_lr l_rl l_lflag l_rflag over_flags]. split; [reflexivity|]. auto 20.
  Qed.

  Lemma lrep_steps : forall n s s', lsteps n s s' -> forall r, lrep s r -> exists m r', steps m r r' /\ lrep s' r'.
  Proof.
    intros n s s' H. induction H as [s|n s t u H1 H2 IH]; intros r HR.
    - exists 0%nat, r. split; [apply steps_O|exact HR].
    - destruct (lrep_step _ _ _ H1 HR) as (m & r1 & S1 & R1). destruct (IH _ R1) as (m2 & r2 & S2 & R2).
      exists (m + m2)%nat, r2. split; [eapply steps_app; eauto|exact R2].
  Qed.

  Definition lreading {C} (p : lio C) : bool := match p with LRead _ => true | _ => false end.

  (** Where the ideal system is stuck, so is the real one, in the same way. *)
  Lemma lrep_stuck : forall s r, (forall t, ~ lstep s t) -> lrep s r ->
    (match l_left s with LRet x => exists a, s_left r = kl (a, x) | LRead _ => exists k, s_left r = Read k | _ => False end) /\
    (match l_right s with LRet x => exists a, s_right r = kr (a, x) | LRead _ => exists k, s_right r = Read k | _ => False end) /\
    (l_lr s = [] -> s_lr r = []) /\ (l_rl s = [] -> s_rl r = []) /\
    (lreading (l_left s) = true -> l_rl s = []) /\ (lreading (l_right s) = true -> l_lr s = []).
  Proof.
    intros [p f q g a b] r HS (nl & nr & rl & wl & tl & ql & rr & wr & tr & qr & ab & ba & -> & M1 & M2 & B1 & B2 & B3 & B4 & F1 & F2).
    cbn [l_left l_right l_lr l_rl l_lflag l_rflag] in *. cbn [s_left s_right s_lr s_rl].
    assert (RL : lreading p = true -> b = []).
    { intro E. destruct p; try discriminate. destruct b as [|[m h] b]; [reflexivity|]. exfalso. eapply HS. apply ls_lr. }
    assert (RR : lreading q = true -> a = []).
    { intro E. destruct q; try discriminate. destruct a as [|[m h] a]; [reflexivity|]. exfalso. eapply HS. apply ls_rr. }
    split; [|split; [|split; [|split; [|split]]]].
    - destruct p as [x|k|ms l k|k].
      + eexists. reflexivity.
      + rewrite (RL eq_refl) in F2. apply fflow_empty in F2. destruct F2 as [-> ->].
        eexists. reflexivity.
      + eapply HS. apply ls_lw.
      + eapply HS. apply ls_ll.
    - destruct q as [x|k|ms l k|k].
      + eexists. reflexivity.
      + rewrite (RR eq_refl) in F1. apply fflow_empty in F1. destruct F1 as [-> ->].
        eexists. reflexivity.
      + eapply HS. apply ls_rw.
      + eapply HS. apply ls_rl.
    - intros ->. apply fflow_empty in F1. tauto.
    - intros ->. apply fflow_empty in F2. tauto.
    - exact RL.
    - exact RR.
  Qed.
End Sim.

(** ** Frame sizes *)
Lemma over_flags_fit : forall L sp ep TK TC A n (p : lio A), nacl_laws L sp ep -> nacl_fail_laws L -> lmodest (fun m => bulk [m]) n p -> forall a, ac_fine a ->
  wfq (fun _ => True) (over_flags L TK TC p a).
Proof.
  intros L sp ep TK TC A n p HL HX H. induction H as [n x|n k H IH|n m args l k HF HB HQ H IH|n k H IH]; intros a G; cbn [over_flags].
  - constructor. exact I.
  - eapply wfq_bind; [eapply ac_read_good; eauto|]. intros y [Gy Gm]. apply IH; [exact Gm|exact Gy].
  - eapply wfq_bind; [eapply ac_write_good; eauto|]. intros y Gy. apply IH. exact Gy.
  - apply IH. exact G.
Qed.

Lemma client_uses_fit : forall L sp ep TK TC sig e buf w tk A n (p : lio A), nacl_laws L sp ep -> nacl_fail_laws L -> lmodest (fun m => bulk [m]) n p ->
  writes_fit (client_uses L TK TC (cs_init sig (Some e) buf w tk) p).
Proof.
  intros L sp ep TK TC sig e buf w tk A n p HL HX HM. eapply wfq_fit with (Q := fun _ => True).
  unfold client_uses. eapply wfq_bind; [eapply client_fit; exact HL|]. intros [s [[]|x]] HP; cbn [fst snd]; [|constructor; exact I].
  destruct (cs_app s) as [a|] eqn:EA; [|constructor; exact I].
  destruct (HP eq_refl a EA) as (P1 & P2 & P3).
  eapply wfq_bind; [eapply over_flags_fit; [exact HL|exact HX|exact HM|]|].
  { split; [exact P1|]. split; [rewrite P2; constructor|exact P3]. } intros; constructor; exact I.
Qed.

Lemma server_uses_fit : forall L sp ep TK TC sig e buf a2 tk A n (p : lio A), nacl_laws L sp ep -> nacl_fail_laws L -> a2_fits a2 -> lmodest (fun m => bulk [m]) n p ->
  wfq (fun _ => True) (server_uses L TK TC (ss_init sig (Some e) buf a2 tk) p).
Proof.
  intros L sp ep TK TC sig e buf a2 tk A n p HL HX HA HM.
  unfold server_uses. eapply wfq_bind; [eapply server_fit; [exact HL|exact HA]|]. intros [s [[]|x]] HP; cbn [fst snd]; [|constructor; exact I].
  destruct (ss_app s) as [a|] eqn:EA; [|constructor; exact I].
  destruct (HP eq_refl a EA) as (P1 & P2 & P3).
  eapply wfq_bind; [eapply over_flags_fit; [exact HL|exact HX|exact HM|]|].
  { split; [exact P1|]. split; [rewrite P2; constructor|exact P3]. } intros; constructor; exact I.
Qed.
