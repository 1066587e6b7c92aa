(** Lemmas about [Threads]. *)
From Coq Require Import List ZArith Bool Strings.Byte Lia ZifyBool ZifyNat.
From Verif Require Import PyBase IO IO_proofs Packets Crypto Time Channel Channel_proofs EncChannel EncChannel_proofs EncUse AppChannel AppUse Tasks Servers Harness Harness_proofs Props_Channel Spec Threads.
From Verif Require Sync.
Import ListNotations.
Open Scope Z_scope.

(** ** Synchronous calls *)
Lemma ac_hist_app : forall L TK TC s h s1 h' s2, ac_hist L TK TC s h s1 -> ac_hist L TK TC s1 h' s2 -> ac_hist L TK TC s (h ++ h') s2.
Proof. intros L TK TC s h s1 h' s2 H. induction H; intro H2; cbn [app]; [exact H2|econstructor; eauto|econstructor; eauto]. Qed.

Lemma follows_app : forall p h q h' r, follows p h q -> follows q h' r -> follows p (h ++ h') r.
Proof. intros p h q h' r H. induction H; intro H2; cbn [app]; [exact H2|constructor; auto|constructor; auto]. Qed.

Lemma accepted_app : forall a b, accepted (a ++ b) = accepted a ++ accepted b.
Proof. intros. unfold accepted. rewrite filter_app, map_app. reflexivity. Qed.
Lemma made_app : forall a b, made (a ++ b) = made a ++ made b.
Proof. intros. apply map_app. Qed.
Lemma calls_of_app : forall i a b, calls_of i (a ++ b) = calls_of i a ++ calls_of i b.
Proof. intros. unfold calls_of. rewrite filter_app, map_app. reflexivity. Qed.

Lemma answered_exec : forall A (c : io A) e c' t o, answered c e c' -> exec c' t o -> exec c (e :: t) o.
Proof. intros A c e c' t o H X. destruct H; constructor; exact X. Qed.

Section Sync.
  Variable L : lib.
  Variable TK : tkeeper.
  Variable TC : tchecker.

  Definition run_ok (s : ac) (ps : list prog) (r : option running) : Prop :=
    match r with
    | None => True
    | Some (InRead i k t c) => nth_error ps i = Some (PRead k) /\ (forall t2 o, exec c t2 o -> exec (ac_read L TC s) (t ++ t2) o)
    | Some (InWrite i m args last k t c) => nth_error ps i = Some (PWrite m args last k) /\ (forall t2 o, exec c t2 o -> exec (ac_write L TK m args last s) (t ++ t2) o)
    end.

  Definition sinv (s0 : ac) (ps0 : list prog) (l : list (nat * bool * ecall)) (x : shared) : Prop :=
    ac_hist L TK TC s0 (accepted l) (sh_ac x) /\
    (forall i p, nth_error ps0 i = Some p -> exists q, nth_error (sh_threads x) i = Some q /\ follows p (calls_of i (made l)) q) /\
    (forall i c, In (i, false, c) l -> (exists last, c = EcRead [] (Err Sync.RuntimeError) last) \/
       exists m args last, c = EcWrite m args last [] (Err Sync.RuntimeError)) /\
    run_ok (sh_ac x) (sh_threads x) (sh_run x).

  Lemma sinv_init : forall s ps, sinv s ps [] (Shared s None ps).
  Proof.
    intros s ps. split; [constructor|]. split; [intros i p E; exists p; split; [exact E|constructor]|]. split; [intros i c []|exact I].
  Qed.

  (** One more call of thread [i], which then goes on with [q']. *)
  Lemma threads_after : forall ps0 ps l i acc c q q',
    (forall j p, nth_error ps0 j = Some p -> exists q, nth_error ps j = Some q /\ follows p (calls_of j (made l)) q) ->
    nth_error ps i = Some q -> follows q [c] q' ->
    forall j p, nth_error ps0 j = Some p -> exists r, nth_error (set_at i q' ps) j = Some r /\ follows p (calls_of j (made (l ++ [(i, acc, c)]))) r.
  Proof.
    intros ps0 ps l i acc c q q' H Ei HF j p Ej. destruct (H j p Ej) as (r & Er & Hr). rewrite made_app, calls_of_app. pose proof (nth_lt _ _ _ _ Ei) as Hi.
    unfold calls_of at 2. cbn [made map filter fst snd]. destruct (Nat.eqb_spec i j) as [->|N].
    - exists q'. split; [apply set_at_same; exact Hi|]. cbn [map snd]. rewrite Ei in Er. injection Er as <-. eapply follows_app; eassumption.
    - exists r. split; [rewrite set_at_other by assumption; exact Er|]. cbn [map]. rewrite app_nil_r. exact Hr.
  Qed.

  Lemma sinv_step : forall s0 ps0 l x o y, sinv s0 ps0 l x -> sstep L TK TC x o y -> sinv s0 ps0 (l ++ match o with Some c => [c] | None => [] end) y.
  Proof.
    intros s0 ps0 l x o y (H1 & H2 & H3 & H4) HS.
    destruct HS as [s ps i k E|s ps i m args last k E|s r ps i k E N|s r ps i m args last k E N|s ps i k t c e c' HA|s ps i m args last k t c e c' HA|s ps i k t s' r|s ps i m args last k t s' r];
      cbn [sh_ac sh_run sh_threads] in *; try rewrite app_nil_r.
    - split; [exact H1|]. split; [exact H2|]. split; [exact H3|]. split; [exact E|]. intros t2 o HX. exact HX.
    - split; [exact H1|]. split; [exact H2|]. split; [exact H3|]. split; [exact E|]. intros t2 o HX. exact HX.
    - split; [rewrite accepted_app; cbn; rewrite app_nil_r; exact H1|].
      split; [eapply threads_after; [exact H2|exact E|constructor; constructor]|].
      split; [intros j c I; apply in_app_iff in I; destruct I as [I|[I|[]]]; [eauto|injection I as <- <-; left; eauto]|].
      destruct r as [j k0 t c|j m0 args0 last0 k0 t c]; cbn in N, H4 |- *; destruct H4 as [H4 H5]; (split; [|exact H5]); rewrite set_at_other by (try apply (nth_lt _ _ _ _ E); congruence); exact H4.
    - split; [rewrite accepted_app; cbn; rewrite app_nil_r; exact H1|].
      split; [eapply threads_after; [exact H2|exact E|constructor; constructor]|].
      split; [intros j c I; apply in_app_iff in I; destruct I as [I|[I|[]]]; [eauto|injection I as <- <-; right; eauto]|].
      destruct r as [j k0 t c|j m0 args0 last0 k0 t c]; cbn in N, H4 |- *; destruct H4 as [H4 H5]; (split; [|exact H5]); rewrite set_at_other by (try apply (nth_lt _ _ _ _ E); congruence); exact H4.
    - split; [exact H1|]. split; [exact H2|]. split; [exact H3|]. destruct H4 as [H4 H5]. split; [exact H4|].
      intros t2 o HX. rewrite <- app_assoc. apply H5. cbn [app]. eapply answered_exec; eassumption.
    - split; [exact H1|]. split; [exact H2|]. split; [exact H3|]. destruct H4 as [H4 H5]. split; [exact H4|].
      intros t2 o HX. rewrite <- app_assoc. apply H5. cbn [app]. eapply answered_exec; eassumption.
    - destruct H4 as [H4 H5]. specialize (H5 [] (Some (s', r)) (ex_ret _)). rewrite app_nil_r in H5.
      split; [rewrite accepted_app; eapply ac_hist_app; [exact H1|]; cbn; econstructor; [exact H5|constructor]|].
      split; [eapply threads_after; [exact H2|exact H4|constructor; constructor]|].
      split; [|exact I]. intros j c I'. apply in_app_iff in I'. destruct I' as [I'|[I'|[]]]; [eauto|discriminate].
    - destruct H4 as [H4 H5]. specialize (H5 [] (Some (s', r)) (ex_ret _)). rewrite app_nil_r in H5.
      split; [rewrite accepted_app; eapply ac_hist_app; [exact H1|]; cbn; econstructor; [exact H5|constructor]|].
      split; [eapply threads_after; [exact H2|exact H4|constructor; constructor]|].
      split; [|exact I]. intros j c I'. apply in_app_iff in I'. destruct I' as [I'|[I'|[]]]; [eauto|discriminate].
  Qed.

  Lemma sinv_steps : forall x l y, ssteps L TK TC x l y -> forall s0 ps0 l0, sinv s0 ps0 l0 x -> sinv s0 ps0 (l0 ++ l) y.
  Proof.
    intros x l y H. induction H as [x|x o y l z HS H IH]; intros s0 ps0 l0 HI; [rewrite app_nil_r; exact HI|].
    pose proof (IH _ _ _ (sinv_step _ _ _ _ _ _ HI HS)) as Q. rewrite <- app_assoc in Q. destruct o; exact Q.
  Qed.

  (** While the read of thread [i] waits, the others are refused and nothing happens. *)
  Lemma waiting_step : forall s i k c ps o y, sstep L TK TC (Shared s (Some (InRead i k [] (Read c))) ps) o y ->
    (exists a, sh_run y = Some (InRead i k [ERead a] (c a)) /\ o = None) \/
    (exists ps' j call, y = Shared s (Some (InRead i k [] (Read c))) ps' /\ o = Some (j, false, call) /\ j <> i).
  Proof.
    intros s i k c ps o y HS. inversion HS; subst; cbn [runner] in *.
    - right. eexists. eexists. eexists. split; [reflexivity|]. split; [reflexivity|assumption].
    - right. eexists. eexists. eexists. split; [reflexivity|]. split; [reflexivity|assumption].
    - left. match goal with H : answered _ _ _ |- _ => inversion H; subst end. eexists. split; reflexivity.
  Qed.
End Sync.

(** ** Executions that keep a predicate *)
Lemma keeping_first : forall X (R : X -> X -> Prop) P x y, keeping R P x y -> P x.
Proof. intros X R P x y H. destruct H; assumption. Qed.
Lemma keeping_inv : forall X (R : X -> X -> Prop) (P I : X -> Prop), (forall x y, I x -> P x -> P y -> R x y -> I y) ->
  forall x y, keeping R P x y -> I x -> I y.
Proof.
  intros X R P I HI x y H. induction H as [x HP|x y z HP HR H IH]; intro HX; [exact HX|]. apply IH. eapply HI; [exact HX|exact HP| |exact HR]. eapply keeping_first. exact H.
Qed.

(** ** Sockets *)

Lemma pack_frames_small : forall ms raw, pack_frames ms = Ok raw -> Forall small ms.
Proof.
  induction ms as [|m ms IH]; intros raw H; [constructor|]. cbn [pack_frames] in H. unfold pack_i in H. unfold zlen in H.
  destruct ((- 2 ^ 31 <=? Z.of_nat (length m)) && (Z.of_nat (length m) <? 2 ^ 31)) eqn:E; [|discriminate].
  destruct (pack_frames ms) as [b|e] eqn:E2; [|discriminate]. constructor; [|eapply IH; reflexivity].
  unfold small, zlen. apply andb_true_iff in E. destruct E as [_ E]. apply Z.ltb_lt in E. exact E.
Qed.

Lemma sendable_iff : forall m args, sendable (m, args) = true <-> Forall small (m :: args).
Proof.
  intros m args. unfold sendable. cbn [fst snd]. rewrite forallb_forall, Forall_forall. unfold small, zlen.
  split; intros H x I; specialize (H x I); [apply Z.ltb_lt in H|apply Z.ltb_lt]; exact H.
Qed.

Lemma pack_sendable : forall m args, (exists raw, pack_frames (m :: args) = Ok raw) <-> sendable (m, args) = true.
Proof.
  intros m args. rewrite sendable_iff. split; [intros (raw & E); eapply pack_frames_small; exact E|]. intro H. eexists. apply pack_frames_ok. exact H.
Qed.

Section Lists.
  Context {X : Type}.
  Variable busy : X -> bool.

  Lemma set_at_cases : forall i (x y : X) l j, (i < length l)%nat -> nth_error (set_at i x l) j = Some y ->
    (j = i /\ y = x) \/ (j <> i /\ nth_error l j = Some y).
  Proof.
    intros i x y l j H E. destruct (Nat.eq_dec i j) as [<-|N].
    - rewrite set_at_same in E by exact H. left. split; [reflexivity|congruence].
    - right. split; [congruence|]. rewrite set_at_other in E by assumption. exact E.
  Qed.

  (** If thread [i] is the busy one afterwards, no other was busy before. *)
  Lemma alone_others : forall i x l, (i < length l)%nat -> alone busy (set_at i x l) -> busy x = true ->
    forall j y, j <> i -> nth_error l j = Some y -> busy y = false.
  Proof.
    intros i x l H HA HB j y N E. destruct (busy y) eqn:EB; [|reflexivity]. exfalso. apply N. symmetry.
    apply (HA i j x y); [apply set_at_same; exact H|rewrite set_at_other by congruence; exact E|exact HB|exact EB].
  Qed.

  Lemma alone_same : forall i x l, alone busy l -> nth_error l i = Some x -> busy x = true ->
    forall j y, j <> i -> nth_error l j = Some y -> busy y = false.
  Proof. intros i x l HA E HB j y N E2. destruct (busy y) eqn:EB; [|reflexivity]. exfalso. apply N. eapply HA; eassumption. Qed.
End Lists.

Definition left_of {Y} (x : option bytes * Y) : bytes := match fst x with Some q => q | None => [] end.
Definition pending {Y} (ts : list (option bytes * Y)) : bytes := concat (map left_of ts).

Lemma pending_none : forall Y (ts : list (option bytes * Y)), (forall j y, nth_error ts j = Some y -> sending y = false) -> pending ts = [].
Proof.
  intros Y ts. induction ts as [|[o c] ts IH]; intro H; [reflexivity|]. unfold pending in *. cbn [map concat]. rewrite IH.
  - specialize (H O _ eq_refl). destruct o; [discriminate|reflexivity].
  - intros j y E. apply (H (S j)). exact E.
Qed.

Lemma pending_only : forall Y (ts : list (option bytes * Y)) i x, nth_error ts i = Some x ->
  (forall j y, j <> i -> nth_error ts j = Some y -> sending y = false) -> pending ts = left_of x.
Proof.
  intros Y ts. induction ts as [|y ts IH]; intros i x E H; [destruct i; discriminate|]. unfold pending in *. cbn [map concat]. destruct i as [|i]; cbn in E.
  - injection E as ->. fold (pending ts). rewrite pending_none, app_nil_r; [reflexivity|]. intros j z Ez. apply (H (S j)); [discriminate|exact Ez].
  - rewrite (IH i x E); [|intros j z N Ez; apply (H (S j)); [lia|exact Ez]]. specialize (H O y ltac:(lia) eq_refl). destruct y as [[q|] c]; [discriminate|reflexivity].
Qed.

Lemma of_thread_snoc : forall X i j (x : X) l, of_thread i (l ++ [(j, x)]) = of_thread i l ++ (if Nat.eqb j i then [x] else []).
Proof. intros. unfold of_thread. rewrite filter_app, map_app. cbn [filter fst]. destruct (Nat.eqb j i); reflexivity. Qed.

Lemma sent_snoc : forall cs m args raw, pack_frames (m :: args) = Ok raw -> sent (cs ++ [(m, args)]) = sent cs ++ raw.
Proof.
  intros cs m args raw E. unfold sent. rewrite map_app, concat_app. cbn [map concat fst snd]. unfold write_sync. rewrite E. cbn [fst concat]. rewrite !app_nil_r. reflexivity.
Qed.

Definition winv (css : list (list (bytes * list bytes))) (w : wire) : Prop :=
  w_sent w ++ pending (w_threads w) = sent (map snd (w_log w)) /\
  Forall (fun x => sendable (snd x) = true) (w_log w) /\
  (forall i cs, nth_error css i = Some cs -> exists o cs', nth_error (w_threads w) i = Some (o, cs') /\
    filter sendable cs = of_thread i (w_log w) ++ filter sendable cs') /\
  length (w_threads w) = length css /\ (forall i c, In (i, c) (w_log w) -> (i < length css)%nat).

Lemma winv_init : forall css, winv css (winit css).
Proof.
  intro css. split; [|split; [constructor|split; [|split; [apply map_length|intros i c []]]]].
  - unfold winit. cbn [w_sent w_threads w_log]. rewrite pending_none; [reflexivity|]. intros j y E. apply nth_error_In, in_map_iff in E. destruct E as (cs & <- & _). reflexivity.
  - intros i cs E. exists None, cs. split; [|reflexivity]. unfold winit. cbn [w_threads]. apply (map_nth_error (fun cs => (None, cs)) i css E).
Qed.

Lemma winv_step : forall css x y, winv css x -> alone sending (w_threads x) -> alone sending (w_threads y) -> wstep x y -> winv css y.
Proof.
  intros css x y (H1 & H2 & H3 & H4 & H5) PX PY HS.
  destruct HS as [b ts l i m args cs raw E EP|b ts l i m args cs e E EP|b ts l i p q cs E N|b ts l i cs E]; cbn [w_sent w_threads w_log] in *; pose proof (nth_lt _ _ _ _ E) as Hi; unfold winv; cbn [w_sent w_threads w_log].
  - assert (HO : forall j z, j <> i -> nth_error ts j = Some z -> sending z = false) by (eapply alone_others; [exact Hi|exact PY|reflexivity]).
    split; [|split; [|split; [|split; [rewrite set_at_length by exact Hi; exact H4|]]]].
    + rewrite map_app. cbn [map snd]. rewrite (sent_snoc _ _ _ _ EP), <- H1, (pending_only _ ts i _ E HO). cbn [left_of fst]. rewrite app_nil_r.
      rewrite (pending_only _ _ i (Some raw, cs)); [reflexivity|apply set_at_same; exact Hi|]. intros j z Nj Ez. rewrite set_at_other in Ez by congruence. eauto.
    + apply Forall_app. split; [exact H2|]. constructor; [|constructor]. cbn [snd]. apply pack_sendable. eauto.
    + intros j cs0 Ej. destruct (H3 j cs0 Ej) as (o & cs' & Eo & HF). rewrite of_thread_snoc. destruct (Nat.eqb_spec i j) as [<-|Nj].
      * pose proof (eq_trans (eq_sym Eo) E) as Q. injection Q as -> ->. exists (Some raw), cs. split; [apply set_at_same; exact Hi|]. rewrite HF. cbn [filter].
        assert (ES : sendable (m, args) = true) by (apply pack_sendable; eauto). rewrite ES, <- app_assoc. reflexivity.
      * exists o, cs'. split; [rewrite set_at_other by assumption; exact Eo|]. rewrite app_nil_r. exact HF.
    + intros j c I. apply in_app_iff in I. destruct I as [I|[I|[]]]; [eauto|]. injection I as <- _. rewrite <- H4. exact Hi.
  - split; [|split; [exact H2|split; [|split; [rewrite set_at_length by exact Hi; exact H4|exact H5]]]].
    + assert (ER : pending (set_at i (None, cs) ts) = pending ts).
      { unfold pending. clear -E. revert i E. induction ts as [|t ts IH]; intros i E; [destruct i; discriminate|]. destruct i as [|i]; cbn in E.
        - injection E as ->. reflexivity.
        - rewrite set_at_cons. cbn [map concat]. rewrite IH by exact E. reflexivity. }
      rewrite ER. exact H1.
    + intros j cs0 Ej. destruct (H3 j cs0 Ej) as (o & cs' & Eo & HF). destruct (Nat.eq_dec i j) as [<-|Nj].
      * pose proof (eq_trans (eq_sym Eo) E) as Q. injection Q as -> ->. exists None, cs. split; [apply set_at_same; exact Hi|]. rewrite HF. cbn [filter].
        destruct (sendable (m, args)) eqn:ES; [|reflexivity]. apply pack_sendable in ES. destruct ES as (raw & ES). congruence.
      * exists o, cs'. split; [rewrite set_at_other by assumption; exact Eo|exact HF].
  - assert (HO : forall j z, j <> i -> nth_error ts j = Some z -> sending z = false) by (eapply alone_same; [exact PX|exact E|reflexivity]).
    split; [|split; [exact H2|split; [|split; [rewrite set_at_length by exact Hi; exact H4|exact H5]]]].
    + rewrite <- H1, (pending_only _ ts i _ E HO), (pending_only _ (set_at i (Some q, cs) ts) i (Some q, cs)); [cbn [left_of fst]; rewrite <- app_assoc; reflexivity|apply set_at_same; exact Hi|].
      intros j z Nj Ez. rewrite set_at_other in Ez by congruence. eauto.
    + intros j cs0 Ej. destruct (H3 j cs0 Ej) as (o & cs' & Eo & HF). destruct (Nat.eq_dec i j) as [<-|Nj].
      * pose proof (eq_trans (eq_sym Eo) E) as Q. injection Q as -> ->. exists (Some q), cs. split; [apply set_at_same; exact Hi|exact HF].
      * exists o, cs'. split; [rewrite set_at_other by assumption; exact Eo|exact HF].
  - assert (HO : forall j z, j <> i -> nth_error ts j = Some z -> sending z = false) by (eapply alone_same; [exact PX|exact E|reflexivity]).
    split; [|split; [exact H2|split; [|split; [rewrite set_at_length by exact Hi; exact H4|exact H5]]]].
    + rewrite <- H1, (pending_only _ ts i _ E HO), (pending_only _ (set_at i (None, cs) ts) i (None, cs)); [reflexivity|apply set_at_same; exact Hi|].
      intros j z Nj Ez. rewrite set_at_other in Ez by congruence. eauto.
    + intros j cs0 Ej. destruct (H3 j cs0 Ej) as (o & cs' & Eo & HF). destruct (Nat.eq_dec i j) as [<-|Nj].
      * pose proof (eq_trans (eq_sym Eo) E) as Q. injection Q as -> ->. exists None, cs. split; [apply set_at_same; exact Hi|exact HF].
      * exists o, cs'. split; [rewrite set_at_other by assumption; exact Eo|exact HF].
Qed.

(** ** Nonces *)

Section Nonces.
  Variable L : lib.

  Lemma ec_hist_app : forall s h s1 h' s2, ec_hist L s h s1 -> ec_hist L s1 h' s2 -> ec_hist L s (h ++ h') s2.
  Proof. intros s h s1 h' s2 H. induction H; intro H2; cbn [app]; [exact H2|econstructor; eauto|econstructor; eauto]. Qed.

  Lemma frames_out_app' : forall a b, frames_out (a ++ b) = frames_out a ++ frames_out b.
  Proof. intros. unfold frames_out, events. rewrite map_app, concat_app, map_app, concat_app. reflexivity. Qed.

  Definition cont (out : list bytes) (x : ec * res (list bytes)) : ec * res (list bytes) :=
    (fst x, match snd x with Ok fs => Ok (out ++ fs) | Err e => Err e end).

  Lemma cont_nil : forall x, cont [] x = x.
  Proof. intros [s [fs|e]]; reflexivity. Qed.

  Lemma wrap_step : forall s last m ms out c, ec_encrypt L s m = Ok c ->
    cont out (ec_wrap_all L s last (m :: ms)) = cont (out ++ [ec_wrap c (last && is_empty ms)]) (ec_wrap_all L (ec_advance_write s) last ms).
  Proof.
    intros s last m ms out c E. cbn [ec_wrap_all]. rewrite E. unfold cont. destruct (ec_wrap_all L (ec_advance_write s) last ms) as [s' [fs|e]]; cbn [fst snd]; [rewrite <- app_assoc; reflexivity|reflexivity].
  Qed.

  (** A call began in state [s1] and has got to [ph] with the channel in state [cur]. *)
  Definition phase_ok (s1 cur : ec) (ph : nphase) (m : bytes) (args : list bytes) (last : bool) : Prop :=
    match ph with
    | NOut => False
    | NLoop ms out l => l = last /\ ec_wrap_all L s1 last (m :: args) = cont out (ec_wrap_all L cur last ms)
    | NLoad ms out l => l = last /\ ec_wrap_all L s1 last (m :: args) = cont out (ec_wrap_all L (ec_advance_write cur) last ms)
    | NStore ms out l v => l = last /\ v = ec_write_nonce cur /\ ec_wrap_all L s1 last (m :: args) = cont out (ec_wrap_all L (ec_advance_write cur) last ms)
    end.

  Notation ncall := (bytes * list bytes * bool)%type.
  Definition nobody (j : nat) : list ncall := [].
  Definition only (i : nat) (c : ncall) (j : nat) : list ncall := if Nat.eqb j i then [c] else [].

  (** Thread by thread: the calls that are over, the one in progress, those to come. *)
  Definition nthreads (css : list (list ncall)) (log : list (nat * ecall)) (cur : nat -> list ncall) (ts : list (nphase * list ncall)) : Prop :=
    forall j cs0, nth_error css j = Some cs0 -> exists ph cs', nth_error ts j = Some (ph, cs') /\ cs0 = flat_map written (of_thread j log) ++ cur j ++ cs'.

  Lemma nthreads_phase : forall css log cur ts i ph ph' cs, nth_error ts i = Some (ph, cs) -> nthreads css log cur ts -> nthreads css log cur (set_at i (ph', cs) ts).
  Proof.
    intros css log cur ts i ph ph' cs E H j cs0 Ej. destruct (H j cs0 Ej) as (p & cs' & Ep & Ec). pose proof (nth_lt _ _ _ _ E) as Hi. destruct (Nat.eq_dec i j) as [<-|N].
    - pose proof (eq_trans (eq_sym Ep) E) as Q. injection Q as -> ->. exists ph', cs. split; [apply set_at_same; exact Hi|exact Ec].
    - exists p, cs'. split; [rewrite set_at_other by assumption; exact Ep|exact Ec].
  Qed.

  Lemma nthreads_begin : forall css log ts i ph ph' c cs, nth_error ts i = Some (ph, c :: cs) -> nthreads css log nobody ts -> nthreads css log (only i c) (set_at i (ph', cs) ts).
  Proof.
    intros css log ts i ph ph' c cs E H j cs0 Ej. destruct (H j cs0 Ej) as (p & cs' & Ep & Ec). pose proof (nth_lt _ _ _ _ E) as Hi. unfold only. destruct (Nat.eqb_spec j i) as [->|N].
    - pose proof (eq_trans (eq_sym Ep) E) as Q. injection Q as -> ->. exists ph', cs. split; [apply set_at_same; exact Hi|exact Ec].
    - exists p, cs'. split; [rewrite set_at_other by congruence; exact Ep|exact Ec].
  Qed.

  Lemma nthreads_end : forall css log ts i ph ph' m args last t r cs, nth_error ts i = Some (ph, cs) -> nthreads css log (only i (m, args, last)) ts ->
    nthreads css (log ++ [(i, EcWrite m args last t r)]) nobody (set_at i (ph', cs) ts).
  Proof.
    intros css log ts i ph ph' m args last t r cs E H j cs0 Ej. destruct (H j cs0 Ej) as (p & cs' & Ep & Ec). pose proof (nth_lt _ _ _ _ E) as Hi. unfold only in Ec.
    rewrite of_thread_snoc, flat_map_app. rewrite (Nat.eqb_sym i j). destruct (Nat.eqb_spec j i) as [->|N].
    - pose proof (eq_trans (eq_sym Ep) E) as Q. injection Q as -> ->. exists ph', cs. split; [apply set_at_same; exact Hi|]. rewrite Ec, <- app_assoc. reflexivity.
    - exists p, cs'. split; [rewrite set_at_other by congruence; exact Ep|]. rewrite Ec, <- app_assoc. reflexivity.
  Qed.

  Definition ninv (s0 : ec) (css : list (list ncall)) (x : nonces) : Prop :=
    exists log s1, ec_hist L s0 (map snd log) s1 /\ frames_out (map snd log) = n_sent x /\
      (((forall i y, nth_error (n_threads x) i = Some y -> writing y = false) /\ n_ec x = s1 /\ nthreads css log nobody (n_threads x)) \/
       exists i ph cs m args last, nth_error (n_threads x) i = Some (ph, cs) /\ phase_ok s1 (n_ec x) ph m args last /\
         nthreads css log (only i (m, args, last)) (n_threads x)).

  Lemma ninv_init : forall s css, ninv s css (ninit s css).
  Proof.
    intros s css. exists [], s. split; [constructor|]. split; [reflexivity|]. left. split; [|split; [reflexivity|]].
    - intros i y E. unfold ninit in E. cbn [n_threads] in E. apply nth_error_In, in_map_iff in E. destruct E as (cs & <- & _). reflexivity.
    - intros j cs Ej. exists NOut, cs. split; [|reflexivity]. unfold ninit. cbn [n_threads]. apply (map_nth_error (fun cs => (NOut, cs)) j css Ej).
  Qed.

  Lemma phase_busy : forall Y s1 cur ph m args last (cs : Y), phase_ok s1 cur ph m args last -> writing (ph, cs) = true.
  Proof. intros Y s1 cur ph m args last cs H. destruct ph; [destruct H|reflexivity..]. Qed.

  Lemma ninv_step : forall s0 css x y, ninv s0 css x -> alone writing (n_threads x) -> alone writing (n_threads y) -> nstep L x y -> ninv s0 css y.
  Proof.
    intros s0 css x y (log & s1 & HH & HF & HC) PX PY HS.
    assert (HB : forall i ph cs, nth_error (n_threads x) i = Some (ph, cs) -> writing (ph, cs) = true ->
              exists m args last, phase_ok s1 (n_ec x) ph m args last /\ nthreads css log (only i (m, args, last)) (n_threads x)).
    { intros i ph cs E EB. destruct HC as [(HN & _)|(j & ph' & cs' & m & args & last & E' & HP & HT)].
      - rewrite (HN _ _ E) in EB. discriminate.
      - assert (i = j) by (eapply PX; [exact E|exact E'|exact EB|eapply phase_busy; exact HP]). subst j. rewrite E in E'. injection E' as <- <-. eauto. }
    destruct HS as [s b ts i m args last cs E|s b ts i m ms out last cs c E EC|s b ts i m ms out last cs e E EC|s b ts i ms out last cs E|s b ts i ms out last v cs E|s b ts i out last cs E];
      cbn [n_ec n_sent n_threads] in *; pose proof (nth_lt _ _ _ _ E) as Hi.
    - destruct HC as [(HN & ES & HT)|(j & ph & cs' & m' & args' & last' & E' & HP & _)].
      + exists log, s1. split; [exact HH|]. split; [exact HF|]. right. exists i, (NLoop (m :: args) [] last), cs, m, args, last. cbn [n_threads n_ec].
        split; [apply set_at_same; exact Hi|]. split; [|eapply nthreads_begin; eassumption]. split; [reflexivity|]. rewrite cont_nil, ES. reflexivity.
      + exfalso. pose proof (alone_others writing i _ ts Hi PY eq_refl j (ph, cs')) as Q. destruct (Nat.eq_dec j i) as [->|N].
        * rewrite E in E'. injection E' as <- <-. destruct HP.
        * specialize (Q N E'). rewrite (phase_busy _ _ _ _ _ _ _ cs' HP) in Q. discriminate.
    - destruct (HB i _ _ E eq_refl) as (m0 & args & last0 & (HP & HW) & HT). subst last0. exists log, s1. split; [exact HH|]. split; [exact HF|]. right.
      exists i. eexists. exists cs, m0, args, last. cbn [n_threads n_ec]. split; [apply set_at_same; exact Hi|]. split; [|eapply nthreads_phase; eassumption]. split; [reflexivity|].
      rewrite HW. apply wrap_step. exact EC.
    - destruct (HB i _ _ E eq_refl) as (m0 & args & last0 & (HP & HW) & HT). subst last0.
      assert (EW : ec_wrap_all L s1 last (m0 :: args) = (s, Err e)) by (rewrite HW; cbn [ec_wrap_all]; rewrite EC; reflexivity).
      exists (log ++ [(i, EcWrite m0 args last [] (Err e))]), s. rewrite map_app. cbn [map snd]. split.
      { eapply ec_hist_app; [exact HH|]. econstructor; [|constructor]. unfold ec_write. rewrite EW. constructor. }
      split; [rewrite frames_out_app', HF; cbn; apply app_nil_r|]. left. cbn [n_threads n_ec]. split; [|split; [reflexivity|eapply nthreads_end; eassumption]].
      intros j z Ez. apply set_at_cases in Ez; [|exact Hi]. destruct Ez as [[-> ->]|[N Ez]]; [reflexivity|]. eapply (alone_same writing i _ ts PX E eq_refl); eassumption.
    - destruct (HB i _ _ E eq_refl) as (m0 & args & last0 & (HP & HW) & HT). subst last0. exists log, s1. split; [exact HH|]. split; [exact HF|]. right.
      exists i. eexists. exists cs, m0, args, last. cbn [n_threads n_ec]. split; [apply set_at_same; exact Hi|]. split; [|eapply nthreads_phase; eassumption]. split; [reflexivity|]. split; [reflexivity|exact HW].
    - destruct (HB i _ _ E eq_refl) as (m0 & args & last0 & (HP & HV & HW) & HT). subst last0 v. exists log, s1. split; [exact HH|]. split; [exact HF|]. right.
      exists i. eexists. exists cs, m0, args, last. cbn [n_threads n_ec]. split; [apply set_at_same; exact Hi|]. split; [|eapply nthreads_phase; eassumption]. split; [reflexivity|]. exact HW.
    - destruct (HB i _ _ E eq_refl) as (m0 & args & last0 & (HP & HW) & HT). subst last0.
      assert (EW : ec_wrap_all L s1 last (m0 :: args) = (s, Ok out)) by (rewrite HW; change (cont out (ec_wrap_all L s last [])) with (s, Ok (out ++ [])); f_equal; f_equal; apply app_nil_r).
      exists (log ++ [(i, EcWrite m0 args last [EWrite out last (Ok tt)] (Ok tt))]), s. rewrite map_app. cbn [map snd]. split.
      { eapply ec_hist_app; [exact HH|]. econstructor; [|constructor]. unfold ec_write. rewrite EW. constructor. constructor. }
      split; [rewrite frames_out_app', HF; cbn [n_sent]; f_equal; cbn; rewrite ?app_nil_r; reflexivity|]. left. cbn [n_threads n_ec]. split; [|split; [reflexivity|eapply nthreads_end; eassumption]].
      intros j z Ez. apply set_at_cases in Ez; [|exact Hi]. destruct Ez as [[-> ->]|[N Ez]]; [reflexivity|]. eapply (alone_same writing i _ ts PX E eq_refl); eassumption.
  Qed.

  Lemma set_at_twice : forall X i (x y : X) l, (i < length l)%nat -> set_at i x (set_at i y l) = set_at i x l.
  Proof.
    intros X i x y l. revert i. induction l as [|a l IH]; intros i H; [cbn in H; lia|]. destruct i as [|i]; [reflexivity|].
    rewrite !set_at_cons. f_equal. apply IH. cbn in H. lia.
  Qed.

  Lemma keeping_trans : forall X (R : X -> X -> Prop) P x y z, keeping R P x y -> keeping R P y z -> keeping R P x z.
  Proof. intros X R P x y z H. induction H; intro H2; [exact H2|econstructor; eauto]. Qed.

  Lemma set_advance : forall s, ec_set_write (ec_write_nonce s + 2) s = ec_advance_write s.
  Proof. reflexivity. Qed.

  (** A thread that is left alone finishes its call. *)
  Lemma runs_alone : forall last cs i ms s out b ts s' fs, nth_error ts i = Some (NLoop ms out last, cs) -> ec_wrap_all L s last ms = (s', Ok fs) ->
    keeping (nstep L) (fun _ => True) (Nonces s b ts) (Nonces s' (b ++ out ++ fs) (set_at i (NOut, cs) ts)).
  Proof.
    intros last cs i. induction ms as [|m ms IH]; intros s out b ts s' fs E H; pose proof (nth_lt _ _ _ _ E) as Hi.
    - cbn in H. injection H as <- <-. rewrite app_nil_r. eapply kp_step; [exact I|eapply ns_send; exact E|constructor; exact I].
    - cbn [ec_wrap_all] in H. destruct (ec_encrypt L s m) as [c|e] eqn:EC; [|discriminate].
      destruct (ec_wrap_all L (ec_advance_write s) last ms) as [s1 [fs1|e]] eqn:EW; [|discriminate]. injection H as <- <-.
      eapply kp_step; [exact I|eapply ns_encrypt; [exact E|exact EC]|].
      eapply kp_step; [exact I|eapply ns_load; apply set_at_same; exact Hi|]. rewrite set_at_twice by exact Hi.
      eapply kp_step; [exact I|eapply ns_store; apply set_at_same; exact Hi|]. rewrite set_at_twice by exact Hi. rewrite set_advance.
      specialize (IH (ec_advance_write s) (out ++ [ec_wrap c (last && is_empty ms)]) b (set_at i (NLoop ms (out ++ [ec_wrap c (last && is_empty ms)]) last, cs) ts) s1 fs1 (set_at_same _ _ _ _ Hi) EW).
      rewrite set_at_twice in IH by exact Hi. rewrite <- app_assoc in IH. exact IH.
  Qed.

  Lemma wrap_all_total : forall last ms s, (forall x n, exists c, l_afternm L x n (ec_key s) = Ok c) -> 0 <= ec_write_nonce s ->
    ec_write_nonce s + 2 * Z.of_nat (length ms) <= 2 ^ 64 -> exists s' fs, ec_wrap_all L s last ms = (s', Ok fs).
  Proof.
    intro last. induction ms as [|m ms IH]; intros s HL H0 H1; [eexists; eexists; reflexivity|]. cbn [ec_wrap_all length] in *.
    unfold ec_encrypt. rewrite nonce_bytes_ok by lia. destruct (HL m (nonce24 (ec_write_nonce s) (ec_session_nonce s))) as (c & ->).
    destruct (IH (ec_advance_write s)) as (s' & fs & ->); [exact HL|cbn; lia|change (ec_write_nonce (ec_advance_write s)) with (ec_write_nonce s + 2); lia|]. eauto.
  Qed.
End Nonces.
