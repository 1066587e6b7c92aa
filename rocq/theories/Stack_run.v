(** Runs over byte streams of two programs whose writes fit the length prefix in one run,
    though perhaps not whatever they are sent. *)
From Coq Require Import List ZArith Bool Strings.Byte Lia ZifyBool ZifyNat ZifyN Arith.Wf_nat.
From Verif Require Import PyBase PyBase_proofs IO IO_proofs Packets EncUse Channel Channel_proofs Stack Spec StackUse Session_fwd Stack_proofs Sched_proofs
  Props_Session2 Props_Session4 Props_Stack.
Import ListNotations.
Open Scope Z_scope.
Ltac Zify.zify_post_hook ::= Z.div_mod_to_equations.

(** *** Programs of the same shape *)
Inductive io_rel {A B} (R : A -> B -> Prop) : io A -> io B -> Prop :=
| ir_ret : forall a b, R a b -> io_rel R (Ret a) (Ret b)
| ir_read : forall k k', (forall r, io_rel R (k r) (k' r)) -> io_rel R (Read k) (Read k')
| ir_write : forall ms l k k', (forall r, io_rel R (k r) (k' r)) -> io_rel R (Write ms l k) (Write ms l k').

Lemma io_rel_refl : forall A (R : A -> A -> Prop) p, (forall a, R a a) -> io_rel R p p.
Proof. intros A R p H. induction p; constructor; auto. Qed.
Lemma io_rel_bind : forall A B C D (R : A -> B -> Prop) (S : C -> D -> Prop) p q f g, io_rel R p q ->
  (forall a b, R a b -> io_rel S (f a) (g b)) -> io_rel S (iobind p f) (iobind q g).
Proof. intros A B C D R S p q f g H HF. induction H; cbn [iobind]; [apply HF; assumption|constructor; auto|constructor; auto]. Qed.

(** *** Runs in which all writes fit *)
Inductive fsteps {A B} : nat -> sys A B -> sys A B -> Prop :=
| fs_O : forall s, fsteps 0 s s
| fs_lw : forall n ms l k q a b u, Forall small ms -> fsteps n (Sys (k (Ok tt)) q (a ++ ms) b) u -> fsteps (S n) (Sys (Write ms l k) q a b) u
| fs_lr : forall n k q a m b u, fsteps n (Sys (k (Ok m)) q a b) u -> fsteps (S n) (Sys (Read k) q a (m :: b)) u
| fs_rw : forall n p ms l k a b u, Forall small ms -> fsteps n (Sys p (k (Ok tt)) a (b ++ ms)) u -> fsteps (S n) (Sys p (Write ms l k) a b) u
| fs_rr : forall n p k m a b u, fsteps n (Sys p (k (Ok m)) a b) u -> fsteps (S n) (Sys p (Read k) (m :: a) b) u.

Lemma fsteps_steps : forall A B n (s t : sys A B), fsteps n s t -> steps n s t.
Proof. intros A B n s t H. induction H; [constructor|..]; (econstructor; [constructor|assumption]). Qed.

Lemma fsteps_bind_right : forall A B C (f : B -> io C) n (s t : sys A B), fsteps n s t ->
  fsteps n (Sys (s_left s) (iobind (s_right s) f) (s_lr s) (s_rl s)) (Sys (s_left t) (iobind (s_right t) f) (s_lr t) (s_rl t)).
Proof. intros A B C f n s t H. induction H; cbn [s_left s_right s_lr s_rl iobind] in *; constructor; auto. Qed.

Definition fits_now {A} (p : io A) : Prop := match p with Write ms _ _ => Forall small ms | _ => True end.

(** If a peer is about to write, what it writes fits. *)
Lemma fsteps_left : forall A B n (p : io A) (q : io B) a b F, fsteps n (Sys p q a b) F -> stuck F -> fits_now p.
Proof.
  intros A B n p q a b F H. remember (Sys p q a b) as s eqn:E. revert p q a b E. induction H; intros p0 q0 a0 b0 E HF; subst.
  - destruct p0 as [x|k|ms l k]; cbn; try exact I. exfalso. eapply HF. apply st_lw.
  - injection E as <- <- <- <-. assumption.
  - injection E as <- <- <- <-. exact I.
  - injection E as <- <- <- <-. eapply IHfsteps; eauto.
  - injection E as <- <- <- <-. eapply IHfsteps; eauto.
Qed.
Lemma fsteps_right : forall A B n (p : io A) (q : io B) a b F, fsteps n (Sys p q a b) F -> stuck F -> fits_now q.
Proof.
  intros A B n p q a b F H. remember (Sys p q a b) as s eqn:E. revert p q a b E. induction H; intros p0 q0 a0 b0 E HF; subst.
  - destruct q0 as [x|k|ms l k]; cbn; try exact I. exfalso. eapply HF. apply st_rw.
  - injection E as <- <- <- <-. eapply IHfsteps; eauto.
  - injection E as <- <- <- <-. eapply IHfsteps; eauto.
  - injection E as <- <- <- <-. assumption.
  - injection E as <- <- <- <-. exact I.
Qed.

Lemma fsteps_next : forall A B n (s F : sys A B), fsteps n s F -> stuck F -> forall t, step s t -> exists m, n = S m /\ fsteps m t F.
Proof.
  intros A B n s F H. induction H; intros HF t Ht.
  - exfalso. exact (HF _ Ht).
  - exists n. split; [reflexivity|]. inversion Ht; subst; try assumption;
    (destruct (IHfsteps HF _ ltac:(constructor)) as (mm & -> & Hm)); constructor; assumption.
  - exists n. split; [reflexivity|]. inversion Ht; subst; try assumption;
    (destruct (IHfsteps HF _ ltac:(constructor)) as (mm & -> & Hm)); constructor; assumption.
  - exists n. split; [reflexivity|]. inversion Ht; subst; try assumption;
    (destruct (IHfsteps HF _ ltac:(constructor)) as (mm & -> & Hm)); constructor; assumption.
  - exists n. split; [reflexivity|]. inversion Ht; subst; try assumption;
    (destruct (IHfsteps HF _ ltac:(constructor)) as (mm & -> & Hm)); constructor; assumption.
Qed.

(** *** The same over byte streams *)
Record holds_frames {A B} (c : conn A B) (f : sys A B) : Prop := HoldsFrames {
  hf_left : c_left c = s_left f;
  hf_right : c_right c = s_right f;
  hf_lr : c_rbuf c ++ c_lr c = frames (s_lr f);
  hf_rl : c_lbuf c ++ c_rl c = frames (s_rl f);
  hf_slr : Forall small (s_lr f);
  hf_srl : Forall small (s_rl f)
}.

Lemma run_sim : forall A B TL TR (c c' : conn A B) f, transport_ok TL -> transport_ok TR ->
  cstep TL TR c c' -> holds_frames c f -> fits_now (s_left f) -> fits_now (s_right f) ->
  (exists f', step f f' /\ holds_frames c' f') \/
  (holds_frames c' f /\ (length (c_lr c') + length (c_rl c') < length (c_lr c) + length (c_rl c))%nat).
Proof.
  intros A B TL TR c c' [p q fl fr] HL HR H [E1 E2 E3 E4 E5 E6] E7 E8. cbn [s_left s_right s_lr s_rl] in *.
  inversion H; subst; cbn [c_left c_right c_lbuf c_rbuf c_lr c_rl fits_now] in *; subst; cbn [fits_now] in *.
  - left. rewrite (to_write TL HL) in H0 by assumption. injection H0 as <- <-.
    eexists. split; [constructor|]. constructor; cbn [s_left s_right s_lr s_rl c_left c_right c_lbuf c_rbuf c_lr c_rl]; auto.
    + rewrite frames_app, <- E3, app_assoc. reflexivity.
    + apply Forall_app. auto.
  - right. split.
    + constructor; cbn [s_left s_right s_lr s_rl c_left c_right c_lbuf c_rbuf c_lr c_rl]; auto. rewrite <- app_assoc. exact E4.
    + destruct c0; [contradiction|]. rewrite app_length. cbn [length]. lia.
  - left. destruct (ready_frames _ _ _ H0 E4 E6) as (m & r' & buf' & -> & -> & E). inversion E6; subst.
    rewrite (to_read TL HL) in H1 by assumption. injection H1 as <- <-.
    eexists. split; [constructor|].
    constructor; cbn [s_left s_right s_lr s_rl c_left c_right c_lbuf c_rbuf c_lr c_rl]; auto.
  - left. rewrite (to_write TR HR) in H0 by assumption. injection H0 as <- <-.
    eexists. split; [constructor|]. constructor; cbn [s_left s_right s_lr s_rl c_left c_right c_lbuf c_rbuf c_lr c_rl]; auto.
    + rewrite frames_app, <- E4, app_assoc. reflexivity.
    + apply Forall_app. auto.
  - right. split.
    + constructor; cbn [s_left s_right s_lr s_rl c_left c_right c_lbuf c_rbuf c_lr c_rl]; auto. rewrite <- app_assoc. exact E3.
    + destruct c0; [contradiction|]. rewrite app_length. cbn [length]. lia.
  - left. destruct (ready_frames _ _ _ H0 E3 E5) as (m & r' & buf' & -> & -> & E). inversion E5; subst.
    rewrite (to_read TR HR) in H1 by assumption. injection H1 as <- <-.
    eexists. split; [constructor|].
    constructor; cbn [s_left s_right s_lr s_rl c_left c_right c_lbuf c_rbuf c_lr c_rl]; auto.
Qed.

Lemma run_progress : forall A B TL TR (c : conn A B) f f', transport_ok TL -> transport_ok TR ->
  holds_frames c f -> step f f' -> exists c', cstep TL TR c c'.
Proof.
  intros A B TL TR [p lb q rb lr rl] f f' HL HR [E1 E2 E3 E4 E5 E6] H.
  inversion H; subst; cbn [s_left s_right s_lr s_rl c_left c_right c_lbuf c_rbuf c_lr c_rl] in *; subst.
  - destruct (t_write TL ms) as [bs r] eqn:E. eexists. apply cs_lw. exact E.
  - destruct (t_ready lb) eqn:ER.
    + destruct (t_read TL lb) as [lb' r] eqn:E. eexists. eapply cs_lr; eauto.
    + inversion E6; subst. pose proof (unready_frames _ _ _ _ ER E4 ltac:(assumption)) as HN.
      destruct rl as [|x rl]; [contradiction|]. eexists. apply (cs_lt TL TR _ lb _ _ _ [x] rl); [discriminate|].
      apply (to_take TL HL). exact ER.
  - destruct (t_write TR ms) as [bs r] eqn:E. eexists. apply cs_rw. exact E.
  - destruct (t_ready rb) eqn:ER.
    + destruct (t_read TR rb) as [rb' r] eqn:E. eexists. eapply cs_rr; eauto.
    + inversion E5; subst. pose proof (unready_frames _ _ _ _ ER E3 ltac:(assumption)) as HN.
      destruct lr as [|x lr]; [contradiction|]. eexists. apply (cs_rt TL TR _ _ _ rb [x] lr _); [discriminate|].
      apply (to_take TR HR). exact ER.
Qed.

Lemma run_inevitable : forall A B TL TR, transport_ok TL -> transport_ok TR ->
  forall n (f F : sys A B), fsteps n f F -> stuck F -> forall c, holds_frames c f ->
  inevitable (cstep TL TR) (fun c' => holds_frames c' F) c.
Proof.
  intros A B TL TR HL HR. induction n as [n IHn] using lt_wf_ind. intros f F HS HF c.
  remember (length (c_lr c) + length (c_rl c))%nat as k eqn:Ek. revert c Ek.
  induction k as [k IHk] using lt_wf_ind. intros c -> HC.
  assert (NEXT : forall c', cstep TL TR c c' -> inevitable (cstep TL TR) (fun c' => holds_frames c' F) c').
  { destruct f as [p q a b]. pose proof (fsteps_left _ _ _ _ _ _ _ _ HS HF) as W1. pose proof (fsteps_right _ _ _ _ _ _ _ _ HS HF) as W2.
    intros c' H. destruct (run_sim _ _ _ _ _ _ _ HL HR H HC W1 W2) as [(f' & H1 & H2)|[H1 H2]].
    - destruct (fsteps_next _ _ _ _ _ HS HF _ H1) as (m & -> & Hm). apply (IHn m ltac:(lia) f' F Hm HF c' H2).
    - apply (IHk _ H2 c' eq_refl H1). }
  pose proof (fsteps_steps _ _ _ _ _ HS) as HS'. inversion HS' as [s|m s t u H1 H2]; subst.
  - destruct (cstep_search _ _ TL TR c) as [H|H]; [apply inev_step; assumption|apply inev_done; assumption].
  - apply inev_step; [|exact NEXT]. eapply run_progress; eauto.
Qed.

(** As C63_streams_follow_frames, for programs whose writes fit in this run. *)
Lemma run_streams : forall A B TL TR n (p : io A) (q : io B) F, byte_channel TL -> byte_channel TR ->
  fsteps n (Sys p q [] []) F -> stuck F ->
  inevitable (cstep TL TR)
    (fun c => c_left c = s_left F /\ c_right c = s_right F /\
              c_rbuf c ++ c_lr c = frames (s_lr F) /\ c_lbuf c ++ c_rl c = frames (s_rl F))
    (Conn p [] q [] [] []).
Proof.
  intros A B TL TR n p q F HL HR HS HF.
  eapply inevitable_weaken; [|eapply run_inevitable; eauto using byte_channel_ok].
  - intros c [H1 H2 H3 H4 _ _]. auto.
  - constructor; cbn; auto.
Qed.

(** *** What each peer did in a run of the two to the end, and the run of two programs of the
    same shapes *)
Lemma steps_rel : forall A A' B B' (R : A -> A' -> Prop) (Q : B -> B' -> Prop) n p p' q q' a b x y a' b',
  io_rel R p p' -> io_rel Q q q' -> steps n (Sys p q a b) (Sys (Ret x) (Ret y) a' b') ->
  exists tl tr x' y', R x x' /\ Q y y' /\ exec p tl (Some x) /\ exec p' tl (Some x') /\ exec q tr (Some y) /\ exec q' tr (Some y') /\
    all_ok tl /\ all_ok tr /\ a ++ outs tl = ins tr ++ a' /\ b ++ outs tr = ins tl ++ b' /\
    steps n (Sys p' q' a b) (Sys (Ret x') (Ret y') a' b') /\
    (Forall small (outs tl) -> Forall small (outs tr) -> fsteps n (Sys p' q' a b) (Sys (Ret x') (Ret y') a' b')).
Proof.
  intros A A' B B' R Q. induction n as [|n IH]; intros p p' q q' a b x y a' b' HP HQ H.
  - inversion H; subst. inversion HP; subst. inversion HQ; subst. exists [], []. do 2 eexists. unfold all_ok, outs, ins. cbn. rewrite !app_nil_r.
    split; [eassumption|]. split; [eassumption|].
    repeat (split; [constructor|]). intros _ _. constructor.
  - inversion H as [|n0 s0 t u H1 H2]; subst. inversion H1; subst.
    + inversion HP as [| |ms0 l0 k0 k' HK]; subst.
      destruct (IH _ _ _ _ _ _ _ _ _ _ (HK (Ok tt)) HQ H2) as (tl & tr & x' & y' & R1 & R2 & X1 & X1' & X2 & X2' & X3 & X4 & X5 & X6 & X7 & X8).
      exists (EWrite ms l (Ok tt) :: tl), tr, x', y'. split; [exact R1|]. split; [exact R2|].
      split; [constructor; exact X1|]. split; [constructor; exact X1'|]. split; [exact X2|]. split; [exact X2'|].
      split; [constructor; auto|]. split; [exact X4|]. split; [unfold outs in *; cbn [map ev_out concat]; rewrite app_assoc; exact X5|].
      split; [exact X6|]. split; [econstructor; [constructor|exact X7]|].
      intros F1 F2. unfold outs in F1. cbn [map ev_out concat] in F1. apply Forall_app in F1. destruct F1. constructor; auto.
    + inversion HP as [|k0 k' HK|]; subst.
      destruct (IH _ _ _ _ _ _ _ _ _ _ (HK (Ok m)) HQ H2) as (tl & tr & x' & y' & R1 & R2 & X1 & X1' & X2 & X2' & X3 & X4 & X5 & X6 & X7 & X8).
      exists (ERead (Ok m) :: tl), tr, x', y'. split; [exact R1|]. split; [exact R2|].
      split; [constructor; exact X1|]. split; [constructor; exact X1'|]. split; [exact X2|]. split; [exact X2'|].
      split; [constructor; eauto|]. split; [exact X4|]. split; [exact X5|].
      split; [unfold ins in *; cbn; f_equal; exact X6|]. split; [econstructor; [constructor|exact X7]|].
      intros F1 F2. constructor; auto.
    + inversion HQ as [| |ms0 l0 k0 k' HK]; subst.
      destruct (IH _ _ _ _ _ _ _ _ _ _ HP (HK (Ok tt)) H2) as (tl & tr & x' & y' & R1 & R2 & X1 & X1' & X2 & X2' & X3 & X4 & X5 & X6 & X7 & X8).
      exists tl, (EWrite ms l (Ok tt) :: tr), x', y'. split; [exact R1|]. split; [exact R2|].
      split; [exact X1|]. split; [exact X1'|]. split; [constructor; exact X2|]. split; [constructor; exact X2'|].
      split; [exact X3|]. split; [constructor; auto|]. split; [exact X5|].
      split; [unfold outs in *; cbn [map ev_out concat]; rewrite app_assoc; exact X6|]. split; [econstructor; [constructor|exact X7]|].
      intros F1 F2. unfold outs in F2. cbn [map ev_out concat] in F2. apply Forall_app in F2. destruct F2. constructor; auto.
    + inversion HQ as [|k0 k' HK|]; subst.
      destruct (IH _ _ _ _ _ _ _ _ _ _ HP (HK (Ok m)) H2) as (tl & tr & x' & y' & R1 & R2 & X1 & X1' & X2 & X2' & X3 & X4 & X5 & X6 & X7 & X8).
      exists tl, (ERead (Ok m) :: tr), x', y'. split; [exact R1|]. split; [exact R2|].
      split; [exact X1|]. split; [exact X1'|]. split; [constructor; exact X2|]. split; [constructor; exact X2'|].
      split; [exact X3|]. split; [constructor; eauto|]. split; [unfold ins in *; cbn; f_equal; exact X5|].
      split; [exact X6|]. split; [econstructor; [constructor|exact X7]|].
      intros F1 F2. constructor; auto.
Qed.
