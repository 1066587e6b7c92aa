(** Schedules of two peers joined by FIFO queues: the steps of different peers
    commute, so that one run to the end determines them all. *)
From Coq Require Import List ZArith Bool Lia.
From Verif Require Import PyBase IO IO_proofs.
Import ListNotations.

Lemma step_diamond : forall A B (s a b : sys A B), step s a -> step s b -> a = b \/ exists c, step a c /\ step b c.
Proof.
  intros A B s a b H1 H2. inversion H1; subst; inversion H2; subst; try (left; reflexivity); right.
  - eexists. split; constructor.
  - eexists. split; [apply st_rr|]. cbn [app]. constructor.
  - eexists. split; [apply st_rw|]. cbn [app]. constructor.
  - eexists. split; constructor.
  - eexists. split; constructor.
  - eexists. split; [|apply st_rw]. cbn [app]. constructor.
  - eexists. split; [|apply st_rr]. cbn [app]. constructor.
  - eexists. split; constructor.
Qed.

Lemma steps_one : forall A B n (s a F : sys A B), steps n s F -> stuck F -> step s a ->
  exists m, n = S m /\ steps m a F.
Proof.
  intros A B n s a F H. revert a. induction H as [s|n s t u H1 H2 IH]; intros a HF Ha.
  - exfalso. exact (HF _ Ha).
  - exists n. split; [reflexivity|]. destruct (step_diamond _ _ _ _ _ H1 Ha) as [<-|(c & Hc1 & Hc2)]; [exact H2|].
    destruct (IH _ HF Hc1) as (m & -> & Hm). econstructor; eauto.
Qed.

(** Every schedule is a beginning of a schedule of the same length to the same end. *)
Lemma steps_confluent : forall A B k (s b : sys A B), steps k s b -> forall n F, steps n s F -> stuck F ->
  (k <= n)%nat /\ steps (n - k) b F.
Proof.
  intros A B k s b H. induction H as [s|k s t u H1 H2 IH]; intros n F Hn HF.
  - split; [lia|]. rewrite Nat.sub_0_r. exact Hn.
  - destruct (steps_one _ _ _ _ _ _ Hn HF H1) as (m & -> & Hm). destruct (IH _ _ Hm HF) as [H3 H4].
    split; [lia|]. exact H4.
Qed.

Lemma steps_app : forall A B n (s t : sys A B), steps n s t -> forall m u, steps m t u -> steps (n + m) s u.
Proof. intros A B n s t H. induction H; intros m v Hv; cbn [Nat.add]; [exact Hv|]. econstructor; eauto. Qed.

(** Steps respect [io_eq]. *)
Definition sys_eq {A B} (s t : sys A B) : Prop :=
  io_eq (s_left s) (s_left t) /\ io_eq (s_right s) (s_right t) /\ s_lr s = s_lr t /\ s_rl s = s_rl t.

Lemma step_eq : forall A B (s t s' : sys A B), step s t -> sys_eq s s' -> exists t', step s' t' /\ sys_eq t t'.
Proof.
  intros A B s t [l r a b] H (E1 & E2 & E3 & E4). cbn [s_left s_right s_lr s_rl] in *.
  inversion H; subst; cbn [s_left s_right s_lr s_rl] in *.
  - inversion E1; subst. eexists. split; [constructor|]. repeat split; cbn; auto.
  - inversion E1; subst. eexists. split; [constructor|]. repeat split; cbn; auto.
  - inversion E2; subst. eexists. split; [constructor|]. repeat split; cbn; auto.
  - inversion E2; subst. eexists. split; [constructor|]. repeat split; cbn; auto.
Qed.

Lemma steps_eq : forall A B n (s t : sys A B), steps n s t -> forall s', sys_eq s s' -> exists t', steps n s' t' /\ sys_eq t t'.
Proof.
  intros A B n s t H. induction H as [s|n s t u H1 H2 IH]; intros s' E.
  - exists s'. split; [constructor|exact E].
  - destruct (step_eq _ _ _ _ _ H1 E) as (t' & H3 & H4). destruct (IH _ H4) as (u' & H5 & H6).
    exists u'. split; [econstructor; eauto|exact H6].
Qed.

Lemma steps_eq_ret : forall A B n (s s' : sys A B) x y a b, steps n s (Sys (Ret x) (Ret y) a b) -> sys_eq s s' ->
  steps n s' (Sys (Ret x) (Ret y) a b).
Proof.
  intros A B n s s' x y a b H E. destruct (steps_eq _ _ _ _ _ H _ E) as ([l r a' b'] & H1 & E1 & E2 & E3 & E4).
  cbn in E1, E2, E3, E4. inversion E1; inversion E2; subst. exact H1.
Qed.

Lemma io_eq_bind : forall A B (p q : io A) (f : A -> io B), io_eq p q -> io_eq (iobind p f) (iobind q f).
Proof. intros A B p q f H. induction H; cbn [iobind]; [apply io_eq_refl|constructor; auto|constructor; auto]. Qed.

Lemma io_eq_trans : forall A (p q r : io A), io_eq p q -> io_eq q r -> io_eq p r.
Proof.
  intros A p q r H. revert r. induction H; intros s Hs; inversion Hs; subst; constructor; auto.
Qed.

Lemma iobind_assoc : forall A B C (p : io A) (f : A -> io B) (g : B -> io C),
  io_eq (iobind (iobind p f) g) (iobind p (fun a => iobind (f a) g)).
Proof. induction p; intros; cbn [iobind]; [apply io_eq_refl|constructor; auto|constructor; auto]. Qed.

Lemma stuck_ret : forall A B (x : A) (y : B) a b, stuck (Sys (Ret x) (Ret y) a b).
Proof. intros A B x y a b t H. inversion H. Qed.

(** A right peer that only reads: an execution is a schedule. *)
Lemma feed_right : forall A B (q : io B) t b, exec q t (Some b) ->
  forall (p : io A) fs rest rl, t = map (fun f => ERead (Ok f)) fs ->
  steps (length fs) (Sys p q (fs ++ rest) rl) (Sys p (Ret b) rest rl).
Proof.
  intros A B q t b H. remember (Some b) as o eqn:Eo. revert b Eo.
  induction H as [| |k r t o H IH|ms l k r t o H IH]; intros b Eo pr fs rest rl Ht; try discriminate.
  - injection Eo as ->. destruct fs; [|discriminate]. constructor.
  - destruct fs as [|f fs]; [discriminate|]. cbn [map] in Ht. injection Ht as -> Ht. cbn [length app].
    econstructor; [constructor|]. apply IH; auto.
  - destruct fs; discriminate.
Qed.
Lemma feed_left : forall A B (q : io A) t b, exec q t (Some b) ->
  forall (p : io B) fs rest lr, t = map (fun f => ERead (Ok f)) fs ->
  steps (length fs) (Sys q p lr (fs ++ rest)) (Sys (Ret b) p lr rest).
Proof.
  intros A B q t b H. remember (Some b) as o eqn:Eo. revert b Eo.
  induction H as [| |k r t o H IH|ms l k r t o H IH]; intros b Eo pr fs rest rl Ht; try discriminate.
  - injection Eo as ->. destruct fs; [|discriminate]. constructor.
  - destruct fs as [|f fs]; [discriminate|]. cbn [map] in Ht. injection Ht as -> Ht. cbn [length app].
    econstructor; [constructor|]. apply IH; auto.
  - destruct fs; discriminate.
Qed.
