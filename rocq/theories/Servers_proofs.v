(** Lemmas about connections that are closed at their end, and about servers with several
    connections (Servers.v). *)
From Coq Require Import List ZArith Bool Strings.Byte Lia ZifyBool ZifyNat ZifyN.
From Verif Require Import PyBase PyBase_proofs IO IO_proofs Sched_proofs Servers.
Import ListNotations.

Lemma path_app : forall X (R : X -> X -> Prop) n s t, path R n s t -> forall m u, path R m t u -> path R (n + m) s u.
Proof. intros X R n s t H. induction H; intros m v Hv; cbn [Nat.add]; [exact Hv|]. econstructor; eauto. Qed.
Lemma path_snoc : forall X (R : X -> X -> Prop) n s t u, path R n s t -> R t u -> path R (S n) s u.
Proof. intros X R n s t u H1 H2. rewrite <- Nat.add_1_r. eapply path_app; [exact H1|]. econstructor; [exact H2|constructor]. Qed.

Lemma path_inv : forall X (R : X -> X -> Prop) (I : nat -> X -> Prop), (forall k c c', I k c -> R c c' -> I (S k) c') ->
  forall n s t, path R n s t -> forall k, I k s -> I (k + n)%nat t.
Proof.
  intros X R I HI n s t H. induction H as [s|n s t u H1 H2 IH]; intros k HK; [rewrite Nat.add_0_r; exact HK|].
  replace (k + S n)%nat with (S k + n)%nat by lia. eauto.
Qed.

(** An invariant that counts the steps, ends at [N] and cannot get stuck before *)
Lemma always_intro : forall X (R : X -> X -> Prop) (I : nat -> X -> Prop) N s F, I 0%nat s ->
  (forall k c c', I k c -> R c c' -> I (S k) c') -> (forall k c, I k c -> (k <= N)%nat) ->
  (forall c, I N c -> c = F) -> (forall k c, I k c -> (k < N)%nat -> exists c', R c c') -> always R s F.
Proof.
  intros X R I N s F H0 HS HB HF HP. exists N. intros k b Hk. pose proof (path_inv _ _ _ HS _ _ _ Hk _ H0) as HK. cbn [Nat.add] in HK.
  split; [eauto|]. clear Hk. remember (N - k)%nat as r eqn:Er. revert k b HK Er. induction r as [|r IH]; intros k b HK Er.
  - assert (k = N) by (pose proof (HB _ _ HK); lia). subst k. rewrite (HF _ HK). constructor.
  - destruct (HP _ _ HK ltac:(lia)) as (c' & Hc). econstructor; [exact Hc|]. apply (IH (S k)); [eauto|lia].
Qed.

(** Programs that have returned stay so, and what is sent to them stays. *)
Lemma left_done : forall A B n (b F : sys A B), steps n b F -> forall x, s_left b = Ret x -> s_left F = Ret x /\ exists w, s_rl F = s_rl b ++ w.
Proof.
  intros A B n b F H. induction H as [s|n s t u H1 H2 IH]; intros x Hx; [split; [exact Hx|]; exists []; rewrite app_nil_r; reflexivity|].
  inversion H1; subst; cbn [s_left s_right s_lr s_rl] in *; try discriminate.
  - destruct (IH x Hx) as (E1 & w & E2). split; [exact E1|]. exists (ms ++ w). rewrite E2, app_assoc. reflexivity.
  - exact (IH x Hx).
Qed.
Lemma right_done : forall A B n (b F : sys A B), steps n b F -> forall x, s_right b = Ret x -> s_right F = Ret x /\ exists w, s_lr F = s_lr b ++ w.
Proof.
  intros A B n b F H. induction H as [s|n s t u H1 H2 IH]; intros x Hx; [split; [exact Hx|]; exists []; rewrite app_nil_r; reflexivity|].
  inversion H1; subst; cbn [s_left s_right s_lr s_rl] in *; try discriminate.
  - destruct (IH x Hx) as (E1 & w & E2). split; [exact E1|]. exists (ms ++ w). rewrite E2, app_assoc. reflexivity.
  - exact (IH x Hx).
Qed.

Definition num (b : bool) : nat := if b then 1 else 0.
Definition waits {A} (p : io A) : nat := match p with Read _ => 1 | _ => 0 end.

(** How a program left at the end of all frames ends when the other end is closed *)
Definition ended {A} (broken : exn -> Prop) (p : io A) (x : A) : Prop :=
  p = Ret x \/ exists k, p = Read k /\ forall e, broken e -> k (Err e) = Ret x.

Section Link.
  Context {A B : Type}.
  Variables (ec : A -> bool) (es : B -> bool) (broken : exn -> Prop) (e0 : exn).
  Variables (s : sys A B) (n : nat) (pf : io A) (qf : io B) (x : A) (y : B).
  Hypothesis H0 : broken e0.
  Hypothesis HE : forall k b, steps k s b -> (k <= n)%nat /\ steps (n - k) b (Sys pf qf [] []).
  Hypothesis HX : ended broken pf x.
  Hypothesis HY : ended broken qf y.
  Hypothesis HD : (waits pf + waits qf <= 1)%nat.
  Hypothesis Hx : waits qf = 1%nat -> ec x = true.
  Hypothesis Hy : waits pf = 1%nat -> es y = true.

  Lemma at_left : forall j b z, steps j s b -> s_left b = Ret z -> pf = Ret z /\ z = x /\ s_rl b = [].
  Proof.
    intros j b z H E. destruct (HE _ _ H) as [_ H1]. destruct (left_done _ _ _ _ _ H1 _ E) as (E1 & w & E2). cbn [s_left s_rl] in *.
    symmetry in E2. apply app_eq_nil in E2. split; [exact E1|]. split; [|apply E2].
    destruct HX as [E3|(k & E3 & _)]; congruence.
  Qed.
  Lemma at_right : forall j b z, steps j s b -> s_right b = Ret z -> qf = Ret z /\ z = y /\ s_lr b = [].
  Proof.
    intros j b z H E. destruct (HE _ _ H) as [_ H1]. destruct (right_done _ _ _ _ _ H1 _ E) as (E1 & w & E2). cbn [s_right s_lr] in *.
    symmetry in E2. apply app_eq_nil in E2. split; [exact E1|]. split; [|apply E2].
    destruct HY as [E3|(k & E3 & _)]; congruence.
  Qed.
  Lemma more : forall j b b', steps j s b -> step b b' -> steps (S j) s b'.
  Proof. intros j b b' H1 H2. rewrite <- Nat.add_1_r. eapply steps_app; [exact H1|]. econstructor; [exact H2|constructor]. Qed.
  Lemma at_stuck : forall j b, steps j s b -> stuck b -> j = n /\ b = Sys pf qf [] [].
  Proof.
    intros j b H1 H2. destruct (HE _ _ H1) as [L H3]. inversion H3 as [u E1 E2|m u t w Ht Hm E1]; subst.
    - split; [lia|reflexivity].
    - exfalso. eapply H2. exact Ht.
  Qed.

  Inductive count : nat -> link A B -> Prop :=
  | co_run : forall j b cl sv, steps j s b -> (cl = true -> s_left b = Ret x) -> (sv = true -> s_right b = Ret y) ->
      (cl = true -> ec x = true) -> (sv = true -> es y = true) ->
      count (j + num cl + num sv) (Link b cl sv false)
  | co_right : forall sv, waits qf = 1%nat -> (sv = true -> es y = true) -> count (n + 2 + num sv) (Link (Sys (Ret x) (Ret y) [] []) true sv false)
  | co_left : forall cl, waits pf = 1%nat -> (cl = true -> ec x = true) -> count (n + 2 + num cl) (Link (Sys (Ret x) (Ret y) [] []) cl true false).

  Lemma count_step : forall k c c', count k c -> lk_step ec es broken c c' -> count (S k) c'.
  Proof.
    intros k c c' H [HS|HS]; inversion H as [j b cl sv H1 H2 H3 H4 H5|sv W W2|cl W W2]; subst; clear H.
    - destruct b as [p q a b]. cbn [s_left s_right s_lr s_rl] in *. inversion HS; subst; clear HS.
      + (* write *)
        assert (V : sv && nonempty ms = false).
        { destruct sv; [|reflexivity]. destruct ms as [|m ms]; [reflexivity|exfalso].
          destruct (at_right _ _ _ (more _ _ _ H1 (st_lw _ _ _ _ _ _)) (H3 eq_refl)) as (_ & _ & E). cbn [s_lr] in E. destruct a; discriminate. }
        rewrite V. cbn [orb].
        assert (V2 : (if sv then a else a ++ ms) = a ++ ms) by (destruct sv; [destruct ms; [rewrite app_nil_r; reflexivity|discriminate]|reflexivity]).
        rewrite V2. change (S (j + num cl + num sv)) with (S j + num cl + num sv)%nat. constructor; [eapply more; [exact H1|constructor]| |exact H3|exact H4|exact H5].
        intros ->. specialize (H2 eq_refl). discriminate.
      + exfalso. destruct (at_right _ _ _ (more _ _ _ H1 (st_lw _ _ _ _ _ _)) (H3 eq_refl)) as (_ & _ & E). cbn [s_lr] in E.
        apply app_eq_nil in E. destruct E as [_ E]. contradiction.
      + change (S (j + num cl + num sv)) with (S j + num cl + num sv)%nat. constructor; [eapply more; [exact H1|constructor]| |exact H3|exact H4|exact H5].
        intros ->. specialize (H2 eq_refl). discriminate.
      + match goal with HB : b = [] \/ false = true |- _ => destruct HB as [->|HB]; [|discriminate] end.
        specialize (H3 eq_refl). subst q.
        destruct (at_stuck _ _ H1) as [-> E]; [intros t Ht; inversion Ht|]. injection E as Ep Eq Ea.
        assert (cl = false) by (destruct cl; [specialize (H2 eq_refl); discriminate|reflexivity]). subst cl.
        destruct HX as [EX|(k1 & EX & HK)]; [congruence|]. rewrite EX in Ep. injection Ep as ->. rewrite HK by assumption. subst a.
        replace (S (n + num false + num true)) with (n + 2 + num false)%nat by (cbn [num]; lia). apply co_left; [rewrite EX; reflexivity|discriminate].
      + destruct (at_left _ _ _ H1 eq_refl) as (E1 & -> & E2). cbn [s_rl] in E2. subst b. cbn [nonempty orb].
        replace (S (j + num false + num sv)) with (j + num true + num sv)%nat by (cbn [num]; lia). constructor; auto.
    - inversion HS; subst.
    - inversion HS; subst; cbn [nonempty orb]. replace (S (n + 2 + num false)) with (n + 2 + num true)%nat by (cbn [num]; lia). apply co_left; auto.
    - destruct b as [p q a b]. cbn [s_left s_right s_lr s_rl] in *. inversion HS; subst; clear HS.
      + assert (V : cl && nonempty ms = false).
        { destruct cl; [|reflexivity]. destruct ms as [|m ms]; [reflexivity|exfalso].
          destruct (at_left _ _ _ (more _ _ _ H1 (st_rw _ _ _ _ _ _)) (H2 eq_refl)) as (_ & _ & E). cbn [s_rl] in E. destruct b; discriminate. }
        rewrite V. cbn [orb].
        assert (V2 : (if cl then b else b ++ ms) = b ++ ms) by (destruct cl; [destruct ms; [rewrite app_nil_r; reflexivity|discriminate]|reflexivity]).
        rewrite V2. change (S (j + num cl + num sv)) with (S j + num cl + num sv)%nat. constructor; [eapply more; [exact H1|constructor]|exact H2| |exact H4|exact H5].
        intros ->. specialize (H3 eq_refl). discriminate.
      + exfalso. destruct (at_left _ _ _ (more _ _ _ H1 (st_rw _ _ _ _ _ _)) (H2 eq_refl)) as (_ & _ & E). cbn [s_rl] in E.
        apply app_eq_nil in E. destruct E as [_ E]. contradiction.
      + change (S (j + num cl + num sv)) with (S j + num cl + num sv)%nat. constructor; [eapply more; [exact H1|constructor]|exact H2| |exact H4|exact H5].
        intros ->. specialize (H3 eq_refl). discriminate.
      + match goal with HB : a = [] \/ false = true |- _ => destruct HB as [->|HB]; [|discriminate] end.
        specialize (H2 eq_refl). subst p.
        destruct (at_stuck _ _ H1) as [-> E]; [intros t Ht; inversion Ht|]. injection E as Ep Eq Ea.
        assert (sv = false) by (destruct sv; [specialize (H3 eq_refl); discriminate|reflexivity]). subst sv.
        destruct HY as [EX|(k1 & EX & HK)]; [congruence|]. rewrite EX in Eq. injection Eq as ->. rewrite HK by assumption. subst b.
        replace (S (n + num true + num false)) with (n + 2 + num false)%nat by (cbn [num]; lia). apply co_right; [rewrite EX; reflexivity|discriminate].
      + destruct (at_right _ _ _ H1 eq_refl) as (E1 & -> & E2). cbn [s_lr] in E2. subst a. cbn [nonempty orb].
        replace (S (j + num cl + num false)) with (j + num cl + num true)%nat by (cbn [num]; lia). constructor; auto.
    - inversion HS; subst; cbn [nonempty orb]. replace (S (n + 2 + num false)) with (n + 2 + num true)%nat by (cbn [num]; lia). apply co_right; auto.
    - inversion HS; subst.
  Qed.

  Lemma waits_0 : forall X (p : io X) z, ended broken p z -> waits p = 0%nat -> p = Ret z.
  Proof. intros X p z [H|(k & -> & _)] W; [exact H|discriminate]. Qed.
  Lemma waits_1 : forall X (p : io X) z, ended broken p z -> waits p = 1%nat -> exists k, p = Read k.
  Proof. intros X p z [->|(k & -> & _)] W; [discriminate|eauto]. Qed.

  Lemma link_always : always (lk_step ec es broken) (Link s false false false) (Link (Sys (Ret x) (Ret y) [] []) (ec x) (es y) false).
  Proof.
    apply always_intro with (I := count) (N := (n + num (ec x) + num (es y) + waits pf + waits qf)%nat).
    - apply (co_run 0 s false false); [constructor|discriminate|discriminate|discriminate|discriminate].
    - exact count_step.
    - intros k c H. inversion H as [j b cl sv H1 _ _ H4 H5|sv W W2|cl W W2]; subst.
      + destruct (HE _ _ H1) as [L _]. destruct cl; [rewrite H4 by reflexivity|]; (destruct sv; [rewrite H5 by reflexivity|]); cbn [num]; lia.
      + rewrite Hx by exact W. destruct sv; [rewrite W2 by reflexivity|]; cbn [num]; [lia|]. rewrite W. lia.
      + rewrite Hy by exact W. destruct cl; [rewrite W2 by reflexivity|]; cbn [num]; [lia|]. rewrite W. lia.
    - intros c H. inversion H as [j b cl sv H1 H2 H3 H4 H5 E|sv W W2 E|cl W W2 E]; subst.
      + destruct (HE _ _ H1) as [L H6].
        assert (EQ : j = n /\ cl = ec x /\ sv = es y /\ waits pf = 0%nat /\ waits qf = 0%nat).
        { destruct cl; [rewrite H4 in * by reflexivity|]; (destruct sv; [rewrite H5 in * by reflexivity|]); cbn [num] in *;
            destruct (ec x), (es y); cbn [num] in *; repeat split; lia. }
        destruct EQ as (-> & -> & -> & W1 & W2). rewrite Nat.sub_diag in H6. inversion H6; subst.
        rewrite (waits_0 _ _ _ HX W1), (waits_0 _ _ _ HY W2). reflexivity.
      + rewrite Hx in * by exact W. destruct sv; [rewrite W2 by reflexivity; reflexivity|]. destruct (es y); [cbn [num] in *; lia|reflexivity].
      + rewrite Hy in * by exact W. destruct cl; [rewrite W2 by reflexivity; reflexivity|]. destruct (ec x); [cbn [num] in *; lia|reflexivity].
    - intros k c H HL. inversion H as [j b cl sv H1 H2 H3 H4 H5 E|sv W W2 E|cl W W2 E]; subst.
      + destruct (HE _ _ H1) as [L H6]. inversion H6 as [u E1 E2|m u t w Ht Hm E1]; subst.
        * assert (j = n) by lia. subst j. cbn [s_left s_right] in *.
          destruct HX as [EX|(kp & EX & KX)], HY as [EY|(kq & EY & KY)]; rewrite EX, EY in *; cbn [waits num] in *; [| | |lia].
          -- destruct cl; [|destruct (ec x) eqn:Ex; [eexists; left; apply cl_close; exact Ex|]];
               (destruct sv; [|destruct (es y) eqn:Ey; [eexists; right; apply sv_close; exact Ey|]]); cbn [num] in HL; try lia;
               try rewrite H4 in HL by reflexivity; try rewrite H5 in HL by reflexivity; cbn [num] in HL; lia.
          -- destruct sv; [specialize (H3 eq_refl); discriminate|]. destruct cl.
             ++ eexists. right. eapply sv_read_fails; [exact H0|left; reflexivity].
             ++ eexists. left. apply cl_close. apply Hx. reflexivity.
          -- destruct cl; [specialize (H2 eq_refl); discriminate|]. destruct sv.
             ++ eexists. left. eapply cl_read_fails; [exact H0|left; reflexivity].
             ++ eexists. right. apply sv_close. apply Hy. reflexivity.
        * inversion Ht; subst; eexists; [left; apply cl_write|left; apply cl_read|right; apply sv_write|right; apply sv_read].
      + rewrite Hx in HL by exact W. destruct sv; [rewrite W2 in HL by reflexivity; cbn [num] in HL; lia|].
        destruct (es y) eqn:Ey; [eexists; right; apply sv_close; exact Ey|cbn [num] in HL; lia].
      + rewrite Hy in HL by exact W. destruct cl; [rewrite W2 in HL by reflexivity; cbn [num] in HL; lia|].
        destruct (ec x) eqn:Ex; [eexists; left; apply cl_close; exact Ex|cbn [num] in HL; lia].
  Qed.
End Link.

(** A connection that nobody closes just goes on as the two programs do. *)
Lemma link_open : forall A B ec es broken (s F : sys A B), (exists n, forall k b, steps k s b -> (k <= n)%nat /\ steps (n - k) b F) ->
  (forall x, s_left F = Ret x -> ec x = false) -> (forall y, s_right F = Ret y -> es y = false) ->
  always (lk_step ec es broken) (Link s false false false) (Link F false false false).
Proof.
  intros A B ec es broken s F (n & HE) Hc Hs.
  apply always_intro with (I := fun k c => exists b, c = Link b false false false /\ steps k s b) (N := n).
  - exists s. split; [reflexivity|constructor].
  - intros k c c' (b & -> & H) HS.
    assert (MORE : forall b', step b b' -> exists b0, Link b' false false false = Link b0 false false false /\ steps (S k) s b0).
    { intros b' Hb. exists b'. split; [reflexivity|]. rewrite <- Nat.add_1_r. eapply steps_app; [exact H|]. econstructor; [exact Hb|constructor]. }
    destruct (HE _ _ H) as [_ HR]. destruct HS as [HS|HS]; inversion HS; subst; cbn [andb orb]; try (apply MORE; constructor).
    + exfalso. destruct (left_done _ _ _ _ _ HR _ eq_refl) as [E _]. apply Hc in E. congruence.
    + exfalso. destruct (right_done _ _ _ _ _ HR _ eq_refl) as [E _]. apply Hs in E. congruence.
  - intros k c (b & -> & H). apply HE in H. apply H.
  - intros c (b & -> & H). apply HE in H. destruct H as [_ H]. rewrite Nat.sub_diag in H. inversion H; subst. reflexivity.
  - intros k c (b & -> & H) HL. apply HE in H. destruct H as [_ H]. inversion H as [u E1 E2|m u t w Ht Hm E1]; subst; [lia|].
    inversion Ht; subst; eexists; [left; apply cl_write|left; apply cl_read|right; apply sv_write|right; apply sv_read].
Qed.

(** ** Several connections *)
Section Many.
  Context {A B : Type}.
  Variables (ec : A -> bool) (es : B -> bool) (broken : exn -> Prop).
  Let R := @lk_step A B ec es broken.

  (** [n] steps from the end, in every schedule *)
  Definition ends (n : nat) (c F : link A B) : Prop := forall k b, path R k c b -> (k <= n)%nat /\ path R (n - k) b F.
  Lemma ends_step : forall n c F c', ends n c F -> R c c' -> exists m, n = S m /\ ends m c' F.
  Proof.
    intros n c F c' H HS. destruct (H 1%nat c' ltac:(econstructor; [exact HS|constructor])) as [L _]. exists (n - 1)%nat. split; [lia|].
    intros k b Hk. destruct (H (S k) b ltac:(econstructor; eassumption)) as [L1 L2]. split; [lia|]. replace (n - 1 - k)%nat with (n - S k)%nat by lia. exact L2.
  Qed.
  Lemma ends_next : forall n c F, ends (S n) c F -> exists c', R c c'.
  Proof. intros n c F H. destruct (H 0%nat c (path_O _ _)) as [_ P]. inversion P; subst. eauto. Qed.
  Lemma ends_0 : forall c F, ends 0 c F -> c = F.
  Proof. intros c F H. destruct (H 0%nat c (path_O _ _)) as [_ P]. inversion P; subst. reflexivity. Qed.

  Inductive all_end : nat -> list (link A B) -> list (link A B) -> Prop :=
  | ae_nil : all_end 0 [] []
  | ae_cons : forall n c F m cs Fs, ends n c F -> all_end m cs Fs -> all_end (n + m) (c :: cs) (F :: Fs).

  Lemma all_end_step : forall pre n c post Fs c', all_end n (pre ++ c :: post) Fs -> R c c' -> exists m, n = S m /\ all_end m (pre ++ c' :: post) Fs.
  Proof.
    induction pre as [|d pre IH]; intros n c post Fs c' H HS; cbn [app] in *; inversion H as [|n1 ? F m ? Fs' H1 H2]; subst.
    - destruct (ends_step _ _ _ _ H1 HS) as (m1 & -> & H3). exists (m1 + m)%nat. split; [reflexivity|]. constructor; assumption.
    - destruct (IH _ _ _ _ _ H2 HS) as (m2 & -> & H3). exists (n1 + m2)%nat. split; [lia|]. constructor; assumption.
  Qed.
  Lemma all_end_0 : forall cs Fs n, all_end n cs Fs -> n = 0%nat -> cs = Fs.
  Proof.
    intros cs Fs n H. induction H as [|n c F m cs Fs H1 H2 IH]; intros E; [reflexivity|]. assert (n = 0%nat) by lia. subst n. rewrite (ends_0 _ _ H1), IH by lia. reflexivity.
  Qed.
  Lemma all_end_next : forall cs Fs n, all_end n cs Fs -> Forall (fun F => lk_sv F = true) Fs -> (0 < n)%nat ->
    forall pre, Forall (fun c => lk_sv c = true) pre -> exists cs', one_by_one ec es broken (pre ++ cs) cs'.
  Proof.
    intros cs Fs n H. induction H as [|n c F m cs Fs H1 H2 IH]; intros HF HN pre HP; [lia|]. apply Forall_cons_iff in HF. destruct HF as [F1 F2].
    destruct n as [|n].
    - pose proof (ends_0 _ _ H1). subst c. destruct (IH F2 HN (pre ++ [F])) as (cs' & HC); [apply Forall_app; auto|]. rewrite <- app_assoc in HC. eauto.
    - destruct (ends_next _ _ _ H1) as (c' & [HC|HC]); eexists; [apply ob_client; exact HC|apply ob_server; [exact HP|exact HC]].
  Qed.
  Lemma all_end_task : forall cs Fs n, all_end n cs Fs -> (0 < n)%nat -> forall pre, exists cs', by_tasks ec es broken (pre ++ cs) cs'.
  Proof.
    intros cs Fs n H. induction H as [|n c F m cs Fs H1 H2 IH]; intros HN pre; [lia|]. destruct n as [|n].
    - destruct (IH HN (pre ++ [c])) as (cs' & HC). rewrite <- app_assoc in HC. eauto.
    - destruct (ends_next _ _ _ H1) as (c' & HC). eexists. apply bt_step. exact HC.
  Qed.

  Lemma all_always : forall cs Fs, Forall2 (always R) cs Fs -> exists n, all_end n cs Fs.
  Proof. intros cs Fs H. induction H as [|c F cs Fs (n & H) _ (m & IH)]; [exists 0%nat; constructor|exists (n + m)%nat; constructor; assumption]. Qed.

  Lemma many_one_by_one : forall cs Fs, Forall2 (always R) cs Fs -> Forall (fun F => lk_sv F = true) Fs -> always (one_by_one ec es broken) cs Fs.
  Proof.
    intros cs Fs H HF. destruct (all_always _ _ H) as (N & HN).
    apply always_intro with (I := fun k c => (k <= N)%nat /\ all_end (N - k) c Fs) (N := N).
    - split; [lia|]. rewrite Nat.sub_0_r. exact HN.
    - intros k c c' [HL HI] HS. assert (G : forall pre d d' post, c = pre ++ d :: post -> c' = pre ++ d' :: post -> R d d' -> (S k <= N)%nat /\ all_end (N - S k) c' Fs).
      { intros pre d d' post -> -> HR. destruct (all_end_step _ _ _ _ _ _ HI HR) as (m & E & HM). split; [lia|]. replace (N - S k)%nat with m by lia. exact HM. }
      inversion HS; subst; eapply G; try reflexivity; [left; assumption|right; assumption].
    - intros k c [HL _]. exact HL.
    - intros c [_ HI]. eapply all_end_0; [exact HI|lia].
    - intros k c [_ HI] HL. eapply (all_end_next c Fs _ HI HF ltac:(lia) []). constructor.
  Qed.
  Lemma many_by_tasks : forall cs Fs, Forall2 (always R) cs Fs -> always (by_tasks ec es broken) cs Fs.
  Proof.
    intros cs Fs H. destruct (all_always _ _ H) as (N & HN).
    apply always_intro with (I := fun k c => (k <= N)%nat /\ all_end (N - k) c Fs) (N := N).
    - split; [lia|]. rewrite Nat.sub_0_r. exact HN.
    - intros k c c' [HL HI] HS. inversion HS; subst. destruct (all_end_step _ _ _ _ _ _ HI H0) as (m & E & HM). split; [lia|]. replace (N - S k)%nat with m by lia. exact HM.
    - intros k c [HL _]. exact HL.
    - intros c [_ HI]. eapply all_end_0; [exact HI|lia].
    - intros k c [_ HI] HL. eapply (all_end_task c Fs _ HI ltac:(lia) []).
  Qed.
End Many.
