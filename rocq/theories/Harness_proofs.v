(** Lemmas about [Harness]. *)
From Coq Require Import List Bool Arith Sorting.Permutation Lia.
From Verif Require Import PyBase Stack Servers Harness.
Import ListNotations.

(** ** Lists with one item replaced *)
Lemma set_at_same : forall X i (x : X) l, i < length l -> nth_error (set_at i x l) i = Some x.
Proof.
  intros X i x l H. unfold set_at. rewrite nth_error_app2; rewrite firstn_length_le by lia; [|lia]. rewrite Nat.sub_diag. reflexivity.
Qed.

Lemma set_at_cons : forall X i (x y : X) l, set_at (S i) x (y :: l) = y :: set_at i x l.
Proof. reflexivity. Qed.

Lemma set_at_other : forall X i j (x : X) l, i < length l -> i <> j -> nth_error (set_at i x l) j = nth_error l j.
Proof.
  intros X i. induction i as [|i IH]; intros j x l H N.
  - destruct l; cbn in H; [lia|]. destruct j; [congruence|]. reflexivity.
  - destruct l as [|y l]; cbn in H; [lia|]. rewrite set_at_cons. destruct j; [reflexivity|]. cbn [nth_error]. apply IH; lia.
Qed.

Lemma set_at_length : forall X i (x : X) l, i < length l -> length (set_at i x l) = length l.
Proof.
  intros X i x l H. unfold set_at. rewrite app_length, firstn_length_le by lia. cbn [length]. rewrite skipn_length. lia.
Qed.

Lemma nth_lt : forall X (l : list X) i x, nth_error l i = Some x -> i < length l.
Proof. intros X l i x H. apply nth_error_Some. congruence. Qed.

Lemma forall2_at : forall X Y (R : X -> Y -> Prop) xs ys i x y, Forall2 R xs ys -> nth_error xs i = Some x -> R x y -> Forall2 R xs (set_at i y ys).
Proof.
  intros X Y R xs ys i x y H. revert i. induction H as [|a b xs ys Hab H IH]; intros i E HR.
  - destruct i; discriminate.
  - destruct i; cbn in E.
    + injection E as ->. constructor; [exact HR|exact H].
    + rewrite set_at_cons. constructor; [exact Hab|]. apply IH; assumption.
Qed.

Lemma forall2_nth : forall X Y (R : X -> Y -> Prop) xs ys i x, Forall2 R xs ys -> nth_error xs i = Some x -> exists y, nth_error ys i = Some y /\ R x y.
Proof.
  intros X Y R xs ys i x H. revert i. induction H as [|a b xs ys Hab H IH]; intros i E.
  - destruct i; discriminate.
  - destruct i; cbn in *; [injection E as ->; eauto|apply IH; exact E].
Qed.

Lemma forall2_nth' : forall X Y (R : X -> Y -> Prop) xs ys i y, Forall2 R xs ys -> nth_error ys i = Some y -> exists x, nth_error xs i = Some x /\ R x y.
Proof.
  intros X Y R xs ys i y H. revert i. induction H as [|a b xs ys Hab H IH]; intros i E.
  - destruct i; discriminate.
  - destruct i; cbn in *; [injection E as ->; eauto|apply IH; exact E].
Qed.

Lemma forall2_length : forall X Y (R : X -> Y -> Prop) xs ys, Forall2 R xs ys -> length xs = length ys.
Proof. intros X Y R xs ys H. induction H; cbn [length]; congruence. Qed.

(** ** Sums over clients *)
Section Sums.
  Context {X Y : Type}.
  Variable w : X -> Y -> nat.
  Fixpoint total (xs : list X) (ys : list Y) : nat :=
    match xs, ys with x :: xs, y :: ys => w x y + total xs ys | _, _ => 0 end.
  Lemma total_at : forall xs ys i x y y', nth_error xs i = Some x -> nth_error ys i = Some y ->
    total xs (set_at i y' ys) + w x y = total xs ys + w x y'.
  Proof.
    induction xs as [|a xs IH]; intros ys i x y y' E1 E2; [destruct i; discriminate|].
    destruct ys as [|b ys]; [destruct i; discriminate|]. destruct i; cbn in E1, E2.
    - injection E1 as ->. injection E2 as ->. unfold set_at. cbn [firstn app skipn total]. lia.
    - rewrite set_at_cons. cbn [total]. specialize (IH ys i x y y' E1 E2). lia.
  Qed.
  Lemma total_zero : forall xs ys, Forall2 (fun x y => w x y = 0) xs ys -> total xs ys = 0.
  Proof. intros xs ys H. induction H as [|? ? ? ? E H IH]; cbn [total]; [reflexivity|]. rewrite E, IH. reflexivity. Qed.
End Sums.

Section Collected.
  Context {X Y Z : Type}.
  Variable w : X -> Y -> list Z.
  Fixpoint collected (xs : list X) (ys : list Y) : list Z :=
    match xs, ys with x :: xs, y :: ys => w x y ++ collected xs ys | _, _ => [] end.
  Lemma collected_at : forall xs ys i x y y' d, nth_error xs i = Some x -> nth_error ys i = Some y -> w x y = d ++ w x y' ->
    Permutation (collected xs ys) (d ++ collected xs (set_at i y' ys)).
  Proof.
    induction xs as [|a xs IH]; intros ys i x y y' d E1 E2 E; [destruct i; discriminate|].
    destruct ys as [|b ys]; [destruct i; discriminate|]. destruct i; cbn in E1, E2.
    - injection E1 as ->. injection E2 as ->. unfold set_at. cbn [firstn app skipn collected]. rewrite E, <- app_assoc. apply Permutation_refl.
    - rewrite set_at_cons. cbn [collected]. specialize (IH ys i x y y' d E1 E2 E).
      eapply Permutation_trans; [apply Permutation_app_head; exact IH|]. rewrite !app_assoc. apply Permutation_app_tail. apply Permutation_app_comm.
  Qed.
End Collected.

(** ** Termination *)
Lemma inevitable_measure : forall S (R : S -> S -> Prop) (I P : S -> Prop) (mu : S -> nat),
  (forall s t, I s -> R s t -> I t /\ mu t < mu s) ->
  (forall s, I s -> (exists t, R s t) \/ (P s /\ forall t, ~ R s t)) ->
  forall s, I s -> inevitable R P s.
Proof.
  intros S R I P mu H1 H2.
  assert (H : forall n s, mu s < n -> I s -> inevitable R P s).
  { induction n as [|n IH]; intros s Hn Hs; [lia|]. destruct (H2 s Hs) as [HR|[HP HN]].
    - apply inev_step; [exact HR|]. intros t Ht. destruct (H1 s t Hs Ht). apply IH; [lia|assumption].
    - apply inev_done; assumption. }
  intros s Hs. apply (H (Datatypes.S (mu s))); [lia|exact Hs].
Qed.

(** ** Threads *)
Definition thr_ok (f : fate) (t : option (list act)) : Prop :=
  match t with None => True | Some q => exists p, run_session f = p ++ q end.
Definition begun (t : option (list act)) : Prop := t <> None.

(** Exceptions still to be logged *)
Definition logs (p : list act) : list exn := fold_right (fun a l => match a with Log e => e :: l | _ => l end) [] p.
Definition due (f : fate) (t : option (list act)) : list exn := match t with None => failure f | Some p => logs p end.
Definition left_over (f : fate) (t : option (list act)) : nat := match t with None => length (run_session f) | Some p => length p end.

Definition main_ok (n : nat) (m : list mact) (ts : list (option (list act))) : Prop :=
  (exists k, k <= n /\ m = map Start (seq k (n - k)) ++ map Join (seq 0 n) /\
     (forall i, i < n -> (i < k -> exists p, nth_error ts i = Some (Some p)) /\ (k <= i -> nth_error ts i = Some None))) \/
  (exists k, k <= n /\ m = map Join (seq k (n - k)) /\
     (forall i, i < n -> exists p, nth_error ts i = Some (Some p) /\ (i < k -> p = []))).

Definition hinv (fs : list fate) (h : harness) : Prop :=
  Forall2 thr_ok fs (h_threads h) /\
  main_ok (length fs) (h_main h) (h_threads h) /\
  (h_flag h = true -> exists i, holding fs h i) /\
  Permutation (flat_map failure fs) (h_log h ++ collected due fs (h_threads h)).

Definition hmu (fs : list fate) (h : harness) : nat := length (h_main h) + total left_over fs (h_threads h).

Lemma logs_failure : forall f, logs (run_session f) = failure f.
Proof. intros [e|e|[u|e]]; reflexivity. Qed.

Lemma suffix_shape : forall f a p q, run_session f = p ++ a :: q ->
  act_flag a true = true -> (exists b, a = Flag b) -> In (Flag false) q /\ ~ In (Flag true) q.
Proof.
  intros f a p q E Ha [b Hb]. subst a. cbn in Ha. subst b.
  destruct f as [e|e|[u|e]]; cbn [run_session] in E;
    do 8 (try (destruct p as [|? p]; cbn [app] in E; [|try discriminate E; injection E as _ E]));
    try discriminate E; injection E as <-; cbn; (split; [tauto|intuition discriminate]).
Qed.

Lemma hinit_inv : forall fs, hinv fs (hinit fs).
Proof.
  intro fs. unfold hinit. split; [|split; [|split]]; cbn [h_main h_threads h_flag h_log].
  - induction fs; constructor; [exact Logic.I|assumption].
  - left. exists 0. split; [lia|]. split; [rewrite Nat.sub_0_r; reflexivity|]. intros i Hi. split; [lia|]. intros _.
    destruct (nth_error fs i) as [f|] eqn:E; [|apply nth_error_None in E; lia]. rewrite (map_nth_error (fun _ => None) i fs E). reflexivity.
  - discriminate.
  - cbn [app]. induction fs as [|f fs IH]; cbn [flat_map map collected]; [constructor|]. cbn [due]. apply Permutation_app_head. exact IH.
Qed.

Lemma hmu_init : forall fs, hmu fs (hinit fs) = 2 * length fs + fold_right (fun f n => length (run_session f) + n) 0 fs.
Proof.
  intro fs. unfold hmu, hinit, run_sessions. cbn [h_main h_threads]. rewrite app_length, !map_length, seq_length.
  assert (E : total left_over fs (map (fun _ => None) fs) = fold_right (fun f n => length (run_session f) + n) 0 fs).
  { induction fs as [|f fs IH]; [reflexivity|]. cbn [total map fold_right left_over]. rewrite IH. reflexivity. }
  rewrite E. lia.
Qed.

Lemma holding_other : forall fs m ts b l m' b' l' i j p, i < length ts -> i <> j ->
  holding fs (Harness m ts b l) j -> holding fs (Harness m' (set_at i p ts) b' l') j.
Proof. intros fs m ts b l m' b' l' i j p Hi N (r & q & Er & E & H). exists r, q. cbn [h_threads] in *. rewrite set_at_other by assumption. auto. Qed.

Lemma hinv_step : forall fs h h', hinv fs h -> hstep fs h h' -> hinv fs h' /\ hmu fs h = S (hmu fs h').
Proof.
  intros fs h h' (HF & HM & HG & HL) HS. destruct HS as [i f m ts b l Ef Et|i m ts b l Et|i a p m ts b l Et]; cbn [h_main h_threads h_flag h_log] in *.
  - pose proof (nth_lt _ _ _ _ Et) as Hi. assert (HN : length ts = length fs) by (symmetry; eapply forall2_length; exact HF).
    split; [split; [|split; [|split]]|]; cbn [h_main h_threads h_flag h_log].
    + eapply forall2_at; [exact HF|exact Ef|]. exists []. reflexivity.
    + destruct HM as [(k & Hk & EM & HT)|(k & Hk & EM & HT)].
      2:{ exfalso. destruct (length fs - k); cbn in EM; discriminate. }
      destruct (length fs - k) as [|r] eqn:Er.
      { exfalso. cbn in EM. destruct fs; cbn in EM; discriminate. }
      cbn [seq map app] in EM. injection EM as EI EM. subst i m.
      left. exists (S k). split; [lia|]. split; [replace (length fs - S k) with r by lia; reflexivity|].
      intros j Hj. destruct (HT j Hj) as [T1 T2]. destruct (Nat.eq_dec j k) as [->|N].
      * split; [|lia]. intros _. exists (run_session f). apply set_at_same. lia.
      * rewrite set_at_other by lia. split; intro; [apply T1|apply T2]; lia.
    + intro HB. destruct (HG HB) as (j & Hj). exists j. destruct (Nat.eq_dec i j) as [->|N].
      * exfalso. destruct Hj as (r & q & _ & E & _). cbn [h_threads] in E. congruence.
      * eapply holding_other; eauto.
    + eapply Permutation_trans; [exact HL|]. apply Permutation_app_head.
      pose proof (collected_at due fs ts i f None (Some (run_session f)) [] Ef Et) as Q. cbn [app] in Q. apply Q. cbn [due]. symmetry. apply logs_failure.
    + unfold hmu. cbn [h_main h_threads length]. pose proof (total_at left_over fs ts i f None (Some (run_session f)) Ef Et) as Q. cbn [left_over] in Q. lia.
  - split; [split; [|split; [|split]]|]; cbn [h_main h_threads h_flag h_log]; try assumption.
    + destruct HM as [(k & Hk & EM & HT)|(k & Hk & EM & HT)].
      * destruct (length fs - k) as [|r] eqn:Er.
        2:{ exfalso. cbn in EM. discriminate. }
        cbn [seq map app] in EM. destruct fs as [|f0 fs]; [cbn in EM; discriminate|]. cbn [length seq map] in EM. injection EM as EI EM. subst i m.
        right. exists 1. cbn [length] in *. split; [lia|]. split; [f_equal; f_equal; lia|]. intros j Hj. destruct (HT j Hj) as [T1 _].
        destruct (T1 ltac:(lia)) as (p & Ep). exists p. split; [exact Ep|]. intro. replace j with 0 in * by lia. congruence.
      * destruct (length fs - k) as [|r] eqn:Er; [cbn in EM; discriminate|]. cbn [seq map] in EM. injection EM as EI EM. subst i m.
        right. exists (S k). split; [lia|]. split; [f_equal; f_equal; lia|]. intros j Hj. destruct (HT j Hj) as (p & Ep & Hp). exists p. split; [exact Ep|].
        intro. destruct (Nat.eq_dec j k) as [->|N]; [congruence|apply Hp; lia].
    + unfold hmu. cbn [h_main h_threads length]. lia.
  - pose proof (nth_lt _ _ _ _ Et) as Hi. destruct (forall2_nth' _ _ _ _ _ _ _ HF Et) as (f & Ef & (pre & EP)).
    assert (HN : length ts = length fs) by (symmetry; eapply forall2_length; exact HF).
    split; [split; [|split; [|split]]|]; cbn [h_main h_threads h_flag h_log].
    + eapply forall2_at; [exact HF|exact Ef|]. exists (pre ++ [a]). rewrite <- app_assoc. exact EP.
    + destruct HM as [(k & Hk & EM & HT)|(k & Hk & EM & HT)]; [left|right]; exists k; (split; [exact Hk|]); (split; [exact EM|]); intros j Hj; pose proof (HT j Hj) as T.
      * destruct (Nat.eq_dec i j) as [->|N].
        -- split; [intros _; exists p; apply set_at_same; lia|]. intro HK. exfalso. destruct T as [_ T]. rewrite (T HK) in Et. discriminate.
        -- rewrite set_at_other by lia. exact T.
      * destruct (Nat.eq_dec i j) as [->|N].
        -- exists p. split; [apply set_at_same; lia|]. intro HK. exfalso. destruct T as (q & E & Q). rewrite E in Et. injection Et as ->. specialize (Q HK). discriminate.
        -- rewrite set_at_other by lia. exact T.
    + intro HB. destruct a; cbn [act_flag] in HB;
        try (destruct (HG HB) as (j & Hj); exists j; destruct (Nat.eq_dec i j) as [->|N]; [|eapply holding_other; eauto];
             destruct Hj as (r & q & Er & E & I1 & I2); cbn [h_threads] in E; rewrite E in Et; injection Et as ->; exists r, p; cbn [h_threads];
             split; [exact Er|]; split; [apply set_at_same; lia|]; split; [destruct I1 as [I1|I1]; [discriminate|exact I1]|intro; apply I2; right; assumption]).
      subst b0. exists i. destruct (suffix_shape f (Flag true) pre p EP eq_refl ltac:(eauto)) as [I1 I2].
      assert (HR : exists r, f = Session r) by (destruct f as [e|e|r]; [| |eauto]; exfalso; cbn in EP; do 6 (try (destruct pre as [|? pre]; try discriminate EP; try (injection EP as _ EP)))).
      destruct HR as (r & ->). exists r, p. cbn [h_threads]. split; [exact Ef|]. split; [apply set_at_same; lia|]. split; assumption.
    + eapply Permutation_trans; [exact HL|].
      pose proof (collected_at due fs ts i f (Some (a :: p)) (Some p)) as Q. cbn [due logs fold_right] in Q. fold (logs p) in Q.
      destruct a; cbn [act_log];
        try (apply Permutation_app_head; specialize (Q [] Ef Et eq_refl); cbn [app] in Q; exact Q).
      rewrite <- app_assoc. apply Permutation_app_head. apply (Q [e] Ef Et eq_refl).
    + unfold hmu. cbn [h_main h_threads length]. pose proof (total_at left_over fs ts i f (Some (a :: p)) (Some p) Ef Et) as Q. cbn [left_over length] in Q. lia.
Qed.

Lemma hinv_path : forall fs k h h', hinv fs h -> path (hstep fs) k h h' -> hinv fs h' /\ hmu fs h = k + hmu fs h'.
Proof.
  intros fs k h h' H P. induction P as [|n s t u HS P IH]; [split; [exact H|reflexivity]|].
  destruct (hinv_step _ _ _ H HS) as [H1 H2]. destruct (IH H1) as [H3 H4]. split; [exact H3|]. lia.
Qed.

(** [run_sessions] has returned. *)
Lemma hinv_returned : forall fs h, hinv fs h -> h_main h = [] ->
  h_threads h = map (fun _ => Some []) fs /\ h_flag h = false /\ Permutation (flat_map failure fs) (h_log h).
Proof.
  intros fs h (HF & HM & HG & HL) EM. destruct h as [m ts b l]. cbn [h_main h_threads h_flag h_log] in *. subst m.
  assert (HN : length ts = length fs) by (symmetry; eapply forall2_length; exact HF).
  assert (HT : forall i, i < length fs -> nth_error ts i = Some (Some [])).
  { destruct HM as [(k & Hk & EM & HT)|(k & Hk & EM & HT)].
    - symmetry in EM. apply app_eq_nil in EM. destruct EM as [_ EM]. intros i Hi. destruct (length fs); [lia|]. cbn in EM. discriminate.
    - intros i Hi. destruct (length fs - k) eqn:E; [|cbn in EM; discriminate]. destruct (HT i Hi) as (p & Ep & Hp). rewrite Hp in Ep by lia. exact Ep. }
  assert (ET : ts = map (fun _ => Some []) fs).
  { clear HF HM HG HL. revert ts HN HT. induction fs as [|f fs IH]; intros ts HN HT; destruct ts as [|t ts]; cbn in HN; try lia; [reflexivity|].
    cbn [map]. f_equal; [specialize (HT 0 ltac:(cbn; lia)); cbn in HT; congruence|]. apply IH; [lia|]. intros i Hi. apply (HT (S i)). cbn. lia. }
  split; [exact ET|]. split.
  - destruct b; [|reflexivity]. exfalso. destruct (HG eq_refl) as (i & r & p & _ & E & I1 & _). cbn [h_threads] in E. pose proof (nth_lt _ _ _ _ E) as Hi.
    rewrite HT in E by lia. injection E as <-. destruct I1.
  - assert (EC : collected due fs ts = []).
    { rewrite ET. clear. induction fs as [|f fs IH]; [reflexivity|]. cbn [map collected due logs fold_right app]. exact IH. }
    rewrite EC, app_nil_r in HL. exact HL.
Qed.

Lemma hinv_progress : forall fs h, hinv fs h -> (exists h', hstep fs h h') \/ (h_main h = [] /\ forall h', ~ hstep fs h h').
Proof.
  intros fs h HI. destruct h as [m ts b l]. destruct m as [|[i|i] m].
  - right. split; [reflexivity|]. destruct (hinv_returned fs _ HI eq_refl) as (ET & _). cbn [h_threads] in ET. intros h' HS.
    inversion HS as [| |i a p ? ? ? ? Et]; subst. assert (In (Some (a :: p)) (map (fun _ : fate => Some (@nil act)) fs)) as Q by (eapply nth_error_In; exact Et).
    apply in_map_iff in Q. destruct Q as (? & Q & _). discriminate.
  - left. destruct HI as (HF & HM & _). cbn [h_main h_threads] in *. destruct HM as [(k & Hk & EM & HT)|(k & Hk & EM & HT)].
    2:{ exfalso. destruct (length fs - k); cbn in EM; discriminate. }
    destruct (length fs - k) as [|r] eqn:Er.
    { exfalso. cbn in EM. destruct fs; cbn in EM; discriminate. }
    cbn [seq map app] in EM. injection EM as EI EM. subst i. destruct (HT k ltac:(lia)) as [_ T].
    destruct (nth_error fs k) as [f|] eqn:E; [|apply nth_error_None in E; lia]. eexists. eapply hs_start; [exact E|apply T; lia].
  - left. destruct HI as (HF & HM & _). cbn [h_main h_threads] in *.
    assert (HS : exists p, nth_error ts i = Some (Some p)).
    { destruct HM as [(k & Hk & EM & HT)|(k & Hk & EM & HT)].
      - destruct (length fs - k) as [|r] eqn:Er; [|cbn in EM; discriminate]. cbn [seq map app] in EM.
        destruct (length fs) as [|n]; [cbn in EM; discriminate|]. cbn [seq map] in EM. injection EM as -> _. destruct (HT 0 ltac:(lia)) as [T _]. apply T. lia.
      - destruct (length fs - k) as [|r] eqn:Er; [cbn in EM; discriminate|]. cbn [seq map] in EM. injection EM as -> _. destruct (HT k ltac:(lia)) as (p & Ep & _). eauto. }
    destruct HS as (p & Ep). destruct p as [|a p]; [eexists; eapply hs_join; exact Ep|eexists; eapply hs_act; exact Ep].
Qed.

(** ** Schedules *)
Lemma path_trans : forall X (R : X -> X -> Prop) a b s t u, path R a s t -> path R b t u -> path R (a + b) s u.
Proof. intros X R a b s t u H K. induction H; [exact K|]. cbn. econstructor; eauto. Qed.

Lemma path_acts : forall fs i p q m ts b l, nth_error ts i = Some (Some (p ++ q)) ->
  exists ts', path (hstep fs) (length p) (Harness m ts b l) (Harness m ts' (fold_left (fun b a => act_flag a b) p b) (fold_left (fun l a => act_log a l) p l)) /\
    nth_error ts' i = Some (Some q) /\ forall j, j <> i -> nth_error ts' j = nth_error ts j.
Proof.
  intros fs i p. induction p as [|a p IH]; intros q m ts b l E.
  - exists ts. split; [constructor|]. split; [exact E|reflexivity].
  - pose proof (nth_lt _ _ _ _ E) as Hi. cbn [app] in E.
    destruct (IH q m (set_at i (Some (p ++ q)) ts) (act_flag a b) (act_log a l) (set_at_same _ _ _ _ Hi)) as (ts' & P & T1 & T2).
    exists ts'. split; [econstructor; [eapply hs_act; exact E|exact P]|]. split; [exact T1|].
    intros j Hj. rewrite T2 by exact Hj. apply set_at_other; [exact Hi|congruence].
Qed.

Lemma path_starts : forall fs k m ts b l, k <= length fs -> length ts = length fs -> (forall i, i < k -> nth_error ts i = Some None) ->
  exists ts', path (hstep fs) k (Harness (map Start (seq 0 k) ++ m) ts b l) (Harness m ts' b l) /\ length ts' = length fs /\
    (forall i f, i < k -> nth_error fs i = Some f -> nth_error ts' i = Some (Some (run_session f))) /\ (forall i, k <= i -> nth_error ts' i = nth_error ts i).
Proof.
  intros fs k. induction k as [|k IH]; intros m ts b l Hk HN HT.
  - exists ts. split; [constructor|]. split; [exact HN|]. split; [lia|reflexivity].
  - rewrite seq_S, map_app, <- app_assoc. cbn [plus map app].
    destruct (IH (Start k :: m) ts b l ltac:(lia) HN ltac:(intros; apply HT; lia)) as (ts' & P & L & T1 & T2).
    destruct (nth_error fs k) as [f|] eqn:E; [|apply nth_error_None in E; lia].
    exists (set_at k (Some (run_session f)) ts'). split.
    + replace (S k) with (k + 1) by lia. eapply path_trans; [exact P|]. econstructor; [|constructor]. apply hs_start; [exact E|]. rewrite T2 by lia. apply HT. lia.
    + split; [rewrite set_at_length; [exact L|lia]|]. split.
      * intros i f' Hi Ef. destruct (Nat.eq_dec i k) as [->|N]; [rewrite set_at_same by lia; congruence|]. rewrite set_at_other by lia. apply T1; [lia|exact Ef].
      * intros i Hi. rewrite set_at_other by lia. apply T2. lia.
Qed.

(** All clients started, none has done anything *)
Lemma path_all_started : forall fs, exists ts, path (hstep fs) (length fs) (hinit fs) (Harness (map Join (seq 0 (length fs))) ts false []) /\
  forall i f, nth_error fs i = Some f -> nth_error ts i = Some (Some (run_session f)).
Proof.
  intro fs. unfold hinit, run_sessions.
  destruct (path_starts fs (length fs) (map Join (seq 0 (length fs))) (map (fun _ => None) fs) false [] ltac:(lia) (map_length _ _)) as (ts & P & L & T & _).
  { intros i Hi. destruct (nth_error fs i) as [f|] eqn:E; [|apply nth_error_None in E; lia]. rewrite (map_nth_error (fun _ => None) i fs E). reflexivity. }
  exists ts. split; [exact P|]. intros i f Ef. apply T; [eapply nth_lt; exact Ef|exact Ef].
Qed.

(** ** Processes *)
Definition fut_ok (r : res unit) (t : option (res unit)) : Prop := t = None \/ t = Some r.
Definition pending (r : res unit) (t : option (res unit)) : nat := match t with None => 1 | Some _ => 0 end.
Definition finished (fs : list (res unit)) (ts : list (option (res unit))) : Prop := ts = map Some fs.

Definition where_ok (fs : list (res unit)) (h : harness_a) : Prop :=
  match a_main h with
  | AtBegin => a_futures h = [] /\ a_flag h = false
  | AtWhile is => Forall2 fut_ok fs (a_futures h) /\ a_flag h = true /\
      (is = seq 0 (length fs) \/ (is = [] /\ finished fs (a_futures h) /\ Forall (fun r => r = Ok tt) fs))
  | AtFor ds ps => ps = [] /\ a_flag h = true /\ finished fs (a_futures h) /\
      (forall i, In i ds -> i < length fs) /\ (forall i r, nth_error fs i = Some r -> In i ds \/ r = Ok tt)
  | Over r => a_flag h = true /\ finished fs (a_futures h) /\
      match r with Ok _ => Forall (fun r => r = Ok tt) fs | Err e => In (Err e) fs end
  end.

Definition amu (fs : list (res unit)) (h : harness_a) : nat :=
  match a_main h with
  | AtBegin => 2 * length fs + 9
  | AtWhile [] => 1
  | AtWhile is => length is + 3 + total pending fs (a_futures h)
  | AtFor ds _ => length ds + 2
  | Over _ => 0
  end.

Lemma finished_done : forall fs ts i, finished fs ts -> nth_error ts i <> Some None.
Proof.
  intros fs ts i -> E. destruct (nth_error fs i) as [r|] eqn:Er.
  - rewrite (map_nth_error Some i fs Er) in E. discriminate.
  - assert (nth_error (map Some fs) i = None) by (apply nth_error_None; rewrite map_length; apply nth_error_None; exact Er). congruence.
Qed.

Lemma finished_intro : forall fs ts, Forall2 fut_ok fs ts -> (forall i, i < length fs -> exists r, nth_error ts i = Some (Some r)) -> finished fs ts.
Proof.
  intros fs ts H. induction H as [|r t fs ts Hr H IH]; intro HD; [reflexivity|]. unfold finished. cbn [map]. f_equal.
  - destruct (HD 0 ltac:(cbn; lia)) as (r' & E). cbn in E. destruct Hr as [->| ->]; [discriminate|reflexivity].
  - apply IH. intros i Hi. apply (HD (S i)). cbn. lia.
Qed.

Lemma finished_nth : forall fs ts i r, finished fs ts -> nth_error ts i = Some (Some r) -> nth_error fs i = Some r.
Proof.
  intros fs ts i r -> E. destruct (nth_error fs i) as [r'|] eqn:Er.
  - rewrite (map_nth_error Some i fs Er) in E. congruence.
  - assert (nth_error (map Some fs) i = None) by (apply nth_error_None; rewrite map_length; apply nth_error_None; exact Er). congruence.
Qed.

Lemma all_ok : forall fs : list (res unit), (forall i r, nth_error fs i = Some r -> r = Ok tt) -> Forall (fun r => r = Ok tt) fs.
Proof. intros fs H. apply Forall_forall. intros r Hr. apply In_nth_error in Hr. destruct Hr as (i & E). eapply H; exact E. Qed.

Lemma total_none : forall fs : list (res unit), total pending fs (map (fun _ => None) fs) = length fs.
Proof. induction fs as [|r fs IH]; [reflexivity|]. cbn [total map pending length]. rewrite IH. reflexivity. Qed.

Lemma where_step : forall fs h h', where_ok fs h -> astep fs h h' -> where_ok fs h' /\ amu fs h' < amu fs h.
Proof.
  intros fs h h' HI HS. destruct HS as [b|i r m ts b Er Et|i is ds ts b HP HD|i ds ps ts b Et|i ds ps ts b e Et|ps ts b|ts b];
    unfold where_ok, amu in *; cbn [a_main a_futures a_flag] in *.
  - split.
    + split; [|split; [reflexivity|left; reflexivity]]. clear. induction fs; constructor; [left; reflexivity|assumption].
    + rewrite total_none, seq_length. destruct (seq 0 (length fs)); lia.
  - destruct m as [|is|ds ps|r'].
    + destruct HI as [-> _]. destruct i; discriminate.
    + destruct HI as (HF & HB & HC). assert (HC' : is = seq 0 (length fs)).
      { destruct HC as [HC|(_ & HX & _)]; [exact HC|]. exfalso. eapply finished_done; eauto. }
      pose proof (total_at pending fs ts i r None (Some r) Er Et) as Q. cbn [pending] in Q. split.
      * split; [eapply forall2_at; [exact HF|exact Er|right; reflexivity]|]. split; [exact HB|left; exact HC'].
      * pose proof (nth_lt _ _ _ _ Er). destruct is as [|i0 is]; [|lia]. exfalso. destruct (length fs); [lia|discriminate].
    + destruct HI as (_ & _ & HX & _). exfalso. eapply finished_done; eauto.
    + destruct HI as (_ & HX & _). exfalso. eapply finished_done; eauto.
  - destruct HI as (HF & HB & HC). destruct HC as [HC|(HC & _)]; [|discriminate].
    assert (HX : finished fs ts).
    { apply finished_intro; [exact HF|]. intros j Hj. apply HD. rewrite HC. apply in_seq. lia. }
    split.
    + split; [reflexivity|]. split; [exact HB|]. split; [exact HX|]. split.
      * intros j Hj. apply (Permutation_in _ HP) in Hj. rewrite HC in Hj. apply in_seq in Hj. lia.
      * intros j r Hr. left. apply (Permutation_in _ (Permutation_sym HP)). rewrite HC. apply in_seq. pose proof (nth_lt _ _ _ _ Hr). lia.
    + apply Permutation_length in HP. rewrite HP. cbn [length]. lia.
  - destruct HI as (HP & HB & HX & HL & HO). split; [|cbn [length]; lia]. split; [exact HP|]. split; [exact HB|]. split; [exact HX|]. split.
    + intros j Hj. apply HL. right. exact Hj.
    + intros j r Hr. destruct (HO j r Hr) as [[->|Hj]|Hj]; [|left; exact Hj|right; exact Hj]. right. pose proof (finished_nth _ _ _ _ HX Et). congruence.
  - destruct HI as (HP & HB & HX & HL & HO). split; [|lia]. split; [exact HB|]. split; [exact HX|]. eapply nth_error_In. eapply finished_nth; eauto.
  - destruct HI as (-> & HB & HX & HL & HO). split; [|cbn [length]; lia]. split.
    + rewrite HX. clear. induction fs; constructor; [right; reflexivity|assumption].
    + split; [exact HB|]. right. split; [reflexivity|]. split; [exact HX|]. apply all_ok. intros i r Hr. destruct (HO i r Hr) as [[]|Hj]; exact Hj.
  - destruct HI as (HF & HB & HC). split; [|lia]. split; [exact HB|]. destruct HC as [HC|(_ & HX & HA)]; [|split; assumption].
    destruct fs; [|discriminate]. inversion HF; subst. split; [reflexivity|constructor].
Qed.

Lemma where_progress : forall fs h, where_ok fs h -> (exists h', astep fs h h') \/ ((exists r, a_main h = Over r) /\ forall h', ~ astep fs h h').
Proof.
  intros fs [m ts b] HI. destruct m as [|is|ds ps|r]; unfold where_ok in HI; cbn [a_main a_futures a_flag] in HI.
  - left. destruct HI as [-> _]. eexists. apply as_begin.
  - left. destruct is as [|i is]; [eexists; apply as_over|]. destruct HI as (HF & HB & HC). destruct HC as [HC|(HC & _)]; [|discriminate].
    assert (HD : (forall j, j < length fs -> exists r, nth_error ts j = Some (Some r)) \/ (exists j r, nth_error fs j = Some r /\ nth_error ts j = Some None)).
    { clear HC HB. induction HF as [|r t fs ts Hr H IH]; [left; cbn; lia|]. destruct IH as [IH|(j & r' & E1 & E2)].
      - destruct Hr as [->| ->]; [right; exists 0, r; split; reflexivity|]. left. intros [|j] Hj; [eexists; reflexivity|]. apply IH. cbn in Hj. lia.
      - right. exists (S j), r'. split; assumption. }
    destruct HD as [HD|(j & r & E1 & E2)].
    + eexists. eapply as_wait; [apply Permutation_refl|]. intros j Hj. apply HD. rewrite HC in Hj. apply in_seq in Hj. lia.
    + eexists. eapply as_ends; eassumption.
  - left. destruct HI as (HP & HB & HX & HL & HO). destruct ds as [|i ds]; [eexists; apply as_again|].
    pose proof (HL i (or_introl eq_refl)) as Hi. destruct (nth_error fs i) as [r|] eqn:Er; [|apply nth_error_None in Er; lia].
    assert (Et : nth_error ts i = Some (Some r)) by (rewrite HX; apply map_nth_error; exact Er).
    destruct r as [[]|e]; [eexists; eapply as_await; exact Et|eexists; eapply as_raise; exact Et].
  - right. destruct HI as (HB & HX & _). split; [eexists; reflexivity|]. intros h' HS. inversion HS; subst. eapply finished_done; eauto.
Qed.

Lemma where_path : forall fs k h h', where_ok fs h -> path (astep fs) k h h' -> where_ok fs h'.
Proof. intros fs k h h' H P. induction P as [|n s t u HS P IH]; [exact H|]. apply IH. eapply where_step; eauto. Qed.

Lemma where_init : forall fs, where_ok fs ainit.
Proof. intro fs. split; reflexivity. Qed.

Lemma done_or_pending : forall fs ts, Forall2 fut_ok fs ts -> ts = map Some fs \/ exists i r, nth_error fs i = Some r /\ nth_error ts i = Some None.
Proof.
  intros fs ts H. induction H as [|r t fs ts Hr H IH]; [left; reflexivity|]. destruct Hr as [->| ->]; [right; exists 0, r; split; reflexivity|].
  destruct IH as [->|(i & r' & E1 & E2)]; [left; reflexivity|right; exists (S i), r'; split; assumption].
Qed.

Lemma path_ends : forall fs m b n ts, total pending fs ts = n -> Forall2 fut_ok fs ts -> exists k, path (astep fs) k (HarnessA m ts b) (HarnessA m (map Some fs) b).
Proof.
  intros fs m b n. induction n as [|n IH]; intros ts HN HF; (destruct (done_or_pending fs ts HF) as [->|(i & r & E1 & E2)]; [exists 0; constructor|]);
    pose proof (total_at pending fs ts i r None (Some r) E1 E2) as Q; cbn [pending] in Q; [lia|].
  destruct (IH (set_at i (Some r) ts) ltac:(lia)) as (k & P); [eapply forall2_at; [exact HF|exact E1|right; reflexivity]|].
  exists (S k). econstructor; [apply as_ends; eassumption|exact P].
Qed.

(** ** Where a thread is in its program *)
Lemma enter_shape : forall f p q, run_session f = p ++ Enter :: q -> In Leave q /\ ~ In Enter q.
Proof.
  intros f p q E. destruct f as [e|e|[u|e]]; cbn [run_session] in E;
    do 8 (try (destruct p as [|? p]; cbn [app] in E; [|try discriminate E; injection E as _ E]));
    try discriminate E; injection E as <-; cbn; (split; [tauto|intuition discriminate]).
Qed.

Lemma in_session_holds : forall fs h i, hinv fs h -> in_session h i -> holding fs h i.
Proof.
  intros fs h i (HF & _) (p & E & I1 & I2). destruct (forall2_nth' _ _ _ _ _ _ _ HF E) as (f & Ef & (pre & EP)). clear HF.
  assert (HR : exists r, f = Session r) by (destruct f as [e|e|r]; [| |eauto]; exfalso; cbn [run_session] in EP; do 6 (try (destruct pre as [|? pre]; cbn [app] in EP; [|try discriminate EP; injection EP as _ EP])); subst; try discriminate EP; cbn in I1; intuition discriminate).
  destruct HR as (r & ->). exists r, p. split; [exact Ef|]. split; [exact E|]. clear E Ef. remember (Session r) as f eqn:Ef0. clear Ef0.
  destruct f as [e|e|[u|e]]; cbn [run_session] in EP;
    do 8 (try (destruct pre as [|? pre]; cbn [app] in EP; [|try discriminate EP; injection EP as _ EP]));
    subst; try discriminate EP; cbn in I1, I2 |- *; (split; [tauto|intuition discriminate]).
Qed.

Lemma in_session_socket : forall fs h i, hinv fs h -> in_session h i -> has_socket fs h i.
Proof.
  intros fs h i (HF & _) (p & E & I1 & I2). destruct (forall2_nth' _ _ _ _ _ _ _ HF E) as (f & Ef & (pre & EP)). clear HF.
  exists f, pre, p. split; [exact Ef|]. split; [exact E|]. split; [exact EP|]. clear E Ef.
  destruct f as [e|e|[u|e]]; cbn [run_session] in EP;
    do 8 (try (destruct pre as [|? pre]; cbn [app] in EP; [|try discriminate EP; injection EP as <- EP]));
    subst; try discriminate EP; cbn in I1, I2 |- *; (split; intuition discriminate).
Qed.

(** The session of client [i] is still to come. *)
Definition to_come (h : harness) (i : nat) : Prop :=
  nth_error (h_threads h) i = Some None \/ exists p, nth_error (h_threads h) i = Some (Some p) /\ In Enter p.

Lemma passes_session : forall fs i f k h h', path (hstep fs) k h h' -> hinv fs h -> nth_error fs i = Some f -> In Enter (run_session f) ->
  to_come h i -> ~ to_come h' i ->
  exists k1 k2 g, k = k1 + k2 /\ path (hstep fs) k1 h g /\ path (hstep fs) k2 g h' /\ in_session g i.
Proof.
  intros fs i f k h h' P HI Ef HE. induction P as [s|n s t u HS P IH]; intros HT HN; [contradiction|].
  destruct (hinv_step _ _ _ HI HS) as [HI' _]. destruct HI as (HF & HM & _).
  assert (HD : to_come t i \/ in_session t i).
  { destruct HS as [j fj m ts b l Ej Et|j m ts b l Et|j a p m ts b l Et]; cbn [h_main h_threads] in *; unfold to_come, in_session in *; cbn [h_threads] in *.
    - pose proof (nth_lt _ _ _ _ Et) as Hj. destruct (Nat.eq_dec j i) as [->|N]; [|left; rewrite set_at_other by assumption; exact HT].
      left. right. exists (run_session fj). rewrite set_at_same by exact Hj. split; [reflexivity|congruence].
    - left. exact HT.
    - pose proof (nth_lt _ _ _ _ Et) as Hj. destruct (Nat.eq_dec j i) as [->|N]; [|left; rewrite set_at_other by assumption; exact HT].
      destruct HT as [HT|(q & Eq & HQ)]; [congruence|]. rewrite Eq in Et. injection Et as ->. rewrite set_at_same by exact Hj.
      destruct HQ as [->|HQ]; [|left; right; eauto]. right. destruct (forall2_nth' _ _ _ _ _ _ _ HF Eq) as (f' & _ & (pre & EP)).
      exists p. split; [reflexivity|]. eapply enter_shape. exact EP. }
  destruct HD as [HD|HD].
  - destruct (IH HI' HD HN) as (k1 & k2 & g & -> & P1 & P2 & HG). exists (S k1), k2, g. split; [reflexivity|]. split; [econstructor; eassumption|]. split; assumption.
  - exists 1, n, t. split; [reflexivity|]. split; [econstructor; [exact HS|constructor]|]. split; assumption.
Qed.

(** With one client the attribute says whether it is between its assignments. *)
Lemma single_flag : forall f k h, path (hstep [f]) k (hinit [f]) h -> holding [f] h 0 -> h_flag h = true.
Proof.
  intros f k h P.
  assert (G : forall k s t, path (hstep [f]) k s t -> hinv [f] s -> (holding [f] s 0 -> h_flag s = true) -> holding [f] t 0 -> h_flag t = true).
  { clear. intros k s t P. induction P as [s|n s t u HS P IH]; intros HI HQ; [exact HQ|]. destruct (hinv_step _ _ _ HI HS) as [HI' _]. apply IH; [exact HI'|].
    assert (HN : length (h_threads s) = 1) by (destruct HI as (HF & _); apply forall2_length in HF; symmetry; exact HF).
    destruct HI as (HF & _). clear IH P. destruct HS as [j fj m ts b l Ej Et|j m ts b l Et|j a p m ts b l Et]; cbn [h_threads h_flag] in *.
    - intros (r0 & q & Er & E & I1 & I2). cbn [h_threads] in E. pose proof (nth_lt _ _ _ _ Et) as Hj. replace j with 0 in * by lia. rewrite set_at_same in E by lia. injection E as <-.
      exfalso. apply I2. assert (EF : fj = Session r0) by congruence. rewrite EF. destruct r0; cbn; tauto.
    - exact HQ.
    - intros (r0 & q & Er & E & I1 & I2). cbn [h_threads] in E. pose proof (nth_lt _ _ _ _ Et) as Hj. replace j with 0 in * by lia. rewrite set_at_same in E by lia. injection E as <-.
      destruct a; cbn [act_flag]; try (apply HQ; exists r0; eexists; cbn [h_threads]; split; [exact Er|]; split; [exact Et|]; split; [right; exact I1|intros [Q|Q]; [discriminate|contradiction]]).
      destruct b0; [reflexivity|]. exfalso. destruct (forall2_nth' _ _ _ _ _ _ _ HF Et) as (f' & _ & (pre & EP)). clear - EP I1.
      destruct f' as [e|e|[v|e]]; cbn [run_session] in EP;
        do 8 (try (destruct pre as [|? pre]; cbn [app] in EP; [|try discriminate EP; injection EP as _ EP]));
        try discriminate EP; injection EP as <-; cbn in I1; tauto. }
  apply (G k _ _ P (hinit_inv _)). intros (r & q & _ & E & _). cbn in E. discriminate.
Qed.
