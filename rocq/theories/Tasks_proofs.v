(** Lemmas about tasks sharing a channel. *)
From Coq Require Import List ZArith Bool Strings.Byte Lia ZifyBool ZifyNat ZifyN Permutation.
From Verif Require Import PyBase PyBase_proofs IO IO_proofs Packets Crypto Time
  EncChannel EncUse EncChannel_proofs AppChannel AppUse AppChannel_proofs Tasks Spec.
Import ListNotations.
Open Scope Z_scope.
Open Scope m_scope.

(** ** The pieces are the calls *)
Lemma ac_write_cut : forall L TK m args last s,
  ac_write L TK m args last s =
  match ac_send L TK m args last s with
  | (s1, Ok fs) => Write fs last (fun r => Ret (s1, r))
  | (s1, Err e) => Ret (s1, Err e)
  end.
Proof.
  intros. unfold ac_write, ac_send. destruct (tk_get TK (ac_tk s)) as [t tk'].
  destruct (_ ++ ac_packets t (m :: args)) as [|p ps]; [reflexivity|].
  unfold mzoom, ec_write. change (ac_enc (AC (ac_enc s) tk' None (ac_readq s))) with (ac_enc s).
  destruct (ec_wrap_all L (ac_enc s) last (p :: ps)) as [e1 [fs|e]]; reflexivity.
Qed.

Lemma read_queue_exec : forall L TC s m q, ac_readq s = m :: q ->
  exec (ac_read L TC s) [] (Some (ac_set_readq q s, Ok m)).
Proof.
  intros L TC s m q H. unfold ac_read, mbind, mget. cbn [iobind fst snd]. rewrite H.
  cbn. constructor.
Qed.

Lemma read_answer_exec : forall L TC s a s1 r, ac_readq s = [] -> ec_pushback (ac_enc s) = [] ->
  ac_answer L TC s a = (s1, r) -> exec (ac_read L TC s) [ERead a] (Some (s1, r)).
Proof.
  intros L TC s a s1 r Hq Hp H. unfold ac_read, mbind, mget. cbn [iobind fst snd]. rewrite Hq.
  unfold mzoom, ec_read. rewrite Hp. cbn [is_empty iobind]. constructor.
  destruct a as [raw|e]; cbn [ac_answer] in H; cbn [iobind fst snd].
  - unfold ac_finish in H. destruct (ec_process L (ac_enc s) raw) as [e1 [clear|e]]; cbn [fst snd mlift iobind].
    + unfold mlift. destruct (ac_interpret TC clear) as [[d q]|e]; cbn; rewrite ?Hq in H; injection H as <- <-; constructor.
    + injection H as <- <-. constructor.
  - injection H as <- <-. destruct s. constructor.
Qed.

Lemma read_push_exec : forall L TC s s1 r, ac_readq s = [] -> ec_pushback (ac_enc s) <> [] ->
  ac_finish L TC (ac_set_enc (ec_set_pushback [] (ac_enc s)) s) (ec_pushback (ac_enc s)) = (s1, r) ->
  exec (ac_read L TC s) [] (Some (s1, r)).
Proof.
  intros L TC s s1 r Hq Hp H. unfold ac_read, mbind, mget. cbn [iobind fst snd]. rewrite Hq.
  unfold mzoom, ec_read. destruct (ec_pushback (ac_enc s)) as [|b0 bs] eqn:E; [congruence|].
  cbn [is_empty iobind]. unfold ac_finish in H.
  change (ac_enc (ac_set_enc (ec_set_pushback [] (ac_enc s)) s)) with (ec_set_pushback [] (ac_enc s)) in H.
  change (ac_readq (ac_set_enc (ec_set_pushback [] (ac_enc s)) s)) with (ac_readq s) in H. rewrite Hq in H.
  destruct (ec_process L (ec_set_pushback [] (ac_enc s)) (b0 :: bs)) as [e1 [clear|e]]; cbn [fst snd iobind].
  - unfold mlift. destruct (ac_interpret TC clear) as [[d q]|e]; cbn; injection H as <- <-; constructor.
  - injection H as <- <-. constructor.
Qed.

Lemma send_exec : forall L TK m args last s s1 fs a, ac_send L TK m args last s = (s1, Ok fs) ->
  exec (ac_write L TK m args last s) [EWrite fs last a] (Some (s1, a)).
Proof. intros L TK m args last s s1 fs a H. rewrite ac_write_cut, H. constructor. constructor. Qed.

Lemma refuse_exec : forall L TK m args last s s1 e, ac_send L TK m args last s = (s1, Err e) ->
  exec (ac_write L TK m args last s) [] (Some (s1, Err e)).
Proof. intros L TK m args last s s1 e H. rewrite ac_write_cut, H. constructor. Qed.

(** ** What each piece leaves alone *)
Lemma wrap_all_pushback : forall L msgs s last s1 x, ec_wrap_all L s last msgs = (s1, x) ->
  ec_pushback s1 = ec_pushback s.
Proof.
  intros L msgs. induction msgs as [|m r IH]; intros s last s1 x H; cbn [ec_wrap_all] in H.
  - injection H as <- _. reflexivity.
  - destruct (ec_encrypt L s m); [|injection H as <- _; reflexivity].
    destruct (ec_wrap_all L (ec_advance_write s) last r) as [s2 [fs|e]] eqn:E; apply IH in E;
      injection H as <- _; exact E.
Qed.

Lemma ac_send_keeps : forall L TK m args last s s1 x, ac_send L TK m args last s = (s1, x) ->
  ac_readq s1 = ac_readq s /\ ec_pushback (ac_enc s1) = ec_pushback (ac_enc s).
Proof.
  intros L TK m args last s s1 x H. unfold ac_send in H. destruct (tk_get TK (ac_tk s)) as [t tk'].
  destruct (_ ++ ac_packets t (m :: args)) as [|p ps]; [injection H as <- _; auto|].
  destruct (ec_wrap_all L (ac_enc s) last (p :: ps)) as [e1 [fs|e]] eqn:E; injection H as <- _;
    apply wrap_all_pushback in E; auto.
Qed.

(** ** One reader *)
Definition task_writes_only (t : task) : Prop :=
  match t with TRun p => writes_only p | TRead _ => False | TWrite r k => writes_only (k r) end.

Definition one_reading (s : ac) (ts : list task) : Prop :=
  exists j, (forall i t, nth_error ts i = Some t -> i <> j -> task_writes_only t) /\
    forall k, nth_error ts j = Some (TRead k) -> ac_readq s = [] /\ ec_pushback (ac_enc s) = [].

Lemma nth_error_upd : forall A (l r : list A) x y i,
  nth_error (l ++ x :: r) i = if Nat.eqb i (length l) then Some x else nth_error (l ++ y :: r) i.
Proof.
  intros A l r x y i. destruct (Nat.eqb_spec i (length l)) as [->|N].
  - rewrite nth_error_app2, Nat.sub_diag by lia. reflexivity.
  - destruct (Nat.lt_ge_cases i (length l)) as [H|H].
    + rewrite !nth_error_app1 by lia. reflexivity.
    + rewrite !nth_error_app2 by lia. destruct (i - length l)%nat eqn:E; [lia|]. reflexivity.
Qed.

(** The log entry of a step is one call in the sequential sense. *)
Lemma tstep_call : forall L TK TC s t o s1 t1 h s2, tstep L TK TC s t o s1 t1 ->
  (forall k, t = TRead k -> ac_readq s = [] /\ ec_pushback (ac_enc s) = []) ->
  ac_hist L TK TC s1 h s2 ->
  ac_hist L TK TC s (match o with Some c => c :: h | None => h end) s2.
Proof.
  intros L TK TC s t o s1 t1 h s2 H HR HH. destruct H.
  - change (ac_last s) with (ac_last (ac_set_readq q s)). econstructor; [|exact HH]. apply read_queue_exec. auto.
  - econstructor; [|exact HH]. apply read_push_exec; auto.
  - exact HH.
  - destruct (HR k eq_refl). econstructor; [|exact HH]. apply read_answer_exec; auto.
  - econstructor; [|exact HH]. apply refuse_exec; auto.
  - econstructor; [|exact HH]. apply send_exec; auto.
  - exact HH.
Qed.

Lemma one_reading_step : forall L TK TC s l t r o s1 t1, tstep L TK TC s t o s1 t1 ->
  one_reading s (l ++ t :: r) -> one_reading s1 (l ++ t1 :: r).
Proof.
  intros L TK TC s l t r o s1 t1 H (j & H1 & H2).
  assert (Ht : nth_error (l ++ t :: r) (length l) = Some t)
    by (rewrite nth_error_app2, Nat.sub_diag by lia; reflexivity).
  exists j. destruct (Nat.eq_dec (length l) j) as [E|N].
  - split.
    + intros i t' Hi Hn. rewrite (nth_error_upd _ _ _ _ t) in Hi.
      destruct (Nat.eqb_spec i (length l)); [congruence|]. eauto.
    + intros k Hk. subst j. rewrite nth_error_app2, Nat.sub_diag in Hk by lia. cbn in Hk.
      destruct H; try discriminate Hk. auto.
  - pose proof (H1 _ _ Ht N) as W.
    assert (K : ac_readq s1 = ac_readq s /\ ec_pushback (ac_enc s1) = ec_pushback (ac_enc s)).
    { destruct H; cbn in W; try (inversion W; fail); try contradiction; auto; eapply ac_send_keeps; eauto. }
    assert (W1 : task_writes_only t1).
    { destruct H; cbn in W; try (inversion W; fail); try contradiction; cbn; auto; inversion W; subst; auto. }
    split.
    + intros i t' Hi Hn. rewrite (nth_error_upd _ _ _ _ t) in Hi.
      destruct (Nat.eqb_spec i (length l)); [injection Hi as <-; exact W1|]. eauto.
    + intros k Hk. rewrite (nth_error_upd _ _ _ _ t) in Hk.
      destruct (Nat.eqb_spec j (length l)); [congruence|]. destruct K as [-> ->]. eauto.
Qed.

Lemma tsteps_hist : forall L TK TC s ts log s' ts', tsteps L TK TC s ts log s' ts' ->
  one_reading s ts -> ac_hist L TK TC s (calls log) s'.
Proof.
  intros L TK TC s ts log s' ts' H. induction H as [s ts|s l t r o s1 t1 log s2 ts2 H HH IH]; intro HO.
  - constructor.
  - pose proof (IH (one_reading_step _ _ _ _ _ _ _ _ _ _ H HO)) as HI.
    destruct HO as (j & H1 & H2).
    assert (Ht : nth_error (l ++ t :: r) (length l) = Some t)
      by (rewrite nth_error_app2, Nat.sub_diag by lia; reflexivity).
    assert (HR : forall k, t = TRead k -> ac_readq s = [] /\ ec_pushback (ac_enc s) = []).
    { intros k ->. destruct (Nat.eq_dec (length l) j) as [<-|N]; [eauto|]. destruct (H1 _ _ Ht N). }
    pose proof (tstep_call _ _ _ _ _ _ _ _ _ _ H HR HI) as HC. destruct o; exact HC.
Qed.

(** ** Programs get the results in the log *)
Lemma calls_of_cons : forall i j c log,
  calls_of i ((j, c) :: log) = if Nat.eqb j i then c :: calls_of i log else calls_of i log.
Proof. intros. unfold calls_of. cbn [filter fst]. destruct (Nat.eqb j i); reflexivity. Qed.

Lemma tsteps_length : forall L TK TC s ts log s' ts', tsteps L TK TC s ts log s' ts' ->
  length ts' = length ts.
Proof.
  intros L TK TC s ts log s' ts' H. induction H; auto. rewrite IHtsteps, !app_length. reflexivity.
Qed.

Lemma tsteps_follow : forall L TK TC s ts log s' ts', tsteps L TK TC s ts log s' ts' ->
  forall i t t', nth_error ts i = Some t -> nth_error ts' i = Some t' ->
  follows (rest_of t) (calls_of i log) (rest_of t').
Proof.
  intros L TK TC s ts log s' ts' H. induction H as [s ts|s l t r o s1 t1 log s2 ts2 H HH IH]; intros i u u' Hu Hu'.
  - rewrite Hu in Hu'. injection Hu' as <-. constructor.
  - rewrite (nth_error_upd _ _ _ _ t1) in Hu. destruct (Nat.eqb_spec i (length l)) as [->|N].
    + injection Hu as <-.
      assert (F : follows (rest_of t1) (calls_of (length l) log) (rest_of u')).
      { apply IH; [|exact Hu']. rewrite nth_error_app2, Nat.sub_diag by lia. reflexivity. }
      destruct H; cbn [rest_of] in *; rewrite ?calls_of_cons, ?Nat.eqb_refl; try (constructor; exact F); exact F.
    + pose proof (IH _ _ _ Hu Hu') as F. destruct o as [c|]; [|exact F].
      rewrite calls_of_cons. destruct (Nat.eqb_spec (length l) i); [congruence|]. exact F.
Qed.

(** ** Several readers: the calls on the encrypted channel below *)
Lemma ec_answer_exec : forall L e a, ec_pushback e = [] ->
  exec (ec_read L e) [ERead a]
       (Some (match a with Ok raw => ec_process L e raw | Err x => (e, Err x) end)).
Proof.
  intros L e a H. unfold ec_read. rewrite H. cbn [is_empty]. constructor. destruct a; constructor.
Qed.

Lemma ec_answer_pushback : forall L e a e1 r, ec_pushback e = [] ->
  match a with Ok raw => ec_process L e raw | Err x => (e, Err x) end = (e1, r) -> ec_pushback e1 = [].
Proof.
  intros L e a e1 r H HA. pose proof (ec_answer_exec L e a H) as HX. rewrite HA in HX.
  apply ec_read_call in HX; tauto.
Qed.

Lemma perm_shift : forall A (m : A) g q x y,
  Permutation (g ++ q) (x ++ y) -> Permutation (m :: g ++ q) (x ++ m :: y).
Proof. intros. apply Permutation_cons_app. assumption. Qed.

Lemma tsteps_enc : forall L TK TC s ts log s' ts', tsteps L TK TC s ts log s' ts' ->
  ec_pushback (ac_enc s) = [] -> ac_buffered_m4 s = None ->
  exists eh, ec_hist L (ac_enc s) eh (ac_enc s') /\ ec_pushback (ac_enc s') = [] /\
    frames_out eh = frames_out (calls log) /\ frames_in eh = frames_in (calls log) /\
    sent_msgs eh = clear_texts TK (ac_tk s) None (calls log) /\
    forall mss, Forall2 (decodes TC) (map fst (got_msgs eh)) mss ->
      Permutation (map fst (got_msgs (calls log)) ++ ac_readq s') (ac_readq s ++ concat mss) /\
      (length (got_msgs eh) = length (frames_in eh) ->
       forall t e l, In (EcRead t (Err e) l) (calls log) -> t = [ERead (Err e)]).
Proof.
  intros L TK TC s ts log s' ts' H.
  induction H as [s ts|s l t r o s1 t1 log s2 ts2 H HH IH]; intros Hp Hm.
  - exists []. split; [constructor|]. repeat (split; [assumption || reflexivity|]).
    intros mss HF. inversion HF; subst. cbn [calls map got_msgs concat app]. rewrite app_nil_r.
    split; [apply Permutation_refl|]. intros _ t e l [].
  - destruct H as [s k m q Hq|s k s1 r0 Hq Hpn _|s k Hq _|s k a s1 r0 HA|s m args last k s1 e HS|s m args last k s1 fs a HS|s a k].
    + destruct (IH Hp Hm) as (eh & E1 & E2 & E3 & E4 & E5 & E6). exists eh.
      cbn [calls map snd]. rewrite frames_out_cons, frames_in_cons.
      cbn [call_events map concat app clear_texts ac_enc ac_set_readq ac_tk ac_readq] in *.
      repeat (split; [assumption|]). intros mss HF. destruct (E6 mss HF) as [E7 E8]. split.
      * rewrite got_cons, Hq. cbn [call_got app map fst]. apply perm_skip. exact E7.
      * intros Hl t e l' [Hin|Hin]; [discriminate|]. eapply E8; eauto.
    + congruence.
    + exact (IH Hp Hm).
    + destruct (match a with Ok raw => ec_process L (ac_enc s) raw | Err x => (ac_enc s, Err x) end) as [e1 er] eqn:EE.
      assert (HS1 : ac_enc s1 = e1 /\ ac_tk s1 = ac_tk s /\ ac_buffered_m4 s1 = ac_buffered_m4 s /\
        match er with
        | Err e => r0 = Err e /\ ac_readq s1 = ac_readq s
        | Ok raw => match ac_interpret TC raw with
                    | Err e => r0 = Err e /\ ac_readq s1 = ac_readq s
                    | Ok (d, q) => r0 = Ok d /\ ac_readq s1 = ac_readq s ++ q
                    end
        end).
      { destruct a as [raw|x]; cbn [ac_answer] in HA.
        - unfold ac_finish in HA. rewrite EE in HA. destruct er as [c|e].
          + destruct (ac_interpret TC c) as [[d q]|e]; injection HA as <- <-; auto.
          + injection HA as <- <-; auto.
        - injection EE as <- <-. injection HA as <- <-. auto. }
      destruct HS1 as (A1 & A2 & A3 & A4).
      pose proof (ec_answer_pushback _ _ _ _ _ Hp EE) as Hp1.
      destruct IH as (eh & E1 & E2 & E3 & E4 & E5 & E6); [congruence|congruence|].
      rewrite A1 in E1. exists (EcRead [ERead a] er (ec_last_flag e1) :: eh).
      split. { econstructor; [|exact E1]. rewrite <- EE. apply ec_answer_exec. exact Hp. }
      split; [exact E2|]. cbn [calls map snd]. rewrite !frames_out_cons, !frames_in_cons.
      fold (calls log). rewrite E3, E4. split; [reflexivity|]. split; [reflexivity|].
      split. { unfold sent_msgs. cbn [map call_sent concat app clear_texts]. fold (sent_msgs eh). rewrite E5, A2. reflexivity. }
      intros mss HF. rewrite got_cons in *.
      pose proof (got_le_frames _ _ _ _ E1 Hp1) as Hle. rewrite E4 in Hle.
      destruct er as [raw|e].
      * cbn [call_got app map fst] in HF. inversion HF as [|x ms l0 ls (d & q & Hi & ->) HF' Hx]; subst.
        rewrite Hi in A4. destruct A4 as [-> A4]. destruct (E6 ls HF') as [E7 E8]. split.
        -- cbn [call_got app map fst concat]. rewrite A4, <- app_assoc in E7. apply perm_shift. exact E7.
        -- intros Hl t e l' [Hin|Hin]; [discriminate|]. eapply E8; eauto.
           destruct a as [f|x]; [|discriminate EE].
           cbn [call_events call_got app length map concat ev_in] in Hl. rewrite E4. apply eq_add_S in Hl. exact Hl.
      * destruct A4 as [-> A4]. cbn [call_got app map] in *. destruct (E6 mss HF) as [E7 E8]. split.
        -- rewrite A4 in E7. exact E7.
        -- intros Hl t e' l' Hin. destruct a as [f|x].
           ++ exfalso. change (length (got_msgs eh) = S (length (frames_in (calls log)))) in Hl. lia.
           ++ injection EE as <- <-. destruct Hin as [Hin|Hin]; [injection Hin as <- <- <-; reflexivity|].
              eapply E8; eauto. cbn [call_events map concat ev_in app length] in Hl. rewrite E4. exact Hl.
    + pose proof (refuse_exec _ _ _ _ _ _ _ _ HS) as HX. apply ac_write_exec in HX.
      destruct HX as (p & ps & e1 & HP & HE & ->). cbn [ac_enc ac_readq ac_tk ac_buffered_m4] in *.
      pose proof HE as HE0. apply ec_write_state in HE0. destruct HE0 as (_ & _ & _ & Hp1 & _).
      destruct IH as (eh & E1 & E2 & E3 & E4 & E5 & E6); [congruence|reflexivity|].
      exists (EcWrite p ps last [] (Err e) :: eh).
      split; [econstructor; eauto|]. split; [exact E2|]. cbn [calls map snd]. rewrite !frames_out_cons, !frames_in_cons.
      fold (calls log). rewrite E3, E4. split; [reflexivity|]. split; [reflexivity|].
      split. { unfold sent_msgs. cbn [map call_sent concat app clear_texts is_empty]. fold (sent_msgs eh).
               destruct (tk_get TK (ac_tk s)). cbn [snd] in E5. rewrite E5. reflexivity. }
      intros mss HF. destruct (E6 mss HF) as [E7 E8]. split; [exact E7|].
      intros Hl t e' l' [Hin|Hin]; [discriminate|]. eapply E8; eauto. rewrite E4. exact Hl.
    + pose proof (send_exec _ _ _ _ _ _ _ _ a HS) as HX. apply ac_write_exec in HX.
      destruct HX as (p & ps & e1 & HP & HE & ->). cbn [ac_enc ac_readq ac_tk ac_buffered_m4] in *.
      pose proof HE as HE0. apply ec_write_state in HE0. destruct HE0 as (_ & _ & _ & Hp1 & _).
      destruct IH as (eh & E1 & E2 & E3 & E4 & E5 & E6); [congruence|reflexivity|].
      exists (EcWrite p ps last [EWrite fs last a] a :: eh).
      split; [econstructor; eauto|]. split; [exact E2|]. cbn [calls map snd]. rewrite !frames_out_cons, !frames_in_cons.
      fold (calls log). rewrite E3, E4. split; [reflexivity|]. split; [reflexivity|].
      split. { unfold sent_msgs. cbn [map call_sent concat clear_texts is_empty]. fold (sent_msgs eh).
               rewrite Hm in HP. cbn [app] in HP. rewrite HP.
               destruct (tk_get TK (ac_tk s)). cbn [fst snd app] in *. rewrite E5. reflexivity. }
      intros mss HF. destruct (E6 mss HF) as [E7 E8]. split; [exact E7|].
      intros Hl t e' l' [Hin|Hin]; [discriminate|]. eapply E8; eauto. rewrite E4. exact Hl.
    + exact (IH Hp Hm).
Qed.

(** ** Runs of the scheduler are executions *)
Lemma tdo_step : forall L TK TC s t rd wr o s1 t1,
  tdo L TK TC s t rd wr = Some (o, s1, t1) -> tstep L TK TC s t o s1 t1.
Proof.
  intros L TK TC s t rd wr o s1 t1 H. destruct t as [[|k|m args last k]|k|a k]; cbn [tdo] in H.
  - discriminate.
  - destruct (ac_readq s) as [|m q] eqn:E.
    + destruct (is_empty (ec_pushback (ac_enc s))) eqn:P; [|discriminate]. injection H as <- <- <-.
      apply st_wait; [exact E|]. apply is_empty_true. exact P.
    + injection H as <- <- <-. apply st_queue. exact E.
  - destruct (ac_send L TK m args last s) as [s2 [fs|e]] eqn:E; injection H as <- <- <-.
    + apply st_send. exact E.
    + apply st_refuse. exact E.
  - destruct (ac_answer L TC s rd) as [s2 r] eqn:E. injection H as <- <- <-. apply st_answer. exact E.
  - injection H as <- <- <-. apply st_sent.
Qed.

Lemma trun_steps : forall L TK TC sch s ts log s' ts',
  trun L TK TC s ts sch = (log, s', ts') -> tsteps L TK TC s ts log s' ts'.
Proof.
  intros L TK TC sch. induction sch as [|[[i rd] wr] sch IH]; intros s ts log s' ts' H; cbn [trun] in H.
  - injection H as <- <- <-. constructor.
  - destruct (nth_error ts i) as [t|] eqn:E; [|injection H as <- <- <-; constructor].
    destruct (tdo L TK TC s t rd wr) as [[[o s1] t1]|] eqn:D; [|injection H as <- <- <-; constructor].
    destruct (trun L TK TC s1 (firstn i ts ++ t1 :: skipn (S i) ts) sch) as [[log2 s2] ts2] eqn:R.
    injection H as <- <- <-. apply IH in R. apply tdo_step in D.
    assert (Hi : (i < length ts)%nat) by (apply nth_error_Some; congruence).
    assert (HS : ts = firstn i ts ++ t :: skipn (S i) ts).
    { clear - E. revert ts E. induction i as [|i IH]; intros [|a ts] E; try discriminate; cbn in *.
      - injection E as ->. reflexivity.
      - f_equal. apply IH. exact E. }
    assert (HL : length (firstn i ts) = i) by (apply firstn_length_le; lia).
    pose proof (ts_step _ _ _ _ _ _ _ _ _ _ _ _ _ D R) as Q. rewrite <- HS, HL in Q. exact Q.
Qed.
