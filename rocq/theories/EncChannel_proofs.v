(** Lemmas about the encrypted channel. *)
From Coq Require Import List ZArith Bool Strings.Byte Lia ZifyBool ZifyNat ZifyN.
From Verif Require Import PyBase PyBase_proofs IO Packets Packets_proofs Crypto EncChannel EncUse Spec.
Import ListNotations.
Open Scope Z_scope.
Ltac Zify.zify_post_hook ::= Z.div_mod_to_equations.

(** ** Executions of single calls *)
Lemma exec_ret : forall A (a : A) t o, exec (Ret a) t (Some o) -> t = [] /\ o = a.
Proof. intros A a t o H. inversion H; subst; auto. Qed.

Lemma ec_write_exec : forall L m args last s t s1 r,
  exec (ec_write L m args last s) t (Some (s1, r)) ->
  (t = [] /\ exists e, ec_wrap_all L s last (m :: args) = (s1, Err e) /\ r = Err e) \/
  (exists fs, t = [EWrite fs last r] /\ ec_wrap_all L s last (m :: args) = (s1, Ok fs)).
Proof.
  intros L m args last s t s1 r H. unfold ec_write in H.
  destruct (ec_wrap_all L s last (m :: args)) as [s' [fs|e]].
  - right. unfold mwrite in H. inversion H; subst.
    match goal with H : exec (Ret _) _ _ |- _ => apply exec_ret in H; destruct H as [-> H] end.
    match goal with H : (_, _) = (_, _) |- _ => injection H as -> -> end. eauto.
  - left. apply exec_ret in H. destruct H as [-> H]. injection H as -> ->. split; eauto.
Qed.

Lemma ec_read_exec : forall L s t s1 r,
  exec (ec_read L s) t (Some (s1, r)) ->
  (ec_pushback s = [] /\
    ((exists f, t = [ERead (Ok f)] /\ ec_process L s f = (s1, r)) \/
     (exists e, t = [ERead (Err e)] /\ s1 = s /\ r = Err e))) \/
  (ec_pushback s <> [] /\ t = [] /\ ec_process L (ec_set_pushback [] s) (ec_pushback s) = (s1, r)).
Proof.
  intros L s t s1 r H. unfold ec_read in H.
  destruct (is_empty (ec_pushback s)) eqn:E.
  - left. apply is_empty_true in E. split; auto. inversion H as [| |k r0 t0 o HE|]; subst.
    destruct r0 as [f|e].
    + apply exec_ret in HE. destruct HE as [-> HE]. left. eauto.
    + apply exec_ret in HE. destruct HE as [-> HE]. injection HE as -> ->. right. eauto.
  - right. apply is_empty_false in E. split; auto. apply exec_ret in H. destruct H as [-> H]. auto.
Qed.

(** ** Nonces *)
Lemma nonce_bytes_ok : forall n sn, 0 <= n < 2 ^ 64 -> nonce_bytes n sn = Ok (nonce24 n sn).
Proof.
  intros n sn H. unfold nonce_bytes. assert ((0 <=? n) && (n <? 2 ^ 64) = true) as -> by lia.
  rewrite le_enc_u64. reflexivity.
Qed.

Lemma nonce_bytes_inv : forall n sn b, nonce_bytes n sn = Ok b -> 0 <= n < 2 ^ 64 /\ b = nonce24 n sn.
Proof.
  intros n sn b H. unfold nonce_bytes in H. destruct ((0 <=? n) && (n <? 2 ^ 64)) eqn:E; [|discriminate].
  split; [lia|].
  assert (HB : le_enc 8 n ++ sn ++ zeros 8 = b) by congruence.
  rewrite <- HB, le_enc_u64. reflexivity.
Qed.

Lemma nonce_bytes_over : forall n sn, 2 ^ 64 <= n -> nonce_bytes n sn = Err OverflowError.
Proof.
  intros n sn H. unfold nonce_bytes. assert ((0 <=? n) && (n <? 2 ^ 64) = false) as -> by lia. reflexivity.
Qed.

Lemma nonce24_length : forall n sn, length sn = 8%nat -> length (nonce24 n sn) = 24%nat.
Proof. intros n sn H. unfold nonce24. rewrite !app_length, H. reflexivity. Qed.

Lemma ec_wrap_enc : forall c fl, ec_wrap c fl = Enc_wire fl c.
Proof. intros. unfold ec_wrap. apply ec_wrap_wire. Qed.

(** A frame holding message and flag [x] sealed under counter [n]. *)
Definition sealed (L : lib) (key sn : bytes) (n : Z) (x : bytes * bool) (f : bytes) : Prop :=
  0 <= n < 2 ^ 64 /\
  exists c, l_afternm L (fst x) (nonce24 n sn) key = Ok c /\ f = Enc_wire (snd x) c.

(** The counters w, w+2, ... *)
Fixpoint counters (w : Z) (k : nat) : list Z :=
  match k with O => [] | S k' => w :: counters (w + 2) k' end.

Lemma counters_length : forall k w, length (counters w k) = k.
Proof. induction k; intros; cbn; auto. Qed.

Lemma counters_app : forall a b w, counters w (a + b) = counters w a ++ counters (w + 2 * Z.of_nat a) b.
Proof.
  induction a as [|a IH]; intros b w; cbn [counters Nat.add app].
  - f_equal; lia.
  - f_equal. rewrite IH. f_equal. f_equal. lia.
Qed.

Lemma counters_in : forall k w n, In n (counters w k) <->
  exists i, 0 <= i < Z.of_nat k /\ n = w + 2 * i.
Proof.
  induction k as [|k IH]; intros w n; cbn [counters In].
  - split; [tauto|]. intros (i & H & _). lia.
  - rewrite IH. split.
    + intros [<-|(i & H & ->)]; [exists 0; lia|exists (i + 1); lia].
    + intros (i & H & ->). destruct (Z.eq_dec i 0) as [->|]; [left; lia|].
      right. exists (i - 1). lia.
Qed.

Lemma counters_nth : forall k w i, (i < k)%nat -> nth_error (counters w k) i = Some (w + 2 * Z.of_nat i).
Proof.
  induction k as [|k IH]; intros w i Hi; [lia|]. destruct i as [|i]; cbn [counters nth_error].
  - f_equal. lia.
  - rewrite IH by lia. f_equal. lia.
Qed.

Lemma mark_cons : forall last m a r, mark last (m :: a :: r) = (m, false) :: mark last (a :: r).
Proof. reflexivity. Qed.

Lemma mark_length : forall last l, length (mark last l) = length l.
Proof. induction l as [|m [|a r] IH]; auto. rewrite mark_cons. cbn [length]. f_equal. exact IH. Qed.

Lemma mark_fst : forall last l, map fst (mark last l) = l.
Proof. induction l as [|m [|a r] IH]; auto. rewrite mark_cons. cbn [map fst]. f_equal. exact IH. Qed.

Fixpoint sealed_all (L : lib) (key sn : bytes) (w : Z) (xs : list (bytes * bool)) (fs : list bytes) : Prop :=
  match xs, fs with
  | [], [] => True
  | x :: xs', f :: fs' => sealed L key sn w x f /\ sealed_all L key sn (w + 2) xs' fs'
  | _, _ => False
  end.

Lemma sealed_all_app : forall L key sn xs1 fs1 w xs2 fs2,
  sealed_all L key sn w xs1 fs1 ->
  sealed_all L key sn (w + 2 * Z.of_nat (length xs1)) xs2 fs2 ->
  sealed_all L key sn w (xs1 ++ xs2) (fs1 ++ fs2).
Proof.
  induction xs1 as [|x xs1 IH]; intros [|f fs1] w xs2 fs2 H1 H2; cbn [sealed_all] in H1; try tauto.
  - cbn [length] in H2. replace (w + 2 * Z.of_nat 0) with w in H2 by lia. exact H2.
  - destruct H1 as [H0 H1]. cbn [app sealed_all]. split; auto. apply IH; auto.
    cbn [length] in H2. replace (w + 2 + 2 * Z.of_nat (length xs1)) with (w + 2 * Z.of_nat (S (length xs1))) by lia. exact H2.
Qed.

Lemma sealed_all_length : forall L key sn xs w fs, sealed_all L key sn w xs fs -> length fs = length xs.
Proof.
  induction xs as [|x xs IH]; intros w [|f fs] H; cbn [sealed_all] in H; try tauto.
  destruct H as [_ H]. cbn [length]. f_equal. eauto.
Qed.

Lemma sealed_all_nth : forall L key sn xs w fs i x f, sealed_all L key sn w xs fs ->
  nth_error xs i = Some x -> nth_error fs i = Some f -> sealed L key sn (w + 2 * Z.of_nat i) x f.
Proof.
  induction xs as [|y xs IH]; intros w [|g fs] i x f H Hx Hf; cbn [sealed_all] in H; try tauto.
  - destruct i; discriminate.
  - destruct H as [H0 H]. destruct i as [|i]; cbn [nth_error] in *.
    + injection Hx as <-. injection Hf as <-. replace (w + 2 * Z.of_nat 0) with w by lia. exact H0.
    + replace (w + 2 * Z.of_nat (S i)) with (w + 2 + 2 * Z.of_nat i) by lia. eapply IH; eauto.
Qed.

Ltac ecs := cbn [ec_key ec_pushback ec_last_flag ec_read_nonce ec_write_nonce ec_session_nonce
  ec_advance_write ec_advance_read ec_set_last_flag ec_set_pushback length] in *.

(** ** Writing *)
Lemma wrap_all_ok : forall L last msgs s s1 fs,
  ec_wrap_all L s last msgs = (s1, Ok fs) ->
  sealed_all L (ec_key s) (ec_session_nonce s) (ec_write_nonce s) (mark last msgs) fs /\
  s1 = EC (ec_key s) (ec_pushback s) (ec_last_flag s) (ec_read_nonce s)
          (ec_write_nonce s + 2 * Z.of_nat (length msgs)) (ec_session_nonce s).
Proof.
  intros L last. induction msgs as [|m r IH]; intros s s1 fs H; cbn [ec_wrap_all] in H.
  - injection H as <- <-. split; [exact I|]. destruct s; ecs. f_equal. lia.
  - destruct (ec_encrypt L s m) as [c|e] eqn:EE; [|discriminate].
    destruct (ec_wrap_all L (ec_advance_write s) last r) as [s' [fs'|e]] eqn:EW; [|discriminate].
    injection H as <- <-. apply IH in EW. destruct EW as [HS ->].
    unfold ec_encrypt in EE. destruct (nonce_bytes (ec_write_nonce s) (ec_session_nonce s)) as [n|e] eqn:EN; [|discriminate].
    apply nonce_bytes_inv in EN. destruct EN as [HR ->].
    cbn [ec_advance_write ec_key ec_session_nonce ec_write_nonce ec_pushback ec_last_flag ec_read_nonce] in *.
    split.
    + rewrite ec_wrap_enc. destruct r as [|a r].
      * cbn [mark sealed_all] in *. destruct fs'; [|tauto]. split; auto.
        split; auto. exists c. rewrite andb_true_r. auto.
      * rewrite mark_cons. cbn [sealed_all is_empty]. rewrite andb_false_r. split; auto.
        split; auto. exists c. auto.
    + destruct s; ecs. f_equal. lia.
Qed.

Lemma wrap_all_err : forall L last msgs s s1 e,
  ec_wrap_all L s last msgs = (s1, Err e) ->
  exists i, (i < length msgs)%nat /\
    s1 = EC (ec_key s) (ec_pushback s) (ec_last_flag s) (ec_read_nonce s)
            (ec_write_nonce s + 2 * Z.of_nat i) (ec_session_nonce s) /\
    exists m, nth_error msgs i = Some m /\ ec_encrypt L s1 m = Err e.
Proof.
  intros L last. induction msgs as [|m r IH]; intros s s1 e H; cbn [ec_wrap_all] in H; [discriminate|].
  destruct (ec_encrypt L s m) as [c|e'] eqn:EE.
  - destruct (ec_wrap_all L (ec_advance_write s) last r) as [s' [fs'|e']] eqn:EW; [discriminate|].
    injection H as <- <-. apply IH in EW. destruct EW as (i & Hi & -> & m' & Hm & He).
    exists (S i). cbn [length]. split; [lia|]. split.
    + destruct s; ecs. f_equal. lia.
    + exists m'. split; auto.
  - injection H as <- <-. exists 0%nat. cbn [length]. split; [lia|]. split.
    + destruct s; ecs. f_equal. lia.
    + exists m. auto.
Qed.

(** Encryption with a working library fails only when the counter is exhausted. *)
Lemma ec_encrypt_total : forall L sp ep s m, nacl_laws L sp ep ->
  length (ec_key s) = 32%nat -> length (ec_session_nonce s) = 8%nat -> 0 <= ec_write_nonce s ->
  (ec_write_nonce s < 2 ^ 64 /\ exists c, ec_encrypt L s m = Ok c) \/
  (2 ^ 64 <= ec_write_nonce s /\ ec_encrypt L s m = Err OverflowError).
Proof.
  intros L sp ep s m HL Hk Hs Hw. unfold ec_encrypt.
  destruct (Z.lt_ge_cases (ec_write_nonce s) (2 ^ 64)) as [H|H].
  - left. split; auto. rewrite nonce_bytes_ok by lia.
    destruct (law_box _ _ _ HL m (nonce24 (ec_write_nonce s) (ec_session_nonce s)) (ec_key s)) as (c & Hc & _); auto.
    { apply nonce24_length; auto. }
    exists c. exact Hc.
  - right. split; auto. rewrite nonce_bytes_over by auto. reflexivity.
Qed.

(** ** Reading *)
Lemma flag_bit7 : forall t fl o, ep_last_flag (Pkt [t; fl] o) = bit fl 7.
Proof.
  intros. unfold ep_last_flag, fget_bit, bit, fget_int, fget. f_equal.
  change (le_dec [fl] = val fl). cbn [le_dec]. change (val fl) with (b2z fl). lia.
Qed.

Lemma ec_process_inv : forall L s f s1 m, ec_process L s f = (s1, Ok m) ->
  exists t fl body, f = t :: fl :: body /\ b2z t = 6 /\ (16 <= length body)%nat /\
    0 <= ec_read_nonce s < 2 ^ 64 /\
    l_open_afternm L body (nonce24 (ec_read_nonce s) (ec_session_nonce s)) (ec_key s) = Ok m /\
    s1 = EC (ec_key s) (ec_pushback s) (bit fl 7) (ec_read_nonce s + 2) (ec_write_nonce s) (ec_session_nonce s).
Proof.
  intros L s f s1 m H. unfold ec_process, ec_unwrap in H.
  destruct f as [|t [|fl body]].
  - discriminate.
  - rewrite ep_ctor_short in H. discriminate.
  - rewrite ep_ctor_spec in H.
    destruct ((b2z t =? 6) && (16 <=? zlen body)) eqn:E; [|discriminate].
    cbn [ep_body p_opt opt_field] in H. unfold ec_decrypt in H. cbn [ec_set_last_flag ec_read_nonce ec_session_nonce ec_key] in H.
    destruct (nonce_bytes (ec_read_nonce s) (ec_session_nonce s)) as [n|e] eqn:EN; [|discriminate].
    apply nonce_bytes_inv in EN. destruct EN as [HR ->].
    destruct (l_open_afternm L body _ (ec_key s)) as [m'|e] eqn:EO; [|destruct e; discriminate].
    injection H as <- <-. exists t, fl, body. unfold zlen in E.
    split; [auto|]. split; [lia|]. split; [lia|]. split; [lia|]. split; [exact EO|].
    rewrite <- (flag_bit7 t fl (Some body)). reflexivity.
Qed.

Lemma ec_process_err : forall L s f s1 e, ec_process L s f = (s1, Err e) ->
  ec_key s1 = ec_key s /\ ec_pushback s1 = ec_pushback s /\ ec_read_nonce s1 = ec_read_nonce s /\
  ec_write_nonce s1 = ec_write_nonce s /\ ec_session_nonce s1 = ec_session_nonce s.
Proof.
  intros L s f s1 e H. unfold ec_process, ec_unwrap in H.
  destruct (ep_ctor f) as [p|e0].
  - destruct (ep_body p) as [b|e1].
    + destruct (ec_decrypt L _ b); [discriminate|]. injection H as <- <-. repeat split.
    + injection H as <- <-. repeat split.
  - injection H as <- <-. repeat split.
Qed.

Lemma ec_process_ok : forall L s t fl body m,
  b2z t = 6 -> (16 <= length body)%nat -> 0 <= ec_read_nonce s < 2 ^ 64 ->
  l_open_afternm L body (nonce24 (ec_read_nonce s) (ec_session_nonce s)) (ec_key s) = Ok m ->
  ec_process L s (t :: fl :: body) =
   (EC (ec_key s) (ec_pushback s) (bit fl 7) (ec_read_nonce s + 2) (ec_write_nonce s) (ec_session_nonce s), Ok m).
Proof.
  intros L s t fl body m Ht Hb Hn Ho. unfold ec_process, ec_unwrap. rewrite ep_ctor_spec.
  assert ((b2z t =? 6) && (16 <=? zlen body) = true) as -> by (unfold zlen; lia).
  cbn [ep_body p_opt opt_field]. unfold ec_decrypt. cbn [ec_set_last_flag ec_read_nonce ec_session_nonce ec_key].
  rewrite nonce_bytes_ok by auto. rewrite Ho, flag_bit7. reflexivity.
Qed.

Lemma bit7_flag : forall fl : bool, bit (if fl then x80 else x00) 7 = fl.
Proof. destruct fl; reflexivity. Qed.

(** Reading a sealed frame. *)
Lemma ec_process_sealed : forall L sp ep s x f, nacl_laws L sp ep ->
  length (ec_key s) = 32%nat -> length (ec_session_nonce s) = 8%nat ->
  sealed L (ec_key s) (ec_session_nonce s) (ec_read_nonce s) x f ->
  ec_process L s f =
   (EC (ec_key s) (ec_pushback s) (snd x) (ec_read_nonce s + 2) (ec_write_nonce s) (ec_session_nonce s), Ok (fst x)).
Proof.
  intros L sp ep s [m fl] f HL Hk Hs (Hn & c & Hc & ->). cbn [fst snd] in *.
  destruct (law_box _ _ _ HL m (nonce24 (ec_read_nonce s) (ec_session_nonce s)) (ec_key s)) as (c' & H1 & H2 & H3); auto.
  { apply nonce24_length; auto. }
  rewrite Hc in H1. injection H1 as <-. unfold Enc_wire. cbn [app].
  rewrite (ec_process_ok L s x06 _ c m); auto; [|lia].
  rewrite bit7_flag. reflexivity.
Qed.

(** ** Histories: the writing side *)
Lemma ev_out_read : forall r, ev_out (ERead r) = [].
Proof. reflexivity. Qed.

Lemma frames_out_cons : forall c h, frames_out (c :: h) = concat (map ev_out (call_events c)) ++ frames_out h.
Proof. intros. unfold frames_out, events. cbn [map concat]. rewrite map_app, concat_app. reflexivity. Qed.
Lemma frames_in_cons : forall c h, frames_in (c :: h) = concat (map ev_in (call_events c)) ++ frames_in h.
Proof. intros. unfold frames_in, events. cbn [map concat]. rewrite map_app, concat_app. reflexivity. Qed.

(** What a read call does to the state. *)
Lemma ec_read_state : forall L s t s1 r, exec (ec_read L s) t (Some (s1, r)) ->
  ec_key s1 = ec_key s /\ ec_session_nonce s1 = ec_session_nonce s /\ ec_write_nonce s1 = ec_write_nonce s /\
  concat (map ev_out t) = [].
Proof.
  intros L s t s1 r H. apply ec_read_exec in H.
  destruct H as [[_ [(f & -> & H)|(e & -> & -> & ->)]]|(_ & -> & H)].
  - destruct r as [m|e].
    + apply ec_process_inv in H. destruct H as (? & ? & ? & _ & _ & _ & _ & _ & ->). repeat split.
    + apply ec_process_err in H. destruct H as (? & ? & ? & ? & ?). auto.
  - auto.
  - destruct r as [m|e].
    + apply ec_process_inv in H. destruct H as (? & ? & ? & _ & _ & _ & _ & _ & ->). repeat split.
    + apply ec_process_err in H. destruct H as (? & ? & ? & ? & ?). auto.
Qed.

(** Counters used by the frames written in a history, for any library. *)
Lemma hist_counters : forall L s h s', ec_hist L s h s' ->
  exists ns, length ns = length (frames_out h) /\ length (sent_msgs h) = length (frames_out h) /\
    (forall i n x f, nth_error ns i = Some n -> nth_error (sent_msgs h) i = Some x ->
        nth_error (frames_out h) i = Some f -> sealed L (ec_key s) (ec_session_nonce s) n x f) /\
    (forall i j a b, (i < j)%nat -> nth_error ns i = Some a -> nth_error ns j = Some b -> a < b) /\
    (forall n, In n ns -> ec_write_nonce s <= n < ec_write_nonce s' /\ (n - ec_write_nonce s) mod 2 = 0) /\
    ec_write_nonce s <= ec_write_nonce s' /\ (ec_write_nonce s' - ec_write_nonce s) mod 2 = 0.
Proof.
  intros L s h s' H. induction H as [s|s t s1 r h s2 HX HH IH|s m args last t s1 r h s2 HX HH IH].
  - exists []. split; [reflexivity|]. split; [reflexivity|].
    split; [intros i n x f HN; destruct i; discriminate|].
    split; [intros i j a b _ HN; destruct i; discriminate|].
    split; [intros n []|]. lia.
  - apply ec_read_state in HX. destruct HX as (Hk & Hs & Hw & Ho).
    destruct IH as (ns & H1 & H2 & H3 & H4 & H5 & H6). rewrite Hk, Hs, Hw in *.
    exists ns. rewrite frames_out_cons. cbn [call_events]. rewrite Ho. cbn [app].
    unfold sent_msgs. cbn [map call_sent concat app]. auto 10.
  - destruct IH as (ns & H1 & H2 & H3 & H4 & H5 & H6). rewrite frames_out_cons. cbn [call_events].
    unfold sent_msgs. cbn [map concat]. fold (sent_msgs h).
    apply ec_write_exec in HX. destruct HX as [(-> & e & HW & ->)|(fs & -> & HW)].
    + apply wrap_all_err in HW. destruct HW as (i & _ & -> & _).
      cbn [ec_key ec_session_nonce ec_write_nonce] in *.
      exists ns. cbn [map concat app call_sent].
      split; [exact H1|]. split; [exact H2|]. split; [exact H3|]. split; [exact H4|].
      split; [|lia]. intros n Hn. apply H5 in Hn. lia.
    + apply wrap_all_ok in HW. destruct HW as [HS ->].
      cbn [ec_key ec_session_nonce ec_write_nonce] in *.
      cbn [call_sent map concat ev_out]. rewrite app_nil_r.
      pose proof (sealed_all_length _ _ _ _ _ _ HS) as HLf.
      set (w := ec_write_nonce s) in *. set (k := length (m :: args)) in *.
      assert (Hmk : length (mark last (m :: args)) = k) by apply mark_length.
      exists (counters w k ++ ns).
      split; [rewrite !app_length, counters_length; lia|].
      split; [rewrite !app_length; lia|]. split.
      { intros i n x f Hn Hx Hf.
        destruct (Nat.lt_ge_cases i k) as [Hi|Hi].
        - rewrite nth_error_app1 in Hn by (rewrite counters_length; auto).
          rewrite nth_error_app1 in Hx by lia. rewrite nth_error_app1 in Hf by lia.
          rewrite counters_nth in Hn by auto. assert (n = w + 2 * Z.of_nat i) as -> by congruence.
          eapply sealed_all_nth; eauto.
        - rewrite nth_error_app2 in Hn by (rewrite counters_length; auto).
          rewrite nth_error_app2 in Hx by lia. rewrite nth_error_app2 in Hf by lia.
          rewrite counters_length in Hn. rewrite Hmk in Hx. rewrite HLf, Hmk in Hf. eauto. }
      split.
      { intros i j a b Hij Ha Hb.
        destruct (Nat.lt_ge_cases i k) as [Hi|Hi]; destruct (Nat.lt_ge_cases j k) as [Hj|Hj].
        - rewrite nth_error_app1 in Ha, Hb by (rewrite counters_length; auto).
          rewrite counters_nth in Ha, Hb by auto. assert (a = w + 2 * Z.of_nat i) by congruence. assert (b = w + 2 * Z.of_nat j) by congruence. lia.
        - rewrite nth_error_app1 in Ha by (rewrite counters_length; auto).
          rewrite nth_error_app2 in Hb by (rewrite counters_length; auto).
          rewrite counters_nth in Ha by auto. assert (a = w + 2 * Z.of_nat i) by congruence.
          apply nth_error_In in Hb. apply H5 in Hb. lia.
        - lia.
        - rewrite nth_error_app2 in Ha, Hb by (rewrite counters_length; auto).
          rewrite counters_length in Ha, Hb. eapply H4; [|eauto|eauto]. lia. }
      split; [|lia].
      intros n Hn. apply in_app_or in Hn. destruct Hn as [Hn|Hn].
      * apply counters_in in Hn. destruct Hn as (i & Hi & ->). lia.
      * apply H5 in Hn. lia.
Qed.

(** With a working library the counters are consecutive until exhausted. *)
Lemma hist_sent : forall L sp ep s h s', nacl_laws L sp ep -> ec_hist L s h s' ->
  length (ec_key s) = 32%nat -> length (ec_session_nonce s) = 8%nat -> 0 <= ec_write_nonce s ->
  sealed_all L (ec_key s) (ec_session_nonce s) (ec_write_nonce s) (sent_msgs h) (frames_out h) /\
  ec_key s' = ec_key s /\ ec_session_nonce s' = ec_session_nonce s /\
  (2 ^ 64 <= ec_write_nonce s -> sent_msgs h = []) /\
  (ec_write_nonce s' = ec_write_nonce s + 2 * Z.of_nat (length (sent_msgs h)) \/ 2 ^ 64 <= ec_write_nonce s').
Proof.
  intros L sp ep s h s' HL H. induction H as [s|s t s1 r h s2 HX HH IH|s m args last t s1 r h s2 HX HH IH];
    intros Hk0 Hs0 Hw0.
  - cbn. repeat split; auto. left. lia.
  - apply ec_read_state in HX. destruct HX as (Hk & Hs & Hw & Ho).
    rewrite frames_out_cons. cbn [call_events]. rewrite Ho. cbn [app].
    unfold sent_msgs. cbn [map call_sent concat app]. fold (sent_msgs h).
    rewrite <- Hk, <- Hs, <- Hw in *. auto.
  - rewrite frames_out_cons. cbn [call_events].
    unfold sent_msgs. cbn [map concat]. fold (sent_msgs h).
    apply ec_write_exec in HX. destruct HX as [(-> & e & HW & ->)|(fs & -> & HW)].
    + apply wrap_all_err in HW. destruct HW as (i & _ & -> & m' & _ & HE).
      cbn [map concat app call_sent].
      edestruct (ec_encrypt_total L sp ep (EC (ec_key s) (ec_pushback s) (ec_last_flag s) (ec_read_nonce s)
          (ec_write_nonce s + 2 * Z.of_nat i) (ec_session_nonce s)) m' HL) as [[_ [c Hc]]|[Ho _]];
        cbn [ec_key ec_session_nonce ec_write_nonce] in *; auto; try lia; [congruence|].
      destruct IH as (I1 & I2 & I3 & I4 & I5); auto; [lia|].
      rewrite (I4 Ho) in *. cbn [sealed_all] in I1. destruct (frames_out h) as [|f fs']; [|destruct I1].
      repeat split; auto. right. cbn [length] in I5. lia.
    + pose proof HW as HW0. apply wrap_all_ok in HW. destruct HW as [HS ->].
      cbn [ec_key ec_session_nonce ec_write_nonce] in *.
      destruct IH as (I1 & I2 & I3 & I4 & I5); auto; [lia|].
      cbn [call_sent map concat ev_out]. rewrite app_nil_r.
      assert (Hmk : length (mark last (m :: args)) = length (m :: args)) by apply mark_length.
      split; [apply sealed_all_app; auto; rewrite Hmk; exact I1|].
      repeat split; auto.
      * intro Hbig. exfalso. cbn [ec_wrap_all] in HW0.
        edestruct (ec_encrypt_total L sp ep s m HL) as [[Hx _]|[_ Hx]]; auto; [lia|].
        rewrite Hx in HW0. discriminate.
      * rewrite app_length, Hmk. destruct I5 as [I5|I5]; [left; lia|right; exact I5].
Qed.

(** ** Runs are histories *)
Lemma io_run_exec : forall A (p : io A) rd wr, exec p (fst (io_run p rd wr)) (Some (snd (io_run p rd wr))).
Proof.
  induction p as [a|k IH|ms l k IH]; intros rd wr; cbn [io_run].
  - constructor.
  - specialize (IH rd rd wr). destruct (io_run (k rd) rd wr). constructor. exact IH.
  - specialize (IH wr rd wr). destruct (io_run (k wr) rd wr). constructor. exact IH.
Qed.

Lemma ec_run_hist : forall L ops s, ec_hist L s (fst (ec_run L s ops)) (snd (ec_run L s ops)).
Proof.
  intros L. induction ops as [|[ans|m args last ans] r IH]; intro s; cbn [ec_run].
  - constructor.
  - pose proof (io_run_exec _ (ec_read L s) ans (Ok tt)) as H.
    destruct (io_run (ec_read L s) ans (Ok tt)) as [t [s1 x]]. cbn [fst snd] in H.
    specialize (IH s1). destruct (ec_run L s1 r) as [h s2]. cbn [fst snd] in *. econstructor; eauto.
  - pose proof (io_run_exec _ (ec_write L m args last s) (Ok []) ans) as H.
    destruct (io_run (ec_write L m args last s) (Ok []) ans) as [t [s1 x]]. cbn [fst snd] in H.
    specialize (IH s1). destruct (ec_run L s1 r) as [h s2]. cbn [fst snd] in *. econstructor; eauto.
Qed.

(** ** Histories: the reading side *)

(** [f] is accepted under counter [n] as message and flag [x]. *)
Definition opened (L : lib) (key sn : bytes) (n : Z) (x : bytes * bool) (f : bytes) : Prop :=
  0 <= n < 2 ^ 64 /\ exists t b body, f = t :: b :: body /\ val t = 6 /\ (16 <= length body)%nat /\
    bit b 7 = snd x /\ l_open_afternm L body (nonce24 n sn) key = Ok (fst x).

Fixpoint opened_all (L : lib) (key sn : bytes) (n : Z) (xs : list (bytes * bool)) (fs : list bytes) : Prop :=
  match xs, fs with
  | [], [] => True
  | x :: xs', f :: fs' => opened L key sn n x f /\ opened_all L key sn (n + 2) xs' fs'
  | _, _ => False
  end.

(** What one read call does. *)
Lemma ec_read_call : forall L s t s1 r, exec (ec_read L s) t (Some (s1, r)) -> ec_pushback s = [] ->
  ec_pushback s1 = [] /\ ec_key s1 = ec_key s /\ ec_session_nonce s1 = ec_session_nonce s /\
  ((exists f m, t = [ERead (Ok f)] /\ r = Ok m /\ ec_read_nonce s1 = ec_read_nonce s + 2 /\
      opened L (ec_key s) (ec_session_nonce s) (ec_read_nonce s) (m, ec_last_flag s1) f) \/
   (exists e, r = Err e /\ ec_read_nonce s1 = ec_read_nonce s /\ exists a, t = [ERead a])).
Proof.
  intros L s t s1 r H Hp. apply ec_read_exec in H.
  destruct H as [[_ [(f & -> & H)|(e & -> & -> & ->)]]|(Hq & _)]; [| |congruence].
  - destruct r as [m|e].
    + apply ec_process_inv in H. destruct H as (tt0 & fl & body & -> & Ht & Hb & Hn & Ho & ->). ecs.
      repeat split; auto. left. exists (tt0 :: fl :: body), m. repeat split; auto; try lia.
      exists tt0, fl, body. repeat split; auto.
    + apply ec_process_err in H. destruct H as (H1 & H2 & H3 & H4 & H5).
      repeat split; auto; try congruence. right. exists e. eauto.
  - repeat split; auto. right. exists e. eauto.
Qed.

Lemma ec_write_state : forall L m args last s t s1 r, exec (ec_write L m args last s) t (Some (s1, r)) ->
  ec_key s1 = ec_key s /\ ec_session_nonce s1 = ec_session_nonce s /\ ec_read_nonce s1 = ec_read_nonce s /\
  ec_pushback s1 = ec_pushback s /\ ec_last_flag s1 = ec_last_flag s /\ concat (map ev_in t) = [].
Proof.
  intros L m args last s t s1 r H. apply ec_write_exec in H.
  destruct H as [(-> & e & HW & ->)|(fs & -> & HW)].
  - apply wrap_all_err in HW. destruct HW as (i & _ & -> & _). repeat split.
  - apply wrap_all_ok in HW. destruct HW as [_ ->]. repeat split.
Qed.

Lemma got_cons : forall c h, got_msgs (c :: h) = call_got c ++ got_msgs h.
Proof. reflexivity. Qed.

Lemma hist_got : forall L s h s', ec_hist L s h s' -> ec_pushback s = [] ->
  ec_key s' = ec_key s /\ ec_session_nonce s' = ec_session_nonce s /\ ec_pushback s' = [] /\
  ec_read_nonce s' = ec_read_nonce s + 2 * Z.of_nat (length (got_msgs h)) /\
  exists acc, (forall f, In f acc -> In f (frames_in h)) /\
    opened_all L (ec_key s) (ec_session_nonce s) (ec_read_nonce s) (got_msgs h) acc.
Proof.
  intros L s h s' H. induction H as [s|s t s1 r h s2 HX HH IH|s m args last t s1 r h s2 HX HH IH]; intro Hp.
  - cbn [got_msgs map concat length]. repeat split; auto; [cbn; lia|]. exists []. split; auto. exact I.
  - apply ec_read_call in HX; auto. destruct HX as (Hp1 & Hk & Hs & HC).
    destruct (IH Hp1) as (I1 & I2 & I3 & I4 & acc & I5 & I6). rewrite Hk, Hs in *.
    rewrite got_cons, frames_in_cons. cbn [call_events].
    destruct HC as [(f & m & -> & -> & Hn & Ho)|(e & -> & Hn & a & ->)].
    + cbn [call_got app map concat ev_in]. repeat split; auto.
      * cbn [length]. lia.
      * exists (f :: acc). split.
        -- intros g [<-|Hg]; [left; auto|right; auto].
        -- cbn [opened_all]. split; auto. rewrite <- Hn. exact I6.
    + cbn [call_got app]. repeat split; auto; [lia|]. exists acc. split.
      * intros g Hg. apply in_or_app. right. auto.
      * rewrite <- Hn. exact I6.
  - apply ec_write_state in HX. destruct HX as (Hk & Hs & Hr & Hpb & _ & Hin).
    rewrite got_cons, frames_in_cons. cbn [call_events call_got app]. rewrite Hin. cbn [app].
    rewrite <- Hk, <- Hs, <- Hr in *. rewrite Hpb in IH. auto.
Qed.

Lemma opened_all_length : forall L key sn xs n fs, opened_all L key sn n xs fs -> length fs = length xs.
Proof.
  induction xs as [|x xs IH]; intros n [|f fs] H; cbn [opened_all] in H; try tauto.
  destruct H as [_ H]. cbn [length]. f_equal. eauto.
Qed.

(** ** Delivery, with rejected frames in between.
    [mixed P n g l]: [l] consists of the frames [g], the i-th of them arriving
    while the receiver stands at counter n+2i, and of others rejected at the
    counter where they arrive. *)
Inductive mixed (P : Z -> bytes -> Prop) : Z -> list bytes -> list bytes -> Prop :=
| mx_nil : forall n, mixed P n [] []
| mx_good : forall n f g l, mixed P (n + 2) g l -> mixed P n (f :: g) (f :: l)
| mx_bad : forall n f g l, P n f -> mixed P n g l -> mixed P n g (f :: l).

Lemma mixed_refl : forall P l n, mixed P n l l.
Proof. induction l; intro n; constructor; auto. Qed.

(** [f] does not authenticate at counter [n]. *)
Definition rejected (L : lib) (key sn : bytes) (n : Z) (f : bytes) : Prop :=
  forall t b body m, f = t :: b :: body -> l_open_afternm L body (nonce24 n sn) key <> Ok m.

Lemma hist_deliver : forall L sp ep s h s', nacl_laws L sp ep -> ec_hist L s h s' ->
  length (ec_key s) = 32%nat -> length (ec_session_nonce s) = 8%nat -> ec_pushback s = [] ->
  forall xs g rest,
  sealed_all L (ec_key s) (ec_session_nonce s) (ec_read_nonce s) xs (g ++ rest) ->
  mixed (rejected L (ec_key s) (ec_session_nonce s)) (ec_read_nonce s) g (frames_in h) ->
  got_msgs h = firstn (length g) xs.
Proof.
  intros L sp ep s h s' HL H.
  induction H as [s|s t s1 r h s2 HX HH IH|s m args last t s1 r h s2 HX HH IH];
    intros Hk0 Hs0 Hp xs g rest HS HM.
  - cbn in HM. inversion HM; subst. reflexivity.
  - pose proof HX as HX0. apply ec_read_call in HX; auto. destruct HX as (Hp1 & Hk & Hs & HC).
    rewrite got_cons. rewrite frames_in_cons in HM. cbn [call_events] in HM.
    apply ec_read_exec in HX0. destruct HX0 as [[_ [(f & -> & HP)|(e & -> & -> & ->)]]|(Hq & _)]; [| |congruence].
    + cbn [map concat ev_in app] in HM. inversion HM as [|n0 f0 g0 l0 HM1|n0 f0 g0 l0 Hbad HM1]; subst.
      * destruct xs as [|x xs]; cbn [app sealed_all] in HS; [tauto|]. destruct HS as [HS0 HS].
        rewrite (ec_process_sealed L sp ep s x f HL Hk0 Hs0 HS0) in HP. injection HP as <- <-. ecs.
        cbn [call_got app firstn]. f_equal; [destruct x; reflexivity|].
        eapply IH; eauto.
      * destruct HC as [(f' & m & Ht & -> & Hn & Ho)|(e & -> & Hn & a & Ha)].
        -- exfalso. injection Ht as <-. destruct Ho as (_ & tt0 & b & body & -> & _ & _ & _ & Ho).
           eapply Hbad; [reflexivity|exact Ho].
        -- cbn [call_got app]. rewrite <- Hk, <- Hs, <- Hn in *. eapply IH; eauto.
    + cbn [call_got app map concat ev_in] in *. eapply IH; eauto.
  - apply ec_write_state in HX. destruct HX as (Hk & Hs & Hr & Hpb & _ & Hin).
    rewrite got_cons. rewrite frames_in_cons in HM. cbn [call_events call_got app] in *. rewrite Hin in HM. cbn [app] in HM.
    rewrite <- Hk, <- Hs, <- Hr in *. rewrite <- Hpb in Hp. eapply IH; eauto.
Qed.
