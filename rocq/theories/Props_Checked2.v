(** C120: a time checker with a state between honest peers (util/time.py:18-27,
    v2/app_channel_v2.py). *)
From Coq Require Import List ZArith Bool Strings.Byte Lia ZifyBool ZifyNat ZifyN.
From Verif Require Import PyBase PyBase_proofs IO IO_proofs Packets Packets_proofs Packets_proofs2 A1A2_proofs
  Crypto Crypto_proofs Time EncChannel EncUse EncChannel_proofs AppChannel AppUse AppChannel_proofs Session Session_proofs
  SessUse Session_steps Spec Props_Enc Props_App Props_Session3 Props_Clock Checked Checked_proofs Props_Checked.
Import ListNotations.
Open Scope Z_scope.
Ltac Zify.zify_post_hook ::= Z.div_mod_to_equations.

(** ** Specification *)

(** The checker in state [x], asked about the times [ts] one after the other, accepts all of
    them and is then in state [y]. *)
Inductive passes {X} (C : checker X) : X -> list Z -> X -> Prop :=
| pa_nil : forall x, passes C x [] x
| pa_cons : forall x t x1 ts y, ck_check C t x = (x1, Ok tt) -> passes C x1 ts y -> passes C x (t :: ts) y.

(** The times as the 32 bits of the field show them *)
Definition shown (ts : list Z) : list Z := map (fun t => t mod 2 ^ 32) ts.

(** ** Lemmas *)
Definition anything : tchecker := TChecker (fun _ => Ok tt) (fun _ => Ok tt).

Lemma passes_app : forall X (C : checker X) a b x y, passes C x (a ++ b) y -> exists z, passes C x a z /\ passes C z b y.
Proof.
  induction a as [|t a IH]; intros b x y H; [exists x; split; [constructor|exact H]|].
  inversion H as [|? ? x1 ? ? E H']; subst. destruct (IH _ _ _ H') as (z & Z1 & Z2). exists z. split; [econstructor; eauto|exact Z2].
Qed.
Lemma passes_det : forall X (C : checker X) ts x y z, passes C x ts y -> passes C x ts z -> y = z.
Proof.
  intros X C ts x y z H. revert z. induction H as [x|x t x1 ts y E H IH]; intros z K; inversion K; subst; [reflexivity|]. apply IH. congruence.
Qed.

Lemma u32le_val : forall t, le_val (u32le t) = t mod 2 ^ 32.
Proof.
  intros t. unfold u32le. cbn [le_val]. rewrite !byte_of_z2b. change (val (z2b t)) with (b2z (z2b t)).
  change (val (z2b (t / 2 ^ 8))) with (b2z (z2b (t / 2 ^ 8))). change (val (z2b (t / 2 ^ 16))) with (b2z (z2b (t / 2 ^ 16))). change (val (z2b (t / 2 ^ 24))) with (b2z (z2b (t / 2 ^ 24))).
  change (2 ^ 8) with 256. change (2 ^ 16) with 65536. change (2 ^ 24) with 16777216. change (2 ^ 32) with 4294967296.
  rewrite !b2z_z2b. lia.
Qed.

Lemma k_interpret_same : forall X (C : checker X) raw x (s : ac) x1 v, k_interpret X C raw (x, s) = Ret ((x1, s), Ok v) -> ac_interpret anything raw = Ok v.
Proof.
  intros X C raw x s x1 v KI. unfold k_interpret in KI. cbv beta delta [mbind mlift kcall] in KI. cbn [iobind fst snd] in KI. unfold ac_interpret. cbn [tc_check anything].
  destruct (app_ctor raw false) as [ap|z]; cbn [iobind fst snd] in KI; [|congruence].
  destruct (app_type ap =? TYPE_APP_PACKET).
  - destruct (app_validate ap) as [[]|z]; cbn [iobind fst snd] in KI; [|congruence].
    destruct (ck_check C (app_time ap) x) as [xa [[]|z]]; cbn [iobind fst snd] in KI; [|congruence].
    destruct (app_data ap) as [d|z]; cbn [iobind fst snd] in KI; cbv beta delta [mret] in KI; congruence.
  - destruct (multi_ctor raw true) as [mp|z]; cbn [iobind fst snd] in KI; [|congruence].
    destruct (ck_check C (multi_time mp) x) as [xa [[]|z]]; cbn [iobind fst snd] in KI; [|congruence].
    destruct (mp_msgs mp) as [[|m q]|]; cbv beta delta [mret mraise] in KI; congruence.
Qed.

(** If [raw] is a packet of the application and its time is accepted, it is delivered. *)
Lemma k_interpret_ok : forall X (C : checker X) raw ms x (s : ac) x1, decodes anything raw ms -> ck_check C (time_of raw) x = (x1, Ok tt) ->
  exists d q, ms = d :: q /\ k_interpret X C raw (x, s) = Ret ((x1, s), Ok (d, q)) /\ ac_interpret anything raw = Ok (d, q).
Proof.
  intros X C raw ms x s x1 (d0 & q0 & HD & ->) HC.
  assert (NO : forall z, ac_interpret anything raw <> Err z) by (intros z; rewrite HD; discriminate).
  destruct (k_interpret_cases X C raw x s) as [[-> E]|[(d & q & HF & E)|(N1 & N2 & N3 & z & E)]].
  - exfalso. eapply NO. reflexivity.
  - rewrite HC in E. cbn [fst snd] in E. exists d, q. pose proof (k_interpret_same _ _ _ _ _ _ _ E) as S. rewrite HD in S. injection S as -> ->. auto.
  - exfalso. pose proof HD as HD'. revert HD E. unfold ac_interpret, k_interpret. cbv beta delta [mbind mlift kcall]. cbn [iobind fst snd tc_check anything].
    destruct (k_interpret_cases unit (Checker (fun _ _ => (tt, Ok tt)) (fun _ _ => (tt, Ok tt))) raw tt s) as [[A _]|[(d & q & [[HF _]|HF] & _)|(_ & _ & _ & y & E2)]];
      [contradiction|exfalso; eapply N2; exact HF|exfalso; eapply N3; exact HF|].
    intros _ _. revert E2 HD'. unfold ac_interpret, k_interpret. cbv beta delta [mbind mlift kcall]. cbn [iobind fst snd tc_check anything].
    destruct (app_ctor raw false) as [ap|w]; cbn [iobind fst snd]; [|discriminate].
    destruct (app_type ap =? TYPE_APP_PACKET).
    + destruct (app_validate ap) as [[]|w]; cbn [iobind fst snd ck_check]; [|discriminate].
      destruct (app_data ap) as [d|w]; cbn [iobind fst snd]; cbv beta delta [mret]; congruence.
    + destruct (multi_ctor raw true) as [mp|w]; cbn [iobind fst snd ck_check]; [|discriminate].
      destruct (mp_msgs mp) as [[|m q]|]; cbv beta delta [mret mraise]; congruence.
Qed.

(** The sender *)
Lemma k_send : forall L TK X (C : checker X) x s h x' s', k_hist L TK X C x s h x' s' -> ac_buffered_m4 s = None ->
  exists eh, ec_hist L (ac_enc s) eh (ac_enc s') /\ frames_out eh = frames_out h /\ sent_msgs eh = clear_texts TK (ac_tk s) None h /\
    map text_time (clear_texts TK (ac_tk s) None h) = map u32le (call_times TK (ac_tk s) h).
Proof.
  intros L TK X C x s h x' s' H.
  induction H as [x s|x s t x1 s1 r h x2 s2 HX HH IH|x s m args last t s1 r h x2 s2 HX HH IH]; intros HM.
  - exists []. repeat split. constructor.
  - apply k_read_exec in HX. destruct HX as [(m & q & HQ & -> & -> & -> & ->)|(HQ & e1 & er & HE & HR)].
    + destruct IH as (eh & E1 & E2 & E3 & E4); [exact HM|]. exists eh. rewrite frames_out_cons.
      cbn [call_events map concat app clear_texts call_times ac_enc ac_tk ac_set_readq] in *. auto.
    + assert (HS1 : ac_enc s1 = e1 /\ ac_tk s1 = ac_tk s /\ ac_buffered_m4 s1 = ac_buffered_m4 s).
      { destruct er as [raw|e]; [destruct HR as (y & _ & HR); destruct y as [[d q]|z]; destruct HR as [_ ->]|destruct HR as (_ & -> & _)]; auto. }
      destruct HS1 as (Ha & Hb & Hc). destruct IH as (eh & E1 & E2 & E3 & E4); [congruence|].
      rewrite Ha in E1. rewrite Hb in *. exists (EcRead t er (ec_last_flag e1) :: eh).
      split; [econstructor; eauto|]. rewrite !frames_out_cons. cbn [call_events]. rewrite E2. split; [reflexivity|].
      unfold sent_msgs. cbn [map call_sent concat app clear_texts call_times]. fold (sent_msgs eh). auto.
  - assert (H1 : ac_hist L TK anything s [EcWrite m args last t r] s1) by (econstructor; [exact HX|constructor]).
    pose proof (texts_times _ _ _ _ _ _ H1 None 0 HM) as HT. clear H1.
    apply ac_write_exec in HX. destruct HX as (p & ps & e1 & HP & HE & ->).
    destruct IH as (eh & E1 & E2 & E3 & E4); [reflexivity|]. cbn [ac_enc ac_tk] in *.
    exists (EcWrite p ps last t r :: eh). split; [econstructor; eauto|].
    rewrite !frames_out_cons. cbn [call_events]. rewrite E2. split; [reflexivity|].
    unfold sent_msgs. cbn [map call_sent concat clear_texts call_times] in *. fold (sent_msgs eh). rewrite E3.
    destruct (tk_get TK (ac_tk s)) as [now tk'] eqn:ET. cbn [fst snd] in *. rewrite HM in HP. cbn [app] in HP. split.
    + f_equal. destruct t as [|ev0 t]; [reflexivity|]. cbn [is_empty]. rewrite HP. reflexivity.
    + rewrite !map_app in *. rewrite E4. f_equal. rewrite !app_nil_r in HT. exact HT.
Qed.

(** The receiver *)
Lemma k_receive : forall L TK X (C : checker X) x s h x' s', k_hist L TK X C x s h x' s' -> ec_pushback (ac_enc s) = [] ->
  exists eh, ec_hist L (ac_enc s) eh (ac_enc s') /\ frames_in eh = frames_in h /\
    forall mss y, Forall2 (decodes anything) (map fst (got_msgs eh)) mss -> passes C x (map time_of (map fst (got_msgs eh))) y ->
      x' = y /\ ac_hist L TK anything s h s'.
Proof.
  intros L TK X C x s h x' s' H.
  induction H as [x s|x s t x1 s1 r h x2 s2 HX HH IH|x s m args last t s1 r h x2 s2 HX HH IH]; intros HP.
  - exists []. split; [constructor|]. split; [reflexivity|]. intros mss y _ H. inversion H; subst. split; [reflexivity|constructor].
  - apply k_read_exec in HX. destruct HX as [(m & q & HQ & -> & -> & -> & ->)|(HQ & e1 & er & HE & HR)].
    + destruct IH as (eh & E1 & E2 & E3); [exact HP|]. exists eh. rewrite frames_in_cons. cbn [call_events map concat app ac_enc ac_set_readq] in *.
      split; [exact E1|]. split; [exact E2|]. intros mss y HF HC. destruct (E3 mss y HF HC) as [-> HA]. split; [reflexivity|].
      econstructor; [|exact HA]. unfold ac_read. rewrite (mbind_ret _ _ _ mget _ s s s eq_refl), HQ. constructor.
    + assert (HS1 : ac_enc s1 = e1).
      { destruct er as [raw|e]; [destruct HR as (y & _ & HR); destruct y as [[d q]|z]; destruct HR as [_ ->]|destruct HR as (_ & -> & _)]; auto. }
      pose proof HE as HE0. apply ec_read_call in HE0; [|exact HP]. destruct HE0 as (Hp1 & _).
      destruct IH as (eh & E1 & E2 & E3); [congruence|]. rewrite HS1 in E1.
      exists (EcRead t er (ec_last_flag e1) :: eh). split; [econstructor; eauto|]. rewrite !frames_in_cons. cbn [call_events]. rewrite E2. split; [reflexivity|].
      intros mss y HF HC. rewrite got_cons in *.
      assert (GO : forall ms', (match er with Ok raw => ac_interpret anything raw = ms' | Err _ => True end) ->
        match er with
        | Ok _ => match ms' with Ok (d, q) => r = Ok d /\ s1 = ac_set_readq q (ac_set_enc e1 s) | Err z => r = Err z /\ s1 = ac_set_enc e1 s end
        | Err z => r = Err z /\ s1 = ac_set_enc e1 s
        end -> exec (ac_read L anything s) t (Some (s1, r))).
      { intros ms' G1 G2. unfold ac_read. rewrite (mbind_ret _ _ _ mget _ s s s eq_refl), HQ. rewrite <- (app_nil_r t). unfold mbind at 1.
        eapply exec_bind_fwd; [eapply exec_mzoom_fwd; exact HE|]. cbn [fst snd]. destruct er as [raw|z].
        - cbv beta delta [mbind mlift]. cbn [iobind fst snd]. rewrite G1. destruct ms' as [[d q]|z]; destruct G2 as [-> ->]; cbn; constructor.
        - destruct G2 as [-> ->]. constructor. }
      destruct er as [raw|z].
      * cbn [call_got app map fst] in HF, HC. inversion HF as [|? ms ? mss' HD HF']; subst. inversion HC as [|? ? xa ? ? HK HC']; subst.
        destruct (k_interpret_ok X C raw ms x (ac_set_enc (ac_enc s1) s) xa HD HK) as (d & q & -> & KI & AI).
        destruct HR as (w & KI' & HR). rewrite KI in KI'. injection KI' as <- <-.
        destruct (E3 mss' y HF' HC') as [-> HA]. split; [reflexivity|]. econstructor; [|exact HA]. eapply GO; [exact AI|exact HR].
      * cbn [call_got app map fst] in HF, HC. destruct HR as (R1 & R2 & ->). destruct (E3 mss y HF HC) as [-> HA]. split; [reflexivity|].
        econstructor; [|exact HA]. eapply (GO (Ok ([], []))); auto.
  - pose proof HX as HX0. apply ac_write_exec in HX0. destruct HX0 as (p & ps & e1 & HP' & HE & ->). cbn [ac_enc ac_readq] in *.
    pose proof HE as HE0. apply ec_write_state in HE0. destruct HE0 as (_ & _ & _ & Hp1 & _ & Hin).
    destruct IH as (eh & E1 & E2 & E3); [congruence|]. exists (EcWrite p ps last t r :: eh). split; [econstructor; eauto|].
    rewrite !frames_in_cons. cbn [call_events]. rewrite E2. split; [reflexivity|]. intros mss y HF HC. rewrite got_cons in *. cbn [call_got app] in *.
    destruct (E3 mss y HF HC) as [-> HA]. split; [reflexivity|]. econstructor; [exact HX|exact HA].
Qed.

(** ** C120: honest messages whose times the checker accepts are delivered.  [hs] is everything
    the sender's application did (whatever its own checker [D] said to what it read), [hr] what
    the receiver's did; the receiver has been given the first frames written.  If the receiver's
    checker accepts, in order, the readings of the sender's clock in those frames, modulo 2^32,
    then what was read is an initial part of what was written, the only reads that failed are
    those where the channel below did, and the checker has been asked those times and no others. *)
Theorem C120_no_false_alarm : forall L sp ep TKs Y (D : checker Y) TKr X (C : checker X) y s hs y' s' x r hr x' r' z,
  nacl_laws L sp ep -> linked (ac_enc s) (ac_enc r) ->
  ac_buffered_m4 s = None -> ac_readq r = [] ->
  k_hist L TKs Y D y s hs y' s' -> k_hist L TKr X C x r hr x' r' ->
  (forall m args last t v, In (EcWrite m args last t v) hs -> fits (m :: args)) ->
  prefix_of (frames_in hr) (frames_out hs) ->
  passes C x (shown (firstn (length (frames_in hr)) (call_times TKs (ac_tk s) hs))) z ->
  x' = z /\
  prefix_of (map fst (got_msgs hr)) (map fst (sent_msgs hs)) /\
  (forall t e l, In (EcRead t (Err e) l) hr -> t = [ERead (Err e)]) /\
  (frames_in hr = frames_out hs ->
   forall m rest, map fst (sent_msgs hs) = map fst (got_msgs hr) ++ m :: rest ->
   forall t x1 r1 v, exec (k_read L X C (x', r')) t (Some ((x1, r1), v)) -> t = [] /\ v = Ok m /\ x1 = x').
Proof.
  intros L sp ep TKs Y D TKr X C y s hs y' s' x r hr x' r' z HL HK HM HQ Hs Hr Hfit HP HC.
  destruct (k_send _ _ _ _ _ _ _ _ _ Hs HM) as (es & S1 & S2 & S3 & S4).
  assert (Hpb : ec_pushback (ac_enc r) = []) by apply HK.
  destruct (k_receive _ _ _ _ _ _ _ _ _ Hr Hpb) as (er0 & R1 & R2 & R3).
  pose proof HP as HP0. rewrite <- S2, <- R2 in HP0.
  destruct (linked_deliver _ _ _ _ _ _ _ _ _ HL HK S1 R1 HP0) as (D1 & D2 & D3).
  destruct (texts_decode TKs anything (ac_tk s) hs ltac:(intros; reflexivity) Hfit) as (mss & T1 & T2).
  assert (T0 : Forall2 (decodes anything) (map fst (sent_msgs es)) mss) by (rewrite S3; exact T1).
  pose proof (Forall2_firstn _ _ _ (length (frames_in er0)) _ _ T0) as T3.
  rewrite firstn_map', <- D1 in T3.
  assert (TT : map time_of (map fst (sent_msgs es)) = shown (call_times TKs (ac_tk s) hs)).
  { rewrite S3, map_map. unfold shown. transitivity (map le_val (map text_time (clear_texts TKs (ac_tk s) None hs))); [rewrite map_map; reflexivity|].
    rewrite S4, map_map. apply map_ext. intros t. apply u32le_val. }
  assert (TG : map time_of (map fst (got_msgs er0)) = shown (firstn (length (frames_in hr)) (call_times TKs (ac_tk s) hs))).
  { rewrite D1, <- !firstn_map', TT, R2. unfold shown. rewrite firstn_map'. reflexivity. }
  destruct (R3 _ z T3 ltac:(rewrite TG; exact HC)) as [-> HA]. split; [reflexivity|].
  destruct (app_errors _ _ _ _ _ _ HA Hpb) as (er & A1 & A2 & A3 & A4).
  pose proof HP as HP1. rewrite <- S2, <- A3 in HP1.
  destruct (linked_deliver _ _ _ _ _ _ _ _ _ HL HK S1 A1 HP1) as (F1 & F2 & F3).
  assert (T4 : Forall2 (decodes anything) (map fst (got_msgs er)) (firstn (length (frames_in er)) mss)).
  { rewrite F1, <- firstn_map'. apply Forall2_firstn. exact T0. }
  destruct (A4 _ T4) as [A5 A6]. rewrite HQ in A5. cbn [app] in A5.
  destruct (concat_firstn_prefix _ (length (frames_in er)) mss) as [rest HR].
  split; [|split].
  - rewrite <- T2, HR, <- A5. exists (ac_readq r' ++ rest). rewrite app_assoc. reflexivity.
  - intros t e l Hin. eapply A6; eauto.
  - intros HE m rest' Hm t x1 r1 v HX.
    assert (HALL : firstn (length (frames_in er)) mss = mss).
    { apply firstn_all2. rewrite A3, HE, <- S2, <- F3. apply Forall2_length' in T0. rewrite map_length in T0. rewrite T0. apply le_n. }
    rewrite HALL, T2, Hm in A5. apply app_inv_head in A5.
    apply k_read_exec in HX. destruct HX as [(m' & q & Hq & -> & -> & _ & ->)|(Hq & _)].
    + split; [reflexivity|]. split; [congruence|reflexivity].
    + congruence.
Qed.
Print Assumptions C120_no_false_alarm.

(** *** A checker that refuses to go back never refuses an honest sender whose clock does not go
    back, as long as the clock's readings fit the field. *)
Fixpoint rising (x : Z) (ts : list Z) : Prop := match ts with [] => True | t :: r => x <= t /\ rising t r end.

Lemma forward_passes : forall ts x, rising x ts -> Forall (fun t => 0 <= t < 2 ^ 32) ts -> passes forward x (shown ts) (last ts x).
Proof.
  induction ts as [|t ts IH]; intros x HR HF; [constructor|]. destruct HR as [H1 H2]. apply Forall_cons_iff in HF. destruct HF as [H3 H4].
  unfold shown. cbn [map]. rewrite Z.mod_small by exact H3. fold (shown ts). econstructor.
  - cbn [ck_check forward]. destruct (Z.ltb_spec t x); [lia|reflexivity].
  - assert (E : last (t :: ts) x = last ts t) by (clear; revert t x; induction ts as [|a ts IH]; intros t x; [reflexivity|]; change (last (t :: a :: ts) x) with (last (a :: ts) x); rewrite !IH; reflexivity).
    rewrite E. apply IH; auto.
Qed.
Lemma rising_firstn : forall n ts x, rising x ts -> rising x (firstn n ts).
Proof. induction n as [|n IH]; intros [|t ts] x H; cbn; auto. destruct H as [H1 H2]. split; auto. Qed.

Theorem C120_forward : forall L sp ep TKs Y (D : checker Y) TKr y s hs y' s' x r hr x' r',
  nacl_laws L sp ep -> linked (ac_enc s) (ac_enc r) ->
  ac_buffered_m4 s = None -> ac_readq r = [] ->
  k_hist L TKs Y D y s hs y' s' -> k_hist L TKr Z forward x r hr x' r' ->
  (forall m args last t v, In (EcWrite m args last t v) hs -> fits (m :: args)) ->
  prefix_of (frames_in hr) (frames_out hs) ->
  rising x (call_times TKs (ac_tk s) hs) -> Forall (fun t => 0 <= t < 2 ^ 32) (call_times TKs (ac_tk s) hs) ->
  x' = last (firstn (length (frames_in hr)) (call_times TKs (ac_tk s) hs)) x /\
  prefix_of (map fst (got_msgs hr)) (map fst (sent_msgs hs)) /\
  (forall t e l, In (EcRead t (Err e) l) hr -> t = [ERead (Err e)]).
Proof.
  intros L sp ep TKs Y D TKr y s hs y' s' x r hr x' r' HL HK HM HQ Hs Hr Hfit HP HR HF.
  assert (HC : passes forward x (shown (firstn (length (frames_in hr)) (call_times TKs (ac_tk s) hs)))
                 (last (firstn (length (frames_in hr)) (call_times TKs (ac_tk s) hs)) x)).
  { apply forward_passes; [apply rising_firstn; exact HR|]. apply Forall_forall. intros t Ht.
    eapply Forall_forall in HF; [exact HF|]. rewrite <- (firstn_skipn (length (frames_in hr))). apply in_or_app. left. exact Ht. }
  destruct (C120_no_false_alarm _ _ _ _ _ _ _ _ _ _ _ _ _ _ _ _ _ _ _ _ HL HK HM HQ Hs Hr Hfit HP HC) as (E1 & E2 & E3 & _). auto.
Qed.
Print Assumptions C120_forward.

Lemma k_run_hist : forall L TK X (C : checker X) ops x s,
  k_hist L TK X C x s (fst (k_run L TK X C x s ops)) (fst (snd (k_run L TK X C x s ops))) (snd (snd (k_run L TK X C x s ops))).
Proof.
  intros L TK X C. induction ops as [|[ans|m args last ans] ops IH]; intros x s; cbn [k_run].
  - constructor.
  - destruct (io_run (k_read L X C (x, s)) ans (Ok tt)) as [t [[x1 s1] v]] eqn:E. specialize (IH x1 s1).
    destruct (k_run L TK X C x1 s1 ops) as [h [x2 s2]]. cbn [fst snd] in *. econstructor; [|exact IH].
    pose proof (io_run_exec _ (k_read L X C (x, s)) ans (Ok tt)) as HX. rewrite E in HX. exact HX.
  - destruct (io_run (ac_write L TK m args last s) (Ok []) ans) as [t [s1 v]] eqn:E. specialize (IH x s1).
    destruct (k_run L TK X C x s1 ops) as [h [x2 s2]]. cbn [fst snd] in *. econstructor; [|exact IH].
    pose proof (io_run_exec _ (ac_write L TK m args last s) (Ok []) ans) as HX. rewrite E in HX. exact HX.
Qed.

(** A clock that shows its state and moves on by [d] *)
Definition ticking (d : Z) : tkeeper := TKeeper (fun t => (t, t + d)) (fun t => (t, t + d)).

(** What the sender wrote, what the receiver read with [forward], and the checker's final state *)
Definition two_writes (start d : Z) : list Z * list (res bytes) * Z :=
  let (hs, _) := k_run toy_lib (ticking d) Z forward 0 (ac_init (ex_start SERVER) start)
     [OpWrite [x61] [] false (Ok tt); OpWrite [x62] [[x63]] false (Ok tt)] in
  let '(h, (x, _)) := k_run toy_lib null_keeper Z forward 0 (ex_app CLIENT)
     (map (fun f => OpRead (Ok f)) (frames_out hs) ++ [OpRead (Err ComException)]) in
  (call_times (ticking d) start hs, concat (map (fun c => match c with EcRead _ v _ => [v] | _ => [] end) h), x).

Example C120_case : two_writes 5 3 = ([5; 8], [Ok [x61]; Ok [x62]; Ok [x63]], 8).
Proof. vm_compute. reflexivity. Qed.

(** *** Without the bound it is false: a clock that never goes back passes 2^32 (after 49.7 days
    in milliseconds), the field starts again from 0, and an honest message is refused and lost. *)
Theorem C120_wrap_refuted : exists (s r : ac) hs hr x' y' s' r',
  linked (ac_enc s) (ac_enc r) /\ ac_buffered_m4 s = None /\ ac_readq r = [] /\
  k_hist toy_lib (ticking 1) Z forward 0 s hs y' s' /\ k_hist toy_lib null_keeper Z forward 0 r hr x' r' /\
  frames_in hr = frames_out hs /\ rising 0 (call_times (ticking 1) (ac_tk s) hs) /\
  map fst (sent_msgs hs) = [[x61]; [x62]] /\ map fst (got_msgs hr) = [[x61]] /\
  (exists t l, In (EcRead t (Err BadPeer) l) hr).
Proof.
  pose (hs := k_run toy_lib (ticking 1) Z forward 0 (ac_init (ex_start SERVER) 4294967295)
     [OpWrite [x61] [] false (Ok tt); OpWrite [x62] [] false (Ok tt)]).
  pose (hr := k_run toy_lib null_keeper Z forward 0 (ex_app CLIENT) (map (fun f => OpRead (Ok f)) (frames_out (fst hs)))).
  exists (ac_init (ex_start SERVER) 4294967295), (ex_app CLIENT), (fst hs), (fst hr), (fst (snd hr)), (fst (snd hs)), (snd (snd hs)), (snd (snd hr)).
  split; [vm_compute; repeat split; auto; discriminate|]. split; [reflexivity|]. split; [reflexivity|].
  split; [apply k_run_hist|]. split; [apply k_run_hist|]. split; [vm_compute; reflexivity|].
  split; [vm_compute; repeat split; discriminate|]. split; [vm_compute; reflexivity|]. split; [vm_compute; reflexivity|].
  eexists. eexists. vm_compute. right. left. reflexivity.
Qed.
Print Assumptions C120_wrap_refuted.
