(** C135: one thread reads, another one writes. *)
From Coq Require Import List ZArith Bool Strings.Byte Lia ZifyBool ZifyNat ZifyN.
From Verif Require Import PyBase PyBase_proofs IO IO_proofs Packets Crypto Time EncChannel EncUse EncChannel_proofs AppChannel AppUse AppChannel_proofs
  Threads Threads_proofs Duplex Props_Enc Props_App.
Import ListNotations.
Open Scope Z_scope.
Ltac Zify.zify_post_hook ::= Z.div_mod_to_equations.

(** What reads use of [a], and what writes use of [b] *)
Definition mix (a b : ac) : ac :=
  AC (EC (ec_key (ac_enc a)) (ec_pushback (ac_enc a)) (ec_last_flag (ac_enc a)) (ec_read_nonce (ac_enc a)) (ec_write_nonce (ac_enc b)) (ec_session_nonce (ac_enc a)))
     (ac_tk b) (ac_buffered_m4 b) (ac_readq a).
Definition same_key (a b : ac) : Prop := ec_key (ac_enc a) = ec_key (ac_enc b) /\ ec_session_nonce (ac_enc a) = ec_session_nonce (ac_enc b).

Lemma mix_self : forall s, mix s s = s.
Proof. intros [[? ? ? ? ? ?] ? ? ?]. reflexivity. Qed.

Lemma process_mix : forall L k p f r w sn raw w', ec_process L (EC k p f r w sn) raw =
  (let x := ec_process L (EC k p f r w' sn) raw in
   (EC (ec_key (fst x)) (ec_pushback (fst x)) (ec_last_flag (fst x)) (ec_read_nonce (fst x)) w (ec_session_nonce (fst x)), snd x)).
Proof.
  intros. unfold ec_process, ec_unwrap. destruct (ep_ctor raw) as [ep|e]; [|reflexivity]. destruct (ep_body ep) as [b|e]; [|reflexivity].
  unfold ec_decrypt. cbn [ec_set_last_flag ec_read_nonce ec_session_nonce ec_key].
  destruct (nonce_bytes r sn) as [n|e]; [|reflexivity]. destruct (l_open_afternm L b n k) as [c|[]]; reflexivity.
Qed.

Lemma process_keeps : forall L s raw, ec_key (fst (ec_process L s raw)) = ec_key s /\ ec_session_nonce (fst (ec_process L s raw)) = ec_session_nonce s /\
  ec_write_nonce (fst (ec_process L s raw)) = ec_write_nonce s.
Proof.
  intros. unfold ec_process, ec_unwrap. destruct (ep_ctor raw) as [ep|e]; [|auto]. destruct (ep_body ep) as [b|e]; [|auto].
  destruct (ec_decrypt L _ b); auto.
Qed.

Lemma ec_read_get : forall L s f, ec_pushback s = [] -> exec (ec_read L s) [ERead (Ok f)] (Some (ec_process L s f)).
Proof. intros L s f H. unfold ec_read. rewrite H. cbn [is_empty]. constructor. constructor. Qed.
Lemma ec_read_fail : forall L s e, ec_pushback s = [] -> exec (ec_read L s) [ERead (Err e)] (Some (s, Err e)).
Proof. intros L s f H. unfold ec_read. rewrite H. cbn [is_empty]. constructor. constructor. Qed.
Lemma ec_read_pushed : forall L s, ec_pushback s <> [] -> exec (ec_read L s) [] (Some (ec_process L (ec_set_pushback [] s) (ec_pushback s))).
Proof. intros L s H. unfold ec_read. destruct (ec_pushback s); [congruence|]. cbn [is_empty]. constructor. Qed.

Lemma ac_read_fwd : forall L TC s t e1 er, ac_readq s = [] -> exec (ec_read L (ac_enc s)) t (Some (e1, er)) ->
  exec (ac_read L TC s) t (Some (
     match er with
     | Err e => (ac_set_enc e1 s, Err e)
     | Ok raw => match ac_interpret TC raw with
                 | Err e => (ac_set_enc e1 s, Err e)
                 | Ok (d, q) => (ac_set_readq q (ac_set_enc e1 s), Ok d)
                 end
     end)).
Proof.
  intros L TC s t e1 er HQ H. unfold ac_read, mbind, mget, mret, mzoom, mlift, mmod. cbn [iobind fst snd]. rewrite HQ.
  rewrite <- (app_nil_r t). rewrite <- (app_nil_r t) at 1.
  eapply exec_bind_fwd; [eapply exec_bind_fwd; [exact H|constructor]|]. cbn [fst snd].
  destruct er as [raw|e]; cbn [iobind fst snd]; [|constructor]. destruct (ac_interpret TC raw) as [[d q]|e]; cbn [iobind fst snd]; constructor.
Qed.
Lemma ac_read_queued : forall L TC s m q, ac_readq s = m :: q -> exec (ac_read L TC s) [] (Some (ac_set_readq q s, Ok m)).
Proof. intros L TC s m q H. unfold ac_read, mbind, mget, mret, mput. cbn [iobind fst snd]. rewrite H. cbn [iobind fst snd]. constructor. Qed.

(** An encrypted channel with the write nonce [w] *)
Definition ew (w : Z) (s : ec) : ec := EC (ec_key s) (ec_pushback s) (ec_last_flag s) (ec_read_nonce s) w (ec_session_nonce s).

Lemma process_ew : forall L s raw w, ec_process L (ew w s) raw = (ew w (fst (ec_process L s raw)), snd (ec_process L s raw)).
Proof. intros L [k p f r w0 sn] raw w. unfold ew at 1. cbn [ec_key ec_pushback ec_last_flag ec_read_nonce ec_session_nonce]. apply process_mix. Qed.

Lemma ec_read_ew : forall L s t s1 r w, exec (ec_read L s) t (Some (s1, r)) ->
  exec (ec_read L (ew w s)) t (Some (ew w s1, r)) /\ ec_key s1 = ec_key s /\ ec_session_nonce s1 = ec_session_nonce s.
Proof.
  intros L s t s1 r w H. apply ec_read_exec in H as [(HP & [(f & -> & E)|(e & -> & -> & ->)])|(HP & -> & E)].
  - destruct (process_keeps L s f) as (P1 & P2 & _). rewrite E in P1, P2. split; [|auto].
    replace (ew w s1, r) with (ec_process L (ew w s) f) by (rewrite process_ew, E; reflexivity). apply ec_read_get. exact HP.
  - split; [|auto]. apply ec_read_fail. exact HP.
  - destruct (process_keeps L (ec_set_pushback [] s) (ec_pushback s)) as (P1 & P2 & _). rewrite E in P1, P2. split; [|auto].
    replace (ew w s1, r) with (ec_process L (ec_set_pushback [] (ew w s)) (ec_pushback (ew w s))); [apply ec_read_pushed; exact HP|].
    change (ec_set_pushback [] (ew w s)) with (ew w (ec_set_pushback [] s)). change (ec_pushback (ew w s)) with (ec_pushback s).
    rewrite process_ew, E. reflexivity.
Qed.

(** A read neither sees nor changes what writes use. *)
Lemma read_mix : forall L TC a b t a' r, same_key a b -> exec (ac_read L TC a) t (Some (a', r)) ->
  exec (ac_read L TC (mix a b)) t (Some (mix a' b, r)) /\ same_key a' b.
Proof.
  intros L TC a b t a' r [K1 K2] H. apply ac_read_exec in H as [(m & q & HQ & -> & -> & ->)|(HQ & e1 & er & HE & HR)].
  - split; [|split; assumption]. apply (ac_read_queued L TC (mix a b) m q HQ).
  - destruct (ec_read_ew L _ _ _ _ (ec_write_nonce (ac_enc b)) HE) as (E1 & E2 & E3).
    pose proof (ac_read_fwd L TC (mix a b) t _ _ HQ E1) as X. unfold same_key. destruct er as [raw|e].
    + destruct (ac_interpret TC raw) as [[d q]|e]; destruct HR as [-> ->]; (split; [exact X|]); cbn [ac_set_readq ac_set_enc ac_enc]; split; congruence.
    + destruct HR as [-> ->]. split; [exact X|]. cbn [ac_set_enc ac_enc]. split; congruence.
Qed.

(** [b] with what reads use of [a]: the same for writes *)
Definition er (a b : ec) : ec := EC (ec_key a) (ec_pushback a) (ec_last_flag a) (ec_read_nonce a) (ec_write_nonce b) (ec_session_nonce a).

Lemma encrypt_er : forall L a b m, ec_key a = ec_key b -> ec_session_nonce a = ec_session_nonce b -> ec_encrypt L (er a b) m = ec_encrypt L b m.
Proof. intros L a b m H1 H2. unfold ec_encrypt, er. cbn [ec_write_nonce ec_session_nonce ec_key]. rewrite H1, H2. reflexivity. Qed.

Lemma wrap_all_er : forall L last ms a b, ec_key a = ec_key b -> ec_session_nonce a = ec_session_nonce b ->
  ec_wrap_all L (er a b) last ms = (er a (fst (ec_wrap_all L b last ms)), snd (ec_wrap_all L b last ms)) /\
  ec_key (fst (ec_wrap_all L b last ms)) = ec_key b /\ ec_session_nonce (fst (ec_wrap_all L b last ms)) = ec_session_nonce b.
Proof.
  intros L last. induction ms as [|m ms IH]; intros a b H1 H2; cbn [ec_wrap_all]; [auto|]. rewrite encrypt_er by assumption.
  destruct (ec_encrypt L b m) as [c|e]; [|auto]. destruct (IH a (ec_advance_write b) H1 H2) as (I1 & I2 & I3).
  change (ec_advance_write (er a b)) with (er a (ec_advance_write b)). rewrite I1.
  destruct (ec_wrap_all L (ec_advance_write b) last ms) as [s' [fs|e]]; cbn [fst snd] in *; auto.
Qed.

(** A write neither sees nor changes what reads use. *)
Lemma write_mix : forall L TK a b m args last t b' r, same_key a b -> exec (ac_write L TK m args last b) t (Some (b', r)) ->
  exec (ac_write L TK m args last (mix a b)) t (Some (mix a b', r)) /\ same_key a b'.
Proof.
  intros L TK a b m args last t b' r [K1 K2] H. unfold ac_write in *. cbn [mix ac_tk ac_buffered_m4 ac_enc ac_readq] in *.
  destruct (tk_get TK (ac_tk b)) as [now tk']. destruct (_ ++ _) as [|p ps].
  - apply exec_ret in H as [-> H]. injection H as -> ->. split; [constructor|split; assumption].
  - apply exec_mzoom in H as (e1 & H & ->). cbn [ac_enc] in H. unfold ec_write, mzoom in *. cbn [ac_enc].
    change (EC (ec_key (ac_enc a)) (ec_pushback (ac_enc a)) (ec_last_flag (ac_enc a)) (ec_read_nonce (ac_enc a)) (ec_write_nonce (ac_enc b)) (ec_session_nonce (ac_enc a)))
      with (er (ac_enc a) (ac_enc b)).
    destruct (wrap_all_er L last (p :: ps) (ac_enc a) (ac_enc b) K1 K2) as (W1 & W2 & W3). rewrite W1.
    destruct (ec_wrap_all L (ac_enc b) last (p :: ps)) as [s' [fs|e]]; cbn [fst snd] in *.
    + unfold mwrite in *. cbn [iobind]. inversion H; subst.
      match goal with H : exec (Ret _) _ _ |- _ => apply exec_ret in H; destruct H as [-> H]; injection H as -> -> end.
      split; [constructor; constructor|]. split; cbn [ac_set_enc ac_enc]; congruence.
    + apply exec_ret in H as [-> H]. injection H as -> ->. cbn [iobind fst snd]. split; [constructor|]. split; cbn [ac_set_enc ac_enc]; congruence.
Qed.

Lemma shuffle_hist : forall L TK TC rl wl h, shuffle rl wl h ->
  forall a0 b0 a b, ac_hist L TK TC a0 rl a -> ac_hist L TK TC b0 wl b -> same_key a0 b0 ->
  (forall c, In c rl -> exists t r l, c = EcRead t r l) -> (forall c, In c wl -> exists m args l t r, c = EcWrite m args l t r) ->
  ac_hist L TK TC (mix a0 b0) h (mix a b).
Proof.
  intros L TK TC rl wl h S. induction S as [|x rl wl h S IH|x rl wl h S IH]; intros a0 b0 a b HA HB HK HR HW.
  - inversion HA; inversion HB; subst. constructor.
  - destruct (HR x (or_introl eq_refl)) as (t & r & l & ->). inversion HA; subst.
    match goal with H : exec _ _ _ |- _ => destruct (read_mix _ _ _ b0 _ _ _ HK H) as [X1 X2] end.
    match goal with |- ac_hist _ _ _ _ (EcRead _ _ (ac_last ?s1) :: _) _ => change (ac_last s1) with (ac_last (mix s1 b0)) end.
    econstructor; [exact X1|]. apply IH; auto. intros; apply HR; right; assumption.
  - destruct (HW x (or_introl eq_refl)) as (m & args & l & t & r & ->). inversion HB; subst.
    match goal with H : exec _ _ _ |- _ => destruct (write_mix _ _ a0 _ _ _ _ _ _ _ HK H) as [X1 X2] end.
    econstructor; [exact X1|]. apply IH; auto. intros; apply HW; right; assumption.
Qed.

(** The rest of a read, run alone *)
Definition app_end (TC : tchecker) (s : ac) (x : res bytes) : ac * res bytes :=
  match x with
  | Err e => (s, Err e)
  | Ok raw => match ac_interpret TC raw with
              | Err e => (s, Err e)
              | Ok (d, q) => (put_queue (ac_readq s ++ q) s, Ok d)
              end
  end.
Definition step2 (s : ac) : ac := put_rnonce (ec_read_nonce (ac_enc s) + 2) s.

Definition rinv (L : lib) (TC : tchecker) (p : dread) (a cur : ac) : Prop :=
  match p with
  | DOut => cur = a
  | DPop => cur = a /\ ac_readq a <> []
  | DTest => cur = a /\ ac_readq a = []
  | DWait => cur = a /\ ac_readq a = [] /\ ec_pushback (ac_enc a) = []
  | DPush raw => cur = a /\ ac_readq a = [] /\ ec_pushback (ac_enc a) = raw /\ raw <> []
  | DRaw t raw => exec (ac_read L TC a) t (Some (app_end TC (ac_set_enc (fst (ec_process L (ac_enc cur) raw)) cur) (snd (ec_process L (ac_enc cur) raw))))
  | DBody t body => exec (ac_read L TC a) t (Some (match ec_decrypt L (ac_enc cur) body with Ok c => app_end TC (step2 cur) (Ok c) | Err e => (cur, Err e) end))
  | DLoad t clear => exec (ac_read L TC a) t (Some (app_end TC (step2 cur) (Ok clear)))
  | DStore t clear v => exec (ac_read L TC a) t (Some (app_end TC (put_rnonce (v + 2) cur) (Ok clear)))
  | DClear t clear => exec (ac_read L TC a) t (Some (app_end TC cur (Ok clear)))
  | DQueue t d q => exec (ac_read L TC a) t (Some (put_queue (ac_readq cur ++ q) cur, Ok d))
  end.

Lemma app_end_spec : forall TC s er, ac_readq s = [] ->
  app_end TC s er = match er with
     | Err e => (s, Err e)
     | Ok raw => match ac_interpret TC raw with Err e => (s, Err e) | Ok (d, q) => (ac_set_readq q s, Ok d) end
     end.
Proof. intros TC s er H. unfold app_end. destruct er as [raw|]; [|reflexivity]. destruct (ac_interpret TC raw) as [[d q]|e]; [|reflexivity]. rewrite H. reflexivity. Qed.

Lemma drstep_inv : forall L TC cur b p s' p' o a, drstep L TC (mix cur b) p s' p' o -> rinv L TC p a cur -> same_key cur b ->
  exists cur', s' = mix cur' b /\ same_key cur' b /\
    match o with None => rinv L TC p' a cur' | Some (t, r) => p' = DOut /\ exec (ac_read L TC a) t (Some (cur', r)) end.
Proof.
  intros L TC cur b p s' p' o a H R K.
  assert (KK : forall c, ec_key (ac_enc c) = ec_key (ac_enc cur) -> ec_session_nonce (ac_enc c) = ec_session_nonce (ac_enc cur) -> same_key c b)
    by (intros c E1 E2; destruct K; split; congruence).
  remember (mix cur b) as s eqn:Es. destruct H; subst s; cbn [rinv] in R |- *.
  - exists cur. subst a. split; [reflexivity|]. split; [exact K|]. split; [reflexivity|exact H].
  - destruct R as [-> R]. exists (put_queue q a). split; [reflexivity|]. split; [apply KK; reflexivity|]. split; [reflexivity|]. apply (ac_read_queued L TC a m q H).
  - exists cur. subst a. split; [reflexivity|]. split; [exact K|]. split; [reflexivity|exact H].
  - destruct R as [-> R]. exists a. split; [reflexivity|]. split; [exact K|]. repeat split; auto.
  - destruct R as (-> & R1 & R2 & R3). exists (put_push [] a). split; [reflexivity|]. split; [apply KK; reflexivity|].
    subst raw. pose proof (ec_read_pushed L (ac_enc a) R3) as X. destruct (ec_process L (ec_set_pushback [] (ac_enc a)) (ec_pushback (ac_enc a))) as [e1 er] eqn:EP.
    pose proof (ac_read_fwd L TC a _ _ _ R1 X) as Y. cbn [put_push ac_enc]. rewrite EP. cbn [fst snd]. rewrite app_end_spec by exact R1. exact Y.
  - destruct R as [-> R]. exists a. split; [reflexivity|]. split; [exact K|]. repeat split; auto.
  - destruct R as (-> & R1 & R2). exists a. split; [reflexivity|]. split; [exact K|].
    pose proof (ec_read_get L (ac_enc a) raw R2) as X. destruct (ec_process L (ac_enc a) raw) as [e1 er] eqn:EP.
    pose proof (ac_read_fwd L TC a _ _ _ R1 X) as Y. cbn [fst snd]. rewrite app_end_spec by exact R1. exact Y.
  - destruct R as (-> & R1 & R2). exists a. split; [reflexivity|]. split; [exact K|]. split; [reflexivity|].
    pose proof (ac_read_fwd L TC a _ _ _ R1 (ec_read_fail L (ac_enc a) e R2)) as Y. cbn in Y.
    replace a with (ac_set_enc (ac_enc a) a) at 2 by (destruct a; reflexivity). exact Y.
  - exists (put_flag (ep_last_flag ep) cur). split; [reflexivity|]. split; [apply KK; reflexivity|].
    unfold ec_process, ec_unwrap in R. rewrite H, H0 in R. cbn [put_flag ac_enc].
    destruct (ec_decrypt L (ec_set_last_flag (ep_last_flag ep) (ac_enc cur)) body) as [c|e]; exact R.
  - exists (put_flag (ep_last_flag ep) cur). split; [reflexivity|]. split; [apply KK; reflexivity|]. split; [reflexivity|].
    unfold ec_process, ec_unwrap in R. rewrite H, H0 in R. exact R.
  - exists cur. split; [reflexivity|]. split; [exact K|]. split; [reflexivity|].
    unfold ec_process, ec_unwrap in R. rewrite H in R. cbn [fst snd app_end] in R.
    replace cur with (ac_set_enc (ac_enc cur) cur) by (destruct cur; reflexivity). exact R.
  - exists cur. split; [reflexivity|]. split; [exact K|]. change (ec_decrypt L (ac_enc (mix cur b)) body) with (ec_decrypt L (ac_enc cur) body) in H. rewrite H in R. exact R.
  - exists cur. split; [reflexivity|]. split; [exact K|]. change (ec_decrypt L (ac_enc (mix cur b)) body) with (ec_decrypt L (ac_enc cur) body) in H. rewrite H in R. auto.
  - exists cur. split; [reflexivity|]. split; [exact K|]. exact R.
  - exists (put_rnonce (v + 2) cur). split; [reflexivity|]. split; [apply KK; reflexivity|]. exact R.
  - exists cur. split; [reflexivity|]. split; [exact K|]. cbn [app_end] in R. rewrite H in R. exact R.
  - exists cur. split; [reflexivity|]. split; [exact K|]. split; [reflexivity|]. cbn [app_end] in R. rewrite H in R. exact R.
  - exists (put_queue (ac_readq cur ++ q) cur). split; [reflexivity|]. split; [apply KK; reflexivity|]. split; [reflexivity|]. exact R.
Qed.

(** The packets of a write *)
Definition raws_of (TK : tkeeper) (b : ac) (m : bytes) (args : list bytes) : list bytes :=
  match ac_buffered_m4 b with
  | Some d => [pkt_bytes (Pkt (m34_set_time (fst (tk_get TK (ac_tk b))) d) None)]
  | None => []
  end ++ ac_packets (fst (tk_get TK (ac_tk b))) (m :: args).
Definition prepend (out : list bytes) (x : res (list bytes)) : res (list bytes) :=
  match x with Ok fs => Ok (out ++ fs) | Err e => Err e end.
Definition wloop (L : lib) (TK : tkeeper) (b cur : ac) (c : dcall) (e : ec) (ms out : list bytes) : Prop :=
  match c with (m, args, last) =>
    cur = AC (ac_enc cur) (snd (tk_get TK (ac_tk b))) None (ac_readq b) /\
    ec_wrap_all L (ac_enc b) last (raws_of TK b m args) = (fst (ec_wrap_all L e last ms), prepend out (snd (ec_wrap_all L e last ms)))
  end.

Definition winv (L : lib) (TK : tkeeper) (w : dwrite) (b cur : ac) : Prop :=
  match w with
  | EOut => cur = b
  | ETime c => cur = b
  | ETest c now => now = fst (tk_get TK (ac_tk b)) /\ cur = put_tk (snd (tk_get TK (ac_tk b))) b
  | EClear c now raws => now = fst (tk_get TK (ac_tk b)) /\ cur = put_tk (snd (tk_get TK (ac_tk b))) b /\
      exists d, ac_buffered_m4 b = Some d /\ raws = [pkt_bytes (Pkt (m34_set_time now d) None)]
  | ELoop c ms out => wloop L TK b cur c (ac_enc cur) ms out
  | ELoad c ms out => wloop L TK b cur c (ec_advance_write (ac_enc cur)) ms out
  | EStore c ms out v => v = ec_write_nonce (ac_enc cur) /\ wloop L TK b cur c (ec_advance_write (ac_enc cur)) ms out
  end.

Lemma raws_some : forall TK b m args, exists p ps, raws_of TK b m args = p :: ps.
Proof.
  intros TK b m args. unfold raws_of. rewrite ac_packets_spec. pose proof (packets_nonempty (fst (tk_get TK (ac_tk b))) m args) as N.
  destruct (_ ++ _) as [|p ps] eqn:E; [apply app_eq_nil in E; tauto|eauto].
Qed.

Lemma ac_write_done : forall L TK b m args last e x, ec_wrap_all L (ac_enc b) last (raws_of TK b m args) = (e, x) ->
  forall r, exec (ac_write L TK m args last b) (match x with Ok fs => [EWrite fs last r] | Err _ => [] end)
    (Some (AC e (snd (tk_get TK (ac_tk b))) None (ac_readq b), match x with Ok _ => r | Err y => Err y end)).
Proof.
  intros L TK b m args last e x H r. destruct (raws_some TK b m args) as (p & ps & E). rewrite E in H. unfold raws_of in E.
  unfold ac_write. destruct (tk_get TK (ac_tk b)) as [now tk']. cbn [fst snd] in *. rewrite E. unfold mzoom, ec_write. cbn [ac_enc]. rewrite H.
  destruct x as [fs|y]; [unfold mwrite; cbn [iobind]; constructor|]; cbn [iobind fst snd ac_set_enc ac_tk ac_buffered_m4 ac_readq]; constructor.
Qed.

Lemma dwstep_inv : forall L TK a cur w s' w' o b, dwstep L TK (mix a cur) w s' w' o -> winv L TK w b cur -> same_key a cur ->
  exists cur', s' = mix a cur' /\ same_key a cur' /\
    match o with None => winv L TK w' b cur'
    | Some (m, args, last, t, r) => w' = EOut /\ exec (ac_write L TK m args last b) t (Some (cur', r)) end.
Proof.
  intros L TK a cur w s' w' o b H W K.
  assert (KK : forall c, ec_key (ac_enc c) = ec_key (ac_enc cur) -> ec_session_nonce (ac_enc c) = ec_session_nonce (ac_enc cur) -> same_key a c)
    by (intros c E1 E2; destruct K; split; congruence).
  assert (EN : forall p, ec_encrypt L (ac_enc (mix a cur)) p = ec_encrypt L (ac_enc cur) p) by (intro p; destruct K; apply encrypt_er; assumption).
  remember (mix a cur) as s eqn:Es. destruct H; subst s; cbn [winv] in W |- *.
  - subst cur. exists (put_tk (snd (tk_get TK (ac_tk b))) b). split; [reflexivity|]. split; [apply KK; reflexivity|]. auto.
  - destruct W as [W1 W2]. exists cur. split; [reflexivity|]. split; [exact K|]. split; [exact W1|]. split; [exact W2|]. exists d. split; [|reflexivity]. subst cur. exact H.
  - destruct W as (W1 & W2 & d & W3 & W4). exists (put_m4 None cur). split; [reflexivity|]. split; [apply KK; reflexivity|]. subst cur now raws.
    split; [reflexivity|]. cbn [put_m4 put_tk ac_enc]. unfold raws_of. rewrite W3. cbn [prepend].
    destruct (ec_wrap_all _ _ _ _) as [e1 [fs|e]]; reflexivity.
  - destruct W as [W1 W2]. exists cur. split; [reflexivity|]. split; [exact K|]. subst cur now. cbn [mix ac_buffered_m4 put_tk] in H.
    split; [unfold put_tk; cbn [ac_enc]; rewrite H; reflexivity|]. cbn [put_tk ac_enc]. unfold raws_of. rewrite H. cbn [app].
    destruct (ec_wrap_all _ _ _ _) as [e1 [fs|e]]; reflexivity.
  - rewrite EN in H. exists cur. split; [reflexivity|]. split; [exact K|]. destruct W as [W1 W2]. split; [exact W1|].
    rewrite W2. cbn [ec_wrap_all]. rewrite H. destruct (ec_wrap_all L (ec_advance_write (ac_enc cur)) last ms) as [e1 [fs|e]]; cbn [fst snd prepend]; [|reflexivity].
    rewrite <- app_assoc. reflexivity.
  - rewrite EN in H. exists cur. split; [reflexivity|]. split; [exact K|]. split; [reflexivity|]. destruct W as [W1 W2].
    cbn [ec_wrap_all] in W2. rewrite H in W2. cbn [fst snd prepend] in W2. rewrite W1. exact (ac_write_done L TK b m args last _ _ W2 (Ok tt)).
  - exists cur. split; [reflexivity|]. split; [exact K|]. auto.
  - destruct W as [-> W]. exists (put_wnonce (ec_write_nonce (ac_enc cur) + 2) cur). split; [reflexivity|]. split; [apply KK; reflexivity|].
    unfold wloop in *. destruct c as [[m args] last]. destruct W as [W1 W2]. split; [|exact W2]. rewrite W1 at 1. rewrite W1 at 4. rewrite W1. reflexivity.
  - exists cur. split; [reflexivity|]. split; [exact K|]. split; [reflexivity|]. destruct W as [W1 W2]. cbn [ec_wrap_all fst snd prepend] in W2. rewrite app_nil_r in W2.
    rewrite W1. exact (ac_write_done L TK b m args last _ _ W2 r).
Qed.

Definition in_call (p : dread) : nat := match p with DOut => 0 | _ => 1 end.
Definition of_call (w : dwrite) : list dcall :=
  match w with EOut => [] | ETime c | ETest c _ | EClear c _ _ | ELoop c _ _ | ELoad c _ _ | EStore c _ _ _ => [c] end.

Definition dinv (L : lib) (TK : tkeeper) (TC : tchecker) (s : ac) (n : nat) (cs : list dcall) (d : duplex) : Prop :=
  exists a b cr cw, ac_hist L TK TC s (d_rlog d) a /\ ac_hist L TK TC s (d_wlog d) b /\ d_ac d = mix cr cw /\ same_key cr cw /\
    rinv L TC (d_read d) a cr /\ winv L TK (d_write d) b cw /\
    (forall c, In c (d_rlog d) -> exists t r l, c = EcRead t r l) /\ (forall c, In c (d_wlog d) -> exists m args l t r, c = EcWrite m args l t r) /\
    (length (d_rlog d) + in_call (d_read d) + d_reads d)%nat = n /\
    concat (map written (d_wlog d)) ++ of_call (d_write d) ++ d_writes d = cs.

Lemma drstep_in : forall L TC s p s' p', drstep L TC s p s' p' None -> in_call p' = 1%nat.
Proof. intros L TC s p s' p' H. remember None as o. destruct H; try discriminate; reflexivity. Qed.
Lemma in_call_not : forall p, p <> DOut -> in_call p = 1%nat.
Proof. intros [] H; try reflexivity. congruence. Qed.
Lemma dwstep_of : forall L TK s w s' w' o, dwstep L TK s w s' w' o ->
  match o with None => of_call w' = of_call w | Some (m, args, last, _, _) => of_call w = [(m, args, last)] end.
Proof. intros L TK s w s' w' o H. destruct H; reflexivity. Qed.

Lemma dstep_inv : forall L TK TC s n cs d d', dstep L TK TC d d' -> dinv L TK TC s n cs d -> dinv L TK TC s n cs d'.
Proof.
  intros L TK TC s n cs d d' H (a & b & cr & cw & I1 & I2 & I3 & I4 & I5 & I6 & I7 & I8 & I9 & I10).
  destruct H; cbn [d_ac d_read d_reads d_write d_writes d_rlog d_wlog] in *; subst s0.
  - destruct (drstep_inv _ _ _ _ _ _ _ _ a H I5 I4) as (cr' & -> & J1 & J2). exists a, b, cr', cw. cbn [d_ac d_read d_reads d_write d_writes d_rlog d_wlog].
    rewrite (drstep_in _ _ _ _ _ _ H). cbn [in_call] in I9. repeat (split; [assumption||reflexivity|]). first [exact I10|split; [lia|exact I10]].
  - destruct (drstep_inv _ _ _ _ _ _ _ _ a H0 I5 I4) as (cr' & -> & J1 & J2). exists a, b, cr', cw. cbn [d_ac d_read d_reads d_write d_writes d_rlog d_wlog].
    rewrite (drstep_in _ _ _ _ _ _ H0). rewrite (in_call_not _ H) in I9. repeat (split; [assumption||reflexivity|]). first [exact I10|split; [lia|exact I10]].
  - destruct (drstep_inv _ _ _ _ _ _ _ _ a H0 I5 I4) as (cr' & -> & J1 & -> & J2). exists cr', b, cr', cw. cbn [d_ac d_read d_reads d_write d_writes d_rlog d_wlog].
    rewrite (in_call_not _ H) in I9. split; [|split; [exact I2|split; [reflexivity|split; [exact J1|split; [reflexivity|split; [exact I6|split; [|split; [exact I8|split; [|exact I10]]]]]]]]].
    + eapply ac_hist_app; [exact I1|]. change (ac_last (mix cr' cw)) with (ac_last cr'). econstructor; [exact J2|constructor].
    + intros c Hc. apply in_app_iff in Hc as [Hc|[<-|[]]]; [auto|eauto].
    + rewrite app_length. cbn [length in_call]. lia.
  - exists a, b, cr, cw. cbn [d_ac d_read d_reads d_write d_writes d_rlog d_wlog]. repeat (split; [assumption||reflexivity|]). exact I10.
  - destruct (dwstep_inv _ _ _ _ _ _ _ _ b H I6 I4) as (cw' & -> & J1 & J2). exists a, b, cr, cw'. cbn [d_ac d_read d_reads d_write d_writes d_rlog d_wlog].
    rewrite (dwstep_of _ _ _ _ _ _ _ H). repeat (split; [assumption||reflexivity|]). exact I10.
  - pose proof (dwstep_of _ _ _ _ _ _ _ H) as OC. cbn in OC. rewrite OC in I10.
    destruct (dwstep_inv _ _ _ _ _ _ _ _ b H I6 I4) as (cw' & -> & J1 & -> & J2). exists a, cw', cr, cw'. cbn [d_ac d_read d_reads d_write d_writes d_rlog d_wlog].
    split; [exact I1|]. split; [eapply ac_hist_app; [exact I2|econstructor; [exact J2|constructor]]|]. split; [reflexivity|]. split; [exact J1|]. split; [exact I5|]. split; [reflexivity|].
    split; [exact I7|]. split; [intros c Hc; apply in_app_iff in Hc as [Hc|[<-|[]]]; [auto|eauto 10]|]. split; [exact I9|].
    rewrite map_app, concat_app. cbn [map concat written of_call app]. cbn [app] in I10. rewrite <- app_assoc. exact I10.
Qed.

(** ** C135: one thread reads [n] times from an application channel while another one makes
    the writes [cs], each in its own loop, switched at any point between two accesses to an
    attribute.  Whenever the writer is between calls, and the reader between calls or waiting
    for a message, every shuffle of the calls that have returned is a history of the channel
    in which they are made one after the other with the same results, the same frames read and
    written and the same final state.  So neither thread can notice the other. *)
Theorem C135_duplex : forall L TK TC s n cs d,
  dsteps L TK TC (dinit s n cs) d -> idle (d_read d) -> d_write d = EOut ->
  (forall h, shuffle (d_rlog d) (d_wlog d) h -> ac_hist L TK TC s h (d_ac d)) /\
  (length (d_rlog d) + in_call (d_read d) + d_reads d)%nat = n /\
  concat (map written (d_wlog d)) ++ d_writes d = cs.
Proof.
  intros L TK TC s n cs d HS HI HW.
  assert (I : dinv L TK TC s n cs d).
  { assert (I0 : dinv L TK TC s n cs (dinit s n cs)).
    { exists s, s, s, s. cbn. repeat split; try constructor; try (symmetry; apply mix_self); intros c []. }
    revert I0. clear HI HW. induction HS as [d|d d1 d2 H1 H2 IH]; [trivial|]. intro I0. apply IH. eapply dstep_inv; eauto. }
  destruct I as (a & b & cr & cw & I1 & I2 & I3 & I4 & I5 & I6 & I7 & I8 & I9 & I10). rewrite HW in *. cbn [winv of_call app] in *. subst cw.
  assert (cr = a) by (destruct HI as [E|E]; rewrite E in I5; cbn in I5; tauto). subst cr.
  split; [|auto]. intros h Hh. rewrite I3, <- (mix_self s). eapply shuffle_hist; eauto. split; reflexivity.
Qed.
Print Assumptions C135_duplex.

(** The writer is never held up by the reader, in particular while it waits for a message. *)
Theorem C135_writer_runs : forall L TK TC d, d_write d <> EOut \/ d_writes d <> [] ->
  exists d', dstep L TK TC d d' /\ d_read d' = d_read d /\ d_reads d' = d_reads d /\ d_rlog d' = d_rlog d.
Proof.
  intros L TK TC [s p n w cs rl wl] H. cbn [d_write d_writes] in H.
  destruct w as [|c|c now|c now raws|c ms out|c ms out|c ms out v].
  - destruct cs as [|c cs]; [destruct H; congruence|]. eexists. split; [apply ds_call|auto].
  - eexists. split; [apply ds_write; apply dw_time|auto].
  - destruct c as [[m args] last]. destruct (ac_buffered_m4 s) as [dd|] eqn:E; eexists; (split; [apply ds_write; first [eapply dw_m4; exact E|apply dw_plain; exact E]|auto]).
  - destruct c as [[m args] last]. eexists. split; [apply ds_write; apply dw_clear|auto].
  - destruct c as [[m args] last]. destruct ms as [|q ms].
    + eexists. split; [eapply ds_written; apply (dw_send L TK s m args last out (Ok tt))|auto].
    + destruct (ec_encrypt L (ac_enc s) q) as [x|e] eqn:E.
      * eexists. split; [apply ds_write; eapply dw_encrypt; exact E|auto].
      * eexists. split; [eapply ds_written; eapply dw_raise; exact E|auto].
  - eexists. split; [apply ds_write; apply dw_load|auto].
  - eexists. split; [apply ds_write; apply dw_store|auto].
Qed.
Print Assumptions C135_writer_runs.

(** Nor is the reader held up by the writer: in every state that can be reached it can make a
    step, where it waits for a message for every message that arrives. *)
Theorem C135_reader_runs : forall L TK TC s n cs d raw,
  dsteps L TK TC (dinit s n cs) d -> d_read d <> DOut \/ d_reads d <> 0%nat ->
  exists d', dstep L TK TC d d' /\ d_write d' = d_write d /\ d_writes d' = d_writes d /\ d_wlog d' = d_wlog d /\
    (d_read d = DWait -> d_read d' = DRaw [ERead (Ok raw)] raw).
Proof.
  intros L TK TC s n cs d raw HS H.
  assert (I : dinv L TK TC s n cs d).
  { assert (I0 : dinv L TK TC s n cs (dinit s n cs)).
    { exists s, s, s, s. cbn. repeat split; try constructor; try (symmetry; apply mix_self); intros c []. }
    revert I0. clear H. induction HS as [d|d d1 d2 H1 H2 IH]; [trivial|]. intro I0. apply IH. eapply dstep_inv; eauto. }
  destruct I as (a & b & cr & cw & _ & _ & I3 & _ & I5 & _). clear HS. destruct d as [s0 p k w ws rl wl]. cbn [d_ac d_read d_reads d_write d_writes d_rlog d_wlog] in *. subst s0.
  destruct p as [| | |r0| |t r0|t body|t c|t c v|t c|t d0 q]; cbn [rinv] in I5.
  - destruct k as [|k]; [destruct H; congruence|]. destruct (ac_readq cr) as [|m q] eqn:E.
    + eexists. split; [apply ds_begin; apply dr_empty; exact E|]. repeat split. discriminate.
    + eexists. split; [apply ds_begin; apply dr_queued; cbn [mix ac_readq]; rewrite E; discriminate|]. repeat split. discriminate.
  - destruct I5 as [-> I5]. destruct (ac_readq a) as [|m q] eqn:E; [congruence|].
    eexists. split; [eapply ds_return; [discriminate|apply (dr_pop L TC (mix a cw) m q E)]|]. repeat split. discriminate.
  - destruct (ec_pushback (ac_enc cr)) as [|x y] eqn:E.
    + eexists. split; [apply ds_read; [discriminate|apply dr_wait; exact E]|]. repeat split. discriminate.
    + eexists. split; [apply ds_read; [discriminate|apply dr_pushed; cbn [mix ac_enc ec_pushback]; rewrite E; discriminate]|]. repeat split. discriminate.
  - eexists. split; [apply ds_read; [discriminate|apply dr_push]|]. repeat split. discriminate.
  - eexists. split; [apply ds_read; [discriminate|apply (dr_get L TC _ raw)]|]. repeat split.
  - destruct (ep_ctor r0) as [ep|e] eqn:E1.
    + destruct (ep_body ep) as [body|e] eqn:E2.
      * eexists. split; [apply ds_read; [discriminate|eapply dr_unwrap; eauto]|]. repeat split. discriminate.
      * eexists. split; [eapply ds_return; [discriminate|eapply dr_nobody; eauto]|]. repeat split. discriminate.
    + eexists. split; [eapply ds_return; [discriminate|eapply dr_unwrap_err; eauto]|]. repeat split. discriminate.
  - destruct (ec_decrypt L (ac_enc (mix cr cw)) body) as [c|e] eqn:E.
    + eexists. split; [apply ds_read; [discriminate|eapply dr_decrypt; eauto]|]. repeat split. discriminate.
    + eexists. split; [eapply ds_return; [discriminate|eapply dr_decrypt_err; eauto]|]. repeat split. discriminate.
  - eexists. split; [apply ds_read; [discriminate|apply dr_load]|]. repeat split. discriminate.
  - eexists. split; [apply ds_read; [discriminate|apply dr_store]|]. repeat split. discriminate.
  - destruct (ac_interpret TC c) as [[d0 q]|e] eqn:E.
    + eexists. split; [apply ds_read; [discriminate|eapply dr_parse; eauto]|]. repeat split. discriminate.
    + eexists. split; [eapply ds_return; [discriminate|eapply dr_parse_err; eauto]|]. repeat split. discriminate.
  - eexists. split; [eapply ds_return; [discriminate|apply dr_extend]|]. repeat split. discriminate.
Qed.
Print Assumptions C135_reader_runs.

(** The server reads [x61] of the client in one thread while another one writes [x62]; the
    steps alternate, the two additions to the nonces among them. *)
Definition ex_in : list bytes := frames_out (fst (ac_run toy_lib null_keeper null_checker (ex_app CLIENT) [OpWrite [x61] [] true (Ok tt)])).
Example C135_example : exists d,
  dsteps toy_lib null_keeper null_checker (dinit (ex_app SERVER) 2 [([x62], [], false)]) d /\
  idle (d_read d) /\ d_write d = EOut /\ got_msgs (d_rlog d) = [([x61], true)] /\ frames_in (d_rlog d) = ex_in /\
  sent_msgs (d_wlog d) = [([x62], false)] /\ ec_read_nonce (ac_enc (d_ac d)) = 3 /\ ec_write_nonce (ac_enc (d_ac d)) = 4.
Proof.
  assert (EX : ex_in = [hd [] ex_in]) by (vm_compute; reflexivity).
  eexists. split.
  - unfold dinit.
    eapply dss_step; [apply ds_begin; apply dr_empty; reflexivity|].
    eapply dss_step; [apply ds_read; [discriminate|apply dr_wait; reflexivity]|].
    eapply dss_step; [apply ds_call|].
    eapply dss_step; [apply ds_write; apply dw_time|].
    eapply dss_step; [apply ds_read; [discriminate|apply (dr_get _ _ _ (hd [] ex_in))]|].
    eapply dss_step; [apply ds_write; apply dw_plain; reflexivity|].
    eapply dss_step; [apply ds_read; [discriminate|eapply dr_unwrap; vm_compute; reflexivity]|].
    eapply dss_step; [apply ds_write; eapply dw_encrypt; vm_compute; reflexivity|].
    eapply dss_step; [apply ds_read; [discriminate|eapply dr_decrypt; vm_compute; reflexivity]|].
    eapply dss_step; [apply ds_read; [discriminate|apply dr_load]|].
    eapply dss_step; [apply ds_write; apply dw_load|].
    eapply dss_step; [apply ds_read; [discriminate|apply dr_store]|].
    eapply dss_step; [apply ds_write; apply dw_store|].
    eapply dss_step; [apply ds_read; [discriminate|eapply dr_parse; vm_compute; reflexivity]|].
    eapply dss_step; [eapply ds_written; apply (dw_send _ _ _ _ _ _ _ (Ok tt))|].
    eapply dss_step; [eapply ds_return; [discriminate|apply dr_extend]|].
    eapply dss_step; [apply ds_begin; apply dr_empty; reflexivity|].
    eapply dss_step; [apply ds_read; [discriminate|apply dr_wait; reflexivity]|].
    apply dss_nil.
  - split; [right; reflexivity|]. rewrite EX. vm_compute. repeat split.
Qed.
