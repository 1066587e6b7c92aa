(** Lemmas about the application channel. *)
From Coq Require Import List ZArith Bool Strings.Byte Lia ZifyBool ZifyNat ZifyN.
From Verif Require Import PyBase PyBase_proofs IO IO_proofs Packets Packets_proofs Packets_proofs2
  Crypto Time EncChannel EncUse EncChannel_proofs AppChannel AppUse Spec.
Import ListNotations.
Open Scope Z_scope.
Ltac Zify.zify_post_hook ::= Z.div_mod_to_equations.

(** ** Packets of one write *)
Lemma should_use_spec : forall msgs,
  should_use msgs = (1 <? Z.of_nat (length msgs)) && forallb short msgs.
Proof.
  intro msgs. unfold should_use.
  assert (HE : existsb (fun m => MAX_SIZE <? zlen m) msgs = negb (forallb short msgs)).
  { induction msgs as [|m r IH]; auto. cbn [existsb forallb]. rewrite IH. unfold short, MAX_SIZE, zlen.
    destruct (Z.ltb_spec 65535 (Z.of_nat (length m))), (Z.leb_spec (Z.of_nat (length m)) 65535); try lia; auto. }
  rewrite HE. unfold zlen.
  destruct (forallb short msgs), (Z.ltb_spec (Z.of_nat (length msgs)) 2), (Z.ltb_spec 1 (Z.of_nat (length msgs)));
    cbn [orb andb negb]; try reflexivity; exfalso; lia.
Qed.

Lemma ac_packets_spec : forall t msgs, ac_packets t msgs = packets t msgs.
Proof.
  intros t msgs. unfold ac_packets, packets. rewrite should_use_spec.
  destruct ((1 <? Z.of_nat (length msgs)) && forallb short msgs).
  - f_equal. apply multi_bytes_wire.
  - apply map_ext. intro m. apply app_bytes_wire.
Qed.

Lemma packets_nonempty : forall t m args, packets t (m :: args) <> [].
Proof. intros. unfold packets. destruct (_ && _); discriminate. Qed.

Lemma m34_set_time_wire : forall b t t' k s,
  m34_set_time t ([b; x00] ++ u32le t' ++ k ++ s) = [b; x00] ++ u32le t ++ k ++ s.
Proof. intros. unfold m34_set_time, fput_int. rewrite le_enc_u32. reflexivity. Qed.

(** ** Single calls *)
Lemma ac_write_exec : forall L TK m args last s t s1 r,
  exec (ac_write L TK m args last s) t (Some (s1, r)) ->
  exists p ps e1,
    p :: ps = match ac_buffered_m4 s with
              | Some d => [pkt_bytes (Pkt (m34_set_time (fst (tk_get TK (ac_tk s))) d) None)]
              | None => [] end ++ packets (fst (tk_get TK (ac_tk s))) (m :: args) /\
    exec (ec_write L p ps last (ac_enc s)) t (Some (e1, r)) /\
    s1 = AC e1 (snd (tk_get TK (ac_tk s))) None (ac_readq s).
Proof.
  intros L TK m args last s t s1 r H. unfold ac_write in H.
  destruct (tk_get TK (ac_tk s)) as [now tk'] eqn:ET. cbn [fst snd]. rewrite ac_packets_spec in H.
  pose proof (packets_nonempty now m args) as HN.
  destruct (match ac_buffered_m4 s with
            | Some d => [pkt_bytes (Pkt (m34_set_time now d) None)]
            | None => [] end ++ packets now (m :: args)) as [|p ps] eqn:EP.
  { exfalso. apply app_eq_nil in EP. tauto. }
  apply exec_mzoom in H. destruct H as (e1 & H1 & ->). exists p, ps, e1. auto.
Qed.

Lemma ac_read_exec : forall L TC s t s1 r, exec (ac_read L TC s) t (Some (s1, r)) ->
  (exists m q, ac_readq s = m :: q /\ t = [] /\ r = Ok m /\ s1 = ac_set_readq q s) \/
  (ac_readq s = [] /\ exists e1 er, exec (ec_read L (ac_enc s)) t (Some (e1, er)) /\
     match er with
     | Err e => r = Err e /\ s1 = ac_set_enc e1 s
     | Ok raw => match ac_interpret TC raw with
                 | Err e => r = Err e /\ s1 = ac_set_enc e1 s
                 | Ok (d, q) => r = Ok d /\ s1 = ac_set_readq q (ac_set_enc e1 s)
                 end
     end).
Proof.
  intros L TC s t s1 r H. unfold ac_read in H.
  rewrite (mbind_ret _ _ _ mget _ s s s eq_refl) in H.
  destruct (ac_readq s) as [|m q] eqn:EQ.
  - right. split; auto. apply exec_mbind in H.
    destruct H as (t1 & t2 & s' & ra & -> & H1 & H2). apply exec_mzoom in H1.
    destruct H1 as (e1 & H1 & ->). destruct ra as [raw|e].
    + apply exec_mbind in H2. destruct H2 as (t3 & t4 & s3 & rb & -> & H3 & H4).
      apply exec_ret_inv in H3. destruct H3 as [-> H3]. injection H3 as -> ->. cbn [app] in *.
      exists e1, (Ok raw). destruct (ac_interpret TC raw) as [[d q]|e].
      * apply exec_ret_inv in H4. destruct H4 as [-> H4]. cbn [fst snd] in H4. injection H4 as -> ->.
        rewrite app_nil_r. auto.
      * destruct H4 as (-> & -> & ->). rewrite app_nil_r. auto.
    + destruct H2 as (-> & -> & ->). rewrite app_nil_r. exists e1, (Err e). auto.
  - left. exists m, q. apply exec_ret_inv in H. destruct H as [-> H]. cbn in H. injection H as -> ->. auto.
Qed.

(** ** The calls made on the encrypted channel below *)
Lemma app_to_enc : forall L TK TC s h s', ac_hist L TK TC s h s' ->
  forall m4 t0, ac_buffered_m4 s = match m4 with Some (k, g) => Some (M4_wire t0 k g) | None => None end ->
  exists eh, ec_hist L (ac_enc s) eh (ac_enc s') /\
    frames_out eh = frames_out h /\ frames_in eh = frames_in h /\
    sent_msgs eh = clear_texts TK (ac_tk s) m4 h.
Proof.
  intros L TK TC s h s' H.
  induction H as [s|s t s1 r h s2 HX HH IH|s m args last t s1 r h s2 HX HH IH]; intros m4 t0 HM.
  - exists []. repeat split. constructor.
  - apply ac_read_exec in HX.
    destruct HX as [(m & q & HQ & -> & -> & ->)|(HQ & e1 & er & HE & HR)].
    + destruct (IH m4 t0) as (eh & E1 & E2 & E3 & E4); auto.
      exists eh. rewrite frames_out_cons, frames_in_cons. cbn [call_events map concat app clear_texts ac_enc ac_tk ac_set_readq] in *. auto.
    + assert (HS1 : ac_enc s1 = e1 /\ ac_tk s1 = ac_tk s /\ ac_buffered_m4 s1 = ac_buffered_m4 s).
      { destruct er as [raw|e]; [destruct (ac_interpret TC raw) as [[d q]|e]|]; destruct HR as [_ ->]; auto. }
      destruct HS1 as (Ha & Hb & Hc).
      destruct (IH m4 t0) as (eh & E1 & E2 & E3 & E4); [congruence|].
      rewrite Ha in E1. exists (EcRead t er (ec_last_flag e1) :: eh).
      split; [econstructor; eauto|]. rewrite !frames_out_cons, !frames_in_cons. cbn [call_events].
      rewrite E2, E3. split; auto. split; auto.
      unfold sent_msgs. cbn [map call_sent concat app clear_texts]. fold (sent_msgs eh). rewrite E4, Hb. reflexivity.
  - apply ac_write_exec in HX. destruct HX as (p & ps & e1 & HP & HE & ->).
    destruct (IH None 0) as (eh & E1 & E2 & E3 & E4); [reflexivity|]. cbn [ac_enc ac_tk] in *.
    exists (EcWrite p ps last t r :: eh). split; [econstructor; eauto|].
    rewrite !frames_out_cons, !frames_in_cons. cbn [call_events].
    rewrite E2, E3. split; auto. split; auto.
    unfold sent_msgs. cbn [map call_sent concat clear_texts]. fold (sent_msgs eh). rewrite E4.
    destruct (tk_get TK (ac_tk s)) as [now tk'] eqn:ET. cbn [fst snd] in *.
    f_equal. destruct t as [|ev0 t]; [reflexivity|]. cbn [is_empty]. rewrite HP, HM.
    destruct m4 as [[k g]|]; [|reflexivity]. unfold M4_wire, pkt_bytes.
    cbn [p_data p_opt opt_bytes]. rewrite m34_set_time_wire, app_nil_r. reflexivity.
Qed.

(** ** Reading packets *)

(** [raw] is interpreted as the messages [ms]. *)
Definition decodes (TC : tchecker) (raw : bytes) (ms : list bytes) : Prop :=
  exists d q, ac_interpret TC raw = Ok (d, q) /\ ms = d :: q.

Lemma app_got : forall L TK TC s h s', ac_hist L TK TC s h s' ->
  exists eh, ec_hist L (ac_enc s) eh (ac_enc s') /\
    frames_out eh = frames_out h /\ frames_in eh = frames_in h /\
    forall mss, Forall2 (decodes TC) (map fst (got_msgs eh)) mss ->
      map fst (got_msgs h) ++ ac_readq s' = ac_readq s ++ concat mss.
Proof.
  intros L TK TC s h s' H.
  induction H as [s|s t s1 r h s2 HX HH IH|s m args last t s1 r h s2 HX HH IH].
  - exists []. repeat split; [constructor|]. intros mss HF. inversion HF; subst. cbn. rewrite app_nil_r. reflexivity.
  - destruct IH as (eh & E1 & E2 & E3 & E4). apply ac_read_exec in HX.
    destruct HX as [(m & q & HQ & -> & -> & ->)|(HQ & e1 & er & HE & HR)].
    + exists eh. rewrite frames_out_cons, frames_in_cons. cbn [call_events map concat app ac_enc ac_set_readq] in *.
      repeat split; auto. intros mss HF. rewrite got_cons, HQ. cbn [call_got app map fst].
      f_equal. rewrite (E4 mss HF). reflexivity.
    + assert (HS1 : ac_enc s1 = e1).
      { destruct er as [raw|e]; [destruct (ac_interpret TC raw) as [[d q]|e]|]; destruct HR as [_ ->]; auto. }
      rewrite HS1 in E1. exists (EcRead t er (ec_last_flag e1) :: eh).
      split; [econstructor; eauto|]. rewrite !frames_out_cons, !frames_in_cons. cbn [call_events].
      rewrite E2, E3. split; auto. split; auto. intros mss HF. rewrite got_cons in *. rewrite HQ.
      destruct er as [raw|e].
      * cbn [call_got app map fst] in HF. inversion HF as [|x ms l ls (d & q & Hi & ->) HF' Hx]; subst.
        rewrite Hi in HR. destruct HR as [-> Hs]. cbn [call_got app map fst concat].
        rewrite (E4 ls HF'), Hs. reflexivity.
      * destruct HR as [-> Hs]. cbn [call_got app map] in *. rewrite (E4 mss HF), Hs. cbn. rewrite HQ. reflexivity.
  - destruct IH as (eh & E1 & E2 & E3 & E4). apply ac_write_exec in HX.
    destruct HX as (p & ps & e1 & HP & HE & ->). cbn [ac_enc ac_readq] in *.
    exists (EcWrite p ps last t r :: eh). split; [econstructor; eauto|].
    rewrite !frames_out_cons, !frames_in_cons. cbn [call_events]. rewrite E2, E3.
    split; auto.
Qed.

(** Interpretation of the packets of the specification. *)
Lemma interpret_app : forall TC b t0 t1 t2 t3 d,
  ac_interpret TC (x05 :: b :: t0 :: t1 :: t2 :: t3 :: d) =
  match tc_check TC (le_dec [t0; t1; t2; t3]) with Ok _ => Ok (d, []) | Err e => Err e end.
Proof.
  intros. unfold ac_interpret.
  change (x05 :: b :: t0 :: t1 :: t2 :: t3 :: d) with ([x05; b; t0; t1; t2; t3] ++ d).
  rewrite app_ctor_spec by reflexivity. reflexivity.
Qed.

Lemma interpret_multi : forall TC src ms, Multi_frame src ms ->
  ac_interpret TC src =
  match tc_check TC (le_dec (firstn 4 (skipn 2 src))) with
  | Err e => Err e
  | Ok _ => match ms with m :: r => Ok (m, r) | [] => Err IndexError end
  end.
Proof.
  intros TC src ms HF. pose proof (multi_accept_fwd src ms HF) as HC. unfold ac_interpret. rewrite HC.
  destruct HF as (r & t0 & t1 & t2 & t3 & c0 & c1 & init & last & an & rest & -> & _).
  set (tl := Multi_payload init ++ u16le an ++ last ++ rest).
  change ([x0b; r; t0; t1; t2; t3; c0; c1] ++ tl)
    with ([x0b; r; t0; t1; t2; t3] ++ (c0 :: c1 :: tl)).
  rewrite app_ctor_spec by reflexivity. reflexivity.
Qed.

Lemma app_wire_decodes : forall TC t m, (forall x, tc_check TC x = Ok tt) -> decodes TC (App_wire t m) [m].
Proof.
  intros TC t m HT. exists m, []. split; auto. unfold App_wire, u32le. cbn [app].
  rewrite interpret_app, HT. reflexivity.
Qed.

Lemma multi_wire_decodes : forall TC t ms, (forall x, tc_check TC x = Ok tt) ->
  ms <> [] -> zlen ms <= 65535 -> (forall m, In m ms -> zlen m <= 65535) ->
  decodes TC (Multi_wire t ms) ms.
Proof.
  intros TC t ms HT Hne HL Hm. pose proof (Multi_wire_frame t ms [] Hne HL Hm) as HF.
  rewrite app_nil_r in HF. destruct ms as [|m r]; [congruence|]. exists m, r. split; auto.
  rewrite (interpret_multi _ _ _ HF), HT. reflexivity.
Qed.

Lemma packets_decode : forall TC t msgs, (forall x, tc_check TC x = Ok tt) -> fits msgs ->
  exists mss, Forall2 (decodes TC) (packets t msgs) mss /\ concat mss = msgs.
Proof.
  intros TC t msgs HT HF. unfold packets.
  destruct ((1 <? Z.of_nat (length msgs)) && forallb short msgs) eqn:E.
  - apply andb_prop in E. destruct E as [E1 E2]. rewrite forallb_forall in E2.
    exists [msgs]. split; [|cbn; apply app_nil_r]. constructor; [|constructor].
    apply multi_wire_decodes; auto.
    + intros ->. discriminate.
    + destruct HF as [HF|(m & Hm & Hl)]; [exact HF|]. apply E2 in Hm. unfold short in Hm. lia.
    + intros m Hm. apply E2 in Hm. unfold short, zlen in *. lia.
  - exists (map (fun m => [m]) msgs). split.
    + clear HF E. induction msgs as [|m r IH]; constructor; auto. apply app_wire_decodes; auto.
    + clear HF E. induction msgs as [|m r IH]; auto. cbn. f_equal. exact IH.
Qed.

Lemma mark_fst' : forall l ms, map fst (mark l ms) = ms.
Proof. intros. apply mark_fst. Qed.

(** The messages of the write calls that reached the channel below. *)
Lemma texts_decode : forall TK TC tk h, (forall x, tc_check TC x = Ok tt) ->
  (forall m args last t r, In (EcWrite m args last t r) h -> fits (m :: args)) ->
  exists mss, Forall2 (decodes TC) (map fst (clear_texts TK tk None h)) mss /\
    concat mss = map fst (sent_msgs h).
Proof.
  intros TK TC tk h HT. revert tk. induction h as [|c h IH]; intros tk Hf.
  - exists []. repeat constructor.
  - destruct c as [t r l|m args last t r].
    + destruct (IH tk) as (mss & H1 & H2); [intros; eapply Hf; right; eauto|].
      exists mss. split; auto.
    + cbn [clear_texts]. destruct (tk_get TK tk) as [now tk'].
      destruct (IH tk') as (mss & H1 & H2); [intros; eapply Hf; right; eauto|].
      destruct t as [|e t].
      * exists mss. split; auto.
      * destruct (packets_decode TC now (m :: args) HT) as (m1 & H3 & H4); [eapply Hf; left; eauto|].
        exists (m1 ++ mss). cbn [is_empty]. rewrite map_app, mark_fst'. split; [apply Forall2_app; auto|].
        rewrite concat_app, H4, H2. unfold sent_msgs. cbn [map call_sent concat].
        rewrite map_app, mark_fst'. reflexivity.
Qed.

(** Prefixes of decoded packets. *)
Lemma Forall2_firstn : forall A B (R : A -> B -> Prop) n l l', Forall2 R l l' ->
  Forall2 R (firstn n l) (firstn n l').
Proof. intros A B R n l l' H. revert n. induction H; intros [|n]; cbn; constructor; auto. Qed.

Lemma concat_firstn_prefix : forall A n (l : list (list A)), exists r, concat l = concat (firstn n l) ++ r.
Proof. intros A n l. exists (concat (skipn n l)). rewrite <- concat_app, firstn_skipn. reflexivity. Qed.

Lemma firstn_map' : forall A B (f : A -> B) n l, firstn n (map f l) = map f (firstn n l).
Proof. intros. apply firstn_map. Qed.

(** ** Delivery between linked channels *)
Lemma linked_deliver : forall L sp ep s r hs s' hr r',
  nacl_laws L sp ep -> linked s r -> ec_hist L s hs s' -> ec_hist L r hr r' ->
  prefix_of (frames_in hr) (frames_out hs) ->
  got_msgs hr = firstn (length (frames_in hr)) (sent_msgs hs) /\
  length (got_msgs hr) = length (frames_in hr) /\
  length (sent_msgs hs) = length (frames_out hs).
Proof.
  intros L sp ep s r hs s' hr r' HL (Hk & Hsn & K & N & P & W & R) H1 H2 [rest HP].
  destruct (hist_sent L sp ep s hs s' HL H1) as (HS & _); auto.
  rewrite HP in HS.
  assert (HG : got_msgs hr = firstn (length (frames_in hr)) (sent_msgs hs)).
  { eapply (hist_deliver L sp ep r hr r' HL H2 ltac:(rewrite K; exact Hk) ltac:(rewrite N; exact Hsn) P).
    - rewrite K, N, R. exact HS.
    - apply mixed_refl. }
  apply sealed_all_length in HS. rewrite HP.
  split; [exact HG|]. rewrite HG, HS. split; [|reflexivity].
  apply firstn_length_le. rewrite app_length in HS. lia.
Qed.

(** Reads that fail although every delivered frame was accepted and understood:
    the channel below failed. *)
Definition call_frames (c : ecall) : list bytes := concat (map ev_in (call_events c)).

Lemma got_le_frames : forall L s h s', ec_hist L s h s' -> ec_pushback s = [] ->
  (length (got_msgs h) <= length (frames_in h))%nat.
Proof.
  intros L s h s' H. induction H as [s|s t s1 r h s2 HX HH IH|s m args last t s1 r h s2 HX HH IH]; intro Hp.
  - apply le_n.
  - apply ec_read_call in HX; auto. destruct HX as (Hp1 & _ & _ & HC). specialize (IH Hp1).
    rewrite got_cons, frames_in_cons, !app_length. cbn [call_events].
    destruct HC as [(f & m & -> & -> & _)|(e & -> & _)]; cbn [call_got length map concat ev_in app]; lia.
  - apply ec_write_state in HX. destruct HX as (_ & _ & _ & Hp1 & _). rewrite Hp in Hp1. specialize (IH Hp1).
    rewrite got_cons, frames_in_cons, !app_length. cbn [call_got length]. lia.
Qed.

Lemma app_errors : forall L TK TC s h s', ac_hist L TK TC s h s' -> ec_pushback (ac_enc s) = [] ->
  exists eh, ec_hist L (ac_enc s) eh (ac_enc s') /\
    frames_out eh = frames_out h /\ frames_in eh = frames_in h /\
    forall mss, Forall2 (decodes TC) (map fst (got_msgs eh)) mss ->
      map fst (got_msgs h) ++ ac_readq s' = ac_readq s ++ concat mss /\
      (length (got_msgs eh) = length (frames_in eh) ->
       forall t e l, In (EcRead t (Err e) l) h -> t = [ERead (Err e)]).
Proof.
  intros L TK TC s h s' H.
  induction H as [s|s t s1 r h s2 HX HH IH|s m args last t s1 r h s2 HX HH IH]; intro Hp.
  - exists []. split; [constructor|]. split; [reflexivity|]. split; [reflexivity|].
    intros mss HF. inversion HF; subst. cbn. rewrite app_nil_r. split; [reflexivity|]. intros _ t e l [].
  - apply ac_read_exec in HX.
    destruct HX as [(m & q & HQ & -> & -> & ->)|(HQ & e1 & er & HE & HR)].
    + destruct IH as (eh & E1 & E2 & E3 & E4); [exact Hp|].
      exists eh. rewrite frames_out_cons, frames_in_cons. cbn [call_events map concat app ac_enc ac_set_readq] in *.
      split; [auto|]. split; [auto|]. split; [auto|].
      intros mss HF. destruct (E4 mss HF) as [E5 E6]. split.
      * rewrite got_cons, HQ. cbn [call_got app map fst]. f_equal. rewrite E5. reflexivity.
      * intros Hl t e l [Hin|Hin]; [discriminate|]. eapply E6; eauto.
    + assert (HS1 : ac_enc s1 = e1).
      { destruct er as [raw|e]; [destruct (ac_interpret TC raw) as [[d q]|e]|]; destruct HR as [_ ->]; auto. }
      pose proof HE as HE0. apply ec_read_call in HE0; auto. destruct HE0 as (Hp1 & _ & _ & HC).
      destruct IH as (eh & E1 & E2 & E3 & E4); [congruence|].
      rewrite HS1 in E1. exists (EcRead t er (ec_last_flag e1) :: eh).
      split; [econstructor; eauto|]. rewrite !frames_out_cons, !frames_in_cons. cbn [call_events].
      rewrite E2, E3. split; [auto|]. split; [auto|]. intros mss HF. rewrite got_cons in *. rewrite HQ.
      pose proof (got_le_frames _ _ _ _ E1 Hp1) as Hle. rewrite E3 in Hle.
      destruct er as [raw|e].
      * cbn [call_got app map fst] in HF. inversion HF as [|x ms l ls (d & q & Hi & ->) HF' Hx]; subst.
        rewrite Hi in HR. destruct HR as [-> Hs]. destruct (E4 ls HF') as [E5 E6]. split.
        -- cbn [call_got app map fst concat]. rewrite E5, Hs. reflexivity.
        -- intros Hl t' e l [Hin|Hin]; [discriminate|]. eapply E6; eauto.
           destruct HC as [(f & m' & -> & _)|(e' & He & _)]; [|discriminate].
           cbn [call_got app length map concat ev_in] in Hl. rewrite E3. apply eq_add_S in Hl. exact Hl.
      * destruct HR as [-> Hs]. cbn [call_got app map] in *. destruct (E4 mss HF) as [E5 E6]. split.
        -- rewrite E5, Hs. cbn. rewrite HQ. reflexivity.
        -- intros Hl t' e' l Hin. apply ec_read_exec in HE.
           destruct HE as [[_ [(f & -> & _)|(e0 & -> & _ & He)]]|(Hq & _)]; [| |congruence].
           ++ exfalso. change (length (got_msgs eh) = S (length (frames_in h))) in Hl. lia.
           ++ destruct Hin as [Hin|Hin]; [injection Hin as <- <- <-; congruence|].
              eapply E6; eauto. cbn [map concat ev_in app length] in Hl. rewrite E3. exact Hl.
  - apply ac_write_exec in HX.
    destruct HX as (p & ps & e1 & HP & HE & ->). cbn [ac_enc ac_readq] in *.
    pose proof HE as HE0. apply ec_write_state in HE0. destruct HE0 as (_ & _ & _ & Hp1 & _ & Hin).
    destruct IH as (eh & E1 & E2 & E3 & E4); [congruence|].
    exists (EcWrite p ps last t r :: eh). split; [econstructor; eauto|].
    rewrite !frames_out_cons, !frames_in_cons. cbn [call_events]. rewrite E2, E3.
    split; auto. split; auto. intros mss HF. destruct (E4 mss HF) as [E5 E6]. split; [exact E5|].
    intros Hl t' e l [Hi|Hi]; [discriminate|]. eapply E6; eauto.
    rewrite Hin in Hl. rewrite E3. exact Hl.
Qed.

Lemma ac_run_hist : forall L TK TC ops s,
  ac_hist L TK TC s (fst (ac_run L TK TC s ops)) (snd (ac_run L TK TC s ops)).
Proof.
  intros L TK TC. induction ops as [|[ans|m args last ans] r IH]; intro s; cbn [ac_run].
  - constructor.
  - pose proof (io_run_exec _ (ac_read L TC s) ans (Ok tt)) as H.
    destruct (io_run (ac_read L TC s) ans (Ok tt)) as [t [s1 x]]. cbn [fst snd] in H.
    specialize (IH s1). destruct (ac_run L TK TC s1 r) as [h s2]. cbn [fst snd] in *. econstructor; eauto.
  - pose proof (io_run_exec _ (ac_write L TK m args last s) (Ok []) ans) as H.
    destruct (io_run (ac_write L TK m args last s) (Ok []) ans) as [t [s1 x]]. cbn [fst snd] in H.
    specialize (IH s1). destruct (ac_run L TK TC s1 r) as [h s2]. cbn [fst snd] in *. econstructor; eauto.
Qed.

(** ** What the reads return, whatever was received *)
Definition meaning (TC : tchecker) (raw : bytes) : list bytes :=
  match ac_interpret TC raw with Ok (d, q) => d :: q | Err _ => [] end.

Lemma app_meaning : forall L TK TC s h s', ac_hist L TK TC s h s' ->
  exists eh, ec_hist L (ac_enc s) eh (ac_enc s') /\
    frames_out eh = frames_out h /\ frames_in eh = frames_in h /\
    map fst (got_msgs h) ++ ac_readq s' = ac_readq s ++ concat (map (meaning TC) (map fst (got_msgs eh))).
Proof.
  intros L TK TC s h s' H.
  induction H as [s|s t s1 r h s2 HX HH IH|s m args last t s1 r h s2 HX HH IH].
  - exists []. repeat split; [constructor|]. cbn. rewrite app_nil_r. reflexivity.
  - destruct IH as (eh & E1 & E2 & E3 & E4). apply ac_read_exec in HX.
    destruct HX as [(m & q & HQ & -> & -> & ->)|(HQ & e1 & er & HE & HR)].
    + exists eh. rewrite frames_out_cons, frames_in_cons. cbn [call_events map concat app ac_enc ac_set_readq] in *.
      repeat split; auto. rewrite got_cons, HQ. cbn [call_got app map fst].
      f_equal. rewrite E4. reflexivity.
    + assert (HS1 : ac_enc s1 = e1).
      { destruct er as [raw|e]; [destruct (ac_interpret TC raw) as [[d q]|e]|]; destruct HR as [_ ->]; auto. }
      rewrite HS1 in E1. exists (EcRead t er (ec_last_flag e1) :: eh).
      split; [econstructor; eauto|]. rewrite !frames_out_cons, !frames_in_cons. cbn [call_events].
      rewrite E2, E3. split; auto. split; auto. rewrite !got_cons. rewrite HQ.
      destruct er as [raw|e].
      * cbn [call_got app map fst concat]. unfold meaning at 1.
        destruct (ac_interpret TC raw) as [[d q]|e]; destruct HR as [-> Hs];
          cbn [call_got app map fst concat]; rewrite E4, Hs; [reflexivity|]. cbn. rewrite HQ. reflexivity.
      * destruct HR as [-> Hs]. cbn [call_got app map concat]. rewrite E4, Hs. cbn. rewrite HQ. reflexivity.
  - destruct IH as (eh & E1 & E2 & E3 & E4). apply ac_write_exec in HX.
    destruct HX as (p & ps & e1 & HP & HE & ->). cbn [ac_enc ac_readq] in *.
    exists (EcWrite p ps last t r :: eh). split; [econstructor; eauto|].
    rewrite !frames_out_cons, !frames_in_cons. cbn [call_events]. rewrite E2, E3.
    split; auto.
Qed.

(** The errors and the acceptance of a decrypted chunk. *)
Lemma interpret_err : forall TC raw e, ac_interpret TC raw = Err e ->
  e = BadPeer \/ e = ValueError \/ (raw = [] /\ e = AttributeError) \/ exists time, tc_check TC time = Err e.
Proof.
  intros TC raw e H. unfold ac_interpret in H. destruct raw as [|b raw].
  - cbn in H. destruct (tc_check TC _) eqn:E; [injection H as <-; auto|]. injection H as <-. eauto.
  - destruct (app_ctor (b :: raw) false) as [ap|e0] eqn:EA.
    + destruct (app_type ap =? TYPE_APP_PACKET) eqn:ET.
      * unfold app_validate, validate_type in H. unfold app_type in ET. rewrite ET in H.
        destruct (tc_check TC _) eqn:E; [|injection H as <-; eauto].
        unfold app_ctor in EA. cbn [is_empty] in EA. unfold finish, app_from_bytes in EA.
        destruct (_ <? 0); [discriminate|]. cbn [fst snd] in EA. injection EA as <-. discriminate.
      * destruct (multi_ctor (b :: raw) true) as [mp|e0] eqn:EM.
        -- destruct (tc_check TC _) eqn:E; [|injection H as <-; eauto].
           apply multi_accept_inv in EM; [|discriminate]. destruct EM as (ms & EM & HF & _). rewrite EM in H.
           destruct HF as (? & ? & ? & ? & ? & ? & ? & init & l & ? & ? & _ & -> & _).
           destruct init; discriminate.
        -- injection H as <-. apply multi_err in EM. tauto.
    + injection H as <-. unfold app_ctor in EA. cbn [is_empty] in EA. unfold finish, app_from_bytes in EA.
      destruct (_ <? 0); cbn [fst snd] in EA; [injection EA as <-; auto|discriminate].
Qed.

(** A batch whose size does not fit into the count field. *)
Lemma u16_byte_of : forall n, u16le n = u16le (n mod 65536).
Proof.
  intro n. unfold u16le, byte_of.
  replace (n mod 65536 mod 256) with (n mod 256) by lia.
  replace (n mod 65536 / 256 mod 256) with (n / 256 mod 256) by lia. reflexivity.
Qed.

Lemma Multi_payload_app : forall a b, Multi_payload (a ++ b) = Multi_payload a ++ Multi_payload b.
Proof. intros. unfold Multi_payload. rewrite map_app, concat_app. reflexivity. Qed.

Lemma Multi_wire_split : forall t (msgs : list bytes),
  let k := Z.to_nat (Z.of_nat (length msgs) mod 65536) in
  Multi_wire t msgs = Multi_wire t (firstn k msgs) ++ Multi_payload (skipn k msgs).
Proof.
  intros t msgs k. unfold Multi_wire.
  assert (HK : length (firstn k msgs) = k) by (apply firstn_length_le; subst k; lia).
  unfold bytes in *. rewrite HK.
  replace (u16le (Z.of_nat k)) with (u16le (Z.of_nat (length msgs))).
  2:{ rewrite (u16_byte_of (Z.of_nat (length msgs))). f_equal. subst k. lia. }
  rewrite <- !app_assoc, <- Multi_payload_app, firstn_skipn. reflexivity.
Qed.

Lemma meaning_multi : forall TC t msgs, Forall (fun m => Z.of_nat (length m) <= 65535) msgs ->
  prefix_of (meaning TC (Multi_wire t msgs)) (firstn (Z.to_nat (Z.of_nat (length msgs) mod 65536)) msgs).
Proof.
  intros TC t msgs HF. set (k := Z.to_nat (Z.of_nat (length msgs) mod 65536)).
  unfold meaning. destruct (Nat.eq_dec k 0) as [E0|E0].
  - replace (ac_interpret TC (Multi_wire t msgs)) with (@Err (bytes * list bytes) BadPeer).
    { exists (firstn k msgs). reflexivity. }
    symmetry. unfold ac_interpret.
    assert (EW : Multi_wire t msgs = ([x0b; x00] ++ u32le t) ++ [x00; x00] ++ Multi_payload msgs).
    { unfold Multi_wire. rewrite u16_byte_of.
      replace (Z.of_nat (length msgs) mod 65536) with 0 by (subst k; lia). reflexivity. }
    rewrite EW. rewrite app_ctor_spec by reflexivity. cbn [andb app_type p_data].
    replace (app_type _ =? TYPE_APP_PACKET) with false by reflexivity. reflexivity.
  - pose proof (Multi_wire_split t msgs) as HS. cbv zeta in HS. fold k in HS.
    assert (HM : Multi_frame (Multi_wire t msgs) (firstn k msgs)).
    { rewrite HS. apply Multi_wire_frame.
      - intro E. apply (f_equal (@length bytes)) in E. rewrite firstn_length_le in E by (subst k; lia). cbn in E. lia.
      - unfold zlen. rewrite firstn_length_le by (subst k; lia). subst k. lia.
      - intros m Hm. rewrite Forall_forall in HF. apply HF.
        rewrite <- (firstn_skipn k msgs). apply in_or_app. auto. }
    rewrite (interpret_multi _ _ _ HM). destruct (tc_check TC _).
    + destruct (firstn k msgs) as [|m r]; exists []; rewrite ?app_nil_r; reflexivity.
    + exists (firstn k msgs). reflexivity.
Qed.

Lemma Forall2_length' : forall A B (R : A -> B -> Prop) l l', Forall2 R l l' -> length l = length l'.
Proof. intros A B R l l' H. induction H; cbn; auto. Qed.

Lemma packets_multi : forall t (msgs : list bytes), 1 < Z.of_nat (length msgs) ->
  (forall m, In m msgs -> Z.of_nat (length m) <= 65535) -> packets t msgs = [Multi_wire t msgs].
Proof.
  intros t msgs H1 H2. unfold packets.
  replace (1 <? Z.of_nat (length msgs)) with true by lia.
  replace (forallb short msgs) with true; [reflexivity|]. symmetry. apply forallb_forall.
  intros y Hy. unfold short. apply H2 in Hy. lia.
Qed.
