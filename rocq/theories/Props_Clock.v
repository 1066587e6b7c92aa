(** What the time fields of the packets say: C101 (the calls of [get_first_time] and [get_time] in
    salt_client_session.py:56-66, 91-101, salt_server_session.py:101-131 and
    v2/app_channel_v2.py:41-64; the keeper and the claim of dev/example_session3.py:25-35, 84-94). *)
From Coq Require Import List ZArith Bool Strings.Byte Lia ZifyBool ZifyNat ZifyN.
From Verif Require Import PyBase PyBase_proofs IO IO_proofs Packets Packets_proofs Packets_proofs2
  Crypto Crypto_proofs Time EncChannel EncUse EncChannel_proofs Props_Enc AppChannel AppUse AppChannel_proofs Props_App
  Session Session_proofs SessUse Session_steps Props_Session Props_E2E Props_Ident Props_Pad Spec.
Import ListNotations.
Open Scope Z_scope.
Ltac Zify.zify_post_hook ::= Z.div_mod_to_equations.

(** ** Specification *)

(** One entry for each frame that the calls put on the channel: what the keeper, in state
    [tk] at first, answers when the write call that sends it asks.  Every write call asks
    once, also one that sends nothing. *)
Fixpoint call_times (TK : tkeeper) (tk : Z) (h : list ecall) : list Z :=
  match h with
  | [] => []
  | EcRead _ _ _ :: r => call_times TK tk r
  | EcWrite _ _ _ t _ :: r =>
      repeat (fst (tk_get TK tk)) (length (concat (map ev_out t))) ++ call_times TK (snd (tk_get TK tk)) r
  end.

(** The same with the write calls numbered from [n]. *)
Fixpoint call_numbers (n : Z) (h : list ecall) : list Z :=
  match h with
  | [] => []
  | EcRead _ _ _ :: r => call_numbers n r
  | EcWrite _ _ _ t _ :: r => repeat n (length (concat (map ev_out t))) ++ call_numbers (n + 1) r
  end.

(** The frames, encrypted with counters [c], [c + 2], ..., contain packets with these times
    (little endian, in the four bytes after the header). *)
Definition dated (L : lib) (key : bytes) (c : Z) (frames : list bytes) (times : list Z) : Prop :=
  length frames = length times /\
  forall i f n, nth_error frames i = Some f -> nth_error times i = Some n ->
    exists clear, opens L key (c + 2 * Z.of_nat i) f clear /\ field 2 4 clear = u32le n.

(** The frames written before the encrypted ones *)
Definition client_first (r : clife) : list bytes := firstn 1 (concat (map ev_out (cr_t (cl_run r)))).
Definition server_first (r : slife) : list bytes := firstn 1 (concat (map ev_out (sr_t (sl_run r)))).

(** ** Lemmas *)
Definition text_time (x : bytes * bool) : bytes := field 2 4 (fst x).
Lemma time_of : forall b0 b1 t (rest : bytes), field 2 4 ([b0; b1] ++ u32le t ++ rest) = u32le t.
Proof. intros. unfold field, u32le. reflexivity. Qed.

Lemma packets_times : forall t msgs, map (field 2 4) (packets t msgs) = repeat (u32le t) (length (packets t msgs)).
Proof.
  intros t msgs. unfold packets. destruct (_ && _).
  - cbn [map repeat length]. unfold Multi_wire. rewrite time_of. reflexivity.
  - induction msgs as [|m r IH]; [reflexivity|]. cbn [map length repeat]. rewrite IH. unfold App_wire at 1. rewrite time_of. reflexivity.
Qed.

Lemma repeat_map : forall A B (f : A -> B) x n, map f (repeat x n) = repeat (f x) n.
Proof. intros A B f x. induction n as [|n IH]; cbn; [reflexivity|]. rewrite IH. reflexivity. Qed.

(** The times of the clear texts are the answers to the calls. *)
Lemma texts_times : forall L TK TC s h s', ac_hist L TK TC s h s' ->
  forall m4 t0, ac_buffered_m4 s = match m4 with Some (k, g) => Some (M4_wire t0 k g) | None => None end ->
  map text_time (clear_texts TK (ac_tk s) m4 h) = map u32le (call_times TK (ac_tk s) h).
Proof.
  intros L TK TC s h s' H.
  induction H as [s|s t s1 r h s2 HX HH IH|s m args last t s1 r h s2 HX HH IH]; intros m4 t0 HM; [reflexivity| |].
  - cbn [clear_texts call_times]. apply ac_read_exec in HX.
    assert (HS1 : ac_tk s1 = ac_tk s /\ ac_buffered_m4 s1 = ac_buffered_m4 s).
    { destruct HX as [(m & q & HQ & -> & -> & ->)|(HQ & e1 & er & HE & HR)]; [auto|].
      destruct er as [raw|e]; [destruct (ac_interpret TC raw) as [[d q]|e]|]; destruct HR as [_ ->]; auto. }
    destruct HS1 as [E1 E2]. rewrite <- E1. apply (IH m4 t0). congruence.
  - cbn [clear_texts call_times]. apply ac_write_exec in HX. destruct HX as (p & ps & e1 & HP & HE & ->). cbn [ac_tk] in IH.
    specialize (IH None 0 eq_refl). destruct (tk_get TK (ac_tk s)) as [now tk']. cbn [fst snd] in *. rewrite !map_app. apply f_equal2; [|exact IH]. clear IH.
    apply ec_write_exec in HE. destruct HE as [(-> & _)|(fs & -> & HW)]; [reflexivity|].
    cbn [is_empty map concat ev_out app]. rewrite app_nil_r. apply wrap_all_ok in HW. destruct HW as [HW _].
    apply sealed_all_length in HW. rewrite HM in HP.
    assert (E : p :: ps = match m4 with Some (k, g) => [M4_wire now k g] | None => [] end ++ packets now (m :: args)).
    { rewrite HP. f_equal. destruct m4 as [[k g]|]; [|reflexivity]. unfold M4_wire, pkt_bytes.
      cbn [p_data p_opt opt_bytes]. rewrite m34_set_time_wire, app_nil_r. reflexivity. }
    transitivity (map text_time (mark last (p :: ps))); [exact (f_equal (fun z => map text_time (mark last z)) (eq_sym E))|].
    assert (ML : length fs = length (p :: ps)).
    { transitivity (length (mark last (p :: ps))); [exact HW|]. rewrite <- (map_length fst), mark_fst'. reflexivity. }
    transitivity (repeat (u32le now) (length (p :: ps))); [|rewrite repeat_map; apply f_equal; symmetry; exact ML].
    transitivity (map (field 2 4) (map fst (mark last (p :: ps)))); [symmetry; apply map_map|]. rewrite mark_fst'.
    assert (G : forall l : list bytes, l = match m4 with Some (k, g) => [M4_wire now k g] | None => [] end ++ packets now (m :: args) ->
      map (field 2 4) l = repeat (u32le now) (length l)); [|exact (G _ E)].
    intros l ->. rewrite map_app, packets_times, app_length, repeat_app. apply f_equal2; [|reflexivity].
    destruct m4 as [[k g]|]; [|reflexivity]. unfold M4_wire. cbn [map length repeat]. rewrite time_of. reflexivity.
Qed.

Lemma sealed_dated : forall L sp ep key c xs fs ts, nacl_laws L sp ep -> length key = 32%nat ->
  sealed_all L key SESSION_NONCE c xs fs -> map text_time xs = map u32le ts -> dated L key c fs ts.
Proof.
  intros L sp ep key c xs fs ts HL Hk HS HT. split.
  - apply sealed_all_length in HS. rewrite HS. apply (f_equal (@length _)) in HT. rewrite !map_length in HT. exact HT.
  - intros i f n Hf Hn. destruct (sealed_nth _ _ _ _ _ _ _ _ HS Hf) as ([clear l] & E1 & _ & ct & E2 & E3). cbn [fst snd] in *.
    exists clear. split.
    + destruct (law_box _ _ _ HL clear (nonce24 (c + 2 * Z.of_nat i) SESSION_NONCE) key) as (c0 & Q1 & Q2 & Q3); [apply nonce24_length; reflexivity|exact Hk|].
      assert (c0 = ct) by congruence. subst c0. rewrite E3. eexists. exists ct. split; [reflexivity|]. split; [lia|exact Q3].
    + apply (map_nth_error text_time) in E1. rewrite HT in E1. apply (map_nth_error u32le) in Hn. unfold text_time at 1 in E1. cbn [fst] in E1. assert (Q : Some (field 2 4 clear) = Some (u32le n)) by (etransitivity; [symmetry; exact E1|]; exact Hn). injection Q as Q. exact Q.
Qed.

(** ** The client: M1 has the first reading; M4, if not buffered, the next one; every packet
    of a write call (a buffered M4 among them) what that call was told. *)
Theorem C101_client_times : forall L sp ep r k,
  nacl_laws L sp ep -> clife_ok L r -> client_key L r k ->
  let TK := cr_TK (cl_run r) in
  let (t1, s1) := tk_first TK (cr_tk (cl_run r)) in
  let (t4, s4) := tk_get TK s1 in
  (exists m1, client_first r = [m1] /\ field 6 4 m1 = u32le t1) /\
  dated L k 1 (clife_frames r) ((if cr_buf (cl_run r) then [] else [t4]) ++ call_times TK s4 (cl_hist r)).
Proof.
  intros L sp ep [[TK TC sig e buf wanted tk t o] h] k HL [H HO] (m1 & m2 & HS & HB). unfold crun_ok in H. unfold clife_frames, client_first.
  cbn [cl_run cl_hist cr_TK cr_TC cr_sig cr_enc cr_buf cr_wanted cr_tk cr_t cr_o] in *. cbv zeta.
  destruct (tk_first TK tk) as [t1 s1] eqn:E1. destruct (tk_get TK s1) as [t4 s4] eqn:E4.
  destruct (client_exec _ _ _ _ _ _ _ _ _ _ H) as [[-> H0]|(r & t' & -> & [[HR H0]|(m2' & f3 & rest & key & c3 & sg & -> & -> & HF & HE)])];
    [discriminate| |].
  - exfalso. cbn [client_said] in HS. destruct t' as [|[[x|x]|] [|y [|[z|ms l z] w]]]; try discriminate.
    + destruct o as [[s [[]|x0]]|]; try discriminate. eapply H0. reflexivity.
    + destruct (HR (EWrite ms l z)) as [q Hq]; [right; right; left; reflexivity|discriminate].
  - rewrite E1 in *. cbn [fst snd] in *. rewrite E4 in *. cbn [fst snd] in *.
    assert (E : M1_wire t1 (kp_pub e) None = m1 /\ m2' = m2).
    { cbn [client_said] in HS. destruct rest as [|[|]]; destruct o as [[? [|]]|]; try discriminate; injection HS; auto. }
    destruct E as [E ->]. rewrite E in *. destruct HF as (_ & Hk & HB' & _).
    assert (key = k) by congruence. subst key. split.
    { exists m1. split; [reflexivity|]. rewrite <- E. unfold M1_wire, indicator, u32le, field. reflexivity. }
    destruct buf.
    + destruct HE as [-> [->|(s & -> & HC)]]; [discriminate|].
      destruct HC as (K1 & _ & fl & K2 & _). destruct HO as (a & a' & Ha & HA).
      rewrite E1 in K2. cbn [fst snd] in K2. rewrite E4 in K2. cbn [fst snd] in K2. rewrite K2 in Ha. injection Ha as <-.
      destruct (app_to_enc _ _ _ _ _ _ HA (Some (kp_pub sig, sg)) _ eq_refl) as (es & S1 & S2 & _ & S4).
      pose proof (texts_times _ _ _ _ _ _ HA (Some (kp_pub sig, sg)) _ eq_refl) as ST.
      cbn [ac_enc ac_tk] in S1, S4, ST.
      destruct (hist_sent _ _ _ _ _ _ HL S1 Hk eq_refl ltac:(cbn; lia)) as (HX & _).
      cbn [ec_key ec_session_nonce ec_write_nonce] in HX. rewrite S2, S4 in HX.
      cbn [map ev_out concat app tl]. exact (sealed_dated _ _ _ _ _ _ _ _ HL Hk HX ST).
    + destruct HE as [[-> HE]|(f4 & r2 & (ct & HM1 & HM2) & -> & HE)].
      * exfalso. cbn [client_said] in HS. destruct o as [[s [[]|x]]|]; try discriminate. eapply HE. reflexivity.
      * assert (S0 : sealed L k SESSION_NONCE 1 (M4_wire t4 (kp_pub sig) sg, false) f4)
          by (split; [lia|]; exists ct; split; assumption).
        assert (F0 : field 2 4 (M4_wire t4 (kp_pub sig) sg) = u32le t4) by (unfold M4_wire; apply time_of).
        assert (Q : h = [] \/ exists s, o = Some (s, Ok tt) /\ client_end TK sig e false tk k c3 sg s).
        { destruct HE as [->|(s & -> & HC)]; [left; exact HO|]. destruct r2 as [[]|x]; [right; exists s; auto|left; exact HO]. }
        cbn [map ev_out concat app tl]. destruct Q as [->|(s & -> & HC)].
        { apply (sealed_dated L sp ep k 1 [(M4_wire t4 (kp_pub sig) sg, false)] [f4] [t4] HL Hk); [split; [exact S0|exact I]|].
          cbn [map]. unfold text_time at 1. cbn [fst]. rewrite F0. reflexivity. }
        destruct HC as (K1 & _ & fl & K2 & _). destruct HO as (a & a' & Ha & HA).
        rewrite E1 in K2. cbn [fst snd] in K2. rewrite E4 in K2. cbn [fst snd] in K2. rewrite K2 in Ha. injection Ha as <-.
        destruct (app_to_enc _ _ _ _ _ _ HA None 0 eq_refl) as (es & S1 & S2 & _ & S4).
        pose proof (texts_times _ _ _ _ _ _ HA None 0 eq_refl) as ST. cbn [ac_enc ac_tk] in S1, S4, ST.
        destruct (hist_sent _ _ _ _ _ _ HL S1 Hk eq_refl ltac:(cbn; lia)) as (HX & _).
        cbn [ec_key ec_session_nonce ec_write_nonce] in HX. rewrite S2, S4 in HX.
        apply (sealed_dated L sp ep k 1 ((M4_wire t4 (kp_pub sig) sg, false) :: clear_texts TK s4 None h) _ _ HL Hk); [split; [exact S0|exact HX]|].
        cbn [map]. unfold text_time at 1. cbn [fst]. rewrite F0. apply f_equal2; [reflexivity|exact ST].
Qed.
Print Assumptions C101_client_times.

(** ** The server: M2 has the first reading and M3 the next one; if M2 is buffered, the keeper
    is asked for a first reading twice and M2 and M3 both have the second. *)
Theorem C101_server_times : forall L sp ep r k,
  nacl_laws L sp ep -> slife_ok L r -> server_key L r k ->
  let TK := sr_TK (sl_run r) in
  let (t1, s1) := tk_first TK (sr_tk (sl_run r)) in
  let (t2, s2) := tk_first TK s1 in
  let (t3, s3) := tk_get TK s1 in
  let buf := sr_buf (sl_run r) in
  (exists m2, server_first r = [m2] /\ field 2 4 m2 = u32le (if buf then t2 else t1)) /\
  dated L k 2 (slife_frames r) ((if buf then t2 else t3) :: call_times TK (if buf then s2 else s3) (sl_hist r)).
Proof.
  intros L sp ep [[TK TC sig e buf a2 tk t o] h] k HL [H HO] (m1 & m2 & HS & HB). unfold srun_ok in H. unfold slife_frames, server_first.
  cbn [sl_run sl_hist sr_TK sr_TC sr_sig sr_enc sr_buf sr_a2 sr_tk sr_t sr_o] in *. cbv zeta.
  destruct (tk_first TK tk) as [t1 s1] eqn:E1. destruct (tk_first TK s1) as [t2 s2] eqn:E2. destruct (tk_get TK s1) as [t3 s3] eqn:E3.
  destruct (server_exec _ _ _ _ _ _ _ _ _ _ H) as
    [[-> H0]|[(x & -> & H0)|(m1' & t' & -> & [[-> H0]|[(a & r2 & _ & _ & -> & H0)|[(p & kk & r2 & _ & _ & _ & _ & -> & H0)|(p & _ & _ & _ & H0)]]])]];
    try discriminate.
  unfold server_times in H0. rewrite E1 in H0. cbn [fst snd] in H0. rewrite E2, E3 in H0. cbn [fst snd] in H0.
  replace (if buf then (t2, t2, s2) else (t1, t3, s3)) with ((if buf then t2 else t1, if buf then t2 else t3, if buf then s2 else s3)) in H0
    by (destruct buf; reflexivity).
  remember (if buf then t2 else t1) as ta eqn:Ta. remember (if buf then t2 else t3) as tb eqn:Tb. remember (if buf then s2 else s3) as sc eqn:Sc. clear Ta Tb Sc.
  destruct H0 as [(_ & (r2 & ->) & H0)|(f3 & key & sg & r3 & t'' & HF & -> & H0)]; [discriminate|].
  assert (m1' = m1 /\ M2_wire false false ta (kp_pub e) = m2) as [-> E].
  { cbn [server_said] in HS. destruct buf; cbn [map concat ev_out app] in HS; injection HS; auto. }
  rewrite E in *. destruct HF as (_ & Hk & _ & HB' & _ & _ & _ & ct & G1 & G2).
  assert (key = k) by congruence. subst key.
  assert (F2 : field 2 4 m2 = u32le ta) by (rewrite <- E; unfold M2_wire; apply time_of).
  assert (F0 : field 2 4 (M3_wire tb (kp_pub sig) sg) = u32le tb) by (unfold M3_wire; apply time_of).
  assert (S0 : sealed L k SESSION_NONCE 2 (M3_wire tb (kp_pub sig) sg, false) f3) by (split; [lia|]; exists ct; split; assumption).
  split.
  { exists m2. split; [|exact F2]. destruct buf; reflexivity. }
  assert (Hlen : forall u, only_reads u ->
     tl (concat (map ev_out (ERead (Ok m1) :: (if buf then [EWrite [m2; f3] false r3]
        else [EWrite [m2] false (Ok tt); EWrite [f3] false r3]) ++ u))) = [f3]).
  { intros u Hu. assert (Q : concat (map ev_out u) = []).
    { clear - Hu. induction u as [|x u IH]; [reflexivity|]. destruct (Hu x (or_introl eq_refl)) as [q ->]. cbn. apply IH.
      intros y Hy. apply Hu. right. exact Hy. }
    destruct buf; cbn [map ev_out concat app tl]; rewrite Q; reflexivity. }
  destruct H0 as [[Hr HE]|(f4 & -> & -> & s & Ho & HE)].
  - rewrite Hlen by exact Hr. assert (h = []) as ->.
    { destruct o as [[s [[]|x]]|]; [exfalso; eapply HE; reflexivity| |]; exact HO. }
    apply (sealed_dated L sp ep k 2 [(M3_wire tb (kp_pub sig) sg, false)] _ _ HL Hk); [split; [exact S0|exact I]|].
    cbn [map]. unfold text_time at 1. cbn [fst]. rewrite F0. reflexivity.
  - rewrite Hlen by (intros y [<-|[]]; eauto). rewrite Ho in HO. destruct HE as (K1 & _ & c4 & fl & _ & _ & _ & Ka).
    rewrite Ka in HO. destruct HO as (a' & HA).
    destruct (app_to_enc _ _ _ _ _ _ HA None 0 eq_refl) as (es & S1 & S2 & _ & S4).
    pose proof (texts_times _ _ _ _ _ _ HA None 0 eq_refl) as ST. cbn [ac_enc ac_tk] in S1, S4, ST.
    destruct (hist_sent _ _ _ _ _ _ HL S1 Hk eq_refl ltac:(cbn; lia)) as (HX & _).
    cbn [ec_key ec_session_nonce ec_write_nonce] in HX. rewrite S2, S4 in HX.
    apply (sealed_dated L sp ep k 2 ((M3_wire tb (kp_pub sig) sg, false) :: clear_texts TK sc None h) _ _ HL Hk); [split; [exact S0|exact HX]|].
    cbn [map]. unfold text_time at 1. cbn [fst]. rewrite F0. apply f_equal2; [reflexivity|exact ST].
Qed.
Print Assumptions C101_server_times.

Lemma counted : forall h n, call_times one_two_three n h = call_numbers (n + 1) h.
Proof.
  induction h as [|[t x l|m args last t x] h IH]; intro n; [reflexivity|apply IH|].
  cbn [call_times call_numbers one_two_three tk_get fst snd]. rewrite IH. reflexivity.
Qed.

(** ** The claim of example_session3 ("each peer sends 1 in the first message, then 2, 3,
    ..."): with a [OneTwoThreeTimeKeeper] of its own, whatever state it is in, a client that
    does not buffer M4 numbers M1 and M4 1 and 2 and its write calls from 3 on; a server that
    does not buffer M2 likewise.  A client that buffers M4 skips 2; a server that buffers M2
    sends 1, 1, 2, ... *)
Theorem C101_client_numbers : forall L sp ep r k,
  nacl_laws L sp ep -> clife_ok L r -> client_key L r k -> cr_TK (cl_run r) = one_two_three ->
  (exists m1, client_first r = [m1] /\ field 6 4 m1 = u32le 1) /\
  dated L k 1 (clife_frames r) ((if cr_buf (cl_run r) then [] else [2]) ++ call_numbers 3 (cl_hist r)).
Proof.
  intros L sp ep r k HL H HK HT. pose proof (C101_client_times L sp ep r k HL H HK) as X. cbv zeta in X. rewrite HT in X.
  cbn [one_two_three tk_first tk_get] in X. fold one_two_three in X. rewrite counted in X. exact X.
Qed.
Print Assumptions C101_client_numbers.

Theorem C101_server_numbers : forall L sp ep r k,
  nacl_laws L sp ep -> slife_ok L r -> server_key L r k -> sr_TK (sl_run r) = one_two_three ->
  let buf := sr_buf (sl_run r) in
  (exists m2, server_first r = [m2] /\ field 2 4 m2 = u32le 1) /\
  dated L k 2 (slife_frames r) ((if buf then 1 else 2) :: call_numbers (if buf then 2 else 3) (sl_hist r)).
Proof.
  intros L sp ep r k HL H HK HT. pose proof (C101_server_times L sp ep r k HL H HK) as X. cbv zeta in X |- *. rewrite HT in X.
  cbn [one_two_three tk_first tk_get] in X. fold one_two_three in X. rewrite counted in X. destruct (sr_buf (sl_run r)); exact X.
Qed.
Print Assumptions C101_server_numbers.

Lemma only_pair : forall A B (P : A -> B -> Prop) a b, Forall2 P [a] [b] -> P a b.
Proof. intros A B P a b H. inversion H. assumption. Qed.

(** The client of the example: M1, M4, an AppPacket and a MultiAppPacket, with the times 1, 2,
    3 and 4. *)
Example C101_example :
  clife_ok toy_lib ex_clife /\ client_key toy_lib ex_clife (ec_key (ac_enc ex_capp)) /\ cr_TK (cl_run ex_clife) = one_two_three /\
  cr_buf (cl_run ex_clife) = false /\ length (clife_frames ex_clife) = 3%nat /\ call_numbers 3 (cl_hist ex_clife) = [3; 4] /\
  slife_ok toy_lib ex_slife /\ server_key toy_lib ex_slife (ec_key (ac_enc ex_capp)).
Proof.
  destruct C100_example as (H1 & H2 & _). apply only_pair in H1. apply only_pair in H2. destruct H1 as [Q1 Q2]. destruct H2 as [Q3 Q4].
  split; [exact Q1|]. split; [exact Q2|]. split; [reflexivity|]. split; [reflexivity|]. split; [vm_compute; reflexivity|].
  split; [vm_compute; reflexivity|]. split; [exact Q3|exact Q4].
Qed.
