(** Properties C92 and C52, continued: a write that failed and whose frames did not arrive
    cannot be made good by repeating it either. *)
From Coq Require Import List ZArith Bool Strings.Byte Lia ZifyBool ZifyNat ZifyN.
From Verif Require Import PyBase PyBase_proofs IO IO_proofs Packets Packets_proofs Packets_proofs2
  Crypto Crypto_proofs Time EncChannel EncUse EncChannel_proofs Props_Enc
  AppChannel AppUse AppChannel_proofs Props_App Tasks Tasks_proofs Spec Props_E2E.
Import ListNotations.
Open Scope Z_scope.

(** One box that is made under two different nonces. *)
Definition same_box (L : lib) (key : bytes) : Prop :=
  exists n1 n2 m1 m2 c, n1 <> n2 /\ l_afternm L m1 n1 key = Ok c /\ l_afternm L m2 n2 key = Ok c.

Lemma late_frame : forall L e f n x e1 er, nacl_fail_laws L ->
  sealed L (ec_key e) (ec_session_nonce e) n x f -> 16 <= zlen f - 2 ->
  0 <= ec_read_nonce e < n -> ec_process L e f = (e1, er) ->
  er = Err BadPeer \/ same_box L (ec_key e).
Proof.
  intros L e f n x e1 er HF (Hn & c & HC & ->) Hlen Hr HP. destruct er as [m|er].
  - right. apply ec_process_inv in HP. destruct HP as (t & fl & body & Ef & _ & _ & _ & HO & _).
    unfold Enc_wire in Ef. cbn [app] in Ef. injection Ef as _ _ <-.
    apply (law_open_unique L HF) in HO.
    exists (nonce24 (ec_read_nonce e) (ec_session_nonce e)), (nonce24 n (ec_session_nonce e)), m, (fst x), c.
    split; [|split; assumption]. intro E. apply nonce24_inj in E; lia.
  - left. unfold ec_process, ec_unwrap, Enc_wire in HP. cbn [app] in HP. rewrite ep_ctor_spec in HP.
    replace ((b2z x06 =? 6) && (16 <=? zlen c)) with true in HP.
    2:{ symmetry. unfold Enc_wire, zlen in *. cbn [app length] in Hlen. change (b2z x06) with 6. lia. }
    cbn [ep_body p_opt opt_field] in HP. unfold ec_decrypt in HP.
    cbn [ec_set_last_flag ec_read_nonce ec_session_nonce ec_key] in HP.
    destruct (nonce_bytes (ec_read_nonce e) (ec_session_nonce e)) as [n0|e0] eqn:EN.
    + destruct (l_open_afternm L c n0 (ec_key e)) as [m'|e0] eqn:EO; [discriminate|].
      apply (law_open_exn L HF) in EO. subst e0. injection HP as _ <-. reflexivity.
    + exfalso. rewrite nonce_bytes_ok in EN by lia. discriminate.
Qed.

(** A receiver that is behind: every frame it gets was sealed under a later counter. *)
Lemma late_history : forall L TK TC r hr r', nacl_fail_laws L -> ac_hist L TK TC r hr r' ->
  ac_readq r = [] -> ec_pushback (ac_enc r) = [] -> 0 <= ec_read_nonce (ac_enc r) ->
  (forall f, In f (frames_in hr) -> 16 <= zlen f - 2 /\ exists n x,
     sealed L (ec_key (ac_enc r)) (ec_session_nonce (ac_enc r)) n x f /\ ec_read_nonce (ac_enc r) < n) ->
  (forall t y l, In (EcRead t y l) hr ->
     (exists f, t = [ERead (Ok f)] /\ y = Err BadPeer) \/ (exists e, t = [ERead (Err e)] /\ y = Err e)) \/
  same_box L (ec_key (ac_enc r)).
Proof.
  intros L TK TC r hr r' HF H.
  induction H as [s|s t s1 y h s2 HX HH IH|s m args last t s1 y h s2 HX HH IH]; intros HQ HB H0 Hin.
  - left. intros t y l [].
  - pose proof HX as HX0. apply ac_read_exec in HX.
    destruct HX as [(m & q & HQ' & _)|(_ & e1 & er & HE & HR)]; [congruence|].
    assert (K : (exists f, t = [ERead (Ok f)] /\ ec_process L (ac_enc s) f = (e1, er)) \/
                (exists e, t = [ERead (Err e)] /\ e1 = ac_enc s /\ er = Err e)).
    { apply ec_read_exec in HE. destruct HE as [[_ HE]|[HE _]]; [exact HE|congruence]. }
    assert (D : (exists e, er = Err e /\ ((exists f, t = [ERead (Ok f)] /\ e = BadPeer) \/ t = [ERead (Err e)])
        /\ ec_key e1 = ec_key (ac_enc s) /\ ec_pushback e1 = [] /\ ec_read_nonce e1 = ec_read_nonce (ac_enc s)
        /\ ec_session_nonce e1 = ec_session_nonce (ac_enc s)) \/ same_box L (ec_key (ac_enc s))).
    { destruct K as [(f & -> & HP)|(e & -> & -> & ->)].
      - destruct (Hin f) as (Hl & n & x & Hs & Hn). { rewrite frames_in_cons. left. reflexivity. }
        destruct (late_frame L _ f n x e1 er HF Hs Hl (conj H0 Hn) HP) as [->|B]; [|right; exact B].
        left. exists BadPeer. split; [reflexivity|]. split; [left; eauto|].
        apply ec_process_err in HP. destruct HP as (-> & -> & -> & _ & ->). auto.
      - left. exists e. split; [reflexivity|]. split; [right; reflexivity|]. auto. }
    destruct D as [(e & -> & Ht & D1 & D2 & D3 & D4)|B]; [|right; exact B].
    destruct HR as [-> ->]. cbn [ac_enc ac_set_enc ac_readq] in IH.
    rewrite D1, D2, D3, D4 in IH. destruct IH as [IH|B]; [exact HQ|reflexivity|exact H0| | |right; exact B].
    { intros f Hf. apply Hin. rewrite frames_in_cons. apply in_or_app. right. exact Hf. }
    left. intros t' y' l [E|E].
    + injection E as <- <- <-. destruct Ht as [(f & -> & ->)| ->]; eauto.
    + exact (IH t' y' l E).
  - apply ac_write_exec in HX. destruct HX as (p & ps & e1 & _ & HE & ->).
    apply ec_write_state in HE. destruct HE as (D1 & D2 & D3 & D4 & _ & D6).
    cbn [ac_enc ac_readq] in IH. rewrite D1, D2, D3, D4 in IH.
    destruct IH as [IH|B]; [exact HQ|exact HB|exact H0| | |right; exact B].
    { intros f Hf. apply Hin. rewrite frames_in_cons. apply in_or_app. right. exact Hf. }
    left. intros t' y' l [E|E]; [discriminate|]. exact (IH t' y' l E).
Qed.

(** Everything written after a write that reached the transport is sealed under later
    counters. *)
Lemma later_frames : forall L sp ep TK TC s m args last t y h s' m4 t0,
  nacl_laws L sp ep -> length (ec_key (ac_enc s)) = 32%nat -> length (ec_session_nonce (ac_enc s)) = 8%nat ->
  0 <= ec_write_nonce (ac_enc s) ->
  ac_buffered_m4 s = match m4 with Some (k, g) => Some (M4_wire t0 k g) | None => None end ->
  ac_hist L TK TC s (EcWrite m args last t y :: h) s' -> t <> [] ->
  forall f, In f (frames_out h) -> 16 <= zlen f - 2 /\ exists n x,
    sealed L (ec_key (ac_enc s)) (ec_session_nonce (ac_enc s)) n x f /\ ec_write_nonce (ac_enc s) < n.
Proof.
  intros L sp ep TK TC s m args last t y h s' m4 t0 HL K1 K2 K6 HM Hs Ht f Hf.
  assert (Hfs : exists f0 fs0, concat (map ev_out t) = f0 :: fs0).
  { inversion Hs as [| |s0 m0 args0 last0 t1 s1 r0 h0 s2 HX HH]; subst.
    apply ac_write_exec in HX. destruct HX as (p & ps & e1 & _ & HE & _).
    apply ec_write_exec in HE. destruct HE as [(-> & _)|(fs & -> & HW)]; [congruence|].
    apply wrap_all_ok in HW. destruct HW as [HW _]. destruct fs as [|f0 fs0].
    - exfalso. revert HW. clear. destruct ps; cbn; tauto.
    - exists f0, fs0. cbn. rewrite app_nil_r. reflexivity. }
  destruct Hfs as (f0 & fs0 & Efs).
  destruct (app_to_enc L TK TC s _ s' Hs m4 t0 HM) as (eh & HE & Ho & _ & _).
  destruct (hist_sent L sp ep _ eh _ HL HE K1 K2 K6) as (HS & _).
  rewrite Ho, frames_out_cons in HS. cbn [call_events] in HS. rewrite Efs in HS.
  apply In_nth_error in Hf. destruct Hf as [i Hi].
  assert (Hi' : nth_error ((f0 :: fs0) ++ frames_out h) (length (f0 :: fs0) + i) = Some f).
  { rewrite nth_error_app2 by lia. replace (length (f0 :: fs0) + i - length (f0 :: fs0))%nat with i by lia. exact Hi. }
  destruct (sealed_nth _ _ _ _ _ _ _ _ HS Hi') as (x & _ & Hx). split.
  - destruct Hx as (_ & c & HC & ->).
    destruct (law_box L sp ep HL (fst x) (nonce24 (ec_write_nonce (ac_enc s) + 2 * Z.of_nat (length (f0 :: fs0) + i)) (ec_session_nonce (ac_enc s))) (ec_key (ac_enc s))) as (c' & HC' & Hl & _).
    { apply nonce24_length. exact K2. } { exact K1. }
    rewrite HC in HC'. injection HC' as <-. unfold Enc_wire, zlen. cbn [app length]. lia.
  - eexists. exists x. split; [exact Hx|]. cbn [length]. lia.
Qed.

(** *** C92: a write fails and its frames are lost.  Then repeating it, or writing
    anything else, does not help: whatever the sender writes from then on, and whichever
    of those frames arrive, in any order, every read of the receiver that gets a frame
    raises BadPeer and returns nothing.  (The exception is a library that makes the same
    box under two different nonces.)  The sender has no way to take the lost write back. *)
Theorem C92_lost_refuted : forall L sp ep TKs TCs TKr TC s r m args last t e h s' hr r',
  nacl_laws L sp ep -> nacl_fail_laws L -> linked (ac_enc s) (ac_enc r) ->
  ac_buffered_m4 s = None -> ac_readq r = [] ->
  ac_hist L TKs TCs s (EcWrite m args last t (Err e) :: h) s' -> t <> [] ->
  ac_hist L TKr TC r hr r' -> (forall f, In f (frames_in hr) -> In f (frames_out h)) ->
  (forall t1 y l, In (EcRead t1 y l) hr ->
     (exists f, t1 = [ERead (Ok f)] /\ y = Err BadPeer) \/ (exists e1, t1 = [ERead (Err e1)] /\ y = Err e1)) \/
  same_box L (ec_key (ac_enc s)).
Proof.
  intros L sp ep TKs TCs TKr TC s r m args last t e h s' hr r' HL HF HK HM HQ Hs Ht Hr Hin.
  destruct HK as (K1 & K2 & K3 & K4 & K5 & K6 & K7).
  rewrite <- K3. eapply late_history; [exact HF|exact Hr|exact HQ|exact K5|lia|].
  intros f Hf. rewrite K3, K4, K7. exact (later_frames L sp ep TKs TCs s m args last t (Err e) h s' None 0 HL K1 K2 K6 HM Hs Ht f (Hin f Hf)).
Qed.
Print Assumptions C92_lost_refuted.

(** The write of "a", "b" fails and is lost; it is repeated and then "c" is written. *)
Example C92_lost_example :
  let hs := fst (ac_run toy_lib one_two_three null_checker (ex_app SERVER)
              [OpWrite [x61] [[x62]] false (Err OSError); OpWrite [x61] [[x62]] false (Ok tt); OpWrite [x63] [] true (Ok tt)]) in
  let hr := fst (ac_run toy_lib null_keeper null_checker (ex_app CLIENT)
              [OpRead (Ok (nth 1 (frames_out hs) [])); OpRead (Ok (nth 2 (frames_out hs) [])); OpRead (Err OSError)]) in
  map (fun c => match c with EcRead _ y _ => y | EcWrite _ _ _ _ _ => Ok [] end) hr
    = [Err BadPeer; Err BadPeer; Err OSError] /\ got_msgs hr = [].
Proof. vm_compute. auto. Qed.

(** The same for a receiver that uses the encrypted channel, as the server does until it
    has M4. *)
Lemma late_enc_history : forall L r hr r', nacl_fail_laws L -> ec_hist L r hr r' ->
  ec_pushback r = [] -> 0 <= ec_read_nonce r ->
  (forall f, In f (frames_in hr) -> 16 <= zlen f - 2 /\ exists n x,
     sealed L (ec_key r) (ec_session_nonce r) n x f /\ ec_read_nonce r < n) ->
  (forall t y l, In (EcRead t y l) hr ->
     (exists f, t = [ERead (Ok f)] /\ y = Err BadPeer) \/ (exists e, t = [ERead (Err e)] /\ y = Err e)) \/
  same_box L (ec_key r).
Proof.
  intros L r hr r' HF H.
  induction H as [s|s t s1 y h s2 HX HH IH|s m args last t s1 y h s2 HX HH IH]; intros HB H0 Hin.
  - left. intros t y l [].
  - apply ec_read_exec in HX. destruct HX as [[_ HX]|[HX _]]; [|congruence].
    assert (D : (exists e, y = Err e /\ ((exists f, t = [ERead (Ok f)] /\ e = BadPeer) \/ t = [ERead (Err e)])
        /\ ec_key s1 = ec_key s /\ ec_pushback s1 = [] /\ ec_read_nonce s1 = ec_read_nonce s
        /\ ec_session_nonce s1 = ec_session_nonce s) \/ same_box L (ec_key s)).
    { destruct HX as [(f & -> & HP)|(e & -> & -> & ->)].
      - destruct (Hin f) as (Hl & n & x & Hs & Hn). { rewrite frames_in_cons. left. reflexivity. }
        destruct (late_frame L _ f n x s1 y HF Hs Hl (conj H0 Hn) HP) as [->|B]; [|right; exact B].
        left. exists BadPeer. split; [reflexivity|]. split; [left; eauto|].
        apply ec_process_err in HP. destruct HP as (-> & -> & -> & _ & ->). auto.
      - left. exists e. split; [reflexivity|]. split; [right; reflexivity|]. auto. }
    destruct D as [(e & -> & Ht & D1 & D2 & D3 & D4)|B]; [|right; exact B].
    rewrite D1, D2, D3, D4 in IH. destruct IH as [IH|B]; [reflexivity|exact H0| | |right; exact B].
    { intros f Hf. apply Hin. rewrite frames_in_cons. apply in_or_app. right. exact Hf. }
    left. intros t' y' l [E|E].
    + injection E as <- <- <-. destruct Ht as [(f & -> & ->)| ->]; eauto.
    + exact (IH t' y' l E).
  - apply ec_write_state in HX. destruct HX as (D1 & D2 & D3 & D4 & _ & _).
    rewrite D1, D2, D3, D4 in IH.
    destruct IH as [IH|B]; [exact HB|exact H0| | |right; exact B].
    { intros f Hf. apply Hin. rewrite frames_in_cons. apply in_or_app. right. exact Hf. }
    left. intros t' y' l [E|E]; [discriminate|]. exact (IH t' y' l E).
Qed.

(** *** C52: the first write of a client that holds back M4 fails and its frames are lost.
    Then the server, which is waiting for M4, never gets it: whatever the client writes
    from then on, every frame the server reads is answered with BadPeer. *)
Theorem C52_lost_refuted : forall L sp ep TK TC s r k g t0 m args last t e h s' hr r',
  nacl_laws L sp ep -> nacl_fail_laws L -> linked (ac_enc s) r ->
  ac_buffered_m4 s = Some (M4_wire t0 k g) ->
  ac_hist L TK TC s (EcWrite m args last t (Err e) :: h) s' -> t <> [] ->
  ec_hist L r hr r' -> (forall f, In f (frames_in hr) -> In f (frames_out h)) ->
  (forall t1 y l, In (EcRead t1 y l) hr ->
     (exists f, t1 = [ERead (Ok f)] /\ y = Err BadPeer) \/ (exists e1, t1 = [ERead (Err e1)] /\ y = Err e1)) \/
  same_box L (ec_key (ac_enc s)).
Proof.
  intros L sp ep TK TC s r k g t0 m args last t e h s' hr r' HL HF HK HM Hs Ht Hr Hin.
  destruct HK as (K1 & K2 & K3 & K4 & K5 & K6 & K7). rewrite <- K3.
  eapply late_enc_history; [exact HF|exact Hr|exact K5|lia|].
  intros f Hf. rewrite K3, K4, K7. exact (later_frames L sp ep TK TC s m args last t (Err e) h s' (Some (k, g)) t0 HL K1 K2 K6 HM Hs Ht f (Hin f Hf)).
Qed.
Print Assumptions C52_lost_refuted.

(** *** C52: what holds.  If frames of the failed write arrive, the first of them is M4.
    Partial: the failed write must have reached the server. *)
Theorem C52_arrived_partial : forall L sp ep TK s r k g t0 m args last t e s1 hr r',
  nacl_laws L sp ep -> linked (ac_enc s) r -> ac_buffered_m4 s = Some (M4_wire t0 k g) ->
  exec (ac_write L TK m args last s) t (Some (s1, Err e)) ->
  ec_hist L r hr r' -> prefix_of (frames_in hr) (concat (map ev_out t)) -> frames_in hr <> [] ->
  exists rest, got_msgs hr = (M4_wire (fst (tk_get TK (ac_tk s))) k g, false) :: rest.
Proof.
  intros L sp ep TK s r k g t0 m args last t e s1 hr r' HL HK HM HX Hr HP HN.
  assert (Hs : ac_hist L TK null_checker s [EcWrite m args last t (Err e)] s1) by (econstructor; [exact HX|constructor]).
  destruct (app_to_enc L TK null_checker s _ s1 Hs (Some (k, g)) t0 HM) as (eh & HE & Ho & _ & Hc).
  assert (HO : frames_out eh = concat (map ev_out t)).
  { rewrite Ho, frames_out_cons. cbn [call_events]. change (frames_out []) with (@nil bytes). apply app_nil_r. }
  destruct (linked_deliver L sp ep _ r eh _ hr r' HL HK HE Hr) as (D1 & D2 & D3). { rewrite HO. exact HP. }
  rewrite Hc in D1. cbn [clear_texts] in D1. destruct (tk_get TK (ac_tk s)) as [now tk']. cbn [fst].
  destruct t as [|ev t]. { destruct HP as [w HP]. cbn in HP. symmetry in HP. apply app_eq_nil in HP. tauto. }
  cbn [is_empty] in D1. rewrite app_nil_r in D1.
  destruct (frames_in hr) as [|f0 fs0]; [congruence|].
  rewrite D1. destruct (packets now (m :: args)) as [|p ps] eqn:EP.
  { exfalso. revert EP. unfold packets. destruct (_ && _); discriminate. }
  cbn [app mark length firstn]. eexists. reflexivity.
Qed.
Print Assumptions C52_arrived_partial.

(** The client's M4 and "a" are written but the write raises; then "a" again.  The server
    gets M4 if the first frames arrive, and nothing at all if they do not. *)
Example C52_lost_example :
  let s := AC (ex_start CLIENT) 6 (Some ex_m4) [] in
  let r := EC ex_key [] false 1 2 (zeros 8) in
  let hs := fst (ac_run toy_lib one_two_three null_checker s
              [OpWrite [x61] [] false (Err OSError); OpWrite [x61] [] false (Ok tt); OpWrite [x62] [] false (Ok tt)]) in
  map (fun c => match c with EcRead _ y _ => y | EcWrite _ _ _ _ _ => Ok [] end)
    (fst (ec_run toy_lib r (map (fun f => OpRead (Ok f)) (skipn 2 (frames_out hs))))) = [Err BadPeer; Err BadPeer] /\
  length (got_msgs (fst (ec_run toy_lib r (map (fun f => OpRead (Ok f)) (frames_out hs))))) = 4%nat.
Proof. vm_compute. auto. Qed.
