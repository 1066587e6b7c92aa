(** Property C92, continued: a write that raised before anything was sent. *)
From Coq Require Import List ZArith Bool Strings.Byte Lia ZifyBool ZifyNat ZifyN.
From Verif Require Import PyBase PyBase_proofs IO IO_proofs Packets Packets_proofs Packets_proofs2
  Crypto Crypto_proofs Time EncChannel EncUse EncChannel_proofs Props_Enc
  AppChannel AppUse AppChannel_proofs Props_App Tasks Tasks_proofs Spec Props_E2E Props_Lost.
Import ListNotations.
Open Scope Z_scope.

(** *** C92, what does hold, for every library and every exception of it: if the messages
    travel in one packet (there is one of them, or none exceeds 65535 bytes) and the write
    raised without handing anything to the channel below, then nothing but the clock has
    changed, and the write can be repeated: it does what it would have done the first
    time, one reading of the clock later. *)
Theorem C92_unsent_partial : forall L TK s m args last s' e,
  ac_buffered_m4 s = None -> (args = [] \/ forall x, In x (m :: args) -> Z.of_nat (length x) <= 65535) ->
  exec (ac_write L TK m args last s) [] (Some (s', Err e)) ->
  ac_enc s' = ac_enc s /\ ac_readq s' = ac_readq s /\ ac_buffered_m4 s' = None /\
  ac_tk s' = snd (tk_get TK (ac_tk s)).
Proof.
  intros L TK s m args last s' e HM Hone H. apply ac_write_exec in H.
  destruct H as (p & ps & e1 & HP & HE & ->). rewrite HM in HP. cbn [app] in HP.
  assert (ps = []) as ->.
  { unfold packets in HP. destruct Hone as [->|Hs].
    - cbn [length map] in HP. change (1 <? Z.of_nat 1) with false in HP. cbn [andb] in HP. inversion HP. reflexivity.
    - destruct args as [|a args].
      + cbn [length map] in HP. change (1 <? Z.of_nat 1) with false in HP. cbn [andb] in HP. inversion HP. reflexivity.
      + assert (F : forallb short (m :: a :: args) = true).
        { apply forallb_forall. intros x Hx. unfold short. specialize (Hs x Hx). lia. }
        unfold bytes in *. rewrite F in HP. replace (1 <? Z.of_nat (length (m :: a :: args))) with true in HP by (cbn [length]; lia).
        cbn [andb] in HP. inversion HP. reflexivity. }
  apply ec_write_exec in HE. destruct HE as [(_ & e0 & HW & _)|(fs & HW & _)]; [|discriminate].
  cbn [ec_wrap_all] in HW. destruct (ec_encrypt L (ac_enc s) p) as [c|e2]; [discriminate|].
  injection HW as <- _. repeat split.
Qed.
Print Assumptions C92_unsent_partial.

Lemma late_process : forall L e f n x e1 er, nacl_fail_laws L ->
  sealed L (ec_key e) (ec_session_nonce e) n x f ->
  0 <= ec_read_nonce e < n -> ec_process L e f = (e1, er) ->
  er = Err BadPeer \/ same_box L (ec_key e).
Proof.
  intros L e f n x e1 er HF HS Hr HP. destruct (Z_le_gt_dec 16 (zlen f - 2)) as [Hl|Hl].
  - eapply late_frame; eauto.
  - left. destruct HS as (_ & c & _ & ->). unfold ec_process, ec_unwrap, Enc_wire in HP. cbn [app] in HP.
    rewrite ep_ctor_spec in HP. replace ((b2z x06 =? 6) && (16 <=? zlen c)) with false in HP.
    2:{ symmetry. unfold Enc_wire, zlen in *. cbn [app length] in Hl. lia. }
    injection HP as _ <-. reflexivity.
Qed.

(** *** C92, where even that fails: the messages travel in two packets and the library
    raises on the second.  Nothing was sent, but a counter is used up: the receiver
    rejects every frame of the repeated write, or of whatever is written instead.  (The
    exception is again a library that makes the same box under two nonces.) *)
Theorem C92_half_refuted : forall L TK s r m big last c1 e0,
  nacl_fail_laws L -> linked (ac_enc s) (ac_enc r) -> ac_buffered_m4 s = None -> ac_readq r = [] ->
  65535 < Z.of_nat (length big) -> ec_write_nonce (ac_enc s) + 2 < 2 ^ 64 ->
  (let t := fst (tk_get TK (ac_tk s)) in
   let key := ec_key (ac_enc s) in
   let sn := ec_session_nonce (ac_enc s) in
   l_afternm L (App_wire t m) (nonce24 (ec_write_nonce (ac_enc s)) sn) key = Ok c1 /\
   l_afternm L (App_wire t big) (nonce24 (ec_write_nonce (ac_enc s) + 2) sn) key = Err e0) ->
  exists s', exec (ac_write L TK m [big] last s) [] (Some (s', Err e0)) /\
  forall m' args' last' fs y s2, exec (ac_write L TK m' args' last' s') [EWrite fs last' y] (Some (s2, y)) ->
  forall f, In f fs -> forall TC r' x, exec (ac_read L TC r) [ERead (Ok f)] (Some (r', x)) ->
  x = Err BadPeer \/ same_box L (ec_key (ac_enc s)).
Proof.
  intros L TK s r m big last c1 e0 HF (K1 & K2 & K3 & K4 & K5 & K6 & K7) HM HQ Hb Hn (E1 & E2). cbv zeta in E1, E2.
  exists (AC (ec_advance_write (ac_enc s)) (snd (tk_get TK (ac_tk s))) None (ac_readq s)). split.
  - unfold ac_write. destruct (tk_get TK (ac_tk s)) as [t tk']. cbn [fst snd] in *. rewrite HM, ac_packets_spec.
    assert (F : forallb short [m; big] = false).
    { cbn [forallb]. replace (short big) with false by (unfold short; lia). destruct (short m); reflexivity. }
    unfold packets, bytes in *. rewrite F, andb_false_r. cbn [map app]. unfold mzoom, ec_write. cbn [ac_enc ec_wrap_all]. unfold ec_encrypt.
    rewrite nonce_bytes_ok by lia. rewrite E1. cbn [ec_wrap_all ec_advance_write ec_write_nonce ec_session_nonce ec_key].
    unfold ec_encrypt. cbn [ec_advance_write ec_write_nonce ec_session_nonce ec_key].
    rewrite nonce_bytes_ok by lia. rewrite E2. apply ex_ret.
  - intros m' args' last' fs y s2 HW f Hf TC r' x HX.
    apply ac_write_exec in HW. destruct HW as (p & ps & e1 & _ & HE & _). cbn [ac_enc] in HE.
    apply ec_write_exec in HE. destruct HE as [(H & _)|(fs' & H & HW)]; [discriminate|]. injection H as <-.
    apply wrap_all_ok in HW. destruct HW as [HS _]. cbn [ec_advance_write ec_key ec_session_nonce ec_write_nonce] in HS.
    apply In_nth_error in Hf. destruct Hf as [i Hi]. destruct (sealed_nth _ _ _ _ _ _ _ _ HS Hi) as (z & _ & Hz).
    apply ac_read_exec in HX. destruct HX as [(m0 & q & HQ' & _)|(_ & e2 & er & HE & HR)]; [congruence|].
    apply ec_read_exec in HE. destruct HE as [[_ [(g & Hg & HP)|(e & Hg & _)]]|[HE _]]; [|discriminate|congruence].
    injection Hg as <-. rewrite <- K3, <- K4 in Hz.
    destruct (late_process L (ac_enc r) f _ z e2 er HF Hz) with (2 := HP) as [->|B]; [lia| |right; rewrite <- K3; exact B].
    left. destruct HR as [-> _]. reflexivity.
Qed.
Print Assumptions C92_half_refuted.

(** A library that refuses to seal or open texts with "b" in their seventh byte.  Writing
    "b" alone raises and changes nothing but the clock; writing "a" together with a long
    message that starts with "b" raises, sends nothing and uses up a counter. *)
Definition b_text (m : bytes) : bool := bytes_eqb (firstn 1 (skipn 6 m)) [x62].
Definition picky_lib : lib :=
  Lib (l_sha512 toy_lib) (l_sign toy_lib) (l_sign_open toy_lib) (l_beforenm toy_lib)
    (fun m n k => if b_text m then Err ValueError else l_afternm toy_lib m n k)
    (fun c n k => match l_open_afternm toy_lib c n k with
                  | Ok m => if b_text m then Err BadEncryptedDataException else Ok m
                  | Err e => Err e
                  end).

Example C92_unsent_example :
  nacl_fail_laws picky_lib /\
  (let hs := fst (ac_run picky_lib one_two_three null_checker (ex_app SERVER) [OpWrite [x62] [] false (Ok tt); OpWrite [x61] [] false (Ok tt)]) in
   map (fun c => match c with EcRead _ y _ => y | EcWrite _ _ _ _ _ => Ok [] end)
     (fst (ac_run picky_lib null_keeper null_checker (ex_app CLIENT) (map (fun f => OpRead (Ok f)) (frames_out hs)))) = [Ok [x61]]) /\
  forall rest, 65535 < Z.of_nat (length (x62 :: rest)) ->
    exists s', exec (ac_write picky_lib one_two_three [x61] [x62 :: rest] false (ex_app SERVER)) [] (Some (s', Err ValueError)) /\
    let hs := fst (ac_run picky_lib one_two_three null_checker s' [OpWrite [x61] [] false (Ok tt)]) in
    map (fun c => match c with EcRead _ y _ => y | EcWrite _ _ _ _ _ => Ok [] end)
     (fst (ac_run picky_lib null_keeper null_checker (ex_app CLIENT) (map (fun f => OpRead (Ok f)) (frames_out hs)))) = [Err BadPeer].
Proof.
  split; [|split].
  - destruct toy_fail_laws as [A B C]. constructor.
    + intros c n k e H. cbn [picky_lib l_open_afternm] in H. destruct (l_open_afternm toy_lib c n k) as [m|e'] eqn:E.
      * destruct (b_text m); congruence.
      * injection H as <-. eapply A. exact E.
    + exact B.
    + intros c n k m H. cbn [picky_lib l_open_afternm l_afternm] in *. destruct (l_open_afternm toy_lib c n k) as [m'|e'] eqn:E; [|discriminate].
      destruct (b_text m') eqn:EB; [discriminate|]. injection H as <-. rewrite EB. eapply C. exact E.
  - vm_compute. reflexivity.
  - intros rest Hl. exists (AC (ec_advance_write (ac_enc (ex_app SERVER))) 1 None []). split; [|vm_compute; reflexivity].
    unfold ac_write. change (tk_get one_two_three (ac_tk (ex_app SERVER))) with (1, 1).
    change (ac_buffered_m4 (ex_app SERVER)) with (@None bytes). cbv beta iota. rewrite ac_packets_spec.
    assert (F : forallb short [[x61]; x62 :: rest] = false).
    { cbn [forallb]. replace (short (x62 :: rest)) with false by (unfold short; lia). apply andb_false_r. }
    unfold packets, bytes in *. rewrite F, andb_false_r. cbn [map app]. apply ex_ret.
Qed.
