(** Properties C22-C27: the encrypted channel. *)
From Coq Require Import List ZArith Bool Strings.Byte Lia ZifyBool ZifyNat ZifyN.
From Verif Require Import PyBase PyBase_proofs IO Packets Packets_proofs Crypto Crypto_proofs
  EncChannel EncUse EncChannel_proofs Spec.
Import ListNotations.
Open Scope Z_scope.
Ltac Zify.zify_post_hook ::= Z.div_mod_to_equations.

(** The first write counter of each side. *)
Definition first_counter (r : role) : Z := match r with CLIENT => 1 | SERVER => 2 end.
Definition other (r : role) : role := match r with CLIENT => SERVER | SERVER => CLIENT end.

Lemma ec_init_inv : forall key r sn s, ec_init key r sn = Ok s ->
  length key = 32%nat /\ ec_key s = key /\ ec_session_nonce s = sn /\ ec_pushback s = [] /\
  ec_write_nonce s = first_counter r /\ ec_read_nonce s = first_counter (other r).
Proof.
  intros key r sn s H. unfold ec_init in H. destruct (zlen key =? BOX_SECRETKEYBYTES) eqn:E; cbn in H; [|discriminate].
  injection H as <-. unfold zlen, BOX_SECRETKEYBYTES in E. ecs. repeat split; try lia; destruct r; reflexivity.
Qed.

(** Distinct counters give distinct nonces. *)
Lemma nonce24_inj : forall a b sn, 0 <= a < 2 ^ 64 -> 0 <= b < 2 ^ 64 ->
  nonce24 a sn = nonce24 b sn -> a = b.
Proof.
  intros a b sn Ha Hb H. unfold nonce24 in H. apply app_inj_len in H; [|reflexivity].
  destruct H as [H _]. rewrite <- !le_enc_u64 in H.
  apply (f_equal le_dec) in H. rewrite !le_dec_enc in H.
  change (256 ^ Z.of_nat 8) with (2 ^ 64) in H. rewrite !Z.mod_small in H by lia. exact H.
Qed.

(** *** C22: the frames written over any history, for any library, any failures.
    [ns] are the counters. *)
Theorem C22_nonces_unique : forall L key r sn s0 h s',
  ec_init key r sn = Ok s0 -> ec_hist L s0 h s' ->
  exists ns, length ns = length (frames_out h) /\ length (sent_msgs h) = length (frames_out h) /\
    NoDup (map (fun n => nonce24 n sn) ns) /\
    (forall n, In n ns -> 0 < n < 2 ^ 64 /\ n mod 2 = first_counter r mod 2) /\
    (forall i n m last f, nth_error ns i = Some n -> nth_error (sent_msgs h) i = Some (m, last) ->
       nth_error (frames_out h) i = Some f ->
       exists c, l_afternm L m (nonce24 n sn) key = Ok c /\ f = Enc_wire last c).
Proof.
  intros L key r sn s0 h s' HI HH. apply ec_init_inv in HI. destruct HI as (_ & Hk & Hs & _ & Hw & _).
  destruct (hist_counters L s0 h s' HH) as (ns & H1 & H2 & H3 & H4 & H5 & _).
  rewrite Hk, Hs, Hw in *.
  assert (HR : forall n, In n ns -> 0 < n < 2 ^ 64 /\ n mod 2 = first_counter r mod 2).
  { intros n Hn. pose proof (H5 n Hn) as [Ha Hb]. apply In_nth_error in Hn. destruct Hn as [i Hi].
    assert (Hlt : (i < length ns)%nat) by (apply nth_error_Some; congruence).
    destruct (nth_error (sent_msgs h) i) as [x|] eqn:Ex; [|apply nth_error_None in Ex; lia].
    destruct (nth_error (frames_out h) i) as [f|] eqn:Ef; [|apply nth_error_None in Ef; lia].
    destruct (H3 i n x f Hi Ex Ef) as [HR _]. destruct r; cbn [first_counter] in *; lia. }
  exists ns. split; [exact H1|]. split; [exact H2|]. split; [|split; [exact HR|]].
  - apply NoDup_nth_error. intros i j Hi HE. rewrite map_length in Hi.
    rewrite !nth_error_map in HE. unfold option_map in HE.
    destruct (nth_error ns i) as [a|] eqn:Ea; [|apply nth_error_None in Ea; lia].
    destruct (nth_error ns j) as [b|] eqn:Eb; [|discriminate].
    assert (HN : nonce24 a sn = nonce24 b sn) by congruence.
    pose proof (HR a (nth_error_In _ _ Ea)). pose proof (HR b (nth_error_In _ _ Eb)).
    apply nonce24_inj in HN; [|lia|lia].
    destruct (Nat.lt_trichotomy i j) as [C|[C|C]]; [|exact C|].
    + pose proof (H4 _ _ _ _ C Ea Eb). lia.
    + pose proof (H4 _ _ _ _ C Eb Ea). lia.
  - intros i n m last f Hn Hx Hf. destruct (H3 i n (m, last) f Hn Hx Hf) as (_ & c & Hc & Hw'). eauto.
Qed.
Print Assumptions C22_nonces_unique.

(** Odd counters on one side, even on the other: no nonce is shared. *)
Theorem C22_directions_disjoint : forall (a b : Z) sn, 0 < a < 2 ^ 64 -> 0 < b < 2 ^ 64 ->
  a mod 2 = first_counter CLIENT mod 2 -> b mod 2 = first_counter SERVER mod 2 ->
  nonce24 a sn <> nonce24 b sn.
Proof.
  intros a b sn Ha Hb Pa Pb H. apply nonce24_inj in H; [|lia|lia]. cbn [first_counter] in *. lia.
Qed.
Print Assumptions C22_directions_disjoint.

(** When the counter is exhausted nothing is written, now or later. *)
Theorem C22_exhausted : forall L sp ep s m args last t s1 r,
  nacl_laws L sp ep -> length (ec_key s) = 32%nat -> length (ec_session_nonce s) = 8%nat ->
  0 <= ec_write_nonce s -> 2 ^ 64 <= ec_write_nonce s + 2 * Z.of_nat (length args) ->
  exec (ec_write L m args last s) t (Some (s1, r)) ->
  t = [] /\ r = Err OverflowError /\
  forall h s2, ec_hist L s1 h s2 -> frames_out h = [].
Proof.
  intros L sp ep s m args last t s1 r HL Hk Hs Hw Hbig HX.
  pose proof (eh_write L s m args last t s1 r [] s1 HX (eh_nil L s1)) as HH.
  apply ec_write_exec in HX. destruct HX as [(-> & e & HW & ->)|(fs & -> & HW)].
  - apply wrap_all_err in HW. destruct HW as (i & _ & -> & m' & _ & HE).
    set (s' := EC (ec_key s) (ec_pushback s) (ec_last_flag s) (ec_read_nonce s)
                  (ec_write_nonce s + 2 * Z.of_nat i) (ec_session_nonce s)) in *.
    destruct (ec_encrypt_total L sp ep s' m' HL) as [[_ [c Hc]]|[Ho He]];
      [exact Hk|exact Hs|unfold s'; ecs; lia|congruence|].
    rewrite He in HE. injection HE as <-. split; [auto|]. split; [auto|].
    intros h s2 Hh. destruct (hist_sent L sp ep s' h s2 HL Hh) as (HS & _ & _ & H0 & _);
      [exact Hk|exact Hs|unfold s'; ecs; lia|].
    rewrite (H0 Ho) in HS. destruct (frames_out h); [auto|destruct HS].
  - exfalso. pose proof HW as HW0. apply wrap_all_ok in HW. destruct HW as [HS _].
    pose proof (sealed_all_length _ _ _ _ _ _ HS) as HLf. rewrite mark_length in HLf. cbn [length] in HLf.
    destruct (nth_error fs (length args)) as [f|] eqn:Ef; [|apply nth_error_None in Ef; lia].
    destruct (nth_error (mark last (m :: args)) (length args)) as [x|] eqn:Ex;
      [|apply nth_error_None in Ex; rewrite mark_length in Ex; cbn [length] in Ex; lia].
    destruct (sealed_all_nth _ _ _ _ _ _ _ _ _ HS Ex Ef) as [HB _]. lia.
Qed.
Print Assumptions C22_exhausted.

(** Example: a client writes, fails to write, reads rubbish and writes again; the
    server's tags show the counters 1, 3, 5, 7 in use. *)
Definition ex_key : bytes := repeat x07 32.
Definition ex_start (r : role) : ec :=
  match ec_init ex_key r (zeros 8) with Ok s => s | Err _ => EC [] [] false 0 0 [] end.
Example C22_example :
  let h := fst (ec_run toy_lib (ex_start CLIENT)
                 [OpWrite [x61] [[x62]] false (Ok tt); OpWrite [x63] [] false (Err OSError);
                  OpRead (Ok [x06; x00]); OpWrite [x64] [] true (Ok tt)]) in
  ec_hist toy_lib (ex_start CLIENT) h (snd (ec_run toy_lib (ex_start CLIENT)
                 [OpWrite [x61] [[x62]] false (Ok tt); OpWrite [x63] [] false (Err OSError);
                  OpRead (Ok [x06; x00]); OpWrite [x64] [] true (Ok tt)])) /\
  map (fun f => nth_error f 2) (frames_out h) = [Some x01; Some x03; Some x05; Some x07] /\
  map (fun f => nth_error f 1) (frames_out h) = [Some x00; Some x00; Some x00; Some x80].
Proof. split; [apply ec_run_hist|]. split; vm_compute; reflexivity. Qed.
Example C22_example_exhausted :
  let s := EC ex_key [] false 2 (2 ^ 64 - 3) (zeros 8) in
  fst (io_run (ec_write toy_lib [x61] [[x62]] false s) (Ok []) (Ok tt)) <> [] /\
  io_run (ec_write toy_lib [x61] [[x62]; [x63]] false s) (Ok []) (Ok tt)
    = ([], (EC ex_key [] false 2 (2 ^ 64 + 1) (zeros 8), Err OverflowError)).
Proof. split; vm_compute; [discriminate|reflexivity]. Qed.

(** *** C23: honest delivery.  [hs] is everything one peer did, [hr] everything the
    other did; the receiver has been given the first frames written. *)
Theorem C23_in_order : forall L sp ep key r sn s0 hs s1 r0 hr r1,
  nacl_laws L sp ep -> length sn = 8%nat ->
  ec_init key r sn = Ok s0 -> ec_hist L s0 hs s1 ->
  ec_init key (other r) sn = Ok r0 -> ec_hist L r0 hr r1 ->
  prefix_of (frames_in hr) (frames_out hs) ->
  got_msgs hr = firstn (length (frames_in hr)) (sent_msgs hs) /\
  length (got_msgs hr) = length (frames_in hr).
Proof.
  intros L sp ep key r sn s0 hs s1 r0 hr r1 HL Hsn HI1 HH1 HI2 HH2 [rest HP].
  apply ec_init_inv in HI1. destruct HI1 as (Hk & K1 & N1 & _ & W1 & _).
  apply ec_init_inv in HI2. destruct HI2 as (_ & K2 & N2 & P2 & _ & R2).
  destruct (hist_sent L sp ep s0 hs s1 HL HH1) as (HS & _); try (rewrite ?K1, ?N1, ?W1; auto; destruct r; cbn; lia).
  rewrite K1, N1, W1, HP in HS.
  assert (HG : got_msgs hr = firstn (length (frames_in hr)) (sent_msgs hs)).
  { eapply (hist_deliver L sp ep r0 hr r1 HL HH2 ltac:(rewrite K2; exact Hk) ltac:(rewrite N2; exact Hsn) P2).
    - rewrite K2, N2, R2. replace (other (other r)) with r by (destruct r; reflexivity). exact HS.
    - apply mixed_refl. }
  split; [exact HG|]. rewrite HG. apply sealed_all_length in HS. rewrite app_length in HS.
  apply firstn_length_le. lia.
Qed.
Print Assumptions C23_in_order.

(** Two batches from the server, one of them last, interleaved on the receiver with
    a failing read and a write of its own. *)
Example C23_example :
  let hs := fst (ec_run toy_lib (ex_start SERVER)
                  [OpWrite [x61] [[x62]] false (Ok tt); OpWrite [x63] [[]] true (Ok tt)]) in
  let hr := fst (ec_run toy_lib (ex_start CLIENT)
                  (OpRead (Err OSError) :: OpWrite [x70] [] false (Ok tt) :: map (fun f => OpRead (Ok f)) (frames_out hs))) in
  frames_in hr = frames_out hs /\
  got_msgs hr = [([x61], false); ([x62], false); ([x63], false); ([], true)].
Proof. vm_compute. auto. Qed.

(** *** C24: arbitrary frames.  A forgery is a body that opens under a nonce under
    which neither peer has produced it. *)
Definition produced (L : lib) (key sn : bytes) (w : Z) (h : list ecall) (n : Z) (body : bytes) : Prop :=
  exists i m last, nth_error (sent_msgs h) i = Some (m, last) /\ n = w + 2 * Z.of_nat i /\
    l_afternm L m (nonce24 n sn) key = Ok body.
Definition forgery (L : lib) (key sn : bytes) (r : role) (hs hr : list ecall) : Prop :=
  exists t b body n m, In (t :: b :: body) (frames_in hr) /\ 0 <= n < 2 ^ 64 /\
    l_open_afternm L body (nonce24 n sn) key = Ok m /\
    ~ produced L key sn (first_counter r) hs n body /\
    ~ produced L key sn (first_counter (other r)) hr n body.

Lemma opened_prefix : forall L sp ep key sn (P : Prop) all got acc xs fs w0,
  nacl_laws L sp ep -> length key = 32%nat -> length sn = 8%nat ->
  (forall f, In f acc -> In f all) ->
  sealed_all L key sn w0 xs fs -> opened_all L key sn w0 got acc ->
  (forall t b body i m, In (t :: b :: body) all -> 0 <= w0 + 2 * Z.of_nat i < 2 ^ 64 ->
     l_open_afternm L body (nonce24 (w0 + 2 * Z.of_nat i) sn) key = Ok m ->
     (forall m' last, nth_error xs i = Some (m', last) ->
        l_afternm L m' (nonce24 (w0 + 2 * Z.of_nat i) sn) key <> Ok body) -> P) ->
  prefix_of (map fst got) (map fst xs) \/ P.
Proof.
  intros L sp ep key sn P all. induction got as [|g got IH]; intros acc xs fs w0 HL Hk Hsn Hin HS HO HP.
  - left. exists (map fst xs). reflexivity.
  - destruct acc as [|f acc]; cbn [opened_all] in HO; [tauto|].
    destruct HO as [(Hr & t & b & body & -> & Ht & Hb & _ & Ho) HO].
    assert (HI0 : In (t :: b :: body) all) by (apply Hin; left; reflexivity).
    assert (E0 : w0 + 2 * Z.of_nat 0 = w0) by lia.
    destruct xs as [|[m' last] xs].
    + right. apply (HP t b body 0%nat (fst g)); auto.
      * lia.
      * rewrite E0. exact Ho.
      * intros m' last H. discriminate.
    + destruct fs as [|f fs]; cbn [sealed_all] in HS; [tauto|]. destruct HS as [(_ & c & Hc & _) HS].
      cbn [fst snd] in *.
      destruct (list_eq_dec Byte.byte_eq_dec c body) as [<-|Hne].
      * destruct (law_box _ _ _ HL m' (nonce24 w0 sn) key) as (c' & B1 & _ & B3); auto.
        { apply nonce24_length; auto. }
        rewrite Hc in B1. injection B1 as <-. rewrite Ho in B3. injection B3 as B3.
        destruct (IH acc xs fs (w0 + 2) HL Hk Hsn) as [[z Hz]|HPP]; auto.
        -- intros f' Hf'. apply Hin. right. exact Hf'.
        -- intros t' b' body' i m HI Hrr Hoo Hno.
           replace (w0 + 2 + 2 * Z.of_nat i) with (w0 + 2 * Z.of_nat (S i)) in * by lia.
           apply (HP t' b' body' (S i) m); auto.
        -- left. exists z. cbn [map app fst]. rewrite B3. f_equal. exact Hz.
      * right. apply (HP t b body 0%nat (fst g)); auto.
        -- lia.
        -- rewrite E0. exact Ho.
        -- intros m0 l0 H. cbn [nth_error] in H. injection H as <- <-. rewrite E0. congruence.
Qed.

Theorem C24_attacker : forall L sp ep key r sn s0 hs s1 r0 hr r1,
  nacl_laws L sp ep -> length sn = 8%nat ->
  ec_init key r sn = Ok s0 -> ec_hist L s0 hs s1 ->
  ec_init key (other r) sn = Ok r0 -> ec_hist L r0 hr r1 ->
  prefix_of (map fst (got_msgs hr)) (map fst (sent_msgs hs)) \/ forgery L key sn r hs hr.
Proof.
  intros L sp ep key r sn s0 hs s1 r0 hr r1 HL Hsn HI1 HH1 HI2 HH2.
  apply ec_init_inv in HI1. destruct HI1 as (Hk & K1 & N1 & _ & W1 & _).
  apply ec_init_inv in HI2. destruct HI2 as (_ & K2 & N2 & P2 & _ & R2).
  destruct (hist_sent L sp ep s0 hs s1 HL HH1) as (HS & _); try (rewrite ?K1, ?N1, ?W1; auto; destruct r; cbn; lia).
  rewrite K1, N1, W1 in HS.
  destruct (hist_got L r0 hr r1 HH2 P2) as (_ & _ & _ & _ & acc & Hacc & HO).
  rewrite K2, N2, R2 in HO. replace (other (other r)) with r in HO by (destruct r; reflexivity).
  eapply (opened_prefix L sp ep key sn _ (frames_in hr)); eauto.
  intros t b body i m HI Hr Ho Hno. exists t, b, body, (first_counter r + 2 * Z.of_nat i), m.
  split; [exact HI|]. split; [exact Hr|]. split; [exact Ho|]. split.
  - intros (i' & m' & last & Hx & Hn & Hc). assert (i' = i) as -> by lia. eapply Hno; eauto.
  - intros (i' & m' & last & Hx & Hn & Hc). destruct r; cbn [first_counter other] in Hn; lia.
Qed.
Print Assumptions C24_attacker.

(** The attacker drops, replays, reorders and reflects; only a prefix is read. *)
Example C24_example :
  let hs := fst (ec_run toy_lib (ex_start CLIENT)
                  [OpWrite [x61] [[x62]; [x63]] false (Ok tt)]) in
  match frames_out hs with
  | [a; b; c] =>
      let hr := fst (ec_run toy_lib (ex_start SERVER)
                  [OpRead (Ok b); OpRead (Ok a); OpRead (Ok a); OpRead (Ok c); OpWrite [x70] [] false (Ok tt);
                   OpRead (Ok (Enc_wire false (toy_tag (nonce24 2 (zeros 8)) ex_key ++ [x70]))); OpRead (Ok b)]) in
      got_msgs hr = [([x61], false); ([x62], false)]
  | _ => False
  end.
Proof. vm_compute. reflexivity. Qed.

(** *** C25: rejected frames anywhere in between.  [g] are the genuine frames
    among those received; each other frame fails to authenticate at the position
    where it arrives (rubbish, a replay, a frame out of order, ...). *)
Theorem C25_no_desync : forall L sp ep key r sn s0 hs s1 r0 hr r1 g,
  nacl_laws L sp ep -> length sn = 8%nat ->
  ec_init key r sn = Ok s0 -> ec_hist L s0 hs s1 ->
  ec_init key (other r) sn = Ok r0 -> ec_hist L r0 hr r1 ->
  prefix_of g (frames_out hs) ->
  mixed (fun n f => forall t b body m, f = t :: b :: body -> l_open_afternm L body (nonce24 n sn) key <> Ok m)
        (first_counter r) g (frames_in hr) ->
  got_msgs hr = firstn (length g) (sent_msgs hs) /\ length (got_msgs hr) = length g.
Proof.
  intros L sp ep key r sn s0 hs s1 r0 hr r1 g HL Hsn HI1 HH1 HI2 HH2 [rest HP] HM.
  apply ec_init_inv in HI1. destruct HI1 as (Hk & K1 & N1 & _ & W1 & _).
  apply ec_init_inv in HI2. destruct HI2 as (_ & K2 & N2 & P2 & _ & R2).
  destruct (hist_sent L sp ep s0 hs s1 HL HH1) as (HS & _); try (rewrite ?K1, ?N1, ?W1; auto; destruct r; cbn; lia).
  rewrite K1, N1, W1, HP in HS.
  assert (HG : got_msgs hr = firstn (length g) (sent_msgs hs)).
  { eapply (hist_deliver L sp ep r0 hr r1 HL HH2 ltac:(rewrite K2; exact Hk) ltac:(rewrite N2; exact Hsn) P2).
    - rewrite K2, N2, R2. replace (other (other r)) with r by (destruct r; reflexivity). exact HS.
    - rewrite K2, N2, R2. replace (other (other r)) with r by (destruct r; reflexivity). exact HM. }
  split; [exact HG|]. rewrite HG. apply sealed_all_length in HS. rewrite app_length in HS.
  apply firstn_length_le. lia.
Qed.
Print Assumptions C25_no_desync.

(** One rejected read: an exception, and the channel is as before except for the
    reported flag. *)
Theorem C25_rejected_read : forall L s f t b body s1 r,
  ec_pushback s = [] -> f = t :: b :: body ->
  (forall m, l_open_afternm L body (nonce24 (ec_read_nonce s) (ec_session_nonce s)) (ec_key s) <> Ok m) ->
  exec (ec_read L s) [ERead (Ok f)] (Some (s1, r)) ->
  (exists e, r = Err e) /\ ec_set_last_flag (ec_last_flag s) s1 = s.
Proof.
  intros L s f t b body s1 r Hp Hf Hno HX. apply ec_read_exec in HX.
  destruct HX as [[_ [(f' & Ht & H)|(e & Ht & _)]]|(Hq & _)]; [|discriminate|congruence].
  injection Ht as <-. destruct r as [m|e].
  - exfalso. apply ec_process_inv in H. destruct H as (t' & b' & body' & Hf' & _ & _ & _ & Ho & _).
    rewrite Hf in Hf'. injection Hf' as <- <- <-. eapply Hno; eauto.
  - split; [eauto|]. apply ec_process_err in H. destruct H as (A & B & C & D & E).
    destruct s, s1. unfold ec_set_last_flag. ecs. congruence.
Qed.
Print Assumptions C25_rejected_read.

Example C25_example :
  let hs := fst (ec_run toy_lib (ex_start CLIENT) [OpWrite [x61] [[x62]] false (Ok tt)]) in
  match frames_out hs with
  | [a; b] =>
      let hr := fst (ec_run toy_lib (ex_start SERVER)
         [OpRead (Ok [x06; x00; x01]); OpRead (Ok b); OpRead (Ok a); OpRead (Ok a); OpRead (Ok []); OpRead (Ok b)]) in
      got_msgs hr = [([x61], false); ([x62], false)] /\
      map (fun c => match c with EcRead _ r _ => r | _ => Ok [] end) hr
        = [Err BadPeer; Err BadPeer; Ok [x61]; Err BadPeer; Err AttributeError; Ok [x62]]
  | _ => False
  end.
Proof. vm_compute. auto. Qed.

(** *** C26 *)
Theorem C26_errors : forall L s f s1 r,
  nacl_fail_laws L -> ec_pushback s = [] -> 0 <= ec_read_nonce s < 2 ^ 64 ->
  exec (ec_read L s) [ERead (Ok f)] (Some (s1, r)) ->
  (f <> [] -> (exists m, r = Ok m) \/ r = Err BadPeer) /\
  (f = [] -> r = Err AttributeError).
Proof.
  intros L s f s1 r HF Hp Hn HX. apply ec_read_exec in HX.
  destruct HX as [[_ [(f' & Ht & H)|(e & Ht & _)]]|(Hq & _)]; [|discriminate|congruence].
  injection Ht as <-. split; intro Hf.
  - destruct r as [m|e]; [eauto|right]. unfold ec_process, ec_unwrap in H.
    destruct f as [|t [|fl body]]; [congruence| |].
    + rewrite ep_ctor_short in H. congruence.
    + rewrite ep_ctor_spec in H. destruct (_ && _); [|congruence].
      unfold ep_body in H. cbn [p_opt opt_field] in H. unfold ec_decrypt in H. ecs.
      rewrite nonce_bytes_ok in H by lia.
      destruct (l_open_afternm L body _ (ec_key s)) as [m|e'] eqn:EO; [discriminate|].
      rewrite (law_open_exn L HF _ _ _ _ EO) in H. congruence.
  - subst f. vm_compute in H. inversion H; reflexivity.
Qed.
Print Assumptions C26_errors.

(** Errors of the underlying channel are passed on and change nothing. *)
Theorem C26_io_errors : forall L s e s1 r, ec_pushback s = [] ->
  exec (ec_read L s) [ERead (Err e)] (Some (s1, r)) -> r = Err e /\ s1 = s.
Proof.
  intros L s e s1 r Hp HX. apply ec_read_exec in HX.
  destruct HX as [[_ [(f' & Ht & H)|(e' & Ht & -> & ->)]]|(Hq & _)]; [discriminate| |congruence].
  injection Ht as <-. auto.
Qed.
Print Assumptions C26_io_errors.

Example C26_example :
  map (fun f => snd (snd (io_run (ec_read toy_lib (ex_start SERVER)) (Ok f) (Ok tt))))
      [[]; [x06]; [x05; x00]; Enc_wire false (repeat x00 16);
       Enc_wire false (toy_tag (nonce24 1 (zeros 8)) ex_key ++ [x61])]
  = [Err AttributeError; Err BadPeer; Err BadPeer; Err BadPeer; Ok [x61]].
Proof. vm_compute. reflexivity. Qed.

(** *** C27: false; whoever can alter the clear header chooses the flag. *)
Theorem C27_last_authentic_refuted : forall L s t b body s1 m b',
  exec (ec_read L s) [ERead (Ok (t :: b :: body))] (Some (s1, Ok m)) ->
  exists s2, exec (ec_read L s) [ERead (Ok (t :: b' :: body))] (Some (s2, Ok m)) /\
             ec_last_flag s2 = bit b' 7.
Proof.
  intros L s t b body s1 m b' HX. apply ec_read_exec in HX.
  destruct HX as [[Hp [(f' & Ht & H)|(e' & Ht & _)]]|(_ & Ht & _)]; [|discriminate|discriminate].
  injection Ht as <-. apply ec_process_inv in H.
  destruct H as (t' & fl & body' & Hf & H6 & H16 & Hn & Ho & _). injection Hf as <- <- <-.
  exists (EC (ec_key s) (ec_pushback s) (bit b' 7) (ec_read_nonce s + 2) (ec_write_nonce s) (ec_session_nonce s)).
  split; [|reflexivity]. unfold ec_read. rewrite Hp. cbn [is_empty]. constructor.
  rewrite (ec_process_ok L s t b' body m) by auto. rewrite Hp. constructor.
Qed.
Print Assumptions C27_last_authentic_refuted.

(** Everything else in a frame is authentic: two frames accepted in the same state
    with the same clear text differ at most in the flags byte. *)
Theorem C27_last_authentic_partial : forall L s f1 f2 s1 s2 m,
  nacl_fail_laws L ->
  exec (ec_read L s) [ERead (Ok f1)] (Some (s1, Ok m)) ->
  exec (ec_read L s) [ERead (Ok f2)] (Some (s2, Ok m)) ->
  exists b1 b2 body, f1 = x06 :: b1 :: body /\ f2 = x06 :: b2 :: body.
Proof.
  intros L s f1 f2 s1 s2 m HF HX1 HX2. apply ec_read_exec in HX1. apply ec_read_exec in HX2.
  destruct HX1 as [[Hp [(f' & Ht & H1)|(e' & Ht & _)]]|(_ & Ht & _)]; [|discriminate|discriminate].
  destruct HX2 as [[_ [(f'' & Ht2 & H2)|(e' & Ht2 & _)]]|(_ & Ht2 & _)]; [|discriminate|discriminate].
  injection Ht as <-. injection Ht2 as <-.
  apply ec_process_inv in H1. destruct H1 as (t1 & b1 & body1 & -> & T1 & _ & _ & O1 & _).
  apply ec_process_inv in H2. destruct H2 as (t2 & b2 & body2 & -> & T2 & _ & _ & O2 & _).
  apply (law_open_unique L HF) in O1. apply (law_open_unique L HF) in O2.
  assert (body1 = body2) as <- by congruence.
  assert (t1 = x06) as -> by (apply b2z_inj; rewrite T1; reflexivity).
  assert (t2 = x06) as -> by (apply b2z_inj; rewrite T2; reflexivity).
  eauto.
Qed.
Print Assumptions C27_last_authentic_partial.

(** The server's last message, read by the client with the flag removed. *)
Example C27_example :
  let hs := fst (ec_run toy_lib (ex_start SERVER) [OpWrite [x61] [] true (Ok tt)]) in
  match frames_out hs with
  | [t :: b :: body] =>
     got_msgs (fst (ec_run toy_lib (ex_start CLIENT) [OpRead (Ok (t :: b :: body))])) = [([x61], true)] /\
     got_msgs (fst (ec_run toy_lib (ex_start CLIENT) [OpRead (Ok (t :: x00 :: body))])) = [([x61], false)]
  | _ => False
  end.
Proof. vm_compute. auto. Qed.
