(** What the frames of an application channel show without their keys: C95
    (v2/app_channel_v2.py:41-64, v2/encrypted_channel_v2.py:68-90). *)
From Coq Require Import List ZArith Bool Strings.Byte Lia ZifyBool ZifyNat ZifyN.
From Verif Require Import PyBase PyBase_proofs IO IO_proofs Packets Packets_proofs Crypto Crypto_proofs Time
  EncChannel EncUse EncChannel_proofs AppChannel AppUse AppChannel_proofs Spec Props_Enc Props_App.
Import ListNotations.
Open Scope Z_scope.
Ltac Zify.zify_post_hook ::= Z.div_mod_to_equations.

(** ** Specification, on the lengths of messages alone *)
Definition total_len (lens : list Z) : Z := fold_right Z.add 0 lens.

(** Sizes of the frames of one write: one frame for two or more messages of at most 65535
    bytes, with 26 bytes of overhead and two per message; else one frame per message, with
    24 bytes of overhead.  A buffered M4 adds a frame of 120 bytes. *)
Definition batch_sizes (m4 : bool) (lens : list Z) : list Z :=
  (if m4 then [120] else []) ++
  (if (1 <? Z.of_nat (length lens)) && forallb (fun n => n <=? 65535) lens
   then [26 + total_len (map (Z.add 2) lens)] else map (Z.add 24) lens).

(** The last flag on the last frame of a write *)
Fixpoint flagged (last : bool) (l : list Z) : list (bool * Z) :=
  match l with [] => [] | [n] => [(last, n)] | n :: r => (false, n) :: flagged last r end.

(** The frames of a list of calls: calls that hand nothing to the transport send nothing. *)
Fixpoint shape (m4 : bool) (h : list ecall) : list (bool * Z) :=
  match h with
  | [] => []
  | EcRead _ _ _ :: r => shape m4 r
  | EcWrite m args last t _ :: r =>
      (match t with [] => [] | _ => flagged last (batch_sizes m4 (map (fun m => Z.of_nat (length m)) (m :: args))) end)
      ++ shape false r
  end.

(** What is seen of a frame without opening it: its header and its size. *)
Definition seen (f : bytes) : bytes * Z := (firstn 2 f, Z.of_nat (length f)).
Definition header (x : bool * Z) : bytes * Z := ([x06; if fst x then x80 else x00], snd x).

(** *** Lemmas *)
Definition measure (x : bytes * bool) : bool * Z := (snd x, 18 + Z.of_nat (length (fst x))).

Lemma multi_payload_len : forall ms : list bytes,
  Z.of_nat (length (Multi_payload ms)) = total_len (map (Z.add 2) (map (fun m => Z.of_nat (length m)) ms)).
Proof.
  induction ms as [|m ms IH]; [reflexivity|]. cbn [map total_len fold_right]. change (fold_right Z.add 0) with total_len. rewrite <- IH.
  unfold Multi_payload. cbn [map concat]. rewrite !app_length. change (length (u16le (Z.of_nat (length m)))) with 2%nat. lia.
Qed.

Lemma forallb_short : forall ms : list bytes, forallb (fun n => n <=? 65535) (map (fun m => Z.of_nat (length m)) ms) = forallb short ms.
Proof. induction ms as [|m ms IH]; [reflexivity|]. cbn. rewrite IH. reflexivity. Qed.

Lemma packets_sizes : forall t (ms : list bytes),
  map (fun p => 18 + Z.of_nat (length p)) (packets t ms) = batch_sizes false (map (fun m => Z.of_nat (length m)) ms).
Proof.
  intros t ms. unfold packets, batch_sizes. cbn [app]. rewrite map_length, forallb_short. destruct (_ && _).
  - cbn [map]. f_equal. unfold Multi_wire. rewrite !app_length. pose proof (multi_payload_len ms) as E.
    change (length (u32le t)) with 4%nat. change (length (u16le (Z.of_nat (length ms)))) with 2%nat. cbn [length]. unfold bytes in *. lia.
  - rewrite !map_map. apply map_ext. intro m. unfold App_wire. rewrite !app_length. change (length (u32le t)) with 4%nat. cbn [length]. lia.
Qed.

Lemma flagged_mark : forall last (ps : list bytes),
  map measure (mark last ps) = flagged last (map (fun p => 18 + Z.of_nat (length p)) ps).
Proof. intros last ps. induction ps as [|p [|q ps] IH]; [reflexivity|reflexivity|]. rewrite mark_cons. cbn [map flagged] in *. f_equal. exact IH. Qed.

Lemma texts_shape : forall TK h tk (m4 : option (bytes * bytes)), match m4 with Some (k, g) => length k = 32%nat /\ length g = 64%nat | None => True end ->
  map measure (clear_texts TK tk m4 h) = shape (match m4 with Some _ => true | None => false end) h.
Proof.
  intros TK h. induction h as [|[t r l|m args last t r] h IH]; intros tk m4 HM; [reflexivity|apply IH; exact HM|].
  cbn [clear_texts shape]. destruct (tk_get TK tk) as [now tk']. rewrite map_app, (IH tk' None I). f_equal.
  destruct t as [|e t]; [reflexivity|]. cbn [is_empty]. rewrite flagged_mark, map_app, packets_sizes. f_equal.
  destruct m4 as [[k g]|]; [|reflexivity]. unfold batch_sizes. cbn [app map]. f_equal.
  unfold M4_wire. rewrite !app_length. destruct HM as [E1 E2]. unfold bytes in *. rewrite E1, E2. reflexivity.
Qed.

Lemma sealed_seen : forall L sp ep key sn, nacl_laws L sp ep -> length key = 32%nat -> length sn = 8%nat -> forall xs w fs,
  sealed_all L key sn w xs fs -> map seen fs = map header (map measure xs).
Proof.
  intros L sp ep key sn HL HK HN. induction xs as [|[m l] xs IH]; intros w [|f fs] H; cbn in H; try tauto.
  destruct H as [(Hn & c & Hc & ->) H]. cbn [map]. f_equal; [|eapply IH; eauto].
  destruct (law_box _ _ _ HL m (nonce24 w sn) key) as (c' & C1 & C2 & _); [apply nonce24_length; exact HN|exact HK|].
  cbn [fst snd] in Hc. assert (c' = c) by congruence. subst c'. unfold seen, header, Enc_wire. cbn [app firstn length fst snd].
  f_equal. unfold bytes in *. cbn [length fst measure snd]. rewrite C2. cbn [fst]. lia.
Qed.

(** ** C95: for every history of reads and writes of an application channel with a key, the
    frames handed to the transport have the header of an EncryptedPacket with the last
    flag, and exactly the sizes above: number, size and flags of the frames depend on the
    lengths and grouping of the messages only. *)
Theorem C95_frames_shape : forall L sp ep TK TC s h s' (m4 : option (bytes * bytes)) t0,
  nacl_laws L sp ep -> length (ec_key (ac_enc s)) = 32%nat -> length (ec_session_nonce (ac_enc s)) = 8%nat ->
  0 <= ec_write_nonce (ac_enc s) ->
  ac_buffered_m4 s = match m4 with Some (k, g) => Some (M4_wire t0 k g) | None => None end ->
  match m4 with Some (k, g) => length k = 32%nat /\ length g = 64%nat | None => True end ->
  ac_hist L TK TC s h s' ->
  map seen (frames_out h) = map header (shape (match m4 with Some _ => true | None => false end) h).
Proof.
  intros L sp ep TK TC s h s' m4 t0 HL HK HN HW HM HG H.
  destruct (app_to_enc _ _ _ _ _ _ H m4 t0 HM) as (eh & E1 & E2 & _ & E4).
  destruct (hist_sent _ _ _ _ _ _ HL E1 HK HN HW) as (S & _).
  rewrite <- E2, (sealed_seen _ _ _ _ _ HL HK HN _ _ _ S), E4, texts_shape by exact HG. reflexivity.
Qed.
Print Assumptions C95_frames_shape.

(** The calls as an observer of lengths knows them *)
Definition outline (c : ecall) : option (list Z * bool * bool) :=
  match c with
  | EcRead _ _ _ => None
  | EcWrite m args last t _ => Some (map (fun m => Z.of_nat (length m)) (m :: args), last, is_empty t)
  end.

Lemma shape_outline : forall h g m4, map outline h = map outline g -> shape m4 h = shape m4 g.
Proof.
  induction h as [|c h IH]; intros [|d g] m4 E; try discriminate E; [reflexivity|]. cbn [map] in E. injection E as E1 E2.
  destruct c as [t r l|m args last t r], d as [t' r' l'|m' args' last' t' r']; try discriminate E1.
  - cbn [shape]. apply IH. exact E2.
  - cbn [outline] in E1. injection E1 as E3 E4 E5 E6. cbn [shape map]. rewrite E3, E4, E5, (IH _ _ E2). f_equal.
    destruct t, t'; try discriminate E6; reflexivity.
Qed.

(** So two peers with different keys, clocks, message contents and results of reads, that
    write messages of the same lengths in the same groups, cannot be told apart by the
    headers and sizes of their frames. *)
Theorem C95_contents_hidden : forall L sp ep TK TC s h s' L2 sp2 ep2 TK2 TC2 s2 h2 s2',
  nacl_laws L sp ep -> nacl_laws L2 sp2 ep2 ->
  (forall c, c = ac_enc s \/ c = ac_enc s2 -> length (ec_key c) = 32%nat /\ length (ec_session_nonce c) = 8%nat /\ 0 <= ec_write_nonce c) ->
  ac_buffered_m4 s = None -> ac_buffered_m4 s2 = None ->
  ac_hist L TK TC s h s' -> ac_hist L2 TK2 TC2 s2 h2 s2' -> map outline h = map outline h2 ->
  map seen (frames_out h) = map seen (frames_out h2).
Proof.
  intros L sp ep TK TC s h s' L2 sp2 ep2 TK2 TC2 s2 h2 s2' HL HL2 HC M1 M2 H1 H2 E.
  destruct (HC _ (or_introl eq_refl)) as (A1 & A2 & A3). destruct (HC _ (or_intror eq_refl)) as (B1 & B2 & B3).
  rewrite (C95_frames_shape L sp ep TK TC s h s' None 0), (C95_frames_shape L2 sp2 ep2 TK2 TC2 s2 h2 s2' None 0); auto.
  rewrite (shape_outline h h2 false E). reflexivity.
Qed.
Print Assumptions C95_contents_hidden.

(** The messages of example_session3.py: an AppPacket of 6 bytes (30 on the wire) and a
    MultiAppPacket of 5 and 4 bytes (39). *)
Example C95_example :
  let h := fst (ac_run toy_lib one_two_three null_checker (ac_init (ex_start SERVER) 0)
        [OpWrite [x01; x05; x05; x05; x05; x05] [] false (Ok tt); OpRead (Err OSError);
         OpWrite [x01; x04; x04; x04; x04] [[x03; x03; x03; x03]] true (Ok tt)]) in
  map seen (frames_out h) = [([x06; x00], 30); ([x06; x80], 39)] /\ shape false h = [(false, 30); (true, 39)].
Proof. vm_compute. auto. Qed.
