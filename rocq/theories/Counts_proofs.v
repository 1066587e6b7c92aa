(** What is written by two honest peers, byte by byte: lemmas for C125. *)
From Coq Require Import List ZArith Bool Strings.Byte Lia ZifyBool ZifyNat ZifyN.
From Verif Require Import PyBase PyBase_proofs IO IO_proofs Packets Packets_proofs Packets_proofs2 PacketOps PacketOps_proofs Crypto Crypto_proofs Time EncChannel EncUse EncChannel_proofs
  AppChannel AppUse AppChannel_proofs Session SessUse Session_proofs Session_steps Sched_proofs Session_fwd Session_sched
  Channel Channel_proofs Stack Spec StackUse Stack_proofs Stack_fit Dev Props_Sizes Flags Flags_proofs
  Props_App Props_Session Props_Session2 Props_Misc Props_Session4 Props_Stack Props_Pipe Props_Flags Stack_run Counts.
Import ListNotations.
Open Scope Z_scope.
Ltac Zify.zify_post_hook ::= Z.div_mod_to_equations.

(** *** Executions of programs of the same shape *)
Lemma io_rel_exec : forall A B (R : A -> B -> Prop) p q, io_rel R p q -> forall t x y, exec p t (Some x) -> exec q t (Some y) -> R x y.
Proof.
  intros A B R p q H. induction H as [a b H|k k' H IH|ms l k k' H IH]; intros t x y E1 E2.
  - apply exec_ret_inv in E1, E2. destruct E1 as [_ ->], E2 as [_ ->]. exact H.
  - inversion E1; subst. inversion E2; subst. eauto.
  - inversion E1; subst. inversion E2; subst. eauto.
Qed.
Lemma io_rel_trans : forall A B C (R : A -> B -> Prop) (S : B -> C -> Prop) p q, io_rel R p q -> forall r, io_rel S q r ->
  io_rel (fun a c => exists b, R a b /\ S b c) p r.
Proof. intros A B C R S p q H. induction H; intros r H2; inversion H2; subst; constructor; eauto. Qed.
Lemma io_rel_weaken : forall A B (R S : A -> B -> Prop) p q, (forall a b, R a b -> S a b) -> io_rel R p q -> io_rel S p q.
Proof. intros A B R S p q HI H. induction H; constructor; auto. Qed.

Lemma exec_det : forall A (p : io A) t1 t1' t2 t2' a a', exec p t1 (Some a) -> exec p t1' (Some a') -> t1 ++ t2 = t1' ++ t2' -> t1 = t1' /\ a = a'.
Proof.
  intros A p. induction p as [x|k IH|ms l k IH]; intros t1 t1' t2 t2' a a' E1 E2 E.
  - apply exec_ret_inv in E1, E2. destruct E1 as [-> ->], E2 as [-> ->]. auto.
  - inversion E1 as [| |k1 r1 u1 o1 X1|]; subst. inversion E2 as [| |k2 r2 u2 o2 X2|]; subst. cbn [app] in E. injection E as <- E. destruct (IH _ _ _ _ _ _ _ X1 X2 E) as [-> ->]. auto.
  - inversion E1 as [| | |ms1 l1 k1 r1 u1 o1 X1]; subst. inversion E2 as [| | |ms2 l2 k2 r2 u2 o2 X2]; subst. cbn [app] in E. injection E as <- E. destruct (IH _ _ _ _ _ _ _ X1 X2 E) as [-> ->]. auto.
Qed.

Lemma via_shape : forall A (p : io A), calls_ok p -> forall s, io_rel (fun a x => fst x = a) p (via_mitm p s).
Proof.
  intros A p HC. induction HC as [a|k HC IH|ms l k HN HC IH]; intros s.
  - constructor. reflexivity.
  - destruct (via_read _ k s) as (k' & -> & V). constructor. intros r. rewrite V. apply IH.
  - destruct (via_write _ ms l k s HN) as (k' & -> & V). constructor. intros r. rewrite V. apply IH.
Qed.

Lemma flags_shape : forall L TK TC A (p : lio A) c a,
  io_rel (fun x y => fst x = fst y /\ fst (snd x) = snd y) (over_flags L TK TC (counted p c) a) (over_flags L TK TC p a).
Proof.
  intros L TK TC A p. induction p as [x|k IH|ms l k IH|k IH]; intros c a; cbn [counted over_flags].
  - constructor. auto.
  - eapply io_rel_bind with (R := eq); [apply io_rel_refl; reflexivity|]. intros y ? <-. apply IH.
  - destruct ms as [|m args]; [apply IH|]. eapply io_rel_bind with (R := eq); [apply io_rel_refl; reflexivity|]. intros y ? <-. apply IH.
  - apply IH.
Qed.

Lemma calls_ok_bind : forall A B (p : io A) (f : A -> io B), calls_ok p -> (forall a, calls_ok (f a)) -> calls_ok (iobind p f).
Proof. intros A B p f H HF. induction H; cbn [iobind]; [apply HF|constructor; auto|constructor; auto]. Qed.

Lemma ac_read_calls : forall L TC a, calls_ok (ac_read L TC a).
Proof.
  intros L TC a. unfold ac_read, mbind, mget, mput, mret, mlift, mmod, mzoom. cbn [iobind fst snd].
  destruct (ac_readq a) as [|m q]; cbn [iobind fst snd]; [|constructor].
  apply calls_ok_bind; [apply calls_ok_bind; [|intro; constructor]|].
  - unfold ec_read. destruct (is_empty (ec_pushback (ac_enc a))); [|constructor]. constructor. intros [r|e]; constructor.
  - intros [s [r|e]]; cbn [iobind fst snd]; [|constructor]. destruct (ac_interpret TC r) as [x|e]; constructor.
Qed.

Lemma wrap_all_nonempty : forall L last m r s s1 fs, ec_wrap_all L s last (m :: r) = (s1, Ok fs) -> fs <> [].
Proof.
  intros L last m r s s1 fs H. cbn [ec_wrap_all] in H. destruct (ec_encrypt L s m); [|discriminate].
  destruct (ec_wrap_all L _ last r) as [s' [fs'|e]]; [|discriminate]. injection H as <- <-. discriminate.
Qed.

Lemma ac_write_calls : forall L TK m args last a, calls_ok (ac_write L TK m args last a).
Proof.
  intros L TK m args last a. unfold ac_write. destruct (tk_get TK (ac_tk a)) as [t tk'].
  destruct (_ ++ _) as [|x xs]; [constructor|]. unfold mzoom. cbn [ac_enc]. unfold ec_write.
  destruct (ec_wrap_all L (ac_enc a) last (x :: xs)) as [s' [fs|e]] eqn:EW; [|constructor].
  unfold mwrite. cbn [iobind]. constructor; [eapply wrap_all_nonempty; eauto|]. intro r. constructor.
Qed.

Lemma flags_calls : forall L TK TC A (p : lio A) a, calls_ok (over_flags L TK TC p a).
Proof.
  intros L TK TC A p. induction p as [x|k IH|ms l k IH|k IH]; intros a; cbn [over_flags].
  - constructor.
  - apply calls_ok_bind; [apply ac_read_calls|]. intro y. apply IH.
  - destruct ms as [|m args]; [apply IH|]. apply calls_ok_bind; [apply ac_write_calls|]. intro y. apply IH.
  - apply IH.
Qed.

Lemma client_shape : forall L TK TC A s (p : lio (res A)) c m0,
  io_rel (fun _ _ => True) (client_uses L TK TC s (counted p c)) (client_counts L TK TC s p m0).
Proof.
  intros L TK TC A s p c m0. unfold client_uses, client_counts.
  eapply io_rel_bind; [apply via_shape; apply client_calls_ok|]. intros x [x' m1]. cbn [fst snd]. intros ->.
  destruct (snd x) as [u|e]; [|constructor; exact I]. destruct (cs_app (fst x)) as [a|]; [|constructor; exact I].
  eapply io_rel_bind; [eapply io_rel_trans; [apply flags_shape|apply via_shape; apply flags_calls]|].
  intros; constructor; exact I.
Qed.
Lemma server_shape : forall L TK TC A s (q : lio A) c,
  io_rel (fun x y => fst x = fst y /\ (match snd x with Ok v => Ok (fst v) | Err e => Err e end) = snd y)
    (server_uses L TK TC s (counted q c)) (server_uses L TK TC s q).
Proof.
  intros L TK TC A s q c. unfold server_uses. eapply io_rel_bind with (R := eq); [apply io_rel_refl; reflexivity|]. intros x ? <-.
  destruct (snd x) as [u|e]; [|constructor; cbn; auto]. destruct (ss_app (fst x)) as [a|]; [|constructor; cbn; auto].
  eapply io_rel_bind; [apply flags_shape|]. intros y z [E1 E2]. constructor. cbn [fst snd]. rewrite E1, E2. auto.
Qed.

(** *** Sizes *)
Lemma sum_len_nil : sum_len [] = 0.
Proof. reflexivity. Qed.
Lemma sum_len_cons : forall m ms, sum_len (m :: ms) = zlen m + sum_len ms.
Proof. intros m ms. unfold sum_len, zlen. cbn [concat]. rewrite app_length. lia. Qed.
Lemma sum_len_app : forall a b, sum_len (a ++ b) = sum_len a + sum_len b.
Proof. intros a b. unfold sum_len, zlen. rewrite concat_app, app_length. lia. Qed.
Lemma zlen_nonneg : forall A (m : list A), 0 <= zlen m.
Proof. intros. unfold zlen. lia. Qed.
Lemma sum_len_nonneg : forall ms, 0 <= sum_len ms.
Proof. intros ms. apply zlen_nonneg. Qed.
Lemma sum_small : forall ms, sum_len ms < 2 ^ 31 -> Forall small ms.
Proof.
  induction ms as [|m ms IH]; intro H; [constructor|]. rewrite sum_len_cons in H.
  pose proof (sum_len_nonneg ms). pose proof (zlen_nonneg _ m). constructor; [unfold small|apply IH]; lia.
Qed.

Lemma outs_app : forall t u, outs (t ++ u) = outs t ++ outs u.
Proof. intros t u. unfold outs. rewrite map_app, concat_app. reflexivity. Qed.
Lemma ins_app : forall t u, ins (t ++ u) = ins t ++ ins u.
Proof. intros t u. unfold ins. rewrite map_app, concat_app. reflexivity. Qed.

Lemma total_write_outs : forall t, all_ok t -> total ev_write_len t = sum_len (outs t).
Proof.
  intros t H. induction H as [|e t He H IH]; [reflexivity|]. cbn [total fold_right]. change (fold_right _ 0 t) with (total ev_write_len t).
  rewrite IH. unfold outs. cbn [map concat]. rewrite sum_len_app. f_equal. destruct e as [r|ms l r]; cbn in *.
  - reflexivity.
  - subst r. reflexivity.
Qed.
Lemma total_read_ins : forall t, all_ok t -> total ev_read_len t = sum_len (ins t).
Proof.
  intros t H. induction H as [|e t He H IH]; [reflexivity|]. cbn [total fold_right]. change (fold_right _ 0 t) with (total ev_read_len t).
  rewrite IH. unfold ins. cbn [map concat]. rewrite sum_len_app. f_equal. destruct e as [r|ms l r]; cbn in *.
  - destruct He as [d ->]. cbn. rewrite sum_len_cons, sum_len_nil. lia.
  - reflexivity.
Qed.
Lemma all_ok_app : forall t u, all_ok (t ++ u) <-> all_ok t /\ all_ok u.
Proof. intros t u. apply Forall_app. Qed.

(** *** One write *)
Lemma wrap_all_cost : forall L sp ep last, nacl_laws L sp ep -> forall msgs s s1 r,
  length (ec_key s) = 32%nat -> length (ec_session_nonce s) = 8%nat -> ec_wrap_all L s last msgs = (s1, r) ->
  ec_key s1 = ec_key s /\ ec_session_nonce s1 = ec_session_nonce s /\
  forall fs, r = Ok fs -> sum_len fs = total_len (map (fun p => 18 + Z.of_nat (length p)) msgs).
Proof.
  intros L sp ep last HL. induction msgs as [|m msgs IH]; intros s s1 r Hk Hs H; cbn [ec_wrap_all] in H.
  - injection H as <- <-. split; [reflexivity|]. split; [reflexivity|]. intros fs E. injection E as <-. reflexivity.
  - destruct (ec_encrypt L s m) as [c|e] eqn:EE.
    2:{ injection H as <- <-. split; [reflexivity|]. split; [reflexivity|]. discriminate. }
    destruct (ec_wrap_all L (ec_advance_write s) last msgs) as [s' [fs'|e]] eqn:EW; injection H as <- <-;
      destruct (IH (ec_advance_write s) _ _ Hk Hs EW) as (K1 & K2 & K3); (split; [exact K1|]); (split; [exact K2|]); [|discriminate].
    intros fs E. injection E as <-. rewrite sum_len_cons, (K3 _ eq_refl), wrap_len, (encrypt_len _ _ _ _ _ _ HL Hk Hs EE).
    cbn [map total_len fold_right]. unfold zlen, bytes in *. fold (total_len (map (fun p : list byte => 18 + Z.of_nat (length p)) msgs)). lia.
Qed.

Definition m4_size (a : ac) : Z := match ac_buffered_m4 a with Some _ => 120 | None => 0 end.

Lemma ac_write_cost : forall L sp ep TK m args last a t a' r, nacl_laws L sp ep -> ac_good a ->
  exec (ac_write L TK m args last a) t (Some (a', r)) ->
  ac_good a' /\ ac_buffered_m4 a' = None /\ (r = Ok tt -> sum_len (outs t) = wire_cost (m :: args) + m4_size a).
Proof.
  intros L sp ep TK m args last a t a' r HL (G1 & G2 & G3) H. unfold ac_write in H.
  destruct (tk_get TK (ac_tk a)) as [now tk']. rewrite ac_packets_spec in H.
  remember (match ac_buffered_m4 a with Some d => [pkt_bytes (Pkt (m34_set_time now d) None)] | None => [] end) as m4 eqn:E4.
  assert (S4 : total_len (map (fun p => 18 + Z.of_nat (length p)) m4) = m4_size a).
  { subst m4. unfold m4_size. destruct (ac_buffered_m4 a) as [d|]; [|reflexivity]. cbn [map total_len fold_right].
    rewrite pkt_bytes_none. unfold m34_set_time. rewrite fput_int_len by lia. unfold bytes in *. rewrite G3. reflexivity. }
  assert (SP : total_len (map (fun p => 18 + Z.of_nat (length p)) (m4 ++ packets now (m :: args))) = wire_cost (m :: args) + m4_size a).
  { rewrite map_app, <- S4, packets_sizes. unfold wire_cost, total_len. rewrite fold_right_app.
    assert (X : forall x y, fold_right Z.add x y = x + fold_right Z.add 0 y).
    { intros x y. induction y as [|z y IH]; cbn [fold_right]; [lia|]. rewrite IH. lia. }
    apply X. }
  clear E4 S4. destruct (m4 ++ packets now (m :: args)) as [|x xs].
  { apply exec_ret_inv in H. destruct H as [_ H]. injection H as -> ->. split; [unfold ac_good; cbn; auto|]. split; [reflexivity|discriminate]. }
  unfold mzoom in H. cbn [ac_enc] in H. unfold ec_write in H.
  destruct (ec_wrap_all L (ac_enc a) last (x :: xs)) as [s' w] eqn:EW.
  destruct (wrap_all_cost _ _ _ _ HL _ _ _ _ G1 G2 EW) as (K1 & K2 & K3). destruct w as [fs|e].
  - unfold mwrite in H. cbn [iobind] in H. apply exec_write_inv in H. destruct H as [[_ H]|(r' & t' & -> & H)]; [discriminate|].
    cbn [fst snd] in H. apply exec_ret_inv in H. destruct H as [-> H]. injection H as -> ->.
    split; [unfold ac_good; cbn; rewrite K1, K2; auto|]. split; [reflexivity|]. intros _. unfold outs. cbn [map ev_out concat].
    rewrite app_nil_r, (K3 _ eq_refl). exact SP.
  - cbn [iobind] in H. apply exec_ret_inv in H. destruct H as [-> H]. injection H as -> ->.
    split; [unfold ac_good; cbn; rewrite K1, K2; auto|]. split; [reflexivity|]. discriminate.
Qed.

(** *** Reads write nothing *)
Definition quiet (t : list ev) : Prop := outs t = [].

Lemma ac_read_cost : forall L TC a t x, ac_good a -> exec (ac_read L TC a) t (Some x) ->
  ac_good (fst x) /\ ac_buffered_m4 (fst x) = ac_buffered_m4 a /\ outs t = [].
Proof.
  intros L TC a t x (G1 & G2 & G3) H. unfold ac_read, mbind, mget, mput, mret, mlift, mmod, mzoom in H. cbn [iobind fst snd] in H.
  destruct (ac_readq a) as [|m q] eqn:EQ; cbn [iobind fst snd] in H.
  - assert (K : forall e f t', ec_key e = ec_key (ac_enc a) -> ec_session_nonce e = ec_session_nonce (ac_enc a) ->
      exec (iobind (iobind (Ret (ec_process L e f)) (fun x : ec * res bytes => Ret (ac_set_enc (fst x) a, snd x)))
         (fun x : ac * res bytes => match snd x with
            | Ok a0 => iobind (Ret (fst x, ac_interpret TC a0)) (fun x0 : ac * res (bytes * list bytes) =>
                 match snd x0 with
                 | Ok a1 => iobind (Ret (ac_set_readq (snd a1) (fst x0), Ok tt)) (fun x1 : ac * res unit =>
                      match snd x1 with Ok _ => Ret (fst x1, Ok (fst a1)) | Err e0 => Ret (fst x1, Err e0) end)
                 | Err e0 => Ret (fst x0, Err e0) end)
            | Err e0 => Ret (fst x, Err e0) end)) t' (Some x) ->
      ac_good (fst x) /\ ac_buffered_m4 (fst x) = ac_buffered_m4 a /\ t' = []).
    { intros e f t' E1 E2 H'. cbn [iobind fst snd] in H'. destruct (ec_process_keys L e f) as [P1 P2].
      destruct (ec_process L e f) as [e1 [raw|y]]; cbn [iobind fst snd] in *.
      - destruct (ac_interpret TC raw) as [[d q]|y]; cbn [iobind fst snd] in H'; apply exec_ret_inv in H'; destruct H' as [-> ->];
          (split; [unfold ac_good; cbn; rewrite P1, P2, E1, E2; auto|]); auto.
      - apply exec_ret_inv in H'; destruct H' as [-> ->]. split; [unfold ac_good; cbn; rewrite P1, P2, E1, E2; auto|]; auto. }
    unfold ec_read in H. destruct (is_empty (ec_pushback (ac_enc a))).
    + cbn [iobind] in H. apply exec_read_inv in H. destruct H as [[_ H]|([raw|e] & t' & -> & H)]; [discriminate| |].
      * apply K in H; [|reflexivity|reflexivity]. destruct H as (H1 & H2 & ->). auto.
      * cbn [iobind fst snd] in H. apply exec_ret_inv in H. destruct H as [-> ->]. split; [unfold ac_good; cbn; auto|]. auto.
    + apply K in H; [|reflexivity|reflexivity]. destruct H as (H1 & H2 & ->). auto.
  - apply exec_ret_inv in H. destruct H as [-> ->]. split; [unfold ac_good; cbn; auto|]. auto.
Qed.

(** *** What a program writes costs what [counted] says *)
Lemma counted_none : forall L TK TC A (p : lio A) a t a' v w, exec (over_flags L TK TC (counted p None) a) t (Some (a', (v, Some w))) -> False.
Proof.
  intros L TK TC A p. induction p as [x|k IH|ms l k IH|k IH]; intros a t a' v w H; cbn [counted over_flags] in H.
  - apply exec_ret_inv in H. destruct H as [_ H]. discriminate.
  - apply exec_bind_some in H. destruct H as (t1 & t2 & y & _ & _ & H). eapply IH; exact H.
  - destruct ms as [|m args]; [eapply IH; exact H|]. apply exec_bind_some in H. destruct H as (t1 & t2 & y & _ & _ & H).
    destruct (snd y); eapply IH; exact H.
  - eapply IH; exact H.
Qed.

Lemma counted_cost : forall L sp ep TK TC A (p : lio A) n a t a' v w, nacl_laws L sp ep -> ac_good a -> ac_buffered_m4 a = None ->
  exec (over_flags L TK TC (counted p (Some n)) a) t (Some (a', (v, Some w))) -> sum_len (outs t) = w - n.
Proof.
  intros L sp ep TK TC A p n a t a' v w HL. revert n a t. induction p as [x|k IH|ms l k IH|k IH]; intros n a t HG HB H; cbn [counted over_flags] in H.
  - apply exec_ret_inv in H. destruct H as [-> H]. injection H as _ _ ->. change (sum_len (outs [])) with 0. lia.
  - apply exec_bind_some in H. destruct H as (t1 & t2 & y & -> & H1 & H2). destruct (ac_read_cost _ _ _ _ _ HG H1) as (G1 & G2 & G3).
    rewrite outs_app, G3. eapply IH; [exact G1|rewrite G2; exact HB|exact H2].
  - destruct ms as [|m args]; [exfalso; eapply counted_none; exact H|].
    apply exec_bind_some in H. destruct H as (t1 & t2 & [a1 r] & -> & H1 & H2). destruct (ac_write_cost _ _ _ _ _ _ _ _ _ _ _ HL HG H1) as (G1 & G2 & G3).
    cbn [fst snd] in H2. destruct r as [[]|e]; [|exfalso; eapply counted_none; exact H2].
    rewrite outs_app, sum_len_app, (G3 eq_refl), (IH _ _ _ _ G1 G2 H2). unfold m4_size. rewrite HB. lia.
  - eapply IH; eauto.
Qed.

Lemma counted_cost_first : forall L sp ep TK TC A (p : lio A) n a t a' v w, nacl_laws L sp ep -> ac_good a ->
  (ac_buffered_m4 a <> None -> exists ms l k, p = LWrite ms l k) ->
  exec (over_flags L TK TC (counted p (Some n)) a) t (Some (a', (v, Some w))) -> sum_len (outs t) = w - n + m4_size a.
Proof.
  intros L sp ep TK TC A p n a t a' v w HL HG HP H. destruct (ac_buffered_m4 a) as [d|] eqn:EB.
  - destruct HP as (ms & l & k & ->); [discriminate|]. cbn [counted over_flags] in H.
    destruct ms as [|m args]; [exfalso; eapply counted_none; exact H|].
    apply exec_bind_some in H. destruct H as (t1 & t2 & [a1 r] & -> & H1 & H2). destruct (ac_write_cost _ _ _ _ _ _ _ _ _ _ _ HL HG H1) as (G1 & G2 & G3).
    cbn [fst snd] in H2. destruct r as [[]|e]; [|exfalso; eapply counted_none; exact H2].
    rewrite outs_app, sum_len_app, (G3 eq_refl), (counted_cost _ _ _ _ _ _ _ _ _ _ _ _ _ HL G1 G2 H2). lia.
  - unfold m4_size. rewrite EB, Z.add_0_r. eapply counted_cost; eauto.
Qed.

Lemma counted_modest : forall P A (p : lio A) n, lmodest P n p -> forall c, lmodest P n (counted p c).
Proof. intros P A p n H. induction H; intro c; cbn [counted]; constructor; auto. Qed.

(** *** What the handshakes write *)
Lemma seal_120 : forall L sp ep k n m f, nacl_laws L sp ep -> length k = 32%nat -> length m = 102%nat -> seals L k n m f -> zlen f = 120.
Proof.
  intros L sp ep k i m f HL Lk Lm (c & Hc & ->).
  destruct (law_box _ _ _ HL m (nonce24 i (repeat x00 8)) k) as (c' & C1 & C2 & _); [reflexivity|exact Lk|].
  assert (c' = c) by congruence. subst c'. unfold Enc_wire, zlen. cbn [app length]. unfold bytes in *. rewrite C2, Lm. reflexivity.
Qed.

Lemma client_wrote : forall L sp ep TK TC sig e buf w tk t s a, nacl_laws L sp ep ->
  exec (client_handshake L TK TC (cs_init sig (Some e) buf w tk)) t (Some (s, Ok tt)) -> cs_app s = Some a ->
  ac_good a /\ (ac_buffered_m4 a <> None <-> buf = true) /\ sum_len (outs t) = (if buf then 42 else 162) /\ exists m2 f3, ins t = [m2; f3].
Proof.
  intros L sp ep TK TC sig e buf w tk t s a HL H HA.
  destruct (client_exec _ _ _ _ _ _ _ _ _ _ H) as [[_ H0]|(r & t' & -> & [[_ H0]|(m2 & f3 & rest & key & c3 & sg & -> & -> & HF & HB)])];
    [exfalso; eapply H0; reflexivity|exfalso; eapply H0; reflexivity|].
  destruct HF as (F1 & F2 & _ & _ & _ & _ & _ & _ & F9 & F10).
  pose proof (m1_wire_len (fst (tk_first TK tk)) (kp_pub e) F1) as L1.
  remember (M1_wire (fst (tk_first TK tk)) (kp_pub e) None) as w1 eqn:E1.
  assert (Z1 : zlen w1 = 42) by (unfold zlen, bytes in *; rewrite L1; reflexivity).
  pose proof (m4_wire_len (fst (tk_get TK (snd (tk_first TK tk)))) _ _ F9 F10) as L4.
  destruct buf.
  - destruct HB as [-> [HB|(s' & HB & HE)]]; [discriminate|]. injection HB as <-. destruct HE as (_ & _ & fl & HE & _).
    rewrite HA in HE. injection HE as ->. split; [unfold ac_good; cbn; auto|]. split; [cbn; split; [reflexivity|discriminate]|].
    split; [|exists m2, f3; reflexivity]. unfold outs. cbn [map ev_out concat app]. rewrite sum_len_cons, sum_len_nil, Z1. reflexivity.
  - destruct HB as [[_ HB]|(f4 & r2 & HS4 & -> & HB)]; [exfalso; eapply HB; reflexivity|].
    destruct HB as [HB|(s' & HB & HE)]; [discriminate|]. injection HB as <- <-. destruct HE as (_ & _ & fl & HE & _).
    rewrite HA in HE. injection HE as ->. split; [unfold ac_good; cbn; auto|]. split; [cbn; split; [congruence|discriminate]|].
    split; [|exists m2, f3; reflexivity].
    pose proof (seal_120 _ _ _ _ _ _ _ HL F2 L4 HS4) as Z4. unfold outs. cbn [map ev_out concat app]. rewrite !sum_len_cons, sum_len_nil, Z1, Z4. reflexivity.
Qed.

Lemma server_wrote : forall L sp ep TK TC sig e buf a2 tk t s a, nacl_laws L sp ep ->
  exec (server_handshake L TK TC (ss_init sig (Some e) buf a2 tk)) t (Some (s, Ok tt)) -> ss_app s = Some a ->
  ac_good a /\ ac_buffered_m4 a = None /\ exists m2 f3, outs t = [m2; f3] /\ zlen m2 = 38 /\ zlen f3 = 120.
Proof.
  intros L sp ep TK TC sig e buf a2 tk t s a HL H HA.
  destruct (server_exec _ _ _ _ _ _ _ _ _ _ H) as
    [[_ H0]|[(x & _ & H0)|(m1 & t' & -> & [[_ H0]|[(a1 & r2 & _ & _ & -> & H0)|[(p & k & r2 & _ & _ & _ & _ & _ & H0)|(p & _ & _ & _ & H0)]]])]];
    try (exfalso; eapply H0; reflexivity).
  { destruct H0 as [H0|(s' & H0 & Q & _)]; [discriminate|]. injection H0 as <- <-. congruence. }
  destruct (server_times TK buf tk) as [[t2 t3] tk3].
  destruct H0 as [(_ & _ & H0)|(f3 & key & sg & r3 & t'' & HF & -> & [[_ H0]|(f4 & -> & -> & s' & H0 & HE)])];
    try (exfalso; eapply H0; reflexivity).
  injection H0 as <-. destruct HE as (_ & _ & c4 & fl & _ & _ & _ & HE). rewrite HA in HE. injection HE as ->.
  destruct HF as (G1 & G2 & _ & _ & G5 & G6 & _ & G8).
  pose proof (seal_120 _ _ _ _ _ _ _ HL G2 (m3_wire_len t3 _ _ G5 G6) G8) as Z3.
  pose proof (m2_wire_length false false t2 (kp_pub e) G1) as L2.
  remember (M2_wire false false t2 (kp_pub e)) as w2 eqn:E2.
  assert (Z2 : zlen w2 = 38) by (unfold zlen, bytes in *; rewrite L2; reflexivity).
  split; [unfold ac_good; cbn; auto|]. split; [reflexivity|]. exists w2, f3. split; [|auto].
  destruct buf; reflexivity.
Qed.

(** *** The whole run *)
Lemma counts_run : forall (P : bytes -> Prop) L sp ep TKc TKs TCc TCs csig ssig ce se cbuf sbuf w a2 tkc tks log A B
    (p : lio (res A)) (q : lio B) nl nr a b f g wl wr,
  peers_ok L sp ep TKc TKs TCc TCs csig ssig ce se sbuf tkc tks ->
  lmodest P nl p -> lmodest P nr q -> Z.of_nat nl < 2 ^ 62 -> Z.of_nat nr < 2 ^ 62 ->
  (cbuf = true -> exists ms l k, p = LWrite ms l k) ->
  lends (LSys (counted p (Some 0)) false (counted q (Some 0)) false [] []) (LSys (LRet (Ok a, Some wl)) f (LRet (b, Some wr)) g [] []) ->
  exists n sS aS, let F := Sys (Ret (Ok (Printed (if cbuf then 42 else 162) 158 (162 + wl) (158 + wr), a))) (Ret (sS, Some aS, Ok b)) [] [] in
    let s := Sys (client_counts L TKc TCc (cs_init csig (Some ce) cbuf w tkc) p (mitm_init log))
                 (server_uses L TKs TCs (ss_init ssig (Some se) sbuf a2 tks) q) [] [] in
    steps n s F /\ (162 + wl < 2 ^ 31 -> 158 + wr < 2 ^ 31 -> fsteps n s F).
Proof.
  intros P L sp ep TKc TKs TCc TCs csig ssig ce se cbuf sbuf w a2 tkc tks log A B p q nl nr a b f g wl wr HP M1 M2 B1 B2 HC HE.
  pose proof (po_laws _ _ _ _ _ _ _ _ _ _ _ _ _ _ HP) as LAWS.
  assert (HC' : cbuf = true -> exists ms l k, counted p (Some 0) = LWrite ms l k).
  { intro X. destruct (HC X) as (ms & l & k & ->). cbn [counted]. eauto. }
  destruct (C103_flag_pipe P L sp ep TKc TKs TCc TCs csig ssig ce se cbuf sbuf w a2 tkc tks _ _ _ _ _ nl nr HP
    (counted_modest _ _ _ _ M1 (Some 0)) (counted_modest _ _ _ _ M2 (Some 0)) B1 B2 HC' HE)
    as ([pf qf la lb] & E1 & E2 & E3 & E4 & E5).
  cbn [l_left l_right l_lr l_rl s_left s_right s_lr s_rl lsame_end] in *. rewrite (E4 eq_refl), (E5 eq_refl) in E1. clear E4 E5 la lb.
  destruct E2 as (sC & aC & ->). destruct E3 as (sS & aS & ->).
  destruct (always_ends_steps _ _ _ _ E1) as [(n & HS) _].
  destruct (steps_rel _ _ _ _ _ _ n _ _ _ _ _ _ _ _ _ _ (client_shape L TKc TCc _ (cs_init csig (Some ce) cbuf w tkc) p (Some 0) (mitm_init log))
    (server_shape L TKs TCs _ (ss_init ssig (Some se) sbuf a2 tks) q (Some 0)) HS)
    as (tl & tr & x' & y' & _ & RY & X1 & X1' & X2 & X2' & X3 & X4 & X5 & X6 & X7 & X8).
  cbn [app] in X5, X6. rewrite app_nil_r in X5, X6.
  destruct y' as [[sS' aS'] rS']. cbn [fst snd] in RY. destruct RY as [RY <-]. injection RY as <- <-.
  (* the client *)
  unfold client_uses in X1. apply exec_bind_some in X1. destruct X1 as (t1 & t2 & [s1 r1] & -> & X1 & Y1). cbn [fst snd] in Y1.
  destruct r1 as [[]|e]; [|apply exec_ret_inv in Y1; destruct Y1 as [_ Y1]; discriminate].
  destruct (cs_app s1) as [a1|] eqn:EA; [|apply exec_ret_inv in Y1; destruct Y1 as [_ Y1]; discriminate].
  destruct (client_wrote _ _ _ _ _ _ _ _ _ _ _ _ _ LAWS X1 EA) as (G1 & G2 & G3 & m2 & f3 & G4).
  apply exec_bind_some in Y1. destruct Y1 as (t2' & t3 & [a1' [v c]] & -> & Y1 & Y2). apply exec_ret_inv in Y2. destruct Y2 as [-> Y2].
  rewrite app_nil_r in *. cbn [fst snd] in Y2. injection Y2 as _ _ <- <-.
  pose proof (counted_cost_first _ _ _ _ _ _ _ _ _ _ _ _ _ LAWS G1 (fun X => HC (proj1 G2 X)) Y1) as G5.
  unfold client_counts in X1'. apply exec_bind_some in X1'. destruct X1' as (u1 & u2 & [[s1' r1'] mm1] & EU & Z1 & Z2). cbn [fst snd] in Z2.
  apply C46_mitm_transparent in Z1; [|apply client_calls_ok]. destruct Z1 as ([o'|] & Z1 & ZE); [|discriminate]. cbn [option_map] in ZE. injection ZE as <- ->.
  destruct (exec_det _ _ _ _ _ _ _ _ X1 Z1 EU) as [<- ZE]. injection ZE as <- <-. apply app_inv_head in EU. subst u2.
  rewrite EA in Z2. apply exec_bind_some in Z2. destruct Z2 as (u3 & u4 & [[a1'' v''] mm2] & EU & Z2 & Z3). cbn [fst snd] in Z3.
  apply exec_ret_inv in Z3. destruct Z3 as [-> Z3]. rewrite app_nil_r in EU. subst u3.
  apply C46_mitm_transparent in Z2; [|apply flags_calls]. destruct Z2 as ([o'|] & Z2 & ZE); [|discriminate]. cbn [option_map] in ZE. injection ZE as <- ->.
  destruct (io_rel_exec _ _ _ _ _ (flags_shape L TKc TCc _ p (Some 0) a1) _ _ _ Y1 Z2) as [_ RV]. cbn [fst snd] in RV. subst v''.
  (* the server *)
  unfold server_uses in X2. apply exec_bind_some in X2. destruct X2 as (r1 & r2 & [s2 rr] & -> & X2 & W1). cbn [fst snd] in W1.
  destruct rr as [[]|e]; [|apply exec_ret_inv in W1; destruct W1 as [_ W1]; discriminate].
  destruct (ss_app s2) as [b1|] eqn:EB; [|apply exec_ret_inv in W1; destruct W1 as [_ W1]; discriminate].
  destruct (server_wrote _ _ _ _ _ _ _ _ _ _ _ _ _ LAWS X2 EB) as (K1 & K2 & n2 & g3 & K3 & K4 & K5).
  apply exec_bind_some in W1. destruct W1 as (r2' & r3 & [b1' [vb cb]] & -> & W1 & W2). apply exec_ret_inv in W2. destruct W2 as [-> W2].
  rewrite app_nil_r in *. cbn [fst snd] in W2. injection W2 as _ _ <- <-.
  pose proof (counted_cost _ _ _ _ _ _ _ _ _ _ _ _ _ LAWS K1 K2 W1) as K6.
  (* sizes *)
  rewrite !outs_app, !ins_app in X5. rewrite !outs_app, !ins_app, K3, G4 in X6. cbn [app] in X6. injection X6 as -> -> X6.
  apply all_ok_app in X3. destruct X3 as [O1 O2].
  assert (S1 : sum_len (outs t1) = if cbuf then 42 else 162) by exact G3.
  assert (S2 : sum_len (ins t1) = 158) by (rewrite G4, !sum_len_cons, sum_len_nil, K4, K5; reflexivity).
  assert (S3 : sum_len (outs t1) + sum_len (outs t2') = 162 + wl).
  { rewrite S1, G5. unfold m4_size. destruct G2 as [G2 G2']. destruct cbuf.
    - specialize (G2' eq_refl). destruct (ac_buffered_m4 a1); [lia|congruence].
    - destruct (ac_buffered_m4 a1); [|lia]. specialize (G2 ltac:(discriminate)). discriminate. }
  assert (S4 : sum_len (ins t1) + sum_len (ins t2') = 158 + wr) by (rewrite S2, <- X6, K6; lia).
  rewrite !outs_app in X8. rewrite K3 in X8.
  assert (EX : x' = Ok (Printed (if cbuf then 42 else 162) 158 (162 + wl) (158 + wr), a)).
  { rewrite Z3. unfold mitm_after. cbn [mm_counter_write mm_counter_read mitm_init].
    rewrite !total_write_outs, !total_read_ins by assumption. f_equal. f_equal. f_equal; lia. }
  rewrite EX in X7, X8. cbn [fst snd] in X7, X8. eexists _, _, _. cbv zeta. split; [exact X7|]. intros T1 T2. apply X8.
  - apply sum_small. rewrite sum_len_app. lia.
  - apply sum_small. rewrite sum_len_app, !sum_len_cons, sum_len_nil. lia.
Qed.
