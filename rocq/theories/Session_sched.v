(** Honest runs of client and server together, and of the first messages after the
    handshake. *)
From Coq Require Import List ZArith Bool Strings.Byte Lia ZifyBool ZifyNat ZifyN.
From Verif Require Import PyBase PyBase_proofs IO IO_proofs Packets Packets_proofs Packets_proofs2
  Crypto Crypto_proofs Time EncChannel EncUse EncChannel_proofs AppChannel AppUse AppChannel_proofs Session Session_proofs
  SessUse Session_steps Sched_proofs Session_fwd Spec.
Import ListNotations.
Open Scope Z_scope.
Ltac Zify.zify_post_hook ::= Z.div_mod_to_equations.

(** ** Application channels *)
Lemma wrap_all_fwd : forall L sp ep key pb fl rd w last msgs, nacl_laws L sp ep -> length key = 32%nat ->
  0 <= w -> w + 2 * Z.of_nat (length msgs) <= 2 ^ 64 ->
  exists fs, ec_wrap_all L (EC key pb fl rd w SESSION_NONCE) last msgs =
      (EC key pb fl rd (w + 2 * Z.of_nat (length msgs)) SESSION_NONCE, Ok fs) /\
    sealed_all L key SESSION_NONCE w (mark last msgs) fs.
Proof.
  intros L sp ep key pb fl rd w last msgs HL Hk Hw Hn.
  destruct (ec_wrap_all L (EC key pb fl rd w SESSION_NONCE) last msgs) as [e1 [fs|x]] eqn:E.
  - apply wrap_all_ok in E. destruct E as [E ->]. exists fs. split; [reflexivity|exact E].
  - exfalso. apply wrap_all_err in E. destruct E as (i & Hi & -> & m & _ & E).
    cbn [ec_key ec_pushback ec_last_flag ec_read_nonce ec_write_nonce ec_session_nonce] in E.
    destruct (ec_encrypt_total L sp ep (EC key pb fl rd (w + 2 * Z.of_nat i) SESSION_NONCE) m HL Hk eq_refl) as [[_ (c & H)]|[H _]];
      cbn [ec_write_nonce] in *; [lia|congruence|lia].
Qed.

Definition m4_part (o : option (Z * bytes * bytes)) (now : Z) : list bytes :=
  match o with Some (_, k, g) => [M4_wire now k g] | None => [] end.
Definition m4_of (o : option (Z * bytes * bytes)) : option bytes :=
  match o with Some (t, k, g) => Some (M4_wire t k g) | None => None end.

Lemma ac_write_fwd : forall L sp ep TK key pb fl rd w tk o q m args last, nacl_laws L sp ep -> length key = 32%nat ->
  0 <= w -> let ps := m4_part o (fst (tk_get TK tk)) ++ packets (fst (tk_get TK tk)) (m :: args) in
  w + 2 * Z.of_nat (length ps) <= 2 ^ 64 ->
  exists fs, sealed_all L key SESSION_NONCE w (mark last ps) fs /\
    ac_write L TK m args last (AC (EC key pb fl rd w SESSION_NONCE) tk (m4_of o) q) =
    Write fs last (fun r => Ret (AC (EC key pb fl rd (w + 2 * Z.of_nat (length ps)) SESSION_NONCE) (snd (tk_get TK tk)) None q, r)).
Proof.
  intros L sp ep TK key pb fl rd w tk o q m args last HL Hk Hw ps Hn.
  destruct (wrap_all_fwd L sp ep key pb fl rd w last ps HL Hk Hw Hn) as (fs & H1 & H2). exists fs. split; [exact H2|].
  unfold ac_write. cbn [ac_tk ac_buffered_m4 ac_enc ac_readq].
  subst ps. destruct (tk_get TK tk) as [now tk']. cbn [fst snd] in *. rewrite ac_packets_spec.
  assert (E : match m4_of o with Some d => [pkt_bytes (Pkt (m34_set_time now d) None)] | None => [] end = m4_part o now).
  { destruct o as [[[t k] g]|]; [|reflexivity]. cbn [m4_of m4_part]. unfold M4_wire. rewrite m34_set_time_wire, pkt_bytes_none. reflexivity. }
  rewrite E. clear E. pose proof (packets_nonempty now m args) as HN.
  assert (HN' : m4_part o now ++ packets now (m :: args) <> []).
  { intro E. apply app_eq_nil in E. destruct E as [_ E]. exact (HN E). }
  destruct (m4_part o now ++ packets now (m :: args)) as [|p ps]; [congruence|].
  unfold mzoom, ec_write. cbn [ac_enc]. rewrite H1. reflexivity.
Qed.

Lemma read_n_queue : forall L TC q n e tk mo, io_eq (read_n L TC (length q + n) (AC e tk mo q))
  (iobind (read_n L TC n (AC e tk mo [])) (fun y => Ret (fst y, match snd y with Ok l => Ok (q ++ l) | Err x => Err x end))).
Proof.
  intros L TC. induction q as [|m q IH]; intros n e tk mo.
  - cbn [length Nat.add app].
    assert (G : forall A (p : io (A * res (list bytes))),
      io_eq p (iobind p (fun y => Ret (fst y, match snd y with Ok l => Ok l | Err x => Err x end)))).
    { induction p as [[a [l|x]]|k IH|ms l k IH]; cbn [iobind fst snd]; constructor; auto. }
    apply G.
  - cbn [length Nat.add read_n]. unfold ac_read at 1, mbind, mget, mput, mret. cbn [iobind fst snd ac_readq ac_set_readq ac_enc ac_tk ac_buffered_m4].
    eapply io_eq_trans; [apply io_eq_bind; apply IH|]. eapply io_eq_trans; [apply iobind_assoc|].
    cbn [iobind fst snd].
    assert (G : forall A B (p : io A) (f g : A -> io B), (forall a, io_eq (f a) (g a)) -> io_eq (iobind p f) (iobind p g)).
    { clear. induction p as [a|k IH|ms l k IH]; intros f g H; cbn [iobind]; [apply H|constructor; auto|constructor; auto]. }
    apply G. intros [a [l|x]]; cbn [fst snd iobind]; apply io_eq_refl.
Qed.

Lemma sealed_process : forall L sp ep key pb fl rd w x f, nacl_laws L sp ep -> length key = 32%nat ->
  sealed L key SESSION_NONCE rd x f ->
  ec_process L (EC key pb fl rd w SESSION_NONCE) f = (EC key pb (snd x) (rd + 2) w SESSION_NONCE, Ok (fst x)).
Proof.
  intros L sp ep key pb fl rd w x f HL Hk HS.
  rewrite (ec_process_sealed L sp ep _ x) by (auto; reflexivity). reflexivity.
Qed.

(** reading everything that sealed packets carry *)
Lemma read_n_fwd : forall L sp ep TC key w tk mo, nacl_laws L sp ep -> length key = 32%nat ->
  forall xs fs mss rd fl, sealed_all L key SESSION_NONCE rd xs fs -> Forall2 (decodes TC) (map fst xs) mss ->
  exists fl', exec (read_n L TC (length (concat mss)) (AC (EC key [] fl rd w SESSION_NONCE) tk mo []))
    (map (fun f => ERead (Ok f)) fs)
    (Some (AC (EC key [] fl' (rd + 2 * Z.of_nat (length fs)) w SESSION_NONCE) tk mo [], Ok (concat mss))).
Proof.
  intros L sp ep TC key w tk mo HL Hk. induction xs as [|x xs IH]; intros [|f fs] mss rd fl HS HD; cbn [sealed_all] in HS; try tauto.
  - cbn [map] in HD. inversion HD; subst. exists fl. cbn. replace (rd + 0) with rd by lia. constructor.
  - destruct HS as [HS HR]. cbn [map] in HD. inversion HD as [|a b c d Ha Hb]; subst.
    destruct Ha as (m & q & Ha & ->). destruct (IH _ _ _ (snd x) HR Hb) as (fl' & HX).
    exists fl'. cbn [concat app length map]. rewrite app_length.
    replace (rd + 2 * Z.of_nat (S (length fs))) with (rd + 2 + 2 * Z.of_nat (length fs)) by lia.
    eapply io_eq_exec.
    2:{ apply io_eq_sym. cbn [read_n]. apply io_eq_bind. apply io_eq_refl. }
    unfold ac_read at 1, mbind, mget, mput, mret, mzoom, mlift, mmod, ec_read.
    cbn [iobind fst snd ac_readq ac_enc ec_pushback is_empty].
    constructor. rewrite (sealed_process L sp ep key [] fl rd w x f HL Hk HS).
    cbn [iobind fst snd]. rewrite Ha. cbn [iobind fst snd]. unfold ac_set_readq, ac_set_enc. cbn [ac_enc ac_tk ac_buffered_m4 ac_readq].
    eapply io_eq_exec; [|apply io_eq_sym; apply io_eq_bind; apply read_n_queue].
    eapply io_eq_exec; [|apply io_eq_sym; apply iobind_assoc].
    rewrite <- (app_nil_r (map _ fs)). eapply exec_bind_fwd; [exact HX|]. cbn [iobind fst snd]. constructor.
Qed.

(** ** Handshake *)
Ltac stp := econstructor; [solve [constructor]|]; cbv beta iota.

Definition client_last (L : lib) (buf : bool) (s3 : cs) (m4 : bytes) : io (cs * res unit) :=
  if buf then Ret (client_buffer s3 m4, Ok tt)
  else match cs_app s3 with
       | None => Ret (s3, Err AttributeError)
       | Some a =>
           match ec_encrypt L (ac_enc a) m4 with
           | Err x => Ret (s3, Err x)
           | Ok c => Write [ec_wrap c false] false
                       (fun r => Ret (cs_set_app (app_enc_put (ec_advance_write (ac_enc a)) (cs_app s3)) s3, r))
           end
       end.
Definition server_wait (L : lib) (TC : tchecker) (s3 : ss) : io (ss * res unit) :=
  Read (fun r => match r with Err x => Ret (s3, Err x) | Ok f => Ret (server_m4 L TC s3 f) end).

Lemma reach_wait : forall L sp ep TKc TKs TCc TCs csig ssig ce se cbuf sbuf w a2 tkc tks X Y
    (kl : cs * res unit -> io X) (kr : ss * res unit -> io Y),
  nacl_laws L sp ep ->
  sp (kp_sec csig) (kp_pub csig) -> sp (kp_sec ssig) (kp_pub ssig) ->
  ep (kp_sec ce) (kp_pub ce) -> ep (kp_sec se) (kp_pub se) ->
  tc_first TCs (fst (tk_first TKc tkc) mod 2 ^ 32) = Ok tt ->
  tc_first TCc (fst (fst (server_times TKs sbuf tks)) mod 2 ^ 32) = Ok tt ->
  (forall x, tc_check TCc x = Ok tt) ->
  exists n key sc s3 csg sg t3,
    let t4 := fst (tk_get TKc (snd (tk_first TKc tkc))) in
    let tk4 := snd (tk_get TKc (snd (tk_first TKc tkc))) in
    steps n (Sys (iobind (client_machine L TKc TCc (cs_init csig (Some ce) cbuf w tkc)) kl)
                 (iobind (server_machine L TKs TCs (ss_init ssig (Some se) sbuf a2 tks)) kr) [] [])
            (Sys (iobind (client_last L cbuf sc (M4_wire t4 (kp_pub csig) csg)) kl) (iobind (server_wait L TCs s3) kr) [] []) /\
    length key = 32%nat /\ l_beforenm L (kp_pub se) (kp_sec ce) = Ok key /\ length csg = 64%nat /\ length sg = 64%nat /\
    cs_session_key sc = key /\ cs_m3 sc = Some (M3_wire t3 (kp_pub ssig) sg) /\
    cs_app sc = Some (ac_init (EC key [] false 4 1 SESSION_NONCE) tk4) /\
    ss_session_key s3 = key /\ ss_is_done s3 = false /\
    ss_app s3 = Some (ac_init (EC key [] false 1 4 SESSION_NONCE) (snd (server_times TKs sbuf tks))) /\
    exists m, l_sign_open L (csg ++ SIG2_PREFIX ++ ss_m1_hash s3 ++ ss_m2_hash s3) (kp_pub csig) = Ok m.
Proof.
  intros L sp ep TKc TKs TCc TCs csig ssig ce se cbuf sbuf w a2 tkc tks X Y kl kr HL Hcs Hss Hce Hse HT1 HT2 HTc.
  assert (Hk : length (kp_pub ce) = 32%nat) by (eapply law_encpk_len; eauto).
  assert (Hks : length (kp_pub se) = 32%nat) by (eapply law_encpk_len; eauto).
  destruct (law_dh _ _ _ HL _ _ _ _ Hce Hse) as (key & Hl & D1 & D2).
  destruct (client_start_fwd L sp ep HL TKc csig ce Hce cbuf w tkc) as (p1 & C1). cbv zeta in C1.
  set (m1 := M1_wire (fst (tk_first TKc tkc)) (kp_pub ce) None) in *.
  assert (E1 : exists p, m1_ctor m1 = Ok p).
  { pose proof (m1_ctor_wire (fst (tk_first TKc tkc)) (kp_pub ce) None [] Hk ltac:(discriminate)) as E. rewrite app_nil_r in E. eauto. }
  destruct E1 as (p & E1).
  destruct (server_m1_fwd L TKs TCs (ss_init ssig (Some se) sbuf a2 tks) _ _ p Hk HT1 E1) as [S1 S1k]. cbv zeta in S1. fold m1 in S1.
  set (s1 := ss_set_m1_hash (l_sha512 L m1) (ss_set_m1 (Some p) (ss_init ssig (Some se) sbuf a2 tks))) in *.
  destruct (server_m2_fwd L sp ep HL TKs se Hse s1) as [S2 S2b]. cbv zeta in S2, S2b. change (ss_tk s1) with tks in S2, S2b.
  set (m20 := M2_wire false false (fst (tk_first TKs tks)) (kp_pub se)) in *.
  set (s2 := ss_set_m2 (Some m20) (ss_set_tk (snd (tk_first TKs tks)) s1)) in *.
  (* the server up to its wait for M4, in either mode *)
  set (m2 := M2_wire false false (fst (fst (server_times TKs sbuf tks))) (kp_pub se)).
  assert (SRV : exists n sg f3 s3,
    (forall pl lr rl, steps n (Sys pl (iobind (server_machine L TKs TCs (ss_init ssig (Some se) sbuf a2 tks)) kr) (m1 :: lr) rl)
                   (Sys (A := X) pl (iobind (server_wait L TCs s3) kr) lr (rl ++ [m2; f3]))) /\
    length sg = 64%nat /\
    l_sign_open L (sg ++ SIG1_PREFIX ++ l_sha512 L m1 ++ l_sha512 L m2) (kp_pub ssig) = Ok (SIG1_PREFIX ++ l_sha512 L m1 ++ l_sha512 L m2) /\
    sealed L key SESSION_NONCE 2 (M3_wire (snd (fst (server_times TKs sbuf tks))) (kp_pub ssig) sg, false) f3 /\
    ss_session_key s3 = key /\ ss_m1_hash s3 = l_sha512 L m1 /\ ss_m2_hash s3 = l_sha512 L m2 /\ ss_is_done s3 = false /\
    ss_app s3 = Some (ac_init (EC key [] false 1 4 SESSION_NONCE) (snd (server_times TKs sbuf tks)))).
  { unfold server_times in m2 |- *. destruct sbuf; cbn [fst snd] in *.
    - destruct (server_m3_fwd L sp ep HL TKs ssig ce se Hss Hce Hse s2 p (Some m20) (fst (tk_first TKs tks)) key S1k D2 Hl eq_refl (or_intror eq_refl))
        as (sg & f3 & s3 & A1 & A2 & A3 & A4 & A5 & A6 & A7 & A8 & A9).
      change (ss_tk s2) with (snd (tk_first TKs tks)) in *. fold m2 in A2, A4, A7. change (ss_m1_hash s2) with (l_sha512 L m1) in *.
      exists 2%nat, sg, f3, s3. split; [|repeat (split; [assumption|]); assumption].
      intros pl lr rl. unfold server_machine. cbn [ss_init ss_enc iobind]. stp.
      rewrite E1. fold (ss_init ssig (Some se) true a2 tks). rewrite S1, S2. cbn [ss_init ss_buffer_m2].
      unfold server_rest.
      match goal with |- context [server_m3 ?a ?b ?c ?d ?e ?g] => replace (server_m3 a b c d e g) with (s3, @Ok (list bytes) [m2; f3]) by (symmetry; exact A4) end. cbv beta iota.
      cbn [iobind]. stp. constructor.
    - set (s2' := ss_set_m2_hash (l_sha512 L m20) s2).
      destruct (server_m3_fwd L sp ep HL TKs ssig ce se Hss Hce Hse s2' p None 0 key S1k D2 Hl eq_refl (or_introl eq_refl))
        as (sg & f3 & s3 & A1 & A2 & A3 & A4 & A5 & A6 & A7 & A8 & A9).
      change (ss_tk s2') with (snd (tk_first TKs tks)) in *. change (ss_m1_hash s2') with (l_sha512 L m1) in *.
      change (ss_m2_hash s2') with (l_sha512 L m2) in *.
      exists 3%nat, sg, f3, s3. split; [|repeat (split; [assumption|]); assumption].
      intros pl lr rl. unfold server_machine. cbn [ss_init ss_enc iobind]. stp.
      rewrite E1. fold (ss_init ssig (Some se) false a2 tks). rewrite S1, S2. cbn [ss_init ss_buffer_m2]. rewrite S2b. cbn [iobind]. stp.
      fold s2'. unfold server_rest.
      match goal with |- context [server_m3 ?a ?b ?c ?d ?e ?g] => replace (server_m3 a b c d e g) with (s3, @Ok (list bytes) [f3]) by (symmetry; exact A4) end. cbv beta iota. cbn [iobind].
      stp. unfold bytes in *. rewrite <- app_assoc. cbn [app]. constructor. }
  destruct SRV as (n & sg & f3 & s3 & SS & A1 & A2 & A3 & A4 & A5 & A6 & A7 & A8).
  set (sc1 := CS csig (Some ce) cbuf w (snd (tk_first TKc tkc)) [] (Some p1) (l_sha512 L m1) None [] None None None) in *.
  pose proof (client_m2_fwd L sp ep HL TCc ce Hce sc1 _ _ key Hks HT2 D1 Hl) as C2. cbv zeta in C2. fold m2 in C2.
  set (sc2 := cs_set_app _ _) in C2.
  destruct (law_sign _ _ _ HL _ _ (SIG2_PREFIX ++ l_sha512 L m1 ++ l_sha512 L m2) Hcs) as (csg & G1 & G2 & G3).
  pose proof (client_m3_fwd L sp ep HL TKc TCc csig ssig Hcs Hss sc2 key _ sg f3 csg Hl A1 (HTc _) A3
               (ex_intro _ _ A2) eq_refl G1 G2) as C3. cbv zeta in C3.
  change (cs_tk sc2) with (snd (tk_first TKc tkc)) in C3.
  set (sc3 := cs_set_m4 _ _) in C3.
  exists (1 + (n + 2))%nat, key, sc3, s3, csg, sg, (snd (fst (server_times TKs sbuf tks))). cbv zeta. split.
  - eapply (steps_app _ _ 1).
    { unfold client_machine at 1. cbn [cs_init cs_enc]. fold (cs_init csig (Some ce) cbuf w tkc). rewrite C1. cbn [iobind].
      stp. cbn [app]. constructor. }
    eapply steps_app; [apply SS|]. cbn [app iobind]. stp. rewrite C2. cbn [iobind]. stp. rewrite C3.
    cbn [cs_init cs_buffer_M4]. apply steps_O.
  - split; [exact Hl|]. split; [exact D1|]. split; [exact G1|]. split; [exact A1|]. split; [reflexivity|]. split; [reflexivity|].
    split; [reflexivity|]. split; [exact A4|]. split; [exact A7|]. split; [exact A8|].
    exists (SIG2_PREFIX ++ l_sha512 L m1 ++ l_sha512 L m2). rewrite A5, A6. exact G3.
Qed.

(** The client's unbuffered M4 and the end of both handshakes. *)
Lemma finish_unbuffered : forall L sp ep TC X Y (kl : cs * res unit -> io X) (kr : ss * res unit -> io Y)
    key sc s3 t4 pk csg tk4 tk3 m,
  nacl_laws L sp ep -> length key = 32%nat -> length csg = 64%nat -> length pk = 32%nat ->
  (forall x, tc_check TC x = Ok tt) ->
  cs_app sc = Some (ac_init (EC key [] false 4 1 SESSION_NONCE) tk4) ->
  ss_app s3 = Some (ac_init (EC key [] false 1 4 SESSION_NONCE) tk3) ->
  l_sign_open L (csg ++ SIG2_PREFIX ++ ss_m1_hash s3 ++ ss_m2_hash s3) pk = Ok m ->
  steps 2 (Sys (iobind (client_last L false sc (M4_wire t4 pk csg)) kl) (iobind (server_wait L TC s3) kr) [] [])
    (Sys (kl (cs_set_app (Some (ac_init (EC key [] false 4 3 SESSION_NONCE) tk4)) sc, Ok tt))
         (kr (ss_set_client_sig_key (Some pk) (ss_set_m4 (Some (M4_wire t4 pk csg)) (ss_set_app (Some (ac_init (EC key [] false 3 4 SESSION_NONCE) tk3)) s3)), Ok tt)) [] []).
Proof.
  intros L sp ep TC X Y kl kr key sc s3 t4 pk csg tk4 tk3 m HL Hl Hg Hp HT HA HB HO.
  unfold client_last. rewrite HA. cbn [ac_init ac_enc].
  destruct (encrypt_fwd L sp ep key [] false 4 1 (M4_wire t4 pk csg) HL Hl) as (c & E1 & E2); [lia|].
  rewrite E1. cbn [iobind]. stp. cbn [app]. unfold server_wait. cbn [iobind]. stp.
  rewrite (server_m4_fwd L sp ep HL TC s3 key tk3 t4 csg (ec_wrap c false) (Ok m) HB Hl pk Hp Hg (HT _) E2 HO).
  apply steps_O.
Qed.

(** A peer that reads what is in its queue, then goes on. *)
Lemma feed_right_bind : forall A B C (q : io B) (g : B -> io C) t b, exec q t (Some b) ->
  forall (p : io A) fs rest rl, t = map (fun f => ERead (Ok f)) fs ->
  steps (length fs) (Sys p (iobind q g) (fs ++ rest) rl) (Sys p (g b) rest rl).
Proof.
  intros A B C q g t b H. remember (Some b) as o eqn:Eo. revert b Eo.
  induction H as [| |k r t o H IH|ms l k r t o H IH]; intros b Eo pr fs rest rl Ht; try discriminate.
  - injection Eo as ->. destruct fs; [|discriminate]. constructor.
  - destruct fs as [|f fs]; [discriminate|]. cbn [map] in Ht. injection Ht as -> Ht. cbn [length app iobind].
    econstructor; [constructor|]. apply IH; auto.
  - destruct fs; discriminate.
Qed.

Lemma feed_left_bind : forall A B C (q : io A) (g : A -> io C) t b, exec q t (Some b) ->
  forall (p : io B) fs rest lr, t = map (fun f => ERead (Ok f)) fs ->
  steps (length fs) (Sys (iobind q g) p lr (fs ++ rest)) (Sys (g b) p lr rest).
Proof.
  intros A B C q g t b H. remember (Some b) as o eqn:Eo. revert b Eo.
  induction H as [| |k r t o H IH|ms l k r t o H IH]; intros b Eo pr fs rest rl Ht; try discriminate.
  - injection Eo as ->. destruct fs; [|discriminate]. constructor.
  - destruct fs as [|f fs]; [discriminate|]. cbn [map] in Ht. injection Ht as -> Ht. cbn [length app iobind].
    econstructor; [constructor|]. apply IH; auto.
  - destruct fs; discriminate.
Qed.

Lemma packets_length : forall t msgs, (length (packets t msgs) <= length msgs)%nat.
Proof.
  intros t msgs. unfold packets. destruct (1 <? Z.of_nat (length msgs)) eqn:E; cbn [andb].
  - destruct (forallb short msgs); [cbn [length]; lia|unfold bytes; rewrite map_length; auto].
  - unfold bytes. rewrite map_length. auto.
Qed.

(** After the handshake: the client's frames are in flight, the server has not read
    any; both then get exactly the other's batch. *)
Lemma exchange : forall L sp ep TKs TCc TCs X Y (kl : ac * res (list bytes) -> io X) (kr : ac * res (list bytes) -> io Y)
    key rd w tc tkr sm sargs slast now cm cargs clast fs fl1 fl2,
  nacl_laws L sp ep -> length key = 32%nat ->
  (forall x, tc_check TCc x = Ok tt) -> (forall x, tc_check TCs x = Ok tt) ->
  fits (cm :: cargs) -> fits (sm :: sargs) -> 0 <= w ->
  w + 2 * Z.of_nat (length (sm :: sargs)) <= 2 ^ 64 ->
  sealed_all L key SESSION_NONCE rd (mark clast (packets now (cm :: cargs))) fs ->
  let rd' := rd + 2 * Z.of_nat (length (packets now (cm :: cargs))) in
  let w' := w + 2 * Z.of_nat (length (packets (fst (tk_get TKs tkr)) (sm :: sargs))) in
  exists n fl1' fl2',
  steps n (Sys (iobind (read_n L TCc (length (sm :: sargs)) (AC (EC key [] fl1 w rd' SESSION_NONCE) tc None [])) kl)
               (iobind (read_n L TCs (length (cm :: cargs)) (AC (EC key [] fl2 rd w SESSION_NONCE) tkr None []))
                 (fun y => match snd y with
                           | Err e => kr (fst y, Err e)
                           | Ok l => iobind (ac_write L TKs sm sargs slast (fst y)) (fun z =>
                               kr (fst z, match snd z with Ok _ => Ok l | Err e => Err e end))
                           end)) fs [])
          (Sys (kl (AC (EC key [] fl1' w' rd' SESSION_NONCE) tc None [], Ok (sm :: sargs)))
               (kr (AC (EC key [] fl2' rd' w' SESSION_NONCE) (snd (tk_get TKs tkr)) None [], Ok (cm :: cargs))) [] []).
Proof.
  intros L sp ep TKs TCc TCs X Y kl kr key rd w tc tkr sm sargs slast now cm cargs clast fs fl1 fl2 HL Hk Tc Ts F1 F2 Hw Hb HS rd' w'.
  destruct (packets_decode TCs now _ Ts F1) as (mss & D1 & D2).
  assert (D1' : Forall2 (decodes TCs) (map fst (mark clast (packets now (cm :: cargs)))) mss) by (rewrite mark_fst'; exact D1).
  destruct (read_n_fwd L sp ep TCs key w tkr None HL Hk _ _ _ _ fl2 HS D1') as (fl2' & R1). rewrite D2 in R1.
  pose proof (sealed_all_length _ _ _ _ _ _ HS) as Hlen.
  assert (ML : forall l ms, length (mark l ms) = length ms).
  { intros l ms. rewrite <- (map_length fst), mark_fst'. reflexivity. }
  rewrite ML in Hlen. rewrite Hlen in R1. fold rd' in R1.
  destruct (ac_write_fwd L sp ep TKs key [] fl2' rd' w tkr None [] sm sargs slast HL Hk Hw) as (gs & G1 & G2).
  { cbn [m4_part app]. pose proof (packets_length (fst (tk_get TKs tkr)) (sm :: sargs)). lia. }
  cbn [m4_part m4_of app] in G1, G2. fold w' in G2.
  destruct (packets_decode TCc (fst (tk_get TKs tkr)) _ Tc F2) as (mst & E1 & E2).
  assert (E1' : Forall2 (decodes TCc) (map fst (mark slast (packets (fst (tk_get TKs tkr)) (sm :: sargs)))) mst) by (rewrite mark_fst'; exact E1).
  destruct (read_n_fwd L sp ep TCc key rd' tc None HL Hk _ _ _ _ fl1 G1 E1') as (fl1' & R2). rewrite E2 in R2.
  pose proof (sealed_all_length _ _ _ _ _ _ G1) as Hlen2. rewrite ML in Hlen2. rewrite Hlen2 in R2. fold w' in R2.
  exists (length fs + (1 + length gs))%nat, fl1', fl2'.
  eapply steps_app.
  { rewrite <- (app_nil_r fs) at 2. eapply feed_right_bind; [exact R1|reflexivity]. }
  cbn [fst snd]. rewrite G2. cbn [iobind].
  eapply (steps_app _ _ 1). { stp. cbn [app iobind fst snd]. constructor. }
  pose proof (feed_left_bind _ _ _ _ kl _ _ R2
    (kr (AC (EC key [] fl2' rd' w' SESSION_NONCE) (snd (tk_get TKs tkr)) None [], Ok (cm :: cargs))) gs [] [] eq_refl) as R3.
  rewrite app_nil_r in R3. exact R3.
Qed.

Lemma iobind_ret_eq : forall A (p : io A), io_eq (iobind p (fun x => Ret x)) p.
Proof. induction p; cbn [iobind]; constructor; auto. Qed.

(** The server alone, with a peer that does the key exchange properly. *)
Lemma server_to_wait : forall L sp ep TKs TCs ssig ce se sbuf a2 tks tm,
  nacl_laws L sp ep -> sp (kp_sec ssig) (kp_pub ssig) ->
  ep (kp_sec ce) (kp_pub ce) -> ep (kp_sec se) (kp_pub se) ->
  tc_first TCs (tm mod 2 ^ 32) = Ok tt ->
  let m1 := M1_wire tm (kp_pub ce) None in
  let m2 := M2_wire false false (fst (fst (server_times TKs sbuf tks))) (kp_pub se) in
  exists key f3 s3, l_beforenm L (kp_pub se) (kp_sec ce) = Ok key /\ length key = 32%nat /\
    ss_m1_hash s3 = l_sha512 L m1 /\ ss_m2_hash s3 = l_sha512 L m2 /\
    ss_app s3 = Some (ac_init (EC key [] false 1 4 SESSION_NONCE) (snd (server_times TKs sbuf tks))) /\
    forall t o, exec (server_wait L TCs s3) t o ->
      exec (server_machine L TKs TCs (ss_init ssig (Some se) sbuf a2 tks))
        (ERead (Ok m1) :: (if sbuf then [EWrite [m2; f3] false (Ok tt)] else [EWrite [m2] false (Ok tt); EWrite [f3] false (Ok tt)]) ++ t) o.
Proof.
  intros L sp ep TKs TCs ssig ce se sbuf a2 tks tm HL Hss Hce Hse HT1 m1 m2.
  assert (Hk : length (kp_pub ce) = 32%nat) by (eapply law_encpk_len; eauto).
  destruct (law_dh _ _ _ HL _ _ _ _ Hce Hse) as (key & Hl & D1 & D2).
  assert (E1 : exists p, m1_ctor m1 = Ok p).
  { pose proof (m1_ctor_wire tm (kp_pub ce) None [] Hk ltac:(discriminate)) as E. rewrite app_nil_r in E. eauto. }
  destruct E1 as (p & E1).
  destruct (server_m1_fwd L TKs TCs (ss_init ssig (Some se) sbuf a2 tks) _ _ p Hk HT1 E1) as [S1 S1k]. cbv zeta in S1. fold m1 in S1.
  set (s1 := ss_set_m1_hash (l_sha512 L m1) (ss_set_m1 (Some p) (ss_init ssig (Some se) sbuf a2 tks))) in *.
  destruct (server_m2_fwd L sp ep HL TKs se Hse s1) as [S2 S2b]. cbv zeta in S2, S2b. change (ss_tk s1) with tks in S2, S2b.
  set (m20 := M2_wire false false (fst (tk_first TKs tks)) (kp_pub se)) in *.
  set (s2 := ss_set_m2 (Some m20) (ss_set_tk (snd (tk_first TKs tks)) s1)) in *.
  unfold server_times in m2 |- *. destruct sbuf; cbn [fst snd] in *.
  - destruct (server_m3_fwd L sp ep HL TKs ssig ce se Hss Hce Hse s2 p (Some m20) (fst (tk_first TKs tks)) key S1k D2 Hl eq_refl (or_intror eq_refl))
      as (sg & f3 & s3 & A1 & A2 & A3 & A4 & A5 & A6 & A7 & A8 & A9).
    change (ss_tk s2) with (snd (tk_first TKs tks)) in *. fold m2 in A2, A4, A7. change (ss_m1_hash s2) with (l_sha512 L m1) in *.
    exists key, f3, s3. split; [exact D1|]. split; [exact Hl|]. split; [exact A6|]. split; [exact A7|]. split; [exact A9|].
    intros t o H. unfold server_machine. cbn [ss_init ss_enc]. apply ex_read.
    rewrite E1. fold (ss_init ssig (Some se) true a2 tks). rewrite S1, S2. cbn [ss_init ss_buffer_m2].
    unfold server_rest.
    match goal with |- context [server_m3 ?a ?b ?c ?d ?e ?g] => replace (server_m3 a b c d e g) with (s3, @Ok (list bytes) [m2; f3]) by (symmetry; exact A4) end.
    cbn [app]. apply ex_write. exact H.
  - set (s2' := ss_set_m2_hash (l_sha512 L m20) s2).
    destruct (server_m3_fwd L sp ep HL TKs ssig ce se Hss Hce Hse s2' p None 0 key S1k D2 Hl eq_refl (or_introl eq_refl))
      as (sg & f3 & s3 & A1 & A2 & A3 & A4 & A5 & A6 & A7 & A8 & A9).
    change (ss_tk s2') with (snd (tk_first TKs tks)) in *. change (ss_m1_hash s2') with (l_sha512 L m1) in *.
    change (ss_m2_hash s2') with (l_sha512 L m2) in *.
    exists key, f3, s3. split; [exact D1|]. split; [exact Hl|]. split; [exact A6|]. split; [exact A7|]. split; [exact A9|].
    intros t o H. unfold server_machine. cbn [ss_init ss_enc]. apply ex_read.
    rewrite E1. fold (ss_init ssig (Some se) false a2 tks). rewrite S1, S2. cbn [ss_init ss_buffer_m2]. rewrite S2b.
    cbn [app]. apply ex_write.
    fold s2'. unfold server_rest.
    match goal with |- context [server_m3 ?a ?b ?c ?d ?e ?g] => replace (server_m3 a b c d e g) with (s3, @Ok (list bytes) [f3]) by (symmetry; exact A4) end.
    apply ex_write. exact H.
Qed.
