(** Lemmas about time checkers with a state: the handshakes of [Checked] as machines,
    built from the steps of [Session_proofs]. *)
From Coq Require Import List ZArith Bool Strings.Byte Lia ZifyBool ZifyNat ZifyN.
From Verif Require Import PyBase PyBase_proofs IO IO_proofs Packets Packets_proofs Packets_proofs2
  Crypto Crypto_proofs Time EncChannel EncUse EncChannel_proofs AppChannel AppUse AppChannel_proofs Session Spec Session_proofs
  SessUse Session_steps Checked.
Import ListNotations.
Open Scope Z_scope.
Ltac Zify.zify_post_hook ::= Z.div_mod_to_equations.

(** The verdicts of a checker in one state. *)
Definition view {X} (C : checker X) (x : X) : tchecker :=
  TChecker (fun t => snd (ck_first C t x)) (fun t => snd (ck_check C t x)).

Section Machines.
  Variable L : lib.
  Variable TK : tkeeper.
  Variable X : Type.
  Variable C : checker X.

  (** the checker after a frame taken for M2, M3 (of a client), M1, M4 (of a server) *)
  Definition m2_after (x : X) (chunk : bytes) : X :=
    match m2_ctor chunk with Ok m2 => fst (ck_first C (m2_time m2) x) | Err _ => x end.
  Definition m3_after (x : X) (ch : ec) (f : bytes) : X :=
    match snd (ec_process L ch f) with
    | Err _ => x
    | Ok c => if negb (zlen c =? 102) then x
              else match m3_ctor c with Ok m3 => fst (ck_check C (m34_time m3) x) | Err _ => x end
    end.
  Definition m4_after (x : X) (ch : ec) (f : bytes) : X :=
    match snd (ec_process L ch f) with
    | Err _ => x
    | Ok c => match m4_ctor c with Ok m4 => fst (ck_check C (m34_time m4) x) | Err _ => x end
    end.

  Definition kclient_machine (x : X) (s : cs) : io ((X * cs) * res unit) :=
    match cs_enc s with
    | None => Ret ((x, s), Err ValueError)
    | Some e =>
        match client_start L TK s e with
        | (s1, Err y) => Ret ((x, s1), Err y)
        | (s1, Ok m1) =>
            Write [m1] false (fun r => match r with Err y => Ret ((x, s1), Err y) | Ok _ =>
            Read (fun r => match r with Err y => Ret ((x, s1), Err y) | Ok chunk =>
              match client_m2 L (view C x) s1 e chunk with
              | (s2, Err y) => Ret ((m2_after x chunk, s2), Err y)
              | (s2, Ok ch) =>
                  Read (fun r => match r with Err y => Ret ((m2_after x chunk, s2), Err y) | Ok f =>
                    match client_m3 L TK (view C (m2_after x chunk)) s2 ch f with
                    | (s3, Err y) => Ret ((m3_after (m2_after x chunk) ch f, s3), Err y)
                    | (s3, Ok m4) =>
                        if cs_buffer_M4 s then Ret ((m3_after (m2_after x chunk) ch f, client_buffer s3 m4), Ok tt)
                        else match cs_app s3 with
                             | None => Ret ((m3_after (m2_after x chunk) ch f, s3), Err AttributeError)
                             | Some a =>
                                 match ec_encrypt L (ac_enc a) m4 with
                                 | Err y => Ret ((m3_after (m2_after x chunk) ch f, s3), Err y)
                                 | Ok c =>
                                     Write [ec_wrap c false] false
                                       (fun r => Ret ((m3_after (m2_after x chunk) ch f,
                                          cs_set_app (app_enc_put (ec_advance_write (ac_enc a)) (cs_app s3)) s3), r))
                                 end
                             end
                    end end)
              end end) end)
        end
    end.

  Ltac mon := unfold klift, kcall, need, mbind, mget, mmod, mput, mlift, mread, mwrite, mzoom, mret, mraise;
              cbn [iobind fst snd].

  Ltac csimp :=
    cbv beta iota zeta delta [cs_set_tk cs_set_session_key cs_set_m1 cs_set_m1_hash cs_set_m2 cs_set_m2_hash cs_set_m3 cs_set_m4 cs_set_app
         cs_sig cs_enc cs_buffer_M4 cs_wanted_server_sig_key cs_tk cs_session_key cs_m1 cs_m1_hash cs_m2 cs_m2_hash
         cs_m3 cs_m4 cs_app app_enc_put ac_set_enc ac_init ac_enc ac_tk ac_buffered_m4 ac_readq client_buffer
         iobind fst snd].

  Lemma kclient_eq : forall x s, io_eq (kclient_handshake L TK X C (x, s)) (kclient_machine x s).
  Proof.
    intros x [sig [e|] buf wanted tk sk m1 h1 m2 h2 m3 m4 app]; unfold kclient_machine; cbn [cs_enc];
      [|unfold kclient_handshake, c_validate; mon; constructor].
    unfold kclient_handshake, c_validate. mon. cbn [cs_enc iobind fst snd].
    unfold client_start, c_do_m1. mon. cbn [cs_tk cs_enc].
    destruct (tk_first TK tk) as [t1 tk1]. cbn [iobind fst snd].
    destruct (m1_set_client_enc_key _ _) as [p1|y]; cbn [iobind fst snd]; [|constructor].
    constructor. intros [[]|y]; cbn [iobind fst snd]; [|constructor].
    unfold kc_do_m2. mon. constructor. intros [chunk|y]; cbn [iobind fst snd]; [|constructor].
    unfold client_m2, m2_after. destruct (m2_ctor chunk) as [p2|y] eqn:E2; cbn [iobind fst snd]; [|constructor].
    rewrite (m2_ctor_type _ _ E2), Z.eqb_refl. cbn [negb iobind fst snd].
    cbn [view tc_first].
    destruct (ck_first C (m2_time p2) x) as [x1 [[]|y]]; cbn [iobind fst snd]; [|constructor].
    destruct (m2_no_such_server p2); cbn [iobind fst snd negb]; [constructor|].
    unfold c_create_encrypted_channel. mon. csimp.
    destruct (compute_shared_key _ _ _) as [key|y]; csimp; [|constructor].
    destruct (ec_init key CLIENT SESSION_NONCE) as [ch|y] eqn:EI; csimp; [|constructor].
    unfold kc_do_m3, c_enc_read. mon. csimp.
    assert (HP : ec_pushback ch = []).
    { unfold ec_init in EI. destruct (negb _); [discriminate|]. injection EI as <-. reflexivity. }
    unfold ec_read at 1. rewrite HP. cbn [is_empty iobind fst snd].
    constructor. intros [f|y]; csimp; [|constructor].
    unfold client_m3, m3_after. csimp. destruct (ec_process L ch f) as [ch1 [chunk3|y]]; csimp; [|constructor].
    change (2 + 4 + 32 + 64) with 102.
    destruct (zlen chunk3 =? 102); csimp; cbn [negb]; [|constructor].
    destruct (m3_ctor chunk3) as [p3|y]; csimp; [|constructor].
    cbn [view tc_check].
    destruct (ck_check C (m34_time p3) x1) as [x2 [[]|y]]; csimp; [|constructor].
    unfold c_validate_signature1. mon. csimp.
    destruct (l_sign_open _ _ _) as [o|[]]; csimp; try solve [constructor].
    unfold c_do_m4, c_get_time. mon. csimp.
    destruct (tk_get TK tk1) as [t2 tk2]. csimp.
    destruct (m34_set_sig_key _ _) as [q1|y]; csimp; [|constructor].
    destruct (l_sign _ _ _) as [sm|y]; csimp; [|constructor].
    destruct (m34_set_signature _ _) as [q2|y]; csimp; [|constructor].
    destruct buf; csimp; [constructor|].
    unfold c_enc_write. mon. csimp. unfold ec_write, ec_wrap_all. rewrite pkt_bytes_none.
    destruct (ec_encrypt L ch1 q2) as [c|y]; csimp; [|constructor].
    cbn [is_empty andb]. unfold mwrite. csimp. constructor. intro r. csimp. constructor.
  Qed.

  (** ** Server *)
  Definition kserver_rest (x : X) (s : ss) (e : keypair) (m1 : m1pkt) (hold : option bytes) : io ((X * ss) * res unit) :=
    match server_m3 L TK s e m1 hold with
    | (s1, Err y) => Ret ((x, s1), Err y)
    | (s1, Ok fs) =>
        Write fs false (fun r => match r with Err y => Ret ((x, s1), Err y) | Ok _ =>
        Read (fun r => match r with Err y => Ret ((x, s1), Err y)
                       | Ok f => Ret ((match ss_app s1 with None => x | Some a => m4_after x (ac_enc a) f end,
                                       fst (server_m4 L (view C x) s1 f)), snd (server_m4 L (view C x) s1 f)) end) end)
    end.

  Definition kserver_machine (x : X) (s : ss) : io ((X * ss) * res unit) :=
    match ss_enc s with
    | None => Ret ((x, s), Err ValueError)
    | Some e =>
        Read (fun r => match r with Err y => Ret ((x, s), Err y) | Ok chunk =>
          match m1_ctor chunk with
          | Err _ =>
              match a1_ctor chunk with
              | Err y => Ret ((x, ss_set_m1 None s), Err y)
              | Ok _ =>
                  Write [pkt_bytes (match ss_a2 s with Some p => p | None => a2_default end)] true
                    (fun r => match r with
                              | Err y => Ret ((x, ss_set_m1 None s), Err y)
                              | Ok _ => Ret ((x, ss_set_is_done true (ss_set_m1 None s)), Ok tt)
                              end)
              end
          | Ok m1 =>
              let x1 := fst (ck_first C (m1_time m1) x) in
              match server_m1 L TK (view C x) s chunk m1 with
              | (s1, Err y) => Ret ((x1, s1), Err y)
              | (s1, Ok (Some m2)) =>
                  Write [m2] true (fun r => Ret ((x1, s1), match r with Ok _ => Err NoSuchServerException | Err y => Err y end))
              | (s1, Ok None) =>
                  match server_m2 TK s1 e with
                  | (s2, Err y) => Ret ((x1, s2), Err y)
                  | (s2, Ok m2) =>
                      if ss_buffer_m2 s then kserver_rest x1 s2 e m1 (Some m2)
                      else Write [m2_bytes m2] false (fun r => match r with
                             | Err y => Ret ((x1, s2), Err y)
                             | Ok _ => kserver_rest x1 (ss_set_m2_hash (l_sha512 L (m2_bytes m2)) s2) e m1 None
                             end)
                  end
              end
          end end)
    end.

  Ltac ssimp :=
    cbv beta iota zeta delta [ss_set_tk ss_set_session_key ss_set_m1 ss_set_m1_hash ss_set_m2 ss_set_m2_hash ss_set_m4
         ss_set_app ss_set_client_sig_key ss_set_is_done
         ss_sig ss_enc ss_buffer_m2 ss_a2 ss_tk ss_session_key ss_m1 ss_m1_hash ss_m2 ss_m2_hash
         ss_m4 ss_client_sig_key ss_is_done ss_app app_enc_put ac_set_enc ac_init ac_enc ac_tk ac_buffered_m4 ac_readq
         iobind fst snd negb py_eq a1_address_type_attr app].

  Lemma kserver_eq : forall x s, io_eq (kserver_handshake L TK X C (x, s)) (kserver_machine x s).
  Proof.
    intros x [sig [e|] buf a2 tk sk m1 h1 m2 h2 m4 ck done app]; unfold kserver_machine; cbn [ss_enc];
      [|unfold kserver_handshake, s_validate; mon; constructor].
    unfold kserver_handshake, s_validate. mon. ssimp.
    unfold ks_do_m1. mon. ssimp. constructor. intros [chunk|y]; ssimp; [|constructor].
    destruct (m1_ctor chunk) as [p1|y] eqn:E1; ssimp.
    2:{ rewrite (m1_ctor_err _ _ E1). mon. ssimp. unfold s_do_a2. mon. ssimp.
        destruct (a1_ctor chunk) as [a1|y1]; ssimp; [|constructor].
        constructor. intros [[]|y1]; ssimp; constructor. }
    unfold server_m1. ssimp. mon. ssimp. cbn [view tc_first].
    destruct (ck_first C (m1_time p1) x) as [x1 [[]|y]]; ssimp; [|constructor].
    assert (TAIL : forall ch s, ec_pushback ch = [] ->
          ss_app s = Some (ac_init (ec_advance_write ch) (ac_tk (match ss_app s with Some a => a | None => ac_init ch 0 end))) ->
          io_eq (iobind (ks_do_m4 L X C (x1, s))
                  (fun z : (X * ss) * res unit => match snd z with
                    | Ok _ => klift (s_validate_signature2 L) (fst z)
                    | Err e => Ret (fst z, Err e) end))
                (Read (fun r => match r with Err y => Ret ((x1, s), Err y)
                       | Ok f => Ret ((match ss_app s with None => x1 | Some a => m4_after x1 (ac_enc a) f end,
                                       fst (server_m4 L (view C x1) s f)), snd (server_m4 L (view C x1) s f)) end))).
    { intros ch [zsig zenc zbuf za2 ztk zsk zm1 zh1 zm2 zh2 zm4 zck zdone [[zch ztk' zm zq]|]] HP HS; cbn [ss_app ac_tk] in HS; unfold ac_init in HS; [|discriminate].
      assert (zch = ec_advance_write ch) by congruence. assert (zm = None) by congruence. assert (zq = []) by congruence.
      subst zch zm zq. clear HS.
      unfold ks_do_m4, s_enc_read. mon. ssimp. unfold ec_read at 1. cbn [ec_pushback ec_advance_write]. rewrite HP.
      cbn [is_empty iobind fst snd]. constructor. intros [f|y]; ssimp; [|constructor].
      unfold server_m4, m4_after. ssimp. fold (ec_advance_write ch).
      destruct (ec_process L (ec_advance_write ch) f) as [ch1 [c4|y]]; ssimp; [|constructor].
      destruct (m4_ctor c4) as [p4|y]; ssimp; [|constructor].
      cbn [view tc_check].
      destruct (ck_check C (m34_time p4) x1) as [x2 [[]|y]]; ssimp; [|constructor].
      unfold s_validate_signature2. mon. ssimp.
      destruct (l_sign_open _ _ _) as [o|[]]; ssimp; constructor. }
    assert (REST : forall s p2 hold, ss_buffer_m2 s = buf -> ss_m2 s = Some p2 -> ss_enc s = Some e -> ss_m1 s = Some p1 ->
      (if buf then hold = Some p2 else hold = None) ->
      io_eq (iobind (klift (s_create_encrypted_channel L) (x1, s))
               (fun z : (X * ss) * res unit => match snd z with
                | Ok _ => iobind (klift (s_do_m3 L TK) (fst z))
                    (fun z : (X * ss) * res unit => match snd z with
                     | Ok _ => iobind (ks_do_m4 L X C (fst z))
                         (fun z : (X * ss) * res unit => match snd z with
                          | Ok _ => klift (s_validate_signature2 L) (fst z)
                          | Err e => Ret (fst z, Err e) end)
                     | Err e => Ret (fst z, Err e) end)
                | Err e => Ret (fst z, Err e) end))
            (kserver_rest x1 s e p1 hold)).
    { intros [zsig zenc zbuf za2 ztk zsk zm1 zh1 zm2 zh2 zm4 zck zdone zapp] p2 hold H1 H2 H3 H4 HH.
      cbn [ss_buffer_m2 ss_m2 ss_enc ss_m1] in *. subst zbuf zm2 zenc zm1.
      unfold s_create_encrypted_channel, kserver_rest, server_m3. mon. ssimp.
      destruct (compute_shared_key _ _ _) as [key|y]; ssimp; [|constructor].
      destruct (ec_init key SERVER SESSION_NONCE) as [ch|y] eqn:EI; ssimp; [|constructor].
      assert (HP : ec_pushback ch = []).
      { unfold ec_init in EI. destruct (negb _); [discriminate|]. injection EI as <-. reflexivity. }
      unfold s_do_m3. mon. ssimp.
      destruct buf; subst hold; ssimp.
      - destruct (tk_first TK ztk) as [t2 tk2]. ssimp.
        destruct (m34_set_sig_key _ _) as [q1|y]; ssimp; [|constructor].
        destruct (l_sign _ _ _) as [sm|y]; ssimp; [|constructor].
        destruct (m34_set_signature _ _) as [q2|y]; ssimp; [|constructor]. rewrite pkt_bytes_none.
        destruct (ec_encrypt L ch q2) as [c|y]; ssimp; [|constructor].
        constructor. intros [[]|y]; ssimp; [|constructor].
        apply (TAIL ch); [exact HP|reflexivity].
      - destruct (tk_get TK ztk) as [t2 tk2]. ssimp.
        destruct (m34_set_sig_key _ _) as [q1|y]; ssimp; [|constructor].
        destruct (l_sign _ _ _) as [sm|y]; ssimp; [|constructor].
        destruct (m34_set_signature _ _) as [q2|y]; ssimp; [|constructor]. rewrite pkt_bytes_none.
        destruct (ec_encrypt L ch q2) as [c|y]; ssimp; [|constructor].
        constructor. intros [[]|y]; ssimp; [|constructor].
        apply (TAIL ch); [exact HP|reflexivity]. }
    assert (GO : io_eq
      (iobind (klift (s_do_m2 L TK) (x1, SS sig (Some e) buf a2 tk sk (Some p1) (l_sha512 L chunk) m2 h2 m4 ck done app))
        (fun z : (X * ss) * res unit => match snd z with
           | Ok _ => iobind (klift (s_create_encrypted_channel L) (fst z))
               (fun z : (X * ss) * res unit => match snd z with
                | Ok _ => iobind (klift (s_do_m3 L TK) (fst z))
                    (fun z : (X * ss) * res unit => match snd z with
                     | Ok _ => iobind (ks_do_m4 L X C (fst z))
                         (fun z : (X * ss) * res unit => match snd z with
                          | Ok _ => klift (s_validate_signature2 L) (fst z)
                          | Err e => Ret (fst z, Err e) end)
                     | Err e => Ret (fst z, Err e) end)
                | Err e => Ret (fst z, Err e) end)
           | Err e => Ret (fst z, Err e) end))
      (match server_m2 TK (SS sig (Some e) buf a2 tk sk (Some p1) (l_sha512 L chunk) m2 h2 m4 ck done app) e with
       | (s2, Err y) => Ret ((x1, s2), Err y)
       | (s2, Ok m2) =>
           if buf then kserver_rest x1 s2 e p1 (Some m2)
           else Write [m2_bytes m2] false (fun r => match r with
                  | Err y => Ret ((x1, s2), Err y)
                  | Ok _ => kserver_rest x1 (ss_set_m2_hash (l_sha512 L (m2_bytes m2)) s2) e p1 None
                  end)
       end)).
    { unfold server_m2, s_do_m2. unfold klift at 1. mon. ssimp. destruct (tk_first TK tk) as [t1 tk1]. ssimp.
      destruct (m2_set_server_enc_key _ _) as [p2|y]; ssimp; [|constructor].
      destruct buf; ssimp.
      - eapply REST; reflexivity.
      - constructor. intros [[]|y]; ssimp; [|constructor]. eapply REST; reflexivity. }
    destruct (m1_flag p1); ssimp.
    - destruct (m1_server_sig_key p1) as [k|y]; ssimp; [|constructor].
      destruct (bytes_eqb (kp_pub sig) k); ssimp.
      + exact GO.
      + destruct (tk_first TK tk) as [t1 tk1]. ssimp. constructor. intros [[]|y]; ssimp; constructor.
    - exact GO.
  Qed.
End Machines.
