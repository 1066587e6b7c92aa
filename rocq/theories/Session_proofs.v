(** The handshakes as machines: between two awaits, one pure step.  [*_machine] is
    an equivalent, flat description of the coroutines of [Session], proved equal to
    them; the theorems about sessions are proved on the machines. *)
From Coq Require Import List ZArith Bool Strings.Byte Lia ZifyBool ZifyNat ZifyN.
From Verif Require Import PyBase PyBase_proofs IO IO_proofs Packets Packets_proofs Packets_proofs2
  Crypto Crypto_proofs Time EncChannel EncUse EncChannel_proofs AppChannel AppUse AppChannel_proofs Session Spec.
Import ListNotations.
Open Scope Z_scope.
Ltac Zify.zify_post_hook ::= Z.div_mod_to_equations.

Section Machines.
  Variable L : lib.
  Variable TK : tkeeper.
  Variable TC : tchecker.

  (** ** Client *)

  (** up to the first write *)
  Definition client_start (s : cs) (e : keypair) : cs * res bytes :=
    let (t, tk') := tk_first TK (cs_tk s) in
    match m1_set_client_enc_key (kp_pub e) (m1_set_time t (m1_create_opt_fields m1_new)) with
    | Err x => (cs_set_tk tk' s, Err x)
    | Ok m1 => (cs_set_m1_hash (l_sha512 L (m1_bytes m1)) (cs_set_m1 (Some m1) (cs_set_tk tk' s)),
                Ok (m1_bytes m1))
    end.

  (** after the first frame from the server *)
  Definition client_m2 (s : cs) (e : keypair) (chunk : bytes) : cs * res ec :=
    match m2_ctor chunk with
    | Err x => (s, Err x)
    | Ok m2 =>
        let s1 := cs_set_m2 (Some m2) s in
        match tc_first TC (m2_time m2) with
        | Err x => (s1, Err x)
        | Ok _ =>
            let s2 := cs_set_m2_hash (l_sha512 L chunk) s1 in
            if m2_no_such_server m2 then (s2, Err NoSuchServerException)
            else match compute_shared_key L (kp_sec e) (m2_server_enc_key m2) with
                 | Err x => (s2, Err x)
                 | Ok key =>
                     let s3 := cs_set_session_key key s2 in
                     match ec_init key CLIENT SESSION_NONCE with
                     | Err x => (s3, Err x)
                     | Ok ch => (cs_set_app (Some (ac_init ch (cs_tk s))) s3, Ok ch)
                     end
                 end
        end
    end.

  (** after the second frame from the server; the result is the clear text of M4 *)
  Definition client_m3 (s : cs) (ch : ec) (f : bytes) : cs * res bytes :=
    let (ch1, x) := ec_process L ch f in
    let s1 := cs_set_app (Some (ac_init ch1 (cs_tk s))) s in
    match x with
    | Err x => (s1, Err x)
    | Ok chunk =>
        if negb (zlen chunk =? 102) then (s1, Err AssertionError)
        else match m3_ctor chunk with
             | Err x => (s1, Err x)
             | Ok m3 =>
                 let s2 := cs_set_m3 (Some m3) s1 in
                 match tc_check TC (m34_time m3) with
                 | Err x => (s2, Err x)
                 | Ok _ =>
                     match l_sign_open L (m34_signature m3 ++ SIG1_PREFIX ++ cs_m1_hash s ++ cs_m2_hash s) (m34_sig_key m3) with
                     | Err BadSignatureException => (s2, Err BadPeer)
                     | Err x => (s2, Err x)
                     | Ok _ =>
                         let (t, tk') := tk_get TK (cs_tk s) in
                         let s3 := cs_set_app (Some (ac_init ch1 tk')) s2 in
                         match m34_set_sig_key (kp_pub (cs_sig s)) (m34_set_time t m4_new) with
                         | Err x => (s3, Err x)
                         | Ok m4a =>
                             match l_sign L (SIG2_PREFIX ++ cs_m1_hash s ++ cs_m2_hash s) (kp_sec (cs_sig s)) with
                             | Err x => (s3, Err x)
                             | Ok sm =>
                                 match m34_set_signature (firstn SIGN_BYTES sm) m4a with
                                 | Err x => (s3, Err x)
                                 | Ok m4 => (cs_set_m4 (Some m4) s3, Ok m4)
                                 end
                             end
                         end
                     end
                 end
             end
    end.

  (** the application channel left behind with a buffered M4 *)
  Definition client_buffer (s : cs) (m4 : bytes) : cs :=
    cs_set_app (match cs_app s with
                | Some a => Some (AC (ac_enc a) (ac_tk a) (Some m4) (ac_readq a))
                | None => None end) s.

  Definition client_machine (s : cs) : io (cs * res unit) :=
    match cs_enc s with
    | None => Ret (s, Err ValueError)
    | Some e =>
        match client_start s e with
        | (s1, Err x) => Ret (s1, Err x)
        | (s1, Ok m1) =>
            Write [m1] false (fun r => match r with Err x => Ret (s1, Err x) | Ok _ =>
            Read (fun r => match r with Err x => Ret (s1, Err x) | Ok chunk =>
              match client_m2 s1 e chunk with
              | (s2, Err x) => Ret (s2, Err x)
              | (s2, Ok ch) =>
                  Read (fun r => match r with Err x => Ret (s2, Err x) | Ok f =>
                    match client_m3 s2 ch f with
                    | (s3, Err x) => Ret (s3, Err x)
                    | (s3, Ok m4) =>
                        if cs_buffer_M4 s then Ret (client_buffer s3 m4, Ok tt)
                        else match cs_app s3 with
                             | None => Ret (s3, Err AttributeError)
                             | Some a =>
                                 match ec_encrypt L (ac_enc a) m4 with
                                 | Err x => Ret (s3, Err x)
                                 | Ok c =>
                                     Write [ec_wrap c false] false
                                       (fun r => Ret (cs_set_app (app_enc_put (ec_advance_write (ac_enc a)) (cs_app s3)) s3, r))
                                 end
                             end
                    end end)
              end end) end)
        end
    end.

  Lemma m2_ctor_type : forall src m2, m2_ctor src = Ok m2 -> fget_int 0 1 m2 = TYPE_M2.
  Proof.
    intros src m2 H. unfold m2_ctor, fixed_ctor in H. destruct (is_empty src).
    - injection H as <-. reflexivity.
    - unfold finish, fixed_from_bytes, validate_type in H. cbn [fst snd] in H.
      destruct (Z.eqb_spec (fget_int 0 1 (struct_from_bytes m2_new src)) TYPE_M2) as [E|E]; [|discriminate].
      injection H as <-. exact E.
  Qed.

  Lemma pkt_bytes_none : forall d, pkt_bytes (Pkt d None) = d.
  Proof. intro d. unfold pkt_bytes. cbn. apply app_nil_r. Qed.

  Ltac mon := unfold need, mbind, mget, mmod, mput, mlift, mread, mwrite, mzoom, mret, mraise;
              cbn [iobind fst snd].

  Ltac csimp :=
    cbv beta iota zeta delta [cs_set_tk cs_set_session_key cs_set_m1 cs_set_m1_hash cs_set_m2 cs_set_m2_hash cs_set_m3 cs_set_m4 cs_set_app
         cs_sig cs_enc cs_buffer_M4 cs_wanted_server_sig_key cs_tk cs_session_key cs_m1 cs_m1_hash cs_m2 cs_m2_hash
         cs_m3 cs_m4 cs_app app_enc_put ac_set_enc ac_init ac_enc ac_tk ac_buffered_m4 ac_readq client_buffer
         iobind fst snd].

  Lemma client_eq : forall s, io_eq (client_handshake L TK TC s) (client_machine s).
  Proof.
    intros [sig [e|] buf wanted tk sk m1 h1 m2 h2 m3 m4 app]; unfold client_machine; cbn [cs_enc];
      [|unfold client_handshake, c_validate; mon; constructor].
    unfold client_handshake, c_validate. mon. cbn [cs_enc iobind fst snd].
    unfold client_start, c_do_m1. mon. cbn [cs_tk cs_enc].
    destruct (tk_first TK tk) as [t1 tk1]. cbn [iobind fst snd].
    destruct (m1_set_client_enc_key _ _) as [p1|x]; cbn [iobind fst snd]; [|constructor].
    constructor. intros [[]|x]; cbn [iobind fst snd]; [|constructor].
    unfold c_do_m2. mon. constructor. intros [chunk|x]; cbn [iobind fst snd]; [|constructor].
    unfold client_m2. destruct (m2_ctor chunk) as [p2|x] eqn:E2; cbn [iobind fst snd]; [|constructor].
    rewrite (m2_ctor_type _ _ E2), Z.eqb_refl. cbn [negb iobind fst snd].
    destruct (tc_first TC (m2_time p2)) as [[]|x]; cbn [iobind fst snd]; [|constructor].
    destruct (m2_no_such_server p2); cbn [iobind fst snd negb]; [constructor|].
    unfold c_create_encrypted_channel. mon. csimp.
    destruct (compute_shared_key _ _ _) as [key|x]; csimp; [|constructor].
    destruct (ec_init key CLIENT SESSION_NONCE) as [ch|x] eqn:EI; csimp; [|constructor].
    unfold c_do_m3, c_enc_read. mon. csimp.
    assert (HP : ec_pushback ch = []).
    { unfold ec_init in EI. destruct (negb _); [discriminate|]. injection EI as <-. reflexivity. }
    unfold ec_read at 1. rewrite HP. cbn [is_empty iobind fst snd].
    constructor. intros [f|x]; csimp; [|constructor].
    unfold client_m3. csimp. destruct (ec_process L ch f) as [ch1 [chunk3|x]]; csimp; [|constructor].
    change (2 + 4 + 32 + 64) with 102.
    destruct (zlen chunk3 =? 102); csimp; cbn [negb]; [|constructor].
    destruct (m3_ctor chunk3) as [p3|x]; csimp; [|constructor].
    destruct (tc_check TC (m34_time p3)) as [[]|x]; csimp; [|constructor].
    unfold c_validate_signature1. mon. csimp.
    destruct (l_sign_open _ _ _) as [o|[]]; csimp; try solve [constructor].
    unfold c_do_m4, c_get_time. mon. csimp.
    destruct (tk_get TK tk1) as [t2 tk2]. csimp.
    destruct (m34_set_sig_key _ _) as [q1|x]; csimp; [|constructor].
    destruct (l_sign _ _ _) as [sm|x]; csimp; [|constructor].
    destruct (m34_set_signature _ _) as [q2|x]; csimp; [|constructor].
    destruct buf; csimp; [constructor|].
    unfold c_enc_write. mon. csimp. unfold ec_write, ec_wrap_all. rewrite pkt_bytes_none.
    destruct (ec_encrypt L ch1 q2) as [c|x]; csimp; [|constructor].
    cbn [is_empty andb]. unfold mwrite. csimp. constructor. intro r. csimp. constructor.
  Qed.

  (** ** Server *)

  (** a first frame that parses as M1; [Some] is the refusal to send *)
  Definition server_m1 (s : ss) (chunk : bytes) (m1 : m1pkt) : ss * res (option bytes) :=
    let s1 := ss_set_m1 (Some m1) s in
    match tc_first TC (m1_time m1) with
    | Err x => (s1, Err x)
    | Ok _ =>
        let s2 := ss_set_m1_hash (l_sha512 L chunk) s1 in
        let refuse :=
          let (t, tk') := tk_first TK (ss_tk s) in
          (ss_set_tk tk' s2, Ok (Some (m2_bytes (m2_set_no_such_server true (m2_set_time t m2_new))))) in
        if m1_flag m1 then
          match m1_server_sig_key m1 with
          | Err x => (s2, Err x)
          | Ok k => if negb (bytes_eqb (kp_pub (ss_sig s)) k) then refuse else (s2, Ok None)
          end
        else (s2, Ok None)
    end.

  (** M2 *)
  Definition server_m2 (s : ss) (e : keypair) : ss * res bytes :=
    let (t, tk') := tk_first TK (ss_tk s) in
    match m2_set_server_enc_key (kp_pub e) (m2_set_time t m2_new) with
    | Err x => (ss_set_tk tk' s, Err x)
    | Ok m2 => (ss_set_m2 (Some m2) (ss_set_tk tk' s), Ok m2)
    end.

  (** the encrypted channel and M3; [hold] is a buffered M2 *)
  Definition server_m3 (s : ss) (e : keypair) (m1 : m1pkt) (hold : option bytes) : ss * res (list bytes) :=
    match compute_shared_key L (kp_sec e) (m1_client_enc_key m1) with
    | Err x => (s, Err x)
    | Ok key =>
        let s1 := ss_set_session_key key s in
        match ec_init key SERVER SESSION_NONCE with
        | Err x => (s1, Err x)
        | Ok ch =>
            let '(t, tk', pre, s2) :=
              match hold with
              | Some m2 => let (t, tk') := tk_first TK (ss_tk s) in
                           let m2' := m2_set_time t m2 in
                           (t, tk', [m2_bytes m2'],
                            ss_set_m2_hash (l_sha512 L (m2_bytes m2')) (ss_set_m2 (Some m2') s1))
              | None => let (t, tk') := tk_get TK (ss_tk s) in (t, tk', [], s1)
              end in
            let s3 := ss_set_app (Some (ac_init ch tk')) s2 in
            match m34_set_sig_key (kp_pub (ss_sig s)) (m34_set_time t m3_new) with
            | Err x => (s3, Err x)
            | Ok p1 =>
                match l_sign L (SIG1_PREFIX ++ ss_m1_hash s2 ++ ss_m2_hash s2) (kp_sec (ss_sig s)) with
                | Err x => (s3, Err x)
                | Ok sm =>
                    match m34_set_signature (firstn SIGN_BYTES sm) p1 with
                    | Err x => (s3, Err x)
                    | Ok p =>
                        match ec_encrypt L ch p with
                        | Err x => (s3, Err x)
                        | Ok c => (ss_set_app (Some (ac_init (ec_advance_write ch) tk')) s3,
                                   Ok (pre ++ [ec_wrap c false]))
                        end
                    end
                end
            end
        end
    end.

  (** after the client's second frame *)
  Definition server_m4 (s : ss) (f : bytes) : ss * res unit :=
    match ss_app s with
    | None => (s, Err AttributeError)
    | Some a =>
        let (ch1, x) := ec_process L (ac_enc a) f in
        let s1 := ss_set_app (Some (ac_init ch1 (ac_tk a))) s in
        match x with
        | Err x => (s1, Err x)
        | Ok chunk =>
            match m4_ctor chunk with
            | Err x => (s1, Err x)
            | Ok m4 =>
                let s2 := ss_set_m4 (Some m4) s1 in
                match tc_check TC (m34_time m4) with
                | Err x => (s2, Err x)
                | Ok _ =>
                    (ss_set_client_sig_key (Some (m34_sig_key m4)) s2,
                     match l_sign_open L (m34_signature m4 ++ SIG2_PREFIX ++ ss_m1_hash s ++ ss_m2_hash s) (m34_sig_key m4) with
                     | Ok _ => Ok tt
                     | Err BadSignatureException => Err BadPeer
                     | Err x => Err x
                     end)
                end
            end
        end
    end.

  Definition server_rest (s : ss) (e : keypair) (m1 : m1pkt) (hold : option bytes) : io (ss * res unit) :=
    match server_m3 s e m1 hold with
    | (s1, Err x) => Ret (s1, Err x)
    | (s1, Ok fs) =>
        Write fs false (fun r => match r with Err x => Ret (s1, Err x) | Ok _ =>
        Read (fun r => match r with Err x => Ret (s1, Err x) | Ok f => Ret (server_m4 s1 f) end) end)
    end.

  Definition server_machine (s : ss) : io (ss * res unit) :=
    match ss_enc s with
    | None => Ret (s, Err ValueError)
    | Some e =>
        Read (fun r => match r with Err x => Ret (s, Err x) | Ok chunk =>
          match m1_ctor chunk with
          | Err _ =>
              match a1_ctor chunk with
              | Err x => Ret (ss_set_m1 None s, Err x)
              | Ok _ =>
                  Write [pkt_bytes (match ss_a2 s with Some p => p | None => a2_default end)] true
                    (fun r => match r with
                              | Err x => Ret (ss_set_m1 None s, Err x)
                              | Ok _ => Ret (ss_set_is_done true (ss_set_m1 None s), Ok tt)
                              end)
              end
          | Ok m1 =>
              match server_m1 s chunk m1 with
              | (s1, Err x) => Ret (s1, Err x)
              | (s1, Ok (Some m2)) =>
                  Write [m2] true (fun r => Ret (s1, match r with Ok _ => Err NoSuchServerException | Err x => Err x end))
              | (s1, Ok None) =>
                  match server_m2 s1 e with
                  | (s2, Err x) => Ret (s2, Err x)
                  | (s2, Ok m2) =>
                      if ss_buffer_m2 s then server_rest s2 e m1 (Some m2)
                      else Write [m2_bytes m2] false (fun r => match r with
                             | Err x => Ret (s2, Err x)
                             | Ok _ => server_rest (ss_set_m2_hash (l_sha512 L (m2_bytes m2)) s2) e m1 None
                             end)
                  end
              end
          end end)
    end.

  Ltac ssimp :=
    cbv beta iota zeta delta [ss_set_tk ss_set_session_key ss_set_m1 ss_set_m1_hash ss_set_m2 ss_set_m2_hash ss_set_m4
         ss_set_app ss_set_client_sig_key ss_set_is_done
         ss_sig ss_enc ss_buffer_m2 ss_a2 ss_tk ss_session_key ss_m1 ss_m1_hash ss_m2 ss_m2_hash
         ss_m4 ss_client_sig_key ss_is_done ss_app app_enc_put ac_set_enc ac_init ac_enc ac_tk ac_buffered_m4 ac_readq
         iobind fst snd negb py_eq a1_address_type_attr app].

  Lemma server_eq : forall s, io_eq (server_handshake L TK TC s) (server_machine s).
  Proof.
    intros [sig [e|] buf a2 tk sk m1 h1 m2 h2 m4 ck done app]; unfold server_machine; cbn [ss_enc];
      [|unfold server_handshake, s_validate; mon; constructor].
    unfold server_handshake, s_validate. mon. ssimp.
    unfold s_do_m1. mon. ssimp. constructor. intros [chunk|x]; ssimp; [|constructor].
    destruct (m1_ctor chunk) as [p1|x] eqn:E1; ssimp.
    2:{ rewrite (m1_ctor_err _ _ E1). mon. ssimp. unfold s_do_a2. mon. ssimp.
        destruct (a1_ctor chunk) as [a1|x1]; ssimp; [|constructor].
        constructor. intros [[]|x1]; ssimp; constructor. }
    unfold server_m1. ssimp. mon. ssimp.
    destruct (tc_first TC (m1_time p1)) as [[]|x]; ssimp; [|constructor].
    assert (GO : io_eq
      (iobind (s_do_m2 L TK (SS sig (Some e) buf a2 tk sk (Some p1) (l_sha512 L chunk) m2 h2 m4 ck done app))
        (fun x : ss * res unit => match snd x with
           | Ok _ => iobind (s_create_encrypted_channel L (fst x))
               (fun x : ss * res unit => match snd x with
                | Ok _ => iobind (s_do_m3 L TK (fst x))
                    (fun x : ss * res unit => match snd x with
                     | Ok _ => iobind (s_do_m4 L TC (fst x))
                         (fun x : ss * res unit => match snd x with
                          | Ok _ => s_validate_signature2 L (fst x)
                          | Err e => Ret (fst x, Err e) end)
                     | Err e => Ret (fst x, Err e) end)
                | Err e => Ret (fst x, Err e) end)
           | Err e => Ret (fst x, Err e) end))
      (match server_m2 (SS sig (Some e) buf a2 tk sk (Some p1) (l_sha512 L chunk) m2 h2 m4 ck done app) e with
       | (s2, Err x) => Ret (s2, Err x)
       | (s2, Ok m2) =>
           if buf then server_rest s2 e p1 (Some m2)
           else Write [m2_bytes m2] false (fun r => match r with
                  | Err x => Ret (s2, Err x)
                  | Ok _ => server_rest (ss_set_m2_hash (l_sha512 L (m2_bytes m2)) s2) e p1 None
                  end)
       end)).
    { unfold server_m2, s_do_m2. mon. ssimp. destruct (tk_first TK tk) as [t1 tk1]. ssimp.
      destruct (m2_set_server_enc_key _ _) as [p2|x]; ssimp; [|constructor].
      assert (REST : forall hold h2', (if buf then hold = Some p2 else hold = None) ->
        io_eq (iobind (s_create_encrypted_channel L (SS sig (Some e) buf a2 tk1 sk (Some p1) (l_sha512 L chunk) (Some p2) h2' m4 ck done app))
               (fun x : ss * res unit => match snd x with
                | Ok _ => iobind (s_do_m3 L TK (fst x))
                    (fun x : ss * res unit => match snd x with
                     | Ok _ => iobind (s_do_m4 L TC (fst x))
                         (fun x : ss * res unit => match snd x with
                          | Ok _ => s_validate_signature2 L (fst x)
                          | Err e => Ret (fst x, Err e) end)
                     | Err e => Ret (fst x, Err e) end)
                | Err e => Ret (fst x, Err e) end))
              (server_rest (SS sig (Some e) buf a2 tk1 sk (Some p1) (l_sha512 L chunk) (Some p2) h2' m4 ck done app) e p1 hold)).
      { intros hold h2' HH. unfold s_create_encrypted_channel, server_rest, server_m3. mon. ssimp.
        destruct (compute_shared_key _ _ _) as [key|x]; ssimp; [|constructor].
        destruct (ec_init key SERVER SESSION_NONCE) as [ch|x] eqn:EI; ssimp; [|constructor].
        assert (HP : ec_pushback ch = []).
        { unfold ec_init in EI. destruct (negb _); [discriminate|]. injection EI as <-. reflexivity. }
        assert (TAIL : forall s, ss_app s = Some (ac_init (ec_advance_write ch) (ac_tk (match ss_app s with Some a => a | None => ac_init ch 0 end))) ->
          io_eq (iobind (s_do_m4 L TC s)
                  (fun x : ss * res unit => match snd x with
                    | Ok _ => s_validate_signature2 L (fst x)
                    | Err e => Ret (fst x, Err e) end))
                (Read (fun r => match r with Err x => Ret (s, Err x) | Ok f => Ret (server_m4 s f) end))).
        { intros [zsig zenc zbuf za2 ztk zsk zm1 zh1 zm2 zh2 zm4 zck zdone [[zch ztk' zm zq]|]] HS; cbn [ss_app ac_tk] in HS; unfold ac_init in HS; [|discriminate].
          assert (zch = ec_advance_write ch) by congruence. assert (zm = None) by congruence. assert (zq = []) by congruence.
          subst zch zm zq. clear HS.
          unfold s_do_m4, s_enc_read. mon. ssimp. unfold ec_read at 1. cbn [ec_pushback ec_advance_write]. rewrite HP.
          cbn [is_empty iobind fst snd]. constructor. intros [f|x]; ssimp; [|constructor].
          unfold server_m4. ssimp. fold (ec_advance_write ch).
          destruct (ec_process L (ec_advance_write ch) f) as [ch1 [c4|x]]; ssimp; [|constructor].
          destruct (m4_ctor c4) as [p4|x]; ssimp; [|constructor].
          destruct (tc_check TC (m34_time p4)) as [[]|x]; ssimp; [|constructor].
          unfold s_validate_signature2. mon. ssimp.
          destruct (l_sign_open _ _ _) as [o|[]]; ssimp; constructor. }
        unfold s_do_m3. mon. ssimp.
        destruct buf; subst hold; ssimp.
        - destruct (tk_first TK tk1) as [t2 tk2]. ssimp.
          destruct (m34_set_sig_key _ _) as [q1|x]; ssimp; [|constructor].
          destruct (l_sign _ _ _) as [sm|x]; ssimp; [|constructor].
          destruct (m34_set_signature _ _) as [q2|x]; ssimp; [|constructor]. rewrite pkt_bytes_none.
          destruct (ec_encrypt L ch q2) as [c|x]; ssimp; [|constructor].
          constructor. intros [[]|x]; ssimp; [|constructor].
          apply TAIL. reflexivity.
        - destruct (tk_get TK tk1) as [t2 tk2]. ssimp.
          destruct (m34_set_sig_key _ _) as [q1|x]; ssimp; [|constructor].
          destruct (l_sign _ _ _) as [sm|x]; ssimp; [|constructor].
          destruct (m34_set_signature _ _) as [q2|x]; ssimp; [|constructor]. rewrite pkt_bytes_none.
          destruct (ec_encrypt L ch q2) as [c|x]; ssimp; [|constructor].
          constructor. intros [[]|x]; ssimp; [|constructor].
          apply TAIL. reflexivity. }
      destruct buf; ssimp.
      - apply REST. reflexivity.
      - constructor. intros [[]|x]; ssimp; [|constructor]. apply REST. reflexivity. }
    destruct (m1_flag p1); ssimp.
    - destruct (m1_server_sig_key p1) as [k|x]; ssimp; [|constructor].
      destruct (bytes_eqb (kp_pub sig) k); ssimp; [exact GO|].
      destruct (tk_first TK tk) as [t1 tk1]. ssimp. constructor. intros [[]|x]; ssimp; constructor.
    - exact GO.
  Qed.
End Machines.
