(** C121, C122: servers with several connections, and how a connection ends
    (dev/client_server.py, dev/client_server_a.py). *)
From Coq Require Import List ZArith Bool Strings.Byte Lia ZifyBool ZifyNat ZifyN.
From Verif Require Import PyBase PyBase_proofs IO IO_proofs Packets Packets_proofs Packets_proofs2
  Crypto Crypto_proofs Time EncChannel EncUse EncChannel_proofs AppChannel AppUse AppChannel_proofs Session Session_proofs
  SessUse Session_steps Sched_proofs Session_fwd Session_sched Channel Stack StackUse Spec Pipe Flags Examples
  Props_App Props_Session Props_Session2 Props_Session3 Props_Pipe Props_Flags Props_Examples Servers Servers_proofs.
Import ListNotations.
Open Scope Z_scope.
Ltac Zify.zify_post_hook ::= Z.div_mod_to_equations.

(** ** C121: a client is not left waiting by a server that has given up *)

(** Sockets: whatever the programs are, if the two of them together come to a point where the
    server's has ended, in any way, and the client waits for a message, then in every schedule the
    connection is closed, the client's call raises ComException and the client goes on to its own
    end. *)
Theorem C121_socket : forall A B (s : sys A (option B)) k y x,
  always_ends s (Sys (Read k) (Ret (Some y)) [] []) -> k (Err ComException) = Ret x ->
  always (lk_step always_closes socket_closes socket_broken) (Link s false false false)
         (Link (Sys (Ret x) (Ret (Some y)) [] []) true true false).
Proof.
  intros A B s k y x (n & HE) HK.
  eapply (link_always always_closes socket_closes socket_broken ComException s n (Read k) (Ret (Some y))); try reflexivity; [exact HE| |left; reflexivity].
  right. exists k. split; [reflexivity|]. intros e ->. exact HK.
Qed.
Print Assumptions C121_socket.

(** Asyncio: this is so if the server's session returns; the client's end stays open unless its
    session returns too. *)
Theorem C121_tasks_partial : forall A B (s : sys (A * res (res B)) (res unit)) k x err,
  always_ends s (Sys (Read k) (Ret (Ok tt)) [] []) -> k (Err err) = Ret x ->
  exists c, always (lk_step task_closes_c task_closes (task_broken err)) (Link s false false false)
         (Link (Sys (Ret x) (Ret (Ok tt)) [] []) c true false) /\
    (c = true <-> exists v, snd x = Ok (Ok v)).
Proof.
  intros A B s k x err (n & HE) HK. exists (task_closes_c x). split.
  - eapply (link_always task_closes_c task_closes (task_broken err) err s n (Read k) (Ret (Ok tt)));
      try reflexivity; [exact HE| |left; reflexivity|discriminate].
    right. exists k. split; [reflexivity|]. intros e ->. exact HK.
  - unfold task_closes_c. destruct (snd x) as [[v|e]|e]; split; intro H; try discriminate; try reflexivity; try (destruct H; discriminate). eauto.
Qed.
Print Assumptions C121_tasks_partial.

(** A server that refuses the time of M1: both programs up to that point *)
Lemma refused_time : forall L sp ep TKc TKs TCc TCs csig ssig ce se cbuf sbuf w a2 tkc tks e A B (p : lio A) (q : lio B),
  nacl_laws L sp ep -> ep (kp_sec ce) (kp_pub ce) ->
  tc_first TCs (fst (tk_first TKc tkc) mod 2 ^ 32) = Err e ->
  exists n k sC sS aS,
    steps n (Sys (client_uses L TKc TCc (cs_init csig (Some ce) cbuf w tkc) p)
                 (server_uses L TKs TCs (ss_init ssig (Some se) sbuf a2 tks) q) [] [])
            (Sys (Read k) (Ret (sS, aS, Err e)) [] []) /\
    forall x, k (Err x) = Ret (sC, None, Err x).
Proof.
  intros L sp ep TKc TKs TCc TCs csig ssig ce se cbuf sbuf w a2 tkc tks e A B p q HL HE HT.
  assert (Hpk : length (kp_pub ce) = 32%nat) by (eapply law_encpk_len; eauto).
  destruct (client_start_fwd L sp ep HL TKc csig ce HE cbuf w tkc) as (p1 & E1). cbv zeta in E1.
  match type of E1 with _ = (?s, Ok ?x) => remember s as s1 eqn:Es1; remember x as m eqn:Em end.
  assert (E0 : cs_app s1 = None) by (subst s1; reflexivity). clear Es1.
  assert (E2 : exists s2 m1, m1_ctor m = Ok m1 /\ server_m1 L TKs TCs (ss_init ssig (Some se) sbuf a2 tks) m m1 = (s2, Err e)).
  { subst m. eexists. eexists. split; [rewrite <- (app_nil_r (M1_wire _ _ _)); apply m1_ctor_wire; auto; discriminate|]. unfold server_m1.
    match goal with |- context [m1_time ?p] => assert (ET : m1_time p = fst (tk_first TKc tkc) mod 2 ^ 32) end.
    { unfold m1_time, fget_int. cbn [m1_data]. rewrite <- !app_assoc.
      match goal with |- context [indicator ++ ?a ++ u32le ?tm ++ ?ck] => rewrite (app_assoc indicator a) end.
      rewrite fget_app by reflexivity. apply le_dec_u32. }
    rewrite ET, HT. reflexivity. }
  destruct E2 as (s2 & m1 & E2 & E3). clear Em.
  unfold client_uses, server_uses.
  match goal with |- context [Sys (iobind _ ?f) (iobind _ ?g) [] []] => remember f as KL eqn:EKL; remember g as KR eqn:EKR end.
  assert (ST : exists k0, steps 2 (Sys (iobind (client_machine L TKc TCc (cs_init csig (Some ce) cbuf w tkc)) KL)
                  (iobind (server_machine L TKs TCs (ss_init ssig (Some se) sbuf a2 tks)) KR) [] [])
                (Sys (Read k0) (KR (s2, Err e)) [] []) /\ forall x, k0 (Err x) = KL (s1, Err x)).
  { unfold client_machine, server_machine. cbn [cs_init cs_enc ss_init ss_enc].
    fold (cs_init csig (Some ce) cbuf w tkc). fold (ss_init ssig (Some se) sbuf a2 tks).
    rewrite E1. cbn [iobind]. eexists. split; [econstructor; [apply st_lw|]; cbn [iobind app]; econstructor; [apply st_rr|]; cbv beta iota; rewrite E2, E3; cbn [iobind]; constructor|].
    intro x. reflexivity. }
  destruct ST as (k0 & ST & K0).
  destruct (steps_eq _ _ _ _ _ ST (Sys (iobind (client_handshake L TKc TCc (cs_init csig (Some ce) cbuf w tkc)) KL)
                  (iobind (server_handshake L TKs TCs (ss_init ssig (Some se) sbuf a2 tks)) KR) [] [])) as ([pl pr qa qb] & ST' & (Q1 & Q2 & Q3 & Q4)).
  { split; [|split; [|split; reflexivity]]; cbn [s_left s_right]; apply io_eq_bind; [apply io_eq_sym; apply client_eq|apply io_eq_sym; apply server_eq]. }
  cbn [s_left s_right s_lr s_rl] in *. subst qa qb. rewrite EKR in Q2. cbn [fst snd] in Q2. inversion Q2; subst pr.
  inversion Q1 as [|? k HK|]; subst pl. exists 2%nat, k, s1, s2, (ss_app s2). split; [rewrite EKR in ST' |- *; exact ST'|].
  intro x. specialize (HK (Err x)). rewrite K0, EKL in HK. cbn [fst snd] in HK. rewrite E0 in HK. inversion HK. reflexivity.
Qed.

(** Sockets: a client whose time the server's time checker refuses, whatever it wanted to do, gets
    ComException; the server's session has ended, and the connection is closed. *)
Theorem C121_refused_socket : forall L sp ep TKc TKs TCc TCs csig ssig ce se cbuf sbuf w a2 tkc tks e A (p : lio A) body n,
  nacl_laws L sp ep -> ep (kp_sec ce) (kp_pub ce) ->
  tc_first TCs (fst (tk_first TKc tkc) mod 2 ^ 32) = Err e ->
  exists sC,
    always (lk_step always_closes socket_closes socket_broken)
      (Link (Sys (client_uses L TKc TCc (cs_init csig (Some ce) cbuf w tkc) p)
                 (example_loop L TKs TCs (fun i => ss_init ssig (Some se) sbuf a2 (tks i)) body (S n) 0) [] []) false false false)
      (Link (Sys (Ret (sC, None, Err ComException)) (Ret (Some (caught e))) [] []) true true false).
Proof.
  intros L sp ep TKc TKs TCc TCs csig ssig ce se cbuf sbuf w a2 tkc tks e A p body n HL HE HT.
  destruct (refused_time L sp ep TKc TKs TCc TCs csig ssig ce se cbuf sbuf w a2 tkc (tks 0%nat) e _ _ p body HL HE HT) as (m & k & sC & sS & aS & HS & HK).
  exists sC. eapply C121_socket; [|apply HK]. eapply ends_stuck; [|intros t Ht; inversion Ht].
  rewrite loop_turn. match goal with |- context [iobind _ ?g] => exact (steps_bind_right _ _ _ g _ _ _ HS) end.
Qed.
Print Assumptions C121_refused_socket.

(** ... and it is false if it raises: with the asyncio examples the same client waits for ever.
    Every schedule ends with both ends open, the server's session over and the client reading. *)
Theorem C121_tasks_refuted : forall L sp ep TKc TKs TCc TCs csig ssig ce se cbuf sbuf w a2 tkc tks e A (p : lio (res A)) body err,
  nacl_laws L sp ep -> ep (kp_sec ce) (kp_pub ce) ->
  tc_first TCs (fst (tk_first TKc tkc) mod 2 ^ 32) = Err e ->
  exists k,
    always (lk_step task_closes_c task_closes (task_broken err))
      (Link (Sys (client_uses L TKc TCc (cs_init csig (Some ce) cbuf w tkc) p)
                 (example_server_a L TKs TCs (ss_init ssig (Some se) sbuf a2 tks) body) [] []) false false false)
      (Link (Sys (Read k) (Ret (Err e)) [] []) false false false).
Proof.
  intros L sp ep TKc TKs TCc TCs csig ssig ce se cbuf sbuf w a2 tkc tks e A p body err HL HE HT.
  destruct (refused_time L sp ep TKc TKs TCc TCs csig ssig ce se cbuf sbuf w a2 tkc tks e _ _ p body HL HE HT) as (m & k & sC & sS & aS & HS & HK).
  exists k. apply link_open; [|discriminate|intros y E; injection E as <-; reflexivity].
  change (always_ends (Sys (client_uses L TKc TCc (cs_init csig (Some ce) cbuf w tkc) p)
                 (example_server_a L TKs TCs (ss_init ssig (Some se) sbuf a2 tks) body) [] []) (Sys (Read k) (Ret (Err e)) [] [])).
  eapply ends_stuck; [|intros t Ht; inversion Ht]. unfold example_server_a.
  match goal with |- context [iobind _ ?g] => exact (steps_bind_right _ _ _ g _ _ _ HS) end.
Qed.
Print Assumptions C121_tasks_refuted.

(** A client that sends the time 2, to the repository's own time checker: TypeError *)
Example C121_case : forall cb sb (p : lio (res bytes)) body n err,
  (exists sC, always (lk_step always_closes socket_closes socket_broken)
     (Link (Sys (client_uses toy_lib (TKeeper (fun z => (2, z)) (fun z => (2, z))) null_checker (cs_init ex_csig (Some ex_cenc) cb [] 0) p)
                (example_loop toy_lib null_keeper null_checker (fun i => ss_init ex_ssig (Some ex_senc) sb None 0) body (S n) 0) [] []) false false false)
     (Link (Sys (Ret (sC, None, Err ComException)) (Ret (Some (Err TypeError))) [] []) true true false)) /\
  (exists k, always (lk_step task_closes_c task_closes (task_broken err))
     (Link (Sys (client_uses toy_lib (TKeeper (fun z => (2, z)) (fun z => (2, z))) null_checker (cs_init ex_csig (Some ex_cenc) cb [] 0) p)
                (example_server_a toy_lib null_keeper null_checker (ss_init ex_ssig (Some ex_senc) sb None 0) body) [] []) false false false)
     (Link (Sys (Read k) (Ret (Err TypeError)) [] []) false false false)).
Proof.
  intros cb sb p body n err. split.
  - exact (C121_refused_socket toy_lib _ _ (TKeeper (fun z => (2, z)) (fun z => (2, z))) null_keeper null_checker null_checker ex_csig ex_ssig ex_cenc ex_senc cb sb [] None 0 (fun _ => 0) TypeError _ p body n toy_laws (conj eq_refl eq_refl) eq_refl).
  - eapply C121_tasks_refuted; [exact toy_laws|split; reflexivity|reflexivity].
Qed.

(** ** C122: clients of a server do not wait for each other *)

(** Asyncio: whatever the other clients do and have done, a connection that would end well if it
    were the only one can always go on to that end by steps of its own, and in no other state is
    there nothing left for it to do.  (Nothing is said about how fair the event loop is.) *)
Theorem C122_tasks : forall A B ec es broken k (ls ls' : list (link A B)) i c F,
  path (by_tasks ec es broken) k ls ls' -> nth_error ls i = Some c -> always (lk_step ec es broken) c F ->
  exists pre c' post m, ls' = pre ++ c' :: post /\ length pre = i /\
    path (lk_step ec es broken) m c' F /\ path (by_tasks ec es broken) m ls' (pre ++ F :: post) /\
    (c' <> F -> exists d, lk_step ec es broken c' d).
Proof.
  intros A B ec es broken k ls ls' i c F HP HN (n & HA).
  assert (X : exists j c', path (lk_step ec es broken) j c c' /\ nth_error ls' i = Some c').
  { clear HA. revert c HN. induction HP as [ls|k ls l1 ls' HS HP IH]; intros c HN; [exists 0%nat, c; split; [constructor|exact HN]|].
    inversion HS as [pre d d' post HD E1 E2]; subst.
    destruct (Nat.eq_dec i (length pre)) as [->|NE].
    - rewrite nth_error_app2, Nat.sub_diag in HN by lia. cbn in HN. injection HN as ->.
      destruct (IH d') as (j & c' & H1 & H2); [rewrite nth_error_app2, Nat.sub_diag by lia; reflexivity|].
      exists (S j), c'. split; [econstructor; eassumption|exact H2].
    - apply IH. rewrite <- HN. destruct (Nat.lt_ge_cases i (length pre)); [rewrite !nth_error_app1 by lia; reflexivity|].
      rewrite !nth_error_app2 by lia. destruct (i - length pre)%nat eqn:E; [lia|reflexivity]. }
  destruct X as (j & c' & H1 & H2). destruct (nth_error_split _ _ H2) as (pre & post & -> & HL).
  destruct (HA _ _ H1) as [_ H3]. exists pre, c', post, (n - j)%nat. split; [reflexivity|]. split; [exact HL|]. split; [exact H3|]. split.
  - clear - H3. induction H3 as [|m x y z HS HP IH]; [constructor|]. econstructor; [apply bt_step; exact HS|exact IH].
  - intro NE. inversion H3; subst; [congruence|eauto].
Qed.
Print Assumptions C122_tasks.

(** Sockets: one client at a time.  If each of the connections would end by itself, then so do
    all of them together, each in the same way as alone, in every schedule ... *)
Theorem C122_one_by_one_partial : forall A B ec es broken (ls Fs : list (link A B)),
  Forall2 (always (lk_step ec es broken)) ls Fs -> Forall (fun F => lk_sv F = true) Fs ->
  always (one_by_one ec es broken) ls Fs.
Proof. intros. apply many_one_by_one; assumption. Qed.
Print Assumptions C122_one_by_one_partial.

(** The handshake of a client up to its first read *)
Lemma client_first : forall L sp ep TKc TCc csig ce cbuf w tkc A (p : lio A), nacl_laws L sp ep -> ep (kp_sec ce) (kp_pub ce) ->
  exists m l kw k, client_uses L TKc TCc (cs_init csig (Some ce) cbuf w tkc) p = Write [m] l kw /\ kw (Ok tt) = Read k.
Proof.
  intros L sp ep TKc TCc csig ce cbuf w tkc A p HL HE.
  destruct (client_start_fwd L sp ep HL TKc csig ce HE cbuf w tkc) as (p1 & E1). cbv zeta in E1.
  pose proof (client_eq L TKc TCc (cs_init csig (Some ce) cbuf w tkc)) as Q. unfold client_machine in Q. cbn [cs_init cs_enc] in Q.
  fold (cs_init csig (Some ce) cbuf w tkc) in Q. rewrite E1 in Q. unfold client_uses. inversion Q as [|? ? HK EA EB|ms l kw1 kw2 HK EA EB]; subst.
  cbn [iobind]. specialize (HK (Ok tt)). cbv beta iota in HK. inversion HK as [|kr1 kr2 HK2 EC ED|]; subst.
  eexists. eexists. eexists. eexists. split; [reflexivity|]. cbv beta. rewrite <- EC. cbn [iobind]. reflexivity.
Qed.

(** ... but "no client waits for another" is false: somebody who opens a connection and then
    only waits (reading, say) keeps the server reading on it.  Every other client, however many
    there are, sends M1 and then waits for ever: in no reachable state has any of them returned,
    or received anything, and the server has done nothing for them. *)
Theorem C122_one_by_one_refuted : forall L sp ep A B (es : B -> bool) broken (k0 : res bytes -> io (cs * option ac * res A)) (kq : res bytes -> io B)
    (others : list (tkeeper * tchecker * keypair * keypair * bool * bytes * Z * lio A * io B)) n ls,
  nacl_laws L sp ep -> Forall (fun v => let '(TKc, TCc, csig, ce, cbuf, w, tkc, p, q) := v in ep (kp_sec ce) (kp_pub ce)) others ->
  let start := map (fun v => let '(TKc, TCc, csig, ce, cbuf, w, tkc, p, q) := v in
                      Link (Sys (client_uses L TKc TCc (cs_init csig (Some ce) cbuf w tkc) p) q [] []) false false false) others in
  path (one_by_one always_closes es broken) n (Link (Sys (Read k0) (Read kq) [] []) false false false :: start) ls ->
  exists rest, ls = Link (Sys (Read k0) (Read kq) [] []) false false false :: rest /\
    Forall2 (fun d d' => lk_sv d' = false /\ lk_cl d' = false /\ s_right (lk_sys d') = s_right (lk_sys d) /\ s_rl (lk_sys d') = [] /\
                         forall x, s_left (lk_sys d') <> Ret x) start rest /\ (n <= length others)%nat.
Proof.
  intros L sp ep A B es broken k0 kq others n ls HL HO start HP.
  set (fresh := fun (d : link (cs * option ac * res A) B) => exists m l kw k q, d = Link (Sys (Write [m] l kw) q [] []) false false false /\ kw (Ok tt) = Read k).
  set (sent := fun d d' : link (cs * option ac * res A) B => exists m l kw k q, d = Link (Sys (Write [m] l kw) q [] []) false false false /\ kw (Ok tt) = Read k /\
                 d' = Link (Sys (Read k) q [m] []) false false false).
  assert (FR : Forall fresh start).
  { unfold start. clear - HL HO. induction HO as [|[[[[[[[[TKc TCc] csig] ce] cbuf] w] tkc] p] q] others HE HO IH]; [constructor|]. constructor; [|exact IH].
    destruct (client_first L sp ep TKc TCc csig ce cbuf w tkc A p HL HE) as (m & l & kw & k & E1 & E2). rewrite E1. exists m, l, kw, k, q. auto. }
  assert (INV : forall m l1 l2, path (one_by_one always_closes es broken) m l1 l2 -> forall j rest,
            l1 = Link (Sys (Read k0) (Read kq) [] []) false false false :: rest ->
            (exists b, length b = length start /\ j = length (filter (fun x => x) b) /\
               Forall2 (fun db d' => let '(d, b) := db in if b : bool then sent d d' else fresh d /\ d' = d) (combine start b) rest) ->
            exists rest', l2 = Link (Sys (Read k0) (Read kq) [] []) false false false :: rest' /\
            (exists b, length b = length start /\ (j + m)%nat = length (filter (fun x => x) b) /\
               Forall2 (fun db d' => let '(d, b) := db in if b : bool then sent d d' else fresh d /\ d' = d) (combine start b) rest')).
  { clear HP. intros m l1 l2 HP. induction HP as [l|m l1 l2 l3 HS HP IH]; intros j rest -> HB.
    - exists rest. split; [reflexivity|]. rewrite Nat.add_0_r. exact HB.
    - replace (j + S m)%nat with (S j + m)%nat by lia.
      assert (Y : exists rest1, l2 = Link (Sys (Read k0) (Read kq) [] []) false false false :: rest1 /\
            exists b, length b = length start /\ S j = length (filter (fun x => x) b) /\
               Forall2 (fun db d' => let '(d, b) := db in if b : bool then sent d d' else fresh d /\ d' = d) (combine start b) rest1).
      2:{ destruct Y as (rest1 & E & Y). exact (IH _ _ E Y). }
      inversion HS as [pre c c' post HC E1 E2|pre c c' post HF HC E1 E2]; destruct pre as [|c0 pre]; cbn [app] in *; injection E1; intros; subst.
      + inversion HC; subst; discriminate.
      + eexists. split; [reflexivity|]. destruct HB as (b & B1 & B2 & B3).
        clear - B1 B2 B3 HC. revert b j pre B1 B2 B3. generalize start as st.
        induction st as [|d st IHs]; intros b j pre B1 B2 B3; destruct b as [|x b]; try discriminate; cbn [combine] in B3.
        * exfalso. inversion B3. destruct pre; discriminate.
        * injection B1 as B1. inversion B3 as [|? d1 ? r1 D1 D2 E1 E2]; subst. destruct pre as [|c0 pre]; cbn [app] in E2; injection E2; intros; subst.
          -- destruct x.
             ++ exfalso. destruct D1 as (m & l & kw & k & q & E3 & E4 & E5). rewrite E5 in HC. inversion HC.
             ++ destruct D1 as [(m & l & kw & k & q & E3 & E4) E5]. subst d. exists (true :: b). cbn [length filter combine]. split; [lia|]. split; [reflexivity|].
                constructor; [|exact D2]. rewrite E5 in HC. inversion HC; subst. exists m, l, kw, k, q. split; [reflexivity|]. split; [exact E4|].
                rewrite E4. reflexivity.
          -- destruct (IHs b (length (filter (fun x => x) b)) pre B1 eq_refl D2) as (b' & C1 & C2 & C3).
             exists (x :: b'). cbn [length filter combine app]. split; [lia|]. split; [destruct x; cbn [length]; lia|]. constructor; [exact D1|exact C3].
      + inversion HC; subst; discriminate.
      + exfalso. inversion HF; subst. discriminate. }
  destruct (INV _ _ _ HP 0%nat start eq_refl) as (rest & -> & b & B1 & B2 & B3).
  { exists (repeat false (length start)). split; [apply repeat_length|]. split; [symmetry; generalize (length start) as z; induction z as [|z IHz]; [reflexivity|exact IHz]|].
    clear - FR. induction FR as [|d st F1 F2 IH]; [constructor|]. cbn. constructor; [auto|exact IH]. }
  exists rest. split; [reflexivity|]. split.
  - clear - B1 B3 start. revert b B1 rest B3. generalize start as st. clear start. induction st as [|d st IH]; intros [|x b] B1 rest B3; try discriminate; cbn [combine] in B3; inversion B3 as [|? d1 ? r1 D1 D2]; subst; constructor.
    + destruct x.
      * destruct D1 as (m & l & kw & k & q & -> & E4 & ->). cbn. repeat split; intros; discriminate.
      * destruct D1 as [(m & l & kw & k & q & -> & E4) ->]. cbn. repeat split; intros; discriminate.
    + eapply IH; [|exact D2]. injection B1 as B1. exact B1.
  - cbn [Nat.add] in B2. rewrite B2. unfold start in B1. rewrite map_length in B1. rewrite <- B1. clear. induction b as [|[] b IH]; cbn; lia.
Qed.
Print Assumptions C122_one_by_one_refuted.

(** *** The example programs with any number of clients *)

(** A client of the server, and what the server's session for it is configured with (every
    session has its own key pair and its own time keeper). *)
Record visitor : Type := Visitor {
  v_keeper : tkeeper; v_checker : tchecker; v_sig : keypair; v_enc : keypair; v_buf : bool; v_wanted : bytes; v_tk : Z;
  v_request : bytes; v_request21 : bytes; v_request22 : bytes;
  v_skeeper : tkeeper; v_schecker : tchecker; v_senc : keypair; v_sbuf : bool; v_stk : Z
}.
Definition visitor_ok (L : lib) (sp ep : bytes -> bytes -> Prop) (ssig : keypair) (v : visitor) : Prop :=
  peers_ok L sp ep (v_keeper v) (v_skeeper v) (v_checker v) (v_schecker v) (v_sig v) ssig (v_enc v) (v_senc v) (v_sbuf v) (v_tk v) (v_stk v) /\
  half (v_request v) /\ half (v_request21 v) /\ half (v_request22 v).

Section Visits.
  Variables (L : lib) (ssig : keypair) (a2 : option pkt).
  Definition v_client {A} (v : visitor) (p : lio A) := client_uses L (v_keeper v) (v_checker v) (cs_init (v_sig v) (Some (v_enc v)) (v_buf v) (v_wanted v) (v_tk v)) p.
  Definition v_start (v : visitor) : ss := ss_init ssig (Some (v_senc v)) (v_sbuf v) a2 (v_stk v).
  Definition new_link {A B} (p : io A) (q : io B) : link A B := Link (Sys p q [] []) false false false.
  (** The connections of example_session1 and example_session3 over sockets, and over asyncio *)
  Definition visit1 (n : nat) (v : visitor) := new_link (v_client v (example1_client (v_request v)))
    (example_loop L (v_skeeper v) (v_schecker v) (fun _ => v_start v) example1_server (S n) 0).
  Definition visit3 (n : nat) (v : visitor) := new_link (v_client v (example3_client (v_request v) (v_request21 v) (v_request22 v)))
    (example_loop L (v_skeeper v) (v_schecker v) (fun _ => v_start v) example3_server (S (S n)) 0).
  Definition visit1_a (v : visitor) := new_link (v_client v (example1_client (v_request v)))
    (example_server_a L (v_skeeper v) (v_schecker v) (v_start v) example1_server).
  Definition visit3_a (v : visitor) := new_link (v_client v (example3_client (v_request v) (v_request21 v) (v_request22 v)))
    (example_server_a L (v_skeeper v) (v_schecker v) (v_start v) example3_server).
End Visits.

(** The client has got [x], the server's session has returned [y], both ends are closed and
    nothing was lost. *)
Definition served {A B} (x : A) (y : B) (F : link (cs * option ac * res (res A)) B) : Prop :=
  exists sC aC, F = Link (Sys (Ret (sC, Some aC, Ok (Ok x))) (Ret y) [] []) true true false.

Lemma half_bulk : forall m, half m -> Z.of_nat (length m) + 24 < 2 ^ 31.
Proof. intros m H. unfold half in H. lia. Qed.

Lemma uses1 : forall L sp ep ssig a2 v, visitor_ok L sp ep ssig v -> exists n sC aC sS aS,
  steps n (Sys (v_client L v (example1_client (v_request v))) (server_uses L (v_skeeper v) (v_schecker v) (v_start ssig a2 v) example1_server) [] [])
    (Sys (Ret (sC, Some aC, Ok (Ok (v_request v)))) (Ret (sS, Some aS, Ok (Ok true))) [] []).
Proof.
  intros L sp ep ssig a2 v (HP & H1 & _).
  destruct (C103_flag_pipe (fun m => bulk [m]) L sp ep _ _ _ _ _ _ _ _ (v_buf v) _ (v_wanted v) a2 _ _ _ _
    (example1_client (v_request v)) example1_server _ 1 1 HP (example1_client_modest _ (half_bulk _ H1)) example1_server_modest ltac:(lia) ltac:(lia)
    ltac:(intros _; unfold example1_client; eauto) (example1_ends _)) as ([p q a b] & E1 & E2 & E3 & E4 & E5).
  cbn [l_left l_right l_lr l_rl s_left s_right s_lr s_rl lsame_end] in *. rewrite (E4 eq_refl), (E5 eq_refl) in E1. clear E4 E5 a b.
  destruct E2 as (sC & aC & ->). destruct E3 as (sS & aS & ->).
  destruct (always_ends_steps _ _ _ _ E1) as [(k & HS) _]. exists k, sC, aC, sS, aS. exact HS.
Qed.
Lemma uses3 : forall L sp ep ssig a2 v, visitor_ok L sp ep ssig v -> exists n sC aC sS aS,
  steps n (Sys (v_client L v (example3_client (v_request v) (v_request21 v) (v_request22 v)))
               (server_uses L (v_skeeper v) (v_schecker v) (v_start ssig a2 v) example3_server) [] [])
    (Sys (Ret (sC, Some aC, Ok (Ok [v_request v; v_request21 v; v_request22 v]))) (Ret (sS, Some aS, Ok (Ok false))) [] []).
Proof.
  intros L sp ep ssig a2 v (HP & H1 & H2 & H3). destruct (example3_ends (v_request v) (v_request21 v) (v_request22 v)) as (f & HE).
  destruct (C103_flag_pipe half L sp ep _ _ _ _ _ _ _ _ (v_buf v) _ (v_wanted v) a2 _ _ _ _
    (example3_client (v_request v) (v_request21 v) (v_request22 v)) example3_server _ 3 3 HP (example3_client_modest _ _ _ H1 H2 H3) example3_server_modest
    ltac:(lia) ltac:(lia) ltac:(intros _; unfold example3_client; eauto) HE) as ([p q a b] & E1 & E2 & E3 & E4 & E5).
  cbn [l_left l_right l_lr l_rl s_left s_right s_lr s_rl lsame_end] in *. rewrite (E4 eq_refl), (E5 eq_refl) in E1. clear E4 E5 a b.
  destruct E2 as (sC & aC & ->). destruct E3 as (sS & aS & ->).
  destruct (always_ends_steps _ _ _ _ E1) as [(k & HS) _]. exists k, sC, aC, sS, aS. exact HS.
Qed.

Lemma ends_both : forall A B ec es (broken : exn -> Prop) e0 (s : sys A B) n x y, broken e0 -> steps n s (Sys (Ret x) (Ret y) [] []) -> ec x = true -> es y = true ->
  always (lk_step ec es broken) (Link s false false false) (Link (Sys (Ret x) (Ret y) [] []) true true false).
Proof.
  intros A B ec es broken e0 s n x y H0 HS Ex Ey. destruct (always_ends_intro _ _ _ _ _ _ _ _ HS) as (m & HE).
  rewrite <- Ex at 1. rewrite <- Ey. eapply (link_always ec es broken e0 s m (Ret x) (Ret y)); auto; try (left; reflexivity); try discriminate.
Qed.

Lemma visit1_ends : forall L sp ep ssig a2 n v, visitor_ok L sp ep ssig v ->
  exists F, always (lk_step always_closes socket_closes socket_broken) (visit1 L ssig a2 n v) F /\ served (v_request v) (Some (Ok tt)) F.
Proof.
  intros L sp ep ssig a2 n v HV. destruct (uses1 L sp ep ssig a2 v HV) as (k & sC & aC & sS & aS & HS).
  eexists. split; [|exists sC, aC; reflexivity]. unfold visit1, new_link. eapply ends_both with (e0 := ComException); try reflexivity.
  rewrite loop_turn. match goal with |- context [iobind _ ?g] => exact (steps_bind_right _ _ _ g _ _ _ HS) end.
Qed.
Lemma visit1_a_ends : forall L sp ep ssig a2 err v, visitor_ok L sp ep ssig v ->
  exists F, always (lk_step task_closes_c task_closes (task_broken err)) (visit1_a L ssig a2 v) F /\ served (v_request v) (Ok tt) F.
Proof.
  intros L sp ep ssig a2 err v HV. destruct (uses1 L sp ep ssig a2 v HV) as (k & sC & aC & sS & aS & HS).
  eexists. split; [|exists sC, aC; reflexivity]. unfold visit1_a, new_link. eapply ends_both with (e0 := err); try reflexivity.
  unfold example_server_a. match goal with |- context [iobind _ ?g] => exact (steps_bind_right _ _ _ g _ _ _ HS) end.
Qed.
Lemma visit3_a_ends : forall L sp ep ssig a2 err v, visitor_ok L sp ep ssig v ->
  exists F, always (lk_step task_closes_c task_closes (task_broken err)) (visit3_a L ssig a2 v) F /\ served [v_request v; v_request21 v; v_request22 v] (Ok tt) F.
Proof.
  intros L sp ep ssig a2 err v HV. destruct (uses3 L sp ep ssig a2 v HV) as (k & sC & aC & sS & aS & HS).
  eexists. split; [|exists sC, aC; reflexivity]. unfold visit3_a, new_link. eapply ends_both with (e0 := err); try reflexivity.
  unfold example_server_a. match goal with |- context [iobind _ ?g] => exact (steps_bind_right _ _ _ g _ _ _ HS) end.
Qed.
Lemma visit3_ends : forall L sp ep ssig a2 n v, visitor_ok L sp ep ssig v ->
  exists F, always (lk_step always_closes socket_closes socket_broken) (visit3 L ssig a2 n v) F /\ served [v_request v; v_request21 v; v_request22 v] (Some (Ok tt)) F.
Proof.
  intros L sp ep ssig a2 n v (HP & H1 & H2 & H3).
  destruct (C104_example3 L sp ep _ _ _ _ _ _ _ _ (v_buf v) _ (v_wanted v) a2 _ (fun _ => v_stk v) n (v_request v) (v_request21 v) (v_request22 v) HP H1 H2 H3)
    as (sC & aC & k & (m & HE) & HK).
  eexists. split; [|exists sC, aC; reflexivity].
  eapply (link_always always_closes socket_closes socket_broken ComException _ m (Ret _) (Read k) _ (Some (Ok tt))); try reflexivity;
    [exact HE|left; reflexivity|]. right. exists k. split; [reflexivity|]. intros e ->. apply HK. reflexivity.
Qed.

Lemma collect : forall A B V (R : link A B -> link A B -> Prop) (f : V -> link A B) (Q : V -> Prop) (P : V -> link A B -> Prop) vs,
  (forall v, Q v -> exists F, always R (f v) F /\ P v F) -> Forall Q vs ->
  exists Fs, Forall2 (always R) (map f vs) Fs /\ Forall2 P vs Fs.
Proof.
  intros A B V R f Q P vs H HV. induction HV as [|v vs H1 H2 (Fs & IH1 & IH2)]; [exists []; split; constructor|].
  destruct (H v H1) as (F & F1 & F2). exists (F :: Fs). split; constructor; assumption.
Qed.

(** Any number of honest clients, with any keys, clocks, settings and requests, at the same
    time: with both examples and both servers every schedule ends with every client served. *)
Theorem C122_examples : forall L sp ep ssig a2 vs n err, Forall (visitor_ok L sp ep ssig) vs ->
  (exists Fs, always (one_by_one always_closes socket_closes socket_broken) (map (visit1 L ssig a2 n) vs) Fs /\
     Forall2 (fun v => served (v_request v) (Some (Ok tt))) vs Fs) /\
  (exists Fs, always (one_by_one always_closes socket_closes socket_broken) (map (visit3 L ssig a2 n) vs) Fs /\
     Forall2 (fun v => served [v_request v; v_request21 v; v_request22 v] (Some (Ok tt))) vs Fs) /\
  (exists Fs, always (by_tasks task_closes_c task_closes (task_broken err)) (map (visit1_a L ssig a2) vs) Fs /\
     Forall2 (fun v => served (v_request v) (Ok tt)) vs Fs) /\
  (exists Fs, always (by_tasks task_closes_c task_closes (task_broken err)) (map (visit3_a L ssig a2) vs) Fs /\
     Forall2 (fun v => served [v_request v; v_request21 v; v_request22 v] (Ok tt)) vs Fs).
Proof.
  intros L sp ep ssig a2 vs n err HV.
  assert (SV : forall A B V (g : V -> A) (y : B) ws Fs, Forall2 (fun v : V => served (g v) y) ws Fs -> Forall (fun F => lk_sv F = true) Fs).
  { intros A B V g y ws Fs H. induction H as [|v F ws Fs (sC & aC & ->) _ IH]; constructor; [reflexivity|exact IH]. }
  split; [|split; [|split]].
  - destruct (collect _ _ _ _ _ _ _ vs (visit1_ends L sp ep ssig a2 n) HV) as (Fs & H1 & H2). exists Fs. split; [|exact H2].
    apply many_one_by_one; [exact H1|]. exact (SV _ _ _ _ _ _ _ H2).
  - destruct (collect _ _ _ _ _ _ _ vs (visit3_ends L sp ep ssig a2 n) HV) as (Fs & H1 & H2). exists Fs. split; [|exact H2].
    apply many_one_by_one; [exact H1|]. exact (SV _ _ _ _ _ _ _ H2).
  - destruct (collect _ _ _ _ _ _ _ vs (visit1_a_ends L sp ep ssig a2 err) HV) as (Fs & H1 & H2). exists Fs. split; [|exact H2].
    apply many_by_tasks. exact H1.
  - destruct (collect _ _ _ _ _ _ _ vs (visit3_a_ends L sp ep ssig a2 err) HV) as (Fs & H1 & H2). exists Fs. split; [|exact H2].
    apply many_by_tasks. exact H1.
Qed.
Print Assumptions C122_examples.

(** Three clients of the toy library *)
Definition ex_visitor (cb sb : bool) (m : bytes) : visitor :=
  Visitor one_two_three null_checker ex_csig ex_cenc cb [] 0 m [x07] [] null_keeper null_checker ex_senc sb 0.
Example C122_case : forall cb sb a b c, (length a < 1000)%nat -> (length b < 1000)%nat -> (length c < 1000)%nat ->
  Forall (visitor_ok toy_lib toy_pair toy_pair ex_ssig) [ex_visitor cb sb a; ex_visitor sb cb b; ex_visitor cb cb c].
Proof.
  intros cb sb a b c Ha Hb Hc.
  assert (V : forall cb sb m, (length m < 1000)%nat -> visitor_ok toy_lib toy_pair toy_pair ex_ssig (ex_visitor cb sb m)).
  { intros b1 b2 m Hm. split; [|change (half m /\ half [x07] /\ half []); unfold half; repeat split; lia].
    cbn. constructor; try exact toy_laws; try (split; reflexivity); try (destruct b2; reflexivity); intro x; reflexivity. }
  constructor; [apply V; assumption|constructor; [apply V; assumption|constructor; [apply V; assumption|constructor]]].
Qed.

(** A silent first connection and one client behind it: M1 is sent, and that is all. *)
Example C122_silent_case : forall cb sb m, let v := ex_visitor cb sb m in
  let silent := new_link (Read (fun r => Ret (cs_init ex_csig None false [] 0, None, r))) (Read (fun r : res bytes => Ret (Some (Ok tt : res unit)))) in
  exists d, path (one_by_one always_closes socket_closes socket_broken) 1
    [silent; new_link (v_client toy_lib v (LRet m)) (example_loop toy_lib null_keeper null_checker (fun _ => v_start ex_ssig None v) example1_server 1 0)]
    [silent; d] /\ s_lr (lk_sys d) <> [] /\ forall ls, ~ one_by_one always_closes socket_closes socket_broken [silent; d] ls.
Proof.
  intros cb sb m v silent.
  destruct (client_first toy_lib _ _ one_two_three null_checker ex_csig ex_cenc cb [] 0 _ (LRet m) toy_laws ltac:(split; reflexivity)) as (x & l & kw & k & E1 & E2).
  change (v_client toy_lib v (LRet m)) with (client_uses toy_lib one_two_three null_checker (cs_init ex_csig (Some ex_cenc) cb [] 0) (LRet m)). rewrite E1.
  eexists. split; [econstructor; [apply (ob_client _ _ _ [silent]); apply cl_write|constructor]|]. rewrite E2. split; [discriminate|].
  intros ls H. inversion H as [pre c c' post HC EA EB|pre c c' post HF HC EA EB]; destruct pre as [|c0 [|c1 [|c2 pre]]]; cbn [app] in *; injection EA; intros; subst; try discriminate.
  - inversion HC; subst; discriminate.
  - inversion HC; subst; discriminate.
  - inversion HC; subst; discriminate.
  - inversion HF; subst; discriminate.
Qed.
