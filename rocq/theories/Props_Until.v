(** C51: reading until [last] is True (saltchannel/v2/app_channel_v2.py:21-64). *)
From Coq Require Import List ZArith Bool Strings.Byte Lia ZifyBool ZifyNat ZifyN.
From Verif Require Import PyBase IO Packets Crypto Time EncChannel AppChannel AppUse EncUse Session SessUse Stack StackUse Stack_fit Stack_proofs Pipe_proofs Spec Flags Flags_proofs
  Props_App Props_Session Props_Session2 Props_Stack Props_Pipe Props_Flags.
Import ListNotations.
Open Scope Z_scope.

(** Writing batches, the last of them with [is_last=True] *)
Fixpoint write_all (bs : list (list bytes)) (final : list bytes) : lio unit :=
  match bs with
  | [] => LWrite final true (fun _ => LRet tt)
  | b :: bs => LWrite b false (fun _ => write_all bs final)
  end.

(** Reading until [last] is True, or until the channel raises, or [n] messages at most *)
Fixpoint read_until (n : nat) (acc : list bytes) : lio (list bytes) :=
  match n with
  | O => LRet acc
  | S n => LRead (fun r => match r with
      | Ok m => LLast (fun l => if l then LRet (acc ++ [m]) else read_until n (acc ++ [m]))
      | Err _ => LRet acc
      end)
  end.

(** ** Proofs *)
Lemma lsteps_trans : forall A B n (s t u : lsys A B) m, lsteps n s t -> lsteps m t u -> lsteps (n + m) s u.
Proof. intros A B n s t u m H. induction H as [s|n s t v H1 H2 IH]; intro HM; [exact HM|]. cbn [Nat.add]. econstructor; [exact H1|auto]. Qed.

Lemma writes_all : forall B bs final f (q : lio B) g a b,
  lsteps (S (length bs)) (LSys (write_all bs final) f q g a b) (LSys (LRet tt) f q g (a ++ concat (map (flagged false) bs) ++ flagged true final) b).
Proof.
  intros B bs final f q g. induction bs as [|x bs IH]; intros a b; cbn [write_all map concat length app].
  - econstructor; [apply ls_lw|]. constructor.
  - econstructor; [apply ls_lw|]. replace (a ++ (flagged false x ++ concat (map (flagged false) bs)) ++ flagged true final)
      with ((a ++ flagged false x) ++ concat (map (flagged false) bs) ++ flagged true final) by (rewrite <- !app_assoc; reflexivity). apply IH.
Qed.

Lemma reads_until : forall A (p : lio A) f pre m rest n acc g b,
  Forall (fun x => snd x = false) pre -> (length pre < n)%nat ->
  exists k, lsteps k (LSys p f (read_until n acc) g (pre ++ (m, true) :: rest) b) (LSys p f (LRet (acc ++ map fst pre ++ [m])) true rest b).
Proof.
  intros A p f pre. induction pre as [|[x h] pre IH]; intros m rest n acc g b HF Hn; (destruct n as [|n]; [cbn in Hn; lia|]); cbn [read_until map app].
  - exists 2%nat. econstructor; [apply ls_rr|]. econstructor; [apply ls_rl|]. constructor.
  - inversion HF as [|? ? H1 H2]; subst. cbn in H1. subst h. destruct (IH m rest n (acc ++ [x]) false b H2) as (k & HK); [cbn in Hn; lia|].
    exists (S (S k)). econstructor; [apply ls_rr|]. econstructor; [apply ls_rl|]. cbn [fst]. rewrite <- app_assoc in HK. exact HK.
Qed.

Lemma mark_shape : forall l ms m, mark l (ms ++ [m]) = map (fun x => (x, false)) ms ++ [(m, l)].
Proof.
  intros l ms m. induction ms as [|x ms IH]; [reflexivity|]. cbn [app map]. destruct (ms ++ [m]) as [|y r] eqn:E; [destruct ms; discriminate|].
  cbn [mark]. rewrite <- IH. reflexivity.
Qed.

Lemma flagged_false : forall ms, flagged false ms = map (fun x => (x, false)) ms.
Proof.
  intro ms. unfold flagged. destruct (_ && _); [reflexivity|]. destruct ms as [|x ms]; [reflexivity|].
  destruct (@exists_last _ (x :: ms)) as (r & z & ->); [discriminate|]. rewrite mark_shape, map_app. reflexivity.
Qed.

Lemma before_final : forall bs, Forall (fun x => snd x = false) (concat (map (flagged false) bs)) /\
  map fst (concat (map (flagged false) bs)) = concat bs /\ length (concat (map (flagged false) bs)) = length (concat bs).
Proof.
  induction bs as [|b bs (I1 & I2 & I3)]; [repeat split; constructor|]. cbn [map concat]. rewrite flagged_false. split; [|split].
  - apply Forall_app. split; [|exact I1]. apply Forall_forall. intros x Hx. apply in_map_iff in Hx as (y & <- & _). reflexivity.
  - rewrite map_app, map_map, I2. cbn [fst]. rewrite map_id. reflexivity.
  - rewrite !app_length, map_length, I3. reflexivity.
Qed.

Lemma writer_modest : forall bs final, Forall (fun b => b <> [] /\ fits b /\ bulk b) (bs ++ [final]) ->
  lmodest (fun _ => True) (length (concat bs) + (length final + 0)) (write_all bs final).
Proof.
  assert (T : forall l : list bytes, Forall (fun _ => True) l) by (intro l; apply Forall_forall; trivial).
  induction bs as [|b bs IH]; intros final H; inversion H as [|? ? (H1 & H2 & H3) H4]; subst; cbn [write_all concat].
  - destruct final as [|m args]; [congruence|]. cbn [length Nat.add]. apply (lm_write (fun _ => True) 0 m args); auto. constructor.
  - destruct b as [|m args]; [congruence|]. rewrite app_length, <- Nat.add_assoc. apply lm_write; auto.
Qed.

Lemma reader_modest : forall n k acc, lmodest (fun _ => True) k (read_until n acc).
Proof.
  induction n as [|n IH]; intros k acc; cbn [read_until]; constructor. intros [m|e] _; constructor. intros [|]; [constructor|apply IH].
Qed.

Lemma writer_modest_bulk : forall bs final, Forall (fun b => b <> [] /\ fits b /\ bulk b) (bs ++ [final]) ->
  lmodest (fun m => bulk [m]) (length (concat bs) + (length final + 0)) (write_all bs final).
Proof.
  induction bs as [|b bs IH]; intros final H; inversion H as [|? ? (H1 & H2 & H3) H4]; subst; cbn [write_all concat].
  - pose proof (bulk_each _ H3). destruct final as [|m args]; [congruence|]. cbn [length Nat.add]. apply (lm_write (fun m => bulk [m]) 0 m args); auto. constructor.
  - pose proof (bulk_each _ H3). destruct b as [|m args]; [congruence|]. rewrite app_length, <- Nat.add_assoc. apply lm_write; auto.
Qed.

Lemma reader_modest_any : forall n k acc, lmodest (fun m => bulk [m]) k (read_until n acc).
Proof.
  induction n as [|n IH]; intros k acc; cbn [read_until]; constructor. intros [m|e] _; constructor. intros [|]; [constructor|apply IH].
Qed.

(** Where the reader stops: at the first message with the flag. *)
Lemma until_from : forall L sp ep TKc TKs TCc TCs csig ssig ce se cbuf sbuf w a2 tkc tks bs final n mid m rest,
  peers_ok L sp ep TKc TKs TCc TCs csig ssig ce se sbuf tkc tks ->
  Forall (fun b => b <> [] /\ fits b /\ bulk b) (bs ++ [final]) -> Z.of_nat (length (concat bs ++ final)) < 2 ^ 62 ->
  (length (concat bs ++ final) <= n)%nat ->
  flagged true final = map (fun x => (x, false)) mid ++ (m, true) :: rest -> (length mid < length final)%nat ->
  exists sC aC sS aS F,
    always_ends (Sys (client_uses L TKc TCc (cs_init csig (Some ce) cbuf w tkc) (write_all bs final))
                     (server_uses L TKs TCs (ss_init ssig (Some se) sbuf a2 tks) (read_until n [])) [] []) F /\
    s_left F = Ret (sC, Some aC, Ok tt) /\ s_right F = Ret (sS, Some aS, Ok (concat bs ++ mid ++ [m])) /\ (rest = [] -> s_lr F = []).
Proof.
  intros L sp ep TKc TKs TCc TCs csig ssig ce se cbuf sbuf w a2 tkc tks bs final n mid m rest HP HB HZ Hn HF Hm.
  destruct (before_final bs) as (B1 & B2 & B3). rewrite app_length in HZ, Hn.
  set (pre := concat (map (flagged false) bs) ++ map (fun x => (x, false)) mid).
  destruct (reads_until unit (LRet tt) false pre m rest n [] false []) as (k & HK).
  { unfold pre. apply Forall_app. split; [exact B1|]. apply Forall_forall. intros x Hx. apply in_map_iff in Hx as (y & <- & _). reflexivity. }
  { unfold pre. rewrite app_length, map_length. unfold bytes in *. lia. }
  assert (EM : map fst pre = concat bs ++ mid).
  { unfold pre. rewrite map_app, map_map, B2. cbn [fst]. rewrite map_id. reflexivity. }
  destruct (C103_flag_pipe (fun _ => True) L sp ep TKc TKs TCc TCs csig ssig ce se cbuf sbuf w a2 tkc tks _ _ (write_all bs final) (read_until n [])
     (LSys (LRet tt) false (LRet (concat bs ++ mid ++ [m])) true rest []) (length (concat bs) + (length final + 0)) 0 HP)
    as (F & F1 & (sC & aC & F2) & (sS & aS & F3) & F4 & F5).
  - apply writer_modest. exact HB.
  - apply reader_modest.
  - lia.
  - reflexivity.
  - intros _. destruct bs as [|b bs]; cbn [write_all]; eauto.
  - split; [|intros t Ht; inversion Ht]. eexists. eapply lsteps_trans; [apply writes_all|]. cbn [app]. rewrite HF.
    rewrite app_assoc. fold pre. cbn [app] in HK. rewrite EM, <- app_assoc in HK. exact HK.
  - exists sC, aC, sS, aS, F. cbn [l_lr] in F4. auto.
Qed.

(** ** C51: a client writes any batches and a last one with [is_last=True]; the server reads
    until [last] is True.  It gets every message in order and stops exactly after the last one,
    for every schedule and both buffering options, when the last batch is one message, or has a
    message above 65535 bytes (and so does not travel in one MultiAppPacket). *)
Theorem C51_until_last_partial : forall L sp ep TKc TKs TCc TCs csig ssig ce se cbuf sbuf w a2 tkc tks bs final n,
  peers_ok L sp ep TKc TKs TCc TCs csig ssig ce se sbuf tkc tks ->
  Forall (fun b => b <> [] /\ fits b /\ bulk b) (bs ++ [final]) -> Z.of_nat (length (concat bs ++ final)) < 2 ^ 62 ->
  (length (concat bs ++ final) <= n)%nat ->
  length final = 1%nat \/ (exists m, In m final /\ 65535 < Z.of_nat (length m)) ->
  exists sC aC sS aS F,
    always_ends (Sys (client_uses L TKc TCc (cs_init csig (Some ce) cbuf w tkc) (write_all bs final))
                     (server_uses L TKs TCs (ss_init ssig (Some se) sbuf a2 tks) (read_until n [])) [] []) F /\
    s_left F = Ret (sC, Some aC, Ok tt) /\ s_right F = Ret (sS, Some aS, Ok (concat bs ++ final)) /\ s_lr F = [].
Proof.
  intros L sp ep TKc TKs TCc TCs csig ssig ce se cbuf sbuf w a2 tkc tks bs final n HP HB HZ Hn HS.
  assert (NE : final <> []) by (apply Forall_app in HB as [_ HB]; inversion HB; tauto).
  assert (EF : flagged true final = mark true final).
  { unfold flagged. destruct (_ && _) eqn:E; [|reflexivity]. apply andb_true_iff in E as [E1 E2]. destruct HS as [HS|(m & I & HS)].
    - unfold bytes in *. lia.
    - rewrite forallb_forall in E2. specialize (E2 _ I). unfold short in E2. lia. }
  destruct (exists_last NE) as (mid & m & E). 
  assert (EQ : flagged true final = map (fun x => (x, false)) mid ++ (m, true) :: []) by (rewrite EF, E; apply mark_shape).
  destruct (until_from L sp ep TKc TKs TCc TCs csig ssig ce se cbuf sbuf w a2 tkc tks bs final n mid m [] HP HB HZ Hn EQ)
    as (sC & aC & sS & aS & F & F1 & F2 & F3 & F4).
  { rewrite E, app_length. cbn. lia. }
  exists sC, aC, sS, aS, F. rewrite <- E in F3. auto.
Qed.

(** If the last batch has two messages or more, all short, the reader stops after the first of
    them and never gets the others. *)
Theorem C51_until_last_refuted : forall L sp ep TKc TKs TCc TCs csig ssig ce se cbuf sbuf w a2 tkc tks bs m1 m2 ms n,
  peers_ok L sp ep TKc TKs TCc TCs csig ssig ce se sbuf tkc tks ->
  Forall (fun b => b <> [] /\ fits b /\ bulk b) (bs ++ [m1 :: m2 :: ms]) -> Z.of_nat (length (concat bs ++ m1 :: m2 :: ms)) < 2 ^ 62 ->
  (length (concat bs ++ m1 :: m2 :: ms) <= n)%nat ->
  Forall (fun m => Z.of_nat (length m) <= 65535) (m1 :: m2 :: ms) ->
  exists sC aC sS aS F,
    always_ends (Sys (client_uses L TKc TCc (cs_init csig (Some ce) cbuf w tkc) (write_all bs (m1 :: m2 :: ms)))
                     (server_uses L TKs TCs (ss_init ssig (Some se) sbuf a2 tks) (read_until n [])) [] []) F /\
    s_left F = Ret (sC, Some aC, Ok tt) /\ s_right F = Ret (sS, Some aS, Ok (concat bs ++ [m1])).
Proof.
  intros L sp ep TKc TKs TCc TCs csig ssig ce se cbuf sbuf w a2 tkc tks bs m1 m2 ms n HP HB HZ Hn HS.
  assert (EQ : flagged true (m1 :: m2 :: ms) = map (fun x => (x, false)) [] ++ (m1, true) :: map (fun x => (x, true)) (m2 :: ms)).
  { unfold flagged. replace (1 <? Z.of_nat (length (m1 :: m2 :: ms))) with true by (cbn [length]; lia).
    replace (forallb short (m1 :: m2 :: ms)) with true; [reflexivity|]. symmetry. apply forallb_forall. intros x Hx.
    rewrite Forall_forall in HS. specialize (HS _ Hx). unfold short. lia. }
  destruct (until_from L sp ep TKc TKs TCc TCs csig ssig ce se cbuf sbuf w a2 tkc tks bs _ n [] m1 _ HP HB HZ Hn EQ)
    as (sC & aC & sS & aS & F & F1 & F2 & F3 & F4); [cbn; lia|].
  exists sC, aC, sS, aS, F. auto.
Qed.

(** The same over sockets and asyncio streams, cut and scheduled in any way. *)
Theorem C51_until_last_streams_partial : forall TL TR L sp ep TKc TKs TCc TCs csig ssig ce se cbuf sbuf w a2 tkc tks bs final n,
  byte_channel TL -> byte_channel TR ->
  peers_ok L sp ep TKc TKs TCc TCs csig ssig ce se sbuf tkc tks -> nacl_fail_laws L -> a2_fits a2 ->
  Forall (fun b => b <> [] /\ fits b /\ bulk b) (bs ++ [final]) -> Z.of_nat (length (concat bs ++ final)) < 2 ^ 62 ->
  (length (concat bs ++ final) <= n)%nat ->
  length final = 1%nat \/ (exists m, In m final /\ 65535 < Z.of_nat (length m)) ->
  inevitable (cstep TL TR)
    (fun c => (exists sC aC, c_left c = Ret (sC, Some aC, Ok tt)) /\ (exists sS aS, c_right c = Ret (sS, Some aS, Ok (concat bs ++ final))) /\ c_rbuf c = [] /\ c_lr c = [])
    (Conn (client_uses L TKc TCc (cs_init csig (Some ce) cbuf w tkc) (write_all bs final)) []
          (server_uses L TKs TCs (ss_init ssig (Some se) sbuf a2 tks) (read_until n [])) [] [] []).
Proof.
  intros TL TR L sp ep TKc TKs TCc TCs csig ssig ce se cbuf sbuf w a2 tkc tks bs final n HTL HTR HP HX HA HB HZ Hn HS.
  pose proof (po_laws _ _ _ _ _ _ _ _ _ _ _ _ _ _ HP) as LAWS.
  destruct (C51_until_last_partial L sp ep TKc TKs TCc TCs csig ssig ce se cbuf sbuf w a2 tkc tks bs final n HP HB HZ Hn HS)
    as (sC & aC & sS & aS & F & E1 & E2 & E3 & E4).
  eapply inevitable_weaken; [|eapply C63_streams_follow_frames; [exact HTL|exact HTR| | |exact E1]].
  - intros c (-> & -> & Q1 & _). split; [eauto|]. split; [eauto|]. rewrite E4 in Q1. apply app_eq_nil. exact Q1.
  - eapply client_uses_fit; eauto. apply writer_modest_bulk. exact HB.
  - eapply wfq_fit with (Q := fun _ => True). eapply server_uses_fit; eauto. apply (reader_modest_any n 0%nat).
Qed.
Print Assumptions C51_until_last_partial.
Print Assumptions C51_until_last_streams_partial.
Print Assumptions C51_until_last_refuted.

(** Three messages in two calls arrive whole when the last call has one message; when the same
    messages are cut the other way, the last one is lost to the reader. *)
Example C51_until_example : forall cb sb,
  let go bs final := option_map snd (snd (snd (run2 60
     (client_uses toy_lib one_two_three null_checker (cs_init ex_csig (Some ex_cenc) cb [] 0) (write_all bs final))
     (server_uses toy_lib null_keeper null_checker (ss_init ex_ssig (Some ex_senc) sb None 0) (read_until 9 [])) [] []))) in
  go [[[x61]; [x62]]] [[x63]] = Some (Ok [[x61]; [x62]; [x63]]) /\
  go [[[x61]]] [[x62]; [x63]] = Some (Ok [[x61]; [x62]]).
Proof. intros [|] [|]; vm_compute; split; reflexivity. Qed.
