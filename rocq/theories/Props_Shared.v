(** Property C57, continued: sessions that share a clock still work. *)
From Coq Require Import List ZArith Bool Strings.Byte Lia ZifyBool ZifyNat ZifyN.
From Verif Require Import PyBase PyBase_proofs IO IO_proofs Packets Crypto Crypto_proofs Time EncChannel EncUse AppChannel AppUse
  Session SessUse Session_steps Channel Stack Spec StackUse Pipe Pipe_proofs Props_App Props_Session Props_Session2 Props_Stack
  Props_Pipe Props_Misc Props_Alone.
Import ListNotations.
Open Scope Z_scope.

(** What one session sees of a keeper that others call too: the answers its own calls got,
    in order, whatever they are; the state counts its own calls.  Stands for the shared
    object of util/__init__.py:29-34 and util/time.py:6-15 in a session (the attribute
    time_keeper, salt_client_session.py:27, salt_server_session.py:30). *)
Definition told (answers : list Z) : tkeeper :=
  let f := fun s => (nth (Z.to_nat s) answers 0, s + 1) in TKeeper f f.

(** It gives exactly those answers. *)
Lemma told_calls : forall cs done rest, (length cs <= length rest)%nat ->
  tk_calls (told (done ++ rest)) (Z.of_nat (length done)) cs = firstn (length cs) rest.
Proof.
  induction cs as [|c cs IH]; intros done rest H; [reflexivity|].
  destruct rest as [|v rest]; [cbn in H; lia|]. cbn [tk_calls length firstn].
  assert (E : (if c then tk_first (told (done ++ v :: rest)) (Z.of_nat (length done)) else tk_get (told (done ++ v :: rest)) (Z.of_nat (length done)))
              = (v, Z.of_nat (length done) + 1)).
  { unfold told. destruct c; cbn [tk_first tk_get]; rewrite Nat2Z.id, app_nth2, Nat.sub_diag by lia; reflexivity. }
  rewrite E. f_equal. replace (done ++ v :: rest) with ((done ++ [v]) ++ rest) by (rewrite <- app_assoc; reflexivity).
  replace (Z.of_nat (length done) + 1) with (Z.of_nat (length (done ++ [v]))) by (rewrite app_length; cbn [length]; lia).
  apply IH. cbn [length] in H. lia.
Qed.

Lemma times_len : forall calls s w, length (times_from s calls w) = length (own_calls calls w).
Proof.
  induction calls as [|[v c] calls IH]; intros s w; [reflexivity|].
  unfold times_from, own_calls. cbn [map fst snd tk_calls].
  destruct (if c then tk_first one_two_three s else tk_get one_two_three s) as [x s'].
  cbn [combine filter fst]. destruct (Bool.eqb v w); cbn [map length snd]; [f_equal|]; apply (IH s' w).
Qed.

(** Every get_first_time of a session is answered 1, whatever the others do. *)
Lemma times_first : forall calls s w i, nth_error (own_calls calls w) i = Some true ->
  nth_error (times_from s calls w) i = Some 1.
Proof.
  induction calls as [|[v c] calls IH]; intros s w i H; [destruct i; discriminate|].
  unfold times_from. unfold own_calls in H. cbn [filter fst map] in H. cbn [map fst snd tk_calls].
  destruct (if c then tk_first one_two_three s else tk_get one_two_three s) as [x s'] eqn:E.
  cbn [combine filter fst]. destruct (Bool.eqb v w).
  - cbn [map snd] in *. destruct i as [|i]; cbn [nth_error] in *.
    + injection H as ->. cbn [one_two_three tk_first] in E. injection E as <- _. reflexivity.
    + apply (IH s' w i H).
  - apply (IH s' w i H).
Qed.

(** *** C57: a client and a server of one process share a OneTwoThreeTimeKeeper, and any
    others may use it too.  The times they send are disturbed, but nothing else: for every
    interleaving of the calls the keeper gets, any two programs that end over a plain
    message pipe end in the same way over the two sessions.  Partial: it is the times
    themselves that are not those of a keeper of one's own (C57_shared_clock_refuted). *)
Theorem C57_outcome_partial : forall L sp ep csig ssig ce se cbuf sbuf w a2 calls crest srest A B (p : io A) (q : io B) F nl nr,
  nacl_laws L sp ep -> sp (kp_sec csig) (kp_pub csig) -> sp (kp_sec ssig) (kp_pub ssig) ->
  ep (kp_sec ce) (kp_pub ce) -> ep (kp_sec se) (kp_pub se) ->
  own_calls calls true = true :: crest -> own_calls calls false = true :: sbuf :: srest ->
  modest nl p -> modest nr q -> Z.of_nat nl < 2 ^ 62 -> Z.of_nat nr < 2 ^ 62 ->
  (cbuf = true -> exists ms l k, p = Write ms l k) ->
  always_ends (Sys p q [] []) F ->
  let TKc := told (session_times calls true) in
  let TKs := told (session_times calls false) in
  tk_calls TKc 0 (own_calls calls true) = session_times calls true /\
  tk_calls TKs 0 (own_calls calls false) = session_times calls false /\
  exists F',
    always_ends (Sys (client_runs L TKc null_checker (cs_init csig (Some ce) cbuf w 0) p)
                     (server_runs L TKs null_checker (ss_init ssig (Some se) sbuf a2 0) q) [] []) F' /\
    same_end (s_left F) (s_left F') /\ same_end (s_right F) (s_right F') /\
    (s_lr F = [] -> s_lr F' = []) /\ (s_rl F = [] -> s_rl F' = []).
Proof.
  intros L sp ep csig ssig ce se cbuf sbuf w a2 calls crest srest A B p q F nl nr HL H1 H2 H3 H4 HC HS M1 M2 B1 B2 HB HE TKc TKs.
  assert (T : forall wh, tk_calls (told (session_times calls wh)) 0 (own_calls calls wh) = session_times calls wh).
  { intro wh. pose proof (times_len calls one_two_three_init wh) as HN. change (times_from one_two_three_init calls wh) with (session_times calls wh) in HN.
    pose proof (told_calls (own_calls calls wh) [] (session_times calls wh)) as X. cbn [app length] in X.
    change (Z.of_nat 0) with 0 in X. rewrite X by lia. rewrite <- HN. apply firstn_all. }
  split; [apply T|]. split; [apply T|].
  eapply (C65_message_pipe L sp ep); try eassumption.
  constructor; try assumption.
  - pose proof (times_first calls one_two_three_init true 0) as X. rewrite HC in X. specialize (X eq_refl).
    change (times_from one_two_three_init calls true) with (session_times calls true) in X.
    unfold TKc, told. cbn [tk_first fst]. change (Z.to_nat 0) with 0%nat.
    rewrite (nth_error_nth _ _ 0 X). reflexivity.
  - pose proof (times_first calls one_two_three_init false 0) as X. pose proof (times_first calls one_two_three_init false 1) as Y.
    rewrite HS in X, Y. specialize (X eq_refl).
    change (times_from one_two_three_init calls false) with (session_times calls false) in X, Y.
    unfold server_times, TKs, told. destruct sbuf; cbn [tk_first tk_get fst snd].
    + change (Z.to_nat (0 + 1)) with 1%nat. rewrite (nth_error_nth _ _ 0 (Y eq_refl)). reflexivity.
    + change (Z.to_nat 0) with 0%nat. rewrite (nth_error_nth _ _ 0 X). reflexivity.
  - intro x. reflexivity.
  - intro x. reflexivity.
Qed.
Print Assumptions C57_outcome_partial.

(** The echo service in one process: the calls are those of the handshake (client M1;
    server M2 and M3; client M4) and then of the six messages. *)
Example C57_outcome_example :
  let calls := [(true, true); (false, true); (false, false); (true, false);
                (true, false); (false, false); (true, false); (false, false); (true, false); (false, false)] in
  session_times calls true = [1; 3; 4; 6; 8] /\ session_times calls false = [1; 2; 5; 7; 9] /\
  match run2 60 (client_runs toy_lib (told (session_times calls true)) null_checker (cs_init ex_csig (Some ex_cenc) false [] 0) (echo_client [[x61]; []; [x62; x63]] []))
                (server_runs toy_lib (told (session_times calls false)) null_checker (ss_init ex_ssig (Some ex_senc) false None 0) (echo_server 3)) [] [] with
  | ((_, Some (_, _, Ok (Ok got))), (_, Some (_, _, Ok (Ok tt)))) => got = [[x61]; []; [x62; x63]]
  | _ => False
  end.
Proof. vm_compute. auto. Qed.
