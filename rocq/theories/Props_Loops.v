(** Event loops and threads: C94 (saltchannel/util/__init__.py:12-18 and the constructors of
    sessions and channels). *)
From Coq Require Import List Bool Arith Lia.
From Verif Require Import PyBase Sync Loops.
Import ListNotations.

(** The objects that make an event loop for their thread if it has none, when constructed
    without the argument [loop]. *)
Definition brings_loop (o : obj) : bool :=
  match o with
  | NewAsyncioChannel None | NewMitmChannel None | NewEncChannel None | NewAppChannel None | NewServerSession None => true
  | _ => false
  end.
Definition is_client (o : obj) : bool := match o with NewClientSession _ | NewA1Session _ => true | _ => false end.
Definition loop_arg (o : obj) : option nat :=
  match o with
  | NewAsyncioChannel l | NewMitmChannel l | NewEncChannel l | NewAppChannel l | NewServerSession l
  | NewClientSession l | NewA1Session l => l
  | NewSocketChannel => None
  end.
Definition has_loop_attr (o : obj) : bool := match o with NewSocketChannel => false | _ => true end.

(** ** C94: in every thread, whatever happened in it before, channels and server sessions
    can be constructed; so can client sessions that are given a loop or constructed from a
    running loop.  An object that is given a loop keeps it. *)
Theorem C94_construct_partial : forall t o,
  is_client o = false \/ loop_arg o <> None \/ t_running t <> None ->
  exists r, snd (construct t o) = Ok r /\
    (has_loop_attr o = true -> r <> None) /\
    (forall l, loop_arg o = Some l -> r = Some l) /\
    (forall l, t_running t = Some l -> has_loop_attr o = true -> loop_arg o = None -> r = Some l).
Proof.
  intros [main lp st run nx] o H.
  destruct o as [[l|]| |[l|]|[l|]|[l|]|[l|]|[l|]|[l|]]; cbn in *;
    destruct run as [r|], lp as [c|], main, st; cbn;
    try (eexists; repeat split; cbn; try congruence; fail);
    exfalso; destruct H as [H|[H|H]]; congruence.
Qed.
Print Assumptions C94_construct_partial.

(** Objects constructed one after the other in a new thread. *)
Definition built (main : bool) (next : nat) (os : list obj) : thread := fst (trun (new_thread main next) (map TNew os)).

Lemma trun_app : forall os os' t, fst (trun t (os ++ os')) = fst (trun (fst (trun t os)) os').
Proof.
  induction os as [|o os IH]; intros os' t; [reflexivity|]. cbn. destruct (tdo t o) as [t1 r].
  specialize (IH os' t1). destruct (trun t1 (os ++ os')) as [t2 rs]. destruct (trun t1 os) as [t3 rs']. exact IH.
Qed.

(** State of such a thread: it runs no loop, and it has one iff ... *)
Lemma built_state : forall main next os, let t := built main next os in
  t_main t = main /\ t_running t = None /\
  (t_loop t = None <-> forall o, In o os -> brings_loop o = false /\ (main = true -> is_client o = false \/ loop_arg o <> None)) /\
  (t_loop t = None -> t_set t = false /\ t_next t = next) /\
  (forall l, t_loop t = Some l -> l = next).
Proof.
  intros main next os. induction os as [|o os IH] using rev_ind.
  - cbn. repeat split; intros; try reflexivity; try contradiction; discriminate.
  - cbv zeta in *. unfold built in *. rewrite map_app, trun_app.
    set (t := fst (trun (new_thread main next) (map TNew os))) in *. clearbody t.
    destruct t as [m lp st run nx]. cbn [t_main t_running t_loop t_set t_next] in IH.
    destruct IH as (-> & -> & I3 & I4 & I5).
    assert (X : forall P : obj -> Prop, (forall x, In x (os ++ [o]) -> P x) <-> (forall x, In x os -> P x) /\ P o).
    { intro P. split.
      - intro H. split; [intros; apply H; apply in_or_app; auto|apply H; apply in_or_app; cbn; auto].
      - intros [H1 H2] x Hx. apply in_app_or in Hx. destruct Hx as [Hx|[->|[]]]; auto. }
    rewrite X. clear X.
    destruct o as [[l|]| |[l|]|[l|]|[l|]|[l|]|[l|]|[l|]]; destruct lp as [c|];
      cbn in *;
      try (destruct (I4 eq_refl) as [-> ->]); destruct main; cbn;
      (split; [reflexivity|]); (split; [reflexivity|]); (split; [|split; [intro E; try discriminate E; auto|intros q E; try discriminate E; first [congruence | auto]]]);
      (split; [intro E; try discriminate E | intros [E1 E2]; try (destruct E2 as [E2 E2']; try discriminate E2)]);
      try (apply (proj2 I3) in E1; discriminate E1); try reflexivity;
      try (split; [apply I3; reflexivity|split; [reflexivity|intro; try (left; reflexivity); try (right; discriminate); try discriminate]]).
      all: try (destruct (E2' eq_refl) as [Y|Y]; congruence).
Qed.

(** Without a loop argument, a client session (v2 or A1) fails in a new thread exactly if
    the thread is not the main one and nothing that brings a loop was constructed in it
    before; a server session and every channel never fail. *)
Theorem C94_client_exact : forall main next os o,
  is_client o = true -> loop_arg o = None ->
  let r := snd (construct (built main next os) o) in
  (r = Err RuntimeError <-> main = false /\ forall x, In x os -> brings_loop x = false) /\
  (r <> Err RuntimeError -> r = Ok (Some next)).
Proof.
  intros main next os o C A. cbv zeta.
  pose proof (built_state main next os) as S. cbv zeta in S. destruct (built main next os) as [m lp st run nx].
  cbn in S. destruct S as (-> & -> & I3 & I4 & I5).
  assert (E : snd (construct (Thread main lp st None nx) o) =
              match snd (get_event_loop (Thread main lp st None nx)) with Ok l => Ok (Some l) | Err e => Err e end).
  { destruct o as [l| |l|l|l|l|l|l]; try discriminate C; cbn in A; subst l; reflexivity. }
  rewrite E. destruct lp as [c|]; cbn.
  - rewrite (I5 c eq_refl) in *. split; [|reflexivity]. split; [discriminate|]. intros [-> H]. exfalso.
    assert (F : Some next = None) by (apply (proj2 I3); intros x Hx; split; [auto|discriminate]). discriminate F.
  - destruct (I4 eq_refl) as [-> ->]. destruct main; cbn.
    + split; [|reflexivity]. split; [discriminate|intros [? _]; discriminate].
    + split; [|congruence]. split; [|reflexivity]. intros _. split; [reflexivity|]. intros x Hx. apply (proj1 I3 eq_refl x Hx).
Qed.
Print Assumptions C94_client_exact.

(** What is false: that a client session can be constructed in any thread.  In a thread
    other than the main one, over any number of SocketChannels, it cannot, while a server
    session can. *)
Theorem C94_client_thread_refuted : forall next n,
  snd (construct (built false next (repeat NewSocketChannel n)) (NewClientSession None)) = Err RuntimeError /\
  snd (construct (built false next (repeat NewSocketChannel n)) (NewA1Session None)) = Err RuntimeError /\
  snd (construct (built false next (repeat NewSocketChannel n)) (NewServerSession None)) = Ok (Some next).
Proof.
  intros next n.
  assert (H : forall x, In x (repeat NewSocketChannel n) -> brings_loop x = false).
  { intros x Hx. apply repeat_spec in Hx. subst x. reflexivity. }
  split; [|split].
  - apply (C94_client_exact false next _ (NewClientSession None) eq_refl eq_refl). auto.
  - apply (C94_client_exact false next _ (NewA1Session None) eq_refl eq_refl). auto.
  - assert (E : built false next (repeat NewSocketChannel n) = new_thread false next).
    { unfold built. induction n as [|n IH]; [reflexivity|]. cbn [repeat map trun tdo construct].
      destruct (trun (new_thread false next) (map TNew (repeat NewSocketChannel n))) as [t r] eqn:E. cbn in *. exact (IH (fun x Hx => H x (or_intror Hx))). }
    rewrite E. reflexivity.
Qed.
Print Assumptions C94_client_thread_refuted.

(** All objects constructed without a loop in a thread that sets and runs none itself have
    the same loop. *)
Theorem C94_one_loop : forall main next os o l,
  In (o, Ok (Some l)) (snd (trun (new_thread main next) (map TNew os))) -> loop_arg o = None -> l = next.
Proof.
  intros main next os o l. induction os as [|x os IH] using rev_ind; [intros []|].
  assert (T : snd (trun (new_thread main next) (map TNew (os ++ [x]))) =
              snd (trun (new_thread main next) (map TNew os)) ++ [(x, snd (construct (built main next os) x))]).
  { unfold built. generalize (new_thread main next). clear. induction os as [|y os IH]; intro t; cbn.
    - destruct (construct t x). reflexivity.
    - destruct (construct t y) as [t1 r]. specialize (IH t1). destruct (trun t1 (map TNew (os ++ [x]))) as [t2 rs].
      destruct (trun t1 (map TNew os)) as [t3 rs']. cbn in *. rewrite IH. reflexivity. }
  rewrite T. intros H A. apply in_app_or in H. destruct H as [H|[H|[]]]; [auto|]. injection H as -> H.
  pose proof (built_state main next os) as S. cbv zeta in S. destruct (built main next os) as [m lp st run nx].
  cbn in S. destruct S as (-> & -> & I3 & I4 & I5).
  destruct lp as [c|].
  - destruct o as [q| |q|q|q|q|q|q]; cbn in A; try subst q; cbn in H; try discriminate H; injection H as <-; auto.
  - destruct (I4 eq_refl) as [-> ->].
    destruct o as [q| |q|q|q|q|q|q]; cbn in A; try subst q; destruct main; cbn in H; try discriminate H; injection H as <-; reflexivity.
Qed.
Print Assumptions C94_one_loop.

(** The channels a session constructs during its handshake (salt_client_session.py:113-114,
    salt_server_session.py:140-141) have the loop that runs the handshake; after
    [handshake_sync] that is the session's own, whatever thread calls it. *)
Theorem C94_session_channels : forall t l, 
  trun t [TStart l; TNew (NewEncChannel None); TNew (NewAppChannel None); TStop] =
  (Thread (t_main t) (t_loop t) (t_set t) None (t_next t),
   [(NewEncChannel None, Ok (Some l)); (NewAppChannel None, Ok (Some l))]).
Proof. intros [m lp st run nx] l. reflexivity. Qed.
Print Assumptions C94_session_channels.

(** The loop that was set last is the one that is used, in every thread and after any
    history; after [set_event_loop(None)] the client sessions raise RuntimeError, in the main
    thread too, and the other objects make a new loop. *)
Theorem C94_set_loop : forall main next os l o, has_loop_attr o = true -> loop_arg o = None ->
  let t := fst (trun (new_thread main next) (os ++ [TStop; TSet l])) in
  snd (construct t o) = match l with
                        | Some l => Ok (Some l)
                        | None => if is_client o then Err RuntimeError else Ok (Some (t_next t))
                        end.
Proof.
  intros main next os l o HA HL. cbv zeta.
  assert (E : exists m n, fst (trun (new_thread main next) (os ++ [TStop; TSet l])) = Thread m l true None n).
  { generalize (new_thread main next). induction os as [|x os IH]; intros t; [eexists; eexists; reflexivity|].
    cbn [app trun]. destruct (tdo t x) as [t1 r]. destruct (IH t1) as (m & n & E). destruct (trun t1 _) as [t2 rs]. cbn [fst] in *. eauto. }
  destruct E as (m & n & ->). destruct o as [a| |a|a|a|a|a|a]; try discriminate HA; cbn in HL; subst a; destruct l; cbn; rewrite ?andb_false_r; reflexivity.
Qed.
Print Assumptions C94_set_loop.

(** A client in a worker thread: constructing a MitmChannel first is what makes the example
    programs work (dev/client_server.py:92-94). *)
Example C94_example :
  snd (trun (new_thread false 7) (map TNew [NewSocketChannel; NewClientSession None; NewMitmChannel None; NewClientSession None; NewServerSession (Some 3)])) =
  [(NewSocketChannel, Ok None); (NewClientSession None, Err RuntimeError); (NewMitmChannel None, Ok (Some 7));
   (NewClientSession None, Ok (Some 7)); (NewServerSession (Some 3), Ok (Some 3))].
Proof. reflexivity. Qed.
