(** C133: how many messages a session exchanges (saltchannel/v2/salt_client_session.py:43-118,
    salt_server_session.py:47-154, app_channel_v2.py:25-64, a1a2/a1_client_session.py:14-20). *)
From Coq Require Import List ZArith Bool Strings.Byte Lia.
From Verif Require Import PyBase IO IO_proofs Packets Crypto Time EncChannel AppChannel Session Session_proofs.
Import ListNotations.

(** ** Specification *)
Inductive act : Type := R | W.
Definition act_of (e : ev) : act := match e with ERead _ => R | EWrite _ _ _ => W end.
(** The exception with which the channel has answered *)
Definition failure (e : ev) : option exn :=
  match e with ERead (Err x) => Some x | EWrite _ _ (Err x) => Some x | _ => None end.

(** In every execution, whatever the peer sends and the channel does: the calls made are the
    beginning of one of the given sequences, and one of these if it returns normally; a call that
    raises is the last one, and what it raised is what comes out. *)
Definition bounded {S A} (L : list act -> Prop) (p : io (S * res A)) : Prop :=
  forall t o, exec p t o ->
    (exists l, L (map act_of t ++ l)) /\
    (forall s a, o = Some (s, Ok a) -> L (map act_of t)) /\
    (forall pre e post x, t = pre ++ e :: post -> failure e = Some x -> post = [] /\ forall s r, o = Some (s, r) -> r = Err x).

(** ** Proofs *)
Inductive shaped {S A} : (list act -> Prop) -> io (S * res A) -> Prop :=
| sh_ok : forall (L : list act -> Prop) s a, L [] -> shaped L (Ret (s, Ok a))
| sh_err : forall (L : list act -> Prop) l s x, L l -> shaped L (Ret (s, Err x))
| sh_read : forall (L : list act -> Prop) k, (forall m, shaped (fun l => L (R :: l)) (k (Ok m))) -> (forall x, exists s, k (Err x) = Ret (s, Err x)) -> shaped L (Read k)
| sh_write : forall (L : list act -> Prop) ms la k, shaped (fun l => L (W :: l)) (k (Ok tt)) -> (forall x, exists s, k (Err x) = Ret (s, Err x)) -> shaped L (Write ms la k).

Lemma shaped_some : forall S A L (p : io (S * res A)), shaped L p -> exists l, L l.
Proof.
  intros S A L p H. induction H as [L s a H|L l s x H|L k H IH E|L ms la k H IH E]; [eauto|eauto| |].
  - destruct (IH []) as (l & Hl). eauto.
  - destruct IH as (l & Hl). eauto.
Qed.

Lemma shaped_bounded : forall S A L (p : io (S * res A)), shaped L p -> bounded L p.
Proof.
  assert (RE : forall S A s x t o, exec (@Ret (S * res A) (s, Err x)) t o -> t = [] /\ (o = None \/ o = Some (s, Err x))).
  { intros S A s x t o H. inversion H; subst; auto. }
  assert (NIL : forall e : ev, forall pre post, [] = pre ++ e :: post -> False) by (intros e [|? pre] post E; discriminate).
  intros S A L p H. induction H as [L s a H|L l s x H|L k H IH E|L ms la k H IH E]; intros t o HX.
  - assert (T : t = []) by (inversion HX; reflexivity). subst t. split; [exists []; exact H|]. split; [intros; exact H|].
    intros pre e post x X. destruct (NIL _ _ _ X).
  - destruct (RE _ _ _ _ _ _ HX) as [-> HO]. split; [exists l; exact H|]. split.
    + intros s0 a ->. destruct HO as [|HO]; discriminate.
    + intros pre e post x0 X. destruct (NIL _ _ _ X).
  - inversion HX as [| |k0 r t1 o1 HX1|]; subst.
    + destruct (shaped_some _ _ _ _ (sh_read L k H E)) as (l & Hl). split; [exists l; exact Hl|]. split; [discriminate|]. intros pre e post x X. destruct (NIL _ _ _ X).
    + destruct r as [m|x].
      * destruct (IH m _ _ HX1) as (B1 & B2 & B3). split; [exact B1|]. split; [exact B2|].
        intros [|e0 pre] e post x X F; [injection X as <- _; discriminate|]. injection X as _ X. eapply B3; eassumption.
      * destruct (E x) as (s & Es). rewrite Es in HX1. destruct (RE _ _ _ _ _ _ HX1) as [-> HO].
        split; [destruct (shaped_some _ _ _ _ (H [])) as (l & Hl); exists l; exact Hl|]. split; [intros s0 a ->; destruct HO as [|HO]; discriminate|].
        intros [|e0 pre] e post y X F; [|injection X as _ X; destruct (NIL _ _ _ X)]. injection X as <- <-. injection F as ->.
        split; [reflexivity|]. intros s0 r ->. destruct HO as [HO|HO]; [discriminate|]. injection HO as _ ->. reflexivity.
  - inversion HX as [| | |ms0 la0 k0 r t1 o1 HX1]; subst.
    + destruct (shaped_some _ _ _ _ (sh_write L ms la k H E)) as (l & Hl). split; [exists l; exact Hl|]. split; [discriminate|]. intros pre e post x X. destruct (NIL _ _ _ X).
    + destruct r as [[]|x].
      * destruct (IH _ _ HX1) as (B1 & B2 & B3). split; [exact B1|]. split; [exact B2|].
        intros [|e0 pre] e post x X F; [injection X as <- _; discriminate|]. injection X as _ X. eapply B3; eassumption.
      * destruct (E x) as (s & Es). rewrite Es in HX1. destruct (RE _ _ _ _ _ _ HX1) as [-> HO].
        split; [destruct (shaped_some _ _ _ _ H) as (l & Hl); exists l; exact Hl|]. split; [intros s0 a ->; destruct HO as [|HO]; discriminate|].
        intros [|e0 pre] e post y X F; [|injection X as _ X; destruct (NIL _ _ _ X)]. injection X as <- <-. injection F as ->.
        split; [reflexivity|]. intros s0 r ->. destruct HO as [HO|HO]; [discriminate|]. injection HO as _ ->. reflexivity.
Qed.

Lemma bounded_eq : forall S A L (p q : io (S * res A)), io_eq p q -> bounded L q -> bounded L p.
Proof. intros S A L p q E H t o HX. apply H. eapply io_eq_exec; eassumption. Qed.

(** ** Theorems *)

(** The client: M1, two reads, M4 (unless it is kept for the first application message). *)
Theorem C133_client : forall L TK TC s,
  bounded (fun l => l = if cs_buffer_M4 s then [W; R; R] else [W; R; R; W]) (client_handshake L TK TC s).
Proof.
  intros L TK TC s. eapply bounded_eq; [apply client_eq|]. apply shaped_bounded. unfold client_machine.
  destruct (cs_enc s) as [e|]; [|eapply sh_err; reflexivity].
  destruct (client_start L TK s e) as [s1 [m1|x]]; [|eapply sh_err; reflexivity].
  apply sh_write; [|intro x; eexists; reflexivity]. apply sh_read; [|intro x; eexists; reflexivity]. intro chunk.
  assert (NE : exists l, W :: R :: l = (if cs_buffer_M4 s then [W; R; R] else [W; R; R; W])) by (destruct (cs_buffer_M4 s); eauto).
  destruct NE as (l2 & NE).
  destruct (client_m2 L TC s1 e chunk) as [s2 [ch|x]]; [|eapply sh_err; exact NE].
  apply sh_read; [|intro x; eexists; reflexivity]. intro f.
  assert (NE3 : exists l, W :: R :: R :: l = (if cs_buffer_M4 s then [W; R; R] else [W; R; R; W])) by (destruct (cs_buffer_M4 s); eauto).
  destruct NE3 as (l3 & NE3).
  destruct (client_m3 L TK TC s2 ch f) as [s3 [m4|x]]; [|eapply sh_err; exact NE3].
  destruct (cs_buffer_M4 s); [apply sh_ok; reflexivity|].
  destruct (cs_app s3) as [a|]; [|eapply sh_err; exact NE3]. destruct (ec_encrypt L (ac_enc a) m4) as [c|x]; [|eapply sh_err; exact NE3].
  apply sh_write; [apply sh_ok; reflexivity|intro x; eexists; reflexivity].
Qed.
Print Assumptions C133_client.

(** The server: one read and one write if it was asked with an A1; otherwise M1 is read, M2 and M3
    are written, in one call or in two, and M4 is read. *)
Theorem C133_server : forall L TK TC s,
  bounded (fun l => l = [R; W] \/ l = if ss_buffer_m2 s then [R; W; R] else [R; W; W; R]) (server_handshake L TK TC s).
Proof.
  intros L TK TC s. eapply bounded_eq; [apply server_eq|]. apply shaped_bounded. unfold server_machine.
  destruct (ss_enc s) as [e|]; [|eapply sh_err; left; reflexivity].
  assert (RR : forall (LL : list act -> Prop) s1 m1 hold, LL [W; R] -> shaped LL (server_rest L TK TC s1 e m1 hold)).
  { intros LL s1 m1 hold HL. unfold server_rest. destruct (server_m3 L TK s1 e m1 hold) as [s2 [fs|x]]; [|eapply sh_err; exact HL].
    apply sh_write; [|intro x; eexists; reflexivity]. apply sh_read; [|intro x; eexists; reflexivity]. intro f.
    destruct (server_m4 L TC s2 f) as [s3 [[]|x]]; [apply sh_ok; exact HL|eapply sh_err; exact HL]. }
  apply sh_read; [|intro x; eexists; reflexivity]. intro chunk.
  destruct (m1_ctor chunk) as [m1|x].
  - destruct (server_m1 L TK TC s chunk m1) as [s1 [[m2|]|x]]; [| |eapply sh_err; left; reflexivity].
    + apply sh_write; [eapply sh_err; left; reflexivity|intro x; eexists; reflexivity].
    + destruct (server_m2 TK s1 e) as [s2 [m2|x]]; [|eapply sh_err; left; reflexivity].
      destruct (ss_buffer_m2 s); [apply RR; right; reflexivity|].
      apply sh_write; [apply RR; right; reflexivity|intro x; eexists; reflexivity].
  - destruct (a1_ctor chunk) as [a1|x']; [|eapply sh_err; left; reflexivity].
    apply sh_write; [apply sh_ok; left; reflexivity|intro x'; eexists; reflexivity].
Qed.
Print Assumptions C133_server.

(** The application channel: a read takes one message from the channel below, or none if messages
    of an earlier packet are left; a write makes one call. *)
Theorem C133_app : forall L TK TC s m args la,
  bounded (fun l => l = match ac_readq s with [] => if is_empty (ec_pushback (ac_enc s)) then [R] else [] | _ => [] end) (ac_read L TC s) /\
  bounded (fun l => l = [W]) (ac_write L TK m args la s).
Proof.
  intros L TK TC s m args la. split; apply shaped_bounded.
  - unfold ac_read, mbind, mget. cbn [iobind fst snd]. destruct (ac_readq s) as [|x q]; [|apply sh_ok; reflexivity].
    unfold mzoom, ec_read. destruct (is_empty (ec_pushback (ac_enc s))); cbn [iobind fst snd].
    + apply sh_read; [|intro x; eexists; reflexivity]. intro raw. cbn [iobind]. destruct (ec_process L (ac_enc s) raw) as [c [v|x]]; cbn [iobind fst snd]; [|eapply sh_err; reflexivity].
      unfold mlift. cbn [iobind fst snd]. destruct (ac_interpret TC v) as [y|x]; cbn [iobind fst snd]; [|eapply sh_err; reflexivity].
      apply sh_ok. reflexivity.
    + destruct (ec_process L _ _) as [c [v|x]]; cbn [iobind fst snd]; [|eapply sh_err; reflexivity].
      unfold mlift. cbn [iobind fst snd]. destruct (ac_interpret TC v) as [y|x]; cbn [iobind fst snd]; [|eapply sh_err; reflexivity].
      apply sh_ok. reflexivity.
  - unfold ac_write. destruct (tk_get TK (ac_tk s)) as [t tk']. destruct (_ ++ ac_packets t (m :: args)) as [|m1 r]; [eapply sh_err; reflexivity|].
    unfold mzoom, ec_write. cbn [ac_enc]. destruct (ec_wrap_all L (ac_enc s) la (m1 :: r)) as [c [fs|x]]; cbn [iobind fst snd]; [|eapply sh_err; reflexivity].
    unfold mwrite. cbn [iobind]. apply sh_write; [apply sh_ok; reflexivity|intro x; eexists; reflexivity].
Qed.
Print Assumptions C133_app.

(** The service query *)
Theorem C133_query : forall uw a1, bounded (fun l => l = [W; R]) (do_a1a2 uw a1 tt).
Proof.
  intros uw a1. apply shaped_bounded. unfold do_a1a2, mbind, mwrite, mread, mlift. cbn [iobind fst snd].
  apply sh_write; [|intro x; eexists; reflexivity]. cbn [iobind fst snd]. apply sh_read; [|intro x; eexists; reflexivity]. intro raw. cbn [iobind fst snd].
  destruct (a2_ctor uw raw) as [p|x]; cbn [iobind]; [apply sh_ok; reflexivity|eapply sh_err; reflexivity].
Qed.
Print Assumptions C133_query.

(** A peer that keeps sending: a server takes its first frame, refuses it, and reads no more. *)
Example C133_example : forall L TK TC sig e buf a2 tk t o,
  exec (server_handshake L TK TC (ss_init sig (Some e) buf a2 tk)) t o ->
  exec (server_handshake L TK TC (ss_init sig (Some e) buf a2 tk)) [ERead (Ok [x07; x00; x00; x00; x00])] (Some (ss_init sig (Some e) buf a2 tk, Err BadPeer)) /\
  (length t <= 4)%nat.
Proof.
  intros L TK TC sig e buf a2 tk t o H. split.
  - eapply io_eq_exec; [|apply io_eq_sym; apply server_eq]. unfold server_machine. cbn [ss_init ss_enc]. apply ex_read. cbv beta iota.
    change (m1_ctor [x07; x00; x00; x00; x00]) with (@Err m1pkt BadPeer). change (a1_ctor [x07; x00; x00; x00; x00]) with (@Err pkt BadPeer). cbv iota. apply ex_ret.
  - destruct (C133_server _ _ _ _ _ _ H) as ((l & HL) & _). assert (Q : (length (map act_of t ++ l) <= 4)%nat) by (destruct HL as [->| ->]; [cbn; lia|destruct (ss_buffer_m2 _); cbn; lia]).
    rewrite app_length, map_length in Q. lia.
Qed.
