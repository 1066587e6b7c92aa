(** The synchronous API: C93 (saltchannel/util/__init__.py:37-62, saltchannel/channel.py,
    saltchannel/dev/mitm_channel.py, saltchannel/a1a2/a1_client_session.py). *)
From Coq Require Import List ZArith Bool String Strings.Byte Lia.
From Verif Require Import PyBase Packets Sync.
Import ListNotations.
Open Scope list_scope.
Open Scope Z_scope.

(** *** Names and dictionaries *)
Lemma append_len : forall a s, String.length (append a s) = (String.length a + String.length s)%nat.
Proof. induction a as [|x a IH]; intro s; cbn; [reflexivity|]. rewrite IH. reflexivity. Qed.

Lemma append_inj : forall s a b, append a s = append b s -> a = b.
Proof.
  intros s a. induction a as [|x a IH]; intros [|y b] E; [reflexivity| | |].
  - exfalso. apply (f_equal String.length) in E. rewrite !append_len in E. cbn [String.length] in E. lia.
  - exfalso. apply (f_equal String.length) in E. rewrite !append_len in E. cbn [String.length] in E. lia.
  - cbn in E. injection E as -> E. f_equal. apply IH. exact E.
Qed.

Lemma sync_name_inj : forall a b, sync_name a = sync_name b -> a = b.
Proof. intros a b. apply append_inj. Qed.

Section Dicts.
  Context {B : Type}.
  Implicit Types (d : dict B).

  Lemma dget_app : forall d e n, dget (d ++ e) n = match dget d n with Some a => Some a | None => dget e n end.
  Proof. induction d as [|[m a] d IH]; intros e n; [reflexivity|]. cbn. destruct (String.eqb n m); [reflexivity|apply IH]. Qed.

  Lemma dget_in : forall d n a, dget d n = Some a -> In (n, a) d.
  Proof.
    induction d as [|[m c] d IH]; intros n a E; [discriminate|]. cbn in E.
    destruct (String.eqb_spec n m) as [->|N]; [left; congruence|right; apply IH; exact E].
  Qed.

  Lemma lookup_in : forall (mro : list (dict B)) n a, lookup mro n = Some a -> In (n, a) (List.concat mro).
  Proof.
    induction mro as [|d mro IH]; intros n a E; [discriminate|]. cbn in *. apply in_or_app.
    destruct (dget d n) eqn:D; [left; apply dget_in; congruence|right; apply IH; exact E].
  Qed.

  (** Under a name made of [n], the new dictionary has the closure of [n] or nothing. *)
  Lemma new_dct_at : forall d n, dget (new_dct d) (sync_name n) = Some (SyncOf n) \/ dget (new_dct d) (sync_name n) = None.
  Proof.
    induction d as [|[m a] d IH]; intro n; [right; reflexivity|]. destruct a as [b|b|x]; cbn; [|apply IH|apply IH].
    destruct (String.eqb_spec (sync_name n) (sync_name m)) as [E|E]; [|apply IH]. left. apply sync_name_inj in E. congruence.
  Qed.

  Lemma new_dct_coro : forall d n b, dget d n = Some (Coro b) -> dget (new_dct d) (sync_name n) = Some (SyncOf n).
  Proof.
    induction d as [|[m a] d IH]; intros n b E; [discriminate|]. cbn in E.
    destruct (String.eqb_spec n m) as [->|N].
    - injection E as ->. cbn. rewrite String.eqb_refl. reflexivity.
    - destruct a as [c|c|x]; cbn; [|eapply IH; eauto|eapply IH; eauto].
      destruct (String.eqb_spec (sync_name n) (sync_name m)) as [E'|E']; [|eapply IH; eauto].
      apply sync_name_inj in E'. congruence.
  Qed.

  Lemma class_mro : forall ss, k_syncizer (class_of (B := B) ss) = existsb st_meta ss.
  Proof. induction ss as [|s ss IH]; [reflexivity|]. cbn. unfold class_of in IH. rewrite IH. reflexivity. Qed.

  Lemma getattr_sync : forall (ds1 : list (stmt B)) (st : stmt B) ds2 n b,
    dget (st_body st) n = Some (Coro b) -> existsb st_meta (st :: ds2) = true ->
    (forall x, In x ds1 -> dget (st_body x) (sync_name n) = None) ->
    getattr (class_of (ds1 ++ st :: ds2)) (sync_name n) = Some (SyncOf n).
  Proof.
    induction ds1 as [|x ds1 IH]; intros st ds2 n b E M H.
    - cbn [app class_of fold_right]. change (fold_right define (Klass [] false) ds2) with (class_of ds2).
      unfold getattr, define. cbn [k_mro lookup]. rewrite class_mro. cbn [existsb] in M. rewrite M.
      unfold syncize. rewrite dget_app, (new_dct_coro _ _ _ E). reflexivity.
    - cbn [app class_of fold_right]. change (fold_right define (Klass [] false) (ds1 ++ st :: ds2)) with (class_of (ds1 ++ st :: ds2)).
      specialize (IH st ds2 n b E M (fun y Hy => H y (or_intror Hy))).
      unfold getattr, define in *. cbn [k_mro lookup].
      destruct (st_meta x || k_syncizer (class_of (ds1 ++ st :: ds2)))%bool.
      + unfold syncize. rewrite dget_app, (H x (or_introl eq_refl)). destruct (new_dct_at (st_body x) n) as [->| ->]; [reflexivity|exact IH].
      + rewrite (H x (or_introl eq_refl)). exact IH.
  Qed.
End Dicts.

(** ** C93: a class made by [Syncizer], or derived from one, has for every coroutine [n] a
    method [n_sync]; whatever subclasses do with [n], as long as they do not write an
    [n_sync] themselves, the synchronous call does to the world and returns or raises
    exactly what awaiting the object's own [n] does; from a running event loop it raises
    RuntimeError and nothing happens. *)
Theorem C93_syncizer : forall (B A V W : Type) (sem : B -> A -> W -> W * res V) subs st bases n b args w,
  dget (st_body st) n = Some (Coro b) -> existsb st_meta (st :: bases) = true ->
  (forall d, In d subs -> dget (st_body d) (sync_name n) = None) ->
  let k := class_of (subs ++ st :: bases) in
  call sem k false (sync_name n) args w = await_call sem k n args w /\
  (forall c, getattr k n = Some (Coro c) -> call sem k true (sync_name n) args w = (w, Err RuntimeError)).
Proof.
  intros B A V W sem subs st bases n b args w E M H k.
  assert (G : getattr k (sync_name n) = Some (SyncOf n)) by (eapply getattr_sync; eauto).
  unfold call, await_call. rewrite G. cbn [call_attr]. split.
  - destruct (getattr k n) as [[c|c|m]|] eqn:Ek; reflexivity.
  - intros c Ec. rewrite Ec. reflexivity.
Qed.
Print Assumptions C93_syncizer.

(** The classes of the library that use [Syncizer]; any user's subclass of them counts. *)
Definition syncized : list (list (stmt body)) :=
  [AsyncioChannel_stmts; AppChannelV2_stmts; SaltClientSession_stmts; SaltServerSession_stmts].

Theorem C93_library : forall (A V W : Type) (sem : body -> A -> W -> W * res V) ss subs n b args w,
  In ss syncized -> getattr (class_of ss) n = Some (Coro b) ->
  (forall d, In d subs -> dget (st_body d) (sync_name n) = None) ->
  call sem (class_of (subs ++ ss)) false (sync_name n) args w = await_call sem (class_of (subs ++ ss)) n args w.
Proof.
  intros A V W sem ss subs n b args w I G H.
  assert (X : exists st bases, ss = st :: bases /\ st_meta st = true /\ exists c, dget (st_body st) n = Some (Coro c)).
  { destruct I as [<-|[<-|[<-|[<-|[]]]]]; (eexists; eexists; split; [reflexivity|]; split; [reflexivity|]);
      apply lookup_in in G; cbn in G; repeat (destruct G as [G|G]; [try discriminate G; injection G as <- <-; eexists; reflexivity|]); destruct G. }
  destruct X as (st & bases & -> & M & c & D). eapply C93_syncizer; [exact D| |exact H]. cbn. rewrite M. reflexivity.
Qed.
Print Assumptions C93_library.

(** *** Channels *)

(** Channels whose synchronous methods are the asynchronous ones: the transports, an
    application channel over whatever channel, and MitmChannels over these. *)
Fixpoint classic (c : chan) : Prop :=
  match c with
  | ChAsyncio _ | ChSocket _ | ChApp _ _ => True
  | ChMitm _ c => classic c
  | ChEnc _ _ | ChTunnel _ => False
  end.

Theorem C93_channels_partial : forall N (lower : chan -> meth) (upper : chan -> meth -> meth) c a (w : world (N := N)),
  classic c -> synced lower upper c a w = awaited lower upper c a w.
Proof.
  intros N lower upper c a. revert c. induction c as [i|i|i c IH|i c IH|i c IH|i]; intros w H; try contradiction; destruct a;
    try reflexivity; unfold synced, awaited in *; cbn in *; rewrite IH by exact H; reflexivity.
Qed.
Print Assumptions C93_channels_partial.

Lemma synced_mitm : forall N (lower : chan -> meth) (upper : chan -> meth -> meth) i c a (w : world (N := N)),
  synced lower upper (ChMitm i c) a w = count i a (synced lower upper c a w).
Proof. intros N lower upper i c [|m args l] w; reflexivity. Qed.

(** MitmChannels over a channel *)
Fixpoint mitms (l : list nat) (c : chan) : chan := match l with [] => c | i :: l => ChMitm i (mitms l c) end.

(** The channels that inherit the empty methods of ByteChannel *)
Definition mute (c : chan) : Prop := match c with ChEnc _ _ | ChTunnel _ => True | _ => False end.

Lemma fold_zlen : forall (ms : list bytes) z, fold_left (fun s m => s + zlen m) ms z = z + zlen (List.concat ms).
Proof.
  induction ms as [|m ms IH]; intros z; cbn [fold_left List.concat]; [unfold zlen; cbn; lia|]. rewrite IH. unfold zlen. rewrite app_length. lia.
Qed.

(** What is false: the synchronous write of an EncryptedChannelV2, or of a channel of a
    Tunnel, directly or through any number of MitmChannels, returns normally and sends
    nothing, whatever the message; MitmChannels count it as written.  The synchronous read
    reads nothing: it returns None, and through a MitmChannel raises TypeError. *)
Theorem C93_channels_refuted : forall N (lower : chan -> meth) (upper : chan -> meth -> meth) l c m args last (w : world (N := N)),
  mute c ->
  (exists w', synced lower upper (mitms l c) (AWriteC m args last) w = (w', Ok VNone) /\ fst w' = fst w /\
     forall i, snd w' i = (fst (snd w i), snd (snd w i) + Z.of_nat (count_occ Nat.eq_dec l i) * zlen (List.concat (m :: args)))) /\
  synced lower upper (mitms l c) AReadC w = (w, match l with [] => Ok VNone | _ => Err TypeError end).
Proof.
  intros N lower upper l c m args last w H. split.
  - induction l as [|i l IH].
    + destruct c; try contradiction; exists w; (split; [reflexivity|]; split; [reflexivity|]; intros j; cbn; rewrite Z.add_0_r; apply surjective_pairing).
    + destruct IH as (w' & E & F & G). cbn [mitms]. rewrite synced_mitm, E. destruct w' as [n f]. cbn [fst snd] in F, G.
      eexists. split; [reflexivity|]. split; [exact F|]. intros j. cbn [snd count_occ]. rewrite fold_zlen, G. cbn [fst snd].
      destruct (Nat.eqb_spec j i) as [->|NE].
      * destruct (Nat.eq_dec i i) as [_|N0]; [|congruence]. f_equal. lia.
      * destruct (Nat.eq_dec i j) as [->|_]; [congruence|]. reflexivity.
  - induction l as [|i l IH].
    + destruct c; try contradiction; reflexivity.
    + cbn [mitms]. rewrite synced_mitm, IH. destruct l; destruct w; reflexivity.
Qed.
Print Assumptions C93_channels_refuted.

(** What MitmChannels count, synchronously and asynchronously: whatever the channel below has
    done, each of them adds the bytes of the messages read, or written, and nothing if the call
    has raised. *)
Theorem C93_counts : forall N (lower : chan -> meth) (upper : chan -> meth -> meth) l c (w w' : world (N := N)) run,
  run = synced lower upper \/ run = awaited lower upper ->
  let adds r t w2 := fst w2 = fst w' /\ forall i, snd w2 i = (fst (snd w' i) + Z.of_nat (count_occ Nat.eq_dec l i) * r, snd (snd w' i) + Z.of_nat (count_occ Nat.eq_dec l i) * t) in
  (forall b, run c AReadC w = (w', Ok (VMsg b)) -> exists w2, run (mitms l c) AReadC w = (w2, Ok (VMsg b)) /\ adds (zlen b) 0 w2) /\
  (forall m args last, run c (AWriteC m args last) w = (w', Ok VNone) ->
     exists w2, run (mitms l c) (AWriteC m args last) w = (w2, Ok VNone) /\ adds 0 (zlen (List.concat (m :: args))) w2) /\
  (forall a e, run c a w = (w', Err e) -> run (mitms l c) a w = (w', Err e)).
Proof.
  intros N lower upper l c w w' run HR adds.
  assert (HM : forall i c a w, run (ChMitm i c) a w = count i a (run c a w)).
  { destruct HR as [-> | ->]; intros i d [|m args la] w0; reflexivity. }
  clear HR. split; [|split].
  - intros b E. subst adds. cbv beta. induction l as [|i l IH].
    + exists w'. cbn [mitms count_occ]. split; [exact E|]. split; [reflexivity|]. intro i. rewrite !Z.mul_0_l, !Z.add_0_r. apply surjective_pairing.
    + destruct IH as ([n f] & E2 & F & G). cbn [fst snd] in *. cbn [mitms]. rewrite HM, E2. eexists. split; [reflexivity|]. split; [exact F|].
      intro j. cbn [snd count_occ]. rewrite G. cbn [fst snd]. destruct (Nat.eqb_spec j i) as [->|NE].
      * destruct (Nat.eq_dec i i) as [_|N0]; [|congruence]. f_equal; lia.
      * destruct (Nat.eq_dec i j) as [->|_]; [congruence|]. reflexivity.
  - intros m args la E. subst adds. cbv beta. induction l as [|i l IH].
    + exists w'. cbn [mitms count_occ]. split; [exact E|]. split; [reflexivity|]. intro i. rewrite !Z.mul_0_l, !Z.add_0_r. apply surjective_pairing.
    + destruct IH as ([n f] & E2 & F & G). cbn [fst snd] in *. cbn [mitms]. rewrite HM, E2. eexists. split; [reflexivity|]. split; [exact F|].
      intro j. cbn [snd count_occ]. rewrite fold_zlen, G. cbn [fst snd]. destruct (Nat.eqb_spec j i) as [->|NE].
      * destruct (Nat.eq_dec i i) as [_|N0]; [|congruence]. f_equal; lia.
      * destruct (Nat.eq_dec i j) as [->|_]; [congruence|]. reflexivity.
  - intros a e E. induction l as [|i l IH]; [exact E|]. cbn [mitms]. rewrite HM, IH. destruct a, w'; reflexivity.
Qed.
Print Assumptions C93_counts.

(** The synchronous service query is the asynchronous one over such channels ... *)
Theorem C93_a1a2_partial : forall N P (lower : chan -> meth) (upper : chan -> meth -> meth) c a1 (parse : cval -> res P) (w : world (N := N)),
  classic c -> do_a1a2 a1 parse (synced lower upper c) w = do_a1a2 a1 parse (awaited lower upper c) w.
Proof.
  intros N P lower upper c a1 parse w H. unfold do_a1a2. rewrite C93_channels_partial by exact H.
  destruct (awaited lower upper c _ w) as [w1 [v|e]]; [|reflexivity]. rewrite C93_channels_partial by exact H. reflexivity.
Qed.
Print Assumptions C93_a1a2_partial.

(** ... and over the others it returns an A2 packet without having asked anybody. *)
Theorem C93_a1a2_refuted : forall N uw (lower : chan -> meth) (upper : chan -> meth -> meth) c a1 (w : world (N := N)),
  mute c ->
  exists a2, do_a1a2 a1 (fun v => a2_ctor uw (match v with VNone => [] | VMsg b => b end)) (synced lower upper c) w = (w, Ok a2).
Proof.
  intros N uw lower upper c a1 w H. unfold do_a1a2.
  destruct (C93_channels_refuted N lower upper [] c a1 [] false w H) as [_ R]. cbn [mitms] in R.
  assert (E : synced lower upper c (AWriteC a1 [] false) w = (w, Ok VNone)) by (destruct c; try contradiction; reflexivity).
  rewrite E, R. eexists. reflexivity.
Qed.
Print Assumptions C93_a1a2_refuted.

(** Called while the event loop of the thread runs: the blocking methods of SocketChannel and of
    A1ClientSession, which are written by hand, work; those made by [Syncizer] raise RuntimeError
    and do nothing. *)
Theorem C93_running : forall (A V W : Type) (sem : body -> A -> W -> W * res V) args w,
  call sem (class_of SocketChannel_stmts) true "read_sync" args w = sem (Body "SocketChannel" "read_sync") args w /\
  call sem (class_of SocketChannel_stmts) true "write_sync" args w = sem (Body "SocketChannel" "write_sync") args w /\
  call sem (class_of MitmChannel_stmts) true "read_sync" args w = sem (Body "MitmChannel" "read_sync") args w /\
  call sem (class_of MitmChannel_stmts) true "write_sync" args w = sem (Body "MitmChannel" "write_sync") args w /\
  call sem (class_of A1ClientSession_stmts) true "do_a1a2_sync" args w = sem (Body "A1ClientSession" "do_a1a2_sync") args w /\
  (forall k n, In (k, n) [(AsyncioChannel_stmts, "read_sync"); (AsyncioChannel_stmts, "write_sync"); (AppChannelV2_stmts, "read_sync"); (AppChannelV2_stmts, "write_sync");
      (SaltClientSession_stmts, "handshake_sync"); (SaltServerSession_stmts, "handshake_sync")]%string ->
     call sem (class_of k) true n args w = (w, Err RuntimeError)).
Proof.
  intros A V W sem args w. repeat (split; [reflexivity|]). intros k n H. cbn [In] in H.
  repeat (destruct H as [E|H]; [injection E as <- <-; reflexivity|]). contradiction.
Qed.
Print Assumptions C93_running.

(** Awaiting [read()] or [write(...)] of a Tunnel's end raises TypeError, but only after the
    method, which is no coroutine, has done its work: a message read in this way is lost. *)
Theorem C93_tunnel_refuted : forall N (lower : chan -> meth) (upper : chan -> meth -> meth) i a (w w' : world (N := N)) v,
  lower (ChTunnel i) a w = (w', Ok v) -> awaited lower upper (ChTunnel i) a w = (w', Err TypeError).
Proof.
  intros N lower upper i a w w' v E.
  assert (X : awaited lower upper (ChTunnel i) a w = no_coroutine (lower (ChTunnel i) a w)) by (destruct a; reflexivity).
  rewrite X, E. reflexivity.
Qed.
Print Assumptions C93_tunnel_refuted.

(** A user's subclass of AppChannelV2 that overrides the coroutine [write]: the inherited
    [write_sync] runs the override. *)
Example C93_subclass_example : forall (A V W : Type) (sem : body -> A -> W -> W * res V) args w,
  call sem (class_of (Stmt false [("write"%string, Coro (Body "MyChannel" "write"))] :: AppChannelV2_stmts)) false "write_sync" args w
  = sem (Body "MyChannel" "write") args w /\
  call sem (class_of AppChannelV2_stmts) false "write_sync" args w = sem (Body "AppChannelV2" "write") args w /\
  call sem (class_of SaltClientSession_stmts) false "handshake_sync" args w = sem (Body "SaltClientSession" "handshake") args w /\
  call sem (class_of SaltClientSession_stmts) true "handshake_sync" args w = (w, Err RuntimeError) /\
  call sem (class_of EncryptedChannelV2_stmts) false "write_sync" args w = sem (Body "ByteChannel" "write_sync") args w.
Proof. intros. repeat split; reflexivity. Qed.

(** A [write_sync] written by hand in a body that [Syncizer] handles is replaced. *)
Example C93_handwritten_example : forall (A V W : Type) (sem : body -> A -> W -> W * res V) args w,
  call sem (class_of [Stmt true [("write_sync"%string, Plain (Body "Mine" "write_sync")); ("write"%string, Coro (Body "Mine" "write"))]])
       false "write_sync" args w = sem (Body "Mine" "write") args w.
Proof. reflexivity. Qed.

(** A transport that keeps what is written, an encryption that prefixes a byte: the same
    message sent asynchronously and synchronously. *)
Definition ex_lower (c : chan) (a : cargs) (w : world (N := list bytes)) : world * res cval :=
  match a with AWriteC m args _ => ((fst w ++ m :: args, snd w), Ok VNone) | AReadC => (w, Ok (VMsg [x2a])) end.
Definition ex_upper (c : chan) (below : meth) (a : cargs) (w : world (N := list bytes)) : world * res cval :=
  match a with AWriteC m args l => below (AWriteC (x06 :: m) args l) w | AReadC => below AReadC w end.
Definition ex_w : world (N := list bytes) := ([], fun _ => (0, 0)).

Example C93_channels_example :
  let enc := ChEnc 1 (ChMitm 2 (ChSocket 3)) in
  fst (fst (awaited ex_lower ex_upper enc (AWriteC [x68; x69] [] false) ex_w)) = [[x06; x68; x69]] /\
  fst (fst (synced ex_lower ex_upper enc (AWriteC [x68; x69] [] false) ex_w)) = [] /\
  snd (synced ex_lower ex_upper enc (AWriteC [x68; x69] [] false) ex_w) = Ok VNone /\
  fst (fst (synced ex_lower ex_upper (ChApp 0 enc) (AWriteC [x68; x69] [] false) ex_w)) = [[x06; x06; x68; x69]] /\
  snd (fst (synced ex_lower ex_upper (ChMitm 2 (ChSocket 3)) (AWriteC [x68; x69] [[x21]] true) ex_w)) 2%nat = (0, 3).
Proof. repeat split; reflexivity. Qed.

Example C93_tunnel_example :
  awaited ex_lower ex_upper (ChTunnel 0) (AWriteC [x68] [] false) ex_w = (([[x68]], snd ex_w), Err TypeError).
Proof. reflexivity. Qed.
