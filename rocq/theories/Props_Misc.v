(** Properties of library selection, singletons, time keepers and the development
    channels: C44-C48, C54-C57. *)
From Coq Require Import List ZArith Bool Strings.Byte Lia ZifyBool ZifyNat ZifyN.
From Verif Require Import PyBase PyBase_proofs IO IO_proofs Crypto Time SaltLib Dev.
Import ListNotations.
Open Scope Z_scope.
Ltac Zify.zify_post_hook ::= Z.div_mod_to_equations.

(** ** C44 (expected: getLib returns the requested library, and for BEST the first
    available one) is false of the code. *)

(** The candidates for a request, best first. *)
Definition candidates (t : lib_type) : list backend :=
  match t with
  | LIB_BEST => [Native; PyNaCl; TweetNaClExt]
  | LIB_NATIVE => [Native]
  | LIB_PYNACL => [PyNaCl]
  | LIB_TWEETNACL_EXT => [TweetNaClExt]
  end.

(** An explicit request is answered with None whatever is available; the best one is
    only ever the native library, and its absence is an error whatever else there
    is. *)
Theorem C44_library_selection_refuted : forall available,
  (forall t, t <> LIB_BEST -> get_lib available t = Ok None) /\
  (available Native = false -> get_lib available LIB_BEST = Err NoSuchLibException).
Proof.
  intro av. split.
  - intros t H. destruct t; [contradiction|reflexivity..].
  - intro H. unfold get_lib, lib_map. rewrite H. reflexivity.
Qed.
Print Assumptions C44_library_selection_refuted.

(** What holds: whenever a library is returned, it is an available one and the first
    available candidate; no request for BEST returns None. *)
Theorem C44_library_selection_partial : forall available t,
  (forall b, get_lib available t = Ok (Some b) -> find available (candidates t) = Some b) /\
  (get_lib available t = Ok None -> t <> LIB_BEST) /\
  (forall e, get_lib available t = Err e -> e = NoSuchLibException /\ t = LIB_BEST) /\
  (t = LIB_BEST -> available Native = true -> get_lib available t = Ok (Some Native)).
Proof.
  intros av t. unfold get_lib, lib_map, candidates, find. split; [|split; [|split]].
  - intros b H. destruct t; try discriminate. destruct (av Native); [|discriminate]. congruence.
  - intros H E. subst t. destruct (av Native); discriminate.
  - intros e H. destruct t; try discriminate. destruct (av Native); [discriminate|]. split; [congruence|reflexivity].
  - intros -> H. rewrite H. reflexivity.
Qed.
Print Assumptions C44_library_selection_partial.

(** PyNaCl alone installed. *)
Example C44_example :
  let av b := match b with PyNaCl => true | _ => false end in
  get_lib av LIB_BEST = Err NoSuchLibException /\ get_lib av LIB_PYNACL = Ok None /\
  find av (candidates LIB_BEST) = Some PyNaCl.
Proof. repeat split. Qed.

(** ** C45: singletons.  In every history of constructions from a fresh interpreter:
    (1) what a construction returns is an instance of its class, built with the
    arguments of the first construction of that class whose initialiser succeeded;
    (2) two constructions return the same object exactly if they name the same
    class; (3) once a construction of a class has succeeded, all later ones do. *)
Definition first_success {A} (ks : list (construction A)) (c : nat) (i : nat) (args : A) : Prop :=
  (exists k, nth_error ks i = Some k /\ k_class k = c /\ k_args k = args /\ k_init k = Ok tt) /\
  (forall j k, (j < i)%nat -> nth_error ks j = Some k -> k_class k = c -> k_init k <> Ok tt).

Lemma reg_find_in {A} : forall c (r : list (nat * inst A)) i, reg_find c r = Some i -> In (c, i) r.
Proof.
  induction r as [|[c' i'] r IH]; intros i H; [discriminate|]. cbn in H.
  destruct (Nat.eqb_spec c c'); [left; congruence|right; auto].
Qed.

(** Invariant of the interpreter after the constructions [done]. *)
Definition reg_ok {A} (done : list (construction A)) (p : pystate A) : Prop :=
  (forall c i, reg_find c (p_instances p) = Some i -> i_class i = c /\ (i_id i < p_next p)%nat /\
     exists n, (n < length done)%nat /\ first_success done c n (i_args i)) /\
  (forall c, reg_find c (p_instances p) = None -> forall k, In k done -> k_class k = c -> k_init k <> Ok tt) /\
  (forall c d i j, reg_find c (p_instances p) = Some i -> reg_find d (p_instances p) = Some j -> i_id i = i_id j -> c = d).

Lemma first_success_app {A} : forall (ks rest : list (construction A)) c n a, (n < length ks)%nat ->
  first_success ks c n a -> first_success (ks ++ rest) c n a.
Proof.
  intros ks rest c n a Hn [(k & H1 & H2) H3]. split.
  - exists k. rewrite nth_error_app1 by exact Hn. auto.
  - intros j k' Hj Hk. rewrite nth_error_app1 in Hk by lia. eauto.
Qed.

Lemma reg_ok_step {A} : forall done (p : pystate A) k p' r, reg_ok done p -> construct p k = (p', r) ->
  reg_ok (done ++ [k]) p' /\
  (forall i, r = Ok i -> reg_find (k_class k) (p_instances p') = Some i) /\
  (forall c i, reg_find c (p_instances p) = Some i -> reg_find c (p_instances p') = Some i) /\
  (forall i, reg_find (k_class k) (p_instances p) = Some i -> r = Ok i).
Proof.
  intros done p k p' r (I1 & I2 & I3) H. unfold construct in H.
  assert (LA : forall c i n, (n < length done)%nat /\ first_success done c n (i_args i) ->
               (n < length (done ++ [k]))%nat /\ first_success (done ++ [k]) c n (i_args (A:=A) i)).
  { intros c i n [H1 H2]. split; [rewrite app_length; cbn; lia|apply first_success_app; auto]. }
  destruct (reg_find (k_class k) (p_instances p)) as [i0|] eqn:E0.
  - injection H as <- <-. split; [|split; [|split]]; auto; try congruence.
    split; [|split]; auto.
    + intros c i Hc. destruct (I1 c i Hc) as (A1 & A2 & n & A3). split; [exact A1|split; [exact A2|]]. exists n. auto.
    + intros c Hc k' Hin Hk. apply in_app_or in Hin. destruct Hin as [Hin|[<-|[]]]; [eauto|]. congruence.
  - destruct (k_init k) as [[]|e] eqn:EI; injection H as <- <-.
    + split; [|split; [|split]].
      * split; [|split]; cbn [p_instances p_next reg_find].
        -- intros c i. destruct (Nat.eqb_spec c (k_class k)) as [->|Hne].
           ++ intro H. injection H as <-. cbn. split; [reflexivity|split; [lia|]]. exists (length done).
              split; [rewrite app_length; cbn; lia|]. split.
              ** exists k. rewrite nth_error_app2, Nat.sub_diag by lia. cbn. auto.
              ** intros j k' Hj Hk Hcl. rewrite nth_error_app1 in Hk by lia. apply nth_error_In in Hk. eauto.
           ++ intro H. destruct (I1 c i H) as (A1 & A2 & n & A3). split; [exact A1|split; [lia|]]. exists n. auto.
        -- intros c. destruct (Nat.eqb_spec c (k_class k)) as [->|Hne]; [discriminate|].
           intros Hc k' Hin Hk. apply in_app_or in Hin. destruct Hin as [Hin|[<-|[]]]; [eauto|]. congruence.
        -- intros c d i j. destruct (Nat.eqb_spec c (k_class k)) as [->|Hc]; destruct (Nat.eqb_spec d (k_class k)) as [->|Hd]; auto.
           ++ intros Hi Hj. injection Hi as <-. cbn. intro E. destruct (I1 d j Hj) as (_ & A2 & _). lia.
           ++ intros Hi Hj. injection Hj as <-. cbn. intro E. destruct (I1 c i Hi) as (_ & A2 & _). lia.
           ++ intros Hi Hj. eauto.
      * intros i Hi. injection Hi as <-. cbn. rewrite Nat.eqb_refl. reflexivity.
      * intros c i Hc. cbn. destruct (Nat.eqb_spec c (k_class k)) as [->|Hne]; [congruence|exact Hc].
      * discriminate.
    + split; [|split; [|split]]; auto; try discriminate. split; [|split]; cbn [p_instances p_next]; auto.
      * intros c i Hc. destruct (I1 c i Hc) as (A1 & A2 & n & A3). split; [exact A1|split; [lia|]]. exists n. auto.
      * intros c Hc k' Hin Hk. apply in_app_or in Hin. destruct Hin as [Hin|[<-|[]]]; [eauto|]. congruence.
Qed.

Lemma construct_all_inv {A} : forall ks done (p : pystate A) p' rs, reg_ok done p -> construct_all p ks = (p', rs) ->
  reg_ok (done ++ ks) p' /\ length rs = length ks /\
  (forall c i, reg_find c (p_instances p) = Some i -> reg_find c (p_instances p') = Some i) /\
  (forall n k i, nth_error ks n = Some k -> nth_error rs n = Some (Ok i) -> reg_find (k_class k) (p_instances p') = Some i) /\
  (forall n k i, nth_error ks n = Some k -> reg_find (k_class k) (p_instances p) = Some i -> nth_error rs n = Some (Ok i)).
Proof.
  induction ks as [|k ks IH]; intros done p p' rs HI H.
  - injection H as <- <-. rewrite app_nil_r. split; [exact HI|split; [reflexivity|split; [auto|split]]]; intros n k i Hn; destruct n; discriminate.
  - cbn in H. destruct (construct p k) as [p1 x] eqn:E1. destruct (construct_all p1 ks) as [p2 xs] eqn:E2. injection H as <- <-.
    destruct (reg_ok_step _ _ _ _ _ HI E1) as (H1 & H2 & H3 & H4).
    destruct (IH _ _ _ _ H1 E2) as (G1 & G2 & G3 & G4 & G5).
    rewrite <- app_assoc in G1. split; [exact G1|split; [cbn; lia|split; [auto|split]]].
    + intros [|n] k' i Hk Hr; cbn in Hk, Hr; [injection Hk as <-; injection Hr as Hr; eauto|eauto].
    + intros [|n] k' i Hk Hr; cbn in Hk |- *; [injection Hk as <-; f_equal; eauto|eauto].
Qed.

Lemma construct_all_split {A} : forall a b (p : pystate A),
  construct_all p (a ++ b) = (fst (construct_all (fst (construct_all p a)) b),
                              snd (construct_all p a) ++ snd (construct_all (fst (construct_all p a)) b)).
Proof.
  induction a as [|k a IH]; intros b p; cbn.
  - destruct (construct_all p b); reflexivity.
  - destruct (construct p k) as [p1 x]. rewrite IH. destruct (construct_all p1 a) as [p2 xs]. reflexivity.
Qed.

Theorem C45_singleton : forall (A : Type) (ks : list (construction A)),
  let rs := snd (construct_all py_start ks) in
  length rs = length ks /\
  (forall n k i, nth_error ks n = Some k -> nth_error rs n = Some (Ok i) ->
     i_class i = k_class k /\ exists m, (m <= n)%nat /\ first_success ks (k_class k) m (i_args i)) /\
  (forall n m k l i j, nth_error ks n = Some k -> nth_error rs n = Some (Ok i) ->
     nth_error ks m = Some l -> nth_error rs m = Some (Ok j) ->
     ((i_id i = i_id j <-> k_class k = k_class l) /\ (k_class k = k_class l -> i = j))) /\
  (forall n m k l i, (n <= m)%nat -> nth_error ks n = Some k -> nth_error rs n = Some (Ok i) ->
     nth_error ks m = Some l -> k_class k = k_class l -> nth_error rs m = Some (Ok i)).
Proof.
  intros A ks rs. destruct (construct_all py_start ks) as [p' rs0] eqn:E. subst rs. cbn [snd].
  assert (HI : @reg_ok A [] py_start).
  { split; [|split]; cbn; try discriminate. intros c _ k []. }
  destruct (construct_all_inv _ _ _ _ _ HI E) as ((I1 & I2 & I3) & H2 & H3 & H4 & H5). cbn [app] in *.
  (* a later construction of the same class finds the object of the earlier one *)
  assert (PRE : forall n k i, nth_error ks n = Some k -> nth_error rs0 n = Some (Ok i) ->
            exists a b, ks = a ++ k :: b /\ length a = n /\
              reg_find (k_class k) (p_instances (fst (construct_all py_start (a ++ [k])))) = Some i).
  { intros n k i Hk Hr. destruct (nth_error_split _ _ Hk) as (a & b & Ek & El). exists a, b. split; [exact Ek|split; [exact El|]].
    assert (E' : ks = (a ++ [k]) ++ b) by (rewrite <- app_assoc; exact Ek). rewrite E', construct_all_split in E. injection E as Ep Er.
    destruct (construct_all py_start (a ++ [k])) as [p1 r1] eqn:E1. cbn [fst snd] in *.
    destruct (construct_all_inv _ _ _ _ _ HI E1) as (_ & L2 & _ & L4 & _).
    apply (L4 n k i); [rewrite nth_error_app2, El, Nat.sub_diag by lia; reflexivity|].
    rewrite <- Er, nth_error_app1 in Hr; [exact Hr|]. rewrite L2, app_length. cbn. lia. }
  split; [exact H2|split; [|split]].
  - intros n k i Hk Hr. destruct (I1 _ _ (H4 _ _ _ Hk Hr)) as (A1 & _ & m & _ & A3). split; [exact A1|].
    exists m. split; [|exact A3]. destruct (PRE _ _ _ Hk Hr) as (a & b & Ek & El & Hf).
    destruct (construct_all py_start (a ++ [k])) as [p1 r1] eqn:E1. cbn [fst] in Hf.
    destruct (construct_all_inv _ _ _ _ _ HI E1) as ((J1 & _) & _). destruct (J1 _ _ Hf) as (_ & _ & m' & B1 & B2). cbn [app] in *.
    rewrite app_length in B1. cbn in B1. destruct (Nat.le_gt_cases m n) as [Hle|Hgt]; [exact Hle|exfalso].
    destruct A3 as [_ A3]. destruct B2 as [(k2 & Q1 & Q2 & Q3 & Q4) _]. apply (A3 m' k2); [lia| |exact Q2|exact Q4].
    rewrite Ek. replace (a ++ k :: b) with ((a ++ [k]) ++ b) by (rewrite <- app_assoc; reflexivity).
    rewrite nth_error_app1; [exact Q1|]. rewrite app_length. cbn. lia.
  - intros n m k l i j Hk Hr Hl Hs. pose proof (H4 _ _ _ Hk Hr) as F1. pose proof (H4 _ _ _ Hl Hs) as F2.
    assert (SAME : k_class k = k_class l -> i = j) by (intro Ec; rewrite Ec in F1; congruence).
    split; [|exact SAME]. split; [intro Ei; eauto|intro Ec; rewrite (SAME Ec); reflexivity].
  - intros n m k l i Hle Hk Hr Hl Hc. destruct (PRE _ _ _ Hk Hr) as (a & b & Ek & El & Hf).
    destruct (Nat.eq_dec n m) as [->|Hne]; [exact Hr|].
    assert (E' : ks = (a ++ [k]) ++ b) by (rewrite <- app_assoc; exact Ek). rewrite E', construct_all_split in E. injection E as Ep Er.
    destruct (construct_all py_start (a ++ [k])) as [p1 r1] eqn:E1. cbn [fst snd] in *.
    destruct (construct_all_inv _ _ _ _ _ HI E1) as (J0 & L2 & _).
    destruct (construct_all p1 b) as [p2 r2] eqn:E2. cbn [fst snd] in *.
    destruct (construct_all_inv _ _ _ _ _ J0 E2) as (_ & _ & _ & _ & L5).
    rewrite app_length in L2. cbn in L2.
    rewrite E', nth_error_app2 in Hl by (rewrite app_length; cbn; lia). rewrite app_length in Hl. cbn in Hl.
    rewrite <- Er, nth_error_app2 by lia. rewrite L2. eapply L5; [exact Hl|]. congruence.
Qed.
Print Assumptions C45_singleton.

(** The second construction of class 7 asks for other arguments and gets the first
    object; a failed initialiser leaves nothing behind; class 8 has its own object. *)
Example C45_example :
  map (fun r => match r with Ok i => Some (i_id i, i_args i) | Err _ => None end)
    (snd (construct_all py_start
       [Construction 7 (Z0) (Err ValueError); Construction 7 1 (Ok tt); Construction 8 2 (Ok tt); Construction 7 3 (Ok tt)]))
  = [None; Some (1%nat, 1); Some (2%nat, 2); Some (1%nat, 1)].
Proof. reflexivity. Qed.

(** ** C46: MitmChannel is transparent.  For every program [p] that uses a channel:
    its executions over a MitmChannel are exactly its executions over the wrapped
    channel (same events, same results), and afterwards the counters have grown by
    the lengths of the messages transferred, successful calls only. *)
Inductive calls_ok {A} : io A -> Prop :=
| co_ret : forall a, calls_ok (Ret a)
| co_read : forall k, (forall r, calls_ok (k r)) -> calls_ok (Read k)
| co_write : forall ms l k, ms <> [] -> (forall r, calls_ok (k r)) -> calls_ok (Write ms l k).

Definition sum_len (ms : list bytes) : Z := zlen (concat ms).
Definition ev_read_len (e : ev) : Z := match e with ERead (Ok d) => zlen d | _ => 0 end.
Definition ev_write_len (e : ev) : Z := match e with EWrite ms _ (Ok _) => sum_len ms | _ => 0 end.
Definition total (f : ev -> Z) (t : list ev) : Z := fold_right (fun e n => f e + n) 0 t.

(** What a logger is told about an event. *)
Definition ev_log (e : ev) : list (mitm_event * bytes) :=
  match e with
  | ERead (Ok d) => [(EvRead, d)]
  | EWrite (m :: args) _ (Ok _) => (EvWrite, m) :: map (fun a => (EvWriteWithPrevious, a)) args
  | _ => []
  end.
Definition logs (s : mitm) (t : list ev) : list (mitm_event * bytes) :=
  if mm_log s && negb (mm_log_buffering s) then flat_map ev_log t else [].

(** The state of a MitmChannel after the events [t]. *)
Definition mitm_after (s : mitm) (t : list ev) : mitm :=
  Mitm (mm_log s) (mm_log_buffering s) (mm_counter_read s + total ev_read_len t)
       (mm_counter_write s + total ev_write_len t) (mm_queue s) (mm_logged s ++ logs s t).

Lemma fold_add_write : forall ms s,
  fold_left (fun s m => add_write (zlen m) s) ms s =
  Mitm (mm_log s) (mm_log_buffering s) (mm_counter_read s) (mm_counter_write s + sum_len ms) (mm_queue s) (mm_logged s).
Proof.
  induction ms as [|m ms IH]; intro s; cbn [fold_left].
  - unfold sum_len, zlen. cbn. rewrite Z.add_0_r. destruct s; reflexivity.
  - rewrite IH. unfold add_write. cbn. f_equal. unfold sum_len, zlen. cbn [concat]. rewrite app_length. lia.
Qed.

Lemma log_event_plain : forall r s, mm_log s = true ->
  log_event r false s = Mitm (mm_log s) (mm_log_buffering s) (mm_counter_read s) (mm_counter_write s) (mm_queue s)
    (mm_logged s ++ if mm_log_buffering s then [] else [r]).
Proof.
  intros r [lg b cr cw q ld] H. cbn in H. subst lg. unfold log_event. cbn. destruct b; [cbn; rewrite app_nil_r; reflexivity|reflexivity].
Qed.

Lemma fold_log_args : forall args s, mm_log s = true ->
  fold_left (fun s m => log_event (EvWriteWithPrevious, m) false s) args s =
  Mitm (mm_log s) (mm_log_buffering s) (mm_counter_read s) (mm_counter_write s) (mm_queue s)
    (mm_logged s ++ if mm_log_buffering s then [] else map (fun a => (EvWriteWithPrevious, a)) args).
Proof.
  induction args as [|a args IH]; intros s H; cbn [fold_left].
  - destruct s as [lg b cr cw q ld]. cbn in *. destruct b; rewrite app_nil_r; reflexivity.
  - rewrite log_event_plain by exact H. rewrite IH by exact H. cbn.
    rewrite <- app_assoc. destruct (mm_log_buffering s); reflexivity.
Qed.

Lemma mitm_after_nil : forall s, mitm_after s [] = s.
Proof.
  intros [lg b cr cw q ld]. unfold mitm_after, logs. cbn. rewrite !Z.add_0_r. destruct (_ && _); rewrite app_nil_r; reflexivity.
Qed.

Lemma mitm_after_cons : forall s e t, mitm_after s (e :: t) = mitm_after (mitm_after s [e]) t.
Proof.
  intros [lg b cr cw q ld] e t. unfold mitm_after, logs. cbn [mm_log mm_log_buffering mm_counter_read mm_counter_write mm_queue mm_logged total fold_right flat_map].
  rewrite <- app_assoc. f_equal; try (unfold total; lia).
  f_equal. destruct (lg && negb b); [|reflexivity]. rewrite app_nil_r. reflexivity.
Qed.

Lemma mitm_after_err : forall s e, ev_read_len e = 0 -> ev_write_len e = 0 -> ev_log e = [] -> mitm_after s [e] = s.
Proof.
  intros [lg b cr cw q ld] e H1 H2 H3. unfold mitm_after, logs, total. cbn. rewrite H1, H2, H3, !Z.add_0_r. cbn.
  destruct (_ && _); rewrite app_nil_r; reflexivity.
Qed.

Lemma mitm_read_k : forall s, exists k', mitm_read s = Read k' /\ forall r, k' r = Ret (mitm_after s [ERead r], r).
Proof.
  intro s. eexists. split; [reflexivity|]. intros [d|e]; cbn [iobind fst snd mbind mmod mret].
  - f_equal. f_equal. destruct s as [lg b cr cw q ld]. unfold mitm_after, logs, add_read, log_event. cbn.
    destruct lg, b; cbn; rewrite ?Z.add_0_r, ?app_nil_r; reflexivity.
  - rewrite mitm_after_err by reflexivity. reflexivity.
Qed.

Lemma mitm_write_k : forall m args l s, exists k', mitm_write m args l s = Write (m :: args) l k' /\
  forall r, k' r = Ret (mitm_after s [EWrite (m :: args) l r], r).
Proof.
  intros m args l s. eexists. split; [reflexivity|]. intros [[]|e]; cbn [iobind fst snd mbind mmod mret].
  - unfold mmod. rewrite fold_add_write. cbn [mm_log]. f_equal. f_equal.
    destruct s as [lg b cr cw q ld]. destruct lg; cbn [mm_log].
    + rewrite log_event_plain, fold_log_args by reflexivity. unfold mitm_after, logs, total. cbn.
      destruct b; cbn; rewrite ?Z.add_0_r, ?app_nil_r; rewrite <- ?app_assoc; reflexivity.
    + unfold mitm_after, logs, total. cbn. rewrite ?Z.add_0_r, app_nil_r. reflexivity.
  - rewrite mitm_after_err by reflexivity. reflexivity.
Qed.

Lemma via_read : forall A (k : res bytes -> io A) s, exists k', via_mitm (Read k) s = Read k' /\
  forall r, k' r = via_mitm (k r) (mitm_after s [ERead r]).
Proof.
  intros A k s. cbn [via_mitm]. destruct (mitm_read_k s) as (k' & E & H). rewrite E. eexists. split; [reflexivity|].
  intro r. cbv beta. rewrite H. reflexivity.
Qed.

Lemma via_write : forall A ms l (k : res unit -> io A) s, ms <> [] -> exists k', via_mitm (Write ms l k) s = Write ms l k' /\
  forall r, k' r = via_mitm (k r) (mitm_after s [EWrite ms l r]).
Proof.
  intros A [|m args] l k s HN; [contradiction|]. cbn [via_mitm]. destruct (mitm_write_k m args l s) as (k' & E & H). rewrite E.
  eexists. split; [reflexivity|]. intro r. cbv beta. rewrite H. reflexivity.
Qed.

Theorem C46_mitm_transparent : forall A (p : io A), calls_ok p -> forall s t o,
  exec (via_mitm p s) t o <->
  exists o', exec p t o' /\ o = option_map (fun a => (a, mitm_after s t)) o'.
Proof.
  intros A p. induction p as [a|k IH|ms l k IH]; intros HC s t o.
  - cbn. split.
    + intro H. apply exec_ret_any in H. destruct H as [-> [->| ->]]; [exists None|exists (Some a)]; (split; [constructor|]); cbn; rewrite ?mitm_after_nil; reflexivity.
    + intros (o' & H & ->). apply exec_ret_any in H. destruct H as [-> [->| ->]]; cbn; rewrite ?mitm_after_nil; constructor.
  - inversion HC as [|k0 HK E|]; subst k0. destruct (via_read _ k s) as (k' & -> & HV). split.
    + intro H. apply exec_read_inv in H. destruct H as [[-> ->]|(r & t' & -> & H)]; [exists None; split; constructor|].
      rewrite HV in H. apply IH in H; [|apply HK]. destruct H as (o' & H & ->). exists o'. split; [constructor; exact H|].
      rewrite (mitm_after_cons s _ t'). reflexivity.
    + intros (o' & H & ->). apply exec_read_inv in H. destruct H as [[-> ->]|(r & t' & -> & H)]; constructor.
      rewrite HV. apply IH; [apply HK|]. exists o'. rewrite (mitm_after_cons s _ t'). auto.
  - inversion HC as [| |ms0 l0 k0 HN HK E1]; subst ms0 l0 k0. destruct (via_write _ ms l k s HN) as (k' & -> & HV). split.
    + intro H. apply exec_write_inv in H. destruct H as [[-> ->]|(r & t' & -> & H)]; [exists None; split; constructor|].
      rewrite HV in H. apply IH in H; [|apply HK]. destruct H as (o' & H & ->). exists o'. split; [constructor; exact H|].
      rewrite (mitm_after_cons s _ t'). reflexivity.
    + intros (o' & H & ->). apply exec_write_inv in H. destruct H as [[-> ->]|(r & t' & -> & H)]; constructor.
      rewrite HV. apply IH; [apply HK|]. exists o'. rewrite (mitm_after_cons s _ t'). auto.
Qed.
Print Assumptions C46_mitm_transparent.

(** A new MitmChannel counts from 0; with a logger it logs every message read or written, in
    order, and without one nothing. *)
Theorem C46_fresh : forall A (p : io A) log t a s, calls_ok p -> exec (via_mitm p (mitm_init log)) t (Some (a, s)) ->
  exec p t (Some a) /\ mm_counter_read s = total ev_read_len t /\ mm_counter_write s = total ev_write_len t /\
  mm_logged s = (if log then flat_map ev_log t else []) /\ mm_queue s = [].
Proof.
  intros A p log t a s HC H. apply C46_mitm_transparent in H; [|exact HC]. destruct H as ([o'|] & HX & H); [|discriminate].
  cbn [option_map] in H. injection H as <- ->. split; [exact HX|]. unfold mitm_after, logs, mitm_init.
  cbn [mm_log mm_log_buffering mm_counter_read mm_counter_write mm_queue mm_logged app negb]. rewrite andb_true_r. auto.
Qed.
Print Assumptions C46_fresh.

(** A program that reads 3 bytes, fails to write, and writes 2 + 1 bytes. *)
Example C46_example :
  let p := Read (fun _ => Write [[x01]] false (fun _ => Write [[x02; x03]; [x04]] true (fun _ => Ret tt))) in
  calls_ok p /\
  exec (via_mitm p (mitm_init true)) [ERead (Ok [x05; x06; x07]); EWrite [[x01]] false (Err OSError); EWrite [[x02; x03]; [x04]] true (Ok tt)]
    (Some (tt, Mitm true false 3 3 [] [(EvRead, [x05; x06; x07]); (EvWrite, [x02; x03]); (EvWriteWithPrevious, [x04])])).
Proof. cbn. split; repeat (constructor; try discriminate; intros). Qed.

(** ** C56 (expected: events logged while buffering are delivered by
    flush_log_buffer) is false of the code: with a logger and [log_buffering] every
    event is dropped, whatever program ran in between. *)
Theorem C56_log_buffer_refuted : forall A (p : io A) log t a s, calls_ok p ->
  exec (via_mitm p (set_log_buffering true (mitm_init log))) t (Some (a, s)) ->
  mm_logged (flush_log_buffer s) = [] /\ mm_queue s = [].
Proof.
  intros A p log t a s HC H. apply C46_mitm_transparent in H; [|exact HC]. destruct H as ([o'|] & _ & H); [|discriminate].
  cbn in H. injection H as _ ->. unfold mitm_after, logs, flush_log_buffer. cbn. rewrite andb_false_r. split; reflexivity.
Qed.
Print Assumptions C56_log_buffer_refuted.

Example C56_example : exists s,
  exec (via_mitm (Read (fun r => Ret r)) (set_log_buffering true (mitm_init true))) [ERead (Ok [x05])] (Some (Ok [x05], s)) /\
  mm_counter_read s = 1.
Proof. eexists. split; [repeat constructor|reflexivity]. Qed.

(** ** C47 (expected: a message written to one end of a Tunnel can be read at the
    other) is false of the code: every write of a message (bytes) raises TypeError and
    changes nothing, so after any history of such calls every read fails. *)
Inductive tcall : Type := TRead (e : tend) | TWrite (e : tend) (m : tval) (args : list bytes).
Definition tdo (t : tunnel) (c : tcall) : tunnel :=
  match c with TRead e => fst (tunnel_read e t) | TWrite e m args => fst (tunnel_write e m args t) end.

Theorem C47_tunnel_refuted : forall calls,
  Forall (fun c => match c with TWrite _ (TTuple _) _ => False | _ => True end) calls ->
  let t := fold_left tdo calls tunnel_init in
  (forall e m args, tunnel_write e (TBytes m) args t = (t, Err TypeError)) /\
  (forall e, tunnel_read e t = (t, Err IndexError)).
Proof.
  intros calls HC. assert (E : fold_left tdo calls tunnel_init = tunnel_init).
  { induction HC as [|c calls HC _ IH]; [reflexivity|]. cbn. destruct c as [[]|[] [m|l] args]; try contradiction; exact IH. }
  cbv zeta. rewrite E. split; [reflexivity|intros []; reflexivity].
Qed.
Print Assumptions C47_tunnel_refuted.

(** What holds: a caller who passes the messages as a tuple gets a queue in each direction.
    [twrote e]: what was written at end [e]; [tgot e]: what the reads at [e] returned. *)
Definition other (e : tend) : tend := match e with End1 => End2 | End2 => End1 end.
Definition tend_eqb (a b : tend) : bool := match a, b with End1, End1 | End2, End2 => true | _, _ => false end.
Fixpoint twrote (e : tend) (calls : list tcall) : list bytes :=
  match calls with
  | [] => []
  | TWrite e' (TTuple l) args :: r => if tend_eqb e e' then l ++ args ++ twrote e r else twrote e r
  | _ :: r => twrote e r
  end.
Fixpoint tgot (e : tend) (t : tunnel) (calls : list tcall) : list bytes :=
  match calls with
  | [] => []
  | c :: r => match c with
              | TRead e' => match snd (tunnel_read e' t) with Ok m => if tend_eqb e e' then [m] else [] | Err _ => [] end
              | TWrite _ _ _ => []
              end ++ tgot e (tdo t c) r
  end.

(** For every history of reads and writes at both ends: the reads at an end have returned, in
    order and without loss, a prefix of what was written at the other; the next read returns
    the first message not yet read, IndexError if there is none; a write of a tuple succeeds. *)
Theorem C47_tunnel_partial : forall calls e,
  let t := fold_left tdo calls tunnel_init in
  (exists rest, twrote (other e) calls = tgot e tunnel_init calls ++ rest /\
     snd (tunnel_read e t) = match rest with m :: _ => Ok m | [] => Err IndexError end) /\
  (forall l args, snd (tunnel_write e (TTuple l) args t) = Ok tt).
Proof.
  intros calls e t. split; [|intros l args; destruct e; reflexivity].
  assert (K : forall calls t0, (match e with End1 => tn_q1 t0 | End2 => tn_q2 t0 end) ++ twrote (other e) calls
    = tgot e t0 calls ++ match e with End1 => tn_q1 (fold_left tdo calls t0) | End2 => tn_q2 (fold_left tdo calls t0) end).
  { clear. induction calls as [|c calls IH]; intros t0; [cbn; apply app_nil_r|].
    cbn [fold_left tgot]. rewrite <- app_assoc, <- IH. destruct t0 as [q1 q2].
    destruct c as [e'|e' [m|l] args]; destruct e, e'; try (cbn; reflexivity); cbn; try (destruct q1; reflexivity); try (destruct q2; reflexivity); try (rewrite <- !app_assoc; reflexivity). }
  specialize (K calls tunnel_init). fold t in K. eexists. split.
  - transitivity (tgot e tunnel_init calls ++ match e with End1 => tn_q1 t | End2 => tn_q2 t end); [|reflexivity]. rewrite <- K. destruct e; reflexivity.
  - destruct e; cbn [tunnel_read]; [destruct (tn_q1 t)|destruct (tn_q2 t)]; reflexivity.
Qed.
Print Assumptions C47_tunnel_partial.

Example C47_example :
  let calls := [TWrite End1 (TTuple [[x01]; [x02]]) [[x03]]; TWrite End1 (TBytes [x04]) []; TRead End2; TRead End1; TRead End2] in
  twrote End1 calls = [[x01]; [x02]; [x03]] /\ tgot End2 tunnel_init calls = [[x01]; [x02]] /\ tgot End1 tunnel_init calls = [] /\
  snd (tunnel_read End2 (fold_left tdo calls tunnel_init)) = Ok [x03].
Proof. repeat split. Qed.

(** ** C48: OneTwoThreeTimeKeeper.  Whatever happened before, get_first_time returns 1
    and the following calls of get_time return 2, 3, 4, ... *)
Lemma tk_calls_app : forall K a s b,
  exists s', tk_calls K s (a ++ b) = tk_calls K s a ++ tk_calls K s' b.
Proof.
  induction a as [|c a IH]; intros s b; [exists s; reflexivity|]. cbn.
  destruct (if c then tk_first K s else tk_get K s) as [v s1]. destruct (IH s1 b) as [s2 E]. exists s2. rewrite E. reflexivity.
Qed.

Lemma tk_calls_len : forall K a s, length (tk_calls K s a) = length a.
Proof. induction a as [|c a IH]; intro s; [reflexivity|]. cbn. destruct (if c then _ else _). cbn. f_equal. apply IH. Qed.

Theorem C48_counts : forall before n,
  exists vs, length vs = length before /\
    tk_calls one_two_three one_two_three_init (before ++ true :: repeat false n) = vs ++ map Z.of_nat (seq 1 (S n)).
Proof.
  intros before n. destruct (tk_calls_app one_two_three before one_two_three_init (true :: repeat false n)) as [s E].
  exists (tk_calls one_two_three one_two_three_init before). split; [apply tk_calls_len|]. rewrite E. f_equal.
  cbn [tk_calls one_two_three tk_first seq map]. f_equal.
  assert (G : forall n k, tk_calls one_two_three (Z.of_nat k) (repeat false n) = map Z.of_nat (seq (S k) n)).
  { clear. induction n as [|n IH]; intro k; [reflexivity|]. cbn [repeat tk_calls one_two_three tk_get seq map].
    f_equal; [lia|]. replace (Z.of_nat k + 1) with (Z.of_nat (S k)) by lia. apply IH. }
  apply (G n 1%nat).
Qed.
Print Assumptions C48_counts.

(** Before that, a new one counts from 1 too; and NullTimeKeeper says 0 every time. *)
Theorem C48_from_new : forall n s calls,
  tk_calls one_two_three one_two_three_init (repeat false n) = map Z.of_nat (seq 1 n) /\
  tk_calls null_keeper s calls = repeat 0 (length calls).
Proof.
  intros n s calls. split.
  - change one_two_three_init with (Z.of_nat 0). generalize 0%nat as k. induction n as [|n IH]; intro k; [reflexivity|].
    cbn [repeat tk_calls one_two_three tk_get seq map]. f_equal; [lia|]. replace (Z.of_nat k + 1) with (Z.of_nat (S k)) by lia. apply IH.
  - revert s. induction calls as [|c calls IH]; intro s; [reflexivity|]. cbn [tk_calls length repeat]. destruct c; cbn [null_keeper tk_first tk_get]; f_equal; apply IH.
Qed.
Print Assumptions C48_from_new.

Example C48_example : tk_calls one_two_three one_two_three_init [false; false; true; false; false; true; false] = [1; 2; 1; 2; 3; 1; 2].
Proof. reflexivity. Qed.

(** ** C57 (expected: the clocks of two sessions are independent) is false of the
    code: TimeKeeper is a singleton class, so [OneTwoThreeTimeKeeper()] is the same
    object in every session of the process (C45), and the calls of one session change
    what the other is told.  [interleaving] lists the calls with the session making
    them. *)
Definition session_times (calls : list (bool * bool)) (who : bool) : list Z :=
  map snd (filter (fun p => Bool.eqb (fst p) who)
     (combine (map fst calls) (tk_calls one_two_three one_two_three_init (map snd calls)))).
Definition own_calls (calls : list (bool * bool)) (who : bool) : list bool :=
  map snd (filter (fun p => Bool.eqb (fst p) who) calls).

(** For each session that makes any sequence of calls starting with get_first_time
    followed by at least one get_time, there is another session whose calls make its
    times differ from those of a keeper of its own. *)
Theorem C57_shared_clock_refuted : forall rest, exists calls,
  own_calls calls true = true :: false :: rest /\ own_calls calls false = [true; false] /\
  session_times calls true <> tk_calls one_two_three one_two_three_init (own_calls calls true).
Proof.
  intro rest. exists ((true, true) :: (false, true) :: (false, false) :: (true, false) :: map (fun c => (true, c)) rest).
  assert (O : forall w, filter (fun p => Bool.eqb (fst p) w) (map (fun c : bool => (true, c)) rest) =
                 if w then map (fun c => (true, c)) rest else []).
  { intro w. induction rest as [|c r IH]; [destruct w; reflexivity|]. cbn. rewrite IH. destruct w; reflexivity. }
  unfold own_calls. cbn [filter fst Bool.eqb map snd]. rewrite !O, map_map, map_id. split; [reflexivity|split; [reflexivity|]].
  unfold session_times. cbn. discriminate.
Qed.
Print Assumptions C57_shared_clock_refuted.

(** The handshake of example_session3 run in one process: client M1, server M2 and M3,
    client M4.  The example announces 1, 1, 2, 2. *)
Example C57_example :
  let calls := [(true, true); (false, true); (false, false); (true, false)] in
  session_times calls true = [1; 3] /\ session_times calls false = [1; 2].
Proof. split; reflexivity. Qed.

(** ** C54: keys rebuilt from their secret part.  [create_sig_keys_from_sec] uses the
    first 32 bytes of its argument, so given a secret key it returns the pair again,
    and everything after the seed is ignored; shorter arguments are refused.
    [create_enc_keys_from_sec] keeps the secret key it is given, and refuses every
    length but 32. *)
Record keygen_laws (a : api) : Prop := KeygenLaws {
  law_seed : forall s, length s = 32%nat -> exists pk, length pk = 32%nat /\ a_seed_keypair a s = Ok (pk, s ++ pk);
  law_base : forall s, length s = 32%nat -> exists pk, length pk = 32%nat /\ a_scalarmult_base a s = Ok pk
}.

Theorem C54_keys_from_sec : forall libs b, keygen_laws (libs b) ->
  (forall sec, (length sec < 32)%nat -> salt_call libs (Some b) (QSigKeysFrom sec) = Err ValueError) /\
  (forall sec, (32 <= length sec)%nat -> exists pub, length pub = 32%nat /\
     salt_call libs (Some b) (QSigKeysFrom sec) = Ok (AKeys (firstn 32 sec ++ pub) pub) /\
     salt_call libs (Some b) (QSigKeysFrom (firstn 32 sec ++ pub)) = Ok (AKeys (firstn 32 sec ++ pub) pub)) /\
  (forall sec, length sec <> 32%nat -> salt_call libs (Some b) (QEncKeysFrom sec) = Err ValueError) /\
  (forall sec, length sec = 32%nat -> exists pub, length pub = 32%nat /\
     salt_call libs (Some b) (QEncKeysFrom sec) = Ok (AKeys sec pub)).
Proof.
  intros libs b HL. unfold salt_call, with_api, sig_keys_from, enc_keys_from, sign_keypair, box_keypair, zlen, bytes in *.
  split; [|split; [|split]]; intros sec H.
  - rewrite firstn_length, Nat.min_r by lia. destruct (Z.eqb_spec (Z.of_nat (length sec)) 32); [lia|reflexivity].
  - assert (HF : length (firstn 32 sec) = 32%nat) by (rewrite firstn_length; lia).
    destruct (law_seed _ HL _ HF) as (pk & H1 & H2). exists pk. split; [exact H1|].
    assert (EF : firstn 32 (firstn 32 sec ++ pk) = firstn 32 sec) by (apply firstn_app_exact; exact HF).
    rewrite EF, HF. change (negb (Z.of_nat 32 =? 32)) with false. cbv iota. rewrite H2. split; reflexivity.
  - destruct (Z.eqb_spec (Z.of_nat (length sec)) 32); [lia|reflexivity].
  - destruct (law_base _ HL _ H) as (pk & H1 & H2). exists pk. split; [exact H1|].
    rewrite H. change (negb (Z.of_nat 32 =? 32)) with false. cbv iota. rewrite H2. reflexivity.
Qed.
Print Assumptions C54_keys_from_sec.

Definition toy_api : api := Api toy_lib (fun s => Ok (s, s ++ s)) (fun s => Ok s).
Example C54_example : keygen_laws toy_api /\
  salt_call (fun _ => toy_api) (Some PyNaCl) (QSigKeysFrom (repeat x07 40)) = Ok (AKeys (repeat x07 64) (repeat x07 32)).
Proof. split; [|reflexivity]. split; intros s H; exists s; auto. Qed.

(** ** C55 (expected: asking for a particular back end gives a working library) is
    false of the code.  The first [SaltLib(...)] of a process decides for all: if it
    names a back end explicitly, that and every later [SaltLib(...)], whatever its
    arguments, is an object on which every operation raises AttributeError. *)
Definition salt_args : Type := lib_type * rng.
Definition salt_construction (available : backend -> bool) (k : construction salt_args) : Prop :=
  k_init k = match salt_init available (fst (k_args k)) (snd (k_args k)) with Ok _ => Ok tt | Err e => Err e end.

Theorem C55_explicit_type_refuted : forall available libs (ks : list (construction salt_args)) k0 c n k i s,
  (forall k, In k (k0 :: ks) -> salt_construction available k) ->
  k_class k0 = c -> fst (k_args k0) <> LIB_BEST -> snd (k_args k0) = RNG_URANDOM ->
  nth_error (k0 :: ks) n = Some k -> k_class k = c ->
  nth_error (snd (construct_all py_start (k0 :: ks))) n = Some (Ok i) ->
  salt_init available (fst (i_args i)) (snd (i_args i)) = Ok s ->
  forall q, salt_call libs s q = Err AttributeError.
Proof.
  intros av libs ks k0 c n k i s HS Hc Ht Hr Hn Hk Hi Hs q.
  destruct (C45_singleton _ (k0 :: ks)) as (_ & P1 & _).
  destruct (P1 _ _ _ Hn Hi) as (_ & m & _ & FS).
  assert (m = 0%nat).
  { destruct m as [|m]; [reflexivity|exfalso]. destruct FS as [_ FS].
    apply (FS 0%nat k0); [lia|reflexivity|congruence|].
    rewrite (HS k0) by (left; reflexivity). unfold salt_init. rewrite Hr. destruct (fst (k_args k0)); [contradiction|reflexivity..]. }
  subst m. destruct FS as [(k' & E1 & E2 & E3 & E4) _]. cbn in E1. injection E1 as <-.
  rewrite <- E3, Hr in Hs. unfold salt_init in Hs.
  assert (s = None) by (destruct (fst (k_args k0)); [contradiction|cbn in Hs; congruence..]). subst s. reflexivity.
Qed.
Print Assumptions C55_explicit_type_refuted.

(** [SaltLib(LIB_TYPE_PYNACL)] followed by [SaltLib()] elsewhere in the process. *)
Example C55_example :
  let av := fun _ : backend => true in
  let ks := [Construction 5 (LIB_PYNACL, RNG_URANDOM) (Ok tt); Construction 5 (LIB_BEST, RNG_URANDOM) (Ok tt)] in
  (forall k, In k ks -> salt_construction av k) /\
  nth_error (snd (construct_all py_start ks)) 1 = Some (Ok (Inst 0 5 (LIB_PYNACL, RNG_URANDOM))) /\
  salt_init av LIB_PYNACL RNG_URANDOM = Ok None /\ salt_init av LIB_BEST RNG_URANDOM = Ok (Some Native).
Proof. cbn. split; [|repeat split]. intros k [<-|[<-|[]]]; reflexivity. Qed.
