(** C131: threads that read from one [SocketChannel] (channel.py:68-79, 91-98). *)
From Coq Require Import List ZArith Bool Strings.Byte Lia ZifyBool ZifyNat ZifyN.
From Verif Require Import PyBase PyBase_proofs Packets Packets_proofs Channel Channel_proofs Harness Harness_proofs Spec Props_Channel Threads Threads_proofs ReadThreads.
Import ListNotations.
Open Scope Z_scope.
Ltac Zify.zify_post_hook ::= Z.div_mod_to_equations.

(** ** Invariant *)

(** What the thread in a call has taken from the stream, when [rest] is still to be delivered *)
Definition read_ok (ph : rphase) (b : bytes) (rest : list bytes) : Prop :=
  match ph with
  | ROut => b = frames rest
  | RHead got => got ++ b = frames rest /\ zlen got <= 4
  | RBody len got => exists m rest', rest = m :: rest' /\ len = zlen m /\ got ++ b = m ++ frames rest'
  end.

Definition rinv (ms : list bytes) (ns : list nat) (w : rsock) : Prop :=
  exists dn rest j, ms = dn ++ rest /\ map snd (r_log w) = map Ok dn ++ repeat (Err ComException) j /\ (j <> 0%nat -> rest = []) /\
    (((forall i y, nth_error (r_threads w) i = Some y -> reading y = false) /\ r_in w = frames rest) \/
     exists i ph n, nth_error (r_threads w) i = Some (ph, n) /\ reading (ph, n) = true /\ read_ok ph (r_in w) rest) /\
    (forall i n, nth_error ns i = Some n -> exists ph n', nth_error (r_threads w) i = Some (ph, n') /\
       n = (length (of_thread i (r_log w)) + (if reading (ph, n') then 1 else 0) + n')%nat).

(** Only these threads make calls. *)
Definition rown (ns : list nat) (w : rsock) : Prop :=
  length (r_threads w) = length ns /\ forall i r, In (i, r) (r_log w) -> (i < length ns)%nat.

Lemma rown_step : forall ns x y, rown ns x -> rstep x y -> rown ns y.
Proof.
  intros ns x y (H1 & H2) HS.
  destruct HS as [b ts l i n E|b p ts l i got n E N H|ts l i got n E H|b ts l i got n E H|b ts l i len n E H|b p ts l i len got n E N H|ts l i len got n E H|b ts l i len got n E H];
    unfold rown; cbn [r_threads r_log] in *; pose proof (nth_lt _ _ _ _ E) as Hi; (split; [rewrite set_at_length by exact Hi; exact H1|]); try exact H2;
    intros k r I; apply in_app_iff in I; destruct I as [I|[I|[]]]; [eauto|injection I as <- _; lia|eauto|injection I as <- _; lia|eauto|injection I as <- _; lia|eauto|injection I as <- _; lia].
Qed.

Lemma rinv_init : forall ms ns, rinv ms ns (rinit (frames ms) ns).
Proof.
  intros ms ns. exists [], ms, 0%nat. split; [reflexivity|]. split; [reflexivity|]. split; [congruence|]. split.
  - left. split; [|reflexivity]. intros i y E. unfold rinit in E. cbn [r_threads] in E. apply nth_error_In, in_map_iff in E. destruct E as (n & <- & _). reflexivity.
  - intros i n E. exists ROut, n. split; [unfold rinit; cbn [r_threads]; apply (map_nth_error (fun n => (ROut, n)) i ns E)|reflexivity].
Qed.

Lemma counts : forall ts (l : list (nat * res bytes)) ns i ph n ph' n' (l' : list (nat * res bytes)),
  (forall j m, nth_error ns j = Some m -> exists p k, nth_error ts j = Some (p, k) /\ m = (length (of_thread j l) + (if reading (p, k) then 1 else 0) + k)%nat) ->
  nth_error ts i = Some (ph, n) ->
  (forall j, j <> i -> of_thread j l' = of_thread j l) ->
  (length (of_thread i l) + (if reading (ph, n) then 1 else 0) + n = length (of_thread i l') + (if reading (ph', n') then 1 else 0) + n')%nat ->
  forall j m, nth_error ns j = Some m -> exists p k, nth_error (set_at i (ph', n') ts) j = Some (p, k) /\ m = (length (of_thread j l') + (if reading (p, k) then 1 else 0) + k)%nat.
Proof.
  intros ts l ns i ph n ph' n' l' H E HO HL j m Ej. destruct (H j m Ej) as (p & k & Ep & Em). pose proof (nth_lt _ _ _ _ E) as Hi. destruct (Nat.eq_dec i j) as [<-|N].
  - rewrite E in Ep. injection Ep as <- <-. exists ph', n'. split; [apply set_at_same; exact Hi|lia].
  - exists p, k. split; [rewrite set_at_other by assumption; exact Ep|]. rewrite HO by congruence. exact Em.
Qed.

Lemma of_thread_other : forall X i j (x : X) l, j <> i -> of_thread j (l ++ [(i, x)]) = of_thread j l.
Proof. intros X i j x l N. rewrite of_thread_snoc. destruct (Nat.eqb_spec i j); [congruence|apply app_nil_r]. Qed.
Lemma of_thread_same : forall X i (x : X) l, length (of_thread i (l ++ [(i, x)])) = S (length (of_thread i l)).
Proof. intros X i x l. rewrite of_thread_snoc, Nat.eqb_refl, app_length. cbn. lia. Qed.

Lemma frames_cons : forall m ms, frames (m :: ms) = u32le (Z.of_nat (length m)) ++ m ++ frames ms.
Proof. intros. unfold frames, frame. cbn [map concat]. rewrite <- app_assoc. reflexivity. Qed.

Lemma app_same : forall A (a b c d : list A), a ++ b = c ++ d -> length a = length c -> a = c /\ b = d.
Proof.
  intros A a. induction a as [|x a IH]; intros b [|y c] d H L; try discriminate; [auto|]. cbn in H, L. injection H as -> H. destruct (IH b c d H ltac:(lia)) as [-> ->]. auto.
Qed.

Lemma rinv_step : forall ms ns x y, Forall Props_Channel.fits ms -> rinv ms ns x -> alone reading (r_threads x) -> alone reading (r_threads y) -> rstep x y -> rinv ms ns y.
Proof.
  intros ms ns x y HF (dn & rest & j & E1 & E2 & E3 & HC & HT) PX PY HS.
  assert (HB : forall i ph n, nth_error (r_threads x) i = Some (ph, n) -> reading (ph, n) = true -> read_ok ph (r_in x) rest).
  { intros i ph n E EB. destruct HC as [(HN & _)|(i' & ph' & n' & E' & EB' & HR)].
    - rewrite (HN _ _ E) in EB. discriminate.
    - assert (i = i') by (eapply PX; eassumption). subst i'. rewrite E in E'. injection E' as <- <-. exact HR. }
  assert (HI : forall i ph n ph', nth_error (r_threads x) i = Some (ph, n) -> reading (ph, n) = true -> reading (ph', n) = false ->
             forall k z, nth_error (set_at i (ph', n) (r_threads x)) k = Some z -> reading z = false).
  { intros i ph n ph' E EB EB' k z Ez. apply set_at_cases in Ez; [|apply (nth_lt _ _ _ _ E)]. destruct Ez as [[-> ->]|[N Ez]]; [exact EB'|].
    eapply (alone_same reading i _ _ PX E EB); eassumption. }
  destruct HS as [b ts l i n E|b p ts l i got n E N H|ts l i got n E H|b ts l i got n E H|b ts l i len n E H|b p ts l i len got n E N H|ts l i len got n E H|b ts l i len got n E H];
    cbn [r_in r_threads r_log] in *; pose proof (nth_lt _ _ _ _ E) as Hi.
  - destruct HC as [(HN & ES)|(i' & ph & n' & E' & EB & HR)].
    + exists dn, rest, j. split; [exact E1|]. split; [exact E2|]. split; [exact E3|]. split; [|eapply counts; [exact HT|exact E|reflexivity|cbn [reading fst r_log]; lia]].
      right. exists i, (RHead []), n. cbn [r_threads r_in]. split; [apply set_at_same; exact Hi|]. split; [reflexivity|]. split; [exact ES|discriminate].
    + exfalso. destruct (Nat.eq_dec i' i) as [->|Ni].
      * rewrite E in E'. injection E' as <- <-. discriminate.
      * pose proof (alone_others reading i _ ts Hi PY eq_refl i' (ph, n') Ni E') as Q. congruence.
  - destruct (HB i _ _ E eq_refl) as (HR & HL). exists dn, rest, j. split; [exact E1|]. split; [exact E2|]. split; [exact E3|].
    split; [|eapply counts; [exact HT|exact E|reflexivity|cbn [reading fst r_log]; lia]]. right. exists i, (RHead (got ++ p)), n. cbn [r_threads r_in]. split; [apply set_at_same; exact Hi|]. split; [reflexivity|].
    split; [rewrite <- app_assoc; exact HR|]. unfold zlen in *. rewrite app_length. lia.
  - destruct (HB i _ _ E eq_refl) as (HR & HL). rewrite app_nil_r in HR.
    assert (ER : rest = []).
    { destruct rest as [|m rest]; [reflexivity|]. exfalso. rewrite HR, frames_cons in H. unfold zlen in H. rewrite app_length, u32le_length in H. lia. }
    subst rest. exists dn, [], (S j). split; [exact E1|]. split.
    { cbn [r_log]. rewrite map_app, E2. cbn [map snd]. rewrite <- app_assoc. f_equal. clear. induction j as [|j IH]; [reflexivity|cbn [repeat app]; f_equal; exact IH]. }
    split; [reflexivity|]. split; [left; split; [eapply HI; [exact E|reflexivity|reflexivity]|reflexivity]|].
    eapply counts; [exact HT|exact E|intros k Nk; apply of_thread_other; exact Nk|cbn [r_log]; rewrite of_thread_same; cbn [reading fst]; lia].
  - destruct (HB i _ _ E eq_refl) as (HR & HL).
    assert (ER : exists m rest', rest = m :: rest' /\ unpack_i got = zlen m /\ b = m ++ frames rest').
    { destruct rest as [|m rest']; [exfalso; destruct got; [cbn in H; lia|discriminate]|]. exists m, rest'. split; [reflexivity|].
      rewrite frames_cons in HR. destruct (app_same _ _ _ _ _ HR) as [-> ->]; [unfold zlen in H; rewrite u32le_length; lia|].
      split; [|reflexivity]. rewrite unpack_s32. apply small_s32. rewrite E1 in HF. apply Forall_app in HF. destruct HF as [_ HF]. inversion HF; assumption. }
    exists dn, rest, j. split; [exact E1|]. split; [exact E2|]. split; [exact E3|]. split; [|eapply counts; [exact HT|exact E|reflexivity|cbn [reading fst r_log]; lia]].
    right. exists i, (RBody (unpack_i got) []), n. cbn [r_threads r_in]. split; [apply set_at_same; exact Hi|]. split; [reflexivity|exact ER].
  - destruct (HB i _ _ E eq_refl) as (m & rest' & _ & EL & _). unfold zlen in EL. lia.
  - destruct (HB i _ _ E eq_refl) as (m & rest' & ER & EL & HR). exists dn, rest, j. split; [exact E1|]. split; [exact E2|]. split; [exact E3|].
    split; [|eapply counts; [exact HT|exact E|reflexivity|cbn [reading fst r_log]; lia]]. right. exists i, (RBody len (got ++ p)), n. cbn [r_threads r_in]. split; [apply set_at_same; exact Hi|]. split; [reflexivity|].
    exists m, rest'. split; [exact ER|]. split; [exact EL|]. rewrite <- app_assoc. exact HR.
  - exfalso. destruct (HB i _ _ E eq_refl) as (m & rest' & ER & EL & HR). rewrite app_nil_r in HR. rewrite HR in H. unfold zlen in *. rewrite app_length in H. lia.
  - destruct (HB i _ _ E eq_refl) as (m & rest' & ER & EL & HR). rewrite EL in H.
    destruct (app_same _ _ _ _ _ HR) as [-> ->]; [unfold zlen in H; lia|]. subst rest.
    assert (Hj : j = 0%nat) by (destruct j; [reflexivity|]; specialize (E3 ltac:(discriminate)); discriminate). subst j.
    exists (dn ++ [m]), rest', 0%nat. split; [rewrite <- app_assoc; exact E1|]. split.
    { cbn [r_log repeat] in *. rewrite app_nil_r in *. rewrite !map_app, E2. reflexivity. }
    split; [congruence|]. split; [left; split; [eapply HI; [exact E|reflexivity|reflexivity]|reflexivity]|].
    eapply counts; [exact HT|exact E|intros k Nk; apply of_thread_other; exact Nk|cbn [r_log]; rewrite of_thread_same; cbn [reading fst]; lia].
Qed.

(** ** Theorems *)

(** With a lock around the calls every schedule hands out the messages in the order in which they
    were sent, each to exactly one call; calls fail, with ComException, only after the last message
    has been handed out and the stream has ended; and every thread gets a result for every call. *)
Theorem C131_locked_partial : forall ms ns w, Forall Props_Channel.fits ms ->
  keeping rstep (fun w => alone reading (r_threads w)) (rinit (sent (map (fun m => (m, [])) ms)) ns) w ->
  exists dn rest j, ms = dn ++ rest /\ map snd (r_log w) = map Ok dn ++ repeat (Err ComException) j /\ (j <> 0%nat -> rest = []) /\
    (forall i n, nth_error ns i = Some n -> exists ph n', nth_error (r_threads w) i = Some (ph, n') /\
       n = (length (of_thread i (r_log w)) + (if reading (ph, n') then 1 else 0) + n')%nat) /\
    (forall i r, In (i, r) (r_log w) -> (i < length ns)%nat).
Proof.
  intros ms ns w HF H.
  assert (EM : messages (map (fun m => (m, [])) ms) = ms) by (unfold messages; rewrite map_map; clear; induction ms as [|m ms IH]; [reflexivity|cbn [map concat fst snd app]; f_equal; exact IH]).
  rewrite sent_frames in H by (rewrite EM; exact HF). rewrite EM in H.
  assert (HI : rinv ms ns w) by (eapply (keeping_inv _ rstep _ (rinv ms ns)); [|exact H|apply rinv_init]; intros; eapply rinv_step; eassumption).
  destruct HI as (dn & rest & j & H1 & H2 & H3 & _ & H4). exists dn, rest, j.
  assert (HO : rown ns w).
  { eapply (keeping_inv _ rstep _ (rown ns)); [|exact H|split; [apply map_length|intros i r []]]. intros; eapply rown_step; eassumption. }
  destruct HO as [_ HO]. auto 6.
Qed.
Print Assumptions C131_locked_partial.

(** What calls made one after the other do to a stream of any bytes: the results, and the bytes
    that are left.  [s32]: the signed length. *)
Inductive handed (b : bytes) : list (res bytes) -> bytes -> Prop :=
| hd_none : handed b [] b
| hd_message : forall rs h m r, handed b rs (h ++ m ++ r) -> length h = 4%nat -> s32 h = Z.of_nat (length m) -> handed b (rs ++ [Ok m]) r
| hd_negative : forall rs h r, handed b rs (h ++ r) -> length h = 4%nat -> s32 h < 0 -> handed b (rs ++ [Err ComException]) r
| hd_no_length : forall rs t, handed b rs t -> (length t < 4)%nat -> handed b (rs ++ [Err ComException]) []
| hd_no_message : forall rs h t, handed b rs (h ++ t) -> length h = 4%nat -> Z.of_nat (length t) < s32 h -> handed b (rs ++ [Err ComException]) [].

Definition taken (ph : rphase) (b rest : bytes) : Prop :=
  match ph with
  | ROut => b = rest
  | RHead got => rest = got ++ b /\ zlen got <= 4
  | RBody len got => exists h, rest = h ++ got ++ b /\ length h = 4%nat /\ len = s32 h
  end.

Definition hinv (b0 : bytes) (w : rsock) : Prop :=
  exists rest, handed b0 (map snd (r_log w)) rest /\
    (((forall i y, nth_error (r_threads w) i = Some y -> reading y = false) /\ r_in w = rest) \/
     exists i ph n, nth_error (r_threads w) i = Some (ph, n) /\ reading (ph, n) = true /\ taken ph (r_in w) rest).

Lemma hinv_step : forall b0 x y, hinv b0 x -> alone reading (r_threads x) -> alone reading (r_threads y) -> rstep x y -> hinv b0 y.
Proof.
  intros b0 x y (rest & HD & HC) PX PY HS.
  assert (HB : forall i ph n, nth_error (r_threads x) i = Some (ph, n) -> reading (ph, n) = true -> taken ph (r_in x) rest).
  { intros i ph n E EB. destruct HC as [(HN & _)|(i' & ph' & n' & E' & EB' & HR)].
    - rewrite (HN _ _ E) in EB. discriminate.
    - assert (i = i') by (eapply PX; eassumption). subst i'. rewrite E in E'. injection E' as <- <-. exact HR. }
  assert (HI : forall i ph n ph', nth_error (r_threads x) i = Some (ph, n) -> reading (ph, n) = true -> reading (ph', n) = false ->
             forall k z, nth_error (set_at i (ph', n) (r_threads x)) k = Some z -> reading z = false).
  { intros i ph n ph' E EB EB' k z Ez. apply set_at_cases in Ez; [|apply (nth_lt _ _ _ _ E)]. destruct Ez as [[-> ->]|[N Ez]]; [exact EB'|].
    eapply (alone_same reading i _ _ PX E EB); eassumption. }
  destruct HS as [b ts l i n E|b p ts l i got n E N H|ts l i got n E H|b ts l i got n E H|b ts l i len n E H|b p ts l i len got n E N H|ts l i len got n E H|b ts l i len got n E H];
    unfold hinv in *; cbn [r_in r_threads r_log] in *; pose proof (nth_lt _ _ _ _ E) as Hi; try (rewrite map_app; cbn [map snd]).
  - destruct HC as [(HN & ES)|(i' & ph & n' & E' & EB & HR)].
    + exists rest. split; [exact HD|]. right. exists i, (RHead []), n. split; [apply set_at_same; exact Hi|]. split; [reflexivity|]. split; [symmetry; exact ES|discriminate].
    + exfalso. destruct (Nat.eq_dec i' i) as [->|Ni].
      * rewrite E in E'. injection E' as <- <-. discriminate.
      * pose proof (alone_others reading i _ ts Hi PY eq_refl i' (ph, n') Ni E') as Q. congruence.
  - destruct (HB i _ _ E eq_refl) as (HR & HL). exists rest. split; [exact HD|]. right. exists i, (RHead (got ++ p)), n. split; [apply set_at_same; exact Hi|]. split; [reflexivity|].
    split; [rewrite <- app_assoc; exact HR|]. unfold zlen in *. rewrite app_length. lia.
  - destruct (HB i _ _ E eq_refl) as (HR & HL). rewrite app_nil_r in HR. exists []. split; [|left; split; [eapply HI; [exact E|reflexivity|reflexivity]|reflexivity]].
    eapply hd_no_length; [exact HD|]. rewrite HR. unfold zlen in H. lia.
  - destruct (HB i _ _ E eq_refl) as (HR & HL). exists rest. split; [exact HD|]. right. exists i, (RBody (unpack_i got) []), n. split; [apply set_at_same; exact Hi|]. split; [reflexivity|].
    exists got. split; [exact HR|]. split; [unfold zlen in H; lia|apply unpack_s32].
  - destruct (HB i _ _ E eq_refl) as (h & HR & HL & EL). exists b. split; [|left; split; [eapply HI; [exact E|reflexivity|reflexivity]|reflexivity]].
    eapply hd_negative; [rewrite HR in HD; exact HD|exact HL|lia].
  - destruct (HB i _ _ E eq_refl) as (h & HR & HL & EL). exists rest. split; [exact HD|]. right. exists i, (RBody len (got ++ p)), n. split; [apply set_at_same; exact Hi|]. split; [reflexivity|].
    exists h. split; [rewrite <- app_assoc; exact HR|]. auto.
  - destruct (HB i _ _ E eq_refl) as (h & HR & HL & EL). rewrite app_nil_r in HR. exists []. split; [|left; split; [eapply HI; [exact E|reflexivity|reflexivity]|reflexivity]].
    eapply hd_no_message; [rewrite HR in HD; exact HD|exact HL|unfold zlen in H; lia].
  - destruct (HB i _ _ E eq_refl) as (h & HR & HL & EL). exists b. split; [|left; split; [eapply HI; [exact E|reflexivity|reflexivity]|reflexivity]].
    eapply hd_message; [rewrite HR in HD; exact HD|exact HL|unfold zlen in H; lia].
Qed.

(** With a lock, whatever the bytes on the stream are: the results of all the calls, in the order in
    which the calls end, are those of one thread that makes them one after the other. *)
Theorem C131_any_stream : forall b ns w,
  keeping rstep (fun w => alone reading (r_threads w)) (rinit b ns) w ->
  exists rest, handed b (map snd (r_log w)) rest /\
    ((forall i y, nth_error (r_threads w) i = Some y -> reading y = false) -> r_in w = rest).
Proof.
  intros b ns w H.
  assert (HI : hinv b w).
  { eapply (keeping_inv _ rstep _ (hinv b)); [|exact H|]; [intros; eapply hinv_step; eassumption|].
    exists b. split; [constructor|]. left. split; [|reflexivity]. intros i y E. unfold rinit in E. cbn [r_threads] in E. apply nth_error_In, in_map_iff in E. destruct E as (n & <- & _). reflexivity. }
  destruct HI as (rest & HD & HC). exists rest. split; [exact HD|]. intro HN. destruct HC as [(_ & E)|(i & ph & n & E & R & _)]; [exact E|].
  rewrite (HN _ _ E) in R. discriminate.
Qed.
Print Assumptions C131_any_stream.

(** Without a lock a thread can be given a part of a message as a message: for every [m] there is
    a message that the peer can write, alone, such that one of two threads gets [m] and the other
    one fails. *)
Theorem C131_inside_refuted : forall m, Z.of_nat (length m) + 4 < 2 ^ 31 ->
  exists m1, length m1 = (4 + length m)%nat /\
    exists w, keeping rstep (fun _ => True) (rinit (sent [(m1, [])]) [1%nat; 1%nat]) w /\
      r_threads w = [(ROut, 0%nat); (ROut, 0%nat)] /\ r_log w = [(1%nat, Ok m); (0%nat, Err ComException)].
Proof.
  intros m HL. set (m1 := u32le (Z.of_nat (length m)) ++ m). exists m1.
  assert (L1 : length m1 = (4 + length m)%nat) by (unfold m1; rewrite app_length, u32le_length; reflexivity). split; [exact L1|].
  assert (ES : sent [(m1, [])] = u32le (Z.of_nat (length m1)) ++ u32le (Z.of_nat (length m)) ++ m ++ []).
  { rewrite sent_frames; [|constructor; [unfold Props_Channel.fits; change (Z.of_nat (length m1) < 2 ^ 31); rewrite L1; lia|constructor]]. unfold messages. cbn [map concat fst snd app]. rewrite frames_cons. unfold m1. rewrite <- app_assoc. reflexivity. }
  rewrite ES. clear ES. clearbody m1. exists (RSock [] [(ROut, 0%nat); (ROut, 0%nat)] [(1%nat, Ok m); (0%nat, Err ComException)]). split; [|split].
  - unfold rinit. cbn [map].
    eapply kp_step; [exact I|eapply (rs_begin _ _ _ 0); reflexivity|].
    eapply kp_step; [exact I|eapply (rs_head _ (u32le (Z.of_nat (length m1))) _ _ 0); [reflexivity|discriminate|cbn; lia]|].
    eapply kp_step; [exact I|eapply (rs_begin _ _ _ 1); reflexivity|].
    eapply kp_step; [exact I|eapply (rs_head _ (u32le (Z.of_nat (length m))) _ _ 1); [reflexivity|discriminate|cbn; lia]|].
    eapply kp_step; [exact I|eapply (rs_len _ _ _ 1); reflexivity|]. cbn [app].
    rewrite unpack_s32, s32_u32le by lia.
    destruct m as [|x m'] eqn:Em.
    + cbn [app]. eapply kp_step; [exact I|eapply (rs_return _ _ _ 1); reflexivity|].
      eapply kp_step; [exact I|eapply (rs_len _ _ _ 0); reflexivity|]. rewrite unpack_s32, s32_u32le by lia.
      eapply kp_step; [exact I|eapply (rs_body_end _ _ 0); [reflexivity|rewrite L1; cbn; lia]|]. constructor. exact I.
    + rewrite <- Em in *. eapply kp_step; [exact I|eapply (rs_body _ m _ _ 1); [reflexivity|rewrite Em; discriminate|cbn; unfold zlen; lia]|].
      eapply kp_step; [exact I|eapply (rs_return _ _ _ 1); reflexivity|].
      eapply kp_step; [exact I|eapply (rs_len _ _ _ 0); reflexivity|]. rewrite unpack_s32, s32_u32le by lia.
      eapply kp_step; [exact I|eapply (rs_body_end _ _ 0); [reflexivity|rewrite L1; cbn; lia]|]. constructor. exact I.
  - reflexivity.
  - reflexivity.
Qed.
Print Assumptions C131_inside_refuted.

(** ** Example *)

(** "ab" and "c" are sent, and two threads read once: with a lock they get these messages, in the
    order in which their calls end. *)
Example C131_example : forall w,
  keeping rstep (fun w => alone reading (r_threads w)) (rinit (sent [([x61; x62], []); ([x63], [])]) [1%nat; 1%nat]) w ->
  r_threads w = [(ROut, 0%nat); (ROut, 0%nat)] ->
  r_log w = [(0%nat, Ok [x61; x62]); (1%nat, Ok [x63])] \/ r_log w = [(1%nat, Ok [x61; x62]); (0%nat, Ok [x63])].
Proof.
  intros w H ET. destruct (C131_locked_partial [[x61; x62]; [x63]] [1%nat; 1%nat] w) as (dn & rest & j & E1 & E2 & E3 & HT & HO).
  { repeat constructor. }
  { exact H. }
  destruct (HT 0%nat _ eq_refl) as (p0 & n0 & A0 & B0). destruct (HT 1%nat _ eq_refl) as (p1 & n1 & A1 & B1). rewrite ET in A0, A1. cbn in A0, A1.
  injection A0 as <- <-. injection A1 as <- <-. cbn [reading fst] in B0, B1.
  assert (HB : forall i c, In (i, c) (r_log w) -> i = 0%nat \/ i = 1%nat) by (intros i c I; specialize (HO i c I); cbn in HO; lia).
  remember (r_log w) as l eqn:El. clear -B0 B1 HB E1 E2 E3.
  destruct l as [|[i1 c1] [|[i2 c2] [|[i3 c3] l]]].
  - cbn in B0. lia.
  - exfalso. destruct (HB i1 c1 ltac:(cbn; tauto)) as [->| ->]; cbn in B0, B1; lia.
  - assert (Q : [c1; c2] = [Ok [x61; x62]; Ok [x63]]).
    { cbn [map snd] in E2. rewrite E2. destruct dn as [|a [|b [|d dn]]]; cbn in E1.
      - subst rest. destruct j as [|j]; [discriminate E2|]. specialize (E3 ltac:(discriminate)). discriminate.
      - injection E1 as <- E1. destruct j as [|j]; [discriminate E2|]. specialize (E3 ltac:(discriminate)). subst rest. discriminate.
      - injection E1 as <- <- E1. subst rest. destruct j as [|j]; [reflexivity|discriminate E2].
      - injection E1 as _ _ E1. discriminate. }
    injection Q as -> ->.
    destruct (HB i1 _ ltac:(cbn; tauto)) as [->| ->], (HB i2 _ ltac:(cbn; tauto)) as [->| ->]; cbn in B0, B1; try lia; auto.
  - exfalso. destruct (HB i1 c1 ltac:(cbn; tauto)) as [->| ->], (HB i2 c2 ltac:(cbn; tauto)) as [->| ->], (HB i3 c3 ltac:(cbn; tauto)) as [->| ->]; cbn in B0, B1; lia.
Qed.

(** A length of -1, "a" and the beginning of a length: no message, "a", no message *)
Example C131_any_stream_example : handed ([xff; xff; xff; xff] ++ [x01; x00; x00; x00] ++ [x61] ++ [x05; x00]) [Err ComException; Ok [x61]; Err ComException] [].
Proof.
  apply (hd_no_length _ [Err ComException; Ok [x61]] [x05; x00]); [|cbn; lia].
  apply (hd_message _ [Err ComException] [x01; x00; x00; x00] [x61]); [|reflexivity|reflexivity].
  apply (hd_negative _ [] [xff; xff; xff; xff]); [|reflexivity|reflexivity]. constructor.
Qed.
