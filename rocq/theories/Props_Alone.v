(** Property C57, continued: when the shared clock does no harm. *)
From Coq Require Import List ZArith Bool Lia ZifyBool ZifyNat.
From Verif Require Import PyBase Time Props_Misc.
Import ListNotations.
Open Scope Z_scope.

(** What the calls of session [who] are answered when the shared keeper is in state [s]. *)
Definition times_from (s : Z) (calls : list (bool * bool)) (who : bool) : list Z :=
  map snd (filter (fun p => Bool.eqb (fst p) who)
     (combine (map fst calls) (tk_calls one_two_three s (map snd calls)))).

Lemma times_others : forall calls s, (forall c, In c calls -> fst c = false) -> times_from s calls true = [].
Proof.
  induction calls as [|[w c] calls IH]; intros s H; [reflexivity|].
  pose proof (H _ (or_introl eq_refl)) as Hw. cbn [fst] in Hw. subst w.
  unfold times_from. cbn [map fst snd tk_calls].
  destruct (if c then tk_first one_two_three s else tk_get one_two_three s) as [v s'].
  cbn [combine filter fst Bool.eqb]. apply (IH s'). intros x Hx. apply H. right. exact Hx.
Qed.

Lemma times_own : forall own s b, (forall c, In c b -> fst c = false) ->
  times_from s (map (fun c => (true, c)) own ++ b) true = tk_calls one_two_three s own.
Proof.
  induction own as [|c own IH]; intros s b H; cbn [map app].
  - apply times_others. exact H.
  - unfold times_from. cbn [map fst snd tk_calls].
    destruct (if c then tk_first one_two_three s else tk_get one_two_three s) as [v s'].
    cbn [combine filter fst Bool.eqb map snd]. f_equal. apply (IH s' b H).
Qed.

Lemma times_after : forall a s rest, (forall c, In c a -> fst c = false) ->
  exists s', times_from s (a ++ rest) true = times_from s' rest true.
Proof.
  induction a as [|[w c] a IH]; intros s rest H; [exists s; reflexivity|].
  pose proof (H _ (or_introl eq_refl)) as Hw. cbn [fst] in Hw. subst w.
  destruct (if c then tk_first one_two_three s else tk_get one_two_three s) as [v s0] eqn:E.
  destruct (IH s0 rest) as [s' Hs']. { intros x Hx. apply H. right. exact Hx. }
  exists s'. rewrite <- Hs'. unfold times_from. cbn [app map fst snd tk_calls]. rewrite E.
  reflexivity.
Qed.

(** *** C57: sessions that run one after the other do not disturb each other: a session
    that starts with get_first_time and whose calls are not interleaved with calls of
    others is told the times that a keeper of its own would tell, whatever was called
    before and after.  And NullTimeKeeper, the default, tells every session 0 however the
    calls are interleaved.  Partial: interleaved sessions with OneTwoThreeTimeKeeper are
    disturbed (C57_shared_clock_refuted). *)
Theorem C57_alone_partial :
  (forall before own after,
     (forall c, In c before -> fst c = false) -> (forall c, In c after -> fst c = false) ->
     session_times (before ++ map (fun c => (true, c)) (true :: own) ++ after) true
     = tk_calls one_two_three one_two_three_init (true :: own)) /\
  (forall s (calls : list (bool * bool)) who v,
     In (who, v) (combine (map fst calls) (tk_calls null_keeper s (map snd calls))) -> v = 0).
Proof.
  split.
  - intros before own after Hb Ha. change session_times with (times_from one_two_three_init).
    destruct (times_after before one_two_three_init (map (fun c => (true, c)) (true :: own) ++ after) Hb) as [s' ->].
    rewrite times_own by exact Ha. reflexivity.
  - intros s calls who v H. apply in_combine_r in H. revert H. generalize (map snd calls). clear.
    intro l. revert s. induction l as [|c l IH]; intros s H; cbn [tk_calls] in H; [destruct H|].
    destruct c; cbn [null_keeper tk_first tk_get] in H; (destruct H as [<-|H]; [reflexivity|exact (IH _ H)]).
Qed.
Print Assumptions C57_alone_partial.

Example C57_alone_example :
  session_times [(false, true); (false, false); (true, true); (true, false); (true, false); (false, false)] true = [1; 2; 3] /\
  session_times [(false, true); (true, true); (false, false); (true, false); (true, false); (false, false)] true = [1; 3; 4].
Proof. split; reflexivity. Qed.
