(** Lemmas about executions of coroutines. *)
From Coq Require Import List ZArith Bool.
From Verif Require Import PyBase IO.
Import ListNotations.

Lemma exec_ret_inv : forall A (a : A) t o, exec (Ret a) t (Some o) -> t = [] /\ o = a.
Proof. intros A a t o H. inversion H; subst; auto. Qed.

Lemma exec_ret_any : forall A (a : A) t o, exec (Ret a) t o -> t = [] /\ (o = None \/ o = Some a).
Proof. intros A a t o H. inversion H; subst; auto. Qed.

Lemma exec_read_inv : forall A (k : res bytes -> io A) t o, exec (Read k) t o ->
  (t = [] /\ o = None) \/ exists r t', t = ERead r :: t' /\ exec (k r) t' o.
Proof. intros A k t o H. inversion H; subst; eauto. Qed.

Lemma exec_write_inv : forall A ms l (k : res unit -> io A) t o, exec (Write ms l k) t o ->
  (t = [] /\ o = None) \/ exists r t', t = EWrite ms l r :: t' /\ exec (k r) t' o.
Proof. intros A ms l k t o H. inversion H; subst; eauto. Qed.

(** Executions of a sequential composition. *)
Lemma exec_bind_some : forall A B (p : io A) (f : A -> io B) t b,
  exec (iobind p f) t (Some b) ->
  exists t1 t2 a, t = t1 ++ t2 /\ exec p t1 (Some a) /\ exec (f a) t2 (Some b).
Proof.
  induction p as [a|k IH|ms l k IH]; intros f t b H; cbn [iobind] in H.
  - exists [], t, a. repeat split; auto. constructor.
  - apply exec_read_inv in H. destruct H as [[_ H]|(r & t' & -> & H)]; [discriminate|].
    apply IH in H. destruct H as (t1 & t2 & a & -> & H1 & H2).
    exists (ERead r :: t1), t2, a. repeat split; auto. constructor. exact H1.
  - apply exec_write_inv in H. destruct H as [[_ H]|(r & t' & -> & H)]; [discriminate|].
    apply IH in H. destruct H as (t1 & t2 & a & -> & H1 & H2).
    exists (EWrite ms l r :: t1), t2, a. repeat split; auto. constructor. exact H1.
Qed.

Lemma exec_bind_none : forall A B (p : io A) (f : A -> io B) t,
  exec (iobind p f) t None ->
  exec p t None \/ exists t1 t2 a, t = t1 ++ t2 /\ exec p t1 (Some a) /\ exec (f a) t2 None.
Proof.
  induction p as [a|k IH|ms l k IH]; intros f t H; cbn [iobind] in H.
  - right. exists [], t, a. repeat split; auto. constructor.
  - apply exec_read_inv in H. destruct H as [[-> _]|(r & t' & -> & H)]; [left; constructor|].
    apply IH in H. destruct H as [H|(t1 & t2 & a & -> & H1 & H2)].
    + left. constructor. exact H.
    + right. exists (ERead r :: t1), t2, a. repeat split; auto. constructor. exact H1.
  - apply exec_write_inv in H. destruct H as [[-> _]|(r & t' & -> & H)]; [left; constructor|].
    apply IH in H. destruct H as [H|(t1 & t2 & a & -> & H1 & H2)].
    + left. constructor. exact H.
    + right. exists (EWrite ms l r :: t1), t2, a. repeat split; auto. constructor. exact H1.
Qed.

Lemma exec_bind_fwd : forall A B (p : io A) (f : A -> io B) t1 t2 a o,
  exec p t1 (Some a) -> exec (f a) t2 o -> exec (iobind p f) (t1 ++ t2) o.
Proof.
  induction p as [a0|k IH|ms l k IH]; intros f t1 t2 a o H1 H2; cbn [iobind].
  - apply exec_ret_inv in H1. destruct H1 as [-> ->]. exact H2.
  - apply exec_read_inv in H1. destruct H1 as [[_ H1]|(r & t' & -> & H1)]; [discriminate|].
    cbn [app]. constructor. eapply IH; eauto.
  - apply exec_write_inv in H1. destruct H1 as [[_ H1]|(r & t' & -> & H1)]; [discriminate|].
    cbn [app]. constructor. eapply IH; eauto.
Qed.

(** Methods of sub-objects. *)
Lemma exec_mzoom : forall S T A (g : S -> T) (p : T -> S -> S) (m : M T A) s t s1 r,
  exec (mzoom g p m s) t (Some (s1, r)) ->
  exists x, exec (m (g s)) t (Some (x, r)) /\ s1 = p x s.
Proof.
  intros S T A g p m s t s1 r H. unfold mzoom in H. apply exec_bind_some in H.
  destruct H as (t1 & t2 & [x r'] & -> & H1 & H2). apply exec_ret_inv in H2.
  destruct H2 as [-> H2]. cbn [fst snd] in H2. injection H2 as -> ->. rewrite app_nil_r. eauto.
Qed.
Lemma exec_mzoom_fwd : forall S T A (g : S -> T) (p : T -> S -> S) (m : M T A) s t x r,
  exec (m (g s)) t (Some (x, r)) -> exec (mzoom g p m s) t (Some (p x s, r)).
Proof.
  intros S T A g p m s t x r H. unfold mzoom. rewrite <- (app_nil_r t).
  eapply exec_bind_fwd; eauto. constructor.
Qed.

(** Completed executions of a monadic sequence. *)
Lemma exec_mbind : forall S A B (m : M S A) (f : A -> M S B) s t s2 r,
  exec (mbind m f s) t (Some (s2, r)) ->
  exists t1 t2 s1 ra, t = t1 ++ t2 /\ exec (m s) t1 (Some (s1, ra)) /\
    match ra with
    | Ok a => exec (f a s1) t2 (Some (s2, r))
    | Err e => t2 = [] /\ s2 = s1 /\ r = Err e
    end.
Proof.
  intros S A B m f s t s2 r H. unfold mbind in H. apply exec_bind_some in H.
  destruct H as (t1 & t2 & [s1 ra] & -> & H1 & H2). cbn [fst snd] in H2.
  exists t1, t2, s1, ra. split; auto. split; auto. destruct ra as [a|e]; auto.
  apply exec_ret_inv in H2. destruct H2 as [-> H2]. injection H2 as -> ->. auto.
Qed.

(** One pure step in front. *)
Lemma mbind_ret : forall S A B (m : M S A) (f : A -> M S B) s s1 a,
  m s = Ret (s1, Ok a) -> mbind m f s = f a s1.
Proof. intros S A B m f s s1 a H. unfold mbind. rewrite H. reflexivity. Qed.
Lemma mbind_err : forall S A B (m : M S A) (f : A -> M S B) s s1 e,
  m s = Ret (s1, Err e) -> mbind m f s = Ret (s1, Err e).
Proof. intros S A B m f s s1 e H. unfold mbind. rewrite H. reflexivity. Qed.

(** Equality of coroutines up to the equality of their continuations' results. *)
Inductive io_eq {A} : io A -> io A -> Prop :=
| ie_ret : forall a, io_eq (Ret a) (Ret a)
| ie_read : forall k k', (forall r, io_eq (k r) (k' r)) -> io_eq (Read k) (Read k')
| ie_write : forall ms l k k', (forall r, io_eq (k r) (k' r)) -> io_eq (Write ms l k) (Write ms l k').

Lemma io_eq_refl : forall A (p : io A), io_eq p p.
Proof. induction p; constructor; auto. Qed.
Lemma io_eq_sym : forall A (p q : io A), io_eq p q -> io_eq q p.
Proof. intros A p q H. induction H; constructor; auto. Qed.

Lemma io_eq_exec : forall A (p : io A) t o, exec p t o -> forall q, io_eq p q -> exec q t o.
Proof.
  intros A p t o H. induction H; intros q HQ.
  - constructor.
  - inversion HQ; subst. constructor.
  - inversion HQ; subst. constructor. auto.
  - inversion HQ; subst. constructor. auto.
Qed.
