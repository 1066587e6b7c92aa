(** No exception of a list or bytearray is raised in Ed25519 for keys of the right lengths. *)
From Coq Require Import List ZArith Bool Strings.Byte Lia ZifyBool ZifyNat ZifyN.
From Verif Require Import PyBase PyInt PyInt_proofs ChkPy TwHash TwSalsa TwPoly TwField TwSign ChkHash ChkSalsa ChkField ChkSign
  ChkHash_proofs ChkSalsa_proofs ChkField_proofs.
Import ListNotations.
Open Scope Z_scope.
Ltac Zify.zify_post_hook ::= Z.div_mod_to_equations.

(** ** Points *)
Definition l4 (p : gf4) : Prop := length (g0 p) = 16%nat /\ length (g1 p) = 16%nat /\ length (g2 p) = 16%nat /\ length (g3 p) = 16%nat.
Lemma new_l4 : l4 gf4_new. Proof. repeat split. Qed.
Lemma const_lengths : length cD = 16%nat /\ length cD2 = 16%nat /\ length cX = 16%nat /\ length cY = 16%nat /\ length cI = 16%nat /\ length gf0 = 16%nat /\ length gf1 = 16%nat.
Proof. repeat split. Qed.
Lemma add4_ok : forall p q, l4 p -> l4 q -> add4_c p q = Ok (add4 p q) /\ l4 (add4 p q).
Proof.
  intros p q (P0 & P1 & P2 & P3) (Q0 & Q1 & Q2 & Q3). unfold add4_c, add4. destruct const_lengths as (_ & LD & _). pose proof gf_new_length as Lg.
  remember cD2 as dd eqn:Q; clear Q. remember gf_new as gn eqn:Q; clear Q. cbv zeta. repeat gop.
  split; [reflexivity|]. unfold l4. cbn [g0 g1 g2 g3]. repeat split; lia.
Qed.
Lemma cswap4_ok : forall p q b, l4 p -> l4 q -> cswap4_c p q b = Ok (cswap4 p q b) /\ l4 (fst (cswap4 p q b)) /\ l4 (snd (cswap4 p q b)).
Proof.
  intros p q b (P0 & P1 & P2 & P3) (Q0 & Q1 & Q2 & Q3). unfold cswap4_c, cswap4.
  destruct (sel_ok (g0 p) (g0 q) b) as [-> [A0 B0]]; [lia|lia|]. rb. destruct (sel25519 (g0 p) (g0 q) b) as [p0 q0].
  destruct (sel_ok (g1 p) (g1 q) b) as [-> [A1 B1]]; [lia|lia|]. rb. destruct (sel25519 (g1 p) (g1 q) b) as [p1 q1].
  destruct (sel_ok (g2 p) (g2 q) b) as [-> [A2 B2]]; [lia|lia|]. rb. destruct (sel25519 (g2 p) (g2 q) b) as [p2 q2].
  destruct (sel_ok (g3 p) (g3 q) b) as [-> [A3 B3]]; [lia|lia|]. rb. destruct (sel25519 (g3 p) (g3 q) b) as [p3 q3].
  split; [reflexivity|]. unfold l4. cbn [fst snd g0 g1 g2 g3] in *. repeat split; lia.
Qed.
Definition l44 (st : gf4 * gf4) : Prop := l4 (fst st) /\ l4 (snd st).
Lemma mult_step_ok : forall s st i, (32 <= length s)%nat -> (i < 256)%nat -> l44 st -> mult_step_c s st i = Ok (mult_step s st i) /\ l44 (mult_step s st i).
Proof.
  intros s [p q] i Ls Hi [Lp Lq]. cbn [fst snd] in *. unfold mult_step_c, mult_step. assert (Hq : (i / 8 < 32)%nat) by (apply Nat.div_lt_upper_bound; lia).
  chk. cbv zeta. remember (cast TU8 _) as b eqn:Q; clear Q.
  destruct (cswap4_ok p q b Lp Lq) as [-> [A B]]. rb. destruct (cswap4 p q b) as [p1 q1]. cbn [fst snd] in *.
  destruct (add4_ok q1 p1 B A) as [-> B1]. rb. destruct (add4_ok p1 p1 A A) as [-> A1]. rb.
  apply cswap4_ok; assumption.
Qed.
Lemma scalarmult4_ok : forall p q s, l4 p -> l4 q -> (32 <= length s)%nat -> scalarmult4_c p q s = Ok (scalarmult4 p q s) /\ l4 (scalarmult4 p q s).
Proof.
  intros p q s (P0 & P1 & P2 & P3) Lq Ls. unfold scalarmult4_c, scalarmult4. cbv zeta. destruct const_lengths as (_ & _ & _ & _ & _ & L0 & L1).
  remember gf0 as z eqn:Q; clear Q. remember gf1 as o eqn:Q; clear Q.
  destruct (set25519_ok (g0 p) z) as [-> H0]; [lia|lia|]. rb. destruct (set25519_ok (g1 p) o) as [-> H1]; [lia|lia|]. rb.
  destruct (set25519_ok (g2 p) o) as [-> H2]; [lia|lia|]. rb. destruct (set25519_ok (g3 p) z) as [-> H3]; [lia|lia|]. rb.
  remember (G4 _ _ _ _) as p' eqn:Q. assert (Lp : l4 p') by (subst p'; unfold l4; cbn [g0 g1 g2 g3]; repeat split; lia). clear Q.
  destruct (for_ok _ l44 256 (fun st k => mult_step_c s st (255 - k)) (fun st k => mult_step s st (255 - k)) (p', q)) as [-> H]; [split; assumption| |].
  - intros st i Hi H. apply mult_step_ok; try assumption. lia.
  - rb. destruct (for_range 256 _ (p', q)) as [a b]. split; [reflexivity|exact (proj1 H)].
Qed.
Lemma base_gen : forall gn x y o p s, length gn = 16%nat -> length x = 16%nat -> length y = 16%nat -> length o = 16%nat -> l4 p -> (32 <= length s)%nat ->
  rbind (set25519_c gn x) (fun q0 => rbind (set25519_c gn y) (fun q1 => rbind (set25519_c gn o) (fun q2 => rbind (fM_c gn x y) (fun q3 => scalarmult4_c p (G4 q0 q1 q2 q3) s)))) =
  Ok (scalarmult4 p (G4 (set25519 gn x) (set25519 gn y) (set25519 gn o) (fM gn x y)) s) /\ l4 (scalarmult4 p (G4 (set25519 gn x) (set25519 gn y) (set25519 gn o) (fM gn x y)) s).
Proof.
  intros gn x y o p s Lg LX LY L1 Lp Ls.
  destruct (set25519_ok gn x) as [-> H0]; [lia|lia|]. rb. destruct (set25519_ok gn y) as [-> H1]; [lia|lia|]. rb.
  destruct (set25519_ok gn o) as [-> H2]; [lia|lia|]. rb. destruct (fM_ok gn x y) as [-> H3]; [lia..|]. rb.
  apply scalarmult4_ok; [exact Lp| |exact Ls]. unfold l4. cbn [g0 g1 g2 g3]. repeat split; lia.
Qed.
Lemma scalarbase4_ok : forall p s, l4 p -> (32 <= length s)%nat -> scalarbase4_c p s = Ok (scalarbase4 p s) /\ l4 (scalarbase4 p s).
Proof.
  intros p s Lp Ls. destruct const_lengths as (_ & _ & LX & LY & _ & L0 & L1). exact (base_gen gf_new cX cY gf1 p s gf_new_length LX LY L1 Lp Ls).
Qed.

(** Packing a point into a list *)
Lemma point_chk : forall put r p, l4 p -> pack_point_c put r p =
  rbind (out_loop put (packed (fM gf_new (g1 p) (inv25519 gf_new (g2 p)))) r) (fun r =>
    sput put r 31 (lxor (rget r 31) (lshl (Ok (par25519 (fM gf_new (g0 p) (inv25519 gf_new (g2 p))))) 7))).
Proof.
  intros put r p (P0 & P1 & P2 & P3). unfold pack_point_c. pose proof gf_new_length as Lg.
  destruct (inv_ok gf_new (g2 p)) as [-> H]; [lia|lia|]. rb. remember (inv25519 gf_new (g2 p)) as zi eqn:Q; clear Q.
  destruct (fM_ok gf_new (g0 p) zi) as [-> H1]; [lia..|]. rb. destruct (fM_ok gf_new (g1 p) zi) as [-> H2]; [lia..|]. rb.
  rewrite par_ok by lia. destruct (pack_chk put r (fM gf_new (g1 p) zi)) as [-> _]; [lia|]. reflexivity.
Qed.
Lemma point_ok : forall r p, (32 <= length r)%nat -> l4 p -> pack_point_c lput r p = Ok (pack_point r p) /\ length (pack_point r p) = length r.
Proof.
  intros r p Lr (P0 & P1 & P2 & P3). unfold pack_point_c, pack_point. cbv zeta. pose proof gf_new_length as Lg.
  destruct (inv_ok gf_new (g2 p)) as [-> H]; [lia|lia|]. rb. remember (inv25519 gf_new (g2 p)) as zi eqn:Q; clear Q.
  destruct (fM_ok gf_new (g0 p) zi) as [-> H1]; [lia..|]. rb. destruct (fM_ok gf_new (g1 p) zi) as [-> H2]; [lia..|]. rb.
  rewrite par_ok by lia. destruct (pack_ok r (fM gf_new (g1 p) zi)) as [-> H3]; [lia|lia|]. rb.
  remember (pack25519 _ _) as o eqn:Q; clear Q. rewrite seti_length. split; [chk; reflexivity|exact H3].
Qed.

(** ** Numbers modulo the order *)
Lemma cL_length : length cL = 32%nat. Proof. reflexivity. Qed.
Definition lx (n : nat) (st : list pint * pint) : Prop := length (fst st) = n.
Lemma row_ok : forall x i, (32 <= i < 64)%nat -> length x = 64%nat -> modL_row_c x i = Ok (modL_row x i) /\ length (modL_row x i) = 64%nat.
Proof.
  intros x i Hi Lx. unfold modL_row_c, modL_row. pose proof cL_length as LL.
  destruct (for_ok _ (lx 64) 20 (modL_cell_c i) (modL_cell i) (x, plain 0)) as [-> H]; [exact Lx| |].
  - intros [y c] k Hk Hy. unfold lx in *. cbn [fst snd] in Hy. unfold modL_cell_c, modL_cell. cbv zeta. remember cL as l eqn:Q; clear Q.
    chk. cbn [fst]. rewrite !seti_length. split; [reflexivity|exact Hy].
  - rb. destruct (for_range 20 _ _) as [y c]. unfold lx in H. cbn [fst snd] in H. rewrite !seti_length. split; [chk; reflexivity|exact H].
Qed.
(** what r gets is a byte: a list and a bytearray keep the same *)
Definition keeps (put : store) : Prop := forall l i v, (i < length l)%nat -> 0 <= v < 256 -> put l i (plain v) = Ok (seti l i (plain v)).
Lemma lput_keeps : keeps lput. Proof. intros l i v H _. apply lput_ok. exact H. Qed.
Lemma bput_keeps : keeps bput. Proof. intros l i v H B. rewrite bput_ok by (try exact H; exact B). reflexivity. Qed.
Lemma and_plain : forall a m, pand a (plain m) = plain (Z.land (pv a) m).
Proof.
  intros [t v] m. unfold pand, typed, promote. cbn [pt pv plain]. change (order TPlain <? 5) with false. rewrite andb_false_r.
  replace (order t >? order TPlain) with false by (destruct t; reflexivity). reflexivity.
Qed.
Lemma and_255 : forall z, 0 <= Z.land z 255 < 256.
Proof. intros z. change 255 with (Z.ones 8). rewrite Z.land_ones by lia. apply Z.mod_pos_bound. lia. Qed.
Definition lxr (n : nat) (st : list pint * list pint) : Prop := length (fst st) = 64%nat /\ length (snd st) = n.
Lemma modL_ok : forall put r x, keeps put -> (32 <= length r)%nat -> length x = 64%nat -> modL_c put r x = Ok (modL r x) /\ length (modL r x) = length r.
Proof.
  intros put r x KP Lr Lx. unfold modL_c, modL. cbv zeta. pose proof cL_length as LL.
  destruct (for_ok _ (fun l => length l = 64%nat) 32 (fun x k => modL_row_c x (63 - k)) (fun x k => modL_row x (63 - k)) x) as [-> H]; [exact Lx|intros s i Hi Hs; apply row_ok; lia|].
  rb. remember (for_range 32 (fun x k => modL_row x (63 - k)) x) as x1 eqn:Q; clear Q.
  destruct (for_ok _ (lx 64) 32 modL_top_c modL_top (x1, plain 0)) as [-> H1]; [exact H| |].
  { intros [y c] k Hk Hy. unfold lx in *. cbn [fst snd] in Hy. unfold modL_top_c, modL_top. cbv zeta. remember cL as l eqn:Q; clear Q.
    chk. cbn [fst]. rewrite !seti_length. split; [reflexivity|exact Hy]. }
  rb. destruct (for_range 32 modL_top (x1, plain 0)) as [x2 c]. unfold lx in H1. cbn [fst] in H1.
  destruct (for_ok _ (fun l => length l = 64%nat) 32 (fun x j => lset x j (lsub (rget x j) (lmul (Ok c) (rget cL j)))) (fun x j => seti x j (psub (geti x j) (pmul c (geti cL j)))) x2) as [-> H2]; [exact H1| |].
  { intros y j Hj Hy. remember cL as l eqn:Q; clear Q. rewrite seti_length. split; [chk; reflexivity|exact Hy]. }
  rb. remember (for_range 32 _ x2) as x3 eqn:Q; clear Q.
  destruct (for_ok _ (lxr (length r)) 32 (modL_out_c put) modL_out (x3, r)) as [-> H3]; [split; [exact H2|reflexivity]| |].
  { intros [y s] i Hi [Hy Hs]. cbn [fst snd] in *. unfold modL_out_c, modL_out. cbv zeta. chk. rewrite and_plain, KP by (try apply and_255; lia). rb.
    split; [reflexivity|]. unfold lxr. cbn [fst snd]. rewrite !seti_length. split; assumption. }
  rb. destruct (for_range 32 modL_out (x3, r)) as [x4 r4]. split; [reflexivity|exact (proj2 H3)].
Qed.
Lemma reduce_ok : forall r, (64 <= length r)%nat -> reduce_c r = Ok (reduce r) /\ length (reduce r) = 64%nat.
Proof.
  intros r L. unfold reduce_c, reduce. cbv zeta.
  destruct (for_ok _ (fun l => length l = 64%nat) 64 (fun x i => lset x i (lcast TU64 (rget r i))) (fun x i => seti x i (cast TU64 (geti r i))) (int_array TI64 64)) as [-> H]; [reflexivity| |].
  { intros y i Hi Hy. rewrite seti_length. split; [chk; reflexivity|exact Hy]. }
  rb. remember (for_range 64 _ _) as x eqn:Q; clear Q. apply (modL_ok lput (repeat (mk TU8 0) 64) x lput_keeps); [cbn; lia|exact H].
Qed.
Lemma clampd_ok : forall d, (32 <= length d)%nat -> clamp_d_c d = Ok (clamp_d d) /\ length (clamp_d d) = length d.
Proof. intros d L. unfold clamp_d_c, clamp_d. cbv zeta. rewrite !seti_length. split; [chk; reflexivity|reflexivity]. Qed.
Lemma signx_ok : forall r h d, (32 <= length r)%nat -> (32 <= length h)%nat -> (32 <= length d)%nat -> sign_x_c r h d = Ok (sign_x r h d) /\ length (sign_x r h d) = 64%nat.
Proof.
  intros r h d Lr Lh Ld. unfold sign_x_c, sign_x. cbv zeta.
  destruct (for_ok _ (fun l : list pint => length l = 64%nat) 64 (fun x i => lset x i (num 0)) (fun x i => seti x i (plain 0)) (int_array TI64 64)) as [-> H]; [reflexivity|body|].
  rb. remember (for_range 64 _ _) as x1 eqn:Q; clear Q.
  destruct (for_ok _ (fun l : list pint => length l = 64%nat) 32 (fun x i => lset x i (lcast TU64 (rget r i))) (fun x i => seti x i (cast TU64 (geti r i))) x1) as [-> H1]; [exact H|body|].
  rb. remember (for_range 32 _ x1) as x2 eqn:Q; clear Q.
  apply (for_ok _ (fun l : list pint => length l = 64%nat)); [exact H1|]. intros s i Hi Hs.
  apply (for_ok _ (fun l : list pint => length l = 64%nat)); [exact Hs|body].
Qed.
