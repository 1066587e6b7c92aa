(** No exception of a list is raised in X25519. *)
From Coq Require Import List ZArith Bool Strings.Byte Lia ZifyBool ZifyNat ZifyN.
From Verif Require Import PyBase PyInt PyInt_proofs ChkPy TwHash TwSalsa TwPoly TwField ChkHash ChkSalsa ChkField ChkHash_proofs ChkSalsa_proofs.
Import ListNotations.
Open Scope Z_scope.
Ltac Zify.zify_post_hook ::= Z.div_mod_to_equations.

Lemma gf_new_length : length gf_new = 16%nat. Proof. reflexivity. Qed.
Lemma set25519_ok : forall r a, (16 <= length r)%nat -> (16 <= length a)%nat -> set25519_c r a = Ok (set25519 r a) /\ length (set25519 r a) = length r.
Proof. intros r a Lr La. unfold set25519_c, set25519. apply (for_ok _ (fun l : list pint => length l = length r)); [reflexivity|body]. Qed.
Lemma car_ok : forall o, (16 <= length o)%nat -> car25519_c o = Ok (car25519 o) /\ length (car25519 o) = length o.
Proof.
  intros o L. unfold car25519_c, car25519. apply (for_ok _ (fun l : list pint => length l = length o)); [reflexivity|].
  intros s i Hi Hs. unfold car_step_c, car_step. cbv zeta. rewrite !seti_length. split; [|exact Hs].
  remember ((i + 1) * (if (i <? 15)%nat then 1 else 0))%nat as k eqn:Q. assert (Hk : (k < 16)%nat) by (destruct (i <? 15)%nat eqn:E; lia). clear Q.
  chk. reflexivity.
Qed.
Definition lens2 (p q : list pint) (st : list pint * list pint) : Prop := length (fst st) = length p /\ length (snd st) = length q.
Lemma sel_ok : forall p q b, (16 <= length p)%nat -> (16 <= length q)%nat -> sel25519_c p q b = Ok (sel25519 p q b) /\ lens2 p q (sel25519 p q b).
Proof.
  intros p q b Lp Lq. unfold sel25519_c, sel25519. cbv zeta. apply (for_ok _ (lens2 p q)); [split; reflexivity|].
  intros [x y] i Hi [H1 H2]. unfold lens2. cbn [fst snd] in *. rewrite !seti_length. split; [|split; assumption]. chk. reflexivity.
Qed.
Lemma pround_ok : forall t m, (16 <= length t)%nat -> (16 <= length m)%nat -> pack_round_c (t, m) = Ok (pack_round (t, m)) /\ lens2 t m (pack_round (t, m)).
Proof.
  intros t m Lt Lm. unfold pack_round_c, pack_round. cbv zeta. unfold lset at 1, sput at 1, lsub at 1, num at 1, lift2 at 1. rb. rewrite rget_ok by lia. rb. rewrite lput_ok by lia. rb.
  remember (seti m 0 _) as m1 eqn:Q. assert (L1 : length m1 = length m) by (rewrite Q, seti_length; reflexivity). clear Q.
  destruct (for_ok _ (fun l : list pint => length l = length m) 14 (fun m i => sub_step_c t m (S i)) (fun m i => sub_step t m (S i)) m1) as [E H]; [exact L1| |].
  { intros s i Hi Hs. unfold sub_step_c, sub_step. cbv zeta. rewrite !seti_length. split; [|exact Hs]. chk. reflexivity. }
  rewrite E. clear E. rb. remember (for_range 14 _ m1) as m2 eqn:Q. clear Q. chk.
  remember (seti _ 14 _) as m3 eqn:Q. assert (L3 : length m3 = length m) by (rewrite Q, !seti_length; exact H). clear Q.
  remember (psub (plain 1) _) as b eqn:Q. clear Q. destruct (sel_ok t m3 b) as [E [H3 H4]]; [exact Lt|lia|]. split; [exact E|split; [exact H3|rewrite H4; exact L3]].
Qed.
(** Storing the 32 bytes of a packed number *)
Definition out_loop (put : store) (t o : list pint) : res (list pint) := for_c 16 (fun o i =>
    rbind (sput put o (2 * i) (land (rget t i) (num 0xff))) (fun o =>
    sput put o (2 * i + 1) (lshr (rget t i) 8))) o.
Definition out_range (t o : list pint) : list pint := for_range 16 (fun o i =>
    let o := seti o (2 * i) (pand (geti t i) (plain 0xff)) in
    seti o (2 * i + 1) (pshr (geti t i) 8)) o.
Definition packed (n : list pint) : list pint :=
  let t := for_range 16 (fun t i => seti t i (geti n i)) gf_new in
  let t := car25519 (car25519 (car25519 t)) in
  fst (pack_round (pack_round (t, gf_new))).
Lemma pack_unfold : forall o n, pack25519 o n = out_range (packed n) o.
Proof. intros o n. unfold pack25519, packed. cbv zeta. destruct (pack_round (pack_round _)) as [t m]. reflexivity. Qed.
Lemma pack_chk : forall put o n, (16 <= length n)%nat -> pack25519_c put o n = out_loop put (packed n) o /\ length (packed n) = 16%nat.
Proof.
  intros put o n Ln. unfold pack25519_c, packed. cbv zeta. pose proof gf_new_length as Lg.
  loop1; [body|]. rewrite Lg in H. clear - H Lg. rename l into t.
  destruct (car_ok t) as [E1 H1]; [lia|]. rewrite E1. rb. destruct (car_ok (car25519 t)) as [E2 H2]; [lia|]. rewrite E2. rb.
  destruct (car_ok (car25519 (car25519 t))) as [E3 H3]; [lia|]. rewrite E3. rb. remember (car25519 (car25519 (car25519 t))) as t3 eqn:Q. clear Q.
  destruct (pround_ok t3 gf_new) as [E4 [H4 H5]]; [lia|lia|]. rewrite E4. rb. destruct (pack_round (t3, gf_new)) as [t4 m4]. cbn [fst snd] in *.
  destruct (pround_ok t4 m4) as [E5 [H6 H7]]; [lia|lia|]. rewrite E5. rb. destruct (pack_round (t4, m4)) as [t5 m5]. cbn [fst snd] in *.
  split; [reflexivity|lia].
Qed.
Lemma pack_ok : forall o n, (32 <= length o)%nat -> (16 <= length n)%nat -> pack25519_c lput o n = Ok (pack25519 o n) /\ length (pack25519 o n) = length o.
Proof.
  intros o n Lo Ln. destruct (pack_chk lput o n Ln) as [E H]. rewrite E, pack_unfold. clear E. remember (packed n) as t eqn:Q. clear Q.
  unfold out_loop, out_range. apply (for_ok _ (fun l : list pint => length l = length o)); [reflexivity|].
  intros s i Hi Hs. cbv zeta. rewrite !seti_length. split; [|exact Hs]. chk. reflexivity.
Qed.
Lemma neq_ok : forall a b, (16 <= length a)%nat -> (16 <= length b)%nat -> neq25519_c a b = Ok (neq25519 a b).
Proof.
  intros a b La Lb. unfold neq25519_c, neq25519, crypto_verify_32. destruct (pack_ok (int_array TU8 32) a) as [E H]; [cbn; lia|exact La|]. rewrite E. rb.
  destruct (pack_ok (int_array TU8 32) b) as [E2 H2]; [cbn; lia|exact Lb|]. rewrite E2. rb. apply vn_ok; [rewrite H|rewrite H2]; cbn; lia.
Qed.
Lemma par_ok : forall a, (16 <= length a)%nat -> par25519_c a = Ok (par25519 a).
Proof.
  intros a La. unfold par25519_c, par25519. destruct (pack_ok (int_array TU8 32) a) as [E H]; [cbn; lia|exact La|]. rewrite E. rb.
  change (length (int_array TU8 32)) with 32%nat in H. remember (pack25519 _ a) as d eqn:Q. clear Q E. chk. reflexivity.
Qed.
Lemma unpack_ok : forall o n, (16 <= length o)%nat -> (32 <= length n)%nat -> unpack25519_c o n = Ok (unpack25519 o n) /\ length (unpack25519 o n) = length o.
Proof. intros o n Lo Ln. unfold unpack25519_c, unpack25519. cbv zeta. loop1; [body|]. rewrite seti_length. split; [chk; reflexivity|exact H]. Qed.
Lemma fA_ok : forall o a b, (16 <= length o)%nat -> (16 <= length a)%nat -> (16 <= length b)%nat -> fA_c o a b = Ok (fA o a b) /\ length (fA o a b) = length o.
Proof. intros o a b Lo La Lb. unfold fA_c, fA. apply (for_ok _ (fun l : list pint => length l = length o)); [reflexivity|body]. Qed.
Lemma fZ_ok : forall o a b, (16 <= length o)%nat -> (16 <= length a)%nat -> (16 <= length b)%nat -> fZ_c o a b = Ok (fZ o a b) /\ length (fZ o a b) = length o.
Proof. intros o a b Lo La Lb. unfold fZ_c, fZ. apply (for_ok _ (fun l : list pint => length l = length o)); [reflexivity|body]. Qed.
Lemma fM_ok : forall o a b, (16 <= length o)%nat -> (16 <= length a)%nat -> (16 <= length b)%nat -> fM_c o a b = Ok (fM o a b) /\ length (fM o a b) = length o.
Proof.
  intros o a b Lo La Lb. unfold fM_c, fM. cbv zeta.
  match goal with |- context [for_range 16 ?f (int_array TI64 31)] => match goal with |- context [for_c 16 ?g (int_array TI64 31)] =>
    destruct (for_ok _ (fun l : list pint => length l = 31%nat) 16 g f (int_array TI64 31)) as [E H] end end; [reflexivity| |].
  { intros s i Hi Hs. apply (for_ok _ (fun l : list pint => length l = 31%nat)); [exact Hs|body]. }
  rewrite E. clear E. rb. remember (for_range 16 _ (int_array TI64 31)) as t eqn:Q. clear Q.
  loop1; [body|]. rename l into t2. loop1; [body|]. rename l into o2.
  destruct (car_ok o2) as [E1 H4]; [lia|]. rewrite E1. rb. destruct (car_ok (car25519 o2)) as [E2 H5]; [lia|]. split; [exact E2|lia].
Qed.
Lemma fS_ok : forall o a, (16 <= length o)%nat -> (16 <= length a)%nat -> fS_c o a = Ok (fS o a) /\ length (fS o a) = length o.
Proof. intros o a Lo La. apply fM_ok; assumption. Qed.
Lemma inv_ok : forall o i, (16 <= length o)%nat -> (16 <= length i)%nat -> inv25519_c o i = Ok (inv25519 o i) /\ length (inv25519 o i) = length o.
Proof.
  intros o i Lo Li. unfold inv25519_c, inv25519. cbv zeta. pose proof gf_new_length as Lg. loop1; [body|]. rewrite Lg in H. rename l into c.
  match goal with |- context [for_range 254 ?f c] => match goal with |- context [for_c 254 ?g c] =>
    destruct (for_ok _ (fun l : list pint => length l = 16%nat) 254 g f c) as [E H2] end end; [exact H| |].
  { intros s k Hk Hs. destruct (fS_ok s s) as [E1 H1]; [lia|lia|]. rewrite E1. rb. destruct (negb _ && negb _); [|split; [reflexivity|lia]].
    destruct (fM_ok (fS s s) (fS s s) i) as [E2 H2]; [lia|lia|lia|]. split; [exact E2|lia]. }
  rewrite E. clear E. rb. remember (for_range 254 _ c) as c2 eqn:Q. clear Q. apply (for_ok _ (fun l : list pint => length l = length o)); [reflexivity|body].
Qed.
Lemma pow_ok : forall o i, (16 <= length o)%nat -> (16 <= length i)%nat -> pow2523_c o i = Ok (pow2523 o i) /\ length (pow2523 o i) = length o.
Proof.
  intros o i Lo Li. unfold pow2523_c, pow2523. cbv zeta. pose proof gf_new_length as Lg. loop1; [body|]. rewrite Lg in H. rename l into c.
  match goal with |- context [for_range 251 ?f c] => match goal with |- context [for_c 251 ?g c] =>
    destruct (for_ok _ (fun l : list pint => length l = 16%nat) 251 g f c) as [E H2] end end; [exact H| |].
  { intros s k Hk Hs. destruct (fS_ok s s) as [E1 H1]; [lia|lia|]. rewrite E1. rb. destruct (negb _); [|split; [reflexivity|lia]].
    destruct (fM_ok (fS s s) (fS s s) i) as [E2 H2]; [lia|lia|lia|]. split; [exact E2|lia]. }
  rewrite E. clear E. rb. remember (for_range 251 _ c) as c2 eqn:Q. clear Q. apply (for_ok _ (fun l : list pint => length l = length o)); [reflexivity|body].
Qed.
Lemma clamp_ok : forall n, (32 <= length n)%nat -> clamp_z_c n = Ok (clamp_z n) /\ length (clamp_z n) = 32%nat.
Proof. intros n L. unfold clamp_z_c, clamp_z. cbv zeta. loop1; [body|]. rewrite !seti_length. split; [chk; reflexivity|exact H]. Qed.

(** One operation on numbers after the other *)
Ltac op E := let H := fresh "L" in destruct E as [-> H]; [lia..|]; rb.
Ltac gop := match goal with
  | |- context [rbind (fA_c ?o ?a ?b) _] => op (fA_ok o a b); remember (fA o a b)
  | |- context [rbind (fZ_c ?o ?a ?b) _] => op (fZ_ok o a b); remember (fZ o a b)
  | |- context [rbind (fM_c ?o ?a ?b) _] => op (fM_ok o a b); remember (fM o a b)
  | |- context [rbind (fS_c ?o ?a) _] => op (fS_ok o a); remember (fS o a)
  end.
Definition lad16 (s : ladder) : Prop := length (la s) = 16%nat /\ length (lb s) = 16%nat /\ length (lc s) = 16%nat /\ length (ld s) = 16%nat /\ length (le s) = 16%nat /\ length (lf s) = 16%nat.
Lemma gf_121665_length : length gf_121665 = 16%nat. Proof. reflexivity. Qed.
Lemma ladder_step_ok : forall x z s i, (16 <= length x)%nat -> length z = 32%nat -> (i < 256)%nat -> lad16 s -> ladder_step_c x z s i = Ok (ladder_step x z s i) /\ lad16 (ladder_step x z s i).
Proof.
  intros x z s i Lx Lz Hi (L0 & L1 & L2 & L3 & L4 & L5). unfold ladder_step_c, ladder_step. pose proof gf_121665_length as L6. remember gf_121665 as cc eqn:Qc. clear Qc.
  chk. cbv zeta. remember (pand _ (plain 1)) as r eqn:Qr. clear Qr.
  destruct (sel_ok (la s) (lb s) r) as [-> [A1 B1]]; [lia|lia|]. rb. destruct (sel25519 (la s) (lb s) r) as [a b]. cbn [fst snd] in *.
  destruct (sel_ok (lc s) (ld s) r) as [-> [C1 D1]]; [lia|lia|]. rb. destruct (sel25519 (lc s) (ld s) r) as [c d]. cbn [fst snd] in *.
  repeat gop.
  match goal with |- context [rbind (sel25519_c ?p ?q r) _] => destruct (sel_ok p q r) as [-> [A2 B2]]; [lia|lia|]; rb; destruct (sel25519 p q r) as [a' b'] end. cbn [fst snd] in *.
  match goal with |- context [rbind (sel25519_c ?p ?q r) _] => destruct (sel_ok p q r) as [-> [C2 D2]]; [lia|lia|]; rb; destruct (sel25519 p q r) as [c' d'] end. cbn [fst snd] in *.
  split; [reflexivity|]. unfold lad16. cbn [la lb lc ld le lf]. repeat split; lia.
Qed.
Lemma ladder_init_ok : forall x, (16 <= length x)%nat -> ladder_init_c x = Ok (ladder_init x) /\ lad16 (ladder_init x).
Proof.
  intros x L. unfold ladder_init_c, ladder_init. cbv zeta. pose proof gf_new_length as Lg. remember gf_new as gn eqn:Q. clear Q.
  destruct (for_ok _ (fun l : list pint => length l = 16%nat) 16 (fun b i => lset b i (rget x i)) (fun b i => seti b i (geti x i)) gn) as [-> H]; [exact Lg|body|].
  destruct (for_ok _ (fun l : list pint => length l = 16%nat) 16 (fun d i => lset d i (num 0)) (fun d i => seti d i (plain 0)) gn) as [-> H0]; [exact Lg|body|]. rb.
  remember (for_range 16 (fun d i => seti d i (plain 0)) gn) as zs eqn:Q. clear Q.
  chk. split; [reflexivity|]. unfold lad16. cbn [la lb lc ld le lf]. rewrite !seti_length. repeat split; lia.
Qed.
Lemma ladder_end_ok : forall q x s, (32 <= length q)%nat -> length x = 80%nat -> lad16 s -> ladder_end_c q x s = Ok (ladder_end q x s) /\ length (ladder_end q x s) = length q.
Proof.
  intros q x s Lq Lx (L0 & L1 & L2 & L3 & _ & _). unfold ladder_end_c, ladder_end. cbv zeta.
  match goal with |- context [for_range 16 ?f x] => match goal with |- context [for_c 16 ?g x] =>
    destruct (for_ok _ (fun l : list pint => length l = 80%nat) 16 g f x) as [E H] end end; [exact Lx| |].
  { intros y i Hi Hy. cbv zeta. rewrite !seti_length. split; [chk; reflexivity|exact Hy]. }
  rewrite E. clear E. rb. remember (for_range 16 _ x) as y eqn:Q. clear Q. unfold tail_c.
  destruct (inv_ok (skipn 32 y) (skipn 32 y)) as [-> H1]; [rewrite skipn_length; lia|rewrite skipn_length; lia|]. rb. rewrite skipn_length in H1.
  remember (firstn 32 y ++ _) as y2 eqn:Q. assert (L2' : length y2 = 80%nat) by (rewrite Q, app_length, firstn_length; lia). clear Q.
  destruct (fM_ok (skipn 16 y2) (skipn 16 y2) (skipn 32 y2)) as [-> H2]; [rewrite skipn_length; lia..|]. rb. rewrite skipn_length in H2.
  apply pack_ok; [exact Lq|]. rewrite skipn_length, app_length, firstn_length. lia.
Qed.
Lemma scalarmult_ok : forall q n p, (32 <= length q)%nat -> (32 <= length n)%nat -> (32 <= length p)%nat ->
  scalarmult_c q n p = Ok (crypto_scalarmult q n p) /\ length (crypto_scalarmult q n p) = length q.
Proof.
  intros q n p Lq Ln Lp. unfold scalarmult_c, crypto_scalarmult. cbv zeta. destruct (clamp_ok n Ln) as [-> Hz]. rb.
  destruct (unpack_ok (int_array TI64 80) p) as [-> Hx]; [cbn; lia|exact Lp|]. change (length (int_array TI64 80)) with 80%nat in Hx. rb.
  remember (clamp_z n) as z eqn:Q. clear Q. remember (unpack25519 _ p) as x eqn:Q. clear Q.
  destruct (ladder_init_ok x) as [-> Hs]; [lia|]. rb.
  destruct (for_ok _ lad16 255 (fun s k => ladder_step_c x z s (254 - k)) (fun s k => ladder_step x z s (254 - k)) (ladder_init x)) as [-> H]; [exact Hs| |].
  { intros s i Hi H. apply ladder_step_ok; try assumption; lia. }
  rb. apply ladder_end_ok; assumption.
Qed.
Lemma beforenm_ok : forall k y x, (32 <= length k)%nat -> (32 <= length y)%nat -> (32 <= length x)%nat ->
  beforenm_c k y x = Ok (crypto_box_beforenm k y x) /\ length (crypto_box_beforenm k y x) = length k.
Proof.
  intros k y x Lk Ly Lx. unfold beforenm_c, crypto_box_beforenm, crypto_core_hsalsa20. destruct (scalarmult_ok (int_array TU8 32) x y) as [-> H]; [cbn; lia|assumption..|].
  rb. change (length (int_array TU8 32)) with 32%nat in H. pose proof sigma_length as Ls. apply core_ok; try lia. cbn. lia.
Qed.
