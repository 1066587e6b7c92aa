(** The methods of the pure library, with the exceptions of lists and bytearrays, give what
    [TwHash] to [TwSign] say. *)
From Coq Require Import List ZArith Bool Strings.Byte Lia ZifyBool ZifyNat ZifyN.
From Verif Require Import PyBase PyInt PyInt_proofs ChkPy TwHash TwSalsa TwPoly TwField TwSign ChkHash ChkSalsa ChkField ChkSign
  ChkHash_proofs ChkSalsa_proofs ChkField_proofs ChkSign_proofs PyBase_proofs ShaSpec SalsaSpec CurveSpec EdSpec TwHash_proofs TwSalsa_proofs
  TwPoly_proofs TwBox_proofs Radix_proofs TwField_proofs TwPack_proofs TwCurve_proofs EdPoint TwSign_proofs TwModL_proofs TwEd_proofs TwPure.
From Verif Require Curve25519.
Import ListNotations.
Open Scope Z_scope.
Ltac Zify.zify_post_hook ::= Z.div_mod_to_equations.

Lemma rbytes_holds : forall l b, holds l b -> rbytes l = Ok b.
Proof.
  intros l b H. unfold rbytes. rewrite (holds_to_bytes l b H). replace (forallb is_byte l) with true; [reflexivity|]. symmetry. apply forallb_forall.
  intros v Hv. unfold holds in H. assert (I : In (pv v) (map pv l)) by (apply in_map; exact Hv). rewrite H in I. apply in_map_iff in I. destruct I as (y & E & _).
  unfold is_byte. pose proof (b2z_range y). lia.
Qed.
Lemma bare_length : forall l, length (bare l) = length l.
Proof. intros l. apply map_length. Qed.
Lemma bare_seti : forall l i v, bare (seti l i v) = seti (bare l) i (plain (pv v)).
Proof. induction l as [|x l IH]; intros [|i] v; try reflexivity. cbn [seti bare map]. f_equal. apply IH. Qed.
Lemma bare_bytes : forall b, bare (of_bytes b) = of_bytes b.
Proof. intros b. apply bare_holds. apply holds_of_bytes. Qed.
Lemma bare_geti : forall l i, pv (geti (bare l) i) = pv (geti l i).
Proof. intros l i. unfold bare, geti. change (plain 0) with ((fun x => plain (pv x)) (plain 0)) at 1. rewrite map_nth. reflexivity. Qed.
(** A loop that fills a bytearray and one that fills a list *)
Lemma for_bare : forall n g f l, (forall s i, (i < n)%nat -> length s = length l -> g (bare s) i = Ok (bare (f s i)) /\ length (f s i) = length s) ->
  for_c n g (bare l) = Ok (bare (for_range n f l)) /\ length (for_range n f l) = length l.
Proof.
  intros n g f l H. induction n as [|n IH]; [split; reflexivity|]. destruct IH as [E L]. { intros s i Hi. apply H. lia. }
  rewrite for_c_S, for_range_S, E. rb. destruct (H (for_range n f l) n ltac:(lia) L) as [-> L2]. split; [reflexivity|congruence].
Qed.
Lemma geti_bytes : forall b i, (i < length b)%nat -> geti (of_bytes b) i = plain (bval (nth i b x00)).
Proof. intros b i H. pose proof (px_bytes b [] i H) as [I P]. rewrite app_nil_r in I, P. unfold isp in I. unfold px in P. rewrite I. f_equal. exact P. Qed.
Lemma put_byte : forall l i v, (i < length l)%nat -> 0 <= pv v < 256 -> bput (bare l) i v = Ok (bare (seti l i v)).
Proof. intros l i v H B. rewrite bput_ok by (try rewrite bare_length; assumption). rewrite bare_seti. reflexivity. Qed.

(** ** A point in a bytearray *)
Lemma out_bput : forall t o, length t = 16%nat -> (32 <= length o)%nat -> (forall i, (i < 16)%nat -> 0 <= pv (pshr (geti t i) 8) < 256) ->
  out_loop bput t (bare o) = Ok (bare (out_range t o)) /\ length (out_range t o) = length o.
Proof.
  intros t o Lt Lo D. unfold out_loop, out_range. apply for_bare. intros s i Hi Hs. cbv zeta. rewrite !seti_length. split; [|reflexivity].
  unfold sput, land, lshr, lift2, lift, ChkPy.num. rb. rewrite rget_ok by lia. rb. rewrite put_byte; [|lia|rewrite and_plain; apply and_255]. rb.
  rewrite put_byte; [reflexivity|rewrite seti_length; lia|apply D; exact Hi].
Qed.
Lemma out_geti : forall n t o, (2 * n <= length o)%nat -> forall i, (i < n)%nat -> geti (for_range n (fun o i =>
    let o := seti o (2 * i) (pand (geti t i) (plain 255)) in seti o (2 * i + 1) (pshr (geti t i) 8)) o) (2 * i + 1) = pshr (geti t i) 8.
Proof.
  intros n t o L. pose proof (for_range_inv _ (fun k s => length s = length o /\ forall i, (i < k)%nat -> geti s (2 * i + 1) = pshr (geti t i) 8) n
    (fun o i => let o := seti o (2 * i) (pand (geti t i) (plain 255)) in seti o (2 * i + 1) (pshr (geti t i) 8)) o) as P.
  match type of P with _ -> _ -> ?cc => assert (T : cc) end; [apply P; clear P|exact (proj2 T)].
  - split; [reflexivity|]. intros i Hi. lia.
  - intros k s Hk [Ls I]. cbv zeta. rewrite !seti_length. split; [exact Ls|]. intros i Hi.
    rewrite seti_geti_chain by (rewrite seti_length; lia). destruct (Nat.eqb_spec (2 * k + 1) (2 * i + 1)) as [Q|Q]; [replace i with k by lia; reflexivity|].
    rewrite seti_geti_chain by lia. replace (2 * k =? 2 * i + 1)%nat with false by lia. apply I. lia.
Qed.
Lemma range_geti : forall t o, (32 <= length o)%nat -> forall i, (i < 16)%nat -> geti (out_range t o) (2 * i + 1) = pshr (geti t i) 8.
Proof. intros t o L. exact (out_geti 16 t o L). Qed.
Lemma shr_byte : forall o y r t, (32 <= length o)%nat -> holds r (encode_u y) -> out_range t o = r ++ skipn 32 o ->
  forall i, (i < 16)%nat -> 0 <= pv (pshr (geti t i) 8) < 256.
Proof.
  intros o y r t Lo HR ER i Hi. assert (Lr : length r = 32%nat) by (rewrite (holds_length _ _ HR); apply le_bytes_length).
  rewrite <- (range_geti t o Lo i Hi). rewrite ER. unfold geti. rewrite app_nth1 by lia. fold (geti r (2 * i + 1)).
  rewrite (holds_geti r _ _ HR) by (rewrite <- (holds_length _ _ HR); lia). apply byte_range.
Qed.
Lemma top_put : forall w o s e v, (32 <= length w)%nat -> length s = 32%nat -> holds s e ->
  seti w 31 (pxor (geti w 31) (plain v)) = s ++ skipn 32 o ->
  sput bput (bare w) 31 (lxor (rget (bare w) 31) (Ok (plain v))) = Ok (bare (seti w 31 (pxor (geti w 31) (plain v)))).
Proof.
  intros w o s e v Lw Ls HS E. unfold sput, lxor, lift2. rewrite rget_ok by (rewrite bare_length; lia). rb.
  unfold pxor in *. rewrite typed_plain_r in *. rewrite typed_plain_r. rewrite bare_geti. apply put_byte; [lia|].
  assert (G : pv (geti (s ++ skipn 32 o) 31) = bval (nth 31 e x00)).
  { unfold geti. rewrite app_nth1 by lia. fold (geti s 31). apply holds_geti; [exact HS|rewrite <- (holds_length _ _ HS); lia]. }
  rewrite <- E, geti_seti_eq in G by lia. rewrite G. apply byte_range.
Qed.
Lemma point_gen : forall o tx ty x y s e, (32 <= length o)%nat -> fe (2 ^ 17) tx x -> fe (2 ^ 17) ty y -> okz x ->
  seti (pack25519 o ty) 31 (pxor (geti (pack25519 o ty) 31) (pshl (par25519 tx) 7)) = s ++ skipn 32 o -> holds s e -> length e = 32%nat ->
  rbind (out_loop bput (packed ty) (bare o)) (fun r => sput bput r 31 (lxor (rget r 31) (lshl (Ok (par25519 tx)) 7))) =
  Ok (bare (seti (pack25519 o ty) 31 (pxor (geti (pack25519 o ty) 31) (pshl (par25519 tx) 7)))).
Proof.
  intros o tx ty x y s e Lo TX TY OX E HS Le. rewrite (par_w _ _ TX OX) in *. destruct (pack_fe o _ _ Lo (up40 _ _ TY)) as (r & ER & HR).
  assert (LT : (16 <= length ty)%nat) by (destruct TY as (f & [L _] & _); exact L).
  pose proof (pack_unfold o ty) as EU. pose proof (proj2 (pack_chk lput o ty ltac:(lia))) as LP. remember (packed ty) as t eqn:Q; clear Q.
  rewrite EU in *. destruct (out_bput t o LP Lo (shr_byte o y r t Lo HR ER)) as [-> L1]. rb.
  remember (out_range t o) as w eqn:Q; clear Q. unfold lshl, lift. rb.
  assert (EP : pshl (plain (x mod 2)) 7 = plain (if Z.odd x then 128 else 0)) by (rewrite mod2_if; destruct (Z.odd _); reflexivity).
  rewrite EP in *. apply (top_put w o s e); [lia|rewrite (holds_length _ _ HS); exact Le|exact HS|exact E].
Qed.
Lemma pp_eq : forall o p, pack_point o p = seti (pack25519 o (fM gf_new (g1 p) (inv25519 gf_new (g2 p)))) 31
  (pxor (geti (pack25519 o (fM gf_new (g1 p) (inv25519 gf_new (g2 p)))) 31) (pshl (par25519 (fM gf_new (g0 p) (inv25519 gf_new (g2 p)))) 7)).
Proof. reflexivity. Qed.
Lemma point_fe : forall p P, rep4 p P -> fe (2 ^ 17) (fM gf_new (g0 p) (inv25519 gf_new (g2 p))) (fst (fromP P)) /\
  fe (2 ^ 17) (fM gf_new (g1 p) (inv25519 gf_new (g2 p))) (snd (fromP P)).
Proof.
  intros p P (X & Y & Z & T & (FX & FY & FZ & _) & EQ). pose proof gf_new_len as GL. revert GL. generalize gf_new. intros gn GL.
  pose proof (proj1 (inv_fe gn (g2 p) Z GL FZ)) as FI. remember (inv25519 gn (g2 p)) as zi eqn:Q; clear Q.
  pose proof (rM gn (g0 p) _ _ _ GL (up19 _ _ FX) (up19 _ _ FI)) as TX. pose proof (rM gn (g1 p) _ _ _ GL (up19 _ _ FY) (up19 _ _ FI)) as TY.
  rewrite (zext_x _ _ _ _ _ EQ) in TX. rewrite (zext_y _ _ _ _ _ EQ) in TY. split; assumption.
Qed.
Lemma point_bput : forall o p P, (32 <= length o)%nat -> l4 p -> rep4 p P -> pack_point_c bput (bare o) p = Ok (bare (pack_point o p)).
Proof.
  intros o p P Lo Lp R. rewrite (point_chk bput (bare o) p Lp). destruct (pack_point_w o p P Lo R) as (s & E & HS).
  destruct (point_fe p P R) as [TX TY]. destruct (fromP_ok P) as [OX _]. rewrite pp_eq in E |- *.
  exact (point_gen o _ _ _ _ s _ Lo TX TY OX E HS (encode_length (fromP P))).
Qed.

(** ** Signing *)
Lemma pv_bare : forall l b, holds (bare l) b -> holds l b.
Proof. intros l b H. unfold holds, bare in *. rewrite map_map in H. exact H. Qed.
Lemma fill_ok : forall sm m d b, length sm = (length m + 64)%nat -> holds d b -> length b = 64%nat ->
  sign_fill_c (bare sm) (of_bytes m) (length m) (clamp_d d) = Ok (sign_fill sm (of_bytes m) (length m) (clamp_d d)).
Proof.
  intros sm m d b L H Lb. unfold sign_fill_c, sign_fill. cbv zeta.
  destruct (for_bare (length m) (fun sm i => sput bput sm (64 + i) (rget (of_bytes m) i)) (fun sm i => seti sm (64 + i) (geti (of_bytes m) i)) sm) as [-> L1].
  { intros s i Hi Hs. rewrite seti_length. split; [|reflexivity]. unfold sput. rewrite rget_ok by (rewrite of_bytes_length; exact Hi). rb.
    apply put_byte; [lia|]. rewrite geti_bytes by exact Hi. apply byte_range. }
  rb. remember (for_range (length m) _ sm) as s1 eqn:Q; clear Q. assert (LD : length (clamp_d d) = 64%nat) by (apply clamp_d_num with b; assumption).
  destruct (for_bare 32 (fun sm i => sput bput sm (32 + i) (rget (clamp_d d) (32 + i))) (fun sm i => seti sm (32 + i) (geti (clamp_d d) (32 + i))) s1) as [-> L2]; [|reflexivity].
  intros s i Hi Hs. rewrite seti_length. split; [|reflexivity]. unfold sput. rewrite rget_ok by lia. rb.
  apply put_byte; [lia|]. fold (px (clamp_d d) (32 + i)). rewrite (clamp_d_w d b) by (assumption || lia). replace (32 + i <? 32)%nat with false by lia. apply byte_range.
Qed.
Lemma copy_ok : forall n off sm src b, (off + n <= length sm)%nat -> (n + off <= length b)%nat -> src = of_bytes b ->
  for_c n (fun sm i => sput bput sm (i + off) (rget src (i + off))) sm = Ok (for_range n (fun sm i => seti sm (i + off) (geti src (i + off))) sm).
Proof.
  intros n off sm src b L Lb ->. apply (for_ok _ (fun l => length l = length sm)); [reflexivity|].
  intros s i Hi Hs. rewrite seti_length. split; [|exact Hs]. unfold sput. rewrite rget_ok by (rewrite of_bytes_length; lia). rb.
  rewrite geti_bytes by lia. apply bput_keeps; [lia|apply byte_range].
Qed.
Lemma key_ok : forall sm sk p P, (64 <= length sm)%nat -> (64 <= length sk)%nat -> l4 p -> rep4 p P ->
  sign_key_c (of_bytes sm) (of_bytes sk) p = Ok (sign_key (of_bytes sm) (of_bytes sk) p).
Proof.
  intros sm sk p P L Ls Lp R. unfold sign_key_c, sign_key. cbv zeta. rewrite <- (bare_bytes sm) at 1.
  assert (LS : length (of_bytes sm) = length sm) by apply of_bytes_length.
  assert (LP : length (pack_point (of_bytes sm) p) = length sm) by (rewrite (proj2 (point_ok (of_bytes sm) p ltac:(lia) Lp)); exact LS).
  rewrite (point_bput (of_bytes sm) p P) by (try assumption; lia). rb.
  apply (copy_ok 32 32 _ (of_bytes sk) sk); [rewrite bare_length; lia|lia|reflexivity].
Qed.
Lemma sign_c_eq : forall sm m n sk, sign_c sm m n sk =
  rbind (hash_c (int_array TU8 64) sk 32) (fun d => rbind (clamp_d_c d) (fun d => rbind (sign_fill_c sm m n d) (fun sm =>
  rbind (hash_c (int_array TU8 64) (skipn 32 sm) (Z.of_nat n + 32)) (fun r => rbind (reduce_c r) (fun r => rbind (scalarbase4_c gf4_new r) (fun p =>
  rbind (sign_key_c sm sk p) (fun sm => rbind (hash_c (int_array TU8 64) sm (Z.of_nat n + 64)) (fun h => rbind (reduce_c h) (fun h =>
  rbind (sign_x_c r h d) (fun x => tail_c 32 (fun t => modL_c bput t x) sm)))))))))).
Proof. reflexivity. Qed.
Definition model_tail (sm : list pint) (n : nat) (r d : list pint) : list pint :=
  bare (on_tail 32 (fun r' => modL r' (sign_x r (reduce (crypto_hash_sha512 (int_array TU8 64) sm (Z.of_nat n + 64))) d)) sm).
Definition model_key (sm : list pint) (n : nat) (sk d : list pint) : list pint :=
  model_tail (sign_key sm sk (scalarbase4 gf4_new (reduce (crypto_hash_sha512 (int_array TU8 64) (skipn 32 sm) (Z.of_nat n + 32))))) n
    (reduce (crypto_hash_sha512 (int_array TU8 64) (skipn 32 sm) (Z.of_nat n + 32))) d.
Lemma sign_model_eq : forall sm m n sk, crypto_sign_ed25519 sm m n sk =
  model_key (sign_fill sm m n (clamp_d (crypto_hash_sha512 (int_array TU8 64) sk 32))) n sk (clamp_d (crypto_hash_sha512 (int_array TU8 64) sk 32)).
Proof. intros sm m n sk. unfold crypto_sign_ed25519, model_key, model_tail. cbv zeta. reflexivity. Qed.
Lemma model_key_eq : forall sm n sk d, model_key sm n sk d =
  model_tail (sign_key sm sk (scalarbase4 gf4_new (reduce (crypto_hash_sha512 (int_array TU8 64) (skipn 32 sm) (Z.of_nat n + 32))))) n
    (reduce (crypto_hash_sha512 (int_array TU8 64) (skipn 32 sm) (Z.of_nat n + 32))) d.
Proof. reflexivity. Qed.
Lemma model_tail_eq : forall sm n r d, model_tail sm n r d =
  bare (on_tail 32 (fun r' => modL r' (sign_x r (reduce (crypto_hash_sha512 (int_array TU8 64) sm (Z.of_nat n + 64))) d)) sm).
Proof. reflexivity. Qed.
Lemma tail_step : forall sm n r d b, (64 + n <= length sm)%nat -> length r = 64%nat -> length d = 64%nat -> holds (model_tail sm n r d) b ->
  exists s, rbind (hash_c (int_array TU8 64) sm (Z.of_nat n + 64)) (fun h => rbind (reduce_c h) (fun h =>
  rbind (sign_x_c r h d) (fun x => tail_c 32 (fun t => modL_c bput t x) sm))) = Ok s /\ holds s b.
Proof.
  intros sm n r d b LA LR LD SH. rewrite model_tail_eq in SH. apply pv_bare in SH.
  destruct (hash_ok (int_array TU8 64) sm (Z.of_nat n + 64)) as [E LH0]; [cbn; lia|lia|]. change (length (int_array TU8 64)) with 64%nat in LH0.
  rewrite E. clear E. rb.
  remember (crypto_hash_sha512 (int_array TU8 64) sm (Z.of_nat n + 64)) as h eqn:Q; clear Q.
  destruct (reduce_ok h) as [E LH1]; [lia|]. rewrite E. clear E. rb.
  destruct (signx_ok r (reduce h) d) as [E LX]; [lia..|]. rewrite E. clear E. rb. remember (sign_x r (reduce h) d) as x eqn:Q; clear Q.
  exists (on_tail 32 (fun r' => modL r' x) sm). split; [|exact SH].
  apply (tail_ok 32 _ (fun r' => modL r' x)). apply (modL_ok bput (skipn 32 sm) x bput_keeps); [rewrite skipn_length; lia|exact LX].
Qed.
Lemma key_step : forall t m sk d b, length t = 32%nat -> (64 <= length sk)%nat -> length d = 64%nat -> Z.of_nat (length m) + 64 < 2 ^ 64 ->
  holds (model_key (of_bytes (repeat x00 32 ++ t ++ m)) (length m) (of_bytes sk) d) b ->
  exists s, rbind (hash_c (int_array TU8 64) (skipn 32 (of_bytes (repeat x00 32 ++ t ++ m))) (Z.of_nat (length m) + 32)) (fun r => rbind (reduce_c r) (fun r => rbind (scalarbase4_c gf4_new r) (fun p =>
  rbind (sign_key_c (of_bytes (repeat x00 32 ++ t ++ m)) (of_bytes sk) p) (fun sm => rbind (hash_c (int_array TU8 64) sm (Z.of_nat (length m) + 64)) (fun h => rbind (reduce_c h) (fun h =>
  rbind (sign_x_c r h d) (fun x => tail_c 32 (fun t => modL_c bput t x) sm))))))) = Ok s /\ holds s b.
Proof.
  intros t m sk d b LT L LD B SH. rewrite model_key_eq in SH.
  assert (E1 : skipn 32 (of_bytes (repeat x00 32 ++ t ++ m)) = of_bytes (t ++ m)) by (rewrite of_bytes_app; reflexivity).
  rewrite E1 in *. clear E1.
  replace (Z.of_nat (length m) + 32) with (Z.of_nat (length m + 32)) in SH |- * by lia.
  destruct (hash_ok (int_array TU8 64) (of_bytes (t ++ m)) (Z.of_nat (length m + 32))) as [E LR0]; [cbn; lia|rewrite of_bytes_length, app_length; lia|].
  rewrite E. clear E. rb. change (length (int_array TU8 64)) with 64%nat in LR0.
  destruct (reduce_ok (crypto_hash_sha512 (int_array TU8 64) (of_bytes (t ++ m)) (Z.of_nat (length m + 32)))) as [E LR1]; [lia|]. rewrite E. clear E. rb.
  pose proof (hash_reduce (int_array TU8 64) (of_bytes (t ++ m)) (t ++ m) (length m + 32) (holds_of_bytes (t ++ m))
    ltac:(rewrite app_length; lia) ltac:(lia) eq_refl) as HR.
  rewrite (firstn_all2 (t ++ m)) in HR by (rewrite app_length; lia).
  remember (reduce (crypto_hash_sha512 (int_array TU8 64) (of_bytes (t ++ m)) (Z.of_nat (length m + 32)))) as rl eqn:Q. clear Q LR0.
  pose proof (mod_L_256 (le_word (sha512 (t ++ m)))) as RR. fold (hash_L (t ++ m)) in RR.
  remember (hash_L (t ++ m)) as r eqn:Er; clear Er.
  pose proof (scalarbase4_w gf4_new _ r new_lens (sbits_of_bytes r (repeat (mk TU8 0) 32) RR)) as SB. rewrite <- HR in SB.
  destruct (scalarbase4_ok gf4_new rl new_l4) as [E LP]; [lia|]. rewrite E. clear E. rb. remember (scalarbase4 gf4_new rl) as p eqn:Q; clear Q.
  rewrite (key_ok (repeat x00 32 ++ t ++ m) sk p _) with (2 := L) (3 := LP) (4 := SB) by (rewrite !app_length, repeat_length; lia). rb.
  rewrite (sign_key_w (repeat x00 32) t m sk p _ eq_refl LT L SB) in SH |- *.
  pose proof (encode_length (fromP (cmul (Z.to_N r) cG))) as LE. remember (encode_point _) as R eqn:ER; clear ER SB LP.
  assert (LK : length (firstn 32 (skipn 32 sk)) = 32%nat) by (rewrite firstn_length, skipn_length; lia).
  apply (tail_step _ _ _ _ _) with (4 := SH); [rewrite of_bytes_length, !app_length; lia|exact LR1|exact LD].
Qed.
Lemma sign_ok : forall m sk, (64 <= length sk)%nat -> Z.of_nat (length m) + 64 < 2 ^ 64 ->
  exists s, sign_c (of_bytes (repeat x00 (length m + 64))) (of_bytes m) (length m) (of_bytes sk) = Ok s /\ holds s (ed_sign (firstn 32 sk) (firstn 32 (skipn 32 sk)) m ++ m).
Proof.
  intros m sk L B. pose proof (sign_holds m sk L B) as SH. rewrite sign_model_eq in SH. rewrite sign_c_eq.
  pose proof (hash_w (int_array TU8 64) (of_bytes sk) sk 32 (holds_of_bytes sk) ltac:(lia) ltac:(change (Z.to_nat 32) with 32%nat; lia) ltac:(lia) eq_refl) as W.
  change (Z.to_nat 32) with 32%nat in W. pose proof (sha512_length (firstn 32 sk)) as LH.
  destruct (hash_ok (int_array TU8 64) (of_bytes sk) 32) as [E LD0]; [cbn; lia|rewrite of_bytes_length; lia|]. rewrite E. clear E. rb. change (length (int_array TU8 64)) with 64%nat in LD0.
  remember (sha512 (firstn 32 sk)) as H eqn:EH. remember (crypto_hash_sha512 (int_array TU8 64) (of_bytes sk) 32) as d eqn:Ed; clear Ed EH.
  destruct (clampd_ok d) as [E LD]; [lia|]. rewrite E. clear E. rb.
  assert (LT : length (skipn 32 H) = 32%nat) by (rewrite skipn_length; lia).
  pose proof (fill_ok (of_bytes (repeat x00 (length m + 64))) m d H ltac:(rewrite of_bytes_length, repeat_length; reflexivity) W LH) as F.
  rewrite bare_bytes in F. rewrite F. clear F. rb.
  rewrite (sign_fill_w _ m d H) in SH |- * by (rewrite ?of_bytes_length, ?repeat_length; try apply holds_of_bytes; (reflexivity || assumption)).
  apply (key_step (skipn 32 H) m sk (clamp_d d) _ LT L); [lia|exact B|exact SH].
Qed.
Lemma method_sign_ok : forall m sk, (64 <= length sk)%nat -> Z.of_nat (length m) + 64 < 2 ^ 64 ->
  method_sign m sk = Ok (ed_sign (firstn 32 sk) (firstn 32 (skipn 32 sk)) m ++ m).
Proof.
  intros m sk L B. destruct (sign_ok m sk L B) as (s & E & H). unfold method_sign. rewrite E. rb. apply rbytes_holds. exact H.
Qed.

(** ** Key pairs *)
Lemma method_keypair_ok : forall seed, length seed = 32%nat -> method_sign_keypair seed = Ok (ed_public seed, seed ++ ed_public seed).
Proof.
  intros seed L. unfold method_sign_keypair. rewrite L. cbn [Nat.eqb negb].
  pose proof (hash_w (int_array TU8 64) (of_bytes seed) seed 32 (holds_of_bytes seed) ltac:(lia) ltac:(change (Z.to_nat 32) with 32%nat; lia) ltac:(lia) eq_refl) as W.
  change (Z.to_nat 32) with 32%nat in W. rewrite (firstn_all2 seed) in W by lia.
  destruct (hash_ok (int_array TU8 64) (of_bytes seed) 32) as [E LD0]; [cbn; lia|rewrite of_bytes_length; lia|]. rewrite E. clear E. rb.
  remember (crypto_hash_sha512 (int_array TU8 64) (of_bytes seed) 32) as d eqn:Q; clear Q.
  destruct (clamp_d_num _ _ W (sha512_length _)) as (N & R & LD).
  destruct (clampd_ok d) as [E _]; [rewrite LD0; cbn; lia|]. rewrite E. clear E. rb.
  pose proof (scalarbase4_w gf4_new _ _ new_lens (sbits_num _ _ R N)) as SB.
  destruct (scalarbase4_ok gf4_new (clamp_d d) new_l4) as [E LP]; [lia|]. rewrite E. clear E. rb. remember (scalarbase4 gf4_new (clamp_d d)) as p eqn:Q; clear Q.
  destruct (point_ok (int_array TU8 32) p) as [E _]; [cbn; lia|exact LP|]. rewrite E. clear E. rb.
  destruct (pack_point_w (int_array TU8 32) p _ ltac:(cbn; lia) SB) as (s & E & HS). rewrite E.
  change (skipn 32 (int_array TU8 32)) with (@nil pint). rewrite app_nil_r. rewrite (rbytes_holds _ _ HS). rb.
  rewrite fromP_mul by apply decode_scalar_pos. reflexivity.
Qed.

(** ** Decoding a key *)
Lemma root_ok : forall A (K : list pint -> res A) o num den, length o = 16%nat -> length num = 16%nat -> length den = 16%nat ->
  rbind (fS_c gf_new den) (fun den2 => rbind (fS_c gf_new den2) (fun den4 => rbind (fM_c gf_new den4 den2) (fun den6 => rbind (fM_c gf_new den6 num) (fun t =>
  rbind (fM_c t t den) (fun t => rbind (pow2523_c t t) (fun t => rbind (fM_c t t num) (fun t => rbind (fM_c t t den) (fun t => rbind (fM_c t t den) (fun t =>
  rbind (fM_c o t den) K))))))))) = K (up_root o num den) /\ length (up_root o num den) = 16%nat.
Proof.
  intros A K o num den Lo Ln Ld. unfold up_root. pose proof gf_new_length as Lg. revert Lg. generalize gf_new. intros gn Lg. cbv zeta. repeat gop.
  match goal with |- context [rbind (pow2523_c ?a ?b) _] => destruct (pow_ok a b) as [E LP]; [lia|lia|]; rewrite E; clear E; rb; remember (pow2523 a b) end.
  repeat gop. split; [reflexivity|lia].
Qed.
Lemma chk_ok : forall A (K : list pint -> res A) r0 den, length r0 = 16%nat -> length den = 16%nat ->
  rbind (fS_c gf_new r0) (fun chk => rbind (fM_c chk chk den) K) = K (up_chk r0 den) /\ length (up_chk r0 den) = 16%nat.
Proof.
  intros A K r0 den L0 Ld. unfold up_chk. pose proof gf_new_length as Lg. revert Lg. generalize gf_new. intros gn Lg. cbv zeta. repeat gop. split; [reflexivity|lia].
Qed.
Lemma num_den_ok : forall A (K : list pint -> list pint -> list pint -> list pint -> res A) r p, l4 r -> (32 <= length p)%nat ->
  rbind (set25519_c (g2 r) gf1) (fun r2 => rbind (unpack25519_c (g1 r) p) (fun r1 => rbind (fS_c gf_new r1) (fun num => rbind (fM_c gf_new num cD) (fun den =>
  rbind (fZ_c num num r2) (fun num => rbind (fA_c den r2 den) (fun den => K r2 r1 num den)))))) =
  K (set25519 (g2 r) gf1) (unpack25519 (g1 r) p) (up_num r p) (up_den r p) /\
  length (set25519 (g2 r) gf1) = 16%nat /\ length (unpack25519 (g1 r) p) = 16%nat /\ length (up_num r p) = 16%nat /\ length (up_den r p) = 16%nat.
Proof.
  intros A K r p (R0 & R1 & R2 & R3) Lp. unfold up_num, up_den. cbv zeta. destruct const_lengths as (LD & _ & _ & _ & _ & _ & L1). pose proof gf_new_length as Lg.
  revert LD L1 Lg. generalize cD gf1 gf_new. intros dd o gn LD L1 Lg.
  destruct (set25519_ok (g2 r) o) as [E H2]; [lia|lia|]. rewrite E. clear E. rb. destruct (unpack_ok (g1 r) p) as [E H1]; [lia|lia|]. rewrite E. clear E. rb.
  remember (set25519 (g2 r) o) as r2 eqn:Q; clear Q. remember (unpack25519 (g1 r) p) as r1 eqn:Q; clear Q. repeat gop. split; [reflexivity|repeat split; lia].
Qed.
Definition last_c (r : gf4) (p r2 r1 num den r0 chk : list pint) : res (option gf4) :=
  rbind (neq25519_c chk num) (fun v =>
  rbind (if negb (pv v =? 0) then fM_c r0 r0 cI else Ok r0) (fun r0 =>
  rbind (fS_c chk r0) (fun chk =>
  rbind (fM_c chk chk den) (fun chk =>
  rbind (neq25519_c chk num) (fun v =>
  if negb (pv v =? 0) then Ok None else
  rbind (par25519_c r0) (fun v =>
  rbind (lshr (rget p 31) 7) (fun w =>
  rbind (if pv v =? pv w then fZ_c r0 gf0 r0 else Ok r0) (fun r0 =>
  rbind (fM_c (g3 r) r0 r1) (fun r3 =>
  Ok (Some (G4 r0 r1 r2 r3))))))))))).
Lemma unpackneg_c_eq : forall r p, unpackneg_c r p =
  rbind (set25519_c (g2 r) gf1) (fun r2 => rbind (unpack25519_c (g1 r) p) (fun r1 => rbind (fS_c gf_new r1) (fun num => rbind (fM_c gf_new num cD) (fun den =>
  rbind (fZ_c num num r2) (fun num => rbind (fA_c den r2 den) (fun den => 
  rbind (fS_c gf_new den) (fun den2 => rbind (fS_c gf_new den2) (fun den4 => rbind (fM_c gf_new den4 den2) (fun den6 => rbind (fM_c gf_new den6 num) (fun t =>
  rbind (fM_c t t den) (fun t => rbind (pow2523_c t t) (fun t => rbind (fM_c t t num) (fun t => rbind (fM_c t t den) (fun t => rbind (fM_c t t den) (fun t =>
  rbind (fM_c (g0 r) t den) (fun r0 => rbind (fS_c gf_new r0) (fun chk => rbind (fM_c chk chk den) (fun chk => last_c r p r2 r1 num den r0 chk)))))))))))))))))).
Proof. reflexivity. Qed.
Lemma last_eq : forall r p r2 r1 num den r0 chk, last_c r p r2 r1 num den r0 chk =
  rbind (neq25519_c chk num) (fun v =>
  rbind (if negb (pv v =? 0) then fM_c r0 r0 cI else Ok r0) (fun r0 =>
  rbind (fS_c chk r0) (fun chk =>
  rbind (fM_c chk chk den) (fun chk =>
  rbind (neq25519_c chk num) (fun v =>
  if negb (pv v =? 0) then Ok None else
  rbind (par25519_c r0) (fun v =>
  rbind (lshr (rget p 31) 7) (fun w =>
  rbind (if pv v =? pv w then fZ_c r0 gf0 r0 else Ok r0) (fun r0 =>
  rbind (fM_c (g3 r) r0 r1) (fun r3 =>
  Ok (Some (G4 r0 r1 r2 r3))))))))))).
Proof. reflexivity. Qed.
Lemma up_last_ok : forall r p num den r0 chk, l4 r -> (32 <= length p)%nat -> length num = 16%nat -> length den = 16%nat -> length r0 = 16%nat -> length chk = 16%nat ->
  length (set25519 (g2 r) gf1) = 16%nat -> length (unpack25519 (g1 r) p) = 16%nat ->
  last_c r p (set25519 (g2 r) gf1) (unpack25519 (g1 r) p) num den r0 chk = Ok (up_last r p num den r0 chk) /\ match up_last r p num den r0 chk with Some q => l4 q | None => True end.
Proof.
  intros r p num den r0 chk (R0 & R1 & R2 & R3) Lp Ln Ld L0 Lc H2 H1. rewrite last_eq. unfold up_last, sign_pick. cbv zeta.
  remember (set25519 (g2 r) gf1) as r2 eqn:Q; clear Q. remember (unpack25519 (g1 r) p) as r1 eqn:Q; clear Q.
  destruct const_lengths as (_ & _ & _ & _ & LI & LZ & _). revert LI LZ. generalize cI gf0. intros ci z LI LZ.
  rewrite (neq_ok chk num) by lia. rb. remember (neq25519 chk num) as v1 eqn:Q; clear Q.
  remember (if negb (pv v1 =? 0) then fM r0 r0 ci else r0) as s0 eqn:Q0.
  assert (E0 : (if negb (pv v1 =? 0) then fM_c r0 r0 ci else Ok r0) = Ok s0 /\ length s0 = 16%nat).
  { subst s0. destruct (negb _); [|split; [reflexivity|lia]]. destruct (fM_ok r0 r0 ci) as [-> ?]; [lia..|split; [reflexivity|lia]]. }
  destruct E0 as [E Ls]. rewrite E. clear E Q0. rb. repeat gop. rewrite neq_ok by lia. rb. remember (neq25519 _ _) as v2 eqn:Q; clear Q.
  destruct (negb (pv v2 =? 0)); [split; [reflexivity|exact I]|].
  rewrite par_ok by lia. rb. chk.
  remember (if pv (par25519 s0) =? pv (pshr (geti p 31) 7) then fZ s0 z s0 else s0) as t0 eqn:Q0.
  assert (E0 : (if pv (par25519 s0) =? pv (pshr (geti p 31) 7) then fZ_c s0 z s0 else Ok s0) = Ok t0 /\ length t0 = 16%nat).
  { subst t0. destruct (_ =? _); [|split; [reflexivity|lia]]. destruct (fZ_ok s0 z s0) as [-> ?]; [lia..|split; [reflexivity|lia]]. }
  destruct E0 as [E Lt]. rewrite E. clear E Q0. rb. repeat gop. split; [reflexivity|]. unfold l4. cbn [g0 g1 g2 g3]. repeat split; lia.
Qed.
Lemma unpackneg_ok : forall r p, l4 r -> (32 <= length p)%nat -> unpackneg_c r p = Ok (unpackneg r p) /\ match unpackneg r p with Some q => l4 q | None => True end.
Proof.
  intros r p L Lp. rewrite unpackneg_c_eq, unpackneg_eq. assert (L0 : length (g0 r) = 16%nat) by (destruct L as (L & _); exact L).
  match goal with |- rbind _ (fun r2 => rbind _ (fun r1 => rbind _ (fun n0 => rbind _ (fun d0 => rbind _ (fun n1 => rbind _ (fun d1 => @?K r2 r1 n1 d1)))))) = _ /\ _ =>
    destruct (num_den_ok _ K r p L Lp) as [E (LA & LB & LN & LD)] end.
  rewrite E. clear E. cbv beta. remember (up_num r p) as num eqn:Q; clear Q. remember (up_den r p) as den eqn:Q; clear Q.
  destruct (root_ok _ (fun r0 => rbind (fS_c gf_new r0) (fun chk => rbind (fM_c chk chk den) (fun chk => last_c r p (set25519 (g2 r) gf1) (unpack25519 (g1 r) p) num den r0 chk)))
    (g0 r) num den L0 LN LD) as [E LR]. rewrite E. clear E. remember (up_root (g0 r) num den) as r0 eqn:Q; clear Q.
  destruct (chk_ok _ (fun chk => last_c r p (set25519 (g2 r) gf1) (unpack25519 (g1 r) p) num den r0 chk) r0 den LR LD) as [E LC]. rewrite E. clear E.
  apply up_last_ok; assumption.
Qed.

(** ** Opening *)
Definition open_some_c (q : gf4) (m sm : list pint) (n : nat) (pk : list pint) : res (Z * list pint) :=
    rbind (for_c n (fun m i => sput bput m i (rget sm i)) m) (fun m =>
    rbind (for_c 32 (fun m i => sput bput m (i + 32) (rget pk i)) m) (fun m =>
    rbind (hash_c (int_array TU8 64) m (Z.of_nat n)) (fun h =>
    rbind (reduce_c h) (fun h =>
    rbind (scalarmult4_c gf4_new q h) (fun p =>
    rbind (scalarbase4_c q (skipn 32 sm)) (fun q =>
    rbind (add4_c p q) (fun p =>
    rbind (pack_point_c lput (int_array TU8 32) p) (fun t =>
    rbind (vn_c sm t 32) (fun v =>
    if negb (pv v =? 0) then rbind (for_c (n - 64) (fun m i => sput bput m i (ChkPy.num 0)) m) (fun m => Ok (-1, m))
    else rbind (for_c (n - 64) (fun m i => sput bput m i (rget sm (i + 64))) m) (fun m => Ok (0, m))))))))))).
Lemma open_c_eq : forall m sm n pk, sign_open_c m sm n pk =
  if (n <? 64)%nat then Ok (-1, m) else rbind (unpackneg_c gf4_new pk) (fun u => match u with None => Ok (-1, m) | Some q => open_some_c q m sm n pk end).
Proof. reflexivity. Qed.
Lemma open_some_eq : forall q m sm n pk, open_some_c q m sm n pk =
    rbind (for_c n (fun m i => sput bput m i (rget sm i)) m) (fun m =>
    rbind (for_c 32 (fun m i => sput bput m (i + 32) (rget pk i)) m) (fun m =>
    rbind (hash_c (int_array TU8 64) m (Z.of_nat n)) (fun h =>
    rbind (reduce_c h) (fun h =>
    rbind (scalarmult4_c gf4_new q h) (fun p =>
    rbind (scalarbase4_c q (skipn 32 sm)) (fun q =>
    rbind (add4_c p q) (fun p =>
    rbind (pack_point_c lput (int_array TU8 32) p) (fun t =>
    rbind (vn_c sm t 32) (fun v =>
    if negb (pv v =? 0) then rbind (for_c (n - 64) (fun m i => sput bput m i (ChkPy.num 0)) m) (fun m => Ok (-1, m))
    else rbind (for_c (n - 64) (fun m i => sput bput m i (rget sm (i + 64))) m) (fun m => Ok (0, m))))))))))).
Proof. reflexivity. Qed.
Definition open_last (m sm t : list pint) (n : nat) : Z * list pint :=
  if negb (pv (crypto_verify_32 sm t) =? 0) then (-1, for_range (n - 64) (fun m i => seti m i (plain 0)) m)
  else (0, for_range (n - 64) (fun m i => seti m i (geti sm (i + 64))) m).
Definition open_mid (m sm : list pint) (n : nat) (q : gf4) : Z * list pint :=
  open_last m sm (pack_point (int_array TU8 32) (add4 (scalarmult4 gf4_new q (reduce (crypto_hash_sha512 (int_array TU8 64) m (Z.of_nat n)))) (scalarbase4 q (skipn 32 sm)))) n.
Lemma open_mid_eq : forall m sm n q, open_mid m sm n q =
  open_last m sm (pack_point (int_array TU8 32) (add4 (scalarmult4 gf4_new q (reduce (crypto_hash_sha512 (int_array TU8 64) m (Z.of_nat n)))) (scalarbase4 q (skipn 32 sm)))) n.
Proof. reflexivity. Qed.
Lemma open_with_eq : forall q m sm n pk, open_with (Some q) m sm n pk =
  open_mid (for_range 32 (fun m i => seti m (i + 32) (geti pk i)) (for_range n (fun m i => seti m i (geti sm i)) m)) sm n q.
Proof. intros q m sm n pk. unfold open_with, open_mid, open_last. cbv zeta. reflexivity. Qed.
Lemma fill_put : forall n (a c : nat -> nat) sm b, (forall i, (i < n)%nat -> (a i < length sm)%nat /\ (c i < length b)%nat) ->
  for_c n (fun sm i => sput bput sm (a i) (rget (of_bytes b) (c i))) sm = Ok (for_range n (fun sm i => seti sm (a i) (geti (of_bytes b) (c i))) sm) /\
  length (for_range n (fun sm i => seti sm (a i) (geti (of_bytes b) (c i))) sm) = length sm.
Proof.
  intros n a c sm b L. apply (for_ok _ (fun l => length l = length sm)); [reflexivity|].
  intros s i Hi Hs. destruct (L i Hi) as [L1 L2]. rewrite seti_length. split; [|exact Hs]. unfold sput. rewrite rget_ok by (rewrite of_bytes_length; lia). rb.
  rewrite geti_bytes by lia. apply bput_keeps; [lia|apply byte_range].
Qed.
Lemma last_ok : forall m sm t, (64 <= length sm)%nat -> length m = length sm -> (32 <= length t)%nat ->
  rbind (vn_c (of_bytes sm) t 32) (fun v =>
    if negb (pv v =? 0) then rbind (for_c (length sm - 64) (fun m i => sput bput m i (ChkPy.num 0)) m) (fun m => Ok (-1, m))
    else rbind (for_c (length sm - 64) (fun m i => sput bput m i (rget (of_bytes sm) (i + 64))) m) (fun m => Ok (0, m))) =
  Ok (open_last m (of_bytes sm) t (length sm)) /\
  (fst (open_last m (of_bytes sm) t (length sm)) = 0 -> holds (firstn (length sm - 64) (snd (open_last m (of_bytes sm) t (length sm)))) (skipn 64 sm)).
Proof.
  intros m sm t L Lm Lt. rewrite (vn_ok (of_bytes sm) t 32) by (rewrite ?of_bytes_length; lia). rb. unfold open_last, crypto_verify_32.
  destruct (negb (pv (vn (of_bytes sm) t 32) =? 0)).
  - destruct (for_ok _ (fun l => length l = length m) (length sm - 64) (fun m i => sput bput m i (ChkPy.num 0)) (fun m i => seti m i (plain 0)) m) as [E _]; [reflexivity| |].
    { intros s i Hi Hs. rewrite seti_length. split; [|exact Hs]. unfold sput, ChkPy.num. rb. apply bput_keeps; lia. }
    rewrite E. split; [reflexivity|]. cbn [fst]. discriminate.
  - destruct (fill_put (length sm - 64) (fun i => i) (fun i => (i + 64)%nat) m sm ltac:(intros ? ?; cbv beta; lia)) as [E _]. rewrite E. rb. cbn [fst snd].
    split; [reflexivity|]. intros _. rewrite (for_range_fill (length sm - 64) (fun i => geti (of_bytes sm) (i + 64))) by lia.
    rewrite firstn_app, firstn_all2 by (rewrite map_length, seq_length; lia). rewrite map_length, seq_length, Nat.sub_diag, firstn_O, app_nil_r.
    pose proof (holds_map_geti 64 (length sm - 64) _ _ (holds_of_bytes sm) ltac:(lia)) as H. rewrite (firstn_all2 (skipn 64 sm)) in H by (rewrite skipn_length; lia). exact H.
Qed.
Lemma mid_ok : forall m sm q, (64 <= length sm)%nat -> length m = length sm -> l4 q ->
  rbind (hash_c (int_array TU8 64) m (Z.of_nat (length sm))) (fun h =>
    rbind (reduce_c h) (fun h =>
    rbind (scalarmult4_c gf4_new q h) (fun p =>
    rbind (scalarbase4_c q (skipn 32 (of_bytes sm))) (fun q =>
    rbind (add4_c p q) (fun p =>
    rbind (pack_point_c lput (int_array TU8 32) p) (fun t =>
    rbind (vn_c (of_bytes sm) t 32) (fun v =>
    if negb (pv v =? 0) then rbind (for_c (length sm - 64) (fun m i => sput bput m i (ChkPy.num 0)) m) (fun m => Ok (-1, m))
    else rbind (for_c (length sm - 64) (fun m i => sput bput m i (rget (of_bytes sm) (i + 64))) m) (fun m => Ok (0, m))))))))) =
  Ok (open_mid m (of_bytes sm) (length sm) q) /\
  (fst (open_mid m (of_bytes sm) (length sm) q) = 0 -> holds (firstn (length sm - 64) (snd (open_mid m (of_bytes sm) (length sm) q))) (skipn 64 sm)).
Proof.
  intros m sm q L Lm Lq. rewrite open_mid_eq.
  destruct (hash_ok (int_array TU8 64) m (Z.of_nat (length sm))) as [E LH]; [cbn; lia|lia|]. rewrite E. clear E. rb. change (length (int_array TU8 64)) with 64%nat in LH.
  remember (crypto_hash_sha512 (int_array TU8 64) m (Z.of_nat (length sm))) as h eqn:Q; clear Q.
  destruct (reduce_ok h) as [E LR]; [lia|]. rewrite E. clear E. rb. remember (reduce h) as r eqn:Q; clear Q.
  destruct (scalarmult4_ok gf4_new q r new_l4 Lq) as [E LP]; [lia|]. rewrite E. clear E. rb. remember (scalarmult4 gf4_new q r) as p eqn:Q; clear Q.
  destruct (scalarbase4_ok q (skipn 32 (of_bytes sm)) Lq) as [E LQ]; [rewrite skipn_length, of_bytes_length; lia|]. rewrite E. clear E. rb.
  remember (scalarbase4 q (skipn 32 (of_bytes sm))) as q2 eqn:Q; clear Q.
  destruct (add4_ok p q2 LP LQ) as [E LA]. rewrite E. clear E. rb. remember (add4 p q2) as a eqn:Q; clear Q.
  destruct (point_ok (int_array TU8 32) a) as [E LT]; [cbn; lia|exact LA|]. rewrite E. clear E. rb. remember (pack_point (int_array TU8 32) a) as t eqn:Q; clear Q.
  apply last_ok; [exact L|exact Lm|]. rewrite LT. cbn. lia.
Qed.
Lemma some_ok : forall q m sm pk, (64 <= length sm)%nat -> (32 <= length pk)%nat -> length m = length sm -> l4 q ->
  open_some_c q m (of_bytes sm) (length sm) (of_bytes pk) = Ok (open_with (Some q) m (of_bytes sm) (length sm) (of_bytes pk)) /\
  (fst (open_with (Some q) m (of_bytes sm) (length sm) (of_bytes pk)) = 0 ->
   holds (firstn (length sm - 64) (snd (open_with (Some q) m (of_bytes sm) (length sm) (of_bytes pk)))) (skipn 64 sm)).
Proof.
  intros q m sm pk L Lp Lm Lq. rewrite open_with_eq, open_some_eq.
  destruct (fill_put (length sm) (fun i => i) (fun i => i) m sm ltac:(intros ? ?; cbv beta; lia)) as [E L1]. rewrite E. clear E. rb.
  remember (for_range (length sm) _ m) as m1 eqn:Q; clear Q.
  destruct (fill_put 32 (fun i => (i + 32)%nat) (fun i => i) m1 pk ltac:(intros ? ?; cbv beta; lia)) as [E L2]. rewrite E. clear E. rb.
  remember (for_range 32 _ m1) as m2 eqn:Q; clear Q. apply mid_ok; [exact L|lia|exact Lq].
Qed.
Lemma method_open_ok : forall sm pk, (length sm < 64)%nat \/ (32 <= length pk)%nat -> method_sign_open sm pk = pure_crypto_sign_open sm pk.
Proof.
  intros sm pk L. unfold method_sign_open, pure_crypto_sign_open, crypto_sign_ed25519_open. rewrite open_c_eq.
  destruct (Nat.ltb_spec (length sm) 64) as [Q|Q]; [rewrite andb_false_r; reflexivity|]. replace (length pk <? 32)%nat with false by lia. cbn [andb].
  destruct (unpackneg_ok gf4_new (of_bytes pk) new_l4) as [E LU]; [rewrite of_bytes_length; lia|]. rewrite E. clear E. rb.
  destruct (unpackneg gf4_new (of_bytes pk)) as [q|]; [|reflexivity].
  destruct (some_ok q (of_bytes (repeat x00 (length sm))) sm pk Q ltac:(lia) ltac:(rewrite of_bytes_length, repeat_length; reflexivity) LU) as [E H].
  rewrite E. clear E. rb. destruct (open_with _ _ _ _ _) as [c m']. cbn [fst snd] in H. destruct (Z.eqb_spec c 0) as [C|C]; [|reflexivity]. cbn [negb].
  specialize (H C). rewrite (rbytes_holds _ _ H). f_equal. rewrite <- (holds_to_bytes _ _ H). unfold to_bytes. rewrite firstn_map. reflexivity.
Qed.
