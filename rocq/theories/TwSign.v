(** Ed25519 of saltlib/pure_pynacl/tweetnacl.py.  A list that Python changes in place is an
    argument and the result here. *)
From Coq Require Import List ZArith Bool Strings.Byte.
From Verif Require Import PyBase PyInt TwHash TwSalsa TwPoly TwField.
Import ListNotations.
Open Scope Z_scope.

(** tweetnacl.py:77-81 *)
Definition cD : list pint := gf_of
  [0x78a3; 0x1359; 0x4dca; 0x75eb; 0xd8ab; 0x4141; 0x0a4d; 0x0070; 0xe898; 0x7779; 0x4079; 0x8cc7; 0xfe73; 0x2b6f; 0x6cee; 0x5203].
Definition cD2 : list pint := gf_of
  [0xf159; 0x26b2; 0x9b94; 0xebd6; 0xb156; 0x8283; 0x149a; 0x00e0; 0xd130; 0xeef3; 0x80f2; 0x198e; 0xfce7; 0x56df; 0xd9dc; 0x2406].
Definition cX : list pint := gf_of
  [0xd51a; 0x8f25; 0x2d60; 0xc956; 0xa7b2; 0x9525; 0xc760; 0x692c; 0xdc5c; 0xfdd6; 0xe231; 0xc0a4; 0x53fe; 0xcd6e; 0x36d3; 0x2169].
Definition cY : list pint := gf_of
  [0x6658; 0x6666; 0x6666; 0x6666; 0x6666; 0x6666; 0x6666; 0x6666; 0x6666; 0x6666; 0x6666; 0x6666; 0x6666; 0x6666; 0x6666; 0x6666].
Definition cI : list pint := gf_of
  [0xa0b0; 0x4a0e; 0x1b27; 0xc4ee; 0xe478; 0xad2f; 0x1806; 0x2f43; 0xd7a7; 0x3dfb; 0x0099; 0x2b4d; 0xdf0b; 0x4fc1; 0x2480; 0x2b83].

(** [gf() for i in range(4)] *)
Record gf4 : Type := G4 { g0 : list pint; g1 : list pint; g2 : list pint; g3 : list pint }.
Definition gf4_new : gf4 := G4 gf_new gf_new gf_new gf_new.

(** tweetnacl.py:705-735; p and q may be one list (the last four lines alone write) *)
Definition add4 (p q : gf4) : gf4 :=
  let a := fZ gf_new (g1 p) (g0 p) in
  let t := fZ gf_new (g1 q) (g0 q) in
  let a := fM a a t in
  let b := fA gf_new (g0 p) (g1 p) in
  let t := fA t (g0 q) (g1 q) in
  let b := fM b b t in
  let c := fM gf_new (g3 p) (g3 q) in
  let c := fM c c cD2 in
  let d := fM gf_new (g2 p) (g2 q) in
  let d := fA d d d in
  let e := fZ gf_new b a in
  let f := fZ gf_new d c in
  let g := fA gf_new d c in
  let h := fA gf_new b a in
  G4 (fM (g0 p) e f) (fM (g1 p) h g) (fM (g2 p) g f) (fM (g3 p) e h).

(** tweetnacl.py:738-741 *)
Definition cswap4 (p q : gf4) (b : pint) : gf4 * gf4 :=
  let (p0, q0) := sel25519 (g0 p) (g0 q) b in
  let (p1, q1) := sel25519 (g1 p) (g1 q) b in
  let (p2, q2) := sel25519 (g2 p) (g2 q) b in
  let (p3, q3) := sel25519 (g3 p) (g3 q) b in
  (G4 p0 p1 p2 p3, G4 q0 q1 q2 q3).

(** tweetnacl.py:744-753; returns r *)
Definition pack_point (r : list pint) (p : gf4) : list pint :=
  let zi := inv25519 gf_new (g2 p) in
  let tx := fM gf_new (g0 p) zi in
  let ty := fM gf_new (g1 p) zi in
  let r := pack25519 r ty in
  seti r 31 (pxor (geti r 31) (pshl (par25519 tx) 7)).

(** tweetnacl.py:762-767, one pass *)
Definition mult_step (s : list pint) (st : gf4 * gf4) (i : nat) : gf4 * gf4 :=
  let (p, q) := st in
  let b := cast TU8 (pand (pshr (geti s (i / 8)) (Z.of_nat (i mod 8))) (plain 1)) in
  let (p, q) := cswap4 p q b in
  let q := add4 q p in
  let p := add4 p p in
  cswap4 p q b.
(** tweetnacl.py:756-767; returns p (q changes too, but no caller looks at it).  Pass k of
    the loop has i = 255 - k. *)
Definition scalarmult4 (p q : gf4) (s : list pint) : gf4 :=
  let p := G4 (set25519 (g0 p) gf0) (set25519 (g1 p) gf1) (set25519 (g2 p) gf1) (set25519 (g3 p) gf0) in
  fst (for_range 256 (fun st k => mult_step s st (255 - k)) (p, q)).
(** tweetnacl.py:770-777; returns p *)
Definition scalarbase4 (p : gf4) (s : list pint) : gf4 :=
  let q := G4 (set25519 gf_new cX) (set25519 gf_new cY) (set25519 gf_new gf1) (fM gf_new cX cY) in
  scalarmult4 p q s.

(** tweetnacl.py:798-800 *)
Definition cL : list pint := int_array_of TU64
  [0xed; 0xd3; 0xf5; 0x5c; 0x1a; 0x63; 0x12; 0x58; 0xd6; 0x9c; 0xf7; 0xa2; 0xde; 0xf9; 0xde; 0x14; 0; 0; 0; 0; 0; 0; 0; 0; 0; 0; 0; 0; 0; 0; 0; 0x10].

(** tweetnacl.py:808-811, one pass with j = i - 32 + k *)
Definition modL_cell (i : nat) (st : list pint * pint) (k : nat) : list pint * pint :=
  let (x, carry) := st in
  let j := (i - 32 + k)%nat in
  let x := seti x j (padd (geti x j) (psub carry (pmul (pmul (plain 16) (geti x i)) (geti cL k)))) in
  let carry := pshr (padd (geti x j) (plain 128)) 8 in
  (seti x j (psub (geti x j) (pshl carry 8)), carry).
(** tweetnacl.py:806-814, one pass; after the inner loop j is i - 12 *)
Definition modL_row (x : list pint) (i : nat) : list pint :=
  let (x, carry) := for_range 20 (modL_cell i) (x, plain 0) in
  let x := seti x (i - 12) (padd (geti x (i - 12)) carry) in
  seti x i (plain 0).
(** tweetnacl.py:817-820, one pass *)
Definition modL_top (st : list pint * pint) (j : nat) : list pint * pint :=
  let (x, carry) := st in
  let x := seti x j (padd (geti x j) (psub carry (pmul (pshr (geti x 31) 4) (geti cL j)))) in
  let carry := pshr (geti x j) 8 in
  (seti x j (pand (geti x j) (plain 255)), carry).
(** tweetnacl.py:823-825, one pass *)
Definition modL_out (st : list pint * list pint) (i : nat) : list pint * list pint :=
  let (x, r) := st in
  let x := seti x (i + 1) (padd (geti x (i + 1)) (pshr (geti x i) 8)) in
  (x, seti r i (pand (geti x i) (plain 255))).
(** tweetnacl.py:803-827; returns r.  Pass k of the first loop has i = 63 - k. *)
Definition modL (r x : list pint) : list pint :=
  let x := for_range 32 (fun x k => modL_row x (63 - k)) x in
  let (x, carry) := for_range 32 modL_top (x, plain 0) in
  let x := for_range 32 (fun x j => seti x j (psub (geti x j) (pmul carry (geti cL j)))) x in
  let (_, r) := for_range 32 modL_out (x, r) in
  r.
(** tweetnacl.py:830-835; returns r *)
Definition reduce (r : list pint) : list pint :=
  let x := for_range 64 (fun x i => seti x i (cast TU64 (geti r i))) (int_array TI64 64) in
  modL (repeat (mk TU8 0) 64) x.

(** tweetnacl.py:847-849; also saltlib_pure.py:27-29 *)
Definition clamp_d (d : list pint) : list pint :=
  let d := seti d 0 (pand (geti d 0) (plain 248)) in
  let d := seti d 31 (pand (geti d 31) (plain 127)) in
  seti d 31 (por (geti d 31) (plain 64)).

(** A bytearray stores the bare values of what is assigned to its items (all are in 0..255
    here; Python raises ValueError for others, which the model leaves out). *)
Definition bare (l : list pint) : list pint := map (fun x => plain (pv x)) l.

(** tweetnacl.py:868-871 *)
Definition sign_x (r h d : list pint) : list pint :=
  let x := for_range 64 (fun x i => seti x i (plain 0)) (int_array TI64 64) in
  let x := for_range 32 (fun x i => seti x i (cast TU64 (geti r i))) x in
  for_range 32 (fun x i => for_range 32 (fun x j =>
    seti x (i + j) (padd (geti x (i + j)) (pmul (geti h i) (cast TU64 (geti d j))))) x) x.
(** tweetnacl.py:856-857 *)
Definition sign_fill (sm m : list pint) (n : nat) (d : list pint) : list pint :=
  let sm := for_range n (fun sm i => seti sm (64 + i) (geti m i)) sm in
  bare (for_range 32 (fun sm i => seti sm (32 + i) (geti d (32 + i))) sm).
(** tweetnacl.py:862-864 *)
Definition sign_key (sm sk : list pint) (p : gf4) : list pint :=
  let sm := bare (pack_point sm p) in
  for_range 32 (fun sm i => seti sm (i + 32) (geti sk (i + 32))) sm.
(** tweetnacl.py:838-874; sm is a bytearray of n + 64 items; returns sm *)
Definition crypto_sign_ed25519 (sm m : list pint) (n : nat) (sk : list pint) : list pint :=
  let d := clamp_d (crypto_hash_sha512 (int_array TU8 64) sk 32) in
  let sm := sign_fill sm m n d in
  let r := reduce (crypto_hash_sha512 (int_array TU8 64) (skipn 32 sm) (Z.of_nat n + 32)) in
  let sm := sign_key sm sk (scalarbase4 gf4_new r) in
  let h := reduce (crypto_hash_sha512 (int_array TU8 64) sm (Z.of_nat n + 64)) in
  bare (on_tail 32 (fun r' => modL r' (sign_x r h d)) sm).

(** tweetnacl.py:877-917; [None] for the result -1, [Some r] for 0 *)
Definition unpackneg (r : gf4) (p : list pint) : option gf4 :=
  let r2 := set25519 (g2 r) gf1 in
  let r1 := unpack25519 (g1 r) p in
  let num := fS gf_new r1 in
  let den := fM gf_new num cD in
  let num := fZ num num r2 in
  let den := fA den r2 den in
  let den2 := fS gf_new den in
  let den4 := fS gf_new den2 in
  let den6 := fM gf_new den4 den2 in
  let t := fM gf_new den6 num in
  let t := fM t t den in
  let t := pow2523 t t in
  let t := fM t t num in
  let t := fM t t den in
  let t := fM t t den in
  let r0 := fM (g0 r) t den in
  let chk := fS gf_new r0 in
  let chk := fM chk chk den in
  let r0 := if negb (pv (neq25519 chk num) =? 0) then fM r0 r0 cI else r0 in
  let chk := fS chk r0 in
  let chk := fM chk chk den in
  if negb (pv (neq25519 chk num) =? 0) then None else
  let r0 := if pv (par25519 r0) =? pv (pshr (geti p 31) 7) then fZ r0 gf0 r0 else r0 in
  Some (G4 r0 r1 r2 (fM (g3 r) r0 r1)).

(** tweetnacl.py:930-954, after unpackneg; the result code and m *)
Definition open_with (u : option gf4) (m sm : list pint) (n : nat) (pk : list pint) : Z * list pint :=
  match u with
  | None => (-1, m)
  | Some q =>
    let m := for_range n (fun m i => seti m i (geti sm i)) m in
    let m := for_range 32 (fun m i => seti m (i + 32) (geti pk i)) m in
    let h := reduce (crypto_hash_sha512 (int_array TU8 64) m (Z.of_nat n)) in
    let p := scalarmult4 gf4_new q h in
    let q := scalarbase4 q (skipn 32 sm) in
    let p := add4 p q in
    let t := pack_point (int_array TU8 32) p in
    if negb (pv (crypto_verify_32 sm t) =? 0) then (-1, for_range (n - 64) (fun m i => seti m i (plain 0)) m)
    else (0, for_range (n - 64) (fun m i => seti m i (geti sm (i + 64))) m)
  end.
(** tweetnacl.py:920-954; m is a bytearray of n items *)
Definition crypto_sign_ed25519_open (m sm : list pint) (n : nat) (pk : list pint) : Z * list pint :=
  if (n <? 64)%nat then (-1, m) else open_with (unpackneg gf4_new pk) m sm n pk.

(** saltlib_pure.py:19-32 (crypto_sign_keypair_not_random) *)
Definition pure_sign_keypair_not_random (seed : bytes) : res (bytes * bytes) :=
  if negb (length seed =? 32)%nat then Err ValueError else
  let d := clamp_d (crypto_hash_sha512 (int_array TU8 64) (of_bytes seed) 32) in
  let pk := to_bytes (pack_point (int_array TU8 32) (scalarbase4 gf4_new d)) in
  Ok (pk, seed ++ pk).
(** saltlib_pure.py:36-40 (crypto_sign); sk[i + 32] needs 64 items *)
Definition pure_crypto_sign (m sk : bytes) : res bytes :=
  if (length sk <? 64)%nat then Err IndexError
  else Ok (to_bytes (crypto_sign_ed25519 (of_bytes (repeat x00 (length m + 64))) (of_bytes m) (length m) (of_bytes sk))).
(** saltlib_pure.py:44-50 (crypto_sign_open).  The module does not import
    BadSignatureException, so its [raise] is a NameError.  unpack25519 needs 32 items of
    pk; it is called for n >= 64 only. *)
Definition pure_crypto_sign_open (sm pk : bytes) : res bytes :=
  if (length pk <? 32)%nat && negb (length sm <? 64)%nat then Err IndexError else
  let (res, m) := crypto_sign_ed25519_open (of_bytes (repeat x00 (length sm))) (of_bytes sm) (length sm) (of_bytes pk) in
  if negb (res =? 0) then Err NameError else Ok (firstn (length sm - 64) (to_bytes m)).
