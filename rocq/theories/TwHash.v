(** SHA-512 of saltlib/pure_pynacl/tweetnacl.py. *)
From Coq Require Import List ZArith Bool Strings.Byte.
From Verif Require Import PyBase PyInt.
Import ListNotations.
Open Scope Z_scope.

(** tweetnacl.py:97-101 *)
Definition dl64 (x : list pint) : pint :=
  for_range 8 (fun u i => por (pshl u 8) (cast TU8 (geti x i))) (mk TU64 0).

(** tweetnacl.py:110-113; the loop runs i = 7, 6, ..., 0 *)
Definition ts64 (x : list pint) (u : pint) : list pint :=
  fst (for_range 8 (fun st i => (seti (fst st) (7 - i) (cast TU8 (snd st)), pshr (snd st) 8)) (x, u)).

(** tweetnacl.py:571-573 *)
Definition R (x : pint) (c : Z) : pint := por (pshr (cast TU64 x) c) (pshl (cast TU64 x) (64 - c)).
(** tweetnacl.py:576-578 *)
Definition Ch (x y z : pint) : pint :=
  pxor (pand (cast TU64 x) (cast TU64 y)) (pand (pinv (cast TU64 x)) (cast TU64 z)).
(** tweetnacl.py:581-583 *)
Definition Maj (x y z : pint) : pint :=
  pxor (pxor (pand (cast TU64 x) (cast TU64 y)) (pand (cast TU64 x) (cast TU64 z)))
       (pand (cast TU64 y) (cast TU64 z)).
(** tweetnacl.py:586-603 *)
Definition Sigma0 (x : pint) : pint := pxor (pxor (R x 28) (R x 34)) (R x 39).
Definition Sigma1 (x : pint) : pint := pxor (pxor (R x 14) (R x 18)) (R x 41).
Definition sigma0 (x : pint) : pint := pxor (pxor (R x 1) (R x 8)) (pshr x 7).
Definition sigma1 (x : pint) : pint := pxor (pxor (R x 19) (R x 61)) (pshr x 6).

(** tweetnacl.py:606-627 *)
Definition K : list pint := int_array_of TU64 [
  0x428a2f98d728ae22; 0x7137449123ef65cd; 0xb5c0fbcfec4d3b2f; 0xe9b5dba58189dbbc;
  0x3956c25bf348b538; 0x59f111f1b605d019; 0x923f82a4af194f9b; 0xab1c5ed5da6d8118;
  0xd807aa98a3030242; 0x12835b0145706fbe; 0x243185be4ee4b28c; 0x550c7dc3d5ffb4e2;
  0x72be5d74f27b896f; 0x80deb1fe3b1696b1; 0x9bdc06a725c71235; 0xc19bf174cf692694;
  0xe49b69c19ef14ad2; 0xefbe4786384f25e3; 0x0fc19dc68b8cd5b5; 0x240ca1cc77ac9c65;
  0x2de92c6f592b0275; 0x4a7484aa6ea6e483; 0x5cb0a9dcbd41fbd4; 0x76f988da831153b5;
  0x983e5152ee66dfab; 0xa831c66d2db43210; 0xb00327c898fb213f; 0xbf597fc7beef0ee4;
  0xc6e00bf33da88fc2; 0xd5a79147930aa725; 0x06ca6351e003826f; 0x142929670a0e6e70;
  0x27b70a8546d22ffc; 0x2e1b21385c26c926; 0x4d2c6dfc5ac42aed; 0x53380d139d95b3df;
  0x650a73548baf63de; 0x766a0abb3c77b2a8; 0x81c2c92e47edaee6; 0x92722c851482353b;
  0xa2bfe8a14cf10364; 0xa81a664bbc423001; 0xc24b8b70d0f89791; 0xc76c51a30654be30;
  0xd192e819d6ef5218; 0xd69906245565a910; 0xf40e35855771202a; 0x106aa07032bbd1b8;
  0x19a4c116b8d2d0c8; 0x1e376c085141ab53; 0x2748774cdf8eeb99; 0x34b0bcb5e19b48a8;
  0x391c0cb3c5c95a63; 0x4ed8aa4ae3418acb; 0x5b9cca4f7763e373; 0x682e6ff3d6b2b8a3;
  0x748f82ee5defb2fc; 0x78a5636f43172f60; 0x84c87814a1f0ab72; 0x8cc702081a6439ec;
  0x90befffa23631e28; 0xa4506cebde82bde9; 0xbef9a3f7b2c67915; 0xc67178f2e372532b;
  0xca273eceea26619c; 0xd186b8c721c0c207; 0xeada7dd6cde0eb1e; 0xf57d4f7fee6ed178;
  0x06f067aa72176fba; 0x0a637dc5a2c898a6; 0x113f9804bef90dae; 0x1b710b35131c471b;
  0x28db77f523047d84; 0x32caab7b40c72493; 0x3c9ebe0a15c9bebc; 0x431d67c49c100d4c;
  0x4cc5d4becb3e42b6; 0x597f299cfc657e2a; 0x5fcb6fab3ad6faec; 0x6c44198c4a475817
].

(** tweetnacl.py:653 *)
Definition schedule_step (w : list pint) (j : nat) : list pint :=
  seti w j (padd (geti w j)
    (padd (padd (geti w ((j + 9) mod 16)) (sigma0 (geti w ((j + 1) mod 16))))
          (sigma1 (geti w ((j + 14) mod 16))))).

(** tweetnacl.py:645-653, one pass of the loop; the state is (a, w) *)
Definition round (st : list pint * list pint) (i : nat) : list pint * list pint :=
  let (a, w) := st in
  let b := for_range 8 (fun b j => seti b j (geti a j)) (int_array TU64 8) in
  let t := padd (padd (padd (padd (geti a 7) (Sigma1 (geti a 4))) (Ch (geti a 4) (geti a 5) (geti a 6)))
                      (geti K i)) (geti w (i mod 16)) in
  let b := seti b 7 (padd (padd t (Sigma0 (geti a 0))) (Maj (geti a 0) (geti a 1) (geti a 2))) in
  let b := seti b 3 (padd (geti b 3) t) in
  let a := for_range 8 (fun a j => seti a ((j + 1) mod 8) (geti b j)) a in
  let w := if Nat.eqb (i mod 16) 15 then for_range 16 schedule_step w else w in
  (a, w).

(** tweetnacl.py:642-656, one pass of the while loop; the state is (a, z) *)
Definition hash_block (m : list pint) (m_off : nat) (st : list pint * list pint) : list pint * list pint :=
  let (a, z) := st in
  let w := for_range 16 (fun w i => seti w i (dl64 (skipn (8 * i + m_off) m))) (int_array TU64 16) in
  let (a, w) := for_range 80 round (a, w) in
  for_range 8 (fun (st : list pint * list pint) i => let (a, z) := st in
                           let a := seti a i (padd (geti a i) (geti z i)) in (a, seti z i (geti a i))) (a, z).

(** tweetnacl.py:640-659; [fuel] bounds the passes of the while loop *)
Fixpoint hash_loop (fuel : nat) (m : list pint) (m_off : nat) (n : Z) (st : list pint * list pint) : list pint * list pint :=
  match fuel with
  | O => st
  | S f => if n >=? 128 then hash_loop f m (m_off + 128) (n - 128) (hash_block m m_off st) else st
  end.

(** tweetnacl.py:630-663; returns x; the unused result n is left out.  Every pass of the
    while loop lowers n, so n passes suffice. *)
Definition crypto_hashblocks_sha512 (x m : list pint) (n : Z) : list pint :=
  let za := for_range 8 (fun (st : list pint * list pint) i => let (z, a) := st in
                                     let v := dl64 (skipn (8 * i) x) in (seti z i v, seti a i v))
                      (int_array TU64 8, int_array TU64 8) in
  let (a, z) := hash_loop (Z.to_nat n) m 0 n (snd za, fst za) in
  for_range 8 (fun x i => on_tail (8 * i) (fun y => ts64 y (geti z i)) x) x.

(** tweetnacl.py:666-675 *)
Definition iv : list pint := int_array_of TU8 [
  0x6a; 0x09; 0xe6; 0x67; 0xf3; 0xbc; 0xc9; 0x08;
  0xbb; 0x67; 0xae; 0x85; 0x84; 0xca; 0xa7; 0x3b;
  0x3c; 0x6e; 0xf3; 0x72; 0xfe; 0x94; 0xf8; 0x2b;
  0xa5; 0x4f; 0xf5; 0x3a; 0x5f; 0x1d; 0x36; 0xf1;
  0x51; 0x0e; 0x52; 0x7f; 0xad; 0xe6; 0x82; 0xd1;
  0x9b; 0x05; 0x68; 0x8c; 0x2b; 0x3e; 0x6c; 0x1f;
  0x1f; 0x83; 0xd9; 0xab; 0xfb; 0x41; 0xbd; 0x6b;
  0x5b; 0xe0; 0xcd; 0x19; 0x13; 0x7e; 0x21; 0x79
].

(** tweetnacl.py:678-702; returns out.  [n] is a plain int, as everywhere in the package. *)
Definition crypto_hash_sha512 (out m : list pint) (n : Z) : list pint :=
  let b := mk TU64 n in
  let h := for_range 64 (fun h i => seti h i (geti iv i)) (int_array TU8 64) in
  let h := crypto_hashblocks_sha512 h m n in
  let r := Z.land n 127 in
  let m_off := n - r in
  let x := repeat (mk TU8 0) 256 in
  let x := for_range (Z.to_nat r) (fun x i => seti x i (geti m (i + Z.to_nat m_off))) x in
  let x := seti x (Z.to_nat r) (plain 128) in
  let n := 256 - 128 * (if r <? 112 then 1 else 0) in
  let x := seti x (Z.to_nat (n - 9)) (pshr b 61) in
  let x := on_tail (Z.to_nat (n - 8)) (fun y => ts64 y (pshl b 3)) x in
  let h := crypto_hashblocks_sha512 h x n in
  for_range 64 (fun out i => seti out i (geti h i)) out.
