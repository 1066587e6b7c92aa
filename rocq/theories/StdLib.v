(** A crypto library made of the published algorithms: SHA-512, Ed25519 (RFC 8032),
    X25519 (RFC 7748), HSalsa20 and XSalsa20-Poly1305.  This is what the C libraries behind
    the back ends are documented to compute; not part of the repository.  Definitions only. *)
From Coq Require Import List ZArith Bool Strings.Byte.
From Verif Require Import PyBase Crypto SaltLib Backends ShaSpec SalsaSpec PolySpec CurveSpec EdSpec.
Import ListNotations.
Open Scope Z_scope.

(** RFC 8032, 5.1.3, steps 1-4: the point encoded by 32 bytes, if there is one *)
Definition sqrt_m1 : Z := 2 ^ ((p25519 - 1) / 4) mod p25519.
Definition recover_x (y : Z) : option Z :=
  let u := fsub (fmul y y) 1 in
  let v := fadd 1 (fmul (fmul y y) rfc_d) in
  let v2 := fmul v v in let v4 := fmul v2 v2 in
  let w := fmul (fmul (fmul v4 v2) u) v in
  let x := fmul (fmul (fmul (fmul (w ^ ((p25519 - 5) / 8)) u) v) v) v in
  let x := if fmul (fmul x x) v =? u then x else fmul x sqrt_m1 in
  if fmul (fmul x x) v =? u then Some x else None.
Definition ed_decode (b : list byte) : option (Z * Z) :=
  let y := le_word b mod 2 ^ 255 in let x_0 := le_word b / 2 ^ 255 in
  if p25519 <=? y then None else
  match recover_x y with
  | None => None
  | Some x => if (x =? 0) && (x_0 =? 1) then None
              else Some (if x mod 2 =? x_0 then x else fsub 0 x, y)
  end.
(** RFC 8032, 5.1.7 *)
Definition ed_verify (pk sig m : list byte) : bool :=
  let R := firstn 32 sig in let S := le_word (skipn 32 sig) in
  (length pk =? 32)%nat && (length sig =? 64)%nat && (S <? rfc_L) &&
  match ed_decode pk, ed_decode R with
  | Some A, Some RP =>
      let P := ed_mul S rfc_B in let Q := ed_add RP (ed_mul (hash_L (R ++ pk ++ m)) A) in
      (fst P =? fst Q) && (snd P =? snd Q)
  | _, _ => false
  end.

(** Signed messages: the signature, then the message *)
Definition std_sign (m sk : bytes) : bytes := ed_sign (firstn 32 sk) (firstn 32 (skipn 32 sk)) m ++ m.
Definition std_open (sm pk : bytes) : option bytes :=
  if ed_verify pk (firstn 64 sm) (skipn 64 sm) then Some (skipn 64 sm) else None.
(** Secret boxes *)
Definition std_unbox (k n c : bytes) : option bytes :=
  let m := xor_bytes (skipn 16 c) (skipn 32 (xsalsa20_stream k n (32 + (length c - 16)))) in
  if (16 <=? length c)%nat && bytes_eqb c (secretbox k n m) then Some m else None.

(** As bindings that return byte strings and raise exceptions *)
Definition std_bindings : bindings := Bindings
  (fun seed => Ok (ed_public seed, seed ++ ed_public seed))
  (fun m sk => Ok (std_sign m sk))
  (fun sm pk => match std_open sm pk with Some m => Ok m | None => Err ValueError end)
  (fun sk => Ok (box_public sk))
  (fun pk sk => Ok (box_key pk sk))
  (fun m n k => Ok (secretbox k n m))
  (fun c n k => match std_unbox k n c with Some m => Ok m | None => Err ValueError end)
  sha512.
(** Through NaCl's C interface: messages start with 32 zero bytes, ciphertexts with 16 *)
Definition std_sodium : sodium := Sodium
  (fun seed => (0, ed_public seed, seed ++ ed_public seed))
  (fun m sk => (0, std_sign m sk))
  (fun sm pk => match std_open sm pk with Some m => (0, m ++ repeat x00 64, zlen m) | None => (-1, repeat x00 (length sm), -1) end)
  (fun sk => (0, box_public sk))
  (fun pk sk => (0, box_key pk sk))
  (fun m n k => (0, repeat x00 16 ++ secretbox k n (skipn 32 m)))
  (fun c n k => match std_unbox k n (skipn 16 c) with Some m => (0, repeat x00 32 ++ m) | None => (-1, repeat x00 (length c)) end)
  (fun m => (0, sha512 m)).
(** Keys generated together *)
Definition std_sigpair (sk pk : bytes) : Prop := exists seed, length seed = 32%nat /\ pk = ed_public seed /\ sk = seed ++ pk.
Definition std_encpair (sk pk : bytes) : Prop := length sk = 32%nat /\ pk = box_public sk.
