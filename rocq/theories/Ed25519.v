(** Ed25519 as the threshold library and the verification compute it.

    None of this code is in /repo; the call sites are cited at the fields of [Crypto]. Sources:
    RFC 8032, section 5.1; gitlab.com/polychainlabs/edwards25519 (a copy of the ref10 code) and
    threshold-ed25519 (go.mod:23-24), golang.org/x/crypto/ed25519 behind tendermint v0.34
    crypto/ed25519 PubKey.VerifySignature. Field elements and scalars are integers in place of the
    limbs of ref10, points are in projective coordinates. The hash (SHA-512) is the argument [H]. *)
From Verif Require Import GoBase Crypto Wire Rsa.
Local Open Scope Z_scope.

(** the prime field of the curve, the order of the base point *)
Definition ed_p : Z := 2 ^ 255 - 19.
Definition ed_l : Z := 2 ^ 252 + 27742317777372353535851937790883648493.
(** -121665/121666, a root of -1, the base point *)
Definition ed_d : Z := 37095705934669439343138083508754565189542113879843219016388785533085940283555.
Definition ed_i : Z := 19681161376707505956807079304988542015446066515923890162744021073123829784752.
Definition ed_bx : Z := 15112221349535400772501151409588531511454012693041857206046113283949847762202.
Definition ed_by : Z := 46316835694926478169428394003475163141307993866256225615783033603165251855960.

(** little-endian numbers *)
Definition le_num (b : bytes) : Z := fold_right (fun x a => bz x + 256 * a) 0 b.

(** ** Points: (X : Y : Z) stands for x = X/Z, y = Y/Z *)
Record ge := Ge { ge_x : Z; ge_y : Z; ge_z : Z }.
Definition ge_0 : ge := Ge 0 1 1.
Definition ge_base : ge := Ge ed_bx ed_by 1.
(** the addition law of -x^2 + y^2 = 1 + d x^2 y^2 (RFC 8032, 5.1.4), also used for doubling *)
Definition ge_add (P Q : ge) : ge :=
  let a := (ge_z P * ge_z Q) mod ed_p in
  let b := (a * a) mod ed_p in
  let c := (ge_x P * ge_x Q) mod ed_p in
  let e := (ge_y P * ge_y Q) mod ed_p in
  let t := (ed_d * ((c * e) mod ed_p)) mod ed_p in
  let f := (b - t) mod ed_p in
  let g := (b + t) mod ed_p in
  let h := ((ge_x P + ge_y P) * (ge_x Q + ge_y Q) - c - e) mod ed_p in
  Ge ((((a * f) mod ed_p) * h) mod ed_p) ((((a * g) mod ed_p) * ((e + c) mod ed_p)) mod ed_p) ((f * g) mod ed_p).
Definition ge_neg (P : ge) : ge := Ge ((- ge_x P) mod ed_p) (ge_y P) (ge_z P).
(** GeScalarMultBase, GeDoubleScalarMultVartime: double and add *)
Definition ge_mul (s : Z) (P : ge) : ge :=
  match s with Zpos n => Pos.iter_op ge_add n P | _ => ge_0 end.

(** ToBytes: y in 255 bits and the parity of x *)
Definition ed_inv (z : Z) : Z := pow_mod z (ed_p - 2) ed_p.
Definition ge_bytes (P : ge) : bytes :=
  let r := ed_inv (ge_z P) in
  let x := (ge_x P * r) mod ed_p in
  let y := (ge_y P * r) mod ed_p in
  le_enc 32 (y + 2 ^ 255 * (x mod 2)).
(** FromBytes: x from (y^2 - 1) / (d y^2 + 1) by the exponent (p + 3) / 8; the negative if the sign differs *)
Definition ge_parse (b : bytes) : option ge :=
  let v := le_num b in
  let y := (v mod 2 ^ 255) mod ed_p in
  let sign := v / 2 ^ 255 in
  let a := ((y * y - 1) * ed_inv ((ed_d * y * y + 1) mod ed_p)) mod ed_p in
  let c := pow_mod a ((ed_p + 3) / 8) ed_p in
  let root := if (c * c) mod ed_p =? a then Some c
    else let c' := (c * ed_i) mod ed_p in if (c' * c') mod ed_p =? a then Some c' else None in
  if negb (length b =? 32)%nat then None
  else match root with
  | Some x => Some (Ge (if x mod 2 =? sign then x else (- x) mod ed_p) y 1)
  | None => None
  end.

(** ** threshold-ed25519 *)
Definition sc_bytes (z : Z) : bytes := le_enc 32 (z mod ed_l).
(** ScalarMultiplyBase *)
Definition ed_base (s : bytes) : bytes := ge_bytes (ge_mul (le_num s) ge_base).
(** coefficients: the secret and 64 random bytes for each of the others, all modulo the order *)
Fixpoint ed_coeffs (n : nat) (r : bytes) : list Z :=
  match n with O => [] | S n' => le_num (take 64 r) mod ed_l :: ed_coeffs n' (drop 64 r) end.
Definition ed_eval (coeffs : list Z) (x : Z) : Z := fold_right (fun c acc => (c + x * acc) mod ed_l) 0 coeffs.
Definition ed_deal (secret r : bytes) (t n : Z) : list bytes :=
  let coeffs := le_num secret :: ed_coeffs (Z.to_nat t - 1) r in
  map (fun i => sc_bytes (ed_eval coeffs (Z.of_nat i))) (seq 1 (Z.to_nat n)).
(** AddScalars, AddElements; a string that is not a point is a panic *)
Definition ed_add_scalars (l : list bytes) : option bytes :=
  Some (sc_bytes (fold_right (fun s a => le_num s + a) 0 l)).
Definition ed_add_elements (l : list bytes) : option bytes :=
  match mapM ge_parse l with
  | Some ps => Some (ge_bytes (fold_right ge_add ge_0 ps))
  | None => None
  end.
Section Hash.
Context (H : bytes -> bytes).
(** H(R, A, M) modulo the order *)
Definition ed_challenge (R A m : bytes) : Z := le_num (H (R ++ A ++ m)) mod ed_l.
(** SignWithShare: ephemeral share + challenge * share *)
Definition ed_sign_share (m share eph A R : bytes) : option bytes :=
  Some (sc_bytes (le_num eph + ed_challenge R A m * le_num share)).
(** CombineShares: Lagrange interpolation at 0 *)
Definition sc_inv (z : Z) : Z := pow_mod z (ed_l - 2) ed_l.
Definition ed_lagrange (ids : list Z) (i : Z) : Z :=
  fold_right (fun j acc => if j =? i then acc else (acc * (j * sc_inv ((j - i) mod ed_l))) mod ed_l) 1 ids.
Definition ed_combine (total : Z) (ids : list Z) (shares : list bytes) : option bytes :=
  Some (sc_bytes (fold_right (fun '(i, s) acc => (ed_lagrange ids i * le_num s + acc) mod ed_l) 0 (combine ids shares))).
(** Verify: R = s B - H(R, A, M) A as bytes, s below the order *)
Definition ed_verify (A m sig : bytes) : bool :=
  if negb (length sig =? 64)%nat then false
  else match ge_parse A with
  | None => false
  | Some pA =>
      let R := take 32 sig in
      let s := le_num (drop 32 sig) in
      (s <? ed_l) &&
      bool_decide (ge_bytes (ge_add (ge_mul s ge_base) (ge_mul (ed_challenge R A m) (ge_neg pA))) = R)
  end.

(** the fields of [Crypto] that concern Ed25519 *)
Definition with_ed (C : Crypto) : Crypto := {|
  cr_base := ed_base; cr_deal := ed_deal;
  cr_encrypt := cr_encrypt C; cr_decrypt := cr_decrypt C; cr_rsa_sign := cr_rsa_sign C; cr_rsa_verify := cr_rsa_verify C;
  cr_add_scalars := ed_add_scalars; cr_add_elements := ed_add_elements;
  cr_sc_minimal := fun b => le_num b <? ed_l;
  cr_sign_share := ed_sign_share; cr_combine := ed_combine; cr_verify := ed_verify |}.

(** ExpandSecret (cosigner_key_shares.go:25): the lower half of the hash of the seed, clamped (RFC 8032, 5.1.5) *)
Definition ed_expand (seed : bytes) : bytes :=
  let h := le_num (take 32 (H seed)) in
  le_enc 32 (8 * ((h mod 2 ^ 254) / 8) + 2 ^ 254).
End Hash.
