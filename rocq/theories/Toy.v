(** A toy instance of [Crypto], used only for witnesses and non-vacuity examples.

    Scalars and group elements are integers modulo 251, stored in the first of 32 bytes; the base
    point is 1, so the "discrete logarithm" is trivial, but every algebraic law used by threshold
    signing holds. "RSA" keys are byte strings shared by both sides; encryption prefixes the key. *)
From Verif Require Import GoBase Crypto.

Definition toy_q : Z := 251.
Definition toy_enc (z : Z) : bytes := zb (z mod toy_q) :: replicate 31 x00.
Definition toy_dec (b : bytes) : Z := match b with [] => 0 | x :: _ => bz x end.

Fixpoint sum_bytes (l : bytes) (w : Z) : Z :=
  match l with [] => 0 | b :: l' => (w * bz b + sum_bytes l' (w + 1)) mod toy_q end.
(** challenge *)
Definition toy_ch (R A M : bytes) : Z :=
  (toy_dec R + 3 * toy_dec A + sum_bytes M 1 + Z.of_nat (length M)) mod toy_q.

Fixpoint zpow (b : Z) (n : nat) : Z :=
  match n with O => 1 | S n' => (b * zpow b n') mod toy_q end.
Definition toy_inv (z : Z) : Z := zpow (z mod toy_q) 249.

(** polynomial [secret + r_1 X + ... + r_{t-1} X^{t-1}] with coefficients from the randomness *)
Definition toy_eval (coeffs : list Z) (x : Z) : Z :=
  fold_right (fun c acc => (c + x * acc) mod toy_q) 0 coeffs.
Definition toy_deal (secret r : bytes) (t n : Z) : list bytes :=
  let coeffs := toy_dec secret :: map bz (take (Z.to_nat t - 1) r) in
  map (fun i => toy_enc (toy_eval coeffs (Z.of_nat i))) (seq 1 (Z.to_nat n)).

Definition toy_lagrange (ids : list Z) (i : Z) : Z :=
  fold_right (fun j acc =>
    if j =? i then acc else (acc * (j * toy_inv (j - i))) mod toy_q) 1 ids.
Definition toy_combine (total : Z) (ids : list Z) (shares : list bytes) : option bytes :=
  Some (toy_enc (fold_right (fun '(i, s) acc => (toy_lagrange ids i * toy_dec s + acc) mod toy_q) 0
                   (combine ids shares))).

Definition strip (p l : bytes) : option bytes :=
  if bool_decide (take (length p) l = p) then Some (drop (length p) l) else None.

Definition toy_mac (k : bytes) (p : payload) : bytes :=
  k ++ zb (pl_source p) :: pl_eph p ++ pl_enc p.

Definition toy : Crypto := {|
  cr_base s := toy_enc (toy_dec s);
  cr_deal := toy_deal;
  cr_encrypt pk m _ := Some (pk ++ m);
  cr_decrypt sk c := strip sk c;
  cr_rsa_sign sk p _ := Some (toy_mac sk p);
  cr_rsa_verify pk p s := bool_decide (s = toy_mac pk p);
  cr_add_scalars l := Some (toy_enc (fold_right (fun s a => toy_dec s + a) 0 l));
  cr_add_elements l := Some (toy_enc (fold_right (fun s a => toy_dec s + a) 0 l));
  cr_sc_minimal s := toy_dec s <? toy_q;
  cr_sign_share m x k A R := Some (toy_enc (toy_dec k + toy_ch R A m * toy_dec x));
  cr_combine := toy_combine;
  cr_verify A m sig :=
    bool_decide (length sig = 64%nat) &&
    ((toy_dec (drop 32 sig)) mod toy_q =?
     (toy_dec (take 32 sig) + toy_ch (take 32 sig) A m * toy_dec A) mod toy_q)
|}.
