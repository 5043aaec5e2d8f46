(** Ed25519 as RFC 8032, section 5.1, describes it: whole numbers and relations only. *)
From Verif Require Import GoBase.
Local Open Scope Z_scope.

(** the prime of the field and the order of the base point (RFC 8032, 5.1) *)
Definition rfc_p : Z := 2 ^ 255 - 19.
Definition rfc_order : Z := 2 ^ 252 + 27742317777372353535851937790883648493.
Definition same (a b : Z) : Prop := (a - b) mod rfc_p = 0.

(** -x^2 + y^2 = 1 + d x^2 y^2 with d = -121665/121666, here multiplied by 121666 *)
Definition on_curve (P : Z * Z) : Prop :=
  let '(x, y) := P in 0 <= x < rfc_p /\ 0 <= y < rfc_p /\
  same (121666 * (y * y - x * x)) (121666 - 121665 * (x * x * (y * y))).
(** x3 = (x1 y2 + x2 y1) / (1 + d x1 x2 y1 y2), y3 = (y1 y2 + x1 x2) / (1 - d x1 x2 y1 y2) *)
Definition is_sum (P Q S : Z * Z) : Prop :=
  let '(x1, y1) := P in let '(x2, y2) := Q in let '(x3, y3) := S in let t := 121665 * (x1 * x2 * (y1 * y2)) in
  on_curve S /\ same (x3 * (121666 - t)) (121666 * (x1 * y2 + x2 * y1)) /\ same (y3 * (121666 + t)) (121666 * (y1 * y2 + x1 * x2)).
(** [n] times [P]: the neutral element (0, 1) with [P] added [n] times *)
Inductive times (P : Z * Z) : Z -> Z * Z -> Prop :=
| times_0 : times P 0 (0, 1)
| times_next n Q S : 0 <= n -> times P n Q -> is_sum P Q S -> times P (n + 1) S.
(** the base point: y is 4/5, x is even *)
Definition is_base (B : Z * Z) : Prop := on_curve B /\ same (5 * B.2) 4 /\ Z.even B.1 = true.

(** [b] is the number [n] in [w] bytes, least significant first *)
Definition little (w : nat) (n : Z) (b : bytes) : Prop :=
  length b = w /\ 0 <= n < 256 ^ Z.of_nat w /\
  forall i x, b !! i = Some x -> bz x = (n / 256 ^ Z.of_nat i) mod 256.
(** y in 255 bits, then the lowest bit of x *)
Definition encodes (P : Z * Z) (b : bytes) : Prop :=
  little 32 (P.2 + (if Z.odd P.1 then 2 ^ 255 else 0)) b.

Section Hash.
Context (H : bytes -> bytes).
(** RFC 8032, 5.1.5: hash the seed, take 32 bytes, clear the three lowest bits and the highest, set the second highest *)
Definition secret_of (seed : bytes) (a : Z) : Prop :=
  exists n, little 32 n (take 32 (H seed)) /\
  forall i, 0 <= i -> Z.testbit a i = if i <? 3 then false else if i <? 254 then Z.testbit n i else i =? 254.
Definition public_key (seed pub : bytes) : Prop :=
  exists a B A, 0 <= a /\ secret_of seed a /\ is_base B /\ times B a A /\ encodes A pub.
(** 5.1.7: the signature is a point R and a number s below the order with s B = R + k A, where k is the
    hash of R, the key and the message, reduced *)
Definition valid (pub m sig : bytes) : Prop :=
  exists A R s k B sB kA eR eS, on_curve A /\ encodes A pub /\ on_curve R /\ encodes R eR /\
    sig = eR ++ eS /\ little 32 s eS /\ s < rfc_order /\
    little (length (H (eR ++ pub ++ m))) k (H (eR ++ pub ++ m)) /\
    is_base B /\ times B s sB /\ times A (k mod rfc_order) kA /\ is_sum R kA sB.
End Hash.
