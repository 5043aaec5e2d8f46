(** The group of points of a twisted Edwards curve -x^2 + y^2 = 1 + d x^2 y^2 over a field in which
    -1 is a square and d is not: the addition law is complete and associative. *)
From Coq Require Import Eqdep_dec.
From Verif Require Import GoBase Poly PolyProofs.

Section Curve.
Context (F : field_ops) (HF : is_field F).
Let HF' : field_theory (f0 F) (f1 F) (fadd F) (fmul F) (fsub F) (fopp F) (fdiv F) (finv F)
  (@eq (fcar F)) := HF.
Add Field Fd : HF'.
Local Notation "0" := (f0 F).
Local Notation "1" := (f1 F).
Local Notation "x + y" := (fadd F x y).
Local Notation "x * y" := (fmul F x y).
Local Notation "x - y" := (fsub F x y).
Local Notation "x / y" := (fdiv F x y).
Local Notation "- x" := (fopp F x).
Context (i d : F) (Hi : i * i = - (1)) (Hd : forall z, z * z <> d) (H2 : 1 + 1 <> 0).

(** zero on the curve *)
Definition curve (x y : F) : F := y * y - x * x - 1 - d * x * x * y * y.
Definition cadd (P Q : F * F) : F * F :=
  let t := d * P.1 * Q.1 * P.2 * Q.2 in
  ((P.1 * Q.2 + P.2 * Q.1) / (1 + t), (P.2 * Q.2 + P.1 * Q.1) / (1 - t)).

Lemma prod_ne x y : x <> 0 -> y <> 0 -> x * y <> 0.
Proof. intros Hx Hy E. apply Hy. by apply (mul_zero F HF x). Qed.
Lemma cancel x y z : z <> 0 -> x * z = y * z -> x = y.
Proof. intros Hz E. transitivity ((x * z) / z); [field; done|]. rewrite E. field. done. Qed.
Lemma div_mul x y : y <> 0 -> x / y * y = x.
Proof. intros H. field. done. Qed.

(** ** The denominators are not zero *)
Lemma unit_t x1 y1 x2 y2 e : curve x1 y1 = 0 -> curve x2 y2 = 0 -> e * e = 1 ->
  d * x1 * x2 * y1 * y2 = e -> False.
Proof.
  intros H1 H3 He Ht.
  assert (Hm : x1 * y1 <> 0 /\ y2 <> 0).
  { assert (Hn : d * x1 * x2 * y1 * y2 <> 0).
    { rewrite Ht. intros E. rewrite E in He. apply (one_ne_zero F HF). rewrite <- He. ring. }
    split; intros E; apply Hn.
    - replace (d * x1 * x2 * y1 * y2) with (d * x2 * y2 * (x1 * y1)) by ring. rewrite E. ring.
    - rewrite E. ring. }
  destruct Hm as [Hm Hy].
  assert (Hsq : forall s, s * s = 1 -> (i * x1 + s * e * y1) * (i * x1 + s * e * y1) = d * (x1 * y1) * (x1 * y1) * ((i * x2 + s * y2) * (i * x2 + s * y2))).
  { intros s Hs. apply (sub_eq F HF).
    transitivity (curve x1 y1 - d * (x1 * y1) * (x1 * y1) * curve x2 y2
      + (i * i + 1) * (x1 * x1 - d * (x1 * y1) * (x1 * y1) * x2 * x2)
      + (s * s - 1) * (e * e * y1 * y1 - d * (x1 * y1) * (x1 * y1) * y2 * y2) + (e * e - 1) * (y1 * y1)
      - ((d * x1 * x2 * y1 * y2) * (d * x1 * x2 * y1 * y2) - e * e) - (e * e - 1)
      - (1 + 1) * i * s * x1 * y1 * (d * x1 * x2 * y1 * y2 - e)); [unfold curve; ring|].
    rewrite H1, H3, Hi, Hs, He, Ht, He. ring. }
  assert (Hz : forall s, s * s = 1 -> i * x2 + s * y2 <> 0 -> False).
  { intros s Hs Hne. apply (Hd ((i * x1 + s * e * y1) / (x1 * y1 * (i * x2 + s * y2)))).
    pose proof (Hsq s Hs) as E. set (u := i * x1 + s * e * y1) in *. set (w := i * x2 + s * y2) in *.
    assert (Hw : x1 * y1 * w <> 0) by (by apply prod_ne). set (v := x1 * y1 * w) in *.
    transitivity (u * u / (v * v)); [field; done|]. rewrite E.
    transitivity (d * (v * v) / (v * v)); [unfold v; f_equal; ring|]. field. done. }
  apply (Hz 1); [ring|]. intros E1. apply (Hz (- (1))); [ring|]. intros E2.
  assert (E : (1 + 1) * y2 = 0) by (transitivity ((i * x2 + 1 * y2) - (i * x2 + - (1) * y2)); [ring|]; rewrite E1, E2; ring).
  apply (mul_zero F HF) in E; [done|done].
Qed.
Lemma denom x1 y1 x2 y2 : curve x1 y1 = 0 -> curve x2 y2 = 0 ->
  1 + d * x1 * x2 * y1 * y2 <> 0 /\ 1 - d * x1 * x2 * y1 * y2 <> 0.
Proof.
  intros H1 H3. split; intros E.
  - apply (unit_t x1 y1 x2 y2 (- (1)) H1 H3); [ring|]. apply (sub_eq F HF). rewrite <- E. ring.
  - apply (unit_t x1 y1 x2 y2 1 H1 H3); [ring|]. symmetry. by apply (sub_eq F HF).
Qed.

(** ** Closure and associativity, by certificates *)
Lemma closure_id x1 y1 x2 y2 :
  let t := d * x1 * x2 * y1 * y2 in
  let X := x1 * y2 + y1 * x2 in let Y := y1 * y2 + x1 * x2 in let A := 1 + t in let B := 1 - t in
  Y * Y * A * A - X * X * B * B - A * A * B * B - d * X * X * Y * Y =
    (y2*y2*y2*y2 - (1+1+1+1)*x2*x2*y2*y2 - (1+1)*x2*x2*y2*y2*d + (1+1)*x2*x2*y2*y2*y2*y2 + x2*x2*x2*x2 - (1+1)*x2*x2*x2*x2*y2*y2 - (1+1)*x2*x2*x2*x2*y2*y2*y2*y2*d - x2*x2*x2*x2*y2*y2*y2*y2*d*d - y1*y1*x2*x2*y2*y2*y2*y2*d + y1*y1*x2*x2*x2*x2*y2*y2*d + y1*y1*x2*x2*x2*x2*y2*y2*y2*y2*d*d + x1*x1*x2*x2*y2*y2*y2*y2*d - x1*x1*x2*x2*x2*x2*y2*y2*d - x1*x1*x2*x2*x2*x2*y2*y2*y2*y2*d*d + x1*x1*y1*y1*x2*x2*x2*x2*y2*y2*y2*y2*d*d*d) * curve x1 y1 +
    (1 + y2*y2 - x2*x2 + (1+1)*x2*x2*y2*y2 + x2*x2*y2*y2*d - y1*y1*y2*y2 + y1*y1*x2*x2 - (1+1)*y1*y1*x2*x2*y2*y2 - (1+1)*y1*y1*x2*x2*y2*y2*d + y1*y1*y1*y1*x2*x2*y2*y2*d + x1*x1*y2*y2 - x1*x1*x2*x2 + (1+1)*x1*x1*x2*x2*y2*y2 + (1+1)*x1*x1*x2*x2*y2*y2*d + x1*x1*x1*x1*x2*x2*y2*y2*d) * curve x2 y2.
Proof. unfold curve. ring. Qed.
Lemma cadd_curve P Q : curve P.1 P.2 = 0 -> curve Q.1 Q.2 = 0 -> curve (cadd P Q).1 (cadd P Q).2 = 0.
Proof.
  destruct P as [x1 y1], Q as [x2 y2]. cbn [fst snd cadd]. intros H1 H3.
  destruct (denom x1 y1 x2 y2 H1 H3) as [Ha Hb].
  pose proof (closure_id x1 y1 x2 y2) as E. cbv zeta in E. rewrite H1, H3 in E.
  set (t := d * x1 * x2 * y1 * y2) in *. set (X := x1 * y2 + y1 * x2) in *. set (Y := y1 * y2 + x1 * x2) in *.
  unfold curve.
  transitivity ((Y * Y * (1 + t) * (1 + t) - X * X * (1 - t) * (1 - t) - (1 + t) * (1 + t) * (1 - t) * (1 - t) - d * X * X * Y * Y)
     / ((1 + t) * (1 + t) * (1 - t) * (1 - t))); [clearbody X Y t; field; done|].
  rewrite E. field. done.
Qed.
Section Assoc.
Context (x1 y1 x2 y2 x3 y3 : F).
Let X12 := x1 * y2 + y1 * x2. Let Y12 := y1 * y2 + x1 * x2.
Let A12 := 1 + d * x1 * x2 * y1 * y2. Let B12 := 1 - d * x1 * x2 * y1 * y2.
Let X23 := x2 * y3 + y2 * x3. Let Y23 := y2 * y3 + x2 * x3.
Let A23 := 1 + d * x2 * x3 * y2 * y3. Let B23 := 1 - d * x2 * x3 * y2 * y3.
Lemma assoc_x :
  (X12 * B12 * y3 + Y12 * A12 * x3) * (A23 * B23 + d * x1 * X23 * y1 * Y23) -
  (x1 * A23 * Y23 + y1 * B23 * X23) * (A12 * B12 + d * X12 * x3 * Y12 * y3) =
    (0 - y1*x2*y2*y2*y2*y2*x3*x3*y3*d - y1*x2*x2*y2*y2*y2*x3*d - y1*x2*x2*y2*y2*y2*x3*x3*x3*d - y1*x2*x2*x2*y2*y2*y3*d + y1*x2*x2*x2*y2*y2*y3*y3*y3*d + y1*x2*x2*x2*y2*y2*y2*y2*x3*x3*y3*d*d + y1*x2*x2*x2*x2*y2*x3*y3*y3*d + y1*x2*x2*x2*x2*y2*y2*y2*x3*y3*y3*d*d + x1*x2*y2*y2*y2*y2*x3*y3*y3*d - x1*x2*x2*y2*y2*y2*y3*d + x1*x2*x2*y2*y2*y2*y3*y3*y3*d - x1*x2*x2*x2*y2*y2*x3*d - x1*x2*x2*x2*y2*y2*x3*x3*x3*d - x1*x2*x2*x2*y2*y2*y2*y2*x3*y3*y3*d*d - x1*x2*x2*x2*x2*y2*x3*x3*y3*d - x1*x2*x2*x2*x2*y2*y2*y2*x3*x3*y3*d*d) * curve x1 y1 +
    (y1*y2*x3 - y1*y2*x3*y3*y3 + y1*y2*x3*x3*x3 + y1*y2*x3*x3*x3*y3*y3*d + y1*x2*y3 - y1*x2*y3*y3*y3 + y1*x2*x3*x3*y3 + y1*x2*x3*x3*y3*y3*y3*d - y1*x2*y2*y2*x3*x3*y3*d - y1*x2*x2*y2*x3*y3*y3*d - y1*y1*y1*y2*x3 + y1*y1*y1*y2*x3*y3*y3 - y1*y1*y1*y2*x3*x3*x3 - y1*y1*y1*y2*x3*x3*x3*y3*y3*d - y1*y1*y1*x2*y3 + y1*y1*y1*x2*y3*y3*y3 - y1*y1*y1*x2*x3*x3*y3 - y1*y1*y1*x2*x3*x3*y3*y3*y3*d + y1*y1*y1*x2*y2*y2*x3*x3*y3*d + y1*y1*y1*x2*x2*y2*x3*y3*y3*d + x1*y2*y3 - x1*y2*y3*y3*y3 + x1*y2*x3*x3*y3 + x1*y2*x3*x3*y3*y3*y3*d + x1*x2*x3 - x1*x2*x3*y3*y3 + x1*x2*x3*x3*x3 + x1*x2*x3*x3*x3*y3*y3*d + x1*x2*y2*y2*x3*y3*y3*d + x1*x2*x2*y2*x3*x3*y3*d - x1*y1*y1*y2*y3 + x1*y1*y1*y2*y3*y3*y3 - x1*y1*y1*y2*x3*x3*y3 - x1*y1*y1*y2*x3*x3*y3*y3*y3*d - x1*y1*y1*x2*x3 + x1*y1*y1*x2*x3*y3*y3 - x1*y1*y1*x2*x3*x3*x3 - x1*y1*y1*x2*x3*x3*x3*y3*y3*d - x1*y1*y1*x2*y2*y2*x3*y3*y3*d + x1*y1*y1*x2*y2*y2*x3*x3*x3*y3*y3*d*d - x1*y1*y1*x2*x2*y2*x3*x3*y3*d - x1*y1*y1*x2*x2*y2*x3*x3*y3*y3*y3*d*d + x1*x1*y1*y2*x3 - x1*x1*y1*y2*x3*y3*y3 + x1*x1*y1*y2*x3*x3*x3 + x1*x1*y1*y2*x3*x3*x3*y3*y3*d + x1*x1*y1*x2*y3 - x1*x1*y1*x2*y3*y3*y3 + x1*x1*y1*x2*x3*x3*y3 + x1*x1*y1*x2*x3*x3*y3*y3*y3*d - x1*x1*y1*x2*y2*y2*x3*x3*y3*d - x1*x1*y1*x2*y2*y2*x3*x3*y3*y3*y3*d*d - x1*x1*y1*x2*x2*y2*x3*y3*y3*d + x1*x1*y1*x2*x2*y2*x3*x3*x3*y3*y3*d*d + x1*x1*x1*y2*y3 - x1*x1*x1*y2*y3*y3*y3 + x1*x1*x1*y2*x3*x3*y3 + x1*x1*x1*y2*x3*x3*y3*y3*y3*d + x1*x1*x1*x2*x3 - x1*x1*x1*x2*x3*y3*y3 + x1*x1*x1*x2*x3*x3*x3 + x1*x1*x1*x2*x3*x3*x3*y3*y3*d + x1*x1*x1*x2*y2*y2*x3*y3*y3*d + x1*x1*x1*x2*x2*y2*x3*x3*y3*d) * curve x2 y2 +
    (0 - y1*y2*x3 + y1*y2*y2*y2*x3 - y1*x2*y3 + y1*x2*y2*y2*y3 - y1*x2*x2*y2*x3 - y1*x2*x2*x2*y3 + y1*y1*y1*y2*x3 - y1*y1*y1*y2*y2*y2*x3 + y1*y1*y1*x2*y3 - y1*y1*y1*x2*y2*y2*y3 + y1*y1*y1*x2*x2*y2*x3 + y1*y1*y1*x2*x2*x2*y3 - x1*y2*y3 + x1*y2*y2*y2*y3 - x1*x2*x3 + x1*x2*y2*y2*x3 - x1*x2*x2*y2*y3 - x1*x2*x2*x2*x3 + x1*y1*y1*y2*y3 - x1*y1*y1*y2*y2*y2*y3 + x1*y1*y1*x2*x3 - x1*y1*y1*x2*y2*y2*x3 - x1*y1*y1*x2*y2*y2*x3*d + x1*y1*y1*x2*x2*y2*y3 + x1*y1*y1*x2*x2*y2*y3*d + x1*y1*y1*x2*x2*x2*x3 - x1*x1*y1*y2*x3 + x1*x1*y1*y2*y2*y2*x3 - x1*x1*y1*x2*y3 + x1*x1*y1*x2*y2*y2*y3 + x1*x1*y1*x2*y2*y2*y3*d - x1*x1*y1*x2*x2*y2*x3 - x1*x1*y1*x2*x2*y2*x3*d - x1*x1*y1*x2*x2*x2*y3 - x1*x1*x1*y2*y3 + x1*x1*x1*y2*y2*y2*y3 - x1*x1*x1*x2*x3 + x1*x1*x1*x2*y2*y2*x3 - x1*x1*x1*x2*x2*y2*y3 - x1*x1*x1*x2*x2*x2*x3) * curve x3 y3.
Proof. unfold curve, X12, Y12, A12, B12, X23, Y23, A23, B23. ring. Qed.
Lemma assoc_y :
  (Y12 * A12 * y3 + X12 * B12 * x3) * (A23 * B23 - d * x1 * X23 * y1 * Y23) -
  (y1 * A23 * Y23 + x1 * B23 * X23) * (A12 * B12 - d * X12 * x3 * Y12 * y3) =
    (y1*x2*y2*y2*y2*y2*x3*y3*y3*d - y1*x2*x2*y2*y2*y2*y3*d + y1*x2*x2*y2*y2*y2*y3*y3*y3*d - y1*x2*x2*x2*y2*y2*x3*d - y1*x2*x2*x2*y2*y2*x3*x3*x3*d - y1*x2*x2*x2*y2*y2*y2*y2*x3*y3*y3*d*d - y1*x2*x2*x2*x2*y2*x3*x3*y3*d - y1*x2*x2*x2*x2*y2*y2*y2*x3*x3*y3*d*d - x1*x2*y2*y2*y2*y2*x3*x3*y3*d - x1*x2*x2*y2*y2*y2*x3*d - x1*x2*x2*y2*y2*y2*x3*x3*x3*d - x1*x2*x2*x2*y2*y2*y3*d + x1*x2*x2*x2*y2*y2*y3*y3*y3*d + x1*x2*x2*x2*y2*y2*y2*y2*x3*x3*y3*d*d + x1*x2*x2*x2*x2*y2*x3*y3*y3*d + x1*x2*x2*x2*x2*y2*y2*y2*x3*y3*y3*d*d) * curve x1 y1 +
    (y1*y2*y3 - y1*y2*y3*y3*y3 + y1*y2*x3*x3*y3 + y1*y2*x3*x3*y3*y3*y3*d + y1*x2*x3 - y1*x2*x3*y3*y3 + y1*x2*x3*x3*x3 + y1*x2*x3*x3*x3*y3*y3*d + y1*x2*y2*y2*x3*y3*y3*d + y1*x2*x2*y2*x3*x3*y3*d - y1*y1*y1*y2*y3 + y1*y1*y1*y2*y3*y3*y3 - y1*y1*y1*y2*x3*x3*y3 - y1*y1*y1*y2*x3*x3*y3*y3*y3*d - y1*y1*y1*x2*x3 + y1*y1*y1*x2*x3*y3*y3 - y1*y1*y1*x2*x3*x3*x3 - y1*y1*y1*x2*x3*x3*x3*y3*y3*d - y1*y1*y1*x2*y2*y2*x3*y3*y3*d - y1*y1*y1*x2*x2*y2*x3*x3*y3*d + x1*y2*x3 - x1*y2*x3*y3*y3 + x1*y2*x3*x3*x3 + x1*y2*x3*x3*x3*y3*y3*d + x1*x2*y3 - x1*x2*y3*y3*y3 + x1*x2*x3*x3*y3 + x1*x2*x3*x3*y3*y3*y3*d - x1*x2*y2*y2*x3*x3*y3*d - x1*x2*x2*y2*x3*y3*y3*d - x1*y1*y1*y2*x3 + x1*y1*y1*y2*x3*y3*y3 - x1*y1*y1*y2*x3*x3*x3 - x1*y1*y1*y2*x3*x3*x3*y3*y3*d - x1*y1*y1*x2*y3 + x1*y1*y1*x2*y3*y3*y3 - x1*y1*y1*x2*x3*x3*y3 - x1*y1*y1*x2*x3*x3*y3*y3*y3*d + x1*y1*y1*x2*y2*y2*x3*x3*y3*d + x1*y1*y1*x2*y2*y2*x3*x3*y3*y3*y3*d*d + x1*y1*y1*x2*x2*y2*x3*y3*y3*d - x1*y1*y1*x2*x2*y2*x3*x3*x3*y3*y3*d*d + x1*x1*y1*y2*y3 - x1*x1*y1*y2*y3*y3*y3 + x1*x1*y1*y2*x3*x3*y3 + x1*x1*y1*y2*x3*x3*y3*y3*y3*d + x1*x1*y1*x2*x3 - x1*x1*y1*x2*x3*y3*y3 + x1*x1*y1*x2*x3*x3*x3 + x1*x1*y1*x2*x3*x3*x3*y3*y3*d + x1*x1*y1*x2*y2*y2*x3*y3*y3*d - x1*x1*y1*x2*y2*y2*x3*x3*x3*y3*y3*d*d + x1*x1*y1*x2*x2*y2*x3*x3*y3*d + x1*x1*y1*x2*x2*y2*x3*x3*y3*y3*y3*d*d + x1*x1*x1*y2*x3 - x1*x1*x1*y2*x3*y3*y3 + x1*x1*x1*y2*x3*x3*x3 + x1*x1*x1*y2*x3*x3*x3*y3*y3*d + x1*x1*x1*x2*y3 - x1*x1*x1*x2*y3*y3*y3 + x1*x1*x1*x2*x3*x3*y3 + x1*x1*x1*x2*x3*x3*y3*y3*y3*d - x1*x1*x1*x2*y2*y2*x3*x3*y3*d - x1*x1*x1*x2*x2*y2*x3*y3*y3*d) * curve x2 y2 +
    (0 - y1*y2*y3 + y1*y2*y2*y2*y3 - y1*x2*x3 + y1*x2*y2*y2*x3 - y1*x2*x2*y2*y3 - y1*x2*x2*x2*x3 + y1*y1*y1*y2*y3 - y1*y1*y1*y2*y2*y2*y3 + y1*y1*y1*x2*x3 - y1*y1*y1*x2*y2*y2*x3 + y1*y1*y1*x2*x2*y2*y3 + y1*y1*y1*x2*x2*x2*x3 - x1*y2*x3 + x1*y2*y2*y2*x3 - x1*x2*y3 + x1*x2*y2*y2*y3 - x1*x2*x2*y2*x3 - x1*x2*x2*x2*y3 + x1*y1*y1*y2*x3 - x1*y1*y1*y2*y2*y2*x3 + x1*y1*y1*x2*y3 - x1*y1*y1*x2*y2*y2*y3 - x1*y1*y1*x2*y2*y2*y3*d + x1*y1*y1*x2*x2*y2*x3 + x1*y1*y1*x2*x2*y2*x3*d + x1*y1*y1*x2*x2*x2*y3 - x1*x1*y1*y2*y3 + x1*x1*y1*y2*y2*y2*y3 - x1*x1*y1*x2*x3 + x1*x1*y1*x2*y2*y2*x3 + x1*x1*y1*x2*y2*y2*x3*d - x1*x1*y1*x2*x2*y2*y3 - x1*x1*y1*x2*x2*y2*y3*d - x1*x1*y1*x2*x2*x2*x3 - x1*x1*x1*y2*x3 + x1*x1*x1*y2*y2*y2*x3 - x1*x1*x1*x2*y3 + x1*x1*x1*x2*y2*y2*y3 - x1*x1*x1*x2*x2*y2*x3 - x1*x1*x1*x2*x2*x2*y3) * curve x3 y3.
Proof. unfold curve, X12, Y12, A12, B12, X23, Y23, A23, B23. ring. Qed.
End Assoc.
Lemma cadd_assoc P Q S : curve P.1 P.2 = 0 -> curve Q.1 Q.2 = 0 -> curve S.1 S.2 = 0 ->
  cadd (cadd P Q) S = cadd P (cadd Q S).
Proof.
  intros HP HQ HS. pose proof (cadd_curve P Q HP HQ) as HPQ. pose proof (cadd_curve Q S HQ HS) as HQS.
  destruct P as [x1 y1], Q as [x2 y2], S as [x3 y3]. cbn [fst snd] in HP, HQ, HS.
  destruct (denom x1 y1 x2 y2 HP HQ) as [Ha Hb]. destruct (denom x2 y2 x3 y3 HQ HS) as [Hc He].
  pose proof (assoc_x x1 y1 x2 y2 x3 y3) as EX. pose proof (assoc_y x1 y1 x2 y2 x3 y3) as EY. cbv zeta in EX, EY.
  rewrite HP, HQ, HS in EX, EY. unfold cadd in *. cbn [fst snd] in *.
  set (a12 := 1 + d * x1 * x2 * y1 * y2) in *. set (b12 := 1 - d * x1 * x2 * y1 * y2) in *.
  set (a23 := 1 + d * x2 * x3 * y2 * y3) in *. set (b23 := 1 - d * x2 * x3 * y2 * y3) in *.
  set (X12 := x1 * y2 + y1 * x2) in *. set (Y12 := y1 * y2 + x1 * x2) in *.
  set (X23 := x2 * y3 + y2 * x3) in *. set (Y23 := y2 * y3 + x2 * x3) in *.
  set (X := X12 / a12) in *. set (Y := Y12 / b12) in *. set (U := X23 / a23) in *. set (V := Y23 / b23) in *.
  assert (RX : X * a12 = X12) by (by apply div_mul). assert (RY : Y * b12 = Y12) by (by apply div_mul).
  assert (RU : U * a23 = X23) by (by apply div_mul). assert (RV : V * b23 = Y23) by (by apply div_mul).
  destruct (denom X Y x3 y3 HPQ HS) as [D1 D2]. destruct (denom x1 y1 U V HP HQS) as [D3 D4].
  rewrite <- RX, <- RY, <- RU, <- RV in EX, EY. clearbody X Y U V. clear RX RY RU RV X12 Y12 X23 Y23 HP HQ HS HPQ HQS.
  clearbody a12 b12 a23 b23.
  assert (N : a12 * b12 * a23 * b23 <> 0) by (repeat apply prod_ne; done).
  f_equal.
  - set (D := 1 + d * X * x3 * Y * y3) in *. set (D' := 1 + d * x1 * U * y1 * V) in *.
    apply (cancel _ _ (D * D' * (a12 * b12 * a23 * b23))); [repeat apply prod_ne; done|].
    transitivity ((X * y3 + Y * x3) * D' * (a12 * b12 * a23 * b23)); [field; done|].
    transitivity ((x1 * V + y1 * U) * D * (a12 * b12 * a23 * b23)); [|field; done].
    apply (sub_eq F HF). etransitivity; [|etransitivity; [exact EX|ring]]. unfold D, D'. ring.
  - set (D := 1 - d * X * x3 * Y * y3) in *. set (D' := 1 - d * x1 * U * y1 * V) in *.
    apply (cancel _ _ (D * D' * (a12 * b12 * a23 * b23))); [repeat apply prod_ne; done|].
    transitivity ((Y * y3 + X * x3) * D' * (a12 * b12 * a23 * b23)); [field; done|].
    transitivity ((y1 * V + x1 * U) * D * (a12 * b12 * a23 * b23)); [|field; done].
    apply (sub_eq F HF). etransitivity; [|etransitivity; [exact EY|ring]]. unfold D, D'. ring.
Qed.

(** ** The equation solved for x^2 *)
Lemma x2_denom y : d * y * y + 1 <> 0.
Proof.
  intros E. assert (Hy : y <> 0).
  { intros ->. apply (one_ne_zero F HF). rewrite <- E. ring. }
  apply (Hd (i / y)). transitivity (i * i / (y * y)); [field; done|]. rewrite Hi.
  assert (E1 : d * (y * y) = - (1)) by (apply (sub_eq F HF); rewrite <- E; ring). rewrite <- E1. field. done.
Qed.
Lemma x2_value x y : d * y * y + 1 <> 0 -> curve x y = 0 -> x * x = (y * y - 1) * finv F (d * y * y + 1).
Proof.
  intros Hn H. apply (cancel _ _ (d * y * y + 1) Hn). transitivity (y * y - 1); [|field; done].
  apply (sub_eq F HF). transitivity (- curve x y); [unfold curve; ring|]. rewrite H. ring.
Qed.

(** ** Projective coordinates *)
Lemma proj_add x1 y1 z1 x2 y2 z2 : z1 <> 0 -> z2 <> 0 -> curve x1 y1 = 0 -> curve x2 y2 = 0 ->
  let X1 := x1 * z1 in let Y1 := y1 * z1 in let X2 := x2 * z2 in let Y2 := y2 * z2 in
  let a := z1 * z2 in let b := a * a in let c := X1 * X2 in let e := Y1 * Y2 in let t := d * (c * e) in
  let f := b - t in let g := b + t in let h := (X1 + Y1) * (X2 + Y2) - c - e in
  f * g <> 0 /\ ((a * f) * h / (f * g), (a * g) * (e + c) / (f * g)) = cadd (x1, y1) (x2, y2).
Proof.
  intros Hz1 Hz2 H1 H3. cbv zeta. destruct (denom x1 y1 x2 y2 H1 H3) as [D1 D2]. unfold cadd. cbn [fst snd].
  set (u := d * x1 * x2 * y1 * y2) in *.
  assert (Hz : z1 * z2 <> 0) by (by apply prod_ne).
  assert (Ef : z1 * z2 * (z1 * z2) - d * (x1 * z1 * (x2 * z2) * (y1 * z1 * (y2 * z2))) = (z1 * z2) * (z1 * z2) * (1 - u)) by (unfold u; ring).
  assert (Eg : z1 * z2 * (z1 * z2) + d * (x1 * z1 * (x2 * z2) * (y1 * z1 * (y2 * z2))) = (z1 * z2) * (z1 * z2) * (1 + u)) by (unfold u; ring).
  rewrite Ef, Eg. split; [repeat apply prod_ne; done|]. clearbody u. f_equal; field; repeat split; done.
Qed.
Lemma proj_dbl x y z : z <> 0 -> curve x y = 0 ->
  let X := x * z in let Y := y * z in
  let s := X + Y in let b := s * s in let c := X * X in let e := Y * Y in
  let f := e - c in let h := z * z in let j := (1 + 1) * h - f in
  f * j <> 0 /\ ((b - c - e) * j / (f * j), f * (c + e) / (f * j)) = cadd (x, y) (x, y).
Proof.
  intros Hz H1. cbv zeta. destruct (denom x y x y H1 H1) as [D1 D2]. unfold cadd. cbn [fst snd].
  assert (Ea : 1 + d * x * x * y * y = y * y - x * x) by (apply (sub_eq F HF); transitivity (- curve x y); [unfold curve; ring|rewrite H1; ring]).
  assert (Eb : 1 - d * x * x * y * y = (1 + 1) - (y * y - x * x)) by (rewrite <- Ea; ring).
  rewrite Eb in *. rewrite Ea in *. clear Ea Eb H1.
  replace (y * z * (y * z) - x * z * (x * z)) with (z * z * (y * y - x * x)) by ring.
  replace ((1 + 1) * (z * z) - z * z * (y * y - x * x)) with (z * z * ((1 + 1) - (y * y - x * x))) by ring.
  set (u := y * y - x * x) in *. split; [repeat apply prod_ne; done|].
  clearbody u. f_equal; field; repeat split; done.
Qed.
Lemma unproj x z : z <> 0 -> x = x / z * z.
Proof. intros H. symmetry. by apply div_mul. Qed.

(** ** The group *)
Context {HE : EqDecision F}.
Definition cp : Type := { P : F * F | curve P.1 P.2 = 0 }.
Lemma cp_eq (P Q : cp) : `P = `Q -> P = Q.
Proof. destruct P as [P HP], Q as [Q HQ]. cbn. intros <-. f_equal. apply UIP_dec. apply HE. Qed.
Global Instance cp_dec : EqDecision cp.
Proof.
  intros P Q. destruct (decide (`P = `Q)) as [E|E]; [left; by apply cp_eq|right; by intros ->].
Defined.
Lemma zero_curve : curve 0 1 = 0.
Proof. unfold curve. ring. Qed.
Lemma neg_curve P : curve P.1 P.2 = 0 -> curve (- P.1) P.2 = 0.
Proof. intros H. rewrite <- H. unfold curve. ring. Qed.
Definition c_add (P Q : cp) : cp := exist _ (cadd (`P) (`Q)) (cadd_curve _ _ (proj2_sig P) (proj2_sig Q)).
Definition c_0 : cp := exist _ (0, 1) zero_curve.
Definition c_neg (P : cp) : cp := exist _ (- (`P).1, (`P).2) (neg_curve _ (proj2_sig P)).
Lemma c_assoc P Q S : c_add (c_add P Q) S = c_add P (c_add Q S).
Proof. apply cp_eq. cbn. exact (cadd_assoc _ _ _ (proj2_sig P) (proj2_sig Q) (proj2_sig S)). Qed.
Lemma c_comm P Q : c_add P Q = c_add Q P.
Proof.
  apply cp_eq. cbn. unfold cadd. set (p := `P). set (q := `Q). cbv zeta.
  replace (d * q.1 * p.1 * q.2 * p.2) with (d * p.1 * q.1 * p.2 * q.2) by ring. f_equal; f_equal; ring.
Qed.
Lemma c_add_0 P : c_add P c_0 = P.
Proof.
  apply cp_eq. cbn. destruct P as [[x y] HP]. unfold cadd. cbn. pose proof (one_ne_zero F HF).
  replace (1 + d * x * 0 * y * 1) with 1 by ring. replace (1 - d * x * 0 * y * 1) with 1 by ring. f_equal; field; done.
Qed.
Lemma c_add_neg P : c_add P (c_neg P) = c_0.
Proof.
  apply cp_eq. cbn. destruct P as [[x y] HP]. cbn in *. pose proof (denom x y (- x) y HP (neg_curve (x, y) HP)) as [D1 D2].
  unfold cadd. cbn. f_equal.
  - transitivity (0 / (1 + d * x * - x * y * y)); [f_equal; ring|]. field. done.
  - apply (cancel _ _ (1 - d * x * - x * y * y)); [done|]. rewrite div_mul by done.
    apply (sub_eq F HF). rewrite <- HP. unfold curve. ring.
Qed.
Lemma c_cancel P Q S : c_add P S = c_add Q S -> P = Q.
Proof.
  intros H. apply (f_equal (fun x => c_add x (c_neg S))) in H. by rewrite !c_assoc, !c_add_neg, !c_add_0 in H.
Qed.

(** multiples *)
Definition c_mul (n : Z) (P : cp) : cp := match n with Zpos n => Pos.iter_op c_add n P | _ => c_0 end.
Lemma c_mul_succ n P : 0 <= n -> c_mul (n + 1) P = c_add P (c_mul n P).
Proof.
  intros Hn. destruct n as [|n|n]; [cbn; by rewrite c_add_0| |lia]. change (Z.pos n + 1)%Z with (Z.pos (n + 1)). rewrite Pos.add_1_r. cbn [c_mul].
  apply Pos.iter_op_succ. intros x y z. symmetry. apply c_assoc.
Qed.
Lemma c_mul_add m n P : 0 <= m -> 0 <= n -> c_mul (m + n) P = c_add (c_mul m P) (c_mul n P).
Proof.
  intros Hm Hn. revert m Hm. apply natlike_ind; [cbn [Z.add]; rewrite c_comm; by rewrite c_add_0|].
  intros m Hm IH. replace (Z.succ m + n)%Z with ((m + n) + 1)%Z by lia. unfold Z.succ. rewrite !c_mul_succ, IH by lia. by rewrite c_assoc.
Qed.
Lemma c_mul_0 n : 0 <= n -> c_mul n c_0 = c_0.
Proof.
  revert n. apply natlike_ind; [done|]. intros n Hn IH. unfold Z.succ. rewrite c_mul_succ, IH by done. apply c_add_0.
Qed.
Lemma c_mul_mul m n P : 0 <= m -> 0 <= n -> c_mul (m * n) P = c_mul m (c_mul n P).
Proof.
  intros Hm Hn. revert m Hm. apply natlike_ind; [done|].
  intros m Hm IH. replace (Z.succ m * n)%Z with (n + m * n)%Z by lia. unfold Z.succ. rewrite c_mul_add, c_mul_succ, IH by nia. done.
Qed.
Lemma c_mul_plus n P Q : 0 <= n -> c_mul n (c_add P Q) = c_add (c_mul n P) (c_mul n Q).
Proof.
  revert n. apply natlike_ind; [cbn; by rewrite c_add_0|]. intros n Hn IH. unfold Z.succ. rewrite !c_mul_succ, IH by done.
  rewrite !c_assoc. f_equal. rewrite <- !c_assoc. f_equal. apply c_comm.
Qed.

(** ** Points of order [l] as a module over the integers modulo [l] *)
Context (l : Z) (Hl : 0 < l).
Definition sp : Type := { P : cp | c_mul l P = c_0 }.
Lemma sp_eq (P Q : sp) : `P = `Q -> P = Q.
Proof. destruct P as [P HP], Q as [Q HQ]. cbn. intros <-. f_equal. apply UIP_dec. apply cp_dec. Qed.
Lemma sp_add_ok P Q : c_mul l P = c_0 -> c_mul l Q = c_0 -> c_mul l (c_add P Q) = c_0.
Proof. intros HP HQ. rewrite c_mul_plus, HP, HQ by lia. apply c_add_0. Qed.
Lemma sp_mul_ok n P : c_mul l P = c_0 -> c_mul l (c_mul n P) = c_0.
Proof.
  intros HP. destruct (Z.le_gt_cases 0 n).
  - rewrite <- c_mul_mul, Z.mul_comm, c_mul_mul, HP by lia. by apply c_mul_0.
  - destruct n; [lia|lia|]. cbn [c_mul]. apply (c_mul_0 l). lia.
Qed.
Definition s_add (P Q : sp) : sp := exist _ (c_add (`P) (`Q)) (sp_add_ok _ _ (proj2_sig P) (proj2_sig Q)).
Lemma sp_0_ok : c_mul l c_0 = c_0.
Proof. apply c_mul_0. lia. Qed.
Definition s_0 : sp := exist _ c_0 sp_0_ok.
Definition s_mul (n : Z) (P : sp) : sp := exist _ (c_mul n (`P)) (sp_mul_ok n _ (proj2_sig P)).
Lemma s_mul_mod n P : 0 <= n -> s_mul (n mod l) P = s_mul n P.
Proof.
  intros Hn. apply sp_eq. cbn. destruct P as [P HP]. cbn. rewrite (Z.div_mod n l) at 2 by lia.
  pose proof (Z.mod_pos_bound n l Hl). assert (0 <= n / l)%Z by (by apply Z.div_pos).
  rewrite c_mul_add, Z.mul_comm, c_mul_mul, HP, c_mul_0 by nia. by rewrite c_comm, c_add_0.
Qed.
End Curve.
