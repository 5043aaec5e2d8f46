(** Calculations modulo 2^255 - 19: the constants of the curve are what they should be, and the order
    of the base point is a multiple of [ed_l]. Numbers are reduced by 2^255 = 19. *)
From Verif Require Import GoBase Rsa NumTheory Ed25519.
Local Open Scope Z_scope.

Definition fr (x : Z) : Z := 19 * Z.shiftr x 255 + Z.land x (Z.ones 255).
Definition fm (x y : Z) : Z := fr (fr (x * y)).
Lemma fr_mod x : fr x mod ed_p = x mod ed_p.
Proof.
  unfold fr. rewrite Z.shiftr_div_pow2, Z.land_ones by lia. rewrite (Z.div_mod x (2 ^ 255)) at 3 by (apply Z.pow_nonzero; lia).
  unfold ed_p. set (h := x / 2 ^ 255). set (r := x mod 2 ^ 255). replace (2 ^ 255 * h + r) with (19 * h + r + h * (2 ^ 255 - 19)) by ring.
  rewrite Z_mod_plus_full. done.
Qed.
Lemma fm_mod x y : fm x y mod ed_p = (x * y) mod ed_p.
Proof. unfold fm. by rewrite !fr_mod. Qed.

(** ** Constants *)
Lemma ed_i_square : (ed_i * ed_i) mod ed_p = ed_p - 1.
Proof. vm_compute. reflexivity. Qed.
Lemma ed_p_odd : Z.odd ed_p = true.
Proof. vm_compute. reflexivity. Qed.
Lemma ed_p_big : 2 ^ 254 < ed_p < 2 ^ 255.
Proof. vm_compute. split; reflexivity. Qed.
Lemma ed_l_big : 2 ^ 252 < ed_l < 2 ^ 253.
Proof. vm_compute. split; reflexivity. Qed.
Lemma ed_p_8 : (ed_p + 3) / 8 * 8 = ed_p + 3.
Proof. vm_compute. reflexivity. Qed.
Lemma ed_base_curve : (ed_by * ed_by - ed_bx * ed_bx - 1 - ed_d * ed_bx * ed_bx * ed_by * ed_by) mod ed_p = 0.
Proof. vm_compute. reflexivity. Qed.

(** the power (p - 1) / 2 = 4 (4 (2^250 - 1) + 1) + 2 *)
Fixpoint fsq (n : nat) (x : Z) : Z := match n with O => x | S n' => fsq n' (fm x x) end.
Lemma fsq_mod n x : fsq n x mod ed_p = x ^ (2 ^ Z.of_nat n) mod ed_p.
Proof.
  assert (Hp : 0 < ed_p) by (pose proof ed_p_big; lia).
  revert x. induction n as [|n IH]; intros x; cbn [fsq]; [by rewrite Z.pow_1_r|].
  rewrite IH. rewrite <- pow_mod_idemp by lia. rewrite fm_mod, pow_mod_idemp by lia.
  rewrite <- Z.pow_2_r, <- Z.pow_mul_r by lia. do 2 f_equal. rewrite Nat2Z.inj_succ, Z.pow_succ_r; lia.
Qed.
Lemma pow_split x m n : 0 <= m -> 0 <= n -> x ^ (m + n) mod ed_p = ((x ^ m mod ed_p) * (x ^ n mod ed_p)) mod ed_p.
Proof. intros Hm Hn. by rewrite Z.pow_add_r, Zmult_mod by done. Qed.
Definition is_pow (x : Z) (e : Z) (y : Z) : Prop := 0 <= e /\ y mod ed_p = x ^ e mod ed_p.
Lemma is_pow_1 x : is_pow x 1 x.
Proof. split; [lia|]. by rewrite Z.pow_1_r. Qed.
Lemma is_pow_mul x a b y z : is_pow x a y -> is_pow x b z -> is_pow x (a + b) (fm y z).
Proof. intros [Ha Ea] [Hb Eb]. split; [by apply Z.add_nonneg_nonneg|]. rewrite fm_mod, pow_split, <- Ea, <- Eb, <- Zmult_mod by done. done. Qed.
Lemma is_pow_sq x a y n : is_pow x a y -> is_pow x (a * 2 ^ Z.of_nat n) (fsq n y).
Proof.
  intros [Ha Ea]. assert (Hp : 0 < ed_p) by (pose proof ed_p_big; lia). assert (0 <= 2 ^ Z.of_nat n) by (apply Z.pow_nonneg; lia). clear Hp.
  split; [by apply Z.mul_nonneg_nonneg|]. assert (Hp : 0 < ed_p) by (pose proof ed_p_big; lia).
  rewrite fsq_mod, <- pow_mod_idemp, Ea, pow_mod_idemp, Z.pow_mul_r by lia. done.
Qed.
Definition half_power (x : Z) : Z :=
  let t2 := fm (fsq 1 x) x in let t4 := fm (fsq 2 t2) t2 in let t5 := fm (fsq 1 t4) x in
  let t10 := fm (fsq 5 t5) t5 in let t20 := fm (fsq 10 t10) t10 in let t40 := fm (fsq 20 t20) t20 in
  let t50 := fm (fsq 10 t40) t10 in let t100 := fm (fsq 50 t50) t50 in let t200 := fm (fsq 100 t100) t100 in
  let t250 := fm (fsq 50 t200) t50 in let u := fm (fsq 2 t250) x in fm (fsq 2 u) (fsq 1 x).
Lemma half_power_mod x : half_power x mod ed_p = x ^ ((ed_p - 1) / 2) mod ed_p.
Proof.
  unfold half_power. cbv zeta.
  pose proof (is_pow_1 x) as P1. pose proof (is_pow_mul _ _ _ _ _ (is_pow_sq _ _ _ 1 P1) P1) as P2. set (t2 := fm (fsq 1 x) x) in *. clearbody t2.
  pose proof (is_pow_mul _ _ _ _ _ (is_pow_sq _ _ _ 2 P2) P2) as P4. set (t4 := fm (fsq 2 t2) _) in *. clearbody t4.
  pose proof (is_pow_mul _ _ _ _ _ (is_pow_sq _ _ _ 1 P4) P1) as P5. set (t5 := fm (fsq 1 t4) _) in *. clearbody t5.
  pose proof (is_pow_mul _ _ _ _ _ (is_pow_sq _ _ _ 5 P5) P5) as P10. set (t10 := fm (fsq 5 t5) _) in *. clearbody t10.
  pose proof (is_pow_mul _ _ _ _ _ (is_pow_sq _ _ _ 10 P10) P10) as P20. set (t20 := fm (fsq 10 t10) _) in *. clearbody t20.
  pose proof (is_pow_mul _ _ _ _ _ (is_pow_sq _ _ _ 20 P20) P20) as P40. set (t40 := fm (fsq 20 t20) _) in *. clearbody t40.
  pose proof (is_pow_mul _ _ _ _ _ (is_pow_sq _ _ _ 10 P40) P10) as P50. set (t50 := fm (fsq 10 t40) _) in *. clearbody t50.
  pose proof (is_pow_mul _ _ _ _ _ (is_pow_sq _ _ _ 50 P50) P50) as P100. set (t100 := fm (fsq 50 t50) _) in *. clearbody t100.
  pose proof (is_pow_mul _ _ _ _ _ (is_pow_sq _ _ _ 100 P100) P100) as P200. set (t200 := fm (fsq 100 t100) _) in *. clearbody t200.
  pose proof (is_pow_mul _ _ _ _ _ (is_pow_sq _ _ _ 50 P200) P50) as P250. set (t250 := fm (fsq 50 t200) _) in *. clearbody t250.
  pose proof (is_pow_mul _ _ _ _ _ (is_pow_sq _ _ _ 2 P250) P1) as Pu. set (u := fm (fsq 2 t250) _) in *. clearbody u.
  pose proof (is_pow_mul _ _ _ _ _ (is_pow_sq _ _ _ 2 Pu) (is_pow_sq _ _ _ 1 P1)) as [_ E]. rewrite E.
  f_equal.
Qed.
Lemma ed_d_euler : ed_d ^ ((ed_p - 1) / 2) mod ed_p = ed_p - 1.
Proof. rewrite <- half_power_mod. vm_compute. reflexivity. Qed.

(** ** Multiples of the base point *)
Definition qdbl (P : ge) : ge :=
  let s := ge_x P + ge_y P in
  let b := fm s s in let c := fm (ge_x P) (ge_x P) in let e := fm (ge_y P) (ge_y P) in
  let f := e - c in let h := fm (ge_z P) (ge_z P) in let j := 2 * h - f in
  Ge (fm (b - c - e) j) (fm f (c + e)) (fm f j).
Definition qadd (P Q : ge) : ge :=
  let a := fm (ge_z P) (ge_z Q) in let b := fm a a in
  let c := fm (ge_x P) (ge_x Q) in let e := fm (ge_y P) (ge_y Q) in
  let t := fm ed_d (fm c e) in let f := b - t in let g := b + t in
  let h := fm (ge_x P + ge_y P) (ge_x Q + ge_y Q) - c - e in
  Ge (fm (fm a f) h) (fm (fm a g) (e + c)) (fm f g).
Fixpoint qmul (n : positive) (P : ge) : ge :=
  match n with xH => P | xO n' => qdbl (qmul n' P) | xI n' => qadd (qdbl (qmul n' P)) P end.
Lemma base_order :
  let R := match ed_l with Zpos n => qmul n ge_base | _ => ge_base end in
  (ge_x R) mod ed_p = 0 /\ ge_y R mod ed_p = ge_z R mod ed_p.
Proof. vm_compute. split; reflexivity. Qed.
