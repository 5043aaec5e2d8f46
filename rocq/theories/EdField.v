(** The integers modulo a prime as a field. *)
From Coq Require Import Znumtheory.
From Verif Require Import GoBase Rsa NumTheory Poly PolyProofs.
Local Open Scope Z_scope.

Section Zq.
Context (q : Z).
Definition zq := { z : Z | (z mod q =? z) = true }.
Lemma mk_ok z : ((z mod q) mod q =? z mod q) = true.
Proof. apply Z.eqb_eq. apply Zmod_mod. Qed.
Definition mk (z : Z) : zq := exist _ (z mod q) (mk_ok z).
Definition un (a : zq) : Z := proj1_sig a.
Lemma zq_eq (a b : zq) : un a = un b -> a = b.
Proof. destruct a as [a Ha], b as [b Hb]; simpl; intros <-. f_equal. apply Eqdep_dec.UIP_dec, Bool.bool_dec. Qed.
Global Instance zq_dec : EqDecision zq.
Proof. intros a b. destruct (decide (un a = un b)) as [E|E]; [left; by apply zq_eq|right; by intros ->]. Defined.
Lemma un_mod a : un a mod q = un a.
Proof. destruct a as [a Ha]. simpl. by apply Z.eqb_eq in Ha. Qed.
Lemma mk_eq a b : a mod q = b mod q -> mk a = mk b.
Proof. intros H. apply zq_eq. done. Qed.
Lemma mk_un a : mk (un a) = a.
Proof. apply zq_eq. simpl. apply un_mod. Qed.
Lemma un_mk z : un (mk z) = z mod q.
Proof. done. Qed.
Lemma mk_mod a : mk (a mod q) = mk a.
Proof. apply mk_eq. apply Zmod_mod. Qed.

Definition zadd (a b : zq) := mk (un a + un b).
Definition zmul (a b : zq) := mk (un a * un b).
Definition zopp (a : zq) := mk (- un a).
Definition zsub (a b : zq) := mk (un a - un b).
Definition zinv (a : zq) := mk (pow_mod (un a) (q - 2) q).
Definition zdiv (a b : zq) := zmul a (zinv b).
Definition zf : field_ops := FieldOps zq (mk 0) (mk 1) zadd zmul zsub zopp zdiv zinv.

Lemma mk_add a b : mk (a + b) = zadd (mk a) (mk b).
Proof. apply mk_eq. rewrite !un_mk. by rewrite Zplus_mod. Qed.
Lemma mk_mul a b : mk (a * b) = zmul (mk a) (mk b).
Proof. apply mk_eq. rewrite !un_mk. by rewrite Zmult_mod. Qed.
Lemma mk_sub a b : mk (a - b) = zsub (mk a) (mk b).
Proof. apply mk_eq. rewrite !un_mk. by rewrite Zminus_mod. Qed.
Lemma mk_opp a : mk (- a) = zopp (mk a).
Proof. apply mk_eq. rewrite un_mk. replace (- (a mod q)) with (0 - a mod q) by lia. by rewrite Zminus_mod_idemp_r. Qed.

Context (Hq : prime q).
Lemma q_ge : 2 <= q.
Proof. by apply prime_ge_2. Qed.
Lemma un_range a : 0 <= un a < q.
Proof. rewrite <- un_mod. apply Z.mod_pos_bound. pose proof q_ge. lia. Qed.
Lemma mk_inj a b : 0 <= a < q -> 0 <= b < q -> mk a = mk b -> a = b.
Proof. intros Ha Hb H. apply (f_equal un) in H. rewrite !un_mk in H. by rewrite !Z.mod_small in H. Qed.
Lemma un_0 a : un a <> 0 -> ~ (q | un a).
Proof. intros Ha Hd. pose proof (un_range a). apply Z.divide_pos_le in Hd; lia. Qed.
Ltac zq_ring := intros; repeat match goal with E : @eq zq _ _ |- _ => clear E end; repeat match goal with a : zq |- _ => rewrite <- (mk_un a); generalize (un a); clear a; intros a end;
  repeat rewrite <- ?mk_add, <- ?mk_mul, <- ?mk_opp, <- ?mk_sub; f_equal; ring.
Lemma zq_field : is_field zf.
Proof.
  pose proof q_ge as H2. unfold is_field. constructor.
  - constructor; simpl; try (zq_ring; fail).
  - intros H. apply mk_inj in H; lia.
  - done.
  - simpl. intros p Hp. unfold zinv. apply zq_eq. unfold zmul. rewrite !un_mk.
    pose proof (un_range p) as Hr. assert (Hn : un p <> 0).
    { intros K. apply Hp. apply zq_eq. rewrite K, un_mk, Z.mod_0_l by lia. done. }
    rewrite pow_mod_spec by lia. rewrite Zmod_mod, Zmult_mod_idemp_l.
    replace (un p ^ (q - 2) * un p) with (un p ^ (q - 1)).
    + rewrite fermat; [by rewrite Z.mod_small by lia|done|by apply un_0].
    + replace (q - 1) with (q - 2 + 1) by lia. rewrite Z.pow_add_r, Z.pow_1_r by lia. done.
Qed.

(** powers *)
Definition zpow (a : zq) (n : Z) : zq := mk (un a ^ n).
Lemma zpow_add a m n : 0 <= m -> 0 <= n -> zpow a (m + n) = zmul (zpow a m) (zpow a n).
Proof. intros Hm Hn. unfold zpow. by rewrite Z.pow_add_r, mk_mul. Qed.
Lemma zpow_mul a m n : 0 <= m -> 0 <= n -> zpow a (m * n) = zpow (zpow a m) n.
Proof.
  intros Hm Hn. unfold zpow. rewrite un_mk. apply mk_eq. pose proof q_ge. rewrite pow_mod_idemp by lia. by rewrite Z.pow_mul_r.
Qed.
Lemma zpow_fermat a : a <> mk 0 -> zpow a (q - 1) = mk 1.
Proof.
  intros Ha. pose proof q_ge. unfold zpow. apply mk_eq. rewrite fermat; [by rewrite Z.mod_small by lia|done|].
  apply un_0. intros E. apply Ha. apply zq_eq. rewrite E, un_mk, Z.mod_0_l by lia. done.
Qed.
Lemma zpow_2 a : zpow a 2 = zmul a a.
Proof. unfold zpow, zmul. by rewrite Z.pow_2_r. Qed.
Lemma zpow_square a n : 0 <= n -> zpow (zmul a a) n = zpow a (2 * n).
Proof. intros Hn. by rewrite zpow_mul, zpow_2 by lia. Qed.
(** Euler: a square has the power (q - 1) / 2 equal to 1 or 0 *)
Lemma euler a : Z.odd q = true -> (un a) ^ ((q - 1) / 2) mod q = q - 1 -> forall z, zmul z z <> a.
Proof.
  intros Ho Ha z E. pose proof q_ge as H2.
  assert (Hh : 2 * ((q - 1) / 2) = q - 1).
  { rewrite Zodd_bool_iff in Ho. apply Zodd_ex in Ho as [k Hk]. rewrite Hk. replace (2 * k + 1 - 1) with (k * 2) by lia. rewrite Z.div_mul by lia. lia. }
  destruct (decide (z = mk 0)) as [->|Hz].
  - rewrite <- E in Ha. unfold zmul in Ha. rewrite !un_mk, !Z.mod_0_l, Z.pow_0_l, Z.mod_0_l in Ha by lia. lia.
  - pose proof (zpow_fermat z Hz) as Hf. rewrite <- Hh, <- zpow_square, E in Hf by lia.
    apply (f_equal un) in Hf. unfold zpow in Hf. rewrite !un_mk, Ha, Z.mod_small in Hf by lia.
    assert (q = 2) as -> by lia. done.
Qed.
Lemma zq_mul_zero (a b : zq) : zmul a b = mk 0 -> a = mk 0 \/ b = mk 0.
Proof.
  intros H. destruct (decide (a = mk 0)) as [|Ha]; [by left|right]. exact (mul_zero zf zq_field a b Ha H).
Qed.
(** roots of one number are equal or opposite *)
Lemma two_roots (a b : zq) : zmul a a = zmul b b -> a = b \/ a = zopp b.
Proof.
  intros H. destruct (zq_mul_zero (zsub a b) (zadd a b)) as [E|E].
  - transitivity (zsub (zmul a a) (zmul b b)); [zq_ring|]. rewrite H. zq_ring.
  - left. transitivity (zadd (zsub a b) b); [zq_ring|]. rewrite E. zq_ring.
  - right. transitivity (zsub (zadd a b) b); [zq_ring|]. rewrite E. zq_ring.
Qed.
(** of two opposite numbers one is even *)
Lemma opp_parity a : Z.odd q = true -> a <> mk 0 -> un (zopp a) mod 2 = 1 - un a mod 2.
Proof.
  intros Ho Ha. pose proof (un_range a) as Hr. assert (un a <> 0).
  { intros E. apply Ha, zq_eq. rewrite E, un_mk, Z.mod_0_l by lia. done. }
  unfold zopp. rewrite un_mk. rewrite <- (Z.mod_add (- un a) 1 q), Z.mul_1_l, (Z.mod_small (- un a + q) q) by lia.
  rewrite !Zmod_odd. rewrite Z.add_comm, Z.add_opp_r, Z.odd_sub, Ho. by destruct (Z.odd (un a)).
Qed.
End Zq.
