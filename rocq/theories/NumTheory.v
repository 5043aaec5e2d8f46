(** Number theory for RSA: Fermat's little theorem, Proth's test, inverses. *)
From Coq Require Import Znumtheory.
From Verif Require Import GoBase KeyFile Pkcs1 Rsa.
Local Open Scope Z_scope.

(** ** Powers *)
Lemma pow_pos_spec x y m : 0 < m -> pow_pos x y m = x ^ Zpos y mod m.
Proof.
  intros Hm. induction y as [y IH|y IH|]; cbn [pow_pos].
  - cbv zeta. rewrite IH, Pos2Z.inj_xI, Z.pow_add_r, Z.pow_1_r, Z.pow_mul_r by lia.
    rewrite <- Z.mul_mod, Z.mul_mod_idemp_r by lia. rewrite <- Z.pow_mul_r by lia. rewrite (Z.mul_comm 2), Z.pow_mul_r, Z.pow_2_r by lia.
    f_equal. ring.
  - cbv zeta. rewrite IH, Pos2Z.inj_xO, <- Z.mul_mod by lia. rewrite (Z.mul_comm 2), Z.pow_mul_r, Z.pow_2_r by lia. done.
  - by rewrite Z.pow_1_r.
Qed.
Lemma pow_mod_spec x y m : 0 < m -> 0 <= y -> pow_mod x y m = x ^ y mod m.
Proof. intros Hm Hy. destruct y as [|y|y]; [done|by apply pow_pos_spec|lia]. Qed.
Lemma pow_mod_idemp a b m : 0 < m -> 0 <= b -> (a mod m) ^ b mod m = a ^ b mod m.
Proof.
  intros Hm Hb. revert b Hb. apply (natlike_ind (fun b => (a mod m) ^ b mod m = a ^ b mod m)); [done|].
  intros b Hb IH. rewrite !Z.pow_succ_r by done. rewrite Z.mul_mod, IH, <- Z.mul_mod, Z.mul_mod_idemp_l by lia. done.
Qed.

(** ** Fermat *)
Definition prod (l : list Z) : Z := fold_right Z.mul 1 l.
Lemma prod_perm l1 l2 : l1 ≡ₚ l2 -> prod l1 = prod l2.
Proof. induction 1 as [|x l1 l2 _ IH|x y l|l1 l2 l3 _ IH1 _ IH2]; unfold prod in *; cbn [fold_right] in *; [done|by rewrite IH|ring|congruence]. Qed.
Lemma prod_map a p l : 0 < p -> prod (map (fun i => a * i mod p) l) mod p = (a ^ Z.of_nat (length l) * prod l) mod p.
Proof.
  intros Hp. induction l as [|i l IH]; [done|]. cbn [map length]. cbn [prod fold_right]. fold (prod l). fold (prod (map (fun i => a * i mod p) l)).
  rewrite Z.mul_mod_idemp_l by lia. rewrite Z.mul_mod, IH, <- Z.mul_mod by lia.
  rewrite Nat2Z.inj_succ, Z.pow_succ_r by lia. f_equal. ring.
Qed.
Lemma prod_rel_prime p l : prime p -> Forall (fun i => 1 <= i < p) l -> rel_prime p (prod l).
Proof.
  intros Hp. induction 1 as [|i l Hi _ IH]; cbn; [apply rel_prime_sym, rel_prime_1|]. apply rel_prime_mult; [|exact IH].
  apply rel_prime_sym, rel_prime_le_prime; [done|]. lia.
Qed.
Lemma mul_cancel p a i j : prime p -> ~ (p | a) -> 0 <= i < p -> 0 <= j < p -> (a * i) mod p = (a * j) mod p -> i = j.
Proof.
  intros Hp Ha Hi Hj E. pose proof (prime_ge_2 p Hp) as H2.
  assert (D : (p | a * (i - j))).
  { apply Z.mod_divide; [lia|]. rewrite Z.mul_sub_distr_l, Zminus_mod, E, Z.sub_diag. done. }
  destruct (prime_mult p Hp a (i - j) D) as [D1|[w D1]]; [done|]. assert (w = 0) by nia. lia.
Qed.
Lemma fermat p a : prime p -> ~ (p | a) -> a ^ (p - 1) mod p = 1.
Proof.
  intros Hp Ha. pose proof (prime_ge_2 p Hp) as H2. set (l := seqZ 1 (p - 1)).
  assert (Hl : Forall (fun i => 1 <= i < p) l).
  { apply list.Forall_forall. intros i Hi. apply elem_of_seqZ in Hi. lia. }
  assert (Hperm : map (fun i => a * i mod p) l ≡ₚ l).
  { apply submseteq_Permutation_length_eq; [by rewrite map_length|].
    apply NoDup_submseteq.
    - apply NoDup_fmap_2_strong; [|apply NoDup_seqZ]. intros i j Hi Hj E.
        rewrite list.Forall_forall in Hl. apply Hl in Hi, Hj. eapply (mul_cancel p a i j); eauto; lia.
    - intros x Hx. apply elem_of_list_fmap in Hx as (i & -> & Hi). rewrite list.Forall_forall in Hl. apply Hl in Hi.
        apply elem_of_seqZ. pose proof (Z.mod_pos_bound (a * i) p ltac:(lia)) as Hb.
        assert (a * i mod p <> 0); [|lia]. intros E. apply Z.mod_divide in E; [|lia].
        destruct (prime_mult p Hp a i E) as [D|D]; [done|]. apply Z.divide_pos_le in D; lia.
    }
  pose proof (prod_map a p l ltac:(lia)) as E. rewrite (prod_perm _ _ Hperm) in E.
  replace (Z.of_nat (length l)) with (p - 1) in E by (unfold l; rewrite seqZ_length; lia).
  assert (D : (p | prod l * (a ^ (p - 1) - 1))).
  { apply Z.mod_divide; [lia|]. replace (prod l * (a ^ (p - 1) - 1)) with (a ^ (p - 1) * prod l - prod l) by ring.
    rewrite Zminus_mod, <- E, Z.sub_diag. done. }
  apply Gauss in D; [|by apply prod_rel_prime].
  destruct D as [w D]. replace (a ^ (p - 1)) with (1 + w * p) by lia. rewrite Z.mod_add, Z.mod_small by lia. done.
Qed.
Lemma fermat_exp p a k : prime p -> 0 <= k -> k mod (p - 1) = 1 -> a ^ k mod p = a mod p.
Proof.
  intros Hp Hk E. pose proof (prime_ge_2 p Hp) as H2.
  assert (Hp2 : 2 < p) by (destruct (Z.eq_dec p 2) as [-> |]; [change (2 - 1) with 1 in E; rewrite Z.mod_1_r in E; lia|lia]).
  assert (Ek : k = (p - 1) * (k / (p - 1)) + 1) by (pose proof (Z.div_mod k (p - 1) ltac:(lia)); lia).
  assert (Hh : 0 <= k / (p - 1)) by (apply Z.div_pos; lia). set (h := k / (p - 1)) in *. clearbody h. subst k.
  destruct (Zdivide_dec p a) as [Hd|Hd].
  - destruct Hd as [w ->]. rewrite Z.mod_mul by lia. rewrite Z.pow_add_r, Z.pow_1_r by nia.
    rewrite Z.mul_assoc, Z.mod_mul by lia. done.
  - rewrite Z.pow_add_r, Z.pow_mul_r, Z.pow_1_r by nia. rewrite <- Z.mul_mod_idemp_l by lia.
    rewrite <- pow_mod_idemp, (fermat p a) by (lia || done). rewrite Z.pow_1_l by lia. rewrite Z.mod_1_l, Z.mul_1_l by lia. done.
Qed.

(** ** Inverses *)
Lemma egcd_sound fuel : forall a m r0 s0 r1 s1, 0 <= r1 -> (r0 - s0 * a) mod m = 0 -> (r1 - s1 * a) mod m = 0 -> 0 < m ->
  let '(g, x) := egcd fuel r0 s0 r1 s1 in (g - x * a) mod m = 0.
Proof.
  induction fuel as [|fuel IH]; intros a m r0 s0 r1 s1 Hr H0 H1 Hm; cbn [egcd]; [done|].
  destruct (Z.eqb_spec r1 0); [done|]. apply IH; [apply Z.mod_pos_bound; lia|done| |done].
  rewrite (Z.mod_eq r0 r1) by lia.
  replace (r0 - r1 * (r0 / r1) - (s0 - r0 / r1 * s1) * a) with ((r0 - s0 * a) - (r0 / r1) * (r1 - s1 * a)) by ring.
  rewrite Zminus_mod, H0, Z.mul_mod, H1, Z.mul_0_r by lia. done.
Qed.
Lemma egcd_gcd fuel : forall r0 s0 r1 s1, 0 <= r1 < r0 -> r0 * r1 < 2 ^ Z.of_nat fuel -> fst (egcd fuel r0 s0 r1 s1) = Z.gcd r0 r1.
Proof.
  induction fuel as [|fuel IH]; intros r0 s0 r1 s1 H1 Hf; cbn [egcd].
  - change (2 ^ Z.of_nat 0) with 1 in Hf. assert (r1 = 0) as -> by nia. cbn. rewrite Z.gcd_0_r. lia.
  - destruct (Z.eqb_spec r1 0) as [-> |Hn]; [cbn; rewrite Z.gcd_0_r; lia|].
    pose proof (Z.mod_pos_bound r0 r1 ltac:(lia)) as Hb. rewrite IH; [|lia|].
    + rewrite Z.gcd_comm, Z.gcd_mod by lia. apply Z.gcd_comm.
    + rewrite Nat2Z.inj_succ, Z.pow_succ_r in Hf by lia.
      assert (2 * (r0 mod r1) <= r0).
      { assert (r0 = r1 * (r0 / r1) + r0 mod r1) by (apply Z.div_mod; lia). assert (1 <= r0 / r1) by (apply Z.div_le_lower_bound; lia). nia. }
      nia.
Qed.
Lemma mod_inverse_sound a m i : 1 < m -> mod_inverse a m = Some i -> 0 <= i < m /\ (a * i) mod m = 1.
Proof.
  intros Hm. unfold mod_inverse.
  pose proof (egcd_sound (Z.to_nat (2 * Z.log2 m + 4)) a m m 0 (a mod m) 1) as E.
  destruct (egcd _ _ _ _ _) as [g x]. destruct (Z.eqb_spec g 1) as [-> |]; [|discriminate]. intros [= <-].
  split; [apply Z.mod_pos_bound; lia|].
  assert (E' : (1 - x * a) mod m = 0).
  { apply E; [apply Z.mod_pos_bound; lia| | |lia].
    - rewrite Z.mul_0_l, Z.sub_0_r, Z.mod_same by lia. done.
    - rewrite Z.mul_1_l, Zminus_mod, Z.mod_mod, Z.sub_diag by lia. done. }
  rewrite Z.mul_mod_idemp_r by lia. apply Z.mod_divide in E' as [w E']; [|lia].
  replace (a * x) with (1 + (- w) * m) by lia. rewrite Z.mod_add, Z.mod_small by lia. done.
Qed.
Lemma mod_inverse_complete a m : 1 < m -> Z.gcd m a = 1 -> is_Some (mod_inverse a m).
Proof.
  intros Hm Hg. unfold mod_inverse.
  pose proof (egcd_gcd (Z.to_nat (2 * Z.log2 m + 4)) m 0 (a mod m) 1) as E.
  pose proof (Z.mod_pos_bound a m ltac:(lia)) as Hb. pose proof (Z.log2_spec m ltac:(lia)) as [_ Hs].
  pose proof (Z.log2_nonneg m) as Hl.
  destruct (egcd _ _ _ _ _) as [g x]. cbn [fst] in E. rewrite E; [|lia|].
  - rewrite Z.gcd_comm, Z.gcd_mod, Hg by lia. cbn. eauto.
  - rewrite Z2Nat.id by lia. replace (2 * Z.log2 m + 4) with (Z.succ (Z.log2 m) + Z.succ (Z.log2 m) + 2) by lia.
    rewrite !Z.pow_add_r by lia. nia.
Qed.

(** ** Two moduli *)
Lemma mod_product p q a b : prime p -> prime q -> p <> q -> a mod p = b mod p -> a mod q = b mod q -> a mod (p * q) = b mod (p * q).
Proof.
  intros Hp Hq Hne E1 E2. pose proof (prime_ge_2 p Hp). pose proof (prime_ge_2 q Hq).
  assert (D1 : (p | a - b)) by (apply Z.mod_divide; [lia|]; rewrite Zminus_mod, E1, Z.sub_diag; done).
  assert (D2 : (q | a - b)) by (apply Z.mod_divide; [lia|]; rewrite Zminus_mod, E2, Z.sub_diag; done).
  destruct D1 as [w D1]. rewrite D1 in D2. destruct (prime_mult q Hq w p D2) as [[v ->]|D3].
  - replace a with (b + v * (p * q)) by lia. apply Z.mod_add. nia.
  - apply prime_div_prime in D3; [congruence|done|done].
Qed.

(** ** Proth's test *)
Lemma odd_power_minus1 q t : 0 < q -> 0 <= t -> Z.odd t = true -> (q - 1) ^ t mod q = (q - 1) mod q.
Proof.
  intros Hq Ht Ho. rewrite <- (pow_mod_idemp (q - 1)) by lia.
  replace ((q - 1) mod q) with ((-1) mod q) by (replace (q - 1) with (-1 + 1 * q) by lia; by rewrite Z.mod_add by lia).
  rewrite pow_mod_idemp by lia. f_equal. rewrite (Zodd_div2 t) by (by apply Zodd_bool_iff). rewrite Z.pow_add_r, Z.pow_mul_r by (rewrite ?Z.div2_div; try apply Z.div_pos; lia).
  change ((-1) ^ 2) with 1. rewrite Z.pow_1_l by (rewrite Z.div2_div; apply Z.div_pos; lia). done.
Qed.
(** n = 2^s t with t odd *)
Lemma two_part : forall n, 0 < n -> exists s t, 0 <= s /\ 0 < t /\ Z.odd t = true /\ n = 2 ^ s * t.
Proof.
  intros n Hn. apply (Z_lt_induction (fun n => 0 < n -> exists s t, 0 <= s /\ 0 < t /\ Z.odd t = true /\ n = 2 ^ s * t)); [|lia|done].
  clear n Hn. intros n IH Hn. destruct (Z.odd n) eqn:Eo.
  - exists 0, n. rewrite Z.pow_0_r. repeat split; lia || done.
  - rewrite <- Z.negb_even in Eo. apply negb_false_iff, Z.even_spec in Eo as [h ->].
    destruct (IH h ltac:(lia) ltac:(lia)) as (s & t & Hs & Ht & Ho & ->). exists (s + 1), t.
    rewrite Z.pow_add_r by lia. repeat split; lia || done.
Qed.
Lemma prime_factor : forall n, 1 < n -> exists q, prime q /\ (q | n) /\ (prime n \/ q * q <= n).
Proof.
  intros n Hn. apply (Z_lt_induction (fun n => 1 < n -> exists q, prime q /\ (q | n) /\ (prime n \/ q * q <= n))); [|lia|done].
  clear n Hn. intros n IH Hn. destruct (prime_dec n) as [Hp|Hp].
  - exists n. split; [done|]. split; [apply Z.divide_refl|by left].
  - destruct (not_prime_divide n Hn Hp) as (d & Hd & [c Hc]). assert (1 < c < n) by nia.
    destruct (Z_le_gt_dec d c) as [Hle|Hgt].
    + destruct (IH d ltac:(lia) ltac:(lia)) as (q & Hq & Hqd & _). exists q. split; [done|]. split.
      * apply (Z.divide_trans _ d); [done|]. by exists c.
      * right. apply Z.divide_pos_le in Hqd; [|lia]. pose proof (prime_ge_2 q Hq). nia.
    + destruct (IH c ltac:(lia) ltac:(lia)) as (q & Hq & Hqd & _). exists q. split; [done|]. split.
      * apply (Z.divide_trans _ c); [done|]. exists d. lia.
      * right. apply Z.divide_pos_le in Hqd; [|lia]. pose proof (prime_ge_2 q Hq). nia.
Qed.
Lemma proth n k m a : 0 < k < 2 ^ m -> 0 < m -> n = k * 2 ^ m + 1 -> a ^ (k * 2 ^ (m - 1)) mod n = n - 1 -> prime n.
Proof.
  intros Hk Hm Hn Ha. assert (H2m : 0 < 2 ^ (m - 1)) by (apply Z.pow_pos_nonneg; lia).
  assert (E2m : 2 ^ m = 2 * 2 ^ (m - 1)) by (rewrite <- Z.pow_succ_r by lia; f_equal; lia).
  assert (Hn1 : 2 < n) by nia.
  destruct (prime_factor n ltac:(lia)) as (q & Hq & Hqn & [Hp|Hsq]); [done|]. exfalso. pose proof (prime_ge_2 q Hq) as Hq2.
  assert (Hqa : a ^ (k * 2 ^ (m - 1)) mod q = (q - 1) mod q).
  { destruct Hqn as [w Hw]. assert (E : a ^ (k * 2 ^ (m - 1)) = n * (a ^ (k * 2 ^ (m - 1)) / n) + (n - 1)) by (pose proof (Z.div_mod (a ^ (k * 2 ^ (m - 1))) n ltac:(lia)); lia).
    rewrite E. replace (n * (a ^ (k * 2 ^ (m - 1)) / n) + (n - 1)) with (q - 1 + (w * (a ^ (k * 2 ^ (m - 1)) / n) + w - 1) * q) by (rewrite Hw; ring).
    by rewrite Z.mod_add by lia. }
  assert (Hq3 : q <> 2).
  { intros ->. destruct Hqn as [w Hw]. assert (k * 2 ^ m + 1 = w * 2) by lia. rewrite E2m in *. lia. }
  destruct (two_part (q - 1) ltac:(lia)) as (s & t & Hs & Ht & Ho & Eq).
  destruct (Z_lt_ge_dec s m) as [Hlt|Hge].
  - assert (E1 : (a ^ (k * 2 ^ (m - 1))) ^ t mod q = 1).
    { rewrite <- Z.pow_mul_r by lia. replace (k * 2 ^ (m - 1) * t) with ((q - 1) * (2 ^ (m - 1 - s) * k)).
      2: { rewrite Eq. replace (m - 1) with ((m - 1 - s) + s) at 2 by lia. rewrite Z.pow_add_r by lia. ring. }
      assert (0 < 2 ^ (m - 1 - s)) by (apply Z.pow_pos_nonneg; lia).
      assert (Hx : 0 < 2 ^ (m - 1 - s) * k) by (apply Z.mul_pos_pos; lia). set (x := 2 ^ (m - 1 - s) * k) in *. clearbody x.
      rewrite Z.pow_mul_r by lia. rewrite <- pow_mod_idemp by lia. rewrite fermat; [rewrite Z.pow_1_l by lia; apply Z.mod_1_l; lia|done|].
      intros [w Hw]. rewrite Hw in Hqa. assert (Hy : 0 < k * 2 ^ (m - 1)) by (apply Z.mul_pos_pos; lia).
      set (y := k * 2 ^ (m - 1)) in *. clearbody y. rewrite <- pow_mod_idemp, Z.mod_mul, Z.pow_0_l, Z.mod_0_l in Hqa by lia.
      rewrite Z.mod_small in Hqa by lia. lia. }
    rewrite <- pow_mod_idemp, Hqa, pow_mod_idemp, odd_power_minus1, Z.mod_small in E1 by (lia || done). lia.
  - assert (2 ^ m <= 2 ^ s) by (apply Z.pow_le_mono_r; lia). assert (Hx : 2 ^ m <= q - 1).
    { rewrite Eq. assert (H0 : 0 < 2 ^ s) by (apply Z.pow_pos_nonneg; lia). clear -H Ht H0. set (x := 2 ^ s) in *. set (y := 2 ^ m) in *. clearbody x y. nia. }
    clear -Hx Hsq Hn Hk. set (x := 2 ^ m) in *. clearbody x. subst n. nia.
Qed.
(** a test to compute: numbers are reduced by splitting off the upper bits, since k 2^m = -1 *)
Definition proth_reduce (k m x : Z) : Z :=
  let hi := Z.shiftr x m in (hi mod k) * 2 ^ m + Z.land x (Z.ones m) - hi / k.
Fixpoint proth_squares (k m : Z) (j : nat) (x : Z) : Z :=
  match j with O => x | Datatypes.S j' => proth_squares k m j' (proth_reduce k m (x * x)) end.
Definition proth_test (k m a : Z) : bool :=
  (0 <? k) && (k <? 2 ^ m) && (0 <? m) &&
  ((proth_squares k m (Z.to_nat (m - 1)) (a ^ k mod (k * 2 ^ m + 1)) + 1) mod (k * 2 ^ m + 1) =? 0).
Lemma proth_reduce_mod k m x : 0 < k -> 0 < m -> proth_reduce k m x mod (k * 2 ^ m + 1) = x mod (k * 2 ^ m + 1).
Proof.
  intros Hk Hm. unfold proth_reduce. cbv zeta. rewrite Z.land_ones, Z.shiftr_div_pow2 by lia.
  assert (H2 : 0 < 2 ^ m) by (apply Z.pow_pos_nonneg; lia). set (P := 2 ^ m) in *. clearbody P.
  pose proof (Z.div_mod x P ltac:(lia)) as E1. set (hi := x / P) in *. set (lo := x mod P) in *. clearbody hi lo.
  pose proof (Z.div_mod hi k ltac:(lia)) as E2. set (t := hi / k) in *. set (s := hi mod k) in *. clearbody t s.
  replace (s * P + lo - t) with (x + (- t) * (k * P + 1)) by (rewrite E1, E2; ring). apply Z.mod_add. nia.
Qed.
Lemma proth_squares_mod k m j x : 0 < k -> 0 < m -> 
  proth_squares k m j x mod (k * 2 ^ m + 1) = x ^ (2 ^ Z.of_nat j) mod (k * 2 ^ m + 1).
Proof.
  intros Hk Hm. assert (Hn : 0 < k * 2 ^ m + 1) by (assert (0 < 2 ^ m) by (apply Z.pow_pos_nonneg; lia); nia).
  revert x. induction j as [|j IH]; intros x; [by rewrite Z.pow_1_r|]. cbn [proth_squares].
  rewrite IH, <- pow_mod_idemp, proth_reduce_mod, pow_mod_idemp by (lia || by apply Z.pow_nonneg).
  replace (2 ^ Z.of_nat (Datatypes.S j)) with (2 * 2 ^ Z.of_nat j) by (rewrite Nat2Z.inj_succ, Z.pow_succ_r by lia; done).
  rewrite Z.pow_mul_r by (lia || by apply Z.pow_nonneg). by rewrite Z.pow_2_r.
Qed.
Lemma proth_test_prime k m a : proth_test k m a = true -> prime (k * 2 ^ m + 1).
Proof.
  unfold proth_test. rewrite !andb_true_iff, !Z.ltb_lt, Z.eqb_eq. intros [[[Hk1 Hk2] Hm] E].
  assert (0 < 2 ^ (m - 1)) by (apply Z.pow_pos_nonneg; lia). assert (0 < 2 ^ m) by (apply Z.pow_pos_nonneg; lia).
  eapply (proth _ k m a); [lia|done|done|].
  rewrite <- Z.add_mod_idemp_l, proth_squares_mod, Z2Nat.id, pow_mod_idemp, <- Z.pow_mul_r in E by lia.
  assert (Hn : 1 < k * 2 ^ m + 1) by (clear -Hk1 H0; set (x := 2 ^ m) in *; clearbody x; nia).
  set (n := k * 2 ^ m + 1) in *. clearbody n. set (y := a ^ _) in *. clearbody y.
  pose proof (Z.mod_pos_bound y n ltac:(lia)) as Hb. apply Z.mod_divide in E as [w Hw]; [|lia]. set (z := y mod n) in *. clearbody z.
  assert (w = 1) by nia. subst w. lia.
Qed.
