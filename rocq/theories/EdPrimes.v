(** The two primes of Ed25519: the field order 2^255 - 19 and the order of the base point (RFC 8032,
    section 5.1), by certificates of Pocklington. *)
From Coq Require Import Znumtheory.
From Verif Require Import GoBase Rsa NumTheory Ed25519.
Local Open Scope Z_scope.

(** [b] to the powers [q] and [r - 1] is 1 *)
Lemma pow_one_gcd b r u v : 1 < r -> 0 <= u -> 0 <= v -> b ^ u mod r = 1 -> b ^ v mod r = 1 ->
  forall x y, 0 <= x -> 0 <= y -> x * u = y * v + 1 -> b mod r = 1.
Proof.
  intros Hr Hu Hv H1 H2 x y Hx Hy E.
  assert (A : b ^ (x * u) mod r = 1).
  { rewrite Z.mul_comm, Z.pow_mul_r, <- pow_mod_idemp, H1, Z.pow_1_l, Z.mod_small by lia. done. }
  assert (B : b ^ (y * v) mod r = 1).
  { rewrite Z.mul_comm, Z.pow_mul_r, <- pow_mod_idemp, H2, Z.pow_1_l, Z.mod_small by lia. done. }
  assert (Hv' : 0 <= y * v) by (by apply Z.mul_nonneg_nonneg). assert (Hr0 : r <> 0) by (clear -Hr; lia).
  rewrite E in A. rewrite (Z.pow_add_r b (y * v) 1 Hv' Z.le_0_1), Z.pow_1_r, Z.mul_mod, B, Z.mul_1_l, Z.mod_mod in A by exact Hr0. exact A.
Qed.
Lemma order_divides b q r : prime q -> prime r -> b ^ q mod r = 1 -> b mod r <> 1 -> (q | r - 1).
Proof.
  intros Hq Hr H1 H2. pose proof (prime_ge_2 q Hq). pose proof (prime_ge_2 r Hr).
  destruct (Zdivide_dec q (r - 1)) as [|Hn]; [done|]. exfalso. apply H2.
  assert (Hf : b ^ (r - 1) mod r = 1).
  { apply fermat; [done|]. intros [k ->]. rewrite <- pow_mod_idemp, Z.mod_mul, Z.pow_0_l, Z.mod_0_l in H1 by lia. lia. }
  assert (G : rel_prime q (r - 1)) by (by apply prime_rel_prime).
  apply rel_prime_bezout in G as [u v E].
  (* make both coefficients of the right sign *)
  set (k := Z.abs u + Z.abs v).
  apply (pow_one_gcd b r q (r - 1) ltac:(lia) ltac:(lia) ltac:(lia) H1 Hf (u + k * (r - 1)) (k * q - v)); clear -E H H0 Hn.
  - subst k. assert (0 <= (Z.abs u + Z.abs v) * (r - 2)) by (apply Z.mul_nonneg_nonneg; lia). lia.
  - subst k. assert (0 <= (Z.abs u + Z.abs v) * (q - 2)) by (apply Z.mul_nonneg_nonneg; lia). lia.
  - clearbody k. assert (u * q + v * (r - 1) = 1) by lia. replace ((u + k * (r - 1)) * q) with (u * q + k * q * (r - 1)) by ring. lia.
Qed.

(** [n - 1] is a multiple of the distinct primes [qs], whose product is above the root of [n] *)
Definition pock (n a : Z) (qs : list Z) : bool :=
  let Q := fold_right Z.mul 1 qs in
  let w := pow_mod a ((n - 1) / Q) n in
  (1 <? n) && ((n - 1) mod Q =? 0) && (n <? Q * Q) &&
  forallb (fun q => let v := pow_mod w (Q / q) n in (1 <? q) && (Q mod q =? 0) && (Z.gcd (v - 1) n =? 1) && (pow_mod v q n =? 1)) qs.
Lemma divides_prod l m : Forall prime l -> NoDup l -> (forall q, q ∈ l -> (q | m)) -> (fold_right Z.mul 1 l | m).
Proof.
  induction l as [|q l IH]; intros Hp Hnd Hd; [apply Z.divide_1_l|]. cbn [fold_right].
  apply list.Forall_cons in Hp as [Hq Hp]. apply list.NoDup_cons in Hnd as [Hni Hnd].
  destruct (IH Hp Hnd) as [k Hk]; [intros x Hx; apply Hd; by right|].
  assert (Hqm : (q | m)) by (apply Hd; left). rewrite Hk in Hqm.
  assert (Hrp : rel_prime q (fold_right Z.mul 1 l)).
  { clear IH Hk Hqm Hd Hnd. induction l as [|x l IH]; [apply rel_prime_sym, rel_prime_1|]. cbn [fold_right].
    apply list.Forall_cons in Hp as [Hx Hp]. apply not_elem_of_cons in Hni as [Hne Hni]. apply rel_prime_mult; [|by apply IH].
    apply prime_rel_prime; [done|]. intros D. apply prime_div_prime in D; [done|done|done]. }
  rewrite Z.mul_comm in Hqm. apply Gauss in Hqm; [|done]. destruct Hqm as [j ->]. exists j. rewrite Hk. ring.
Qed.
Lemma pock_prime n a qs : Forall prime qs -> NoDup qs -> pock n a qs = true -> prime n.
Proof.
  intros Hp Hnd. unfold pock. set (Q := fold_right Z.mul 1 qs). rewrite !andb_true_iff, !Z.ltb_lt, Z.eqb_eq. intros [[[Hn HQ] Hs] Hall].
  rewrite forallb_forall in Hall. destruct (prime_factor n Hn) as (r & Hr & Hd & [|Hle]); [done|]. exfalso.
  pose proof (prime_ge_2 r Hr) as Hr2.
  assert (D : (Q | r - 1)).
  { apply divides_prod; [done|done|]. intros q Hq. pose proof Hq as Hin. apply elem_of_list_In in Hin. specialize (Hall q Hin).
    rewrite !andb_true_iff, Z.ltb_lt, !Z.eqb_eq in Hall. destruct Hall as [[[Hq1 HQq] Hg] H1]. clear Hin.
    set (v := pow_mod _ _ n) in *. rewrite pow_mod_spec in H1 by lia.
    assert (Hvr : v ^ q mod r = 1).
    { destruct Hd as [k ->]. assert (E : v ^ q = 1 + (v ^ q / (k * r)) * k * r) by (rewrite (Z.div_mod (v ^ q) (k * r)) at 1; lia).
      rewrite E, Z.mod_add, Z.mod_small by lia. done. }
    rewrite list.Forall_forall in Hp. apply (order_divides v q r); [by apply Hp|done|done|]. intros Hv.
    assert (Hdv : (r | v - 1)) by (apply Z.mod_divide; [lia|]; rewrite Zminus_mod, Hv, (Z.mod_small 1), Z.sub_diag by lia; by apply Z.mod_0_l; lia).
    assert (Hgr : (r | Z.gcd (v - 1) n)) by (by apply Z.gcd_greatest). rewrite Hg in Hgr. apply Z.divide_1_r_nonneg in Hgr; lia. }
  assert (0 < Q). { destruct (Z.le_gt_cases Q 0); [|lia]. destruct D as [k Hk]. assert (Q <> 0) by (intros E; rewrite E in Hk; lia). 
    exfalso. unfold Q in *. clear - Hp H H0. assert (0 < fold_right Z.mul 1 qs); [|lia]. clear H H0.
    induction Hp as [|x l Hx _ IH]; cbn; [lia|]. pose proof (prime_ge_2 x Hx). nia. }
  apply Z.divide_pos_le in D; [|lia]. nia.
Qed.

(** small primes by trial division *)
Definition small_prime (n : Z) : bool :=
  (1 <? n) && forallb (fun k => let d := Z.of_nat k in (n <? d * d) || negb (n mod d =? 0)) (List.seq 2 320).
Lemma small_prime_ok n : n < 100000 -> small_prime n = true -> prime n.
Proof.
  intros Hn. unfold small_prime. rewrite andb_true_iff, Z.ltb_lt, forallb_forall. intros [H1 Ht].
  destruct (prime_factor n H1) as (r & Hr & [k Hd] & [|Hle]); [done|]. exfalso. pose proof (prime_ge_2 r Hr).
  assert (r < 322) by nia. specialize (Ht (Z.to_nat r)). rewrite in_seq in Ht. specialize (Ht ltac:(lia)).
  rewrite Z2Nat.id in Ht by lia. apply orb_true_iff in Ht as [Ht|Ht]; [lia|]. rewrite Hd, Z.mod_mul in Ht by lia. done.
Qed.
Ltac small := apply small_prime_ok; [lia|vm_compute; reflexivity].
Ltac dup := repeat (apply list.NoDup_cons; split; [intros D; repeat (apply elem_of_cons in D as [D|D]; [lia|]); by apply elem_of_nil in D|]); constructor.
Lemma prime_991 : prime 991. Proof. small. Qed.
Lemma prime_3 : prime 3. Proof. small. Qed.
Lemma prime_8574133 : prime 8574133.
Proof.
  apply (pock_prime _ 2 [991; 3]); [|dup|vm_compute; reflexivity].
  constructor; [exact prime_991|]. constructor; [exact prime_3|]. constructor.
Qed.
Lemma prime_7 : prime 7. Proof. small. Qed.
Lemma prime_c1 : prime 1919519569386763.
Proof.
  apply (pock_prime _ 2 [8574133; 7]); [|dup|vm_compute; reflexivity].
  constructor; [exact prime_8574133|]. constructor; [exact prime_7|]. constructor.
Qed.
Lemma prime_75707 : prime 75707. Proof. small. Qed.
Lemma prime_c2 : prime 75445702479781427272750846543864801.
Proof.
  apply (pock_prime _ 2 [1919519569386763; 75707]); [|dup|vm_compute; reflexivity].
  constructor; [exact prime_c1|]. constructor; [exact prime_75707|]. constructor.
Qed.
Lemma prime_353 : prime 353. Proof. small. Qed.
Lemma prime_c3 : prime 74058212732561358302231226437062788676166966415465897661863160754340907.
Proof.
  apply (pock_prime _ 2 [75445702479781427272750846543864801; 353]); [|dup|vm_compute; reflexivity].
  constructor; [exact prime_c2|]. constructor; [exact prime_353|]. constructor.
Qed.
Lemma prime_p : prime ed_p.
Proof.
  apply (pock_prime _ 2 [74058212732561358302231226437062788676166966415465897661863160754340907]); [|dup|vm_compute; reflexivity].
  constructor; [exact prime_c3|]. constructor.
Qed.
Lemma prime_2551 : prime 2551. Proof. small. Qed.
Lemma prime_1224481 : prime 1224481.
Proof.
  apply (pock_prime _ 2 [2551]); [|dup|vm_compute; reflexivity].
  constructor; [exact prime_2551|]. constructor.
Qed.
Lemma prime_3797 : prime 3797. Proof. small. Qed.
Lemma prime_531581 : prime 531581.
Proof.
  apply (pock_prime _ 2 [3797]); [|dup|vm_compute; reflexivity].
  constructor; [exact prime_3797|]. constructor.
Qed.
Lemma prime_c7 : prime 1257559732178653.
Proof.
  apply (pock_prime _ 2 [1224481; 531581]); [|dup|vm_compute; reflexivity].
  constructor; [exact prime_1224481|]. constructor; [exact prime_531581|]. constructor.
Qed.
Lemma prime_c8 : prime 4434155615661930479.
Proof.
  apply (pock_prime _ 2 [1257559732178653]); [|dup|vm_compute; reflexivity].
  constructor; [exact prime_c7|]. constructor.
Qed.
Lemma prime_c9 : prime 172054593956031949258510691.
Proof.
  apply (pock_prime _ 2 [4434155615661930479]); [|dup|vm_compute; reflexivity].
  constructor; [exact prime_c8|]. constructor.
Qed.
Lemma prime_c10 : prime 19757330305831588566944191468367130476339.
Proof.
  apply (pock_prime _ 2 [172054593956031949258510691]); [|dup|vm_compute; reflexivity].
  constructor; [exact prime_c9|]. constructor.
Qed.
Lemma prime_c11 : prime 276602624281642239937218680557139826668747.
Proof.
  apply (pock_prime _ 2 [19757330305831588566944191468367130476339]); [|dup|vm_compute; reflexivity].
  constructor; [exact prime_c10|]. constructor.
Qed.
Lemma prime_l : prime ed_l.
Proof.
  apply (pock_prime _ 2 [276602624281642239937218680557139826668747]); [|dup|vm_compute; reflexivity].
  constructor; [exact prime_c11|]. constructor.
Qed.
