(** RSA: proofs. *)
From Coq Require Import Znumtheory Strings.String.
From Verif Require Import GoBase Crypto Json JsonProofs DiskProofs KeyFile KeyFileSpec KeyFileProofs Pkcs1 Pkcs1Proofs Rsa RsaSpec NumTheory Scheme.
Local Open Scope Z_scope.

(** ** Numbers *)
Lemma pow_reduce p c d : prime p -> 0 < d -> 0 < d mod (p - 1) -> c ^ (d mod (p - 1)) mod p = c ^ d mod p.
Proof.
  intros Hp Hd Hm. pose proof (prime_ge_2 p Hp) as H2. set (x := d mod (p - 1)) in *.
  assert (Ed : d = (p - 1) * (d / (p - 1)) + x) by (apply Z.div_mod; lia).
  assert (Hh : 0 <= d / (p - 1)) by (apply Z.div_pos; lia). set (h := d / (p - 1)) in *.
  destruct (Zdivide_dec p c) as [[w Hw]|Hn].
  - rewrite <- (pow_mod_idemp c x), <- (pow_mod_idemp c d) by lia. rewrite Hw, Z.mod_mul, !Z.pow_0_l by lia. done.
  - rewrite Ed, Z.pow_add_r, Z.pow_mul_r by nia. rewrite <- Z.mul_mod_idemp_l by lia.
    rewrite <- (pow_mod_idemp (c ^ (p - 1)) h), (fermat p c) by (lia || done). rewrite Z.pow_1_l by lia. rewrite Z.mod_1_l, Z.mul_1_l by lia. done.
Qed.
Lemma exp_part e d p : 2 < p -> (e * d) mod (p - 1) = 1 -> 0 < d mod (p - 1).
Proof.
  intros Hp E. pose proof (Z.mod_pos_bound d (p - 1) ltac:(lia)) as Hb.
  assert (d mod (p - 1) <> 0); [|lia]. intros E0. rewrite <- Z.mul_mod_idemp_r, E0, Z.mul_0_r, Z.mod_0_l in E by lia. lia.
Qed.
Lemma good_ge3 e d p : prime p -> (e * d) mod (p - 1) = 1 -> 2 < p.
Proof.
  intros Hp E. pose proof (prime_ge_2 p Hp). destruct (Z.eq_dec p 2) as [-> |]; [|lia].
  change (2 - 1) with 1 in E. rewrite Z.mod_1_r in E. lia.
Qed.
Lemma gcd_primes p q : prime p -> prime q -> p <> q -> Z.gcd p q = 1.
Proof.
  intros Hp Hq Hne. pose proof (prime_ge_2 p Hp). apply Zgcd_1_rel_prime, prime_rel_prime; [done|]. intros D.
  apply prime_div_prime in D; done.
Qed.

Lemma digits h m p q : 0 <= h < p -> 0 <= m < q -> 0 <= h * q + m < p * q.
Proof. nia. Qed.
Lemma crt_spec k p q c : rsa_good k p q -> crt k p q c = Some (c ^ rk_d k mod rk_n k).
Proof.
  intros (Hp & Hq & Hne & _ & Hn & He & Hd & Ep & Eq). pose proof (good_ge3 _ _ _ Hp Ep) as Hp3. pose proof (good_ge3 _ _ _ Hq Eq) as Hq3.
  unfold crt. destruct (mod_inverse_complete q p ltac:(lia) (gcd_primes p q Hp Hq Hne)) as [qi Ei]. rewrite Ei.
  apply mod_inverse_sound in Ei as [Hqi Ei]; [|lia]. cbv zeta.
  pose proof (exp_part _ _ _ Hp3 Ep) as Hdp. pose proof (exp_part _ _ _ Hq3 Eq) as Hdq.
  rewrite !pow_mod_spec by lia. rewrite !pow_reduce by done.
  set (m1 := c ^ rk_d k mod p). set (m2 := c ^ rk_d k mod q).
  assert (Hm1 : 0 <= m1 < p) by (apply Z.mod_pos_bound; lia). assert (Hm2 : 0 <= m2 < q) by (apply Z.mod_pos_bound; lia).
  set (t := if m1 - m2 <? 0 then m1 - m2 + p else m1 - m2).
  assert (Ht : t mod p = (m1 - m2) mod p).
  { unfold t. destruct (m1 - m2 <? 0); [|done]. replace (m1 - m2 + p) with (m1 - m2 + 1 * p) by lia. apply Z.mod_add. lia. }
  pose proof (Z.mod_pos_bound (t * qi) p ltac:(lia)) as Hh. f_equal.
  rewrite <- (Z.mod_small ((t * qi) mod p * q + m2) (rk_n k)) by (rewrite Hn; by apply digits). rewrite Hn. apply mod_product; [done|done|done|..].
  - rewrite <- Zplus_mod_idemp_l, Z.mul_mod_idemp_l by lia. rewrite Zplus_mod_idemp_l.
    replace (t * qi * q) with (t * (q * qi)) by ring.
    rewrite <- Zplus_mod_idemp_l, <- Z.mul_mod_idemp_r, Ei, Z.mul_1_r, Ht by lia. rewrite Zplus_mod_idemp_l.
    replace (m1 - m2 + m2) with m1 by lia. unfold m1. rewrite Z.mod_mod by lia. done.
  - rewrite Z.add_comm, Z.mod_add by lia. unfold m2. rewrite Z.mod_mod by lia. done.
Qed.
Lemma exponents k p q m : rsa_good k p q -> m ^ (rk_e k * rk_d k) mod rk_n k = m mod rk_n k.
Proof.
  intros (Hp & Hq & Hne & _ & Hn & He & Hd & Ep & Eq). rewrite Hn.
  apply mod_product; [done|done|done|..]; apply fermat_exp; (done || nia).
Qed.
Lemma good_pos k p q : rsa_good k p q -> 4 < rk_n k.
Proof.
  intros (Hp & Hq & _ & _ & Hn & _ & _ & Ep & Eq). pose proof (good_ge3 _ _ _ Hp Ep). pose proof (good_ge3 _ _ _ Hq Eq). nia.
Qed.
Lemma blind_sound n draws r ir : 1 < n -> blind n draws = Some (r, ir) -> (r * ir) mod n = 1.
Proof.
  intros Hn. induction draws as [|x l IH]; cbn [blind]; [discriminate|]. cbv zeta.
  destruct (mod_inverse _ n) as [i|] eqn:E; [|exact IH]. intros [= <- <-]. apply mod_inverse_sound in E as [_ E]; [exact E|lia].
Qed.
Lemma raw_decrypt_spec k p q draws c : rsa_good k p q -> is_Some (blind (rk_n k) draws) ->
  raw_decrypt k draws c = if rk_n k <? c then None else Some (c ^ rk_d k mod rk_n k).
Proof.
  intros Hg [[r ir] Hb]. pose proof (good_pos k p q Hg) as Hn. pose proof (blind_sound (rk_n k) draws r ir ltac:(lia) Hb) as Er.
  unfold raw_decrypt. destruct (rk_n k <? c); [done|]. pose proof Hg as (_ & _ & _ & Hpr & _ & He & Hd & _). rewrite Hpr, Hb.
  rewrite (crt_spec k p q) by done.
  f_equal. rewrite pow_mod_spec by lia.
  rewrite pow_mod_idemp, Z.mul_mod_idemp_l by lia. rewrite <- Z.mul_mod_idemp_l by lia. rewrite Z.pow_mul_l.
  rewrite <- (Z.mul_mod_idemp_r (c ^ _)) by lia. rewrite pow_mod_idemp, <- Z.pow_mul_r by lia.
  rewrite (exponents k p q) by done. rewrite Z.mul_mod_idemp_r, Z.mul_mod_idemp_l by lia.
  rewrite <- Z.mul_assoc, <- Z.mul_mod_idemp_r, Er, Z.mul_1_r by lia. done.
Qed.
Lemma raw_encrypt_spec k p q m : rsa_good k p q -> raw_encrypt (public_of k) m = m ^ rk_e k mod rk_n k.
Proof.
  intros Hg. pose proof (good_pos k p q Hg). destruct Hg as (_ & _ & _ & _ & _ & He & _).
  unfold raw_encrypt, public_of. cbn [rp_e rp_n]. apply pow_mod_spec; lia.
Qed.
Lemma raw_round_trip k p q draws m : rsa_good k p q -> is_Some (blind (rk_n k) draws) -> 0 <= m < rk_n k ->
  raw_decrypt k draws (raw_encrypt (public_of k) m) = Some m.
Proof.
  intros Hg Hb Hm. pose proof (good_pos k p q Hg) as Hn. rewrite (raw_decrypt_spec k p q), (raw_encrypt_spec k p q) by done.
  pose proof (Z.mod_pos_bound (m ^ rk_e k) (rk_n k) ltac:(lia)) as Hc. destruct (Z.ltb_spec (rk_n k) (m ^ rk_e k mod rk_n k)); [lia|].
  f_equal. pose proof Hg as (_ & _ & _ & _ & _ & He & Hd & _). rewrite pow_mod_idemp, <- Z.pow_mul_r by lia.
  rewrite (exponents k p q) by done. apply Z.mod_small. lia.
Qed.
Lemma checked_spec k p q draws c : rsa_good k p q -> is_Some (blind (rk_n k) draws) -> 0 <= c < rk_n k ->
  checked_decrypt k draws c = Some (c ^ rk_d k mod rk_n k) /\ raw_encrypt (public_of k) (c ^ rk_d k mod rk_n k) = c.
Proof.
  intros Hg Hb Hc. pose proof (good_pos k p q Hg) as Hn. unfold checked_decrypt. rewrite (raw_decrypt_spec k p q) by done.
  destruct (Z.ltb_spec (rk_n k) c); [lia|]. rewrite (raw_encrypt_spec k p q) by done.
  pose proof Hg as (_ & _ & _ & _ & _ & He & Hd & _). rewrite pow_mod_idemp, <- Z.pow_mul_r by lia.
  rewrite (Z.mul_comm (rk_d k)), (exponents k p q) by done. rewrite Z.mod_small by lia. by rewrite Z.eqb_refl.
Qed.

(** ** Bytes *)
Lemma unbe_cons c b : unbe (c :: b) = bz c * 256 ^ Z.of_nat (length b) + unbe b.
Proof.
  induction b as [|x b IH] using rev_ind; [change (unbe [c]) with (0 * 256 + bz c); change (unbe []) with 0; cbn; lia|].
  change (c :: b ++ [x]) with ((c :: b) ++ [x]). rewrite !unbe_snoc, IH, app_length. cbn [length]. rewrite Nat.add_1_r, pow256_S. ring.
Qed.
Lemma unbe_range b : 0 <= unbe b < 256 ^ Z.of_nat (length b).
Proof.
  induction b as [|c b IH]; [cbn; lia|]. rewrite unbe_cons. cbn [length]. rewrite pow256_S. pose proof (bz_range c). nia.
Qed.
Lemma zb_bz c : zb (bz c) = c.
Proof. apply bz_inj. rewrite bz_zb. apply Z.mod_small. pose proof (bz_range c). lia. Qed.
Lemma be_unbe b : be (length b) (unbe b) = b.
Proof.
  induction b as [|x b IH] using rev_ind; [done|]. rewrite app_length, unbe_snoc. cbn [length]. rewrite Nat.add_1_r. cbn [be].
  pose proof (bz_range x). f_equal.
  - replace ((unbe b * 256 + bz x) / 256) with (unbe b) by (rewrite Z.div_add_l, Z.div_small by lia; lia). done.
  - f_equal. apply bz_inj. rewrite bz_zb. rewrite Z.add_comm, Z.mod_add, Z.mod_small by lia. done.
Qed.
Lemma unbe_be_small k z : 0 <= z < 256 ^ Z.of_nat k -> unbe (be k z) = z.
Proof. intros H. rewrite unbe_be. by apply Z.mod_small. Qed.
Lemma lxor_byte a b : 0 <= a < 256 -> 0 <= b < 256 -> 0 <= Z.lxor a b < 256.
Proof.
  intros Ha Hb. split; [apply Z.lxor_nonneg; lia|]. destruct (Z.eq_dec (Z.lxor a b) 0) as [-> |Hn]; [lia|].
  change 256 with (2 ^ 8). apply Z.log2_lt_pow2; [pose proof (proj2 (Z.lxor_nonneg a b) ltac:(lia)); lia|].
  pose proof (Z.log2_lxor a b ltac:(lia) ltac:(lia)) as Hl.
  assert (H8 : forall x, 0 <= x < 256 -> Z.log2 x < 8).
  { intros x Hx. destruct (Z.eq_dec x 0) as [-> |]; [cbn; lia|]. apply Z.log2_lt_pow2; lia. }
  pose proof (H8 a Ha). pose proof (H8 b Hb). lia.
Qed.
Lemma bxor_val a b : bz (bxor a b) = Z.lxor (bz a) (bz b).
Proof. unfold bxor. rewrite bz_zb. apply Z.mod_small. pose proof (bz_range a). pose proof (bz_range b). apply lxor_byte; lia. Qed.
Lemma bxor_twice a b : bxor (bxor a b) b = a.
Proof. apply bz_inj. by rewrite !bxor_val, Z.lxor_assoc, Z.lxor_nilpotent, Z.lxor_0_r. Qed.
Lemma xor_length a : forall b, length (xor a b) = length a.
Proof. induction a as [|x a IH]; intros [|y b]; cbn [xor length]; [done|done|done|by rewrite IH]. Qed.
Lemma xor_twice a : forall b, xor (xor a b) b = a.
Proof. induction a as [|x a IH]; intros [|y b]; cbn [xor]; [done|done|done|]. by rewrite IH, bxor_twice. Qed.
Lemma draw_length k r : length (draw k r) = k.
Proof. unfold draw. rewrite take_length, app_length, repeat_length. lia. Qed.

Section Hash.
Context (H : bytes -> bytes).
Lemma mgf1_xor_length out seed : length (mgf1_xor H out seed) = length out.
Proof. apply xor_length. Qed.
Lemma mgf1_xor_twice out seed : mgf1_xor H (mgf1_xor H out seed) seed = out.
Proof. unfold mgf1_xor at 1. rewrite mgf1_xor_length. apply xor_twice. Qed.

(** ** OAEP *)
Context (HH : hash32 H).
Lemma after_one_zeros k m : after_one (repeat x00 k ++ [x01] ++ m) = Some m.
Proof. induction k as [|k IH]; [done|]. cbn [repeat app after_one]. exact IH. Qed.
Lemma oaep_decode_encode k msg seed : length seed = 32%nat -> (length msg + 66 <= k)%nat ->
  oaep_decode H (oaep_encode H k msg seed) = Some msg /\ length (oaep_encode H k msg seed) = k.
Proof.
  intros Hs Hk. unfold oaep_encode, oaep_decode.
  set (db := H [] ++ repeat x00 (k - length msg - 66) ++ [x01] ++ msg). cbv zeta.
  set (mdb := mgf1_xor H db seed). split.
  - rewrite take_app_alt, drop_app_alt by (by rewrite mgf1_xor_length). rewrite mgf1_xor_twice.
    unfold mdb. rewrite mgf1_xor_twice. unfold db. rewrite take_app_alt, drop_app_alt by (by rewrite HH).
    change (bz x00 =? 0) with true. rewrite bool_decide_eq_true_2 by done. apply after_one_zeros.
  - cbn [length]. rewrite app_length, mgf1_xor_length. unfold mdb. rewrite mgf1_xor_length. unfold db.
    rewrite !app_length, HH, repeat_length. cbn [length]. lia.
Qed.

Lemma size_spec n : 1 < n -> n < 256 ^ rsa_size n /\ 256 ^ (rsa_size n - 1) <= n /\ 1 <= rsa_size n.
Proof.
  intros Hn. unfold rsa_size, bit_len. destruct (Z.leb_spec n 0); [lia|]. pose proof (Z.log2_spec n ltac:(lia)) as [Hl Hu].
  pose proof (Z.log2_nonneg n) as Hl0. set (L := Z.log2 n) in *.
  assert (Hd : L + 1 + 7 = 8 * ((L + 1 + 7) / 8) + (L + 1 + 7) mod 8) by (apply Z.div_mod; lia).
  pose proof (Z.mod_pos_bound (L + 1 + 7) 8 ltac:(lia)) as Hm. set (k := (L + 1 + 7) / 8) in *.
  change 256 with (2 ^ 8). rewrite <- !Z.pow_mul_r by lia. split; [|split; [|lia]].
  - eapply Z.lt_le_trans; [exact Hu|]. apply Z.pow_le_mono_r; lia.
  - etransitivity; [|exact Hl]. apply Z.pow_le_mono_r; lia.
Qed.
Lemma oaep_small k msg seed : unbe (oaep_encode H k msg seed) < 256 ^ (Z.of_nat (length (oaep_encode H k msg seed)) - 1).
Proof.
  unfold oaep_encode. cbv zeta. rewrite unbe_cons. cbn [length]. change (bz x00) with 0. rewrite Z.mul_0_l, Z.add_0_l.
  match goal with |- unbe ?b < _ => pose proof (unbe_range b) end. rewrite Nat2Z.inj_succ, Z.sub_1_r, Z.pred_succ. lia.
Qed.
(** what EncryptOAEP makes, DecryptOAEP opens; it refuses exactly the messages that are too long *)
Lemma oaep_round_trip k p q draws msg r : rsa_good k p q -> is_Some (blind (rk_n k) draws) ->
  (rsa_size (rk_n k) < Z.of_nat (length msg) + 66 /\ encrypt_oaep H (public_of k) msg r = None) \/
  (Z.of_nat (length msg) + 66 <= rsa_size (rk_n k) /\
   exists c, encrypt_oaep H (public_of k) msg r = Some c /\ Z.of_nat (length c) = rsa_size (rk_n k) /\
             decrypt_oaep H k draws c = Some msg).
Proof.
  intros Hg Hb. pose proof (good_pos k p q Hg) as Hn. destruct (size_spec (rk_n k) ltac:(lia)) as (Hs1 & Hs2 & Hs3).
  pose proof Hg as (_ & _ & _ & _ & _ & He & Hd & _).
  assert (Hcp : check_pub (rk_e k) = true) by (unfold check_pub; apply andb_true_iff; rewrite !Z.leb_le; lia).
  unfold encrypt_oaep, decrypt_oaep. cbn [public_of rp_e rp_n]. rewrite Hcp. cbv zeta. fold (public_of k).
  set (sz := rsa_size (rk_n k)) in *.
  destruct (Z.ltb_spec (sz - 66) (Z.of_nat (length msg))) as [Hl|Hl]; [left; split; [lia|done]|right]. split; [lia|].
  set (em := oaep_encode H (Z.to_nat sz) msg (draw 32 r)).
  destruct (oaep_decode_encode (Z.to_nat sz) msg (draw 32 r)) as [Hdec Hlen]; [apply draw_length|lia|]. fold em in Hdec, Hlen.
  assert (Hem : 0 <= unbe em < rk_n k).
  { split; [apply unbe_range|]. eapply Z.lt_le_trans; [apply oaep_small|]. fold em. rewrite Hlen, Z2Nat.id by lia. exact Hs2. }
  pose proof (raw_round_trip k p q draws (unbe em) Hg Hb Hem) as Hrt.
  assert (Hc : 0 <= raw_encrypt (public_of k) (unbe em) < rk_n k).
  { rewrite (raw_encrypt_spec k p q) by done. apply Z.mod_pos_bound. lia. }
  set (c := raw_encrypt (public_of k) (unbe em)) in *. exists (be (Z.to_nat sz) c).
  split; [done|]. rewrite be_length, Z2Nat.id by lia. split; [done|].
  destruct (Z.ltb_spec sz sz); [lia|]. destruct (Z.ltb_spec sz 66); [lia|]. cbn [orb].
  rewrite unbe_be_small by (rewrite Z2Nat.id by lia; lia). rewrite Hrt, <- Hlen, be_unbe. exact Hdec.
Qed.

(** ** PSS *)
Lemma low_bits_val s c : 0 <= s <= 7 -> bz (low_bits s c) = bz c mod 2 ^ (8 - s).
Proof.
  intros Hs. unfold low_bits. assert (E : Z.shiftr 255 s = Z.ones (8 - s)).
  { change 255 with (Z.ones 8). rewrite Z.ones_equiv, Z.shiftr_div_pow2, Z.ones_equiv by lia.
    rewrite <- !Z.sub_1_r. assert (s = 0 \/ s = 1 \/ s = 2 \/ s = 3 \/ s = 4 \/ s = 5 \/ s = 6 \/ s = 7) as Hc by lia.
    repeat (destruct Hc as [-> |Hc]; [reflexivity|]). subst s. reflexivity. }
  rewrite E, Z.land_ones, bz_zb by lia. apply Z.mod_small. pose proof (Z.mod_pos_bound (bz c) (2 ^ (8 - s)) ltac:(apply Z.pow_pos_nonneg; lia)).
  assert (2 ^ (8 - s) <= 2 ^ 8) by (apply Z.pow_le_mono_r; lia). change (2 ^ 8) with 256 in *. lia.
Qed.
Lemma low_bits_idem s c : 0 <= s <= 7 -> low_bits s (low_bits s c) = low_bits s c.
Proof.
  intros Hs. apply bz_inj. rewrite (low_bits_val s (low_bits s c)), low_bits_val by done. apply Z.mod_mod.
  apply Z.pow_nonzero; lia.
Qed.
Lemma low_bits_xor s a b : 0 <= s <= 7 -> low_bits s (bxor (low_bits s (bxor a b)) b) = low_bits s a.
Proof.
  intros Hs. apply bz_inj. rewrite !low_bits_val, !bxor_val, low_bits_val, bxor_val by done.
  rewrite <- !Z.land_ones by lia. apply Z.bits_inj'. intros i Hi.
  rewrite !Z.land_spec, Z.lxor_spec, Z.land_spec, Z.lxor_spec. destruct (Z.testbit (Z.ones (8 - s)) i); [|by rewrite !andb_false_r].
  rewrite !andb_true_r. by destruct (Z.testbit (bz a) i), (Z.testbit (bz b) i).
Qed.
Lemma low_bits_one s : 0 <= s <= 7 -> low_bits s x01 = x01.
Proof.
  intros Hs. apply bz_inj. rewrite low_bits_val by done. change (bz x01) with 1. apply Z.mod_small. split; [lia|].
  apply Z.pow_gt_1; lia.
Qed.
Lemma mask_first_length s b : length (mask_first s b) = length b.
Proof. by destruct b. Qed.
Lemma mask_first_idem s b : 0 <= s <= 7 -> mask_first s (mask_first s b) = mask_first s b.
Proof. intros Hs. destruct b as [|c b]; [done|]. cbn [mask_first]. by rewrite low_bits_idem. Qed.
Lemma mask_first_xor s b m : 0 <= s <= 7 -> mask_first s (xor (mask_first s (xor b m)) m) = mask_first s b.
Proof.
  intros Hs. destruct b as [|c b]; [by destruct m|]. destruct m as [|x m].
  - cbn [xor mask_first]. by rewrite low_bits_idem.
  - cbn [xor mask_first]. by rewrite low_bits_xor, xor_twice.
Qed.
Lemma mask_first_small s b : 0 <= s <= 7 -> (0 < length b)%nat -> unbe (mask_first s b) < 2 ^ (8 * Z.of_nat (length b) - s).
Proof.
  intros Hs Hl. destruct b as [|c b]; [cbn in Hl; lia|]. cbn [mask_first length]. rewrite unbe_cons, low_bits_val by done.
  pose proof (unbe_range b) as Hb. pose proof (Z.mod_pos_bound (bz c) (2 ^ (8 - s)) ltac:(apply Z.pow_pos_nonneg; lia)) as Hc.
  replace (8 * Z.of_nat (S (length b)) - s) with ((8 - s) + 8 * Z.of_nat (length b)) by lia. rewrite Z.pow_add_r by lia.
  rewrite <- pow2_256. nia.
Qed.
Lemma unbe_app a b : unbe (a ++ b) = unbe a * 256 ^ Z.of_nat (length b) + unbe b.
Proof.
  induction b as [|x b IH] using rev_ind; [rewrite app_nil_r; cbn; change (unbe []) with 0; lia|].
  rewrite app_assoc, !unbe_snoc, IH, app_length. cbn [length]. rewrite Nat.add_1_r, pow256_S. ring.
Qed.

Lemma pss_verify_encode digest bits salt : length digest = 32%nat -> 0 < bits -> Z.of_nat (length salt) = (bits + 7) / 8 - 34 ->
  exists em, pss_encode H digest bits salt = Some em /\ Z.of_nat (length em) = (bits + 7) / 8 /\ unbe em < 2 ^ bits /\
             pss_verify H digest em bits = true.
Proof.
  intros Hdg Hbits Hsalt. unfold pss_encode. cbv zeta.
  assert (Hd : bits + 7 = 8 * ((bits + 7) / 8) + (bits + 7) mod 8) by (apply Z.div_mod; lia).
  pose proof (Z.mod_pos_bound (bits + 7) 8 ltac:(lia)) as Hm. set (el := (bits + 7) / 8) in *. set (s := 8 * el - bits).
  assert (Hs : 0 <= s <= 7) by (unfold s; lia). clear Hd Hm.
  rewrite (bool_decide_eq_true_2 _ Hdg). cbn [negb].
  destruct (Z.ltb_spec el (32 + Z.of_nat (length salt) + 2)); [lia|].
  replace (Z.to_nat (el - Z.of_nat (length salt) - 34)) with 0%nat by lia. cbn [repeat]. rewrite app_nil_l.
  set (h := H (repeat x00 8 ++ digest ++ salt)). assert (Hh : length h = 32%nat) by apply HH.
  set (db := [x01] ++ salt). set (mdb := mask_first s (mgf1_xor H db h)).
  assert (Hdb : length db = S (length salt)) by done.
  assert (Hmdb : length mdb = S (length salt)) by (unfold mdb; rewrite mask_first_length, mgf1_xor_length; done).
  exists (mdb ++ h ++ [xbc]). split; [done|].
  assert (Hlen : length (mdb ++ h ++ [xbc]) = (length salt + 34)%nat) by (rewrite !app_length, Hmdb, Hh; cbn; lia).
  split; [rewrite Hlen; lia|]. split.
  - rewrite unbe_app. pose proof (unbe_range (h ++ [xbc])) as Hr. rewrite app_length, Hh in *. cbn [length] in *.
    pose proof (mask_first_small s (mgf1_xor H db h) Hs ltac:(rewrite mgf1_xor_length, Hdb; lia)) as Hsm. fold mdb in Hsm.
    rewrite mgf1_xor_length, Hdb in Hsm.
    replace bits with ((8 * Z.of_nat (S (length salt)) - s) + 8 * Z.of_nat (32 + 1)) by (unfold s; lia).
    rewrite Z.pow_add_r, <- pow2_256 by (unfold s; lia). pose proof (pow256_pos (32 + 1)). nia.
  - unfold pss_verify. cbv zeta. fold el. fold s. rewrite Hlen.
    rewrite (bool_decide_eq_true_2 _ Hdg). cbn [negb].
    destruct (Z.eqb_spec el (Z.of_nat (length salt + 34))); [|lia]. cbn [negb]. destruct (Z.ltb_spec el 34); [lia|].
    replace (length salt + 34 - 33)%nat with (length mdb) by lia. rewrite take_app, drop_app.
    replace (length salt + 34 - 1)%nat with (length (mdb ++ h)) by (rewrite app_length; lia).
    rewrite (app_assoc mdb h), drop_app, bool_decide_eq_true_2 by done. cbn [negb].
    rewrite take_app_alt by done. assert (Ei : mask_first s mdb = mdb) by (apply mask_first_idem; done).
    rewrite (bool_decide_eq_true_2 _ Ei). cbn [negb].
    assert (E : mask_first s (mgf1_xor H mdb h) = db).
    { unfold mgf1_xor at 1. rewrite Hmdb. unfold mdb, mgf1_xor. rewrite Hdb, mask_first_xor by done. unfold db.
      cbn [app mask_first]. by rewrite low_bits_one. }
    rewrite E. unfold db at 1. cbn [app index_one]. change (bz x01 =? 1) with true. cbv iota.
    cbn [take forallb andb]. unfold db. cbn [app drop]. by apply bool_decide_eq_true_2.
Qed.
Lemma pss_round_trip k p q draws digest r : rsa_good k p q -> is_Some (blind (rk_n k) draws) ->
  length digest = 32%nat -> 2 ^ 265 <= rk_n k ->
  exists sig, sign_pss H k draws digest r = Some sig /\ verify_pss H (public_of k) digest sig = true.
Proof.
  intros Hg Hb Hdg Hbig. pose proof (good_pos k p q Hg) as Hn. destruct (size_spec (rk_n k) ltac:(lia)) as (Hs1 & Hs2 & Hs3).
  unfold sign_pss, verify_pss. cbv zeta. cbn [public_of rp_n]. fold (public_of k).
  assert (Hbl : bit_len (rk_n k) - 1 = Z.log2 (rk_n k)) by (unfold bit_len; destruct (Z.leb_spec (rk_n k) 0); lia).
  rewrite Hbl. assert (HL : 265 <= Z.log2 (rk_n k)) by (apply Z.log2_le_pow2; [lia|exact Hbig]).
  pose proof (Z.log2_spec (rk_n k) ltac:(lia)) as [HL2 _]. set (L := Z.log2 (rk_n k)) in *.
  assert (Hel : 34 <= (L + 7) / 8) by (apply Z.div_le_lower_bound; lia).
  destruct (Z.ltb_spec ((L + 7) / 8 - 34) 0); [lia|].
  destruct (pss_verify_encode digest L (draw (Z.to_nat ((L + 7) / 8 - 34)) r)) as (em & Eenc & Hlen & Hem & Hver);
    [done|lia|rewrite draw_length; lia|]. rewrite Eenc.
  pose proof (unbe_range em) as Hem0.
  destruct (checked_spec k p q draws (unbe em) Hg Hb ltac:(lia)) as [Hck Henc]. rewrite Hck.
  set (sg := unbe em ^ rk_d k mod rk_n k) in *. assert (Hsg : 0 <= sg < rk_n k) by (apply Z.mod_pos_bound; lia).
  exists (be (Z.to_nat (rsa_size (rk_n k))) sg). split; [done|]. rewrite be_length, Z2Nat.id, Z.eqb_refl by lia. cbn [negb].
  rewrite unbe_be_small by (rewrite Z2Nat.id by lia; lia). rewrite Henc.
  replace (Z.to_nat ((L + 7) / 8)) with (length em) by lia. rewrite be_unbe, Hver.
  destruct (Z.ltb_spec ((L + 7) / 8 * 8) (bit_len (unbe em))) as [Hlt|]; [|done]. exfalso.
  assert (Hd : L + 7 = 8 * ((L + 7) / 8) + (L + 7) mod 8) by (apply Z.div_mod; lia).
  pose proof (Z.mod_pos_bound (L + 7) 8 ltac:(lia)) as Hm.
  unfold bit_len in Hlt. destruct (Z.leb_spec (unbe em) 0); [lia|]. assert (Z.log2 (unbe em) < L) by (apply Z.log2_lt_pow2; lia). lia.
Qed.
(** a signature is for one digest *)
Lemma verify_binds pub d1 d2 sig : verify_pss H pub d1 sig = true -> verify_pss H pub d2 sig = true ->
  d1 = d2 \/ exists salt, collide H (pss_input d1 salt) (pss_input d2 salt).
Proof.
  unfold verify_pss. destruct (negb _); [discriminate|]. cbv zeta. destruct (_ <? _); [discriminate|].
  unfold pss_verify. cbv zeta. destruct (negb (_ =? _)); [discriminate|].
  destruct (negb (bool_decide (length d1 = _))) eqn:E1; [discriminate|]. destruct (negb (bool_decide (length d2 = _))) eqn:E2; [discriminate|].
  apply negb_false_iff, bool_decide_eq_true in E1, E2.
  destruct (_ <? 34); [discriminate|]. destruct (negb _); [discriminate|]. destruct (negb _); [discriminate|].
  destruct (index_one _) as [ps|]; [|discriminate]. rewrite !andb_true_iff, !bool_decide_eq_true. intros [_ H1] [_ H2].
  destruct (decide (d1 = d2)) as [|Hne]; [by left|right]. eexists. split; [|unfold pss_input; by etransitivity; [exact H1|symmetry; exact H2]].
  intros E. unfold pss_input in E. apply app_inv_head in E. apply list.app_inj_1 in E as [E _]; [done|congruence].
Qed.
End Hash.

(** ** Keys as text, and as the cosigners use them *)
Lemma good_validate k p q : rsa_good k p q -> rsa_validate k = true.
Proof.
  intros (Hp & Hq & _ & Hpr & Hn & He & _ & Ep & Eq). apply validate_spec. rewrite Hpr, Hn.
  pose proof (prime_ge_2 p Hp). pose proof (prime_ge_2 q Hq).
  split; [done|]. split; [repeat constructor; lia|]. split; [cbn [fold_right]; lia|]. by repeat constructor.
Qed.
Lemma blind_one n : 1 < n -> is_Some (blind n [1]).
Proof.
  intros Hn. cbn [blind]. change (1 =? 0) with false. cbv iota zeta.
  destruct (mod_inverse_complete 1 n Hn (Z.gcd_1_r n)) as [i ->]. eauto.
Qed.
Lemma pair_holds C H text R k p q : rsa_good k p q -> hash32 H -> (forall b, rd_is_scalar R b -> length b = 32%nat) ->
  2 ^ 776 <= rk_n k -> Z.of_nat (length (sk_text k)) < 2 ^ 31 -> Z.of_nat (length (pk_text (public_of k))) < 2 ^ 31 ->
  rsa_pair (with_rsa C H text) R (sk_text k) (pk_text (public_of k)).
Proof.
  intros Hg HH Hsc Hbig Hl1 Hl2. pose proof (good_pos k p q Hg) as Hn. pose proof Hg as (_ & _ & _ & Hpr & _ & He & Hd & _).
  pose proof (sk_round_trip k p q Hpr (good_validate k p q Hg) Hd Hl1) as Esk.
  assert (Epk : pk_parse (pk_text (public_of k)) = Some (public_of k)) by (apply pk_round_trip; cbn [public_of rp_n rp_e]; [lia|lia|done]).
  pose proof (blind_one (rk_n k) ltac:(lia)) as Hb. constructor.
  - intros m r Hm. cbn [with_rsa cr_encrypt cr_decrypt]. rewrite Esk, Epk.
    destruct (oaep_round_trip H HH k p q [1] m r Hg Hb) as [[Hs _]|(_ & c & E1 & _ & E2)]; [exfalso|eauto].
    rewrite (Hsc m Hm) in Hs. assert (98 <= rsa_size (rk_n k)); [|lia].
    unfold rsa_size, bit_len. destruct (Z.leb_spec (rk_n k) 0); [lia|]. apply Z.div_le_lower_bound; [lia|].
    assert (776 <= Z.log2 (rk_n k)) by (apply Z.log2_le_pow2; [lia|exact Hbig]). lia.
  - intros pl r. cbn [with_rsa cr_rsa_sign cr_rsa_verify]. rewrite Esk, Epk.
    apply (pss_round_trip H HH k p q [1]); [done|done|apply HH|]. etransitivity; [|exact Hbig]. apply Z.pow_le_mono_r; lia.
Qed.
Lemma scheme_kept C H text R : threshold_scheme C R -> threshold_scheme (with_rsa C H text) R.
Proof. intros [? ? ? ? ? ? ? ? ? ? ? ?]. constructor; assumption. Qed.

(** ** Keys that create-shares makes *)
Lemma pow_ge8 x : 3 <= x -> 8 <= 2 ^ x.
Proof. intros H. change 8 with (2 ^ 3). apply Z.pow_le_mono_r; lia. Qed.
Lemma generated_good bits k p q : usual_size bits -> generated bits k p q -> rsa_good k p q.
Proof.
  intros Hbits (Hp & Hq & Hne & Hpb & Hqb & _ & Hpr & Hn & He & Hd & E). unfold usual_size in Hbits.
  assert (H8 : 8 <= 2 ^ (bits / 2 - 1)) by (apply pow_ge8; assert (4 <= bits / 2) by (apply Z.div_le_lower_bound; lia); lia).
  assert (Hp8 : 8 <= p) by lia. assert (Hq8 : 8 <= q) by lia. clear Hpb Hqb H8.
  assert (Hd0 : 0 < rk_d k).
  { destruct (Z.eq_dec (rk_d k) 0) as [E0|]; [|lia]. rewrite E0, Z.mul_0_r, Z.mod_0_l in E by nia. lia. }
  assert (Hw : exists w, 65537 * rk_d k = 1 + w * ((p - 1) * (q - 1))).
  { exists (65537 * rk_d k / ((p - 1) * (q - 1))). pose proof (Z.div_mod (65537 * rk_d k) ((p - 1) * (q - 1)) ltac:(nia)). lia. }
  destruct Hw as [w Hw]. unfold rsa_good. rewrite He, Hw.
  do 5 (split; [done|]). split; [lia|]. split; [done|]. split.
  - replace (1 + w * ((p - 1) * (q - 1))) with (1 + (w * (q - 1)) * (p - 1)) by ring. rewrite Z.mod_add, Z.mod_small by lia. done.
  - rewrite Z.mul_assoc, Z.mod_add, Z.mod_small by lia. done.
Qed.
Lemma tlv_short t c : Z.of_nat (length c) < 2 ^ 31 -> (length (tlv t c) <= length c + 6)%nat.
Proof.
  intros Hc. unfold tlv. cbn [length]. rewrite app_length. assert (length (der_length (Z.of_nat (length c))) <= 5)%nat; [|lia].
  unfold der_length. destruct (Z.ltb_spec (Z.of_nat (length c)) 128); [cbn; lia|]. cbv zeta. cbn [length]. rewrite be_length.
  assert (Z.log2 (Z.of_nat (length c)) < 31) by (apply Z.log2_lt_pow2; lia).
  assert (Z.log2 (Z.of_nat (length c)) / 8 < 4) by (apply Z.div_lt_upper_bound; lia). lia.
Qed.
Lemma int_tlv_short bits z : 0 < bits <= 2 ^ 20 -> 0 <= z < 2 ^ bits -> Z.of_nat (length (int_tlv z)) <= 131079.
Proof.
  change (2 ^ 20) with 1048576. intros Hb Hz. assert (Hl : Z.of_nat (length (int_content z)) <= 131073).
  { unfold int_content. rewrite be_length. assert (Z.log2 z < bits).
    { destruct (Z.eq_dec z 0) as [-> |]; [change (Z.log2 0) with 0; lia|]. apply Z.log2_lt_pow2; lia. }
    assert ((Z.log2 z + 1) / 8 < 131073) by (apply Z.div_lt_upper_bound; lia). lia. }
  unfold int_tlv. pose proof (tlv_short 2 (int_content z) ltac:(change (2 ^ 31) with 2147483648; lia)). lia.
Qed.
Lemma generated_short bits k p q : usual_size bits -> generated bits k p q ->
  Z.of_nat (length (sk_text k)) < 2 ^ 31 /\ Z.of_nat (length (pk_text (public_of k))) < 2 ^ 31.
Proof.
  intros Hbits (Hp & Hq & Hne & Hpb & Hqb & Hnb & Hpr & Hn & He & Hd & E). unfold usual_size in Hbits.
  assert (Hh : 4 <= bits / 2 <= bits) by (split; [apply Z.div_le_lower_bound; lia|apply Z.div_le_upper_bound; lia]).
  assert (H8 : 8 <= 2 ^ (bits / 2 - 1)) by (apply pow_ge8; lia).
  assert (H9 : 2 ^ (bits / 2) <= 2 ^ bits) by (apply Z.pow_le_mono_r; lia).
  assert (H10 : 2 ^ 31 <= 2 ^ bits) by (apply Z.pow_le_mono_r; lia). change (2 ^ 31) with 2147483648 in *.
  pose proof (fun z => int_tlv_short bits z ltac:(lia)) as HS.
  set (B := 2 ^ bits) in *. set (B1 := 2 ^ (bits / 2)) in *. set (B0 := 2 ^ (bits / 2 - 1)) in *. set (B2 := 2 ^ (bits - 1)) in *. clearbody B B0 B1 B2.
  assert (Hdb : rk_d k < B).
  { assert ((p - 1) * (q - 1) <= p * q) by (clear -H8 Hpb Hqb; nia). lia. }
  assert (Hdb0 : 0 <= rk_d k) by lia. assert (Hpq : 0 <= p * q) by (clear -H8 Hpb Hqb; nia). clear E Hd Hh Hbits.
  pose proof (HS 0 ltac:(lia)) as T0.
  pose proof (HS (rk_n k) ltac:(lia)) as T1.
  pose proof (HS (rk_e k) ltac:(lia)) as T2.
  pose proof (HS (rk_d k) ltac:(lia)) as T3.
  pose proof (HS p ltac:(lia)) as T4.
  pose proof (HS q ltac:(lia)) as T5.
  pose proof (Z.mod_pos_bound (rk_d k) (p - 1) ltac:(lia)) as M1. pose proof (Z.mod_pos_bound (rk_d k) (q - 1) ltac:(lia)) as M2.
  pose proof (HS (rk_d k mod (p - 1)) ltac:(lia)) as T6.
  pose proof (HS (rk_d k mod (q - 1)) ltac:(lia)) as T7.
  assert (T8 : Z.of_nat (length (match mod_inverse q p with Some i => int_tlv i | None => [] end)) <= 131079).
  { destruct (mod_inverse q p) as [i|] eqn:Ei; [|cbn; lia]. apply mod_inverse_sound in Ei as [Hi _]; [|lia]. apply HS. lia. }
  clear HS M1 M2 Hpb Hqb Hnb. split.
  - unfold sk_text. rewrite Hpr. assert (Hc : Z.of_nat (length (sk_content k p q)) <= 1179711) by (unfold sk_content; rewrite !app_length; lia).
    pose proof (tlv_short 48 (sk_content k p q) ltac:(change (2 ^ 31) with 2147483648; lia)). lia.
  - unfold pk_text. cbn [public_of rp_n rp_e].
    assert (Hc : Z.of_nat (length (int_tlv (rk_n k) ++ int_tlv (rk_e k))) <= 262158) by (rewrite app_length; lia).
    pose proof (tlv_short 48 (int_tlv (rk_n k) ++ int_tlv (rk_e k)) ltac:(change (2 ^ 31) with 2147483648; lia)). lia.
Qed.
Lemma generated_pair C H text R bits k p q : usual_size bits -> generated bits k p q -> hash32 H ->
  (forall b, rd_is_scalar R b -> length b = 32%nat) ->
  rsa_pair (with_rsa C H text) R (sk_text k) (pk_text (public_of k)).
Proof.
  intros Hbits Hg HH Hsc. destruct (generated_short bits k p q Hbits Hg) as [H1 H2]. apply (pair_holds C H text R k p q); try done.
  - by apply (generated_good bits).
  - destruct Hg as (_ & _ & _ & _ & _ & Hb & _ & -> & _). etransitivity; [|apply Hb]. unfold usual_size in Hbits. apply Z.pow_le_mono_r; lia.
Qed.
(** the file of a cosigner with such keys is read back *)
Lemma file_round_trip amino bits k : usual_size bits -> (exists p q, generated bits (ck_rsa k) p q) ->
  Forall (fun pub => exists k' p q, generated bits k' p q /\ pub = public_of k') (ck_rsas k) -> key_ok k ->
  exists t, marshal_key (rsa_lib amino) k = Some t /\ load_key (rsa_lib amino) (Some t) = Val k.
Proof.
  intros Hbits (p & q & Hg) Hps Hok. apply key_round_trip_at; [| |done]; cbn [rsa_lib kl_parse_sk kl_text_sk kl_parse_pk kl_text_pk].
  - destruct (generated_short bits _ p q Hbits Hg) as [H1 _]. apply generated_good in Hg; [|done]. pose proof Hg as (_ & _ & _ & Hpr & _ & _ & Hd & _).
    by apply (sk_round_trip _ p q); [|apply (good_validate _ p q)| |].
  - eapply list.Forall_impl; [exact Hps|]. intros pub (k' & p' & q' & Hg' & ->). destruct (generated_short bits _ _ _ Hbits Hg') as [_ H2].
    apply generated_good in Hg'; [|done]. pose proof (good_pos _ _ _ Hg'). destruct Hg' as (_ & _ & _ & _ & _ & He & _).
    apply pk_round_trip; cbn [public_of rp_n rp_e]; [lia|lia|done].
Qed.
(** ** Files *)
Lemma file_loaded amino f k : load_key (rsa_lib amino) f = Val k ->
  (2 <= rk_e (ck_rsa k) <= 2 ^ 31 - 1 /\ 0 < rk_d (ck_rsa k) /\ (2 <= length (rk_primes (ck_rsa k)))%nat /\
   Forall (fun p => 1 < p /\ (rk_e (ck_rsa k) * rk_d (ck_rsa k)) mod (p - 1) = 1) (rk_primes (ck_rsa k)) /\
   fold_right Z.mul 1 (rk_primes (ck_rsa k)) = rk_n (ck_rsa k)) /\
  Forall (fun pub => 0 < rp_n pub /\ 0 < rp_e pub <= 2 ^ 31 - 1) (ck_rsas k).
Proof.
  intros E. apply KeyFileProofs.load_range in E as (_ & _ & [b Hb] & Hps). split.
  - cbn [rsa_lib kl_parse_sk] in Hb. apply sk_parsed in Hb as (Hv & _ & Hd & Hl). apply validate_spec in Hv as (He & Hp & Hn & Hed).
    split; [exact He|]. split; [done|]. split; [done|]. split; [|done].
    rewrite list.Forall_forall in *. auto.
  - eapply list.Forall_impl; [exact Hps|]. intros pub [b' Hb']. by apply pk_parsed in Hb'.
Qed.

(** ** The text that is signed *)
Definition slice_json (b : bytes) : json := match b with [] => JNull | _ => JStr (b64_enc b) end.
Lemma renders_slice b : renders (slice_text b) (slice_json b).
Proof. destruct b as [|c b]; [apply renders_null|]. apply renders_quote, b64_safe. Qed.
Lemma parse_part p : parse_json (part_text p) = Some (JObj
  [(lit "SourceID", JStr (print_int (pl_source p))); (lit "DestinationID", JStr (print_int 0));
   (lit "SourceEphemeralSecretPublicKey", slice_json (pl_eph p)); (lit "EncryptedSharePart", slice_json (pl_enc p));
   (lit "SourceSig", JNull)]).
Proof.
  apply parse_object_compact; [done|].
  repeat constructor; try (apply scannable_safe, safe_lit; reflexivity); try apply renders_slice; try apply renders_null;
    apply renders_quote, print_int_safe.
Qed.
Lemma b64_inj a b : b64_enc a = b64_enc b -> a = b.
Proof. intros E. pose proof (b64_roundtrip a) as H. rewrite E, b64_roundtrip in H. congruence. Qed.
Lemma slice_inj a b : slice_json a = slice_json b -> a = b.
Proof. destruct a, b; try discriminate; [done|]. intros [= E]. by apply b64_inj. Qed.
Lemma part_text_inj p1 p2 : part_text p1 = part_text p2 -> p1 = p2.
Proof.
  intros E. pose proof (parse_part p1) as H. rewrite E, parse_part in H. injection H as H1 H2 H3.
  destruct p1 as [s1 e1 c1], p2 as [s2 e2 c2]. cbn [pl_source pl_eph pl_enc] in *.
  apply slice_inj in H2 as ->. apply slice_inj in H3 as ->.
  pose proof (parse_print_int s1) as P1. rewrite <- H1, parse_print_int in P1. congruence.
Qed.
Lemma signature_binds C H pk p1 p2 sig :
  cr_rsa_verify (with_rsa C H part_text) pk p1 sig = true -> cr_rsa_verify (with_rsa C H part_text) pk p2 sig = true ->
  p1 = p2 \/ collide H (part_text p1) (part_text p2) \/
  exists salt, collide H (pss_input (H (part_text p1)) salt) (pss_input (H (part_text p2)) salt).
Proof.
  cbn [with_rsa cr_rsa_verify]. destruct (pk_parse pk) as [k|]; [|discriminate]. intros H1 H2.
  destruct (verify_binds H k _ _ sig H1 H2) as [E|Hs]; [|by right; right].
  destruct (decide (part_text p1 = part_text p2)) as [Et|Et]; [left; by apply part_text_inj|right; left; by split].
Qed.
