(** RSA keys as text: proofs. *)
From Verif Require Import GoBase KeyFile Pkcs1.
Local Open Scope Z_scope.

(** ** numbers *)
Lemma be_length k : forall z, length (be k z) = k.
Proof. induction k as [|k IH]; intros z; [done|]. cbn [be]. rewrite app_length, IH. cbn. lia. Qed.
Lemma unbe_snoc b c : unbe (b ++ [c]) = unbe b * 256 + bz c.
Proof. unfold unbe. by rewrite fold_left_app. Qed.
Lemma pow256_S k : 256 ^ Z.of_nat (S k) = 256 ^ Z.of_nat k * 256.
Proof. rewrite Nat2Z.inj_succ, Z.pow_succ_r by lia. lia. Qed.
Lemma pow256_pos k : 0 < 256 ^ Z.of_nat k.
Proof. apply Z.pow_pos_nonneg; lia. Qed.
Lemma unbe_be k : forall z, unbe (be k z) = z mod 256 ^ Z.of_nat k.
Proof.
  induction k as [|k IH]; intros z; [by rewrite Z.mod_1_r|]. cbn [be]. rewrite unbe_snoc, IH, bz_zb, pow256_S.
  rewrite (Z.mul_comm (256 ^ Z.of_nat k) 256), Z.rem_mul_r by (pose proof (pow256_pos k); lia). lia.
Qed.
Lemma be_head k : forall z, be (S k) z = zb (z / 256 ^ Z.of_nat k) :: be k z.
Proof.
  induction k as [|k IH]; intros z; [cbn; by rewrite Z.div_1_r|].
  change (be (S (S k)) z) with (be (S k) (z / 256) ++ [zb z]). rewrite IH.
  change (be (S k) z) with (be k (z / 256) ++ [zb z]). cbn [app]. f_equal. f_equal.
  rewrite pow256_S, Z.div_div by (pose proof (pow256_pos k); lia). f_equal. lia.
Qed.

Lemma pow2_256 k : 256 ^ Z.of_nat k = 2 ^ (8 * Z.of_nat k).
Proof. rewrite Z.pow_mul_r by lia. done. Qed.
Lemma div_pow2_between z a k : 0 <= a -> 0 <= k -> 2 ^ (a + k) <= z -> 2 ^ a <= z / 2 ^ k.
Proof.
  intros Ha Hk H. apply Z.div_le_lower_bound; [apply Z.pow_pos_nonneg; lia|]. rewrite <- Z.pow_add_r by lia. by rewrite Z.add_comm.
Qed.

Lemma div_zero_next z i : 0 <= z -> z / 2 ^ (8 * Z.of_nat (S i)) = 0 -> z / 2 ^ (8 * Z.of_nat i) < 256.
Proof.
  intros Hz E. apply Z.div_small_iff in E; [|apply Z.pow_nonzero; lia]. destruct E as [E|E]; [|lia].
  apply Z.div_lt_upper_bound; [apply Z.pow_pos_nonneg; lia|]. replace (8 * Z.of_nat (S i)) with (8 * Z.of_nat i + 8) in E by lia.
  rewrite Z.pow_add_r in E by lia. lia.
Qed.
Lemma int_content_ok z : 0 <= z -> parse_big (int_content z) = Some z /\ int_content z <> [].
Proof.
  intros Hz. unfold int_content. set (L := Z.log2 z). assert (HL : 0 <= L) by apply Z.log2_nonneg.
  assert (Hq : 0 <= (L + 1) / 8) by (apply Z.div_pos; lia).
  assert (Hdm : L + 1 = 8 * ((L + 1) / 8) + (L + 1) mod 8) by (apply Z.div_mod; lia).
  assert (Hm : 0 <= (L + 1) mod 8 < 8) by (apply Z.mod_pos_bound; lia).
  set (q := (L + 1) / 8) in *. set (j := Z.to_nat q).
  assert (Ej : Z.of_nat j = q) by lia. replace (Z.to_nat (q + 1)) with (S j) by lia.
  assert (Hub : z < 2 ^ (8 * q + 7)).
  { destruct (Z.eq_dec z 0) as [-> |Hnz]; [apply Z.pow_pos_nonneg; lia|].
    pose proof (Z.log2_spec z ltac:(lia)) as [_ Hs]. fold L in Hs. eapply Z.lt_le_trans; [exact Hs|]. apply Z.pow_le_mono_r; lia. }
  assert (Hb0 : bz (zb (z / 256 ^ Z.of_nat j)) < 128 /\ bz (zb (z / 256 ^ Z.of_nat j)) = z / 256 ^ Z.of_nat j).
  { rewrite bz_zb, pow2_256, Ej. assert (z / 2 ^ (8 * q) < 128).
    { apply Z.div_lt_upper_bound; [apply Z.pow_pos_nonneg; lia|]. replace (8 * q + 7) with (8 * q + 7) in Hub by lia.
      rewrite Z.pow_add_r in Hub by lia. lia. }
    assert (0 <= z / 2 ^ (8 * q)) by (apply Z.div_pos; [lia|apply Z.pow_pos_nonneg; lia]). rewrite Z.mod_small by lia. lia. }
  destruct Hb0 as [Hb0 Hb0e].
  rewrite be_head. split; [|discriminate]. unfold parse_big.
  assert (Hc : check_integer (zb (z / 256 ^ Z.of_nat j) :: be j z) = true).
  { destruct j as [|i] eqn:Eij; [done|]. rewrite be_head. cbn [check_integer].
    apply negb_true_iff, orb_false_iff. split; apply andb_false_iff.
    - destruct (Z.eqb_spec (bz (zb (z / 256 ^ Z.of_nat (S i)))) 0) as [E0|]; [right|by left].
      apply Z.ltb_ge. rewrite bz_zb. rewrite Hb0e in E0. rewrite pow2_256 in *.
      assert (H1 : 2 ^ (7 + 8 * Z.of_nat i) <= z).
      { destruct (Z.eq_dec z 0) as [-> |Hnz]; [subst L q; cbn in Ej; change (Z.log2 0 + 1) with 1 in Ej; change (1 / 8) with 0 in Ej; lia|].
        pose proof (Z.log2_spec z ltac:(lia)) as [Hs _]. fold L in Hs. etransitivity; [|exact Hs]. apply Z.pow_le_mono_r; lia. }
      pose proof (div_pow2_between z 7 (8 * Z.of_nat i) ltac:(lia) ltac:(lia) H1) as H2. change (2 ^ 7) with 128 in H2.
      assert (H3 : z / 2 ^ (8 * Z.of_nat i) < 256).
      { eapply div_zero_next; [exact Hz|exact E0]. }
      rewrite Z.mod_small by lia. lia.
    - left. apply Z.eqb_neq. lia. }
  rewrite Hc. destruct (Z.leb_spec 128 (bz (zb (z / 256 ^ Z.of_nat j)))); [lia|]. f_equal.
  rewrite <- be_head, unbe_be. apply Z.mod_small. split; [done|]. rewrite pow2_256. eapply Z.lt_le_trans; [exact Hub|].
  apply Z.pow_le_mono_r; lia.
Qed.
Lemma int_content_short z : 0 <= z < 2 ^ 63 -> (length (int_content z) <= 8)%nat.
Proof.
  intros Hz. unfold int_content. rewrite be_length. destruct (Z.eq_dec z 0) as [-> |Hnz]; [cbn; lia|].
  assert (Z.log2 z < 63) by (apply Z.log2_lt_pow2; lia). assert ((Z.log2 z + 1) / 8 < 8) by (apply Z.div_lt_upper_bound; lia). lia.
Qed.

(** ** elements *)
Lemma long_ok k : forall m n r, 0 <= m -> m * 256 ^ Z.of_nat k + n mod 256 ^ Z.of_nat k < 2 ^ 31 ->
  0 < m \/ (exists j, k = S j /\ 0 < n / 256 ^ Z.of_nat j mod 256) \/ k = O ->
  long_length k m (be k n ++ r) = Some (m * 256 ^ Z.of_nat k + n mod 256 ^ Z.of_nat k, r).
Proof.
  induction k as [|k IH]; intros m n r Hm Hb Hp.
  - cbn. rewrite Z.mod_1_r. f_equal. f_equal. lia.
  - rewrite be_head. cbn [app long_length]. rewrite bz_zb.
    assert (Hn : n mod 256 ^ Z.of_nat (S k) = n / 256 ^ Z.of_nat k mod 256 * 256 ^ Z.of_nat k + n mod 256 ^ Z.of_nat k).
    { rewrite pow256_S, Z.rem_mul_r by (pose proof (pow256_pos k); lia). lia. }
    pose proof (pow256_pos k) as Hpk. pose proof (Z.mod_pos_bound n (256 ^ Z.of_nat k) Hpk) as Hmb.
    pose proof (Z.mod_pos_bound (n / 256 ^ Z.of_nat k) 256 ltac:(lia)) as Hcb.
    rewrite Hn, pow256_S in Hb. rewrite Hn, pow256_S. change (2 ^ 31) with 2147483648 in *. change (2 ^ 23) with 8388608.
    destruct (Z.leb_spec 8388608 m) as [Hbig|Hsm]; [exfalso; nia|]. cbv zeta.
    set (c := n / 256 ^ Z.of_nat k mod 256) in *.
    assert (Hpos : 0 < m * 256 + c).
    { destruct Hp as [Hp|[(j & E & Hp)|Hp]]; [lia| |discriminate]. injection E as <-. lia. }
    destruct (Z.eqb_spec (m * 256 + c) 0); [lia|].
    rewrite IH; [f_equal; f_equal; ring|lia| |by left].
    replace ((m * 256 + c) * 256 ^ Z.of_nat k + n mod 256 ^ Z.of_nat k) with (m * (256 ^ Z.of_nat k * 256) + (c * 256 ^ Z.of_nat k + n mod 256 ^ Z.of_nat k)) by ring. done.
Qed.
Lemma length_ok n r : 0 <= n < 2 ^ 31 -> parse_length (der_length n ++ r) = Some (n, r).
Proof.
  intros Hn. unfold der_length. destruct (Z.ltb_spec n 128) as [Hs|Hl].
  - cbn [app parse_length]. rewrite bz_zb, Z.mod_small by lia. destruct (Z.ltb_spec n 128); [done|lia].
  - cbv zeta. set (L := Z.log2 n). assert (HL : 7 <= L < 31).
    { split; [apply Z.log2_le_pow2; lia|apply Z.log2_lt_pow2; lia]. }
    set (q := L / 8). assert (Hdm : L = 8 * q + L mod 8) by (apply Z.div_mod; lia). pose proof (Z.mod_pos_bound L 8 ltac:(lia)) as Hm.
    assert (Hq : 0 <= q <= 3) by lia. cbn [app parse_length]. rewrite bz_zb, Z.mod_small by lia.
    destruct (Z.ltb_spec (128 + (q + 1)) 128); [lia|]. destruct (Z.eqb_spec (128 + (q + 1)) 128); [lia|].
    replace (128 + (q + 1) - 128) with (q + 1) by lia.
    replace (Z.to_nat (q + 1)) with (S (Z.to_nat q)) by lia. set (j := Z.to_nat q). assert (Ej : Z.of_nat j = q) by lia.
    pose proof (Z.log2_spec n ltac:(lia)) as [Hlo Hhi]. fold L in Hlo, Hhi.
    assert (Hn2 : n < 256 ^ Z.of_nat (S j)).
    { rewrite pow2_256. eapply Z.lt_le_trans; [exact Hhi|]. apply Z.pow_le_mono_r; lia. }
    assert (Hn1 : 256 ^ Z.of_nat j <= n).
    { rewrite pow2_256. etransitivity; [|exact Hlo]. apply Z.pow_le_mono_r; lia. }
    pose proof (pow256_pos j) as Hpj.
    rewrite long_ok; [|lia|rewrite Z.mod_small by lia; lia|].
    + rewrite Z.mod_small, Z.mul_0_l, Z.add_0_l by lia. destruct (Z.ltb_spec n 128); [lia|reflexivity].
    + right. left. exists j. split; [done|]. rewrite Z.mod_small.
      * apply Z.div_str_pos. lia.
      * split; [apply Z.div_pos; lia|]. apply Z.div_lt_upper_bound; [lia|]. rewrite pow256_S in Hn2. lia.
Qed.
Lemma field_ok tag (co : bool) content r : 0 <= tag < 31 -> Z.of_nat (length content) < 2 ^ 31 ->
  take_field tag co (tlv ((if co then 32 else 0) + tag) content ++ r) = Some (FVal content r).
Proof.
  intros Ht Hl. unfold take_field, tlv. cbn [app]. unfold parse_header.
  assert (E : bz (zb ((if co then 32 else 0) + tag)) = (if co then 32 else 0) + tag) by (rewrite bz_zb, Z.mod_small; [done|destruct co; lia]).
  rewrite E. rewrite <- app_assoc.
  assert (E1 : ((if co then 32 else 0) + tag) mod 32 = tag).
  { destruct co; [replace (32 + tag) with (tag + 1 * 32) by lia; rewrite Z.mod_add by lia|]; apply Z.mod_small; lia. }
  rewrite E1. destruct (Z.eqb_spec tag 31); [lia|]. rewrite length_ok by lia.
  assert (E2 : ((if co then 32 else 0) + tag) / 64 = 0) by (apply Z.div_small; destruct co; lia).
  assert (E3 : Z.odd (((if co then 32 else 0) + tag) / 32) = co).
  { destruct co; [replace (32 + tag) with (tag + 1 * 32) by lia; rewrite Z.div_add, Z.div_small by lia; done|rewrite Z.div_small by lia; done]. }
  rewrite E2, E3, Z.eqb_refl, eqb_reflx. cbn [andb]. rewrite app_length.
  destruct (Z.ltb_spec (Z.of_nat (length content + length r)) (Z.of_nat (length content))); [lia|].
  rewrite Nat2Z.id, take_app, drop_app, Z.eqb_refl. done.
Qed.

Lemma tlv_length t c : (length c < length (tlv t c))%nat.
Proof. unfold tlv. cbn [length]. rewrite app_length. lia. Qed.
Lemma req_big_ok z r : 0 <= z -> Z.of_nat (length (int_tlv z)) < 2 ^ 31 -> req_big (int_tlv z ++ r) = Some (z, r).
Proof.
  intros Hz Hl. unfold req_big, int_tlv. pose proof (tlv_length 2 (int_content z)). unfold int_tlv in Hl.
  rewrite (field_ok 2 false) by lia. by rewrite (proj1 (int_content_ok z Hz)).
Qed.
Lemma opt_big_ok z r : 0 <= z -> Z.of_nat (length (int_tlv z)) < 2 ^ 31 -> opt_big (int_tlv z ++ r) = Some r.
Proof.
  intros Hz Hl. unfold opt_big, int_tlv. pose proof (tlv_length 2 (int_content z)). unfold int_tlv in Hl.
  rewrite (field_ok 2 false) by lia. by rewrite (proj1 (int_content_ok z Hz)).
Qed.
Lemma req_int_ok z r : 0 <= z < 2 ^ 63 -> Z.of_nat (length (int_tlv z)) < 2 ^ 31 -> req_int (int_tlv z ++ r) = Some (z, r).
Proof.
  intros Hz Hl. unfold req_int, int_tlv. pose proof (tlv_length 2 (int_content z)). unfold int_tlv in Hl.
  rewrite (field_ok 2 false) by lia. unfold parse_int.
  rewrite (proj2 (Nat.leb_le _ _) (int_content_short z Hz)). by rewrite (proj1 (int_content_ok z ltac:(lia))).
Qed.

(** ** keys *)
Lemma validate_spec k : rsa_validate k = true <->
  2 <= rk_e k <= 2 ^ 31 - 1 /\ Forall (fun p => 1 < p) (rk_primes k) /\
  fold_right Z.mul 1 (rk_primes k) = rk_n k /\ Forall (fun p => (rk_e k * rk_d k) mod (p - 1) = 1) (rk_primes k).
Proof.
  unfold rsa_validate. rewrite !andb_true_iff, !forallb_forall, !list.Forall_forall, Z.leb_le, Z.leb_le, Z.eqb_eq.
  setoid_rewrite elem_of_list_In. setoid_rewrite Z.ltb_lt. setoid_rewrite Z.eqb_eq. tauto.
Qed.
Lemma sk_round_trip k p q : rk_primes k = [p; q] -> rsa_validate k = true -> 0 < rk_d k ->
  Z.of_nat (length (sk_text k)) < 2 ^ 31 -> sk_parse (sk_text k) = Some k.
Proof.
  intros Hp Hv Hd Hl. pose proof Hv as Hv'. apply validate_spec in Hv' as (He & Hps & Hn & Hed).
  rewrite Hp in Hps, Hn. inversion Hps as [|? ? Hp1 Hps2]; subst. inversion Hps2 as [|? ? Hq1 _]; subst. cbn in Hn. rewrite Z.mul_1_r in Hn.
  assert (Hn0 : 0 < rk_n k) by nia.
  unfold sk_text in *. rewrite Hp in *. unfold sk_parse.
  pose proof (tlv_length 48 (sk_content k p q)) as Ht. rewrite <- (app_nil_r (tlv 48 _)).
  change 48 with ((if true then 32 else 0) + 16). rewrite (field_ok 16 true) by lia.
  assert (Hc : Z.of_nat (length (sk_content k p q)) < 2 ^ 31) by lia. clear Ht Hl.
  unfold sk_content in *. rewrite !app_length in Hc.
  assert (Hdp : 0 <= rk_d k mod (p - 1)) by (apply Z.mod_pos_bound; lia).
  assert (Hdq : 0 <= rk_d k mod (q - 1)) by (apply Z.mod_pos_bound; lia).
  change (2 ^ 31) with 2147483648 in *.
  rewrite req_int_ok by (change (2 ^ 63) with 9223372036854775808; change (2 ^ 31) with 2147483648; lia).
  rewrite req_big_ok by (change (2 ^ 31) with 2147483648; lia).
  rewrite req_int_ok by (change (2 ^ 63) with 9223372036854775808; change (2 ^ 31) with 2147483648; lia).
  rewrite req_big_ok by (change (2 ^ 31) with 2147483648; lia).
  rewrite req_big_ok by (change (2 ^ 31) with 2147483648; lia).
  rewrite req_big_ok by (change (2 ^ 31) with 2147483648; lia).
  rewrite opt_big_ok by (change (2 ^ 31) with 2147483648; lia).
  rewrite opt_big_ok by (change (2 ^ 31) with 2147483648; lia).
  assert (Hend : (if (1 <? 0) || negb (forallb (fun z => 0 <? z) (rk_n k :: rk_d k :: p :: q :: [])) then None
                  else let k' := RsaKey (rk_n k) (rk_e k) (rk_d k) (p :: q :: []) in if rsa_validate k' then Some k' else None) = Some k).
  { assert (Ef : forallb (fun z => 0 <? z) (rk_n k :: rk_d k :: p :: q :: []) = true).
    { cbn [forallb]. rewrite !andb_true_iff, !Z.ltb_lt. repeat split; lia. }
    rewrite Ef. cbv zeta. assert (Ek : RsaKey (rk_n k) (rk_e k) (rk_d k) [p; q] = k) by (destruct k; cbn in *; by rewrite Hp).
    rewrite Ek, Hv. done. }
  destruct (mod_inverse q p) as [i|] eqn:Ei.
  - assert (0 <= i).
    { unfold mod_inverse in Ei. destruct (egcd _ _ _ _ _) as [g x]. destruct (g =? 1); [|discriminate]. injection Ei as <-.
      apply Z.mod_pos_bound. lia. }
    rewrite <- (app_nil_r (int_tlv i)), opt_big_ok by (change (2 ^ 31) with 2147483648; lia). exact Hend.
  - exact Hend.
Qed.
Lemma pk_round_trip k : 0 < rp_n k -> 0 < rp_e k <= 2 ^ 31 - 1 -> Z.of_nat (length (pk_text k)) < 2 ^ 31 ->
  pk_parse (pk_text k) = Some k.
Proof.
  intros Hn He Hl. unfold pk_text in *. unfold pk_parse. set (c := int_tlv (rp_n k) ++ int_tlv (rp_e k)) in *.
  pose proof (tlv_length 48 c) as Ht. rewrite <- (app_nil_r (tlv 48 _)).
  change 48 with ((if true then 32 else 0) + 16). rewrite (field_ok 16 true) by lia.
  subst c. rewrite app_length in Ht. change (2 ^ 31) with 2147483648 in *.
  rewrite req_big_ok by (change (2 ^ 31) with 2147483648; lia). rewrite <- (app_nil_r (int_tlv (rp_e k))).
  rewrite req_int_ok by (change (2 ^ 63) with 9223372036854775808; change (2 ^ 31) with 2147483648; lia).
  destruct (Z.leb_spec (rp_n k) 0); [lia|]. destruct (Z.leb_spec (rp_e k) 0); [lia|].
  destruct (Z.ltb_spec (2147483648 - 1) (rp_e k)); [lia|]. cbn [orb]. by destruct k.
Qed.
Lemma sk_parsed b k : sk_parse b = Some k ->
  rsa_validate k = true /\ 0 < rk_n k /\ 0 < rk_d k /\ (2 <= length (rk_primes k))%nat.
Proof.
  unfold sk_parse. intros E.
  repeat match type of E with match ?x with _ => _ end = Some _ => destruct x eqn:?; try discriminate end.
  cbv zeta in E.
  repeat match type of E with (if ?x then _ else _) = Some _ => destruct x eqn:?; try discriminate end.
  injection E as <-. split; [done|]. cbn [rk_n rk_d rk_primes length].
  match goal with H : _ || negb _ = false |- _ => apply orb_false_iff in H as [_ H]; apply negb_false_iff in H; cbn [forallb] in H;
    rewrite !andb_true_iff, !Z.ltb_lt in H end. lia.
Qed.
Lemma pk_parsed b k : pk_parse b = Some k -> 0 < rp_n k /\ 0 < rp_e k <= 2 ^ 31 - 1.
Proof.
  unfold pk_parse. intros E.
  repeat match type of E with match ?x with _ => _ end = Some _ => destruct x eqn:?; try discriminate end.
  repeat match type of E with (if ?x then _ else _) = Some _ => destruct x eqn:?; try discriminate end.
  injection E as <-. cbn [rp_n rp_e].
  match goal with H : _ || _ || _ = false |- _ => rewrite !orb_false_iff, !Z.leb_gt, Z.ltb_ge in H end. lia.
Qed.
