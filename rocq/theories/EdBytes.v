(** Encodings of points and scalars of Ed25519. *)
From Coq Require Import Znumtheory.
From Verif Require Import GoBase Wire WireProofs Rsa NumTheory Poly PolyProofs Ed25519 EdPrimes EdField EdCurve EdCalc EdPoints.
Local Open Scope Z_scope.
Local Opaque ed_p ed_l ed_d ed_i ed_bx ed_by.

(** ** Numbers *)
Lemma le_num_bound b : 0 <= le_num b < 256 ^ Z.of_nat (length b).
Proof.
  induction b as [|x b IH]; [done|]. cbn [le_num fold_right length]. change (fold_right _ 0 b) with (le_num b).
  rewrite Nat2Z.inj_succ, Z.pow_succ_r by lia. pose proof (bz_range x). lia.
Qed.
Lemma le_enc_length n v : length (le_enc n v) = n.
Proof. revert v. induction n as [|n IH]; intros v; [done|]. cbn [le_enc length]. by rewrite IH. Qed.
Lemma le_num_enc n v : 0 <= v < 256 ^ Z.of_nat n -> le_num (le_enc n v) = v.
Proof.
  revert v. induction n as [|n IH]; intros v Hv.
  { change (256 ^ Z.of_nat 0) with 1 in Hv. cbn. lia. }
  rewrite Nat2Z.inj_succ, Z.pow_succ_r in Hv by lia. cbn [le_enc le_num fold_right]. change (fold_right _ 0 ?b) with (le_num b).
  rewrite IH, bz_zb by (split; [apply Z.div_pos; lia|apply Z.div_lt_upper_bound; lia]).
  pose proof (Z.div_mod v 256 ltac:(lia)). lia.
Qed.
Lemma pow_256_32 : 256 ^ Z.of_nat 32 = 2 ^ 256.
Proof. reflexivity. Qed.

(** ** Scalars *)
Lemma sc_bytes_length z : length (sc_bytes z) = 32%nat.
Proof. apply le_enc_length. Qed.
Lemma sc_bytes_num z : le_num (sc_bytes z) = z mod ed_l.
Proof.
  apply le_num_enc. pose proof l_pos. pose proof (Z.mod_pos_bound z ed_l l_pos). rewrite pow_256_32. pose proof ed_l_big.
  assert (2 ^ 253 < 2 ^ 256) by (apply Z.pow_lt_mono_r; lia). lia.
Qed.

(** ** Points *)
Definition enc (Q : pt) : bytes := le_enc 32 (un ed_p (`Q).2 + 2 ^ 255 * (un ed_p (`Q).1 mod 2)).
Lemma enc_length Q : length (enc Q) = 32%nat.
Proof. apply le_enc_length. Qed.
Lemma enc_num Q : le_num (enc Q) = un ed_p (`Q).2 + 2 ^ 255 * (un ed_p (`Q).1 mod 2).
Proof.
  apply le_num_enc. rewrite pow_256_32. pose proof (un_range ed_p prime_p (`Q).2) as Hy. pose proof ed_p_big.
  pose proof (Z.mod_pos_bound (un ed_p (`Q).1) 2 ltac:(lia)). change 256 with (255 + 1). rewrite Z.pow_add_r by lia. change (2 ^ 1) with 2.
  set (b := 2 ^ 255) in *. clearbody b. nia.
Qed.
Lemma mk_inv z : mkp (ed_inv z) = zinv ed_p (mkp z).
Proof.
  unfold ed_inv, zinv. apply mk_eq. pose proof p_pos. rewrite !pow_mod_spec by lia. rewrite un_mk, !Zmod_mod. by rewrite pow_mod_idemp by lia.
Qed.
Lemma ge_bytes_good P Q : good P Q -> ge_bytes P = enc Q.
Proof.
  intros (Hz & Hx & Hy). unfold ge_bytes, enc. cbv zeta.
  assert (A : forall X (x : Fp), mkp X = zmul ed_p x (mkp (ge_z P)) -> (X * ed_inv (ge_z P)) mod ed_p = un ed_p x).
  { intros X x E. rewrite <- un_mk, mk_mul, mk_inv, E. f_equal.
    change (fmul Fp (fmul Fp x (mkp (ge_z P))) (finv Fp (mkp (ge_z P))) = x).
    rewrite <- (div_mul Fp HFp x (mkp (ge_z P)) Hz) at 2.
    unfold fdiv. cbn [zf]. unfold zdiv. cbn [fmul finv zf]. set (w := mkp (ge_z P)). generalize (zinv ed_p w). intros v.
    rewrite <- (mk_un ed_p x), <- (mk_un ed_p v), <- (mk_un ed_p w), <- !mk_mul. f_equal. ring. }
  rewrite (A _ _ Hx), (A _ _ Hy). done.
Qed.
Lemma curve_x2 (x y : Fp) : curve Fp fd x y = f0 Fp ->
  fadd Fp (fmul Fp (fmul Fp fd y) y) (f1 Fp) <> f0 Fp /\
  fmul Fp x x = fmul Fp (fsub Fp (fmul Fp y y) (f1 Fp)) (finv Fp (fadd Fp (fmul Fp (fmul Fp fd y) y) (f1 Fp))).
Proof.
  intros Hc. pose (HF := HFp). assert (Hn : fadd Fp (fmul Fp (fmul Fp fd y) y) (f1 Fp) <> f0 Fp).
  - apply (x2_denom Fp HFp fi fd fi_square fd_nonsquare).
  - split; [done|]. by apply (x2_value Fp HFp fd).
Qed.
Lemma parse_enc Q : exists P, ge_parse (enc Q) = Some P /\ good P Q.
Proof.
  unfold ge_parse. rewrite enc_length, enc_num. destruct Q as [[x y] HQ]. cbn [proj1_sig fst snd] in *.
  pose proof ed_p_big as Hpb. pose proof p_pos as Hp. pose proof (un_range ed_p prime_p y) as Hy. pose proof (un_range ed_p prime_p x) as Hx.
  pose proof (Z.mod_pos_bound (un ed_p x) 2 ltac:(lia)) as Hs.
  assert (H255 : 0 < 2 ^ 255) by (apply Z.pow_pos_nonneg; lia).
  rewrite (Z.mul_comm (2 ^ 255)), Z_mod_plus_full, Z_div_plus_full, (Z.mod_small (un ed_p y) (2 ^ 255)), (Z.div_small (un ed_p y) (2 ^ 255)), Z.add_0_l by lia.
  rewrite un_mod. destruct (curve_x2 x y HQ) as [Hn Hx2].
  set (a := ((un ed_p y * un ed_p y - 1) * ed_inv ((ed_d * un ed_p y * un ed_p y + 1) mod ed_p)) mod ed_p).
  assert (Ea : mkp a = fmul Fp x x).
  { rewrite Hx2. unfold a. rewrite mk_mod, mk_mul, mk_inv, mk_mod, mk_sub, mk_add, !mk_mul, mk_un. reflexivity. }
  assert (Hau : a = un ed_p (fmul Fp x x)).
  { rewrite <- Ea, un_mk. unfold a. by rewrite Zmod_mod. }
  clearbody a.
  set (c := pow_mod a ((ed_p + 3) / 8) ed_p). set (k := (ed_p + 3) / 8) in *.
  assert (Hk : 0 <= k) by (apply Z.div_pos; lia). pose proof ed_p_8 as Hk8. fold k in Hk8.
  assert (Ec : mkp c = zpow ed_p (fmul Fp x x) k).
  { unfold c, zpow. rewrite pow_mod_spec, mk_mod by lia. by rewrite <- Hau. }
  assert (Hroot : fmul Fp (mkp c) (mkp c) = fmul Fp x x \/ fmul Fp (mkp c) (mkp c) = fopp Fp (fmul Fp x x)).
  { destruct (decide (x = mkp 0)) as [E0|E0].
    - left. assert (Hz2 : fmul Fp (mkp 0) (mkp 0) = mkp 0) by exact (eq_sym (mk_mul ed_p 0 0)).
      assert (Hpz : zpow ed_p (mkp 0) k = mkp 0) by (unfold zpow; rewrite un_mk, Z.mod_0_l, Z.pow_0_l by lia; done).
      rewrite Ec, E0, Hz2, Hpz. exact Hz2.
    - (* x^4k = x^2 x^((p-1)/2) *)
      assert (E4 : fmul Fp (mkp c) (mkp c) = fmul Fp (fmul Fp x x) (zpow ed_p x (4 * k - 2))).
      { rewrite Ec. cbn [fmul zf]. rewrite zpow_square by (lia || exact prime_p).
        rewrite <- zpow_add by lia. rewrite <- zpow_2, <- zpow_add by lia. f_equal; lia. }
      assert (E1 : zmul ed_p (zpow ed_p x (4 * k - 2)) (zpow ed_p x (4 * k - 2)) = zmul ed_p (mkp 1) (mkp 1)).
      { rewrite <- zpow_add by lia. replace (4 * k - 2 + (4 * k - 2)) with (ed_p - 1) by lia.
        rewrite zpow_fermat by (exact prime_p || done). rewrite <- mk_mul. done. }
      apply (two_roots ed_p prime_p) in E1 as [E1|E1]; rewrite E4, E1.
      + left. cbn [fmul zf]. rewrite <- (mk_un ed_p x), <- !mk_mul. f_equal. ring.
      + right. cbn [fmul fopp zf]. rewrite <- (mk_un ed_p x), <- !mk_mul, <- !mk_opp, <- !mk_mul. f_equal. ring. }
  assert (Hsq : forall w, (w * w) mod ed_p =? a = true <-> fmul Fp (mkp w) (mkp w) = fmul Fp x x).
  { intros w. rewrite Z.eqb_eq, Hau. change (fmul Fp (mkp w) (mkp w)) with (zmul ed_p (mkp w) (mkp w)). rewrite <- mk_mul, <- un_mk. split.
    - intros E. by apply zq_eq.
    - by intros ->. }
  assert (Hfin : forall w, fmul Fp (mkp w) (mkp w) = fmul Fp x x -> 0 <= w < ed_p ->
    good (Ge (if w mod 2 =? un ed_p x mod 2 then w else (- w) mod ed_p) (un ed_p y) 1) (exist _ (x, y) HQ)).
  { intros w Hw Hwr. assert (Eo : mkp (if w mod 2 =? un ed_p x mod 2 then w else (- w) mod ed_p) = x).
    { assert (Huw : un ed_p (mkp w) = w) by (rewrite un_mk; by apply Z.mod_small).
      apply (two_roots ed_p prime_p) in Hw as [Hw|Hw].
      - assert (w = un ed_p x) as -> by (rewrite <- Hw; done). rewrite Z.eqb_refl. apply mk_un.
      - destruct (decide (x = mkp 0)) as [E0|E0].
        + assert (Hw0 : w = 0). { rewrite <- Huw, Hw, E0. unfold zopp. rewrite !un_mk, !Z.mod_0_l by lia. apply (Z.mod_0_l ed_p). lia. }
          rewrite Hw0, E0. destruct (_ =? _); [done|]. rewrite mk_mod. done.
        + pose proof (opp_parity ed_p prime_p x ed_p_odd E0) as Hpar. rewrite <- Hw, Huw in Hpar.
          destruct (Z.eqb_spec (w mod 2) (un ed_p x mod 2)); [lia|]. rewrite mk_mod, mk_opp, Hw.
          rewrite <- (mk_un ed_p x), <- !mk_opp. f_equal. lia. }
    split; [|split]; cbn [ge_x ge_y ge_z proj1_sig fst snd].
    - intros E. apply mk_inj in E; lia.
    - rewrite Eo. rewrite <- (mk_un ed_p x), <- mk_mul, Z.mul_1_r. done.
    - rewrite mk_un. rewrite <- (mk_un ed_p y), <- mk_mul, Z.mul_1_r. done. }
  assert (Hcr : 0 <= c < ed_p) by (unfold c; rewrite pow_mod_spec by lia; apply Z.mod_pos_bound; lia).
  cbn [negb Nat.eqb]. destruct ((c * c) mod ed_p =? a) eqn:Ec1.
  - apply Hsq in Ec1. eexists. split; [reflexivity|]. by apply Hfin.
  - assert (Ec2 : fmul Fp (mkp ((c * ed_i) mod ed_p)) (mkp ((c * ed_i) mod ed_p)) = fmul Fp x x).
    { destruct Hroot as [E|E]; [apply Hsq in E; congruence|]. rewrite mk_mod, mk_mul. fold fi.
      transitivity (fmul Fp (fmul Fp (mkp c) (mkp c)) (fmul Fp fi fi)).
      - cbn [fmul zf]. generalize fi. intros u. rewrite <- (mk_un ed_p u), <- !mk_mul. f_equal. ring.
      - rewrite E, fi_square. cbn [fmul fopp f1 zf]. rewrite <- (mk_un ed_p x), <- !mk_mul, <- !mk_opp, <- !mk_mul. f_equal. ring. }
    pose proof Ec2 as Ec3. apply Hsq in Ec3. rewrite Ec3. eexists. split; [reflexivity|]. apply Hfin; [done|]. apply Z.mod_pos_bound. lia.
Qed.
Lemma good_fun P Q Q' : good P Q -> good P Q' -> Q = Q'.
Proof.
  intros (Hz & Hx & Hy) (_ & Hx' & Hy'). apply (cp_eq Fp fd). destruct Q as [[x y] HQ], Q' as [[x' y'] HQ']. cbn [proj1_sig fst snd] in *.
  f_equal; eapply (cancel Fp HFp); [exact Hz|by rewrite Hx in Hx'|exact Hz|by rewrite Hy in Hy'].
Qed.
Lemma enc_inj Q Q' : enc Q = enc Q' -> Q = Q'.
Proof.
  intros E. destruct (parse_enc Q) as (P & HP & H1). destruct (parse_enc Q') as (P' & HP' & H2). rewrite E, HP' in HP. injection HP as ->.
  by apply (good_fun P).
Qed.
