(** The functions of Ed25519.v against the description of RFC 8032 in EdSpec.v. *)
From Coq Require Import Znumtheory.
From Verif Require Import GoBase Wire WireProofs Rsa NumTheory Crypto Poly PolyProofs Scheme
  Ed25519 EdPrimes EdField EdCurve EdCalc EdPoints EdBytes EdScheme EdSpec KeySharesSpec.
Local Open Scope Z_scope.

Lemma rfc_p_is : rfc_p = ed_p. Proof. reflexivity. Qed.
Lemma rfc_order_is : rfc_order = ed_l. Proof. reflexivity. Qed.
Lemma d_value : (121666 * ed_d + 121665) mod ed_p = 0. Proof. reflexivity. Qed.
Lemma by_value : (5 * ed_by) mod ed_p = 4. Proof. reflexivity. Qed.
Lemma by_range : 0 <= ed_by < ed_p. Proof. by vm_compute. Qed.
Lemma bx_range : 0 <= ed_bx < ed_p. Proof. by vm_compute. Qed.
Lemma bx_even : Z.even ed_bx = true. Proof. reflexivity. Qed.
Lemma p_large : 121666 < ed_p. Proof. reflexivity. Qed.
Lemma p_lt_255 : ed_p < 2 ^ 255. Proof. reflexivity. Qed.
Local Opaque ed_p ed_l ed_d ed_i ed_bx ed_by.

Definition ints (Q : pt) : Z * Z := (un ed_p (`Q).1, un ed_p (`Q).2).
Lemma ints_inj Q Q' : ints Q = ints Q' -> Q = Q'.
Proof.
  destruct Q as [[x y] HQ], Q' as [[x' y'] HQ']. unfold ints. cbn [proj1_sig fst snd]. intros [= E1 E2].
  apply (cp_eq Fp fd). cbn [proj1_sig]. f_equal; by apply zq_eq.
Qed.
Lemma same_mk a b : same a b <-> mkp a = mkp b.
Proof.
  pose proof p_pos. unfold same. rewrite rfc_p_is. split.
  - intros E. apply mk_eq. apply Z.mod_divide in E as [k E]; [|lia]. replace a with (b + k * ed_p) by lia. apply Z.mod_add. lia.
  - intros E. apply (f_equal (un ed_p)) in E. rewrite !un_mk in E. rewrite Zminus_mod, E, Z.sub_diag. apply Z.mod_0_l. lia.
Qed.
Lemma c_ne : mkp 121666 <> f0 Fp.
Proof. intros E. pose proof p_large. apply mk_inj in E; lia. Qed.
Lemma scaled a b : mkp (121666 * a) = mkp (121666 * b) <-> mkp a = mkp b.
Proof.
  rewrite !mk_mul. split; [|by intros ->]. intros E.
  apply (cancel Fp HFp _ _ (mkp 121666) c_ne). change (zmul ed_p (mkp a) (mkp 121666) = zmul ed_p (mkp b) (mkp 121666)).
  rewrite <- !mk_mul in *. by rewrite (Z.mul_comm a), (Z.mul_comm b).
Qed.
Lemma d_scaled u v : mkp (121666 * v + 121666 * (ed_d * u)) = mkp (121666 * v - 121665 * u).
Proof.
  pose proof p_pos. pose proof d_value as E. apply Z.mod_divide in E as [k E]; [|lia]. apply mk_eq.
  replace (121666 * v + 121666 * (ed_d * u)) with (121666 * v - 121665 * u + (k * u) * ed_p); [apply Z.mod_add; lia|].
  rewrite <- Z.mul_assoc, (Z.mul_comm u), Z.mul_assoc, <- E. ring.
Qed.
(** terms of the field as whole numbers *)
Ltac whole := cbn [fmul fadd fsub fopp f1 f0 zf]; rewrite <- ?mk_mul, <- ?mk_add, <- ?mk_sub.
Lemma on_curve_mk x y : 0 <= x < ed_p -> 0 <= y < ed_p -> on_curve (x, y) <-> curve Fp fd (mkp x) (mkp y) = f0 Fp.
Proof.
  intros Hx Hy. unfold on_curve. rewrite rfc_p_is, same_mk.
  assert (E : curve Fp fd (mkp x) (mkp y) = mkp (y * y - x * x - 1 - ed_d * x * x * y * y)).
  { unfold curve, fd. cbn [fmul fsub f1 zf]. by rewrite <- !mk_mul, <- !mk_sub. }
  rewrite E. change (f0 Fp) with (mkp 0).
  assert (E2 : mkp (121666 - 121665 * (x * x * (y * y))) = mkp (121666 * (1 + ed_d * (x * x * (y * y))))).
  { replace (121666 * (1 + ed_d * (x * x * (y * y)))) with (121666 * 1 + 121666 * (ed_d * (x * x * (y * y)))) by ring.
    by rewrite d_scaled, Z.mul_1_r. }
  rewrite E2, scaled. split.
  - intros (_ & _ & E3). apply same_mk in E3. apply same_mk. unfold same in *. etransitivity; [|exact E3]. apply (f_equal (fun z => z mod rfc_p)). ring.
  - intros E3. split; [done|]. split; [done|]. apply same_mk in E3. apply same_mk. unfold same in *. etransitivity; [|exact E3]. apply (f_equal (fun z => z mod rfc_p)). ring.
Qed.
Lemma ints_range Q : 0 <= (ints Q).1 < ed_p /\ 0 <= (ints Q).2 < ed_p.
Proof. split; apply (un_range ed_p prime_p). Qed.
Lemma ints_curve Q : on_curve (ints Q).
Proof.
  destruct (ints_range Q) as [H1 H2]. destruct Q as [[x y] HQ]. apply on_curve_mk; [exact H1|exact H2|].
  cbn [ints proj1_sig fst snd] in *. by rewrite !mk_un.
Qed.
Lemma curve_ints P : on_curve P -> exists Q, P = ints Q.
Proof.
  destruct P as [x y]. intros Hc. pose proof Hc as (Hx & Hy & _). rewrite rfc_p_is in Hx, Hy. apply on_curve_mk in Hc; [|done..].
  exists (exist _ (mkp x, mkp y) Hc). unfold ints. cbn [proj1_sig fst snd]. rewrite !un_mk, !Z.mod_small by done. done.
Qed.
Lemma sum_ints P Q S : is_sum (ints P) (ints Q) S <-> S = ints (p_add P Q).
Proof.
  assert (Hpt : forall S', is_sum (ints P) (ints Q) (ints S') <-> S' = p_add P Q).
  { intros S'. unfold is_sum. destruct (ints P) as [x1 y1] eqn:EP, (ints Q) as [x2 y2] eqn:EQ, (ints S') as [x3 y3] eqn:ES.
    assert (HS : on_curve (x3, y3)) by (rewrite <- ES; apply ints_curve).
    destruct P as [[X1 Y1] HP], Q as [[X2 Y2] HQ], S' as [[X3 Y3] HS']. unfold ints in *. cbn [proj1_sig fst snd] in *.
    injection EP as <- <-. injection EQ as <- <-. injection ES as <- <-.
    destruct (denom Fp HFp fi fd fi_square fd_nonsquare fp_two X1 Y1 X2 Y2 HP HQ) as [Ha Hb].
    set (T := un ed_p X1 * un ed_p X2 * (un ed_p Y1 * un ed_p Y2)).
    assert (A1 : mkp (1 + ed_d * T) = fadd Fp (f1 Fp) (fmul Fp (fmul Fp (fmul Fp (fmul Fp fd X1) X2) Y1) Y2)).
    { rewrite <- (mk_un _ X1), <- (mk_un _ X2), <- (mk_un _ Y1), <- (mk_un _ Y2). unfold fd. cbn [fmul fadd f1 zf]. rewrite <- !mk_mul, <- !mk_add. f_equal. unfold T. ring. }
    assert (A2 : mkp (1 - ed_d * T) = fsub Fp (f1 Fp) (fmul Fp (fmul Fp (fmul Fp (fmul Fp fd X1) X2) Y1) Y2)).
    { rewrite <- (mk_un _ X1), <- (mk_un _ X2), <- (mk_un _ Y1), <- (mk_un _ Y2). unfold fd. cbn [fmul fsub f1 zf]. rewrite <- !mk_mul, <- !mk_sub. f_equal. unfold T. ring. }
    assert (B1 : mkp (un ed_p X1 * un ed_p Y2 + un ed_p X2 * un ed_p Y1) = fadd Fp (fmul Fp X1 Y2) (fmul Fp Y1 X2)).
    { rewrite Z.mul_comm with (n := un ed_p X2). cbn [fmul fadd zf]. by rewrite mk_add, !mk_mul, !mk_un. }
    assert (B2 : mkp (un ed_p Y1 * un ed_p Y2 + un ed_p X1 * un ed_p X2) = fadd Fp (fmul Fp Y1 Y2) (fmul Fp X1 X2)).
    { cbn [fmul fadd zf]. by rewrite mk_add, !mk_mul, !mk_un. }
    assert (C1 : same (un ed_p X3 * (121666 - 121665 * T)) (121666 * (un ed_p X1 * un ed_p Y2 + un ed_p X2 * un ed_p Y1)) <->
      X3 = fdiv Fp (fadd Fp (fmul Fp X1 Y2) (fmul Fp Y1 X2)) (fadd Fp (f1 Fp) (fmul Fp (fmul Fp (fmul Fp (fmul Fp fd X1) X2) Y1) Y2))).
    { rewrite same_mk.
      replace (un ed_p X3 * (121666 - 121665 * T)) with (121666 * un ed_p X3 - 121665 * (T * un ed_p X3)) by ring.
      rewrite <- d_scaled.
      replace (121666 * un ed_p X3 + 121666 * (ed_d * (T * un ed_p X3))) with (121666 * (un ed_p X3 * (1 + ed_d * T))) by ring.
      rewrite scaled, B1, mk_mul, mk_un, A1. split.
      - intros E. apply (cancel Fp HFp _ _ _ Ha). rewrite (div_mul Fp HFp) by exact Ha. exact E.
      - intros E. rewrite E. exact (div_mul Fp HFp _ _ Ha). }
    assert (C2 : same (un ed_p Y3 * (121666 + 121665 * T)) (121666 * (un ed_p Y1 * un ed_p Y2 + un ed_p X1 * un ed_p X2)) <->
      Y3 = fdiv Fp (fadd Fp (fmul Fp Y1 Y2) (fmul Fp X1 X2)) (fsub Fp (f1 Fp) (fmul Fp (fmul Fp (fmul Fp (fmul Fp fd X1) X2) Y1) Y2))).
    { rewrite same_mk.
      replace (un ed_p Y3 * (121666 + 121665 * T)) with (121666 * un ed_p Y3 - 121665 * ((- T) * un ed_p Y3)) by ring.
      rewrite <- d_scaled.
      replace (121666 * un ed_p Y3 + 121666 * (ed_d * (- T * un ed_p Y3))) with (121666 * (un ed_p Y3 * (1 - ed_d * T))) by ring.
      rewrite scaled, B2, mk_mul, mk_un, A2. split.
      - intros E. apply (cancel Fp HFp _ _ _ Hb). rewrite (div_mul Fp HFp) by exact Hb. exact E.
      - intros E. rewrite E. exact (div_mul Fp HFp _ _ Hb). }
    rewrite C1, C2. split.
    - intros (_ & E1 & E2). apply (cp_eq Fp fd). cbn [proj1_sig]. rewrite E1, E2. reflexivity.
    - intros E. apply (f_equal (@proj1_sig _ _)) in E. cbn [proj1_sig] in E. injection E as E1 E2. split; [exact HS|]. split; [exact E1|exact E2]. }
  split.
  - intros E. assert (HS : on_curve S) by (unfold is_sum in E; destruct (ints P), (ints Q), S; apply E).
    apply curve_ints in HS as [S' ->]. by apply Hpt in E as ->.
  - intros ->. by apply Hpt.
Qed.
Lemma ints_0 : ints p_0 = (0, 1).
Proof. pose proof p_pos. unfold ints. cbn [p_0 c_0 proj1_sig fst snd f0 f1 zf]. rewrite !un_mk, !Z.mod_small by lia. done. Qed.
Lemma p_mul_succ n P : 0 <= n -> p_mul (n + 1) P = p_add P (p_mul n P).
Proof. exact (c_mul_succ Fp HFp fi fd fi_square fd_nonsquare fp_two n P). Qed.
Lemma times_ints P n S : times (ints P) n S <-> 0 <= n /\ S = ints (p_mul n P).
Proof.
  split.
  - induction 1 as [|n Q S Hn _ [_ ->] E]; [split; [lia|symmetry; exact ints_0]|]. split; [lia|].
    apply sum_ints in E as ->. by rewrite p_mul_succ.
  - intros [Hn ->]. revert n Hn. apply natlike_ind; [change (p_mul 0 P) with p_0; rewrite ints_0; constructor|].
    intros n Hn IH. unfold Z.succ. apply (times_next _ n (ints (p_mul n P))); [done..|]. apply sum_ints. by rewrite p_mul_succ.
Qed.

(** ** Encodings *)
Lemma le_enc_at n v i x : le_enc n v !! i = Some x -> bz x = (v / 256 ^ Z.of_nat i) mod 256.
Proof.
  revert v i. induction n as [|n IH]; intros v i; [done|]. cbn [le_enc]. destruct i as [|i].
  - intros [= <-]. rewrite bz_zb. by rewrite Z.div_1_r.
  - cbn [lookup list_lookup]. intros E. apply IH in E as ->. rewrite Nat2Z.inj_succ, Z.pow_succ_r, Z.div_div by lia. done.
Qed.
Lemma little_enc w n b : little w n b <-> 0 <= n < 256 ^ Z.of_nat w /\ b = le_enc w n.
Proof.
  split.
  - intros (Hl & Hn & Hb). split; [done|]. apply list_eq_same_length with w; [by rewrite le_enc_length|done|].
    intros i x y _ Hx Hy. apply Hb in Hx. apply le_enc_at in Hy. apply bz_inj. by rewrite Hx, Hy.
  - intros [Hn ->]. split; [apply le_enc_length|]. split; [done|]. intros i x. apply le_enc_at.
Qed.
Lemma le_enc_num b : le_enc (length b) (le_num b) = b.
Proof.
  induction b as [|x b IH]; [done|]. cbn [length le_enc le_num fold_right]. change (fold_right _ 0 b) with (le_num b).
  pose proof (bz_range x) as Hx. f_equal.
  - apply bz_inj. rewrite bz_zb, Z.mul_comm, Z_mod_plus_full. apply Z.mod_small. lia.
  - rewrite Z.mul_comm, Z_div_plus_full, Z.div_small, Z.add_0_l by lia. done.
Qed.
Lemma little_num w n b : little w n b <-> length b = w /\ n = le_num b.
Proof.
  rewrite little_enc. split.
  - intros [Hn ->]. rewrite le_enc_length, le_num_enc by done. done.
  - intros [<- ->]. split; [apply le_num_bound|]. symmetry. apply le_enc_num.
Qed.
Lemma encodes_ints Q b : encodes (ints Q) b <-> b = enc Q.
Proof.
  unfold encodes. assert (E : (ints Q).2 + (if Z.odd (ints Q).1 then 2 ^ 255 else 0) = un ed_p (`Q).2 + 2 ^ 255 * (un ed_p (`Q).1 mod 2)).
  { unfold ints. cbn [fst snd]. rewrite Zmod_odd. destruct (Z.odd _); lia. }
  rewrite E, <- enc_num. rewrite little_num. split.
  - intros [Hl En]. rewrite <- (le_enc_num b), <- (le_enc_num (enc Q)), Hl, enc_length. by rewrite En.
  - intros ->. split; [apply enc_length|done].
Qed.
Lemma base_ints B : is_base B <-> B = ints p_base.
Proof.
  pose proof by_range as Hby. pose proof bx_range as Hbx. pose proof by_value as Hbv. pose proof p_large as Hpl.
  assert (Eb : ints p_base = (ed_bx, ed_by)) by (unfold ints; cbn [p_base proj1_sig fst snd]; rewrite !un_mk, !Z.mod_small by done; done).
  split.
  - intros (Hc & H5 & He). apply curve_ints in Hc as [[[x y] HQ] ->]. f_equal. apply (cp_eq Fp fd). cbn [proj1_sig].
    unfold ints in H5, He. cbn [proj1_sig fst snd] in *. apply same_mk in H5.
    assert (Ey : y = mkp ed_by).
    { assert (H5' : mkp (5 * un ed_p y) = mkp (5 * ed_by)) by (rewrite H5; apply mk_eq; rewrite Hbv; apply Z.mod_small; lia).
      rewrite !mk_mul, mk_un in H5'. apply (cancel Fp HFp _ _ (mkp 5)); [intros E; apply mk_inj in E; lia|].
      cbn [fmul zf]. unfold zmul in *. by rewrite (Z.mul_comm (un ed_p y)), (Z.mul_comm (un ed_p (mkp ed_by))). }
    subst y. pose proof (curve_x2 _ _ HQ) as [_ E1]. pose proof (curve_x2 _ _ base_curve) as [_ E2]. rewrite <- E2 in E1.
    cbn [fmul zf] in E1. change (`p_base) with (mkp ed_bx, mkp ed_by). f_equal. destruct (two_roots ed_p prime_p x (mkp ed_bx) E1) as [E3|E3]; [exact E3|]. clear E1 E2.
    destruct (decide (mkp ed_bx = mkp 0)) as [E0|E0].
    + rewrite E3, E0. unfold zopp. apply zq_eq. rewrite !un_mk. rewrite !Z.mod_0_l by lia. reflexivity.
    + pose proof (opp_parity ed_p prime_p _ ed_p_odd E0) as Hp. rewrite <- E3, un_mk, (Z.mod_small ed_bx ed_p) in Hp by exact Hbx.
      rewrite !Zmod_even, bx_even in Hp. rewrite He in Hp. discriminate.
  - intros ->. split; [apply ints_curve|]. rewrite Eb. cbn [fst snd]. split; [|exact bx_even].
    apply same_mk. apply mk_eq. rewrite Hbv. symmetry. apply Z.mod_small. lia.
Qed.

(** ** Verification *)
Section Hash.
Context (H : bytes -> bytes).
Lemma verify_exact pub m sig A : on_curve A -> encodes A pub -> ed_verify H pub m sig = true <-> valid H pub m sig.
Proof.
  intros Hc He. apply curve_ints in Hc as [a ->]. apply encodes_ints in He as ->. pose proof l_pos as Hl.
  unfold ed_verify. destruct (parse_enc a) as (pA & -> & HpA).
  destruct (Nat.eqb_spec (length sig) 64) as [Hsig|Hsig]; cbn [negb]; [|split; [done|]].
  2: { intros (A & R & s & k & B & sB & kA & eR & eS & _ & _ & HR & HeR & -> & Hs & _). exfalso. apply Hsig.
       apply curve_ints in HR as [r ->]. apply encodes_ints in HeR as ->. destruct Hs as [Hs _]. by rewrite app_length, enc_length, Hs. }
  cbv zeta. set (eR := take 32 sig). set (eS := drop 32 sig).
  assert (Eg : forall s k, ge_bytes (ge_add (ge_mul s ge_base) (ge_mul k (ge_neg pA))) = enc (p_add (p_mul s p_base) (p_mul k (p_neg a)))).
  { intros s k. apply ge_bytes_good, good_add; [apply good_mul, good_base|by apply good_mul, good_neg]. }
  rewrite Eg. clear Eg pA HpA. set (k := ed_challenge H eR (enc a) m).
  assert (Hk : 0 <= k) by (unfold k, ed_challenge; apply Z.mod_pos_bound; lia).
  assert (Hmove : forall r s, p_add (p_mul s p_base) (p_mul k (p_neg a)) = r <-> p_mul s p_base = p_add r (p_mul k a)).
  { intros r s. split.
    - intros <-. by rewrite p_assoc, <- p_mul_plus, (c_comm Fp HFp fi fd fi_square fd_nonsquare fp_two (p_neg a) a : p_add (p_neg a) a = p_add a (p_neg a)), p_add_neg, p_mul_0, p_add_0 by done.
    - intros ->. by rewrite p_assoc, <- p_mul_plus, p_add_neg, p_mul_0, p_add_0 by done. }
  rewrite andb_true_iff, Z.ltb_lt, bool_decide_eq_true. split.
  - intros [Hs E]. set (r := p_add (p_mul (le_num eS) p_base) (p_mul k (p_neg a))) in E.
    assert (Hb : 0 <= le_num eS) by apply le_num_bound.
    exists (ints a), (ints r), (le_num eS), (le_num (H (eR ++ enc a ++ m))), (ints p_base), (ints (p_mul (le_num eS) p_base)), (ints (p_mul k a)), eR, eS.
    split; [apply ints_curve|]. split; [by apply encodes_ints|]. split; [apply ints_curve|]. split; [by apply encodes_ints|].
    split; [symmetry; apply take_drop|]. split; [apply little_num; split; [unfold eS; rewrite drop_length, Hsig; done|done]|].
    split; [rewrite rfc_order_is; exact Hs|]. split; [by apply little_num|]. split; [by apply base_ints|].
    split; [by apply times_ints|]. split; [apply times_ints; rewrite rfc_order_is; done|].
    apply sum_ints. f_equal. by apply (proj1 (Hmove r (le_num eS))).
  - intros (A & R & s & k' & B & sB & kA & eR' & eS' & HA & HeA & HR & HeR & E & Hs & Hsl & Hk' & HB & HsB & HkA & Hsum).
    apply curve_ints in HA as [a' ->]. apply encodes_ints, enc_inj in HeA as <-.
    apply curve_ints in HR as [r ->]. apply encodes_ints in HeR as ->. apply base_ints in HB as ->.
    assert (ER : eR = enc r) by (unfold eR; rewrite E, take_app_alt by (by rewrite enc_length); done).
    assert (ES : eS = eS') by (unfold eS; rewrite E, drop_app_alt by (by rewrite enc_length); done).
    apply little_num in Hs as [_ ->]. rewrite <- ES in *. apply little_num in Hk' as [_ ->].
    rewrite rfc_order_is in *. split; [exact Hsl|]. rewrite ER. f_equal. apply Hmove.
    apply times_ints in HsB as [_ ->]. apply times_ints in HkA as [_ ->]. apply sum_ints, ints_inj in Hsum.
    rewrite Hsum. unfold k, ed_challenge. by rewrite ER.
Qed.
Lemma valid_key pub m sig : valid H pub m sig -> exists A, on_curve A /\ encodes A pub.
Proof. intros (A & R & s & k & B & sB & kA & eR & eS & HA & HeA & _). by exists A. Qed.

(** ** Keys *)
Lemma clamp_bits n a : 0 <= n < 2 ^ 256 -> 0 <= a ->
  (forall i, 0 <= i -> Z.testbit a i = if i <? 3 then false else if i <? 254 then Z.testbit n i else i =? 254) ->
  a = 8 * ((n mod 2 ^ 254) / 8) + 2 ^ 254.
Proof.
  intros Hn Ha Hb. assert (Hlow : forall i, 0 <= i -> Z.testbit (8 * ((n mod 2 ^ 254) / 8)) i = if i <? 3 then false else if i <? 254 then Z.testbit n i else false).
  { intros i Hi. change 8 with (2 ^ 3). rewrite Z.mul_comm, <- Z.shiftl_mul_pow2, <- Z.shiftr_div_pow2 by lia.
    rewrite Z.shiftl_spec by lia. destruct (Z.ltb_spec i 3); [apply Z.testbit_neg_r; lia|].
    rewrite Z.shiftr_spec by lia. replace (i - 3 + 3) with i by lia. rewrite Z.testbit_mod_pow2 by lia.
    destruct (Z.ltb_spec i 254); [done|]. done. }
  apply Z.bits_inj'. intros i Hi. rewrite Hb by done. rewrite Z.add_nocarry_lxor.
  - rewrite Z.lxor_spec, Hlow, Z.pow2_bits_eqb by lia. destruct (Z.ltb_spec i 3); [by destruct (Z.eqb_spec 254 i); [lia|]|].
    destruct (Z.ltb_spec i 254); [destruct (Z.eqb_spec 254 i); [lia|by rewrite xorb_false_r]|]. rewrite Z.eqb_sym. by destruct (_ =? _).
  - apply Z.bits_inj'. intros j Hj. rewrite Z.land_spec, Hlow, Z.pow2_bits_eqb, Z.bits_0 by lia.
    destruct (Z.eqb_spec 254 j) as [<-|]; [|apply andb_false_r]. done.
Qed.
Lemma key_of_seed seed pub : public_key H seed pub -> key_pair (ed_reading H) (ed_expand H seed) pub.
Proof.
  intros (a & B & A & Ha & (n & Hn & Hbits) & HB & HA & He). apply base_ints in HB as ->. apply times_ints in HA as [_ ->].
  apply encodes_ints in He as ->. apply little_num in Hn as [Hlen ->].
  set (n := le_num (take 32 (H seed))) in *.
  assert (Hnb : 0 <= n < 2 ^ 256) by (pose proof (le_num_bound (take 32 (H seed))) as Hb; rewrite Hlen, pow_256_32 in Hb; exact Hb).
  pose proof (clamp_bits n a Hnb Ha Hbits) as Ea.
  unfold key_pair. cbn [rd_is_scalar rd_is_point rd_point rd_scalar rd_base ed_reading]. split; [apply le_enc_length|].
  change (p_mul a p_base) with (` (sb_mul a sb_base)). split; [by eexists|]. rewrite ed_point_enc.
  change (sb_mul a sb_base = sb_mul (un ed_l (mkl (le_num (ed_expand H seed)))) sb_base). assert (Ex : le_num (ed_expand H seed) = a).
  { unfold ed_expand. fold n. rewrite <- Ea. apply le_num_enc. split; [done|]. rewrite pow_256_32, Ea.
    assert (0 < 2 ^ 254) by (apply Z.pow_pos_nonneg; lia).
    pose proof (Z.mod_pos_bound n (2 ^ 254) ltac:(lia)) as Hm. pose proof (Z.mul_div_le (n mod 2 ^ 254) 8 ltac:(lia)).
    assert (E4 : 2 ^ 256 = 4 * 2 ^ 254) by reflexivity. rewrite E4. lia. }
  rewrite Ex, un_mk, sb_mul_mod by done. done.
Qed.
(** every seed has a public key *)
Lemma seed_key seed : (32 <= length (H seed))%nat -> public_key H seed (ed_base (ed_expand H seed)).
Proof.
  intros Hl. set (n := le_num (take 32 (H seed))). set (a := 8 * ((n mod 2 ^ 254) / 8) + 2 ^ 254).
  assert (H254 : 0 < 2 ^ 254) by (apply Z.pow_pos_nonneg; lia).
  assert (Hd : 0 <= (n mod 2 ^ 254) / 8) by (apply Z.div_pos; [apply Z.mod_pos_bound; lia|lia]).
  assert (Ha : 0 <= a) by (unfold a; lia).
  exists a, (ints p_base), (ints (p_mul a p_base)). split; [done|]. split; [|split; [by apply base_ints|split; [by apply times_ints|]]].
  - exists n. split; [apply little_num; split; [rewrite take_length; lia|done]|]. intros i Hi. unfold a.
    assert (Hlow : forall i, 0 <= i -> Z.testbit (8 * ((n mod 2 ^ 254) / 8)) i = if i <? 3 then false else if i <? 254 then Z.testbit n i else false).
    { clear i Hi. intros i Hi. change 8 with (2 ^ 3). rewrite Z.mul_comm, <- Z.shiftl_mul_pow2, <- Z.shiftr_div_pow2 by lia.
      rewrite Z.shiftl_spec by lia. destruct (Z.ltb_spec i 3); [apply Z.testbit_neg_r; lia|].
      rewrite Z.shiftr_spec by lia. replace (i - 3 + 3) with i by lia. rewrite Z.testbit_mod_pow2 by lia.
      destruct (Z.ltb_spec i 254); [done|]. done. }
    rewrite Z.add_nocarry_lxor.
    + rewrite Z.lxor_spec, Hlow, Z.pow2_bits_eqb by lia. destruct (Z.ltb_spec i 3); [by destruct (Z.eqb_spec 254 i); [lia|]|].
      destruct (Z.ltb_spec i 254); [destruct (Z.eqb_spec 254 i); [lia|by rewrite xorb_false_r]|]. rewrite (Z.eqb_sym i). by destruct (_ =? _).
    + apply Z.bits_inj'. intros j Hj. rewrite Z.land_spec, Hlow, Z.pow2_bits_eqb, Z.bits_0 by lia.
      destruct (Z.eqb_spec 254 j) as [<-|]; [|apply andb_false_r]. done.
  - apply encodes_ints. unfold ed_base. rewrite (ge_bytes_good _ _ (good_mul _ _ _ good_base)). do 2 f_equal.
    unfold ed_expand. fold n. fold a. apply le_num_enc. split; [done|]. rewrite pow_256_32. unfold a.
    pose proof (Z.mod_pos_bound n (2 ^ 254) ltac:(lia)) as Hm. pose proof (Z.mul_div_le (n mod 2 ^ 254) 8 ltac:(lia)).
    assert (E4 : 2 ^ 256 = 4 * 2 ^ 254) by reflexivity. rewrite E4. lia.
Qed.
Lemma seed_exact seed : (32 <= length (H seed))%nat ->
  public_key H seed (ed_base (ed_expand H seed)) /\
  forall pub, public_key H seed pub -> pub = ed_base (ed_expand H seed) /\ length pub = 32%nat /\
    key_pair (ed_reading H) (ed_expand H seed) pub.
Proof.
  intros Hl. split; [by apply seed_key|]. intros pub Hp. pose proof (key_of_seed seed pub Hp) as Hkp.
  pose proof (seed_key seed Hl) as Hp2. pose proof (key_of_seed seed _ Hp2) as Hkp2.
  destruct Hkp as (_ & [Q ->] & E). destruct Hkp2 as (_ & [Q2 E2] & E3).
  cbn [rd_point ed_reading] in E, E3. rewrite ed_point_enc in E. rewrite E2, ed_point_enc in E3.
  split; [|split; [apply enc_length|by apply key_of_seed]]. rewrite E2, E, E3. reflexivity.
Qed.
End Hash.
Lemma base_exact s n B : is_base B -> little 32 n s -> exists A, times B n A /\ encodes A (ed_base s).
Proof.
  intros HB Hn. apply base_ints in HB as ->. apply little_num in Hn as [_ ->]. exists (ints (p_mul (le_num s) p_base)).
  split; [apply times_ints; split; [apply le_num_bound|done]|]. apply encodes_ints. unfold ed_base.
  apply ge_bytes_good, good_mul, good_base.
Qed.
Lemma times_curve B a A : is_base B -> times B a A -> on_curve A.
Proof. intros HB HA. apply base_ints in HB as ->. apply times_ints in HA as [_ ->]. apply ints_curve. Qed.
