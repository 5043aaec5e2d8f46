(** The points of Ed25519: projective coordinates and encodings stand for points of the curve. *)
From Coq Require Import Znumtheory.
From Verif Require Import GoBase Wire WireProofs Rsa NumTheory Poly PolyProofs Ed25519 EdPrimes EdField EdCurve EdCalc.
Local Open Scope Z_scope.
Local Opaque ed_p ed_l ed_d ed_i ed_bx ed_by.

Lemma p_pos : 2 < ed_p.
Proof. pose proof ed_p_big. assert (2 ^ 2 < 2 ^ 254) by (apply Z.pow_lt_mono_r; lia). lia. Qed.
Notation Fp := (zf ed_p).
Notation mkp := (mk ed_p).
Definition HFp : is_field Fp := zq_field ed_p prime_p.
Global Instance fp_dec : EqDecision Fp := zq_dec ed_p.
Definition fd : Fp := mkp ed_d.
Definition fi : Fp := mkp ed_i.
Lemma fi_square : fmul Fp fi fi = fopp Fp (f1 Fp).
Proof.
  cbn [fmul fopp f1 zf]. unfold fi. rewrite <- mk_mul, <- mk_opp. apply mk_eq. rewrite ed_i_square.
  pose proof p_pos. rewrite <- (Z.mod_add (- (1)) 1 ed_p), Z.mod_small by lia. lia.
Qed.
Lemma fd_nonsquare (z : Fp) : fmul Fp z z <> fd.
Proof.
  apply (euler ed_p prime_p); [exact ed_p_odd|]. unfold fd. rewrite un_mk. pose proof p_pos. rewrite pow_mod_idemp; [exact ed_d_euler|lia|].
  apply Z.div_pos; lia.
Qed.
Lemma fp_two : fadd Fp (f1 Fp) (f1 Fp) <> f0 Fp.
Proof.
  cbn [fadd f0 f1 zf]. rewrite <- mk_add. intros H. pose proof p_pos. apply mk_inj in H; lia.
Qed.

Definition pt : Type := cp Fp fd.
Definition p_add : pt -> pt -> pt := c_add Fp HFp fi fd fi_square fd_nonsquare fp_two.
Definition p_0 : pt := c_0 Fp HFp fd.
Definition p_neg : pt -> pt := c_neg Fp HFp fd.
Definition p_mul : Z -> pt -> pt := c_mul Fp HFp fi fd fi_square fd_nonsquare fp_two.

(** ** Projective coordinates *)
Definition good (P : ge) (Q : pt) : Prop :=
  mkp (ge_z P) <> mkp 0 /\ mkp (ge_x P) = zmul ed_p (`Q).1 (mkp (ge_z P)) /\ mkp (ge_y P) = zmul ed_p (`Q).2 (mkp (ge_z P)).

Lemma good_by (R : ge) (Q : pt) (x y z : Fp) : mkp (ge_x R) = x -> mkp (ge_y R) = y -> mkp (ge_z R) = z ->
  z <> f0 Fp -> (fdiv Fp x z, fdiv Fp y z) = `Q -> good R Q.
Proof.
  intros Ex Ey Ez Hz E. unfold good. rewrite Ex, Ey, Ez, <- E. split; [done|]. cbn [fst snd].
  split; symmetry; by apply (div_mul Fp HFp).
Qed.
Ltac mks := rewrite ?mk_mod, ?mk_mul, ?mk_add, ?mk_sub.
Lemma good_add P Q P' Q' : good P P' -> good Q Q' -> good (ge_add P Q) (p_add P' Q').
Proof.
  intros (Hz1 & Hx1 & Hy1) (Hz2 & Hx2 & Hy2).
  destruct (proj_add Fp HFp fi fd fi_square fd_nonsquare fp_two (`P').1 (`P').2 (mkp (ge_z P)) (`Q').1 (`Q').2 (mkp (ge_z Q)) Hz1 Hz2
    (proj2_sig P') (proj2_sig Q')) as [Hz E].
  eapply good_by; [| | |exact Hz|].
  4: { etransitivity; [exact E|]. unfold p_add, c_add. cbn [proj1_sig]. by destruct (`P'), (`Q'). }
  all: unfold ge_add; cbv zeta; cbn [ge_x ge_y ge_z]; cbn [fadd fmul fsub zf]; unfold fd; do 6 mks; rewrite ?Hx1, ?Hy1, ?Hx2, ?Hy2; reflexivity.
Qed.
Lemma good_0 : good ge_0 p_0.
Proof.
  split; [|split].
  - cbn [ge_z ge_0]. intros H. pose proof p_pos. apply mk_inj in H; lia.
  - cbn [ge_0 ge_x ge_z p_0 c_0 proj1_sig fst f0 zf]. rewrite <- mk_mul. done.
  - cbn [ge_0 ge_y ge_z p_0 c_0 proj1_sig snd f1 zf]. rewrite <- mk_mul. done.
Qed.
Lemma good_neg P P' : good P P' -> good (ge_neg P) (p_neg P').
Proof.
  intros (Hz & Hx & Hy). split; [|split]; cbn [ge_neg ge_x ge_y ge_z p_neg c_neg proj1_sig fst snd].
  - done.
  - rewrite mk_mod, mk_opp, Hx. cbn [fopp zf]. generalize (`P').1. generalize (mkp (ge_z P)). intros b a.
    rewrite <- (mk_un _ a), <- (mk_un _ b). rewrite <- !mk_mul, <- !mk_opp, <- !mk_mul. f_equal. ring.
  - done.
Qed.
Lemma base_curve : curve Fp fd (mkp ed_bx) (mkp ed_by) = f0 Fp.
Proof.
  unfold curve. cbn [fmul fsub f0 f1 zf]. unfold fd. rewrite <- !mk_mul, <- !mk_sub. apply mk_eq. rewrite ed_base_curve.
  pose proof p_pos. by rewrite Z.mod_0_l by lia.
Qed.
Definition p_base : pt := exist _ (mkp ed_bx, mkp ed_by) base_curve.
Lemma good_base : good ge_base p_base.
Proof.
  split; [|split].
  - cbn [ge_z ge_base]. intros H. pose proof p_pos. apply mk_inj in H; lia.
  - cbn [ge_base ge_x ge_z p_base proj1_sig fst]. rewrite <- mk_mul, Z.mul_1_r. reflexivity.
  - cbn [ge_base ge_y ge_z p_base proj1_sig snd]. rewrite <- mk_mul, Z.mul_1_r. reflexivity.
Qed.
Lemma good_iter n P P' : good P P' ->
  good (Pos.iter_op ge_add n P) (Pos.iter_op p_add n P').
Proof.
  revert P P'. induction n as [n IH|n IH|]; intros P P' H; cbn [Pos.iter_op]; [|by apply IH, good_add|done].
  apply good_add; [done|]. by apply IH, good_add.
Qed.
Lemma good_mul n P P' : good P P' -> good (ge_mul n P) (p_mul n P').
Proof. intros H. destruct n as [|n|n]; [exact good_0|by apply good_iter|exact good_0]. Qed.
Lemma good_sum l l' : Forall2 good l l' -> good (fold_right ge_add ge_0 l) (fold_right p_add p_0 l').
Proof. induction 1; [exact good_0|]. by apply good_add. Qed.

(** ** The order of the base point *)
Lemma mk_fm x y : mkp (fm x y) = zmul ed_p (mkp x) (mkp y).
Proof. rewrite <- mk_mul. apply mk_eq, fm_mod. Qed.
Lemma good_qadd P Q P' Q' : good P P' -> good Q Q' -> good (qadd P Q) (p_add P' Q').
Proof.
  intros (Hz1 & Hx1 & Hy1) (Hz2 & Hx2 & Hy2).
  destruct (proj_add Fp HFp fi fd fi_square fd_nonsquare fp_two (`P').1 (`P').2 (mkp (ge_z P)) (`Q').1 (`Q').2 (mkp (ge_z Q)) Hz1 Hz2
    (proj2_sig P') (proj2_sig Q')) as [Hz E].
  eapply good_by; [| | |exact Hz|].
  4: { etransitivity; [exact E|]. unfold p_add, c_add. cbn [proj1_sig]. by destruct (`P'), (`Q'). }
  all: unfold qadd; cbv zeta; cbn [ge_x ge_y ge_z]; cbn [fadd fmul fsub zf]; unfold fd; do 6 (rewrite ?mk_fm, ?mk_add, ?mk_sub); rewrite ?Hx1, ?Hy1, ?Hx2, ?Hy2; reflexivity.
Qed.
Lemma good_qdbl P P' : good P P' -> good (qdbl P) (p_add P' P').
Proof.
  intros (Hz1 & Hx1 & Hy1).
  destruct (proj_dbl Fp HFp fi fd fi_square fd_nonsquare fp_two (`P').1 (`P').2 (mkp (ge_z P)) Hz1 (proj2_sig P')) as [Hz E].
  eapply good_by; [| | |exact Hz|].
  4: { etransitivity; [exact E|]. unfold p_add, c_add. cbn [proj1_sig]. by destruct (`P'). }
  all: unfold qdbl; cbv zeta; cbn [ge_x ge_y ge_z]; cbn [fadd fmul fsub f1 zf]; rewrite <- ?(mk_add _ 1 1); change (1 + 1) with 2; do 6 (rewrite ?mk_fm, ?mk_add, ?mk_sub, ?(mk_mul _ 2)); rewrite ?Hx1, ?Hy1; reflexivity.
Qed.
Lemma p_mul_add m n P : 0 <= m -> 0 <= n -> p_mul (m + n) P = p_add (p_mul m P) (p_mul n P).
Proof. intros Hm Hn. exact (c_mul_add Fp HFp fi fd fi_square fd_nonsquare fp_two m n P Hm Hn). Qed.
Lemma p_mul_1 P : p_mul 1 P = P.
Proof. done. Qed.
Lemma good_qmul n P P' : good P P' -> good (qmul n P) (p_mul (Zpos n) P').
Proof.
  intros H. induction n as [n IH|n IH|]; cbn [qmul].
  - rewrite Pos2Z.inj_xI. rewrite p_mul_add by lia. apply good_qadd; [|done].
    rewrite <- Z.add_diag, p_mul_add by lia. by apply good_qdbl.
  - rewrite Pos2Z.inj_xO, <- Z.add_diag, p_mul_add by lia. by apply good_qdbl.
  - done.
Qed.
Lemma good_zero P Q : good P Q -> ge_x P mod ed_p = 0 -> ge_y P mod ed_p = ge_z P mod ed_p -> Q = p_0.
Proof.
  intros (Hz & Hx & Hy) E1 E2. apply (cp_eq Fp fd). destruct Q as [[x y] HQ]. cbn [proj1_sig fst snd] in *.
  assert (A : mkp (ge_x P) = f0 Fp) by (apply mk_eq; rewrite E1; pose proof p_pos; by rewrite Z.mod_0_l by lia).
  assert (B : mkp (ge_y P) = mkp (ge_z P)) by (by apply mk_eq).
  unfold p_0, c_0. cbn [proj1_sig]. f_equal.
  - apply (cancel Fp HFp x (f0 Fp) (mkp (ge_z P)) Hz). etransitivity; [symmetry; exact Hx|]. rewrite A.
    symmetry. rewrite <- (mk_un ed_p (mkp (ge_z P))). cbn [fmul f0 zf]. rewrite <- mk_mul. done.
  - apply (cancel Fp HFp y (f1 Fp) (mkp (ge_z P)) Hz). etransitivity; [symmetry; exact Hy|]. rewrite B.
    symmetry. cbn [fmul f1 zf]. rewrite <- mk_mul, Z.mul_1_l. reflexivity.
Qed.
Lemma l_pos : 0 < ed_l.
Proof. pose proof ed_l_big. assert (0 < 2 ^ 252) by (apply Z.pow_pos_nonneg; lia). lia. Qed.
Lemma base_l : p_mul ed_l p_base = p_0.
Proof.
  pose proof base_order as H. pose proof l_pos as Hl. cbv zeta in H. destruct ed_l as [|n|n]; [lia| |lia].
  destruct H as [H1 H2]. exact (good_zero _ _ (good_qmul n _ _ good_base) H1 H2).
Qed.
