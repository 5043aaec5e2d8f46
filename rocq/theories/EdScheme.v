(** Ed25519 is a threshold scheme: every law of [threshold_scheme] is a theorem for it. *)
From Coq Require Import Znumtheory.
From Verif Require Import GoBase Wire WireProofs Rsa NumTheory Crypto Poly PolyProofs Scheme
  Ed25519 EdPrimes EdField EdCurve EdCalc EdPoints EdBytes.
Local Open Scope Z_scope.
Local Opaque ed_p ed_l ed_d ed_i ed_bx ed_by.

Notation Fl := (zf ed_l).
Notation mkl := (mk ed_l).
Definition HFl : is_field Fl := zq_field ed_l prime_l.

(** ** The group generated by points of order [ed_l] *)
Definition sub : Type := sp Fp HFp fi fd fi_square fd_nonsquare fp_two ed_l.
Definition sb_add : sub -> sub -> sub := s_add Fp HFp fi fd fi_square fd_nonsquare fp_two ed_l l_pos.
Definition sb_0 : sub := s_0 Fp HFp fi fd fi_square fd_nonsquare fp_two ed_l l_pos.
Definition sb_mul : Z -> sub -> sub := s_mul Fp HFp fi fd fi_square fd_nonsquare fp_two ed_l l_pos.
Definition sb_base : sub := exist _ p_base base_l.
Lemma sub_eq (P Q : sub) : `P = `Q -> P = Q.
Proof. exact (sp_eq Fp HFp fi fd fi_square fd_nonsquare fp_two ed_l P Q). Qed.
Lemma sb_mul_mod n P : 0 <= n -> sb_mul (n mod ed_l) P = sb_mul n P.
Proof. exact (s_mul_mod Fp HFp fi fd fi_square fd_nonsquare fp_two ed_l l_pos n P). Qed.
Lemma p_mul_mul m n P : 0 <= m -> 0 <= n -> p_mul (m * n) P = p_mul m (p_mul n P).
Proof. exact (c_mul_mul Fp HFp fi fd fi_square fd_nonsquare fp_two m n P). Qed.
Lemma p_mul_plus n P Q : 0 <= n -> p_mul n (p_add P Q) = p_add (p_mul n P) (p_mul n Q).
Proof. exact (c_mul_plus Fp HFp fi fd fi_square fd_nonsquare fp_two n P Q). Qed.
Lemma p_mul_0 n : 0 <= n -> p_mul n p_0 = p_0.
Proof. exact (c_mul_0 Fp HFp fi fd fi_square fd_nonsquare fp_two n). Qed.
Lemma p_assoc P Q S : p_add (p_add P Q) S = p_add P (p_add Q S).
Proof. exact (c_assoc Fp HFp fi fd fi_square fd_nonsquare fp_two P Q S). Qed.
Lemma p_add_0 P : p_add P p_0 = P.
Proof. exact (c_add_0 Fp HFp fi fd fi_square fd_nonsquare fp_two P). Qed.
Lemma p_add_neg P : p_add P (p_neg P) = p_0.
Proof. exact (c_add_neg Fp HFp fi fd fi_square fd_nonsquare fp_two P). Qed.

Definition ed_group : module_ops Fl := ModuleOps Fl sub sb_add sb_0 (fun (a : Fl) P => sb_mul (un ed_l a) P).
Lemma un_nonneg (a : Fl) : 0 <= un ed_l a.
Proof. apply (un_range ed_l prime_l a). Qed.
Lemma ed_group_module : is_module Fl ed_group.
Proof.
  constructor; cbn [mmul madd m0 ed_group fadd fmul f0 zf].
  - intros a b P. unfold zadd. rewrite un_mk. pose proof (un_nonneg a). pose proof (un_nonneg b). rewrite sb_mul_mod by lia.
    apply sub_eq. cbn. by apply p_mul_add.
  - intros a b P. unfold zmul. rewrite un_mk. pose proof (un_nonneg a). pose proof (un_nonneg b). rewrite sb_mul_mod by nia.
    apply sub_eq. cbn. by apply p_mul_mul.
  - intros P. rewrite un_mk, Z.mod_0_l by (pose proof l_pos; lia). by apply sub_eq.
Qed.

(** ** Byte strings as points *)
Definition to_pt (P : ge) : pt :=
  let x := fdiv Fp (mkp (ge_x P)) (mkp (ge_z P)) in let y := fdiv Fp (mkp (ge_y P)) (mkp (ge_z P)) in
  match decide (curve Fp fd x y = f0 Fp) with left E => exist _ (x, y) E | right _ => p_0 end.
Definition to_sub (P : pt) : sub :=
  match cp_dec Fp fd (p_mul ed_l P) p_0 with left E => exist _ P E | right _ => sb_0 end.
Lemma to_pt_good P Q : good P Q -> to_pt P = Q.
Proof.
  intros (Hz & Hx & Hy). unfold to_pt. cbv zeta.
  assert (A : forall X (x : Fp), mkp X = zmul ed_p x (mkp (ge_z P)) -> fdiv Fp (mkp X) (mkp (ge_z P)) = x).
  { intros X x E. apply (cancel Fp HFp _ _ (mkp (ge_z P)) Hz). rewrite (div_mul Fp HFp) by exact Hz. exact E. }
  rewrite (A _ _ Hx), (A _ _ Hy). destruct Q as [[x y] HQ]. cbn [proj1_sig fst snd] in *.
  destruct (decide _) as [E|E]; [by apply (cp_eq Fp fd)|done].
Qed.
Lemma to_sub_ok (Q : sub) : to_sub (`Q) = Q.
Proof.
  unfold to_sub. destruct (cp_dec _ _ _ _) as [E|E]; [by apply sub_eq|]. destruct Q as [Q HQ]. done.
Qed.
Definition ed_point (b : bytes) : sub := match ge_parse b with Some P => to_sub (to_pt P) | None => sb_0 end.
Definition ed_is_point (b : bytes) : Prop := exists Q : sub, b = enc (`Q).
Lemma ed_point_enc (Q : sub) : ed_point (enc (`Q)) = Q.
Proof. unfold ed_point. destruct (parse_enc (`Q)) as (P & -> & HP). rewrite (to_pt_good P (`Q) HP). apply to_sub_ok. Qed.

Section Hash.
Context (H : bytes -> bytes).
Definition ed_reading : reading := {|
  rd_f := Fl; rd_g := ed_group; rd_base := sb_base : ed_group;
  rd_scalar := fun b => mkl (le_num b) : Fl;
  rd_is_scalar := fun b => length b = 32%nat;
  rd_point := fun b => ed_point b : ed_group;
  rd_is_point := ed_is_point;
  rd_challenge := fun E A m => mkl (le_num (H (E ++ A ++ m))) : Fl;
  rd_id := fun i => mkl i : Fl;
  rd_max := 255 |}.

(** ** Scalars *)
Lemma scalar_sc z : mkl (le_num (sc_bytes z)) = mkl z.
Proof. rewrite sc_bytes_num. apply mk_mod. Qed.
Lemma l_255 : 255 < ed_l.
Proof. pose proof ed_l_big. assert (2 ^ 8 < 2 ^ 252) by (apply Z.pow_lt_mono_r; lia). lia. Qed.
Lemma ed_eval_poly coeffs x : mkl (ed_eval coeffs x) = peval Fl (map mkl coeffs) (mkl x).
Proof.
  induction coeffs as [|c l IH]; [done|]. cbn [ed_eval fold_right map peval]. rewrite mk_mod.
  change (fold_right (fun c acc => (c + x * acc) mod ed_l) 0 l) with (ed_eval l x).
  rewrite mk_add, mk_mul, IH. done.
Qed.
Lemma sum_scalars (l : list bytes) : mkl (fold_right (fun s a => le_num s + a) 0 l) = fsum Fl (map (fun b => mkl (le_num b)) l).
Proof. induction l as [|b l IH]; [done|]. cbn [fold_right map]. rewrite mk_add, IH. done. Qed.
Lemma ed_coeffs_length n r : length (ed_coeffs n r) = n.
Proof. revert r. induction n as [|n IH]; intros r; [done|]. cbn [ed_coeffs length]. by rewrite IH. Qed.

(** ** Interpolation *)
Lemma inv_sub i j : mkl (sc_inv ((j - i) mod ed_l)) = zinv ed_l (zsub ed_l (mkl j) (mkl i)).
Proof.
  unfold zinv, zsub, sc_inv. rewrite !un_mk. by rewrite <- Zminus_mod.
Qed.
Lemma lmul_comm a b : zmul ed_l a b = zmul ed_l b a.
Proof. unfold zmul. by rewrite Z.mul_comm. Qed.
Lemma ed_lag_skip l i acc : i ∉ l ->
  mkl (fold_right (fun j acc => if j =? i then acc else (acc * (j * sc_inv ((j - i) mod ed_l))) mod ed_l) acc l) =
  fold_right (fun xj acc => fmul Fl (fdiv Fl xj (fsub Fl xj (mkl i))) acc) (mkl acc) (map mkl l).
Proof.
  intros Hi. induction l as [|j l IH]; [done|]. apply not_elem_of_cons in Hi as [Hne Hi].
  cbn [fold_right map]. destruct (Z.eqb_spec j i); [by subst|]. rewrite mk_mod, !mk_mul, IH by done.
  cbn [fmul fdiv fsub zf]. unfold zdiv. rewrite inv_sub. apply lmul_comm.
Qed.
Lemma ed_lag_coeff ids k i : NoDup ids -> ids !! k = Some i ->
  mkl (ed_lagrange ids i) = lcoeff Fl (map mkl ids) k (mkl i).
Proof.
  intros Hnd Hk. pose proof (take_drop_middle ids k i Hk) as Hs.
  assert (Hnd' : NoDup (take k ids ++ i :: drop (S k) ids)) by (by rewrite Hs).
  apply NoDup_app in Hnd' as (_ & H1 & H2). apply list.NoDup_cons in H2 as [H2 _].
  unfold lcoeff, others. rewrite firstn_map, skipn_map, <- map_app.
  unfold ed_lagrange. rewrite <- Hs at 1. rewrite fold_right_app. cbn [fold_right].
  destruct (Z.eqb_spec i i); [|done]. rewrite ed_lag_skip.
  - rewrite ed_lag_skip by done. rewrite map_app, fold_right_app. done.
  - intros K. apply (H1 i K). left.
Qed.
Lemma ed_sum_pairs ids (z : list (Z * bytes)) :
  mkl (fold_right (fun '(i, s) acc => (ed_lagrange ids i * le_num s + acc) mod ed_l) 0 z) =
  fsum Fl (map (fun '(i, s) => zmul ed_l (mkl (ed_lagrange ids i)) (mkl (le_num s))) z).
Proof.
  induction z as [|[i s] z IH]; [done|]. cbn [fold_right map]. rewrite mk_mod, mk_add, mk_mul, IH. done.
Qed.
Lemma zip_maps {A B A' B'} (f : A -> A') (g : B -> B') l k :
  zip (map f l) (map g k) = map (fun '(x, y) => (f x, g y)) (zip l k).
Proof. revert k. induction l as [|x l IH]; intros [|y k]; simpl; [done..|]. by rewrite IH. Qed.
Lemma ed_combine_interp ids (l : list bytes) : NoDup ids -> length l = length ids ->
  mkl (fold_right (fun '(i, s) acc => (ed_lagrange ids i * le_num s + acc) mod ed_l) 0 (combine ids l)) =
  interpolate Fl (map mkl ids) (map (fun b => mkl (le_num b)) l).
Proof.
  intros Hnd Hl. unfold interpolate. rewrite ed_sum_pairs. f_equal. rewrite zip_maps.
  change (combine ids l) with (zip ids l). apply list_eq. intros k.
  change (map ?f ?l) with (f <$> l). rewrite list_lookup_imap, !list_lookup_fmap.
  destruct (zip ids l !! k) as [[i s]|] eqn:E; [|done]. simpl. f_equal.
  apply lookup_zip_with_Some in E as (i' & s' & [= -> ->] & Hi & _).
  rewrite (ed_lag_coeff ids k i') by done. done.
Qed.

(** ** Points *)
Lemma parse_all l : Forall ed_is_point l -> exists ps (qs : list sub),
  mapM ge_parse l = Some ps /\ Forall2 good ps (map (fun q : sub => `q) qs) /\ map ed_point l = qs.
Proof.
  induction 1 as [|b l [Q ->] _ (ps & qs & Hps & Hf & Hm)]; [exists [], []; split; [done|]; split; [constructor|done]|].
  destruct (parse_enc (`Q)) as (P & HP & HG). exists (P :: ps), (Q :: qs). split; [|split].
  - change (ge_parse (enc (`Q)) ≫= (fun y => mapM ge_parse l ≫= fun k => Some (y :: k)) = Some (P :: ps)). rewrite HP. cbn. by rewrite Hps.
  - by constructor.
  - cbn [map]. by rewrite ed_point_enc, Hm.
Qed.
Lemma fold_sub (qs : list sub) : fold_right p_add p_0 (map (fun q : sub => `q) qs) = ` (@msum Fl ed_group qs).
Proof. induction qs as [|q qs IH]; [done|]. cbn [map fold_right]. by rewrite IH. Qed.

Lemma ed_scheme C : threshold_scheme (with_ed H C) ed_reading.
Proof.
  pose proof l_pos as Hl. pose proof l_255 as Hl2.
  constructor; cbn [rd_f rd_g rd_base rd_scalar rd_is_scalar rd_point rd_is_point rd_challenge rd_id rd_max ed_reading].
  - exact HFl.
  - exact ed_group_module.
  - intros i Hi E. cbn [f0 zf] in E. apply mk_inj in E; lia.
  - intros i j Hi Hj E. apply mk_inj in E; lia.
  - done.
  - intros b Hb. cbn [cr_base with_ed]. unfold ed_base.
    rewrite (ge_bytes_good _ _ (good_mul (le_num b) _ _ good_base)).
    pose proof (le_num_bound b) as Hn.
    change (p_mul (le_num b) p_base) with (` (sb_mul (le_num b) sb_base)). split; [by eexists|].
    rewrite ed_point_enc. cbn [mmul ed_group]. rewrite un_mk, sb_mul_mod by lia. done.
  - intros s r t n Hs Ht Hn. set (coeffs := le_num s :: ed_coeffs (Z.to_nat t - 1) r).
    exists (map mkl coeffs). split; [|split; [|split]].
    + unfold coeffs. cbn [map length]. rewrite map_length, ed_coeffs_length. lia.
    + change (f0 Fl) with (mkl 0). rewrite <- ed_eval_poly. cbn [ed_eval fold_right coeffs]. rewrite mk_mod. f_equal. lia.
    + cbn [cr_deal with_ed]. unfold ed_deal. by rewrite map_length, seq_length.
    + intros i b. cbn [cr_deal with_ed]. unfold ed_deal. fold coeffs. intros Hb.
      change (map ?f ?l) with (f <$> l) in Hb. rewrite list_lookup_fmap in Hb.
      apply fmap_Some in Hb as (k & Hk & ->). split; [apply sc_bytes_length|]. rewrite scalar_sc, ed_eval_poly.
      apply lookup_seq in Hk as [-> _]. do 2 f_equal. lia.
  - intros l _. eexists. split; [reflexivity|]. split; [apply sc_bytes_length|]. split.
    + cbn [cr_sc_minimal with_ed]. rewrite sc_bytes_num. apply Z.ltb_lt. by apply Z.mod_pos_bound.
    + rewrite scalar_sc. apply sum_scalars.
  - intros l Hf. destruct (parse_all l Hf) as (ps & qs & Hps & Hg & Hm). cbn [cr_add_elements with_ed]. unfold ed_add_elements. rewrite Hps.
    eexists. split; [reflexivity|]. rewrite (ge_bytes_good _ _ (good_sum _ _ Hg)), fold_sub. split; [by eexists|].
    rewrite ed_point_enc, <- Hm. done.
  - intros m x k A E _ _ _ _. eexists. split; [reflexivity|]. split; [apply sc_bytes_length|].
    rewrite scalar_sc, mk_add, mk_mul. unfold ed_challenge. rewrite mk_mod. done.
  - intros n ids l _ Hnd _ Hlen _. eexists. split; [reflexivity|]. split; [apply sc_bytes_length|]. split.
    + cbn [cr_sc_minimal with_ed]. rewrite sc_bytes_num. apply Z.ltb_lt. by apply Z.mod_pos_bound.
    + rewrite scalar_sc. by apply ed_combine_interp.
  - intros A m E s [a ->] [e ->] Hs Hm Heq. cbn [cr_verify cr_sc_minimal with_ed] in *. unfold ed_verify.
    rewrite app_length, enc_length, Hs. cbn [negb Nat.eqb Nat.add].
    destruct (parse_enc (`a)) as (pA & HpA & Ha). rewrite HpA. cbv zeta.
    rewrite take_app_alt, drop_app_alt by (by rewrite enc_length). rewrite Hm. cbn [andb]. apply bool_decide_eq_true_2.
    rewrite !ed_point_enc in Heq. cbn [mmul madd ed_group] in Heq. rewrite !un_mk in Heq. fold (ed_challenge H (enc (`e)) (enc (`a)) m) in Heq.
    set (k := ed_challenge H (enc (`e)) (enc (`a)) m) in *.
    assert (Hk : 0 <= k) by (unfold k, ed_challenge; apply Z.mod_pos_bound; lia).
    apply Z.ltb_lt in Hm. pose proof (le_num_bound s) as Hs0. rewrite Z.mod_small in Heq by lia.
    rewrite (ge_bytes_good _ (p_add (p_mul (le_num s) p_base) (p_mul k (p_neg (`a))))).
    2: { apply good_add; [apply good_mul, good_base|by apply good_mul, good_neg]. }
    apply (f_equal (fun q : sub => `q)) in Heq. cbn in Heq. fold (p_mul (le_num s) p_base) in Heq.
    change (p_mul (le_num s) p_base = p_add (`e) (p_mul k (`a))) in Heq. rewrite Heq.
    rewrite p_assoc, <- p_mul_plus, p_add_neg, p_mul_0, p_add_0 by done. done.
Qed.
End Hash.
