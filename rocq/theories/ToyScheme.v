(** The toy instance satisfies every hypothesis of the theorems about successful signing. *)
From Verif Require Import GoBase Crypto Toy Poly PolyProofs Scheme.
Local Open Scope Z_scope.

(** integers modulo 251 *)
Definition tz := { z : Z | (z mod toy_q =? z) = true }.
Lemma mk_ok z : ((z mod toy_q) mod toy_q =? z mod toy_q) = true.
Proof. apply Z.eqb_eq. apply Z.mod_mod. done. Qed.
Definition mk (z : Z) : tz := exist _ (z mod toy_q) (mk_ok z).
Definition un (a : tz) : Z := proj1_sig a.
Lemma tz_eq (a b : tz) : un a = un b -> a = b.
Proof.
  destruct a as [a Ha], b as [b Hb]; simpl; intros <-. f_equal. apply Eqdep_dec.UIP_dec, Bool.bool_dec.
Qed.
Lemma un_mod a : un a mod toy_q = un a.
Proof. destruct a as [a Ha]. simpl. by apply Z.eqb_eq in Ha. Qed.
Lemma un_range a : 0 <= un a < toy_q.
Proof. rewrite <- un_mod. by apply Z.mod_pos_bound. Qed.
Lemma mk_eq a b : a mod toy_q = b mod toy_q -> mk a = mk b.
Proof. intros H. apply tz_eq. done. Qed.
Lemma mk_un a : mk (un a) = a.
Proof. apply tz_eq. simpl. apply un_mod. Qed.
Lemma un_mk z : un (mk z) = z mod toy_q.
Proof. done. Qed.

Definition tadd (a b : tz) := mk (un a + un b).
Definition tmul (a b : tz) := mk (un a * un b).
Definition topp (a : tz) := mk (- un a).
Definition tsub (a b : tz) := mk (un a - un b).
Definition tinv (a : tz) := mk (toy_inv (un a)).
Definition tdiv (a b : tz) := tmul a (tinv b).
Definition tf : field_ops := FieldOps tz (mk 0) (mk 1) tadd tmul tsub topp tdiv tinv.

Lemma mk_add a b : mk (a + b) = tadd (mk a) (mk b).
Proof. apply mk_eq. rewrite !un_mk. by rewrite Zplus_mod. Qed.
Lemma mk_mul a b : mk (a * b) = tmul (mk a) (mk b).
Proof. apply mk_eq. rewrite !un_mk. by rewrite Zmult_mod. Qed.
Lemma mk_sub a b : mk (a - b) = tsub (mk a) (mk b).
Proof. apply mk_eq. rewrite !un_mk. by rewrite Zminus_mod. Qed.
Lemma mk_opp a : mk (- a) = topp (mk a).
Proof.
  apply mk_eq. rewrite un_mk. replace (- (a mod toy_q)) with (0 - a mod toy_q) by lia.
  by rewrite Zminus_mod_idemp_r.
Qed.
Lemma mk_mod a : mk (a mod toy_q) = mk a.
Proof. apply mk_eq. by apply Z.mod_mod. Qed.

Lemma inv_table : forallb (fun k => (toy_inv (Z.of_nat k) * Z.of_nat k) mod toy_q =? 1) (List.seq 1 250) = true.
Proof. vm_compute. reflexivity. Qed.
Lemma inv_ok z : 1 <= z < toy_q -> (toy_inv z * z) mod toy_q = 1.
Proof.
  intros H. pose proof inv_table as T. rewrite forallb_forall in T. specialize (T (Z.to_nat z)).
  rewrite Z2Nat.id in T by lia. apply Z.eqb_eq, T, in_seq. unfold toy_q in H. lia.
Qed.
Ltac tz_ring := intros; repeat match goal with a : tz |- _ => rewrite <- (mk_un a); generalize (un a); clear a; intros a end;
  repeat rewrite <- ?mk_add, <- ?mk_mul, <- ?mk_opp, <- ?mk_sub; f_equal; ring.
Lemma tf_field : is_field tf.
Proof.
  unfold is_field. constructor.
  - constructor; simpl; try (tz_ring; fail).
  - intros H. apply (f_equal un) in H. vm_compute in H. discriminate.
  - done.
  - simpl. intros p Hp. unfold tinv. apply tz_eq. unfold tmul. rewrite !un_mk.
    pose proof (un_range p) as Hr. assert (un p <> 0).
    { intros K. apply Hp. apply tz_eq. rewrite K. done. }
    rewrite <- (un_mod p) at 2. rewrite <- Zmult_mod. rewrite inv_ok by lia. done.
Qed.

Definition tg : module_ops tf := ModuleOps tf tz tadd (mk 0) tmul.
Lemma tg_module : is_module tf tg.
Proof. constructor; simpl; try (tz_ring; fail). Qed.

Definition toy_reading : reading := {|
  rd_f := tf; rd_g := tg; rd_base := mk 1 : tg;
  rd_scalar := fun b => mk (toy_dec b);
  rd_is_scalar := fun b => length b = 32%nat;
  rd_point := fun b => mk (toy_dec b) : tg;
  rd_is_point := fun b => length b = 32%nat;
  rd_challenge := fun E A m => mk (toy_ch E A m);
  rd_id := mk;
  rd_max := 250 |}.

Lemma enc_len z : length (toy_enc z) = 32%nat.
Proof. done. Qed.
Lemma dec_enc z : toy_dec (toy_enc z) = z mod toy_q.
Proof.
  unfold toy_enc, toy_dec. pose proof (Z.mod_pos_bound z toy_q ltac:(done)) as H. rewrite bz_zb. apply Z.mod_small. unfold toy_q in *. lia.
Qed.
Lemma scalar_enc z : mk (toy_dec (toy_enc z)) = mk z.
Proof. rewrite dec_enc. apply mk_mod. Qed.
Lemma eval_poly coeffs x : mk (toy_eval coeffs x) = peval tf (map mk coeffs) (mk x).
Proof.
  induction coeffs as [|c l IH]; [done|]. cbn [toy_eval fold_right map peval]. rewrite mk_mod.
  change (fold_right (fun c acc => (c + x * acc) mod toy_q) 0 l) with (toy_eval l x).
  rewrite mk_add, mk_mul, IH. done.
Qed.
Lemma sum_fold (l : list bytes) : mk (fold_right (fun s a => toy_dec s + a) 0 l) = fsum tf (map (fun b => mk (toy_dec b)) l).
Proof. induction l as [|b l IH]; [done|]. cbn [fold_right map]. rewrite mk_add, IH. done. Qed.

Lemma inv_sub i j : mk (toy_inv (j - i)) = tinv (tsub (mk j) (mk i)).
Proof.
  unfold tinv, tsub. rewrite !un_mk. unfold toy_inv. rewrite Z.mod_mod by done. by rewrite <- Zminus_mod.
Qed.
Lemma tmul_comm a b : tmul a b = tmul b a.
Proof. tz_ring. Qed.
Lemma lag_skip l i acc : i ∉ l ->
  mk (fold_right (fun j acc => if j =? i then acc else (acc * (j * toy_inv (j - i))) mod toy_q) acc l) =
  fold_right (fun xj acc => fmul tf (fdiv tf xj (fsub tf xj (mk i))) acc) (mk acc) (map mk l).
Proof.
  intros Hi. induction l as [|j l IH]; [done|]. apply not_elem_of_cons in Hi as [Hne Hi].
  cbn [fold_right map]. destruct (Z.eqb_spec j i); [by subst|]. rewrite mk_mod, !mk_mul, IH by done.
  cbn [fmul fdiv fsub tf]. unfold tdiv. rewrite inv_sub. apply tmul_comm.
Qed.
Lemma lag_coeff ids k i : NoDup ids -> ids !! k = Some i ->
  mk (toy_lagrange ids i) = lcoeff tf (map mk ids) k (mk i).
Proof.
  intros Hnd Hk. pose proof (take_drop_middle ids k i Hk) as Hs.
  assert (Hnd' : NoDup (take k ids ++ i :: drop (S k) ids)) by (by rewrite Hs).
  apply NoDup_app in Hnd' as (_ & H1 & H2). apply list.NoDup_cons in H2 as [H2 _].
  unfold lcoeff, others. rewrite firstn_map, skipn_map, <- map_app.
  unfold toy_lagrange. rewrite <- Hs at 1. rewrite fold_right_app. cbn [fold_right].
  destruct (Z.eqb_spec i i); [|done]. rewrite lag_skip.
  - rewrite lag_skip by done. rewrite map_app, fold_right_app. done.
  - intros K. apply (H1 i K). left.
Qed.
Lemma sum_pairs ids (z : list (Z * bytes)) :
  mk (fold_right (fun '(i, s) acc => (toy_lagrange ids i * toy_dec s + acc) mod toy_q) 0 z) =
  fsum tf (map (fun '(i, s) => tmul (mk (toy_lagrange ids i)) (mk (toy_dec s))) z).
Proof.
  induction z as [|[i s] z IH]; [done|]. cbn [fold_right map]. rewrite mk_mod, mk_add, mk_mul, IH. done.
Qed.
Lemma zip_maps {A B A' B'} (f : A -> A') (g : B -> B') l k :
  zip (map f l) (map g k) = map (fun '(x, y) => (f x, g y)) (zip l k).
Proof. revert k. induction l as [|x l IH]; intros [|y k]; simpl; [done..|]. by rewrite IH. Qed.
Lemma combine_interp ids (l : list bytes) : NoDup ids -> length l = length ids ->
  mk (fold_right (fun '(i, s) acc => (toy_lagrange ids i * toy_dec s + acc) mod toy_q) 0 (combine ids l)) =
  interpolate tf (map mk ids) (map (fun b => mk (toy_dec b)) l).
Proof.
  intros Hnd Hl. unfold interpolate. rewrite sum_pairs. f_equal. rewrite zip_maps.
  change (combine ids l) with (zip ids l). apply list_eq. intros k.
  change (map ?f ?l) with (f <$> l). rewrite list_lookup_imap, !list_lookup_fmap.
  destruct (zip ids l !! k) as [[i s]|] eqn:E; [|done]. simpl. f_equal.
  apply lookup_zip_with_Some in E as (i' & s' & [= -> ->] & Hi & _).
  rewrite (lag_coeff ids k i') by done. done.
Qed.

Lemma mk_inj i j : 0 <= i < toy_q -> 0 <= j < toy_q -> mk i = mk j -> i = j.
Proof.
  intros Hi Hj H. apply (f_equal un) in H. rewrite !un_mk in H. by rewrite !Z.mod_small in H by done.
Qed.
Lemma msum_fsum (l : list tz) : @msum tf tg l = fsum tf l.
Proof. done. Qed.

Lemma toy_scheme : threshold_scheme toy toy_reading.
Proof.
  constructor; cbn [rd_f rd_g rd_base rd_scalar rd_is_scalar rd_point rd_is_point rd_challenge rd_id rd_max toy_reading].
  - exact tf_field.
  - exact tg_module.
  - intros i Hi H. apply mk_inj in H; unfold toy_q in *; lia.
  - intros i j Hi Hj H. apply mk_inj in H; unfold toy_q in *; lia.
  - done.
  - intros b Hb. split; [done|]. cbn [cr_base toy]. rewrite scalar_enc. cbn [mmul tg].
    rewrite <- mk_mul. f_equal. ring.
  - intros s r t n Hs Ht Hn. set (coeffs := toy_dec s :: map bz (take (Z.to_nat t - 1) r)).
    exists (map mk coeffs). split; [|split; [|split]].
    + unfold coeffs. cbn [map length]. rewrite !map_length. pose proof (firstn_le_length (Z.to_nat t - 1) r). lia.
    + change (f0 tf) with (mk 0). rewrite <- eval_poly. cbn [toy_eval fold_right coeffs]. rewrite mk_mod. f_equal. lia.
    + cbn [cr_deal toy]. unfold toy_deal. by rewrite map_length, seq_length.
    + intros i b. cbn [cr_deal toy]. unfold toy_deal. fold coeffs. intros H.
      change (map ?f ?l) with (f <$> l) in H. rewrite list_lookup_fmap in H.
      apply fmap_Some in H as (k & Hk & ->). split; [done|]. rewrite scalar_enc, eval_poly.
      apply lookup_seq in Hk as [-> _]. do 2 f_equal. lia.
  - intros l _. eexists. split; [reflexivity|]. split; [done|]. split.
    + cbn [cr_sc_minimal toy]. rewrite dec_enc. apply Z.ltb_lt. by apply Z.mod_pos_bound.
    + rewrite scalar_enc. apply sum_fold.
  - intros l _. eexists. split; [reflexivity|]. split; [done|]. rewrite scalar_enc. apply sum_fold.
  - intros m x k A E _ _ _ _. eexists. split; [reflexivity|]. split; [done|].
    rewrite scalar_enc, mk_add, mk_mul. done.
  - intros n ids l _ Hnd _ Hl _. eexists. split; [reflexivity|]. split; [done|]. split.
    { cbn [cr_sc_minimal toy]. rewrite dec_enc. apply Z.ltb_lt. by apply Z.mod_pos_bound. }
    rewrite scalar_enc. by apply combine_interp.
  - intros A m E s HA HE Hs _ H. cbn [cr_verify toy]. rewrite app_length, HE, Hs.
    rewrite take_app_alt, drop_app_alt by done. apply andb_true_iff. split; [done|]. apply Z.eqb_eq.
    cbn [mmul madd tg] in H. rewrite <- !mk_mul, <- mk_add in H. apply (f_equal un) in H.
    rewrite !un_mk in H. by rewrite Z.mul_1_r in H.
Qed.
Lemma strip_app p l : strip p (p ++ l) = Some l.
Proof. unfold strip. rewrite take_app, drop_app. by rewrite bool_decide_eq_true_2. Qed.
Lemma toy_rsa k : rsa_pair toy toy_reading k k.
Proof.
  constructor.
  - intros m r _. eexists. split; [reflexivity|]. cbn [cr_decrypt toy]. apply strip_app.
  - intros p r. eexists. split; [reflexivity|]. cbn [cr_rsa_verify toy]. by apply bool_decide_eq_true_2.
Qed.
