(** Roots, uniqueness and existence of interpolating polynomials. *)
From Verif Require Import GoBase Poly.

Section PolyProofs.
Context (F : field_ops) (HF : is_field F).
Let HF' : field_theory (f0 F) (f1 F) (fadd F) (fmul F) (fsub F) (fopp F) (fdiv F) (finv F)
  (@eq (fcar F)) := HF.
Add Field Fd : HF'.
Local Notation "0" := (f0 F).
Local Notation "1" := (f1 F).
Local Notation "x + y" := (fadd F x y).
Local Notation "x * y" := (fmul F x y).
Local Notation "x - y" := (fsub F x y).
Local Notation "x / y" := (fdiv F x y).
Local Notation "- x" := (fopp F x).
Local Notation peval := (peval F).

Lemma one_ne_zero : 1 <> 0.
Proof. apply HF. Qed.
Lemma mul_zero x y : x <> 0 -> x * y = 0 -> y = 0.
Proof. intros Hx H. transitivity ((x * y) / x); [field; done|]. rewrite H. field. done. Qed.
Lemma sub_ne x y : x <> y -> x - y <> 0.
Proof. intros H E. apply H. transitivity ((x - y) + y); [ring|]. rewrite E. ring. Qed.
Lemma sub_eq x y : x - y = 0 -> x = y.
Proof. intros E. transitivity ((x - y) + y); [ring|]. rewrite E. ring. Qed.

(** ** Division by X - r *)
Fixpoint quot (p : list F) (r : F) : list F :=
  match p with
  | [] => []
  | _ :: p' => match p' with [] => [] | _ => peval p' r :: quot p' r end
  end.
Lemma quot_length p r : length (quot p r) = pred (length p).
Proof.
  induction p as [|c p IH]; [done|]. destruct p as [|d p]; [done|].
  change (quot (c :: d :: p) r) with (peval (d :: p) r :: quot (d :: p) r).
  simpl length in *. by rewrite IH.
Qed.
Lemma quot_eval p r x : peval p x = peval p r + (x - r) * peval (quot p r) x.
Proof.
  induction p as [|c p IH]; [simpl; ring|]. destruct p as [|d p]; [simpl; ring|].
  change (quot (c :: d :: p) r) with (peval (d :: p) r :: quot (d :: p) r).
  set (p' := d :: p) in *. cbn [Poly.peval]. rewrite IH. ring.
Qed.
Lemma quot_zero p r : peval p r = 0 -> Forall (eq 0) (quot p r) -> Forall (eq 0) p.
Proof.
  induction p as [|c p IH]; [done|]. destruct p as [|d p].
  - intros H _. cbn in H. constructor; [|done]. rewrite <- H. ring.
  - change (quot (c :: d :: p) r) with (peval (d :: p) r :: quot (d :: p) r).
    set (p' := d :: p) in *. intros H Hq. cbn [Poly.peval] in H.
    apply List.Forall_cons_iff in Hq as [H0 Hq]. constructor; [|apply IH; done].
    rewrite <- H, <- H0. ring.
Qed.
(** a polynomial of n coefficients with n distinct roots is 0 *)
Lemma roots_zero p xs : (length p <= length xs)%nat -> NoDup xs ->
  (forall x, x ∈ xs -> peval p x = 0) -> Forall (eq 0) p.
Proof.
  revert p. induction xs as [|r xs IH]; intros p Hl Hn Hr.
  - destruct p; [done|simpl in Hl; lia].
  - apply list.NoDup_cons in Hn as [Hnr Hn].
    assert (H0 : peval p r = 0) by (apply Hr; left).
    apply (quot_zero p r); [done|]. apply IH; [|done|].
    + rewrite quot_length. simpl in Hl. lia.
    + intros x Hx. apply (mul_zero (x - r)).
      * apply sub_ne. intros ->. done.
      * transitivity (peval p x); [|apply Hr; by right]. rewrite (quot_eval p r x), H0. ring.
Qed.

(** ** Operations *)
Definition psub (p q : list F) : list F := zip_with (fsub F) p q.
Lemma psub_eval p q x : length p = length q -> peval (psub p q) x = peval p x - peval q x.
Proof.
  revert q. induction p as [|c p IH]; intros [|d q] H; try done; [cbn; ring|].
  cbn [psub zip_with Poly.peval]. fold (psub p q). rewrite IH by (simpl in H; lia). ring.
Qed.
Lemma psub_zero p q : length p = length q -> Forall (eq 0) (psub p q) -> p = q.
Proof.
  revert q. induction p as [|c p IH]; intros [|d q] H Hz; try done.
  cbn [psub zip_with] in Hz. apply List.Forall_cons_iff in Hz as [H0 Hz]. f_equal.
  - by apply sub_eq.
  - apply IH; [simpl in H; lia|done].
Qed.
(** two polynomials of n coefficients that agree at n points are equal *)
Lemma agree_eq p q xs : length p = length q -> (length p <= length xs)%nat -> NoDup xs ->
  (forall x, x ∈ xs -> peval p x = peval q x) -> p = q.
Proof.
  intros Hl Hx Hn H. apply psub_zero; [done|]. apply (roots_zero _ xs); [|done|].
  - unfold psub. rewrite zip_with_length. lia.
  - intros x Hi. rewrite psub_eval, H by done. ring.
Qed.

(** functions given by a polynomial of [n] coefficients *)
Definition is_poly (n : nat) (f : F -> F) : Prop :=
  exists p, length p = n /\ forall x, f x = peval p x.
Lemma is_poly_pad n m f : (n <= m)%nat -> is_poly n f -> is_poly m f.
Proof.
  intros Hm (p & Hl & Hp). exists (p ++ replicate (m - n) 0). split.
  - rewrite app_length, replicate_length. lia.
  - intros x. rewrite Hp. clear Hp Hl Hm. induction p as [|c p IH]; cbn [app Poly.peval].
    + induction (m - n)%nat as [|k IHk]; cbn [replicate Poly.peval]; [done|]. rewrite <- IHk. ring.
    + by rewrite IH.
Qed.
Lemma is_poly_zero n : is_poly n (fun _ => 0).
Proof. apply (is_poly_pad 0%nat); [lia|]. by exists []. Qed.
Lemma is_poly_add n f g : is_poly n f -> is_poly n g -> is_poly n (fun x => f x + g x).
Proof.
  intros (p & Hl & Hp) (q & Hm & Hq). exists (zip_with (fadd F) p q).
  split; [rewrite zip_with_length; lia|]. intros x. rewrite Hp, Hq. clear Hp Hq.
  subst n. revert q Hm. induction p as [|c p IH]; intros [|d q] H; try done; [cbn; ring|].
  cbn [zip_with Poly.peval]. rewrite <- IH by (simpl in H; lia). ring.
Qed.
Lemma is_poly_scale n c f : is_poly n f -> is_poly n (fun x => c * f x).
Proof.
  intros (p & Hl & Hp). exists (map (fmul F c) p). split; [by rewrite map_length|].
  intros x. rewrite Hp. clear Hp Hl. induction p as [|d p IH]; cbn [map Poly.peval]; [ring|].
  rewrite <- IH. ring.
Qed.
Lemma is_poly_const c : is_poly 1 (fun _ => c).
Proof. exists [c]. split; [done|]. intros x. cbn. ring. Qed.
Lemma is_poly_ext n f g : (forall x, f x = g x) -> is_poly n f -> is_poly n g.
Proof. intros E (p & Hl & Hp). exists p. split; [done|]. intros x. by rewrite <- E. Qed.
(** multiplication by [a X + b] *)
Lemma is_poly_lin n a b f : is_poly n f -> is_poly (S n) (fun x => (a * x + b) * f x).
Proof.
  intros (p & Hl & Hp).
  assert (H1 : is_poly (S n) (fun x => a * (x * peval p x))).
  { apply is_poly_scale. exists (0 :: p). split; [simpl; lia|]. intros x. cbn. ring. }
  assert (H2 : is_poly (S n) (fun x => b * peval p x)).
  { apply is_poly_scale, (is_poly_pad n); [lia|]. by exists p. }
  eapply is_poly_ext; [|exact (is_poly_add _ _ _ H1 H2)]. intros x. cbn. rewrite Hp. ring.
Qed.
(** product of [(x - x_j) * c_j] *)
Definition lprod (l : list F) (x y : F) : F :=
  fold_right (fun xj acc => ((x - xj) / (y - xj)) * acc) 1 l.
Lemma lprod_poly l y : Forall (fun xj => y <> xj) l -> is_poly (S (length l)) (fun x => lprod l x y).
Proof.
  induction 1 as [|xj l Hne _ IH]; [exact (is_poly_const 1)|].
  eapply is_poly_ext; [|exact (is_poly_lin _ (1 / (y - xj)) (- (xj / (y - xj))) _ IH)].
  intros x. cbn. fold (lprod l x y). field. by apply sub_ne.
Qed.
Lemma lprod_same l y : Forall (fun xj => y <> xj) l -> lprod l y y = 1.
Proof.
  induction 1 as [|xj l Hne _ IH]; [done|]. cbn. fold (lprod l y y). rewrite IH. field. by apply sub_ne.
Qed.
Lemma lprod_other l x y : Forall (fun xj => y <> xj) l -> x ∈ l -> lprod l x y = 0.
Proof.
  induction 1 as [|xj l Hne _ IH]; intros Hx; [by apply not_elem_of_nil in Hx|].
  cbn. fold (lprod l x y). apply elem_of_cons in Hx as [->|Hx].
  - field. by apply sub_ne.
  - rewrite (IH Hx). field. by apply sub_ne.
Qed.
Lemma lprod_zero l y : Forall (fun xj => y <> xj) l ->
  lprod l 0 y = fold_right (fun xj acc => (xj / (xj - y)) * acc) 1 l.
Proof.
  induction 1 as [|xj l Hne _ IH]; [done|]. cbn. fold (lprod l 0 y). rewrite IH. field.
  split; apply sub_ne; done.
Qed.

(** ** Sums over positions *)
Lemma fsum_cons x l : fsum F (x :: l) = x + fsum F l.
Proof. done. Qed.
Lemma fsum_app l1 l2 : fsum F (l1 ++ l2) = fsum F l1 + fsum F l2.
Proof. induction l1 as [|x l IH]; [change (fsum F l2 = 0 + fsum F l2); ring|]. cbn [app]. rewrite !fsum_cons, IH. ring. Qed.
Lemma fsum_zero l : Forall (eq 0) l -> fsum F l = 0.
Proof. induction 1 as [|x l Hx _ IH]; [done|]. rewrite fsum_cons, <- Hx, IH. ring. Qed.
Lemma fsum_perm l1 l2 : Permutation l1 l2 -> fsum F l1 = fsum F l2.
Proof.
  induction 1; [done|by rewrite !fsum_cons, IHPermutation| |congruence].
  rewrite !fsum_cons. ring.
Qed.
(** only the [k]-th summand is not 0 *)
Lemma fsum_single (l : list F) k v : l !! k = Some v ->
  (forall i w, i <> k -> l !! i = Some w -> w = 0) -> fsum F l = v.
Proof.
  revert k. induction l as [|x l IH]; intros k Hk H; [done|]. rewrite fsum_cons. destruct k as [|k].
  - injection Hk as ->. rewrite fsum_zero; [ring|]. apply Forall_lookup. intros i w Hw. symmetry.
    by apply (H (S i)).
  - rewrite (H 0%nat x), (IH k); [ring|done| |done|done]. intros i w Hi Hw. by apply (H (S i)); [lia|].
Qed.

(** the interpolating function *)
Definition lagr (xs ys : list F) (x : F) : F :=
  fsum F (imap (fun i '(xi, yi) => lprod (others F xs i) x xi * yi) (zip xs ys)).
Lemma others_in xs i x : x ∈ others F xs i <-> exists j, j <> i /\ xs !! j = Some x.
Proof.
  unfold others. rewrite elem_of_app. split.
  - intros [H|H].
    + apply elem_of_take in H as (j & Hj & Hlt). exists j. split; [lia|done].
    + apply elem_of_list_lookup in H as (j & Hj). rewrite lookup_drop in Hj.
      exists (S i + j)%nat. split; [lia|done].
  - intros (j & Hne & Hj). destruct (decide (j < i)%nat).
    + left. apply elem_of_take. exists j. done.
    + right. apply elem_of_list_lookup. exists (j - S i)%nat. rewrite lookup_drop.
      by replace (S i + (j - S i))%nat with j by lia.
Qed.
Lemma others_length (xs : list F) i : (i < length xs)%nat -> length (others F xs i) = pred (length xs).
Proof. intros H. unfold others. rewrite app_length, take_length, drop_length. lia. Qed.
Lemma others_ne xs i x : NoDup xs -> xs !! i = Some x -> Forall (fun xj => x <> xj) (others F xs i).
Proof.
  intros Hn Hi. apply List.Forall_forall. intros y Hy ->. apply elem_of_list_In, others_in in Hy as (j & Hne & Hj).
  apply Hne. eapply NoDup_lookup; eauto.
Qed.
Lemma zip_lookup (xs ys : list F) i x y :
  zip xs ys !! i = Some (x, y) <-> xs !! i = Some x /\ ys !! i = Some y.
Proof.
  rewrite lookup_zip_with_Some. split.
  - intros (x' & y' & E & H1 & H2). injection E as -> ->. done.
  - intros [H1 H2]. by exists x, y.
Qed.
Lemma lagr_poly xs ys : NoDup xs -> is_poly (length xs) (lagr xs ys).
Proof.
  intros Hn. unfold lagr.
  assert (H : forall (l : list (F * F)) k, (forall i x y, l !! i = Some (x, y) -> xs !! (k + i)%nat = Some x) ->
            is_poly (length xs) (fun x => fsum F (imap (fun i '(xi, yi) => lprod (others F xs (k + i)%nat) x xi * yi) l))).
  { induction l as [|[x0 y0] l IH]; intros k Hl; [apply is_poly_zero|].
    assert (H0 : xs !! k = Some x0) by (specialize (Hl 0%nat x0 y0); rewrite Nat.add_0_r in Hl; by apply Hl).
    assert (H1 : is_poly (length xs) (fun x => y0 * lprod (others F xs k) x x0)).
    { apply is_poly_scale. apply lookup_lt_Some in H0 as Hlt.
      pose proof (lprod_poly (others F xs k) x0 (others_ne _ _ _ Hn H0)) as HP.
      rewrite others_length in HP by done. by replace (S (pred (length xs))) with (length xs) in HP by lia. }
    assert (H2 : is_poly (length xs) (fun x => fsum F (imap (fun i '(xi, yi) => lprod (others F xs (S k + i)%nat) x xi * yi) l))).
    { apply IH. intros i x y Hi. replace (S k + i)%nat with (k + S i)%nat by lia. by apply (Hl (S i) x y). }
    eapply is_poly_ext; [|exact (is_poly_add _ _ _ H1 H2)]. intros x. cbn [imap].
    rewrite fsum_cons, Nat.add_0_r. f_equal; [ring|]. f_equal. apply imap_ext.
    intros i [xi yi] _. cbn. by rewrite Nat.add_succ_r. }
  apply (H (zip xs ys) 0%nat). intros i x y Hi. by apply zip_lookup in Hi as [Hi _].
Qed.
Lemma lagr_at xs ys k x y : NoDup xs -> length ys = length xs ->
  xs !! k = Some x -> ys !! k = Some y -> lagr xs ys x = y.
Proof.
  intros Hn Hl Hx Hy. unfold lagr.
  rewrite (fsum_single _ k (lprod (others F xs k) x x * y)).
  - rewrite lprod_same; [ring|]. by apply others_ne.
  - rewrite list_lookup_imap, (proj2 (zip_lookup xs ys k x y)) by done. done.
  - intros i w Hi Hw. rewrite list_lookup_imap in Hw.
    destruct (zip xs ys !! i) as [[xi yi]|] eqn:E; [|done]. injection Hw as <-.
    apply zip_lookup in E as [E _]. rewrite lprod_other; [ring|by apply others_ne|].
    apply others_in. exists k. split; [lia|done].
Qed.
Lemma lagr_zero xs ys : NoDup xs -> lagr xs ys 0 = interpolate F xs ys.
Proof.
  intros Hn. unfold lagr, interpolate. f_equal. apply imap_ext. intros i [x y] Hi. cbn.
  apply zip_lookup in Hi as [Hi _]. unfold lcoeff. by rewrite lprod_zero by (by apply others_ne).
Qed.

(** ** The two facts about sharing *)

(** C54: interpolation recovers the value at 0 from enough points *)
Lemma interpolate_eval p xs : NoDup xs -> (length p <= length xs)%nat ->
  interpolate F xs (map (peval p) xs) = peval p 0.
Proof.
  intros Hn Hl. rewrite <- lagr_zero by done.
  destruct (lagr_poly xs (map (peval p) xs) Hn) as (q & Hq & Hqe). rewrite Hqe.
  destruct (is_poly_pad (length p) (length xs) (peval p)) as (p' & Hp' & Hpe); [done|by exists p|].
  rewrite Hpe. f_equal. apply (agree_eq q p' xs); [congruence|lia|done|].
  intros x Hx. rewrite <- Hqe, <- Hpe. apply elem_of_list_lookup in Hx as (k & Hk).
  apply (lagr_at _ _ k); [done|by rewrite map_length|done|].
  change (map (peval p) xs) with (peval p <$> xs). by rewrite list_lookup_fmap, Hk.
Qed.
(** C55: a secret and the values at t-1 points determine exactly one polynomial *)
Lemma interpolate_exists xs ys : NoDup xs -> length ys = length xs ->
  exists p, length p = length xs /\ (forall k x y, xs !! k = Some x -> ys !! k = Some y -> peval p x = y) /\
    forall q, length q = length xs ->
      (forall k x y, xs !! k = Some x -> ys !! k = Some y -> peval q x = y) -> q = p.
Proof.
  intros Hn Hl. destruct (lagr_poly xs ys Hn) as (p & Hp & Hpe). exists p. split; [done|].
  assert (Hv : forall k x y, xs !! k = Some x -> ys !! k = Some y -> peval p x = y).
  { intros k x y Hx Hy. rewrite <- Hpe. by apply (lagr_at _ _ k). }
  split; [done|]. intros q Hq H. apply (agree_eq q p xs); [congruence|lia|done|].
  intros x Hx. apply elem_of_list_lookup in Hx as (k & Hk).
  destruct (lookup_lt_is_Some_2 ys k) as [y Hy]; [apply lookup_lt_Some in Hk; lia|].
  transitivity y; [by eapply H|symmetry; by eapply Hv].
Qed.

(** linearity *)
Lemma imap_zip_add (f : nat -> F -> F) xs ys zs : length ys = length zs ->
  fsum F (imap (fun i '(x, y) => f i x * y) (zip xs (zip_with (fadd F) ys zs))) =
  fsum F (imap (fun i '(x, y) => f i x * y) (zip xs ys)) +
  fsum F (imap (fun i '(x, y) => f i x * y) (zip xs zs)).
Proof.
  revert f ys zs. induction xs as [|x xs IH]; intros f [|y ys] [|z zs] H; try done; [cbn; ring..|].
  change (zip (x :: xs) (zip_with (fadd F) (y :: ys) (z :: zs)))
    with ((x, y + z) :: zip xs (zip_with (fadd F) ys zs)).
  change (zip (x :: xs) (y :: ys)) with ((x, y) :: zip xs ys).
  change (zip (x :: xs) (z :: zs)) with ((x, z) :: zip xs zs).
  rewrite !imap_cons, !fsum_cons.
  pose proof (IH (fun i => f (S i)) ys zs ltac:(simpl in H; lia)) as E.
  assert (X : forall l : list (F * F), imap ((fun i '(x0, y0) => f i x0 * y0) ∘ S) l =
            imap (fun i '(x0, y0) => f (S i) x0 * y0) l) by (intros l; apply imap_ext; by intros i [? ?] _).
  rewrite (X (zip xs ys)), (X (zip xs zs)), (X (zip xs (zip_with (fadd F) ys zs))), E. ring.
Qed.
Lemma interpolate_add xs ys zs : length ys = length zs ->
  interpolate F xs (zip_with (fadd F) ys zs) = interpolate F xs ys + interpolate F xs zs.
Proof. apply imap_zip_add. Qed.
Lemma interpolate_scale xs c ys : interpolate F xs (map (fmul F c) ys) = c * interpolate F xs ys.
Proof.
  unfold interpolate. generalize (lcoeff F xs). intros f. revert f ys.
  induction xs as [|x xs IH]; intros f [|y ys]; try (cbn; ring).
  change (zip (x :: xs) (map (fmul F c) (y :: ys))) with ((x, c * y) :: zip xs (map (fmul F c) ys)).
  change (zip (x :: xs) (y :: ys)) with ((x, y) :: zip xs ys).
  rewrite !imap_cons, !fsum_cons.
  assert (X : forall l : list (F * F), imap ((fun i '(x0, y0) => f i x0 * y0) ∘ S) l =
            imap (fun i '(x0, y0) => f (S i) x0 * y0) l) by (intros l; apply imap_ext; by intros i [? ?] _).
  rewrite (X (zip xs ys)), (X (zip xs (map (fmul F c) ys))), (IH (fun i => f (S i)) ys). ring.
Qed.
End PolyProofs.
