(** The shares of one honest round combine to a valid signature. *)
From Verif Require Import GoBase Wire Canonical SignState Spec Crypto LocalCosigner Poly PolyProofs
  Scheme RoundSpec RoundProofs.

Lemma list_choice {X} (d : X) (Q : Z -> X -> Prop) (P : list Z) :
  (forall i, i ∈ P -> exists x, Q i x) -> exists f, forall i, i ∈ P -> Q i (f i).
Proof.
  induction P as [|i P IH]; intros H.
  - exists (fun _ => d). intros i Hi. by apply not_elem_of_nil in Hi.
  - destruct IH as [f Hf]; [intros j Hj; apply H; by right|]. destruct (H i) as [x Hx]; [left|].
    exists (fun j => if decide (j = i) then x else f j). intros j Hj.
    destruct (decide (j = i)) as [->|Hne]; [done|]. apply elem_of_cons in Hj as [Hj|Hj]; [done|by apply Hf].
Qed.

Section Algebra.
Context (F : field_ops) (HF : is_field F).
Let HF' : field_theory (f0 F) (f1 F) (fadd F) (fmul F) (fsub F) (fopp F) (fdiv F) (finv F)
  (@eq (fcar F)) := HF.
Add Field Fd2 : HF'.
(** interpolation of sums of polynomial values *)
Lemma interpolate_sum (xs : list F) (ps : list (list F)) (c : F) (a : list F) :
  NoDup xs -> (length a <= length xs)%nat -> Forall (fun p => (length p <= length xs)%nat) ps ->
  interpolate F xs (map (fun x => fadd F (fsum F (map (fun p => peval F p x) ps)) (fmul F c (peval F a x))) xs)
  = fadd F (fsum F (map (fun p => peval F p (f0 F)) ps)) (fmul F c (peval F a (f0 F))).
Proof.
  intros Hn Ha. induction 1 as [|p ps Hp _ IH]; cbn [map].
  - change (fsum F []) with (f0 F).
    rewrite <- (interpolate_eval F HF a xs Hn Ha), <- (interpolate_scale F HF), map_map.
    match goal with |- _ = fadd F _ ?y => transitivity y; [|ring] end.
    f_equal. apply map_ext. intros x. ring.
  - rewrite fsum_cons. rewrite <- (interpolate_eval F HF p xs Hn Hp).
    match goal with |- _ = ?rhs => transitivity (fadd F (interpolate F xs (map (peval F p) xs))
      (fadd F (fsum F (map (fun p => peval F p (f0 F)) ps)) (fmul F c (peval F a (f0 F))))); [|ring] end.
    rewrite <- IH, <- (interpolate_add F HF) by (by rewrite !map_length). f_equal.
    clear -HF HF'. induction xs as [|x xs IHx]; [done|]. cbn [map zip_with]. rewrite IHx, fsum_cons. f_equal. ring.
Qed.
Context (G : module_ops F) (HG : is_module F G).
Lemma msum_mul (l : list F) (B : G) : msum (map (fun x => mmul x B) l) = mmul (fsum F l) B.
Proof.
  induction l as [|x l IH]; [symmetry; apply HG|]. cbn [map msum fold_right].
  fold (msum (map (fun x => mmul x B) l)). rewrite IH, fsum_cons, (mod_add_l _ _ HG). done.
Qed.
End Algebra.

Section Round.
Context (C : Crypto) (R : reading) (HS : threshold_scheme C R).
Context (a : list (rd_f R)) (sk : Z -> bytes) (n t : Z) (A : bytes) (k : hrst).
Context (Hn : 2 <= n <= rd_max R) (Ht : 1 <= t) (Ha : (length a <= Z.to_nat t)%nat)
  (HA : rd_is_point R A) (HAv : rd_point R A = mmul (peval (rd_f R) a (f0 (rd_f R))) (rd_base R)).

Lemma filter_perm_others (ids : list (Z * get_rnd)) i j :
  Permutation (map fst ids) (seqZ 1 n) -> j ∈ filter (fun j => j <> i) (map fst ids) <-> 1 <= j <= n /\ j <> i.
Proof.
  intros Hp. rewrite elem_of_list_filter, Hp, elem_of_seqZ. split; intros [? ?]; split; try done; lia.
Qed.

Lemma round_ok (cfg : Z -> cos_config) (st : Z -> cos_state) (order : Z -> list (Z * get_rnd)) (P : list Z) sb :
  NoDup P -> Z.of_nat (length P) = t -> (forall i, i ∈ P -> 1 <= i <= n) -> unpack_hrst sb = Val k ->
  (forall i, i ∈ P -> member C R a sk n t A i (cfg i) /\ ready C R n t i (st i) k /\ asks_all R n (order i)) ->
  exists st1 ps, (forall i, i ∈ P -> get_parts C (cfg i) (st i) k (order i) = (st1 i, Val (ps i)) /\
      cs_lss (st1 i) = cs_lss (st i) /\ map pt_dest (ps i) = filter (fun j => j <> i) (map fst (order i)) /\
      Forall (fun p => pt_source p = i) (ps i)) /\
    forall sel, (forall i, i ∈ P -> parts_of_others P ps i (map fst (sel i))) ->
    exists E st2 sig, (forall i, i ∈ P ->
        set_and_sign C (cfg i) (st1 i) k (sel i) sb =
          (st2 i, Val (SignResp (Some E) (Some (sig i)) true)) /\ length (sig i) = 32%nat) /\
      forall ids, Permutation ids P -> exists s, cr_combine C n ids (map sig ids) = Some s /\
        cr_verify C A sb (E ++ s) = true.
Proof.
  intros Hnd Hlen Hrange Hu Hall.
  (* phase 1 *)
  set (Q1 := fun i (x : cos_state * list part * meta * list (rd_f R) * bytes * (Z -> bytes)) =>
      let '(st', ps, m, p, E, dealt) := x in
      get_parts C (cfg i) (st i) k (order i) = (st', Val ps) /\
      (length p <= Z.to_nat t)%nat /\ rd_is_point R E /\
      rd_point R E = mmul (peval (rd_f R) p (f0 (rd_f R))) (rd_base R) /\
      (forall j, 1 <= j <= n -> rd_is_scalar R (dealt j) /\
         rd_scalar R (dealt j) = peval (rd_f R) p (rd_id R j)) /\
      Forall2 (fun j p => good_part C R sk i j E (dealt j) p)
        (filter (fun j => j <> i) (map fst (order i))) ps /\
      cs_lss st' = cs_lss (st i) /\
      forall own eph, own i = dealt i -> eph i = E -> holds_at C n k st' m i dealt own eph [i]).
  assert (H1 : exists f, forall i, i ∈ P -> Q1 i (f i)).
  { apply list_choice; [exact (new_cosigner (SS (HRS 0 0 0) None None None ∅), [], Meta [] [] 0%nat, [], [], fun _ => [])|].
    intros i Hi. destruct (Hall i Hi) as (Hm & Hr & Hask).
    destruct (get_parts_ok C R HS a sk n t A k ltac:(lia) Ht (cfg i) (order i) (st i) i Hm (Hrange i Hi) ltac:(lia) Hr Hask)
      as (st' & ps & m & p & E & dealt & H). exists (st', ps, m, p, E, dealt). exact H. }
  destruct H1 as [f Hf].
  set (st1 := fun i => let '(s, _, _, _, _, _) := f i in s).
  set (ps := fun i => let '(_, x, _, _, _, _) := f i in x).
  set (mt := fun i => let '(_, _, x, _, _, _) := f i in x).
  set (pol := fun i => let '(_, _, _, x, _, _) := f i in x).
  set (eph := fun i => let '(_, _, _, _, x, _) := f i in x).
  set (dealt := fun i => let '(_, _, _, _, _, x) := f i in x).
  assert (Hf' : forall i, i ∈ P ->
      get_parts C (cfg i) (st i) k (order i) = (st1 i, Val (ps i)) /\
      (length (pol i) <= Z.to_nat t)%nat /\ rd_is_point R (eph i) /\
      rd_point R (eph i) = mmul (peval (rd_f R) (pol i) (f0 (rd_f R))) (rd_base R) /\
      (forall j, 1 <= j <= n -> rd_is_scalar R (dealt i j) /\
         rd_scalar R (dealt i j) = peval (rd_f R) (pol i) (rd_id R j)) /\
      Forall2 (fun j p => good_part C R sk i j (eph i) (dealt i j) p)
        (filter (fun j => j <> i) (map fst (order i))) (ps i) /\
      cs_lss (st1 i) = cs_lss (st i) /\
      forall own eph', own i = dealt i i -> eph' i = eph i -> holds_at C n k (st1 i) (mt i) i (dealt i) own eph' [i]).
  { intros i Hi. specialize (Hf i Hi). unfold Q1 in Hf. unfold st1, ps, mt, pol, eph, dealt.
    destruct (f i) as [[[[[? ?] ?] ?] ?] ?]. exact Hf. }
  clear Hf Q1. clearbody st1 ps mt pol eph dealt. clear f.
  exists st1, ps. split.
  { intros i Hi. destruct (Hf' i Hi) as (Hg & _ & _ & _ & _ & Hps & Hl & _). split; [done|]. split; [done|].
    split; [|].
    - clear -Hps. induction Hps as [|j p js l (_ & Hd & _) _ IH]; [done|]. cbn [map]. by rewrite Hd, IH.
    - clear -Hps. induction Hps as [|j p js l (Hs & _) _ IH]; constructor; done. }
  (* phase 2 *)
  intros sel Hsel.
  set (S := sorted P n).
  assert (HS' : Permutation S P) by (by apply sorted_perm).
  set (Q2 := fun i (x : cos_state * bytes * bytes) => let '(st2, E, sig) := x in
    set_and_sign C (cfg i) (st1 i) k (sel i) sb = (st2, Val (SignResp (Some E) (Some sig) true)) /\
    cr_add_elements C (map eph S) = Some E /\ rd_is_point R E /\
    rd_point R E = msum (map (fun j => rd_point R (eph j)) S) /\ rd_is_scalar R sig /\
    rd_scalar R sig = fadd (rd_f R) (fsum (rd_f R) (map (fun j => rd_scalar R (dealt j i)) S))
                        (fmul (rd_f R) (rd_challenge R E A sb) (peval (rd_f R) a (rd_id R i)))).
  assert (H2 : exists g, forall i, i ∈ P -> Q2 i (g i)).
  { apply list_choice; [exact (new_cosigner (SS (HRS 0 0 0) None None None ∅), [], [])|].
    intros i Hi. destruct (Hall i Hi) as (Hm & [_ Hlt] & _).
    destruct (Hf' i Hi) as (_ & _ & _ & _ & _ & _ & Hl & Hh).
    specialize (Hh (fun j => dealt j i) eph eq_refl eq_refl).
    destruct (Hsel i Hi) as (js & Hjs & Hps).
    assert (Hjsin : forall j, j ∈ js -> j ∈ P /\ j <> i).
    { intros j Hj. split; [rewrite <- Hjs; by right|]. intros ->.
      assert (Hnd' : NoDup (i :: js)) by (by rewrite Hjs). by apply list.NoDup_cons in Hnd' as [? _]. }
    destruct (set_parts_ok C R a sk n t A k (cfg i) (st1 i) (mt i) i (dealt i) (fun j => dealt j i) eph [i] js (sel i))
      as (st2 & Hset & Hh2 & Hl2); [done|intros j Hj; apply Hrange; by apply Hjsin|done| |].
    { clear -Hps Hf' Hjsin Hall Hrange Hi Hn. revert Hps. generalize (sel i) as l. induction js as [|j js IH]; intros l H.
      - apply Forall2_nil_inv_l in H. destruct l; [constructor|done].
      - apply Forall2_cons_inv_l in H as (p & ps' & [Hin Hd] & H & E). destruct l as [|[p' r] l]; [done|].
        simpl in E. injection E as <- <-. constructor; [|apply IH; [intros q Hq; apply Hjsin; by right|done]].
        simpl. destruct (Hjsin j) as [HjP Hne]; [left|].
        destruct (Hf' j HjP) as (_ & _ & _ & _ & _ & Hps & _). destruct (Hall j HjP) as (_ & _ & [Hperm _]).
        clear -Hps Hin Hd. apply elem_of_list_lookup in Hin as (q & Hq).
        destruct (Forall2_lookup_r _ _ _ _ _ Hps Hq) as (i' & _ & Hg). pose proof Hg as (_ & Hd' & _).
        rewrite Hd in Hd'. by subst i'. }
    assert (Hh3 : holds_at C n k st2 (mt i) i (dealt i) (fun j => dealt j i) eph P).
    { revert Hh2. apply holds_ext. intros j. rewrite <- Hjs, elem_of_app, elem_of_list_singleton, elem_of_cons.
      rewrite !elem_of_list_In, <- in_rev. tauto. }
    destruct (sign_ok C R HS a sk n t A k ltac:(lia) (cfg i) st2 (mt i) i (dealt i) (fun j => dealt j i) eph P sb)
      as (st3 & E & sig & Hsg & HE); [done|done|done| |rewrite Hl2, Hl; done|done|].
    { intros j Hj. destruct (Hf' j Hj) as (_ & _ & Hpt & _ & Hd & _). split; [by apply Hrange|].
      split; [apply Hd, Hrange, Hi|done]. }
    exists (st3, E, sig). unfold Q2, set_and_sign. rewrite Hset. done. }
  destruct H2 as [g Hg]. unfold Q2 in Hg. clear Q2.
  (* all the same nonce point *)
  destruct (decide (P = [])) as [->|HPne].
  { simpl in Hlen. lia. }
  destruct P as [|i0 P0] eqn:EP; [done|]. rewrite <- EP in *. clear HPne.
  assert (Hi0 : i0 ∈ P) by (rewrite EP; left).
  set (E := let '(_, x, _) := g i0 in x).
  assert (HE : cr_add_elements C (map eph S) = Some E /\ rd_is_point R E /\
            rd_point R E = msum (map (fun j => rd_point R (eph j)) S)).
  { specialize (Hg i0 Hi0). unfold E. destruct (g i0) as [[? ?] ?]. destruct Hg as (_ & ? & ? & ? & _). done. }
  clearbody E. destruct HE as (HE & HEp & HEv).
  exists E, (fun i => let '(x, _, _) := g i in x), (fun i => let '(_, _, x) := g i in x).
  assert (Hg' : forall i, i ∈ P -> let '(st2, _, sig) := g i in
    set_and_sign C (cfg i) (st1 i) k (sel i) sb = (st2, Val (SignResp (Some E) (Some sig) true)) /\
    rd_is_scalar R sig /\
    rd_scalar R sig = fadd (rd_f R) (fsum (rd_f R) (map (fun j => rd_scalar R (dealt j i)) S))
                        (fmul (rd_f R) (rd_challenge R E A sb) (peval (rd_f R) a (rd_id R i)))).
  { intros i Hi. specialize (Hg i Hi). destruct (g i) as [[x y] z]. destruct Hg as (X1 & X2 & _ & _ & X3 & X4).
    rewrite HE in X2. injection X2 as <-. done. }
  clear Hg. split.
  { intros i Hi. specialize (Hg' i Hi). destruct (g i) as [[x y] z]. destruct Hg' as (X1 & X2 & _).
    split; [done|]. by apply (sch_scalar_len C R HS). }
  (* phase 3 *)
  intros ids Hids. set (sig := fun i => let '(_, _, x) := g i in x).
  assert (Hsig : forall i, i ∈ P -> rd_is_scalar R (sig i) /\
    rd_scalar R (sig i) = fadd (rd_f R) (fsum (rd_f R) (map (fun p => peval (rd_f R) p (rd_id R i)) (map pol S)))
                        (fmul (rd_f R) (rd_challenge R E A sb) (peval (rd_f R) a (rd_id R i)))).
  { intros i Hi. specialize (Hg' i Hi). unfold sig. destruct (g i) as [[x y] z]. destruct Hg' as (_ & X1 & X2).
    split; [done|]. rewrite X2. f_equal. f_equal. rewrite map_map. apply map_ext_in. intros j Hj.
    apply elem_of_list_In in Hj. assert (HjP : j ∈ P) by (by rewrite <- HS').
    destruct (Hf' j HjP) as (_ & _ & _ & _ & Hd & _). apply Hd. by apply Hrange. }
  clearbody sig. clear Hg'.
  assert (Hin : forall i, i ∈ ids -> i ∈ P) by (intros i Hi; by rewrite <- Hids).
  destruct (sch_combine C R HS n ids (map sig ids)) as (s & Hs & Hss & Hsm & Hsv);
    [lia|by rewrite Hids|intros i Hi; by apply Hrange, Hin|by rewrite map_length| |].
  { apply List.Forall_forall. intros b Hb. apply elem_of_list_In, elem_of_list_fmap in Hb as (i & -> & Hi).
    by apply Hsig, Hin. }
  exists s. split; [done|]. apply (sch_verify C R HS); [done|done|done|done|].
  set (xs := map (rd_id R) ids) in *.
  assert (Hxs : NoDup xs).
  { unfold xs. apply NoDup_fmap_2_strong; [|by rewrite Hids].
    intros i j Hi Hj E'. pose proof (Hrange i (Hin i Hi)). pose proof (Hrange j (Hin j Hj)).
    apply (sch_id_inj C R HS); [lia|lia|done]. }
  assert (Hxl : length xs = Z.to_nat t).
  { unfold xs. rewrite map_length, Hids. lia. }
  assert (Hval : map (rd_scalar R) (map sig ids) =
    map (fun x => fadd (rd_f R) (fsum (rd_f R) (map (fun p => peval (rd_f R) p x) (map pol S)))
                        (fmul (rd_f R) (rd_challenge R E A sb) (peval (rd_f R) a x))) xs).
  { unfold xs. rewrite !map_map. apply map_ext_in. intros i Hi. apply elem_of_list_In in Hi. by apply Hsig, Hin. }
  rewrite Hsv, Hval, (interpolate_sum _ (sch_field C R HS)); [|done|lia|].
  2:{ apply List.Forall_forall. intros p Hp. apply elem_of_list_In, elem_of_list_fmap in Hp as (j & -> & Hj).
      rewrite HS' in Hj. destruct (Hf' j Hj) as (_ & Hl & _). lia. }
  pose proof (sch_module C R HS) as HM.
  rewrite (mod_add_l _ _ HM), (mod_mul _ _ HM), HAv, HEv. f_equal.
  rewrite <- (msum_mul _ _ HM), !map_map. f_equal. apply map_ext_in. intros j Hj. apply elem_of_list_In in Hj.
  rewrite HS' in Hj. destruct (Hf' j Hj) as (_ & _ & _ & Hb & _). by rewrite Hb.
Qed.
End Round.
