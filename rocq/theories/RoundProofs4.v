(** Cosigners and leader together. *)
From Verif Require Import GoBase Wire Canonical SignState Spec SignStateProofs Crypto LocalCosigner
  Poly Scheme RoundSpec RoundProofs RoundProofs2 RoundProofs3 Validator ValidatorProofs.
Local Open Scope Z_scope.

Lemma omap_map {A B D} (f : A -> B) (g : B -> option D) l : omap g (map f l) = omap (fun x => g (f x)) l.
Proof. induction l as [|x l IH]; [done|]. csimpl. destruct (g (f x)); by rewrite IH. Qed.
Lemma omap_Forall2 {A B} (g : A -> option B) (l : list A) (Q : A -> B -> Prop) (S : A -> Prop)
    `{!forall x, Decision (S x)} :
  (forall x, x ∈ l -> S x -> exists y, g x = Some y /\ Q x y) -> (forall x, x ∈ l -> ~ S x -> g x = None) ->
  Forall2 Q (filter S l) (omap g l).
Proof.
  intros H1 H2. induction l as [|x l IH]; simpl; [constructor|].
  assert (IH' : Forall2 Q (filter S l) (omap g l)).
  { apply IH; intros y Hy; [apply H1|apply H2]; by right. }
  destruct (decide (S x)) as [HS|HS].
  - destruct (H1 x) as (y & -> & Hq); [left|done|]. rewrite filter_cons_True by done. by constructor.
  - rewrite H2 by (by try left). by rewrite filter_cons_False by done.
Qed.

Section Others.
Context (cfg : vconf) (n : Z) (Hids : all_ids cfg n) (ps : Z -> list part) (W : list nat).
Context (HndW : NoDup W) (HW : forall w, w ∈ W -> is_Some (id_of cfg w)).
Let P := map (idw cfg) W.
Context (Hps : forall j, j ∈ P -> (forall i, i ∈ map pt_dest (ps j) <-> 1 <= i <= n /\ i <> j) /\
  Forall (fun p => pt_source p = j) (ps j)).
Lemma idw_inj w w' : w ∈ W -> w' ∈ W -> idw cfg w = idw cfg w' -> w = w'.
Proof.
  intros H H' Heq. destruct (HW w H) as [i Hi], (HW w' H') as [i' Hi']. unfold idw in Heq. rewrite Hi, Hi' in Heq.
  subst i'. eapply id_inj; eauto.
Qed.
Lemma idw_range w : w ∈ W -> 1 <= idw cfg w <= n.
Proof. intros H. destruct (HW w H) as [i Hi]. unfold idw. rewrite Hi. eapply id_range; eauto. Qed.
Lemma parts_for_others o w0 : Permutation o (answers cfg W ps) -> w0 ∈ W ->
  parts_of_others P ps (idw cfg w0) (parts_for cfg o (idw cfg w0)).
Proof.
  intros Ho Hw0. unfold answers in Ho. apply Permutation_map_inv in Ho as (W' & -> & HW').
  set (i := idw cfg w0).
  exists (map (idw cfg) (filter (fun w => w <> w0) W')). split.
  { unfold P. change (i :: map (idw cfg) (filter (fun w => w <> w0) W')) with
      (map (idw cfg) (w0 :: filter (fun w => w <> w0) W')). apply Permutation_map.
    rewrite HW'. assert (Hnd' : NoDup W') by (by rewrite <- HW'). assert (Hin : w0 ∈ W') by (by rewrite <- HW').
    apply NoDup_Permutation.
    - apply list.NoDup_cons. split; [|by apply list.NoDup_filter]. intros [K _]%elem_of_list_filter. done.
    - done.
    - intros w. rewrite elem_of_cons, elem_of_list_filter. destruct (decide (w = w0)) as [->|Hne]; [tauto|]. tauto. }
  unfold parts_for. rewrite omap_map.
  change (map (idw cfg) (filter (fun w => w <> w0) W')) with (idw cfg <$> filter (fun w => w <> w0) W').
  apply Forall2_fmap_l. apply omap_Forall2.
  - intros w Hw Hne. rewrite <- HW' in Hw.
    assert (HwP : idw cfg w ∈ P) by (apply elem_of_list_fmap; eauto).
    destruct (Hps _ HwP) as [Hd Hs].
    assert (Hi : i ∈ map pt_dest (ps (idw cfg w))).
    { apply Hd. split; [by apply idw_range|]. intros K. apply Hne. symmetry. by apply idw_inj. }
    apply elem_of_list_fmap in Hi as (p0 & Hp0 & Hin0).
    unfold first_for. destruct (filter (fun p => pt_dest p = i) (ps (idw cfg w))) as [|p l] eqn:Ef.
    { exfalso. assert (K : p0 ∈ filter (fun p => pt_dest p = i) (ps (idw cfg w))) by (by apply elem_of_list_filter).
      rewrite Ef in K. by apply not_elem_of_nil in K. }
    assert (K : p ∈ filter (fun p => pt_dest p = i) (ps (idw cfg w))) by (rewrite Ef; left).
    apply elem_of_list_filter in K as [Kd Kin]. cbn [head].
    rewrite List.Forall_forall in Hs. assert (Hsp : pt_source p = idw cfg w) by (apply Hs; by apply elem_of_list_In).
    assert (Hex : existsb (fun '(w', _) => bool_decide (id_of cfg w' = Some (pt_source p)))
                    (map (fun w1 => (w1, ps (idw cfg w1))) W') = true).
    { apply existsb_exists. exists (w, ps (idw cfg w)). split.
      - apply in_map_iff. exists w. split; [done|]. apply elem_of_list_In. by rewrite <- HW'.
      - rewrite bool_decide_eq_true. rewrite Hsp. destruct (HW w Hw) as [j Hj]. unfold idw. by rewrite Hj. }
    rewrite Hex. eauto.
  - intros w Hw Hnn. rewrite <- HW' in Hw. destruct (decide (w = w0)) as [->|Hne]; [|done].
    assert (HwP : i ∈ P) by (apply elem_of_list_fmap; eauto).
    destruct (Hps _ HwP) as [Hd _]. unfold first_for. fold i.
    destruct (filter (fun p => pt_dest p = i) (ps i)) as [|p l] eqn:Ef; [done|]. exfalso.
    assert (K : p ∈ filter (fun p => pt_dest p = i) (ps i)) by (rewrite Ef; left).
    apply elem_of_list_filter in K as [Kd Kin].
    assert (K : i ∈ map pt_dest (ps i)) by (apply elem_of_list_fmap; eauto).
    apply Hd in K as [_ K]. done.
Qed.
End Others.

Section Round4.
Context (C : Crypto) (R : reading) (HS : threshold_scheme C R).
Context (vcfg : vconf) (n : Z) (a : list (rd_f R)) (sk : Z -> bytes).
Let t := vc_threshold vcfg.
Let A := vc_pub vcfg.
Context (Hn : 2 <= n <= rd_max R) (Hn' : n <= 255) (Ht : 1 <= t) (Ha : (length a <= Z.to_nat t)%nat).
Context (HA : rd_is_point R A) (HA' : rd_point R A = mmul (peval (rd_f R) a (f0 (rd_f R))) (rd_base R)).

Lemma cluster_round (tid : nat) (v : vstate) (b : block) (ws : list nat)
    (cfg : Z -> cos_config) (st : Z -> cos_state) (order : Z -> list (Z * get_rnd)) emitted :
  all_ids vcfg n -> quorum vcfg ws -> vs_threads v !! tid = None ->
  hrs_lt (ss_hrs (vs_init v)) (b_hrs b) -> hrs_lt (ss_hrs (vs_lss v)) (b_hrs b) ->
  unpack_hrst (b_sb b) = Val (b_key b) ->
  let P := map (idw vcfg) (ws ++ [0%nat]) in
  (forall i, i ∈ P -> member C R a sk n t A i (cfg i) /\ ready C R n t i (st i) (b_key b) /\ asks_all R n (order i)) ->
  exists st1 ps,
    (forall i, i ∈ P -> get_parts C (cfg i) (st i) (b_key b) (order i) = (st1 i, Val (ps i)) /\
       cs_lss (st1 i) = cs_lss (st i)) /\
    forall sd sel, sd_peers sd = ws -> fair vcfg sd ps ->
    (forall w, w ∈ sd_all sd -> map fst (sel (idw vcfg w)) = parts_for vcfg (sd_order sd w) (idw vcfg w)) ->
    exists E st2 sig, (forall i, i ∈ P ->
      set_and_sign C (cfg i) (st1 i) (b_key b) (sel i) (b_sb b) =
        (st2 i, Val (SignResp (Some E) (Some (sig i)) true))) /\
    exists s l v', vrun C vcfg v l v' /\ map fst l = honest_ops vcfg tid b sd ps sig E emitted /\
      (VEmit tid emitted, OReturn tid b (VR (Some (E ++ s)) (b_ts b) None) true) ∈ l /\
      cr_verify C A (b_sb b) (E ++ s) = true /\
      (forall op w k x m, (op, OAsk tid w k x m) ∈ l -> w ∈ sd_all sd /\ k = b_key b /\ m = b_sb b /\
         x = map fst (sel (idw vcfg w))) /\
      ss_hrs (vs_lss v') = b_hrs b.
Proof.
  intros Hids Hq Hnone Hi Hl Hu P Hall. pose proof Hq as (Hnd & H0 & Hws & Hlen).
  set (W := ws ++ [0%nat]) in *.
  assert (HndW : NoDup W).
  { apply NoDup_app. split; [done|]. split; [|apply NoDup_singleton].
    intros w Hw Hw'. apply elem_of_list_singleton in Hw' as ->. done. }
  assert (HW : forall w, w ∈ W -> is_Some (id_of vcfg w)).
  { intros w [Hw|Hw]%elem_of_app; [by apply Hws|]. apply elem_of_list_singleton in Hw as ->. by eexists. }
  assert (HndP : NoDup P).
  { apply NoDup_fmap_2_strong; [|done]. intros w w' Hw Hw'. by apply (idw_inj vcfg n Hids W HW). }
  assert (HlenP : Z.of_nat (length P) = t).
  { unfold P. rewrite map_length. unfold W. rewrite app_length. simpl. unfold t. lia. }
  assert (HrP : forall i, i ∈ P -> 1 <= i <= n).
  { intros i Hin. apply elem_of_list_fmap in Hin as (w & -> & Hw). by apply (idw_range vcfg n Hids W HW). }
  destruct (round_ok C R HS a sk n t A (b_key b) Hn Ht Ha HA HA' cfg st order P (b_sb b) HndP HlenP HrP Hu Hall)
    as (st1 & ps & Hp1 & Hp2).
  exists st1, ps. split; [intros i Hin; destruct (Hp1 i Hin) as (K1 & K2 & _); done|].
  intros sd sel Hsd Hfair Hsel.
  assert (HsdW : sd_all sd = W) by (unfold sd_all, W; by rewrite Hsd).
  destruct (Hp2 sel) as (E & st2 & sig & Hs2 & Hcomb).
  { intros i Hin. pose proof Hin as Hin'. apply elem_of_list_fmap in Hin' as (w & -> & Hw).
    rewrite Hsel by (by rewrite HsdW). destruct Hfair as (_ & _ & Ho).
    apply (parts_for_others vcfg n Hids ps W HndW HW); [|rewrite <- HsdW; apply Ho; by rewrite HsdW|done].
    intros j Hj. destruct (Hp1 j Hj) as (_ & _ & Hd & Hsrc). split; [|done]. intros i. rewrite Hd.
    rewrite elem_of_list_filter. destruct (Hall j Hj) as (_ & _ & [Hperm _]). rewrite Hperm, elem_of_seqZ.
    split; intros; split_and!; lia. }
  exists E, st2, sig. split; [intros i Hin; by destruct (Hs2 i Hin)|].
  destruct (Hcomb (sorted P n)) as (s & Hc & Hv); [by apply sorted_perm|].
  destruct (leader_ok C vcfg n tid b ps sig E Hids ltac:(lia) v sd s emitted) as (l & v' & Hr & Hm & Hret & Hask & Hss).
  - by rewrite Hsd.
  - done.
  - done.
  - done.
  - done.
  - done.
  - intros i Hin. rewrite HsdW in Hin. destruct (Hs2 i Hin) as [_ Hl32]. intros K. by rewrite K in Hl32.
  - by rewrite HsdW.
  - done.
  - exists s, l, v'. split_and!; try done.
    intros op w k x m Hop. destruct (Hask _ _ _ _ _ Hop) as (K1 & K2 & K3 & ->). split_and!; try done.
    symmetry. by apply Hsel.
Qed.
End Round4.
