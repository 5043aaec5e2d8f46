(** The toy instance satisfies the laws of HidingSpec.v, and a run that meets the hypotheses of C09. *)
From Verif Require Import GoBase Canonical SignState Spec Crypto LocalCosigner Poly Scheme CosignerSpec NonceSpec
  Toy ToyScheme CosignerWitness HidingSpec.
Local Open Scope Z_scope.

Lemma enc_inj a b : mk a = mk b -> toy_enc a = toy_enc b.
Proof. intros H. apply (f_equal un) in H. rewrite !un_mk in H. unfold toy_enc. by rewrite H. Qed.
Lemma toy_deal_at s r t n i b : cr_deal toy s r t n !! i = Some b ->
  b = toy_enc (toy_eval (toy_dec s :: map bz (take (Z.to_nat t - 1) r)) (Z.of_nat i + 1)).
Proof.
  cbn [cr_deal toy]. unfold toy_deal. change (map ?f ?l) with (f <$> l). rewrite list_lookup_fmap.
  intros (k & Hk & ->)%fmap_Some. apply lookup_seq in Hk as [-> _]. do 2 f_equal. lia.
Qed.
Lemma mul_zero_r a x : tadd (mk a) (tmul (mk x) (mk 0)) = mk a.
Proof. rewrite <- mk_mul, <- mk_add. f_equal. ring. Qed.
Lemma zero_mul_l (c x : tz) : tadd c (tmul (mk 0) x) = c.
Proof. rewrite <- (mk_un c), <- (mk_un x), <- mk_mul, <- mk_add. f_equal. ring. Qed.
Lemma toy_hiding sk : hiding_laws toy toy_reading sk.
Proof.
  constructor; cbn [rd_f rd_scalar rd_is_scalar rd_id rd_max toy_reading].
  - intros s t n p Hs Ht Hn Hp H0. set (cs := drop 1 p : list tz).
    assert (Hl : (length cs <= Z.to_nat t - 1)%nat) by (unfold cs; rewrite (drop_length p); clear -Hp; cbn in *; lia).
    exists (map (fun c => zb (un c)) cs). intros i b Hb. apply toy_deal_at in Hb as ->. rewrite scalar_enc, eval_poly.
    assert (Hc : map mk (toy_dec s :: map bz (take (Z.to_nat t - 1) (map (fun c => zb (un c)) cs))) = mk (toy_dec s) :: cs).
    { cbn [map]. f_equal. rewrite take_ge by (by rewrite map_length).
      rewrite !map_map. rewrite <- (map_id cs) at 2. apply map_ext. intros c. rewrite bz_zb, Z.mod_small; [apply mk_un|].
      pose proof (un_range c). unfold toy_q in *. lia. }
    rewrite Hc. destruct p as [|c0 p]; cbn [peval] in H0 |- *; unfold cs; cbn [drop].
    + cbn [peval]. etransitivity; [apply mul_zero_r|]. symmetry. exact H0.
    + rewrite <- H0. f_equal. apply zero_mul_l.
  - intros s r s' r' t n i b b' Hb Hb'. apply toy_deal_at in Hb as ->. apply toy_deal_at in Hb' as ->.
    rewrite !scalar_enc. apply enc_inj.
  - intros m x k x' k' A E s s' [= <-] [= <-]. rewrite !scalar_enc. apply enc_inj.
  - intros. by eexists.
  - intros. by eexists.
Qed.

(** cosigner 1 of a 3-of-4 cluster; peers 2 and 4 send it parts, peer 3 only receives one *)
Definition hpeers : gmap Z bytes := {[1 := [x01]; 2 := [x02]; 3 := [x03]; 4 := [x04]]}.
Definition hcfg (i : Z) : cos_config := CosConfig i (toy_enc (5 + i)) (toy_enc 77) [zb i] 4 3 hpeers.
Definition hpart (i : Z) (b : byte) : part :=
  match get_part toy (hcfg i) wst0 (wkey 11 1) 1 (wrnd b) with (_, Val p) => p | _ => Part 0 0 [] [] None end.
Definition hops : list cop :=
  [OpGet (wkey 11 1) 2 (wrnd x21); OpGet (wkey 11 1) 3 (wrnd x22); OpGet (wkey 11 1) 4 (wrnd x22);
   OpSet (wkey 11 1) (hpart 2 x31) None; OpSet (wkey 11 1) (hpart 4 x41) None;
   OpSign (wsb 11 x0a 1); OpSign (wsb 11 x0a 1)].
Definition hrun : option (cos_state * list (cop * cobs)) := run_ops toy (hcfg 1) wst0 hops.
Definition htrace : list (cop * cobs) := match hrun with Some (_, l) => l | None => [] end.
Definition hend : cos_state := match hrun with Some (st, _) => st | None => wst0 end.
Definition hobs (j : nat) : cobs := default ObsSetOk (snd <$> htrace !! j).

Lemma htrace_is : htrace =
  [(OpGet (wkey 11 1) 2 (wrnd x21), hobs 0); (OpGet (wkey 11 1) 3 (wrnd x22), hobs 1); (OpGet (wkey 11 1) 4 (wrnd x22), hobs 2);
   (OpSet (wkey 11 1) (hpart 2 x31) None, ObsSetOk); (OpSet (wkey 11 1) (hpart 4 x41) None, ObsSetOk);
   (OpSign (wsb 11 x0a 1), hobs 5); (OpSign (wsb 11 x0a 1), hobs 6)].
Proof. vm_compute. reflexivity. Qed.
Lemma hcrun : crun toy (hcfg 1) wst0 htrace hend.
Proof.
  unfold htrace, hend. destruct hrun as [[st l]|] eqn:E; [exact (run_ops_crun _ _ _ _ _ _ E)|].
  assert (H : match hrun with Some _ => true | None => false end = true) by (vm_compute; reflexivity). by rewrite E in H.
Qed.
Definition sets_ok (l1 : list cop) (k : hrst) : bool :=
  match run_ops toy (hcfg 1) wst0 l1 with Some (s, _) => match cs_meta s !! k with Some _ => true | None => false end | None => false end.
Lemma run_ops_of st l st' : crun toy (hcfg 1) st l st' -> run_ops toy (hcfg 1) st (map fst l) = Some (st', l).
Proof. induction 1 as [|st op st1 o l st2 Hs _ IH]; [done|]. simpl. by rewrite Hs, IH. Qed.
Lemma hknown : sets_known toy (hcfg 1) wst0 htrace.
Proof.
  intros l1 k p rnd o l2 stm E Hr. apply run_ops_of in Hr.
  assert (Hc : sets_ok (map fst l1) k = true).
  { clear Hr. apply (f_equal (map fst)) in E. rewrite htrace_is in E. rewrite map_app in E. cbn [map fst] in E.
    generalize dependent (map fst l1). clear l1. intros l1 E. generalize dependent (map fst l2). clear l2. intros l2 E.
    do 3 (destruct l1 as [|? l1]; [discriminate|injection E as <- E]).
    destruct l1 as [|? l1]; [injection E as <- _ _ _; vm_compute; reflexivity|injection E as <- E].
    destruct l1 as [|? l1]; [injection E as <- _ _ _; vm_compute; reflexivity|injection E as <- E].
    do 2 (destruct l1 as [|? l1]; [discriminate|injection E as <- E]). by destruct l1. }
  unfold sets_ok in Hc. rewrite Hr in Hc. destruct (cs_meta stm !! k); [by eexists|discriminate].
Qed.
Lemma h_no_own : no_own_parts (hcfg 1) htrace.
Proof.
  intros k p rnd Hin. rewrite htrace_is in Hin. do 3 (apply elem_of_cons in Hin as [Hin|Hin]; [discriminate|]).
  apply elem_of_cons in Hin as [Hin|Hin]; [injection Hin as _ -> _; vm_compute; discriminate|].
  apply elem_of_cons in Hin as [Hin|Hin]; [injection Hin as _ -> _; vm_compute; discriminate|].
  do 2 (apply elem_of_cons in Hin as [Hin|Hin]; [discriminate|]). by apply elem_of_nil in Hin.
Qed.
Definition part_ok (p : part) : bool :=
  match cr_decrypt toy (cc_rsa (hcfg 1)) (pt_enc p) with
  | Some x => bool_decide (length x = 32%nat) && bool_decide (length (pt_eph p) = 32%nat) | None => false end.
Lemma part_ok_spec p : part_ok p = true ->
  exists x, cr_decrypt toy (cc_rsa (hcfg 1)) (pt_enc p) = Some x /\ rd_is_scalar toy_reading x /\ rd_is_point toy_reading (pt_eph p).
Proof.
  unfold part_ok. destruct (cr_decrypt _ _ _) as [x|]; [|discriminate]. intros [H1 H2]%andb_true_iff.
  exists x. split; [done|]. split; eapply bool_decide_eq_true; [exact H1|exact H2].
Qed.
Lemma h_well_formed : well_formed toy toy_reading (hcfg 1) htrace.
Proof.
  split.
  - intros k p rnd Hin. apply part_ok_spec. rewrite htrace_is in Hin. do 3 (apply elem_of_cons in Hin as [Hin|Hin]; [discriminate|]).
    apply elem_of_cons in Hin as [Hin|Hin]; [injection Hin as _ -> _; vm_compute; reflexivity|].
    apply elem_of_cons in Hin as [Hin|Hin]; [injection Hin as _ -> _; vm_compute; reflexivity|].
    do 2 (apply elem_of_cons in Hin as [Hin|Hin]; [discriminate|]). by apply elem_of_nil in Hin.
  - intros k id rnd o s r Hin Hd. rewrite htrace_is in Hin.
    revert Hin. generalize (hobs 0), (hobs 1), (hobs 2), (hobs 5), (hobs 6). intros ? ? ? ? ? Hin.
    do 3 (apply elem_of_cons in Hin as [Hin|Hin]; [apply (f_equal fst) in Hin; injection Hin as _ _ ->; injection Hd as <- _; reflexivity|]).
    do 4 (apply elem_of_cons in Hin as [Hin|Hin]; [discriminate|]). by apply elem_of_nil in Hin.
Qed.
Lemma h_share : exists r1 r2, hobs 5 = ObsShare (wsb 11 x0a 1) r1 /\ sr_fresh r1 = true /\ hobs 6 = ObsShare (wsb 11 x0a 1) r2 /\ sr_fresh r2 = false.
Proof.
  exists (match hobs 5 with ObsShare _ r => r | _ => SignResp None None false end), (match hobs 6 with ObsShare _ r => r | _ => SignResp None None false end).
  split; [vm_compute; reflexivity|]. split; [vm_compute; reflexivity|]. split; vm_compute; reflexivity.
Qed.
Lemma h_part j : (j < 3)%nat -> exists p, hobs j = ObsPart p.
Proof.
  intros Hj. exists (match hobs j with ObsPart p => p | _ => Part 0 0 [] [] None end).
  destruct j as [|[|[|j]]]; [vm_compute; reflexivity..|lia].
Qed.
Lemma h_once : one_share_per_key htrace.
Proof.
  destruct h_share as (r1 & r2 & E5 & F5 & E6 & F6).
  destruct (h_part 0 ltac:(lia)) as [p0 E0]. destruct (h_part 1 ltac:(lia)) as [p1 E1]. destruct (h_part 2 ltac:(lia)) as [p2 E2].
  assert (H : forall op sb r, (op, ObsShare sb r) ∈ htrace -> sr_fresh r = true -> sb = wsb 11 x0a 1 /\ r = r1).
  { intros op sb r Hin Hf. rewrite htrace_is, E0, E1, E2, E5, E6 in Hin.
    revert Hin. generalize (wsb 11 x0a 1). intros w Hin.
    do 5 (apply elem_of_cons in Hin as [Hin|Hin]; [discriminate|]).
    apply elem_of_cons in Hin as [Hin|Hin]; [injection Hin as _ -> ->; split; reflexivity|].
    apply elem_of_cons in Hin as [Hin|Hin]; [injection Hin as _ _ ->; rewrite F6 in Hf; discriminate Hf|].
    destruct (not_elem_of_nil _ Hin). }
  clear -H. intros op1 op2 sb1 sb2 q1 q2 k H1 H2 Hf1 Hf2 _ _.
  destruct (H _ _ _ H1 Hf1) as [-> ->]. destruct (H _ _ _ H2 Hf2) as [-> ->]. split; reflexivity.
Qed.
