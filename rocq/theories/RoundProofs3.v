(** The leader's part of an honest round. *)
From Verif Require Import GoBase Wire Canonical SignState Spec SignStateProofs Crypto LocalCosigner
  Poly Scheme RoundSpec RoundProofs Validator ValidatorProofs.
Local Open Scope Z_scope.

Lemma seqZ_S m n : 0 < n -> seqZ m n = m :: seqZ (m + 1) (n - 1).
Proof. intros H. rewrite (seqZ_cons m n) by lia. by rewrite Z.add_1_r, Z.sub_1_r. Qed.
Lemma collect_map (f : Z -> bytes) (P : list Z) n i : 0 <= n -> (forall j, j ∈ P -> f j <> []) ->
  collect_sigs i (map (fun j => if decide (j ∈ P) then f j else []) (seqZ (i + 1) n)) =
  map (fun j => (j, f j)) (filter (fun j => j ∈ P) (seqZ (i + 1) n)).
Proof.
  intros Hn Hf. revert i. pattern n. apply natlike_ind; [done| |done]. clear n Hn.
  intros n Hn IH i. rewrite (seqZ_S (i + 1)) by lia. replace (Z.succ n - 1) with n by lia. cbn [map].
  destruct (decide (i + 1 ∈ P)) as [H|H].
  - rewrite filter_cons_True by done. cbn [map]. rewrite <- IH.
    specialize (Hf _ H). destruct (f (i + 1)); done.
  - rewrite filter_cons_False by done. rewrite <- IH. done.
Qed.

Section Leader.
Context (C : Crypto) (cfg : vconf) (n : Z) (t : nat) (b : block) (ps : Z -> list part)
  (sig : Z -> bytes) (E : bytes).
Context (Hids : all_ids cfg n) (Hn : 1 <= n <= 255).

Lemma id_range w i : id_of cfg w = Some i -> 1 <= i <= n.
Proof.
  intros H. assert (Hin : i ∈ vc_id cfg :: vc_peers cfg).
  { destruct w as [|w]; simpl in H; [injection H as <-; left|right; by eapply elem_of_list_lookup_2]. }
  unfold all_ids in Hids. rewrite Hids in Hin. apply elem_of_seqZ in Hin. clear -Hin. lia.
Qed.
Lemma ids_nodup : NoDup (vc_id cfg :: vc_peers cfg).
Proof. unfold all_ids in Hids. rewrite Hids. apply NoDup_seqZ. Qed.
Lemma id_inj w w' i : id_of cfg w = Some i -> id_of cfg w' = Some i -> w = w'.
Proof.
  intros H H'. apply (NoDup_lookup (vc_id cfg :: vc_peers cfg) w w' i ids_nodup).
  - destruct w; done.
  - destruct w'; done.
Qed.
Lemma total_n : v_total cfg = n.
Proof.
  unfold v_total. unfold all_ids in Hids.
  assert (H : length (vc_id cfg :: vc_peers cfg) = length (seqZ 1 n)) by (by rewrite Hids).
  rewrite seqZ_length in H. simpl in H.
  replace (Z.of_nat (length (vc_peers cfg)) + 1) with n by lia. apply Z.mod_small. lia.
Qed.

(** call [t] is at [pc]; the sign states are those of [v] *)
Definition at_pc (v st : vstate) (pc : vpc) : Prop :=
  vs_lss st = vs_lss v /\ vs_init st = vs_init v /\ vs_threads st !! t = Some (Thread b pc).
Lemma at_set v st pc pc' : at_pc v st pc -> at_pc v (set_pc st t b pc') pc'.
Proof. intros (H1 & H2 & _). split; [done|]. split; [done|]. simpl. by rewrite lookup_insert. Qed.
Lemma step_at v st pc op o st' : at_pc v st pc -> op_thread op = Some t ->
  thread_step C cfg st t b pc op = VOk st' o -> vstep C cfg st op = VOk st' o.
Proof.
  intros (_ & _ & H) Hop Hs. destruct op; simpl in Hop; try done; injection Hop as ->;
    cbn [vstep op_thread]; rewrite H; exact Hs.
Qed.

Lemma collect_run v st ws got ans :
  at_pc v st (PcCollect None got ans) -> NoDup ws -> (forall w, w ∈ ws -> w <> 0%nat /\ w ∉ ans /\ is_Some (id_of cfg w)) ->
  Z.of_nat (length got) + Z.of_nat (length ws) <= vc_threshold cfg - 1 ->
  exists l st' ans', vrun C cfg st l st' /\ map fst l = map (fun w => VParts t w (Some (ps (idw cfg w)))) ws /\
    (forall x, x ∈ l -> snd x = OTau) /\ at_pc v st' (PcCollect None (got ++ answers cfg ws ps) ans').
Proof.
  revert st got ans. induction ws as [|w ws IH]; intros st got ans Hat Hnd Hw Hlen.
  - exists [], st, ans. rewrite app_nil_r. split; [constructor|]. split; [done|].
    split; [intros x Hx; by apply not_elem_of_nil in Hx|done].
  - apply list.NoDup_cons in Hnd as [Hni Hnd]. destruct (Hw w) as (H0 & Ha & [i Hi]); [left|].
    set (st1 := set_pc st t b (PcCollect None (got ++ [(w, ps i)]) (w :: ans))).
    assert (Hs : vstep C cfg st (VParts t w (Some (ps (idw cfg w)))) = VOk st1 OTau).
    { eapply step_at; [exact Hat|done|]. cbn [thread_step]. unfold do_parts, idw. rewrite Hi.
      rewrite bool_decide_eq_false_2 by tauto. simpl in Hlen.
      destruct (Z.ltb_spec (Z.of_nat (length got)) (vc_threshold cfg - 1)); [done|lia]. }
    destruct (IH st1 (got ++ [(w, ps i)]) (w :: ans)) as (l & st' & ans' & Hr & Hm & Ho & Hat').
    + by eapply at_set.
    + done.
    + intros w' Hw'. destruct (Hw w') as (K1 & K2 & K3); [by right|]. split; [done|]. split; [|done].
      intros [->|K]%elem_of_cons; done.
    + rewrite app_length. simpl in *. lia.
    + exists ((VParts t w (Some (ps (idw cfg w))), OTau) :: l), st', ans'.
      split; [econstructor; eauto|]. split; [simpl; by rewrite Hm|]. split.
      * intros x [->|Hx]%elem_of_cons; [done|by apply Ho].
      * rewrite <- app_assoc in Hat'. unfold answers in *. cbn [map app] in *. unfold idw at 1. by rewrite Hi.
Qed.
Lemma ask_run v st got (order : nat -> list (nat * list part)) asked ans sigs eph todo :
  at_pc v st (PcSign got asked ans sigs eph) -> NoDup todo ->
  (forall w, w ∈ todo -> w ∈ map fst got /\ w ∉ asked /\ is_Some (id_of cfg w) /\ Permutation (order w) got) ->
  exists l st', vrun C cfg st l st' /\ map fst l = map (fun w => VAsk t w (order w)) todo /\
    (forall x, x ∈ l -> exists w, w ∈ todo /\ snd x = OAsk t w (b_key b) (parts_for cfg (order w) (idw cfg w)) (b_sb b)) /\
    at_pc v st' (PcSign got (rev todo ++ asked) ans sigs eph).
Proof.
  revert st asked. induction todo as [|w todo IH]; intros st asked Hat Hnd Hw.
  - exists [], st. split; [constructor|]. split; [done|].
    split; [intros x Hx; by apply not_elem_of_nil in Hx|done].
  - apply list.NoDup_cons in Hnd as [Hni Hnd]. destruct (Hw w) as (H0 & Ha & [i Hi] & Hp); [left|].
    set (st1 := set_pc st t b (PcSign got (w :: asked) ans sigs eph)).
    assert (Hs : vstep C cfg st (VAsk t w (order w)) =
              VOk st1 (OAsk t w (b_key b) (parts_for cfg (order w) (idw cfg w)) (b_sb b))).
    { eapply step_at; [exact Hat|done|]. cbn [thread_step]. unfold do_ask, idw. rewrite Hi.
      rewrite bool_decide_eq_true_2 by done. done. }
    destruct (IH st1 (w :: asked)) as (l & st' & Hr & Hm & Ho & Hat').
    + by eapply at_set.
    + done.
    + intros w' Hw'. destruct (Hw w') as (K1 & K2 & K3 & K4); [by right|]. split; [done|]. split; [|done].
      intros [->|K]%elem_of_cons; done.
    + eexists (_ :: l), st'. split; [econstructor; eauto|]. split; [simpl; by rewrite Hm|]. split.
      * intros x [->|Hx]%elem_of_cons; [exists w; split; [left|done]|].
        destruct (Ho x Hx) as (w' & Hw' & Hx'). exists w'. split; [by right|done].
      * simpl. rewrite <- app_assoc. done.
Qed.
(** shareSignatures when the cosigners in [D] have answered *)
Definition sig_slots (D : list Z) : list bytes := map (fun j => if decide (j ∈ D) then sig j else []) (seqZ 1 n).
Definition eph_of (D : list Z) : option bytes := if decide (vc_id cfg ∈ D) then Some E else None.
Lemma sig_run v st got asked ans D todo :
  at_pc v st (PcSign got asked ans (sig_slots D) (eph_of D)) -> NoDup todo ->
  (forall w, w ∈ todo -> w ∈ asked /\ w ∉ ans /\ is_Some (id_of cfg w)) ->
  exists l st', vrun C cfg st l st' /\ map fst l = map (fun w => VSig t w (Some (sig (idw cfg w), E))) todo /\
    (forall x, x ∈ l -> snd x = OTau) /\
    at_pc v st' (PcSign got asked (rev todo ++ ans) (sig_slots (rev (map (idw cfg) todo) ++ D))
                   (eph_of (rev (map (idw cfg) todo) ++ D))).
Proof.
  revert st ans D. induction todo as [|w todo IH]; intros st ans D Hat Hnd Hw.
  - exists [], st. split; [constructor|]. split; [done|].
    split; [intros x Hx; by apply not_elem_of_nil in Hx|done].
  - apply list.NoDup_cons in Hnd as [Hni Hnd]. destruct (Hw w) as (H0 & Ha & [i Hi]); [left|].
    set (st1 := set_pc st t b (PcSign got asked (w :: ans) (sig_slots (i :: D)) (eph_of (i :: D)))).
    assert (Hs : vstep C cfg st (VSig t w (Some (sig (idw cfg w), E))) = VOk st1 OTau).
    { eapply step_at; [exact Hat|done|]. cbn [thread_step]. unfold do_sig, idw. rewrite Hi.
      rewrite bool_decide_eq_true_2 by done. unfold sig_slots at 1. rewrite seqZ_idx_set by (by eapply id_range).
      unfold st1. f_equal. f_equal. f_equal.
      - apply map_ext. intros q. destruct (decide (q = i)) as [->|Hq].
        + by rewrite decide_True by left.
        + destruct (decide (q ∈ D)), (decide (q ∈ i :: D)) as [K|K]; try done; exfalso.
          * apply K. by right.
          * by apply elem_of_cons in K as [K|K].
      - unfold eph_of. destruct (Z.eqb_spec i (vc_id cfg)) as [->|Hne].
        + by rewrite decide_True by left.
        + destruct (decide (vc_id cfg ∈ D)), (decide (vc_id cfg ∈ i :: D)) as [K|K]; try done; exfalso.
          * apply K. by right.
          * apply elem_of_cons in K as [K|K]; [by apply Hne|done]. }
    destruct (IH st1 (w :: ans) (i :: D)) as (l & st' & Hr & Hm & Ho & Hat').
    + by eapply at_set.
    + done.
    + intros w' Hw'. destruct (Hw w') as (K1 & K2 & K3); [by right|]. split; [done|]. split; [|done].
      intros [->|K]%elem_of_cons; done.
    + eexists (_ :: l), st'. split; [econstructor; eauto|]. split; [simpl; by rewrite Hm|]. split.
      * intros x [->|Hx]%elem_of_cons; [done|by apply Ho].
      * cbn [map rev]. rewrite <- !app_assoc. unfold idw at 2 4. rewrite Hi. done.
Qed.

(** the whole call *)
Lemma leader_ok v sd s emitted : quorum cfg (sd_peers sd) -> fair cfg sd ps -> 1 <= vc_threshold cfg ->
  vs_threads v !! t = None -> hrs_lt (ss_hrs (vs_init v)) (b_hrs b) -> hrs_lt (ss_hrs (vs_lss v)) (b_hrs b) ->
  let P := map (idw cfg) (sd_all sd) in
  (forall i, i ∈ P -> sig i <> []) ->
  cr_combine C n (sorted P n) (map sig (sorted P n)) = Some s ->
  cr_verify C (vc_pub cfg) (b_sb b) (E ++ s) = true ->
  exists l v', vrun C cfg v l v' /\ map fst l = honest_ops cfg t b sd ps sig E emitted /\
    (VEmit t emitted, OReturn t b (VR (Some (E ++ s)) (b_ts b) None) true) ∈ l /\
    (forall op w k x m, (op, OAsk t w k x m) ∈ l -> w ∈ sd_all sd /\ k = b_key b /\ m = b_sb b /\
       x = parts_for cfg (sd_order sd w) (idw cfg w)) /\
    ss_hrs (vs_lss v') = b_hrs b.
Proof.
  intros (Hnd & H0 & Hws & Hlen) (Hpa & Hps & Hord) Hthr Hnone Hinit Hlss P HP Hcomb Hver.
  set (ws := sd_peers sd) in *. unfold sd_all in *. fold ws in Hpa, Hps, Hord, P |- *. set (W := ws ++ [0%nat]) in *.
  set (Wa := sd_asked sd) in *. set (Ws := sd_ans sd) in *.
  assert (HndW : NoDup W).
  { apply NoDup_app. split; [done|]. split; [|apply NoDup_singleton].
    intros w Hw Hw'. apply elem_of_list_singleton in Hw' as ->. done. }
  assert (HW : forall w, w ∈ W -> is_Some (id_of cfg w)).
  { intros w [Hw|Hw]%elem_of_app; [by apply Hws|]. apply elem_of_list_singleton in Hw as ->. by eexists. }
  (* VCall *)
  set (v1 := set_pc v t b PcInit).
  assert (S1 : vstep C cfg v (VCall t b RLeader) = VOk v1 OTau) by (cbn [vstep]; by rewrite Hnone).
  (* VInit *)
  assert (Hsi : (save (vs_init v) (new_consensus (b_hrs b))).2 = None) by (by apply save_ok_iff).
  destruct (save (vs_init v) (new_consensus (b_hrs b))) as [ini err] eqn:Esi. simpl in Hsi. subst err.
  set (vm := VState (vs_lss v) ini (vs_threads v1)).
  set (v2 := set_pc vm t b (PcCollect None [] [])).
  assert (S2 : vstep C cfg v1 (VInit t) = VOk v2 (OStart t b)).
  { cbn [vstep op_thread]. unfold v1. cbn [set_pc vs_threads]. rewrite lookup_insert. cbn [thread_step].
    unfold do_init. change (vs_init (set_pc v t b PcInit)) with (vs_init v). unfold save in Esi |- *. cbn [set_pc vs_init].
    rewrite Esi. unfold start.
    destruct (Z.ltb_spec (vc_threshold cfg - 1) 0); [lia|done]. }
  assert (A2 : at_pc vm v2 (PcCollect None [] [])).
  { split; [done|]. split; [done|]. simpl. by rewrite lookup_insert. }
  (* VParts *)
  destruct (collect_run vm v2 ws [] [] A2 Hnd) as (l3 & v3 & ans3 & R3 & M3 & O3 & A3).
  { intros w Hw. split; [by intros ->|]. split; [apply not_elem_of_nil|by apply Hws]. }
  { simpl. lia. }
  simpl app in A3.
  (* VOwn *)
  set (v4 := set_pc v3 t b (PcCollect (Some (ps (vc_id cfg))) (answers cfg ws ps) ans3)).
  assert (S4 : vstep C cfg v3 (VOwn t (Some (ps (vc_id cfg)))) = VOk v4 OTau) by (by eapply step_at).
  assert (A4 : at_pc vm v4 (PcCollect (Some (ps (vc_id cfg))) (answers cfg ws ps) ans3)) by (by eapply at_set).
  (* VGo *)
  assert (Hans : answers cfg ws ps ++ [(0%nat, ps (vc_id cfg))] = answers cfg W ps).
  { unfold answers, W. rewrite map_app. done. }
  set (v5 := set_pc v4 t b (PcSign (answers cfg W ps) [] [] (sig_slots []) (eph_of []))).
  assert (S5 : vstep C cfg v4 (VGo t) = VOk v5 OTau).
  { eapply step_at; [exact A4|done|]. cbn [thread_step]. unfold do_go.
    unfold answers at 1. rewrite map_length. destruct (Z.eqb_spec (Z.of_nat (length ws)) (vc_threshold cfg - 1)); [|lia].
    rewrite Hans, total_n. unfold v5, sig_slots, eph_of. rewrite seqZ_const by lia.
    done. }
  assert (A5 : at_pc vm v5 (PcSign (answers cfg W ps) [] [] (sig_slots []) (eph_of []))) by (by eapply at_set).
  (* VAsk *)
  assert (HndA : NoDup Wa) by (by rewrite Hpa).
  assert (HndS : NoDup Ws) by (by rewrite Hps).
  destruct (ask_run vm v5 (answers cfg W ps) (sd_order sd) [] [] (sig_slots []) (eph_of []) Wa A5 HndA)
    as (l6 & v6 & R6 & M6 & O6 & A6).
  { intros w Hw. rewrite Hpa in Hw. split; [|split; [apply not_elem_of_nil|split; [by apply HW|by apply Hord]]].
    unfold answers. rewrite map_map. simpl. by rewrite map_id. }
  (* VSig *)
  destruct (sig_run vm v6 (answers cfg W ps) (rev Wa ++ []) [] [] Ws A6 HndS) as (l7 & v7 & R7 & M7 & O7 & A7).
  { intros w Hw. rewrite Hps in Hw. split; [|split; [apply not_elem_of_nil|by apply HW]]. rewrite app_nil_r.
    rewrite <- Hpa in Hw. apply elem_of_list_In. rewrite <- in_rev. by apply elem_of_list_In. }
  rewrite !app_nil_r in A7. set (D := rev (map (idw cfg) Ws)) in A7.
  assert (HPin : forall j, j ∈ D <-> j ∈ P).
  { intros j. unfold D. rewrite elem_of_list_In, <- in_rev, <- elem_of_list_In. unfold P.
    assert (Hpm : Permutation (map (idw cfg) Ws) (map (idw cfg) W)) by (by apply Permutation_map). by rewrite Hpm. }
  (* VFinish *)
  set (v8 := set_pc v7 t b (PcVerified (E ++ s))).
  assert (S8 : vstep C cfg v7 (VFinish t) = VOk v8 OTau).
  { eapply step_at; [exact A7|done|]. cbn [thread_step]. unfold do_finish.
    rewrite rev_length, Hps. unfold W at 1. rewrite app_length. simpl length.
    destruct (Z.eqb_spec (Z.of_nat (length ws + 1)) (vc_threshold cfg)); [|lia].
    assert (Hcs : collect_sigs 0 (sig_slots (D)) = map (fun j => (j, sig j)) (sorted P n)).
    { unfold sig_slots, sorted. etransitivity; [|exact (collect_map sig P n 0 ltac:(lia) HP)]. f_equal. apply map_ext.
      intros j. destruct (decide (j ∈ D)) as [K|K], (decide (j ∈ P)) as [K'|K']; try done;
        exfalso; [apply K'|apply K]; by apply HPin. }
    rewrite Hcs, !map_map, map_length. simpl fst. simpl snd. rewrite map_id.
    assert (Hls : Z.of_nat (length (sorted P n)) = vc_threshold cfg).
    { rewrite sorted_perm.
      - unfold P. rewrite map_length. unfold W. rewrite app_length. simpl. lia.
      - unfold P. apply NoDup_fmap_2_strong; [|done]. intros w w' Hw Hw' Heq.
        destruct (HW w Hw) as [i Hi], (HW w' Hw') as [i' Hi']. unfold idw in Heq. rewrite Hi, Hi' in Heq. subst i'.
        by eapply id_inj.
      - intros i Hi. unfold P in Hi. apply elem_of_list_fmap in Hi as (w & -> & Hw).
        destruct (HW w Hw) as [i Hi]. unfold idw. rewrite Hi. by eapply id_range. }
    rewrite Hls. destruct (Z.ltb_spec (vc_threshold cfg) (vc_threshold cfg)); [lia|].
    rewrite total_n. change (map (fun x => sig x) (sorted P n)) with (map sig (sorted P n)). rewrite Hcomb.
    assert (He : eph_of (D) = Some E).
    { unfold eph_of. rewrite decide_True; [done|]. apply HPin. unfold P. apply elem_of_list_fmap.
      exists 0%nat. split; [done|]. apply elem_of_app. right. left. }
    rewrite He. simpl slice_of. rewrite Hver. done. }
  assert (A8 : at_pc vm v8 (PcVerified (E ++ s))) by (by eapply at_set).
  (* VSave *)
  assert (Hsv : (save (vs_lss v) (SSC (b_hrs b) (Some (E ++ s)) (Some (b_sb b)))).2 = None) by (by apply save_ok_iff).
  pose proof (save_accepted _ _ Hsv) as Hsv'.
  destruct (save (vs_lss v) (SSC (b_hrs b) (Some (E ++ s)) (Some (b_sb b)))) as [ls err] eqn:Esv. simpl in Hsv. subst err.
  set (v9 := set_pc (VState ls (vs_init v8) (vs_threads v8)) t b (PcSaved (E ++ s))).
  assert (S9 : vstep C cfg v8 (VSave t) = VOk v9 OTau).
  { eapply step_at; [exact A8|done|]. cbn [thread_step]. unfold do_save. destruct A8 as (Hl & _ & _).
    rewrite Hl. unfold vm. cbn [vs_lss].
    match goal with |- context [save ?a ?c] => assert (save a c = (ls, None)) as -> by exact Esv end. done. }
  (* VEmit *)
  set (v10 := set_pc v9 t b PcDone).
  assert (S10 : vstep C cfg v9 (VEmit t emitted) = VOk v10 (OReturn t b (VR (Some (E ++ s)) (b_ts b) None) true)).
  { cbn [vstep op_thread]. unfold v9. cbn [set_pc vs_threads]. rewrite lookup_insert. done. }
  exists ((VCall t b RLeader, OTau) :: (VInit t, OStart t b) :: l3 ++
    [(VOwn t (Some (ps (vc_id cfg))), OTau); (VGo t, OTau)] ++ l6 ++ l7 ++
    [(VFinish t, OTau); (VSave t, OTau); (VEmit t emitted, OReturn t b (VR (Some (E ++ s)) (b_ts b) None) true)]), v10.
  split.
  { econstructor; [exact S1|]. econstructor; [exact S2|]. eapply vrun_app; [exact R3|].
    econstructor; [exact S4|]. econstructor; [exact S5|]. eapply vrun_app; [exact R6|].
    eapply vrun_app; [exact R7|]. econstructor; [exact S8|]. econstructor; [exact S9|].
    econstructor; [exact S10|constructor]. }
  split.
  { unfold honest_ops. cbn [map app fst]. rewrite map_app, M3. cbn [map app fst]. rewrite map_app, M6, map_app, M7.
    cbn [map fst app]. done. }
  split.
  { do 2 right. apply elem_of_app. right. do 2 right. apply elem_of_app. right. apply elem_of_app. right.
    do 2 right. left. }
  split.
  { intros op w k x m Hin.
    apply elem_of_cons in Hin as [[=]|Hin]. apply elem_of_cons in Hin as [[=]|Hin].
    apply elem_of_app in Hin as [Hin|Hin]; [by apply O3 in Hin|].
    apply elem_of_cons in Hin as [[=]|Hin]. apply elem_of_cons in Hin as [[=]|Hin].
    apply elem_of_app in Hin as [Hin|Hin].
    - apply O6 in Hin as (w' & Hw' & [= -> -> -> ->]). rewrite Hpa in Hw'. done.
    - apply elem_of_app in Hin as [Hin|Hin]; [by apply O7 in Hin|].
      repeat (apply elem_of_cons in Hin as [[=]|Hin]). by apply not_elem_of_nil in Hin. }
  simpl in Hsv'. cbn. by rewrite Hsv'.
Qed.
End Leader.
