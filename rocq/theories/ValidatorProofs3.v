(** Properties of SignBlock over all interleavings. *)
From Verif Require Import GoBase Wire Canonical SignState Spec SignStateProofs Crypto LocalCosigner
  CosignerSpec CosignerProofs Cluster ClusterProofs Validator ValidatorSpec ValidatorProofs ValidatorProofs2.
Local Open Scope Z_scope.

Section V.
Context (C : Crypto) (cfg : vconf).
Notation vstep := (vstep C cfg).
Notation vrun := (vrun C cfg).

Lemma vrun_split st0 l st op o : vrun st0 l st -> (op, o) ∈ l ->
  exists l1 st1 st2 l2, l = l1 ++ (op, o) :: l2 /\ vrun st0 l1 st1 /\ vstep st1 op = VOk st2 o /\ vrun st2 l2 st.
Proof.
  intros Hr Hin. apply elem_of_list_split in Hin as (l1 & l2 & ->).
  apply vrun_app_inv in Hr as (s1 & H1 & H2). inversion H2; subst. eauto 10.
Qed.

(** the return of a leader's call *)
Lemma return_case st0 l st op t b r f : idle st0 -> vrun st0 l st -> (op, OReturn t b r f) ∈ l ->
  exists l1 st1 st2 l2, l = l1 ++ (op, OReturn t b r f) :: l2 /\ vrun st0 l1 st1 /\
    vstep st1 op = VOk st2 (OReturn t b r f) /\ vrun st2 l2 st /\
    ((op = VCall t b RNone /\ r = VR None (b_ts b) (Some EvNoRaft) /\ f = false) \/
     exists pc st', vs_threads st1 !! t = Some (Thread b pc) /\ pc_inv C cfg l1 st1 t b pc /\
       tstep C cfg st1 t b pc op st' PcDone (OReturn t b r f) /\ st2 = set_pc st' t b PcDone).
Proof.
  intros Hi Hr Hin. destruct (vrun_split _ _ _ _ _ Hr Hin) as (l1 & st1 & st2 & l2 & -> & H1 & H2 & H3).
  exists l1, st1, st2, l2. do 4 (split; [done|]).
  destruct (threads_inv_run C cfg st0 l1 st1 Hi H1) as [Hinv _].
  apply vstep_case in H2. inversion H2 as [| | |t' b' pc op' st' pc' o Hop Hl Ht]; subst.
  - left. done.
  - right. assert (t' = t /\ b' = b /\ pc' = PcDone) as (-> & -> & ->).
    { inversion Ht; subst; done. }
    exists pc, st'. split; [done|]. split; [apply Hinv, Hl|]. done.
Qed.

(** C25 *)
Lemma fresh_verified st0 l st t b r : idle st0 -> vrun st0 l st -> returned l t b r true ->
  exists sig, r = VR (Some sig) (b_ts b) None /\ cr_verify C (vc_pub cfg) (b_sb b) sig = true /\
    VCall t b RLeader ∈ ops_of l.
Proof.
  intros Hi Hr [op Hin].
  destruct (return_case _ _ _ _ _ _ _ _ Hi Hr Hin) as (l1 & st1 & st2 & l2 & -> & H1 & H2 & H3 & Hc).
  destruct Hc as [(_ & _ & ?)|(pc & st' & Hl & Hinv & Ht & _)]; [done|].
  inversion Ht; subst. simpl in Hinv. exists sig. split; [done|]. split; [apply Hinv|].
  unfold ops_of. rewrite map_app. apply elem_of_app. left. apply Hinv.
Qed.

(** its event was offered to raft *)
Lemma fresh_emitted st0 l st t b sig ts e : idle st0 -> vrun st0 l st -> returned l t b (VR sig ts e) true ->
  exists ok l1 l2, l = l1 ++ (VEmit t ok, OReturn t b (VR sig ts e) true) :: l2.
Proof.
  intros Hi Hr [op Hin].
  destruct (return_case _ _ _ _ _ _ _ _ Hi Hr Hin) as (l1 & st1 & st2 & l2 & -> & H1 & H2 & H3 & Hc).
  destruct Hc as [(_ & _ & ?)|(pc & st' & Hl & Hinv & Ht & _)]; [done|].
  inversion Ht; subst. exists ok, l1, l2. done.
Qed.
(** what stands behind a newly assembled signature *)
Lemma fresh_group st0 l st t b r : idle st0 -> vrun st0 l st -> returned l t b r true ->
  exists l1 op l2, l = l1 ++ (op, OReturn t b r true) :: l2 /\ full_group cfg t l1 /\
    forall w, w ∈ map fst (participants cfg t l1) -> gave_share l1 t w /\ was_asked l1 t w (b_sb b).
Proof.
  intros Hi Hr [op Hin].
  destruct (return_case _ _ _ _ _ _ _ _ Hi Hr Hin) as (l1 & st1 & st2 & l2 & -> & H1 & H2 & H3 & Hc).
  destruct Hc as [(_ & _ & ?)|(pc & st' & Hl & Hinv & Ht & _)]; [done|].
  inversion Ht; subst. exists l1, (VEmit t ok), l2. split; [done|]. split; apply Hinv.
Qed.

(** ** Records *)

Lemma save_cache s c k c' : ss_cache (save s c).1 !! k = Some c' ->
  ss_cache s !! k = Some c' \/ (k = c_hrs c /\ c' = c /\ hrs_lt (ss_hrs s) (c_hrs c)).
Proof.
  destruct ((save s c).2) eqn:E.
  - rewrite (save_rejected _ _ _ E). auto.
  - rewrite (save_accepted _ _ E). cbn [ss_cache]. intros H.
    rewrite prune_lookup in H. destruct (decide _); [done|].
    apply lookup_insert_Some in H as [[<- <-]|[_ H]]; [right|left; done].
    split; [done|]. split; [done|]. by apply save_ok_iff.
Qed.
Lemma get_existing_val lss b so : get_existing lss b = Val so ->
  exists c, ss_cache lss !! b_hrs b = Some c /\
    ((h_step (b_hrs b) = stepPropose \/ b_sb b = slice_of (c_sb c)) /\ so = c_sig c \/
     h_step (b_hrs b) <> stepPropose /\ b_sb b <> slice_of (c_sb c) /\ so = None /\
     only_differ_by_timestamp (h_step (c_hrs c)) (slice_of (c_sb c)) (b_sb b) = None).
Proof.
  unfold get_existing, get_from_cache.
  destruct (ss_cache lss !! b_hrs b) as [c|] eqn:E.
  - intros H. exists c. split; [done|].
    destruct (Z.eqb_spec (h_step (b_hrs b)) stepPropose) as [Hp|Hp]; simpl in H.
    { injection H as <-. left. split; [by left|done]. }
    destruct (bytes_equal (b_sb b) (slice_of (c_sb c))) eqn:Eb.
    { injection H as <-. left. split; [right|done]. by apply bool_decide_eq_true in Eb. }
    destruct (only_differ_by_timestamp _ _ _) eqn:Ed; [discriminate|]. injection H as <-.
    right. split; [done|]. split; [|done]. apply bool_decide_eq_false in Eb. done.
  - repeat case_match; discriminate.
Qed.

(** an invariant of the records in the cache *)
Lemma records_run (P : consensus -> Prop) st0 l st :
  idle st0 -> vrun st0 l st -> records P (vs_lss st0) ->
  (forall c, VLss c ∈ ops_of l -> P c) ->
  (forall l1 t b sig l2, l = l1 ++ (VSave t, OTau) :: l2 -> VCall t b RLeader ∈ ops_of l1 ->
     cr_verify C (vc_pub cfg) (b_sb b) sig = true -> full_group cfg t l1 ->
     (forall w, w ∈ map fst (participants cfg t l1) -> gave_share l1 t w /\ was_asked l1 t w (b_sb b)) ->
     P (SSC (b_hrs b) (Some sig) (Some (b_sb b)))) ->
  records P (vs_lss st).
Proof.
  intros Hi Hr H0. revert l st Hr. apply (vrun_rev_ind C cfg st0 (fun l st => _ -> _ -> records P (vs_lss st))).
  - done.
  - intros l st op st1 o Hr IH Hs He Hf.
    assert (IH' : records P (vs_lss st)).
    { apply IH.
      - intros c Hc. apply He. by apply elem_ops_snoc.
      - intros l1 t b sig l2 -> . intros. eapply (Hf l1 t b sig (l2 ++ [(op, o)])); eauto.
        rewrite <- app_assoc. done. }
    destruct (threads_inv_run C cfg st0 l st Hi Hr) as [Hinv _].
    apply vstep_case in Hs. destruct Hs as [t b r pc Hl Hrr|t b Hl|c a|t b pc op st' pc' o Hop Hl Ht]; try done; simpl.
    + intros k c' Hc. apply save_cache in Hc as [Hc|(-> & -> & _)]; [auto|].
      split; [done|]. apply He. apply elem_ops_last.
    + pose proof (Hinv _ _ _ Hl) as Hpi.
      destruct (tstep_lss _ _ _ _ _ _ _ _ _ _ Ht) as [-> |(sig & -> & -> & -> & Hle & ->)]; [done|].
      assert (o = OTau) as -> by (inversion Ht; done).
      intros k c' Hc. apply save_cache in Hc as [Hc|(-> & -> & _)]; [auto|]. split; [done|].
      simpl in Hpi. eapply (Hf l t b sig []); eauto; apply Hpi.
Qed.

(** C26: what success means, if the recorded signatures are valid *)
Lemma success_means st0 l st op t b so ts f :
  idle st0 -> vrun st0 l st -> (op, OReturn t b (VR so ts None) f) ∈ l -> (forall ans, op <> VProxy t ans) ->
  records (valid_record C (vc_pub cfg)) (vs_lss st0) ->
  (forall c, VLss c ∈ ops_of l -> valid_record C (vc_pub cfg) c) ->
  ts = b_ts b /\
  ((exists sig m, so = Some sig /\ cr_verify C (vc_pub cfg) m sig = true /\
      (m = b_sb b \/ h_step (b_hrs b) = stepPropose)) \/
   (so = None /\ op = VLate t /\ h_step (b_hrs b) <> stepPropose)).
Proof.
  intros Hi Hr Hin Hnp Hrec Hev.
  destruct (return_case _ _ _ _ _ _ _ _ Hi Hr Hin) as (l1 & st1 & st2 & l2 & -> & H1 & H2 & H3 & Hc).
  destruct Hc as [(_ & ? & ?)|(pc & st' & Hl & Hinv & Ht & _)]; [done|].
  assert (Hrec1 : records (valid_record C (vc_pub cfg)) (vs_lss st1)).
  { eapply records_run; eauto.
    - intros c Hc. apply Hev. unfold ops_of. rewrite map_app. apply elem_of_app. by left.
    - intros la t' b' sig lb -> _ Hv _ _. exists sig. done. }
  inversion Ht; subst; try (split; [done|]).
  - destruct (Hnp ans). done.
  - left. match goal with H : get_existing _ _ = Val (Some _) |- _ => apply get_existing_val in H as (c & Hc & [[Hb Hs]|(_ & _ & ? & _)]) end; [|done].
    apply Hrec1 in Hc as [_ (sig' & Hs' & Hv)]. rewrite Hs' in Hs. injection Hs as ->.
    exists sig', (slice_of (c_sb c)). split; [done|]. split; [done|]. destruct Hb; auto.
  - match goal with H : get_existing _ _ = Val _ |- _ => apply get_existing_val in H as (c & Hc & [[Hb Hs]|(Hp & _ & Hs & _)]) end.
    + left. apply Hrec1 in Hc as [_ (sig' & Hs' & Hv)].
      exists sig', (slice_of (c_sb c)). split; [congruence|]. split; [done|]. destruct Hb; auto.
    + right. done.
  - left. exists sig, (b_sb b). split; [done|]. split; [apply Hinv|auto].
Qed.

(** a signature that is neither newly assembled nor the leader's answer is a recorded one *)
Lemma other_from_cache st0 l st op t b sig ts :
  idle st0 -> vrun st0 l st -> (op, OReturn t b (VR (Some sig) ts None) false) ∈ l ->
  (exists ans, op = VProxy t ans) \/
  (VCall t b RLeader ∈ ops_of l /\ exists l1 l2 st1 c,
     l = l1 ++ (op, OReturn t b (VR (Some sig) ts None) false) :: l2 /\ vrun st0 l1 st1 /\
     ss_cache (vs_lss st1) !! b_hrs b = Some c /\ c_sig c = Some sig /\
     (b_sb b = slice_of (c_sb c) \/ h_step (b_hrs b) = stepPropose)).
Proof.
  intros Hi Hr Hin.
  destruct (return_case _ _ _ _ _ _ _ _ Hi Hr Hin) as (l1 & st1 & st2 & l2 & -> & H1 & H2 & H3 & Hc).
  destruct Hc as [(_ & ? & ?)|(pc & st' & Hl & Hinv & Ht & _)]; [done|].
  assert (Hg : VCall t b RLeader ∈ ops_of l1 -> get_existing (vs_lss st1) b = Val (Some sig) ->
    VCall t b RLeader ∈ ops_of (l1 ++ (op, OReturn t b (VR (Some sig) ts None) false) :: l2) /\ 
    exists l1' l2' st1' c,
     l1 ++ (op, OReturn t b (VR (Some sig) ts None) false) :: l2 =
       l1' ++ (op, OReturn t b (VR (Some sig) ts None) false) :: l2' /\ vrun st0 l1' st1' /\
     ss_cache (vs_lss st1') !! b_hrs b = Some c /\ c_sig c = Some sig /\
     (b_sb b = slice_of (c_sb c) \/ h_step (b_hrs b) = stepPropose)).
  { intros Hcall Hg. split; [unfold ops_of; rewrite map_app; apply elem_of_app; by left|].
    apply get_existing_val in Hg as (c & Hc & [[Hs Hsig]|(_ & _ & ? & _)]); [|done].
    exists l1, l2, st1, c. do 4 (split; [done|]). tauto. }
  inversion Ht; subst; [left; eauto|right..]; apply Hg; try done; apply Hinv.
Qed.

(** C27 *)
Lemma start_case st0 l st op t b : idle st0 -> vrun st0 l st -> (op, OStart t b) ∈ l ->
  exists l1 st1 st2 l2, l = l1 ++ (op, OStart t b) :: l2 /\ vrun st0 l1 st1 /\
    vstep st1 op = VOk st2 (OStart t b) /\ vrun st2 l2 st /\
    hrs_le (b_hrs b) (ss_hrs (vs_init st2)) /\
    (op = VInit t /\ hrs_lt (ss_hrs (vs_init st1)) (b_hrs b) \/
     op = VPoll t /\ get_existing (vs_lss st1) b = Val None).
Proof.
  intros Hi Hr Hin. destruct (vrun_split _ _ _ _ _ Hr Hin) as (l1 & st1 & st2 & l2 & -> & H1 & H2 & H3).
  exists l1, st1, st2, l2. do 4 (split; [done|]).
  destruct (threads_inv_run C cfg st0 l1 st1 Hi H1) as [Hinv _].
  apply vstep_case in H2. inversion H2 as [| | |t' b' pc op' st' pc' o Hop Hl Ht]; subst.
  assert (t' = t /\ b' = b) as (-> & ->). { inversion Ht; subst; done. }
  pose proof (Hinv _ _ _ Hl) as Hpi. pose proof (tstep_init _ _ _ _ _ _ _ _ _ _ Ht) as Hti.
  inversion Ht; subst.
  - destruct Hti as [Heq|(_ & _ & Hlt & Heq & _)].
    + exfalso. simpl in Heq. subst. match goal with H : save _ _ = _ |- _ => 
        pose proof (save_ok_iff (vs_init st1) (new_consensus (b_hrs b))) as Hok;
        pose proof (save_accepted (vs_init st1) (new_consensus (b_hrs b))) as Ha; rewrite H in Hok, Ha end.
      simpl in Hok, Ha. specialize (Ha eq_refl). destruct Hok as [Hok _]. specialize (Hok eq_refl).
      rewrite Ha in Hok. simpl in Hok. apply hrs_lt_irrefl in Hok. done.
    + split; [simpl in *; rewrite Heq; apply hrs_le_refl|]. left. done.
  - split; [apply Hpi|]. right. done.
Qed.

Lemma second_start st0 l st l1 op1 t1 b1 l2 op2 t2 b2 l3 :
  idle st0 -> vrun st0 l st ->
  l = l1 ++ (op1, OStart t1 b1) :: l2 ++ (op2, OStart t2 b2) :: l3 -> b_hrs b1 = b_hrs b2 ->
  exists stm c, vrun st0 (l1 ++ (op1, OStart t1 b1) :: l2) stm /\ op2 = VPoll t2 /\
    ss_cache (vs_lss stm) !! b_hrs b2 = Some c /\
    (c_sig c = None \/
     h_step (b_hrs b2) <> stepPropose /\ b_sb b2 <> slice_of (c_sb c) /\
     only_differ_by_timestamp (h_step (c_hrs c)) (slice_of (c_sb c)) (b_sb b2) = None).
Proof.
  intros Hi Hr -> Heq.
  replace (l1 ++ (op1, OStart t1 b1) :: l2 ++ (op2, OStart t2 b2) :: l3)
    with ((l1 ++ (op1, OStart t1 b1) :: l2) ++ (op2, OStart t2 b2) :: l3) in Hr
    by (rewrite <- app_assoc; done).
  apply vrun_app_inv in Hr as (stm & Hr1 & Hr2). exists stm.
  destruct (threads_inv_run C cfg st0 _ stm Hi Hr1) as [Hinv _].
  assert (Hle : hrs_le (b_hrs b1) (ss_hrs (vs_init stm))).
  { apply vrun_app_inv in Hr1 as (s0 & Ha & Hb). inversion Hb as [|? ? s1 ? ? ? Hs Hrest]; subst.
    assert (Hx : vrun st0 (l1 ++ [(op1, OStart t1 b1)]) s1).
    { eapply vrun_app; [exact Ha|]. econstructor; [exact Hs|constructor]. }
    assert (Hin : (op1, OStart t1 b1) ∈ l1 ++ [(op1, OStart t1 b1)]) by (apply elem_of_app; right; left).
    apply vrun_mono in Hrest as [Hm _]. eapply hrs_le_trans; [|exact Hm].
    destruct (threads_inv_run C cfg st0 l1 s0 Hi Ha) as [Hinv0 _].
    apply vstep_case in Hs. inversion Hs as [| | |t' b' pc op' st' pc' o Hop Hl Ht]; subst.
    assert (Hz : threads_inv C cfg (l1 ++ [(op1, OStart t1 b1)]) (set_pc st' t' b' pc')).
    { apply (threads_inv_run C cfg st0 _ _ Hi Hx). }
    assert (t' = t1 /\ b' = b1) as (-> & ->). { inversion Ht; subst; done. }
    assert (pc' = PcCollect None [] []) as -> by (inversion Ht; subst; done).
    specialize (Hz t1 b1 (PcCollect None [] [])). simpl in Hz. rewrite lookup_insert in Hz.
    destruct (Hz eq_refl) as (_ & _ & Hle & _). exact Hle. }
  inversion Hr2 as [|? ? s1 ? ? ? Hs Hrest]; subst. apply vstep_case in Hs.
  inversion Hs as [| | |t' b' pc op' st' pc' o Hop Hl Ht]; subst.
  assert (t' = t2 /\ b' = b2) as (-> & ->). { inversion Ht; subst; done. }
  inversion Ht; subst.
  - exfalso. match goal with H : save _ _ = _ |- _ => 
      pose proof (save_ok_iff (vs_init stm) (new_consensus (b_hrs b2))) as Hok; rewrite H in Hok end.
    simpl in Hok. destruct Hok as [Hok _]. specialize (Hok eq_refl).
    rewrite Heq in Hle. eapply hrs_lt_irrefl, hrs_lt_le_trans; eauto.
  - match goal with H : get_existing _ _ = Val None |- _ => apply get_existing_val in H as (c & Hc & Hd) end.
    exists c. do 3 (split; [done|]). destruct Hd as [[_ <-]|(H1 & H2 & _ & H3)]; [by left|right]. done.
Qed.

(** C28 *)
Lemma first_for_spec pid ps p : first_for pid ps = Some p ->
  pt_dest p = pid /\ exists ps1 ps2, ps = ps1 ++ p :: ps2 /\ forall q, q ∈ ps1 -> pt_dest q <> pid.
Proof.
  unfold first_for. induction ps as [|x ps IH]; [discriminate|]. rewrite filter_cons.
  destruct (decide (pt_dest x = pid)) as [Hx|Hx].
  - simpl. intros [= ->]. split; [done|]. exists [], ps. split; [done|]. intros q Hq. by apply elem_of_nil in Hq.
  - intros H. destruct (IH H) as (H1 & ps1 & ps2 & -> & H2). split; [done|]. exists (x :: ps1), ps2. split; [done|].
    intros q [-> |Hq]%elem_of_cons; auto.
Qed.
Lemma first_for_first pid ps1 p ps2 : pt_dest p = pid -> (forall q, q ∈ ps1 -> pt_dest q <> pid) ->
  first_for pid (ps1 ++ p :: ps2) = Some p.
Proof.
  intros Hp H. unfold first_for. induction ps1 as [|x ps1 IH]; cbn [app]; rewrite filter_cons.
  - rewrite decide_True by done. done.
  - rewrite decide_False by (apply H; left). apply IH. intros q Hq. apply H. by right.
Qed.

Lemma member_spec (order : list (nat * list part)) s :
  existsb (fun '(w, _) => bool_decide (id_of cfg w = Some s)) order = true <->
  exists w', w' ∈ map fst order /\ id_of cfg w' = Some s.
Proof.
  rewrite existsb_exists. split.
  - intros ([w ps] & Hin & H). apply bool_decide_eq_true in H. exists w. split; [|done].
    apply elem_of_list_In. apply (in_map fst) in Hin. done.
  - intros (w & Hin & H). apply elem_of_list_In, in_map_iff in Hin as ([w' ps] & <- & Hin).
    exists (w', ps). split; [done|]. by apply bool_decide_eq_true.
Qed.

Lemma givers_snd {X} (g : nat * X -> option part) l :
  map snd (omap (fun x => option_map (fun p => (x.1, p)) (g x)) l) = omap g l.
Proof. induction l as [|x l IH]; [done|]. cbn. destruct (g x); cbn; [f_equal|]; exact IH. Qed.
Lemma givers_fst {X} (g : nat * X -> option part) l : NoDup (map fst l) ->
  NoDup (map fst (omap (fun x => option_map (fun p => (x.1, p)) (g x)) l)).
Proof.
  assert (Hsub : forall l w, w ∈ map fst (omap (fun x => option_map (fun p => (x.1, p)) (g x)) l) -> w ∈ map fst l).
  { clear. intros l w Hin. apply elem_of_list_In, in_map_iff in Hin as ([w' p] & <- & Hin).
    apply elem_of_list_In, elem_of_list_omap in Hin as (x & Hin & Hx).
    destruct (g x); [|discriminate]. injection Hx as <- <-. apply elem_of_list_In.
    apply (in_map (@fst nat X)), elem_of_list_In. done. }
  induction l as [|x l IH]; cbn; [constructor|]. intros Hn. apply list.NoDup_cons in Hn as [Hx Hn].
  destruct (g x); cbn; [|auto]. apply list.NoDup_cons. split; [|auto]. intros Hin. apply Hx, Hsub, Hin.
Qed.

Lemma parts_for_right order group pid : Permutation order group -> NoDup (map fst group) ->
  right_parts cfg group pid (parts_for cfg order pid).
Proof.
  intros Hp Hnd.
  assert (Hmem : forall w', w' ∈ map fst group <-> w' ∈ map fst order).
  { intros w'. rewrite (Permutation_map fst Hp). done. }
  assert (Hnd' : NoDup (map fst order)) by (rewrite (Permutation_map fst Hp); done).
  set (f := fun '((_, ps) : nat * list part) => match first_for pid ps with
          | Some p => if existsb (fun '(w, _) => bool_decide (id_of cfg w = Some (pt_source p))) order
                      then Some p else None
          | None => None end).
  assert (Hf : parts_for cfg order pid = omap f order) by done.
  split.
  - exists (omap (fun x => option_map (fun p => (x.1, p)) (f x)) order). split; [|split].
    + rewrite Hf. apply givers_snd.
    + by apply givers_fst.
    + intros w p Hin. apply elem_of_list_omap in Hin as ([w' ps] & Hin & Hx).
      destruct (f (w', ps)) as [p'|] eqn:Ef; [|discriminate]. simpl in Hx. injection Hx as -> ->.
      unfold f in Ef. destruct (first_for pid ps) as [p''|] eqn:Eff; [|discriminate].
      destruct (existsb _ _) eqn:Em; [|discriminate]. injection Ef as ->.
      apply first_for_spec in Eff as (Hd & ps1 & ps2 & -> & Hb). split; [done|]. split.
      * apply member_spec in Em as (w' & H1 & H2). exists w'. split; [by apply Hmem|done].
      * exists ps1, ps2. split; [|done]. rewrite <- Hp. done.
  - intros w ps1 p ps2 Hin Hd Hb (w' & H1 & H2). rewrite Hf. apply elem_of_list_omap.
    exists (w, ps1 ++ p :: ps2). split; [rewrite Hp; done|]. unfold f.
    rewrite first_for_first by done.
    assert (Em : existsb (fun '(w, _) => bool_decide (id_of cfg w = Some (pt_source p))) order = true).
    { apply member_spec. exists w'. split; [by apply Hmem|done]. }
    rewrite Em. done.
Qed.

Lemma ask_right st0 l st l1 op t w k ps sb l2 :
  idle st0 -> vrun st0 l st -> l = l1 ++ (op, OAsk t w k ps sb) :: l2 ->
  exists b pid, VCall t b RLeader ∈ ops_of l1 /\ k = b_key b /\ sb = b_sb b /\ id_of cfg w = Some pid /\
    full_group cfg t l1 /\ w ∈ map fst (participants cfg t l1) /\
    ~ (exists sb', was_asked l1 t w sb') /\
    right_parts cfg (participants cfg t l1) pid ps.
Proof.
  intros Hi Hr ->. apply vrun_app_inv in Hr as (stm & Hr1 & Hr2).
  destruct (threads_inv_run C cfg st0 _ stm Hi Hr1) as [Hinv _].
  inversion Hr2 as [|? ? s1 ? ? ? Hs Hrest]; subst. apply vstep_case in Hs.
  inversion Hs as [| | |t' b' pc op' st' pc' o Hop Hl Ht]; subst.
  pose proof (Hinv _ _ _ Hl) as Hpi. inversion Ht; subst. simpl in Hpi.
  destruct Hpi as (K1 & K2 & K3 & -> & K5 & K6 & K7 & K8 & K9 & K10).
  exists b', pid. split; [done|]. split; [done|]. split; [done|]. split; [done|]. split; [done|]. split; [done|].
  split; [|apply parts_for_right; [done|apply K5]].
  (* asked before *)
  intros (sb' & op' & k' & ps' & Hin).
  assert (Hall : forall l st t b pc, vrun st0 l st -> vs_threads st !! t = Some (Thread b pc) ->
            forall op w k ps sb, (op, OAsk t w k ps sb) ∈ l ->
            match pc with PcSign _ asked _ _ _ => w ∈ asked | PcVerified _ | PcSaved _ | PcDone => True | _ => False end).
  { clear -Hi. intros l st t b pc Hr. revert l st Hr t b pc. 
    apply (vrun_rev_ind C cfg st0 (fun l st => forall t b pc, vs_threads st !! t = Some (Thread b pc) ->
            forall op w k ps sb, (op, OAsk t w k ps sb) ∈ l ->
            match pc with PcSign _ asked _ _ _ => w ∈ asked | PcVerified _ | PcSaved _ | PcDone => True | _ => False end)).
    - intros t b pc _ op w k ps sb Hin. by apply elem_of_nil in Hin.
    - intros l st op st1 o Hr IH Hs t b pc Hl op1 w k ps sb Hin.
      assert (Hthr : forall op w k ps sb, (op, OAsk t w k ps sb) ∈ l -> vs_threads st !! t <> None).
      { clear -Hi Hr. intros op w k ps sb Hin. revert l st Hr Hin.
        apply (vrun_rev_ind C cfg st0 (fun l st => (op, OAsk t w k ps sb) ∈ l -> vs_threads st !! t <> None)).
        - intros Hin. by apply elem_of_nil in Hin.
        - intros l st op1 st1 o Hr IH Hs Hin. apply elem_of_app in Hin as [Hin|Hin%elem_of_list_singleton].
          + specialize (IH Hin). apply vstep_case in Hs.
            destruct Hs as [t1 b1 r pc Hl Hrr|t1 b1 Hl|c a|t1 b1 pc op1 st' pc' o Hop Hl Ht]; simpl; try done.
            * destruct (decide (t = t1)) as [-> |Hne]; [by rewrite lookup_insert|by rewrite lookup_insert_ne].
            * destruct (decide (t = t1)) as [-> |Hne]; [by rewrite lookup_insert|by rewrite lookup_insert_ne].
            * rewrite (tstep_threads _ _ _ _ _ _ _ _ _ _ Ht).
              destruct (decide (t = t1)) as [-> |Hne]; [by rewrite lookup_insert|by rewrite lookup_insert_ne].
          + injection Hin as <- <-. apply vstep_case in Hs.
            inversion Hs as [| | |t' b' pc op' st' pc' o Hop Hl Ht]; subst. inversion Ht; subst. simpl.
            by rewrite lookup_insert. }
      apply vstep_case in Hs.
      destruct Hs as [t1 b1 r pc1 Hl1 Hrr|t1 b1 Hl1|c a|t1 b1 pc1 op st' pc' o Hop Hl1 Ht]; simpl in Hl.
      + apply elem_of_app in Hin as [Hin|Hin%elem_of_list_singleton]; [|done].
        destruct (decide (t = t1)) as [-> |Hne].
        * exfalso. eapply Hthr; eauto.
        * rewrite lookup_insert_ne in Hl by done. eapply IH; eauto.
      + apply elem_of_app in Hin as [Hin|Hin%elem_of_list_singleton]; [|done].
        destruct (decide (t = t1)) as [-> |Hne].
        * exfalso. eapply Hthr; eauto.
        * rewrite lookup_insert_ne in Hl by done. eapply IH; eauto.
      + apply elem_of_app in Hin as [Hin|Hin%elem_of_list_singleton]; [|done]. eapply IH; eauto.
      + rewrite (tstep_threads _ _ _ _ _ _ _ _ _ _ Ht) in Hl.
        destruct (decide (t = t1)) as [-> |Hne].
        * rewrite lookup_insert in Hl. injection Hl as <- <-.
          apply elem_of_app in Hin as [Hin|Hin%elem_of_list_singleton].
          -- specialize (IH _ _ _ Hl1 _ _ _ _ _ Hin). destruct Ht; simpl in IH; try done. by right.
          -- injection Hin as <- <-. inversion Ht; subst. left.
        * rewrite lookup_insert_ne in Hl by done.
          apply elem_of_app in Hin as [Hin|Hin%elem_of_list_singleton]; [eapply IH; eauto|].
          injection Hin as <- <-. inversion Ht; subst. done. }
  specialize (Hall _ _ _ _ _ Hr1 Hl _ _ _ _ _ Hin). simpl in Hall. done.
Qed.

(** C29 *)
Lemma saved_before st0 l st t b sig : idle st0 -> vrun st0 l st ->
  vs_threads st !! t = Some (Thread b (PcSaved sig)) ->
  exists l1 st1 st2 l2, l = l1 ++ (VSave t, OTau) :: l2 /\ vrun st0 l1 st1 /\
    vstep st1 (VSave t) = VOk st2 OTau /\
    hrs_le (ss_hrs (vs_lss st1)) (b_hrs b) /\ ss_hrs (vs_lss st2) = b_hrs b.
Proof.
  intros Hi Hr. revert l st Hr t b sig.
  apply (vrun_rev_ind C cfg st0 (fun l st => forall t b sig, vs_threads st !! t = Some (Thread b (PcSaved sig)) -> 
    exists l1 st1 st2 l2, l = l1 ++ (VSave t, OTau) :: l2 /\ vrun st0 l1 st1 /\
    vstep st1 (VSave t) = VOk st2 OTau /\
    hrs_le (ss_hrs (vs_lss st1)) (b_hrs b) /\ ss_hrs (vs_lss st2) = b_hrs b)).
  - intros t b sig H. rewrite Hi, lookup_empty in H. done.
  - intros l st op st1 o Hr IH Hs t b sig Hl.
    assert (Hold : vs_threads st !! t = Some (Thread b (PcSaved sig)) -> exists l1 st2 st3 l2, l ++ [(op, o)] = l1 ++ (VSave t, OTau) :: l2 /\ vrun st0 l1 st2 /\
      vstep st2 (VSave t) = VOk st3 OTau /\
      hrs_le (ss_hrs (vs_lss st2)) (b_hrs b) /\ ss_hrs (vs_lss st3) = b_hrs b).
    { intros H. destruct (IH _ _ _ H) as (la & s1 & s2 & lb & -> & Ha). exists la, s1, s2, (lb ++ [(op, o)]).
      split; [rewrite <- app_assoc; done|done]. }
    pose proof Hs as Hs0. apply vstep_case in Hs.
    destruct Hs as [t1 b1 r pc1 Hl1 Hrr|t1 b1 Hl1|c a|t1 b1 pc1 op st' pc' o Hop Hl1 Ht]; simpl in Hl.
    + apply lookup_insert_Some in Hl as [[-> Hl]|[_ Hl]]; [|auto].
      injection Hl as -> ->. destruct Hrr as [[? ?]|[? ?]]; done.
    + apply lookup_insert_Some in Hl as [[-> Hl]|[_ Hl]]; [done|auto].
    + auto.
    + rewrite (tstep_threads _ _ _ _ _ _ _ _ _ _ Ht) in Hl.
      apply lookup_insert_Some in Hl as [[-> Hl]|[_ Hl]]; [|auto].
      injection Hl as -> ->. inversion Ht; subst.
      exists l, st. eexists. exists []. split; [done|]. split; [done|]. split; [exact Hs0|]. split; [done|].
      simpl. apply save_level. done.
Qed.

Lemma fresh_watermark st0 l st t b r : idle st0 -> vrun st0 l st -> returned l t b r true ->
  hrs_le (b_hrs b) (ss_hrs (vs_lss st)) /\
  exists l1 st1 st2 l2, l = l1 ++ (VSave t, OTau) :: l2 /\ vrun st0 l1 st1 /\
    vstep st1 (VSave t) = VOk st2 OTau /\
    hrs_le (ss_hrs (vs_lss st1)) (b_hrs b) /\ ss_hrs (vs_lss st2) = b_hrs b.
Proof.
  intros Hi Hr [op Hin].
  destruct (return_case _ _ _ _ _ _ _ _ Hi Hr Hin) as (l1 & st1 & st2 & l2 & -> & H1 & H2 & H3 & Hc).
  destruct Hc as [(_ & _ & ?)|(pc & st' & Hl & Hinv & Ht & ->)]; [done|].
  inversion Ht; subst. split.
  - apply vrun_mono in H3 as [_ H3]. eapply hrs_le_trans; [|exact H3]. simpl. apply Hinv.
  - destruct (saved_before _ _ _ _ _ _ Hi H1 Hl) as (la & s1 & s2 & lb & -> & Ha).
    exists la, s1, s2. eexists. split; [rewrite <- app_assoc; simpl; done|]. done.
Qed.
End V.
