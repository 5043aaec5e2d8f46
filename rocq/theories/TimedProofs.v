(** Proofs for C86. *)
From Verif Require Import GoBase Wire Canonical SignState Spec SignStateProofs Crypto LocalCosigner
  CosignerSpec Validator ValidatorSpec ValidatorProofs ValidatorProofs2 ValidatorProofs3 ValidatorProofs4 TimedSpec.
Local Open Scope Z_scope.

Lemma pairs_split {A} (R : A -> A -> Prop) la x lb y lc :
  ForallOrdPairs R (la ++ x :: lb ++ y :: lc) -> R x y.
Proof.
  induction la as [|a la IH]; simpl; intros H; inversion H as [|? ? H1 H2]; subst; [|auto].
  rewrite List.Forall_forall in H1. apply H1, in_or_app. right. left. done.
Qed.
Lemma pairs_app_l {A} (R : A -> A -> Prop) l l' : ForallOrdPairs R (l ++ l') -> ForallOrdPairs R l.
Proof.
  induction l as [|a l IH]; simpl; intros H; [constructor|]. inversion H as [|? ? H1 H2]; subst.
  constructor; [|auto]. apply List.Forall_app in H1. apply H1.
Qed.

Lemma untimed_app l l' : untimed (l ++ l') = untimed l ++ untimed l'.
Proof. apply map_app. Qed.
Lemma untimed_split l l1 op o l2 : untimed l = l1 ++ (op, o) :: l2 ->
  exists t1 tau t2, l = t1 ++ (tau, op, o) :: t2 /\ untimed t1 = l1 /\ untimed t2 = l2.
Proof.
  revert l1. induction l as [|[[tau op'] o'] l IH]; intros l1 H; [destruct l1; done|].
  destruct l1 as [|x l1]; simpl in H.
  - injection H as -> -> <-. exists [], tau, l. done.
  - injection H as <- H. apply IH in H as (t1 & tau' & t2 & -> & <- & <-).
    exists ((tau, op', o') :: t1), tau', t2. done.
Qed.

(** ** Counting polls *)
Fixpoint polls (t : nat) (l : list (vop * vobs)) : nat :=
  match l with
  | [] => 0
  | (VPoll t', _) :: l' => if decide (t' = t) then Datatypes.S (polls t l') else polls t l'
  | _ :: l' => polls t l'
  end.
Lemma polls_app t l l' : polls t (l ++ l') = (polls t l + polls t l')%nat.
Proof.
  induction l as [|[op o] l IH]; simpl; [done|]. destruct op; try done. destruct (decide _); simpl; lia.
Qed.
Lemma polls_other t op o : op <> VPoll t -> polls t [(op, o)] = 0%nat.
Proof. intros H. destruct op; try done. simpl. destruct (decide _); congruence. Qed.
Lemma polls_one t o : polls t [(VPoll t, o)] = 1%nat.
Proof. simpl. destruct (decide _); congruence. Qed.

Section T.
Context (C : Crypto) (cfg : vconf).
Notation vstep := (vstep C cfg).
Notation vrun := (vrun C cfg).

(** a call that has not passed VInit has not polled; a polling call has polled as often as it says *)
Definition count_inv (l : list (vop * vobs)) (st : vstate) : Prop :=
  forall t,
    (vs_threads st !! t = None -> polls t l = 0%nat /\ VInit t ∉ ops_of l) /\
    (forall b, vs_threads st !! t = Some (Thread b PcInit) -> polls t l = 0%nat /\ VInit t ∉ ops_of l) /\
    (forall b i, vs_threads st !! t = Some (Thread b (PcPoll i)) -> polls t l = i).

Lemma ops_notin l op o x : x ∉ ops_of l -> op <> x -> x ∉ ops_of (l ++ [(op, o)]).
Proof.
  intros H Hn Hin. rewrite ops_snoc in Hin. apply elem_of_app in Hin as [Hin|Hin]; [done|].
  apply elem_of_list_singleton in Hin. congruence.
Qed.
Lemma polls_snoc_other t l op o : op <> VPoll t -> polls t (l ++ [(op, o)]) = polls t l.
Proof. intros H. rewrite polls_app, polls_other by done. lia. Qed.

Lemma tstep_not_init st t b pc op st' pc' o : tstep C cfg st t b pc op st' pc' o -> pc' <> PcInit.
Proof. destruct 1; done. Qed.
Lemma tstep_to_poll st t b pc op st' pc' o i : tstep C cfg st t b pc op st' pc' o -> pc' = PcPoll i ->
  (pc = PcInit /\ op = VInit t /\ i = 0%nat) \/ (exists j, pc = PcPoll j /\ op = VPoll t /\ i = Datatypes.S j).
Proof.
  intros H E. destruct H; try discriminate E.
  - injection E as <-. left. done.
  - injection E as <-. right. eauto.
Qed.

Lemma count_run st0 l st : idle st0 -> vrun st0 l st -> count_inv l st.
Proof.
  intros Hi. apply (vrun_rev_ind C cfg st0 count_inv).
  - intros t. rewrite Hi, lookup_empty. split; [|done]. intros _. split; [done|]. apply not_elem_of_nil.
  - intros l' s op s1 o Hr IH Hs. pose proof Hs as Hc. apply vstep_case in Hc.
    destruct Hc as [t1 b1 r pc1 Hl1 Hrr|t1 b1 Hl1|c a|t1 b1 pc1 op st' pc' o Hop Hl1 Ht]; intros t;
      destruct (IH t) as (I1 & I2 & I3).
    + rewrite polls_snoc_other by done.
      assert (Hn : forall x, VInit x ∉ ops_of l' -> VInit x ∉ ops_of (l' ++ [(VCall t1 b1 r, OTau)])).
      { intros x Hx. by apply ops_notin. }
      unfold set_pc. simpl. destruct (decide (t1 = t)) as [->|Hne].
      * rewrite lookup_insert. destruct (I1 Hl1) as [J1 J2]. split; [done|].
        split; [intros b _; auto|]. intros b i E. injection E as _ ->. destruct Hrr as [[_ ?]|[_ ?]]; done.
      * rewrite lookup_insert_ne by done. split; [intros E; destruct (I1 E); auto|].
        split; [intros b E; destruct (I2 _ E); auto|done].
    + rewrite polls_snoc_other by done.
      assert (Hn : forall x, VInit x ∉ ops_of l' ->
                VInit x ∉ ops_of (l' ++ [(VCall t1 b1 RNone, OReturn t1 b1 (VR None (b_ts b1) (Some EvNoRaft)) false)])).
      { intros x Hx. by apply ops_notin. }
      unfold set_pc. simpl. destruct (decide (t1 = t)) as [->|Hne].
      * rewrite lookup_insert. split; [done|]. split; intros; discriminate.
      * rewrite lookup_insert_ne by done. split; [intros E; destruct (I1 E); auto|].
        split; [intros b E; destruct (I2 _ E); auto|done].
    + rewrite polls_snoc_other by done. simpl.
      assert (Hn : forall x, VInit x ∉ ops_of l' -> VInit x ∉ ops_of (l' ++ [(VLss c, OLss c a)])).
      { intros x Hx. by apply ops_notin. }
      split; [intros E; destruct (I1 E); auto|]. split; [intros b E; destruct (I2 _ E); auto|done].
    + unfold set_pc. simpl. rewrite (tstep_threads _ _ _ _ _ _ _ _ _ _ Ht).
      destruct (decide (t1 = t)) as [->|Hne].
      * rewrite lookup_insert. split; [done|]. split.
        { intros b E. injection E as _ E. exfalso. eapply tstep_not_init; eauto. }
        intros b i E. injection E as -> ->.
        destruct (tstep_to_poll _ _ _ _ _ _ _ _ _ Ht eq_refl) as [(-> & -> & ->)|(j & -> & -> & ->)].
        -- rewrite polls_snoc_other by done. apply (I2 _ Hl1).
        -- rewrite polls_app, polls_one, (I3 _ _ Hl1). lia.
      * rewrite lookup_insert_ne by done.
        assert (Hno : op <> VPoll t /\ op <> VInit t).
        { split; intros ->; simpl in Hop; injection Hop; congruence. }
        destruct Hno as [Hn1 Hn2]. rewrite polls_snoc_other by done.
        split; [intros E; destruct (I1 E); split; [done|by apply ops_notin]|].
        split; [intros b E; destruct (I2 _ E); split; [done|by apply ops_notin]|done].
Qed.

(** a look at the cache *)
Lemma poll_step st t st1 o : vstep st (VPoll t) = VOk st1 o ->
  exists b i, vs_threads st !! t = Some (Thread b (PcPoll i)) /\ do_poll cfg st t b i = VOk st1 o.
Proof.
  simpl. destruct (vs_threads st !! t) as [[b pc]|] eqn:E; [|discriminate].
  destruct pc; try discriminate. intros H. exists b, i. done.
Qed.
Lemma init_step st t st1 o : vstep st (VInit t) = VOk st1 o ->
  exists b, vs_threads st !! t = Some (Thread b PcInit).
Proof.
  simpl. destruct (vs_threads st !! t) as [[b pc]|] eqn:E; [|discriminate].
  destruct pc; try discriminate. intros H. exists b. done.
Qed.

Lemma last_poll t l : (0 < polls t (untimed l))%nat ->
  exists la tau o lb, l = la ++ (tau, VPoll t, o) :: lb /\ polls t (untimed l) = Datatypes.S (polls t (untimed la)).
Proof.
  induction l as [|[[tau op] o] l IH] using rev_ind; simpl; intros H; [lia|].
  assert (Ea : polls t (untimed (l ++ [(tau, op, o)])) = (polls t (untimed l) + polls t [(op, o)])%nat).
  { rewrite untimed_app, polls_app. done. }
  assert (Hd : op = VPoll t \/ op <> VPoll t).
  { destruct op as [| | |t'| | | | | | | | | | |]; try (right; discriminate).
    destruct (decide (t' = t)) as [->|]; [left; done|right; congruence]. }
  destruct Hd as [->|Hn].
  - exists l, tau, o, []. split; [done|]. rewrite Ea, polls_one. lia.
  - rewrite Ea, polls_other in H by done. destruct IH as (la & tau' & o' & lb & E & E'); [lia|].
    exists la, tau', o', (lb ++ [(tau, op, o)]). split; [rewrite E, <- app_assoc; done|].
    rewrite Ea, polls_other by done. lia.
Qed.

(** the n-th look comes at least 10 (n-1) ms after the first could *)
Lemma poll_time l t tau0 n : timed l ->
  (forall la tau o lb, l = la ++ (tau, VPoll t, o) :: lb -> tau0 <= tau) ->
  forall la tau o lb, l = la ++ (tau, VPoll t, o) :: lb -> polls t (untimed la) = n ->
    tau0 + 10 * Z.of_nat n <= tau.
Proof.
  intros Ht Hge. induction n as [|n IH]; intros la tau o lb El Hn.
  - specialize (Hge _ _ _ _ El). lia.
  - destruct (last_poll t la) as (l1 & tau' & o' & l2 & -> & E); [lia|].
    assert (El' : l = l1 ++ (tau', VPoll t, o') :: (l2 ++ (tau, VPoll t, o) :: lb)).
    { rewrite El, <- app_assoc. done. }
    pose proof (IH _ _ _ _ El' ltac:(lia)) as Hi.
    unfold timed in Ht. rewrite El' in Ht. apply pairs_split in Ht.
    destruct Ht as (_ & Hs & _). specialize (Hs t eq_refl eq_refl). unfold at_time in Hs. cbn [fst] in Hs. lia.
Qed.

Lemma app_cons_cases {A} (l1 l2 l1' l2' : list A) x y :
  l1 ++ x :: l2 = l1' ++ y :: l2' ->
  (exists m, l1' = l1 ++ x :: m /\ l2 = m ++ y :: l2') \/
  (l1 = l1' /\ x = y /\ l2 = l2') \/
  (exists m, l1 = l1' ++ y :: m /\ l2' = m ++ x :: l2).
Proof.
  revert l1'. induction l1 as [|a l1 IH]; intros [|a' l1'] H; simpl in H.
  - injection H as -> ->. right. left. done.
  - injection H as -> ->. left. exists l1'. done.
  - injection H as -> <-. right. right. exists l1. done.
  - injection H as -> H. apply IH in H as [(m & -> & ->)|[(-> & -> & ->)|(m & -> & ->)]].
    + left. exists m. done.
    + right. left. done.
    + right. right. exists m. done.
Qed.

(** all looks of a call come after its VInit *)
Lemma poll_after_init st0 l st t tau0 o0 : idle st0 -> vrun st0 (untimed l) st -> timed l ->
  (tau0, VInit t, o0) ∈ l ->
  forall la tau o lb, l = la ++ (tau, VPoll t, o) :: lb -> tau0 <= tau.
Proof.
  intros Hi Hr Ht Hin la tau o lb El.
  apply elem_of_list_split in Hin as (l1 & l2 & E).
  rewrite El in E. apply app_cons_cases in E as [(m & E1 & E2)|[(_ & E & _)|(m & E1 & E2)]].
  - exfalso. subst l1. rewrite El, E2 in Hr. rewrite untimed_app in Hr. simpl in Hr.
    rewrite untimed_app in Hr. simpl in Hr.
    change (untimed la ++ (VPoll t, o) :: untimed m ++ (VInit t, o0) :: untimed l2) with
      (untimed la ++ ((VPoll t, o) :: untimed m) ++ (VInit t, o0) :: untimed l2) in Hr.
    rewrite app_assoc in Hr. apply vrun_app_inv in Hr as (s1 & H1 & H2).
    inversion H2 as [|? ? s2 ? ? ? Hs _]; subst. apply init_step in Hs as (b & Hb).
    destruct (count_run _ _ _ Hi H1 t) as (_ & Hc & _). destruct (Hc _ Hb) as [Hz _].
    rewrite polls_app in Hz. simpl in Hz. destruct (decide _); [lia|done].
  - done.
  - rewrite El in Ht. subst la. unfold timed in Ht. rewrite <- app_assoc in Ht. simpl in Ht.
    apply pairs_split in Ht. apply Ht.
Qed.

(** ** What a look finds *)
Lemma do_poll_return st t b i st1 t' b' r f :
  do_poll cfg st t b i = VOk st1 (OReturn t' b' r f) ->
  t' = t /\ b' = b /\ f = false /\
  ((exists sig, get_existing (vs_lss st) b = Val (Some sig) /\ r = VR (Some sig) (b_ts b) None) \/
   (get_existing (vs_lss st) b = Fail ExWaiting /\ i = 99%nat /\ r = VR None (b_ts b) (Some EvWaitTimeout)) \/
   (get_existing (vs_lss st) b = Fail ExBeyond) \/
   (exists e, get_existing (vs_lss st) b = Fail (ExDiffer e) /\ r = VR None (b_ts b) (Some (EvDiffer e)))).
Proof.
  unfold do_poll, fail, ret, start. destruct (get_existing (vs_lss st) b) as [[sig|]|[e| |]|] eqn:E; intros H.
  - injection H as _ <- <- <- <-. eauto 10.
  - destruct (_ <? _); [discriminate|]. injection H as _ H. discriminate.
  - injection H as _ <- <- <- <-. eauto 10.
  - injection H as _ <- <- <- <-. eauto 10.
  - case_bool_decide as Hd; [|injection H as _ H; discriminate].
    injection H as _ <- <- <- <-. split; [done|]. split; [done|]. split; [done|]. right. left.
    split; [done|]. split; [lia|done].
  - discriminate.
Qed.
Lemma look_none lss b : ss_cache lss !! b_hrs b = None -> hrs_le (ss_hrs lss) (b_hrs b) ->
  get_existing lss b = Fail ExWaiting.
Proof.
  intros Hc Hle. unfold get_existing, get_from_cache. rewrite Hc.
  destruct (_ || _) eqn:E; [|done]. exfalso.
  apply orb_true_iff in E as [E|E]; [apply orb_true_iff in E as [E|E]|].
  - apply Z.ltb_lt in E. apply hrs_le_height in Hle. lia.
  - apply andb_true_iff in E as [E1 E2]. apply Z.eqb_eq in E1. apply Z.ltb_lt in E2.
    destruct Hle as [[H|[H1 [H|[H H']]]]|H]; try lia. rewrite H in E2. lia.
  - apply andb_true_iff in E as [E E3]. apply andb_true_iff in E as [E1 E2].
    apply Z.eqb_eq in E1, E2. apply Z.ltb_lt in E3.
    destruct Hle as [[H|[H1 [H|[H H']]]]|H]; try lia. rewrite H in E3. lia.
Qed.
Lemma look_some lss b c sig : ss_cache lss !! b_hrs b = Some c -> c_sig c = Some sig ->
  (b_sb b = slice_of (c_sb c) \/ h_step (b_hrs b) = stepPropose) -> get_existing lss b = Val (Some sig).
Proof.
  intros Hc Hs Hb. unfold get_existing, get_from_cache. rewrite Hc.
  replace ((h_step (b_hrs b) =? stepPropose) || bytes_equal (b_sb b) (slice_of (c_sb c))) with true; [by rewrite Hs|].
  symmetry. apply orb_true_iff. destruct Hb as [Hb|Hb]; [right; by apply bool_decide_eq_true|left; by apply Z.eqb_eq].
Qed.

(** ** From the first VInit of a level to its record *)
Section Level.
Context (k : hrs) (t1 : nat) (b1 : block) (Hk : b_hrs b1 = k) (Hh : 0 <= h_height k) (H63 : h_height k + 3 < 2 ^ 63).

Definition others_out (st : vstate) : Prop :=
  forall t b pc, vs_threads st !! t = Some (Thread b pc) -> b_hrs b = k -> t <> t1 -> outside pc.
(** nothing recorded yet *)
Definition pending (st : vstate) : Prop :=
  hrs_lt (ss_hrs (vs_lss st)) k /\ ss_cache (vs_lss st) !! k = None /\ others_out st /\
  exists pc, vs_threads st !! t1 = Some (Thread b1 pc) /\ forall sig, pc <> PcSaved sig.
(** recorded by call [t1] *)
Definition done_by (sig : bytes) (st : vstate) : Prop :=
  hrs_le k (ss_hrs (vs_lss st)) /\
  ss_cache (vs_lss st) !! k = Some (SSC k (Some sig) (Some (b_sb b1))) /\
  (vs_threads st !! t1 = Some (Thread b1 (PcSaved sig)) \/ vs_threads st !! t1 = Some (Thread b1 PcDone)).
(** passed over *)
Definition skipped (st : vstate) : Prop :=
  hrs_lt k (ss_hrs (vs_lss st)) /\ ss_cache (vs_lss st) !! k = None /\
  exists pc, vs_threads st !! t1 = Some (Thread b1 pc) /\ forall sig, pc <> PcSaved sig.

Lemma save_keeps s c x : hrs_le k (ss_hrs s) -> ss_cache s !! k = Some x ->
  h_height (c_hrs c) <= h_height k + 3 -> ss_cache (save s c).1 !! k = Some x.
Proof.
  intros Hle Hc H3. destruct ((save s c).2) eqn:E; [by rewrite (save_rejected _ _ _ E)|].
  pose proof E as E'. apply save_ok_iff in E'.
  rewrite (save_accepted _ _ E). cbn [ss_cache]. rewrite prune_lookup.
  assert (Hlt : hrs_lt k (c_hrs c)) by (eapply hrs_le_lt_trans; eauto).
  assert (h_height k <= h_height (c_hrs c)) by (apply hrs_le_height; left; done).
  rewrite decide_False.
  - rewrite lookup_insert_ne; [done|]. intros Ek. rewrite Ek in Hlt. eapply hrs_lt_irrefl; eauto.
  - unfold blocksToCache. rewrite wrap64_small; [lia|].
    unfold in_int64. change (2 ^ 63) with 9223372036854775808 in *. lia.
Qed.

Lemma save_not_k s c : ss_hrs s <> k -> c_hrs c <> k -> ss_cache s !! k = None ->
  ss_hrs (save s c).1 <> k /\ ss_cache (save s c).1 !! k = None.
Proof.
  intros H1 H2 H3. split.
  - destruct ((save s c).2) eqn:E; [by rewrite (save_rejected _ _ _ E)|].
    rewrite (save_accepted _ _ E). done.
  - destruct (ss_cache (save s c).1 !! k) eqn:E; [|done]. apply save_cache in E as [E|(E & _)]; congruence.
Qed.

(** the thread [t1] keeps its block *)
Lemma block_kept st op st1 o pc : vs_threads st !! t1 = Some (Thread b1 pc) -> vstep st op = VOk st1 o ->
  exists pc', vs_threads st1 !! t1 = Some (Thread b1 pc') /\
    (pc' = pc \/ exists st', op_thread op = Some t1 /\ tstep C cfg st t1 b1 pc op st' pc' o /\ st1 = set_pc st' t1 b1 pc').
Proof.
  intros Hl Hs. apply vstep_case in Hs.
  destruct Hs as [t b r pc1 Hn Hrr|t b Hn|c a|t b pc1 op st' pc' o Hop Hl1 Ht]; simpl.
  - rewrite lookup_insert_ne by congruence. eauto.
  - rewrite lookup_insert_ne by congruence. eauto.
  - eauto.
  - rewrite (tstep_threads _ _ _ _ _ _ _ _ _ _ Ht). destruct (decide (t = t1)) as [->|Hne].
    + rewrite lookup_insert. rewrite Hl in Hl1. injection Hl1 as <- <-. eauto 10.
    + rewrite lookup_insert_ne by done. eauto.
Qed.

Lemma skipped_step st op st1 o : skipped st -> vstep st op = VOk st1 o -> skipped st1.
Proof.
  intros (Hlt & Hc0 & pc & Hl & Hpc) Hs. pose proof Hs as Hm. apply vstep_mono in Hm as [_ Hm].
  destruct (block_kept _ _ _ _ _ Hl Hs) as (pc' & Hl' & Hc).
  split; [eapply hrs_lt_le_trans; eauto|]. split.
  { destruct (ss_cache (vs_lss st1) !! k) as [x|] eqn:E; [|done]. exfalso. clear Hc.
    assert (Hsv : forall c, ss_cache (save (vs_lss st) c).1 !! k = Some x -> False).
    { intros c Hx. apply save_cache in Hx as [Hx|(Ek & _ & Hx)]; [congruence|]. rewrite <- Ek in Hx.
      eapply hrs_lt_irrefl, hrs_lt_trans; eauto. }
    apply vstep_case in Hs. destruct Hs as [t b r pc1 Hn Hrr|t b Hn|c a|t b pc1 op st' pc2 o Hop Hlx Ht]; simpl in E;
      try congruence; eauto.
    apply tstep_lss in Ht as [Ht|(sg & _ & _ & _ & _ & Ht)]; rewrite Ht in E; [congruence|eauto]. }
  exists pc'. split; [done|].
  destruct Hc as [->|(st' & Hop & Ht & ->)]; [done|]. intros sig ->.
  inversion Ht; subst. match goal with H : hrs_le _ (b_hrs b1) |- _ => rename H into Hle end.
  destruct Hle as [Hle|Hle].
  - eapply hrs_lt_irrefl, hrs_lt_trans; [exact Hlt|]. exact Hle.
  - rewrite Hle in Hlt. eapply hrs_lt_irrefl; eauto.
Qed.

Lemma done_step sig st op st1 o : done_by sig st -> vstep st op = VOk st1 o ->
  (forall c, op = VLss c -> h_height (c_hrs c) <= h_height k + 3) ->
  (forall t b pc, vs_threads st !! t = Some (Thread b pc) -> h_height (b_hrs b) <= h_height k + 3) ->
  done_by sig st1 /\ forall r, o = OReturn t1 b1 r true -> r_sig r = Some sig.
Proof.
  intros (Hle & Hc & Hl) Hs Hev Hbl. pose proof Hs as Hm. apply vstep_mono in Hm as [_ Hm].
  assert (Hl1 : (vs_threads st1 !! t1 = Some (Thread b1 (PcSaved sig)) \/ vs_threads st1 !! t1 = Some (Thread b1 PcDone)) /\
    forall r, o = OReturn t1 b1 r true -> r_sig r = Some sig).
  { destruct Hl as [Hl|Hl]; pose proof Hs as Hb; apply (block_kept _ _ _ _ _ Hl) in Hb as (pc' & Hl' & Hd).
    - destruct Hd as [->|(st' & Hop & Ht & ->)].
      + split; [left; done|]. intros r ->. apply vstep_case in Hs.
        inversion Hs as [| | |t b pc2 op' st' pc2' o' Hop Hlx Ht]; subst.
        inversion Ht; subst. rewrite Hl in Hlx. injection Hlx as <-. done.
      + inversion Ht; subst. split; [right; done|]. intros r E. injection E as <-. done.
    - destruct Hd as [->|(st' & Hop & Ht & ->)]; [|inversion Ht].
      split; [right; done|]. intros r ->. exfalso. apply vstep_case in Hs.
      inversion Hs as [| | |t b pc2 op' st' pc2' o' Hop Hlx Ht]; subst.
      inversion Ht; subst. rewrite Hl in Hlx. discriminate. }
  split; [|apply Hl1]. split; [eapply hrs_le_trans; eauto|]. split; [|apply Hl1].
  apply vstep_case in Hs. destruct Hs as [t b r pc1 Hn Hrr|t b Hn|c a|t b pc1 op st' pc' o Hop Hlx Ht]; simpl; try done.
  - specialize (Hev c eq_refl). by apply save_keeps.
  - apply tstep_lss in Ht as [->|(sg & -> & -> & -> & Hle' & ->)]; [done|].
    specialize (Hbl _ _ _ Hlx). by apply save_keeps.
Qed.

Lemma outside_or_start st t b pc op st' pc' o : tstep C cfg st t b pc op st' pc' o -> outside pc ->
  outside pc' \/ o = OStart t b.
Proof. destruct 1; simpl; auto. Qed.

Lemma pending_step st op st1 o : pending st -> vstep st op = VOk st1 o ->
  hrs_le k (ss_hrs (vs_init st)) -> (forall c, op = VLss c -> c_hrs c <> k) ->
  (pending st1 \/ skipped st1 \/ exists sig, done_by sig st1) /\
  (forall r, o <> OReturn t1 b1 r true).
Proof.
  intros (Hlt & Hc & Hoth & pc & Hl & Hpc) Hs Hini Hev.
  assert (Hret : forall r, o <> OReturn t1 b1 r true).
  { intros r ->. apply vstep_case in Hs. inversion Hs as [| | |t b pc2 op' st' pc2' o' Hop Hlx Ht]; subst.
    inversion Ht; subst. rewrite Hl in Hlx. injection Hlx as ->. eapply Hpc; done. }
  split; [|done].
  assert (Hne : ss_hrs (vs_lss st) <> k) by (intros E; rewrite E in Hlt; eapply hrs_lt_irrefl; eauto).
  assert (Hlevel : forall s1 pc1, ss_hrs (vs_lss s1) <> k -> ss_cache (vs_lss s1) !! k = None -> others_out s1 ->
            vs_threads s1 !! t1 = Some (Thread b1 pc1) -> (forall sig, pc1 <> PcSaved sig) ->
            pending s1 \/ skipped s1 \/ exists sig, done_by sig s1).
  { intros s1 pc1 H1 H2 H3 H4 H5. destruct (hrs_trichotomy (ss_hrs (vs_lss s1)) k) as [H|[H|H]].
    - left. split; [done|]. split; [done|]. split; [done|]. eauto.
    - done.
    - right. left. split; [done|]. split; [done|]. eauto. }
  apply vstep_case in Hs. destruct Hs as [t b r pc1 Hn Hrr|t b Hn|c a|t b pc1 op st' pc' o Hop Hlx Ht].
  - apply (Hlevel _ pc); simpl; try done; [|by rewrite lookup_insert_ne by congruence].
    intros t' b' pc' Hl2 Hb Hn2. simpl in Hl2. apply lookup_insert_Some in Hl2 as [[-> E]|[_ E]]; [|by eapply Hoth].
    injection E as <- <-. destruct Hrr as [[_ ->]|[_ ->]]; done.
  - apply (Hlevel _ pc); simpl; try done; [|by rewrite lookup_insert_ne by congruence].
    intros t' b' pc' Hl2 Hb Hn2. simpl in Hl2. apply lookup_insert_Some in Hl2 as [[-> E]|[_ E]]; [|by eapply Hoth].
    injection E as <- <-. done.
  - destruct (save_not_k (vs_lss st) c Hne (Hev c eq_refl) Hc) as [H1 H2].
    apply (Hlevel _ pc); done.
  - assert (Hd : (exists sig, pc1 = PcVerified sig /\ pc' = PcSaved sig /\
                   vs_lss st' = (save (vs_lss st) (SSC (b_hrs b) (Some sig) (Some (b_sb b)))).1) \/
                 (vs_lss st' = vs_lss st /\ forall sig, pc' <> PcSaved sig)).
    { destruct Ht; try (right; done). left. eauto. }
    assert (Hout : t <> t1 -> b_hrs b = k -> outside pc').
    { intros Hn Hb. pose proof (Hoth _ _ _ Hlx Hb Hn) as Ho.
      destruct (outside_or_start _ _ _ _ _ _ _ _ Ht Ho) as [H|H]; [done|]. exfalso. subst o.
      inversion Ht; subst.
      - match goal with H : save _ _ = _ |- _ => 
          pose proof (save_ok_iff (vs_init st) (new_consensus (b_hrs b))) as Hok; rewrite H in Hok end.
        simpl in Hok. destruct Hok as [Hok _]. specialize (Hok eq_refl). rewrite Hb in Hok.
        eapply hrs_lt_irrefl, hrs_lt_le_trans; eauto.
      - match goal with H : get_existing _ _ = Val None |- _ => apply get_existing_val in H as (c & Hc' & _) end.
        rewrite Hb in Hc'. congruence. }
    assert (Hoth' : others_out (set_pc st' t b pc')).
    { intros t' b' pc2 Hl2 Hb Hn2. simpl in Hl2. rewrite (tstep_threads _ _ _ _ _ _ _ _ _ _ Ht) in Hl2.
      apply lookup_insert_Some in Hl2 as [[-> E]|[_ E]]; [|by eapply Hoth].
      injection E as <- <-. auto. }
    destruct Hd as [(sig & -> & -> & El)|[El Hns]].
    + destruct (decide (t = t1)) as [->|Hn].
      * rewrite Hl in Hlx. injection Hlx as <- ->. right. right. exists sig.
        assert (Ea : (save (vs_lss st) (SSC (b_hrs b1) (Some sig) (Some (b_sb b1)))).2 = None).
        { apply save_ok_iff. simpl. rewrite Hk. done. }
        rewrite (save_accepted _ _ Ea) in El. simpl in El. rewrite Hk in El.
        split; [simpl; rewrite El; right; done|]. split.
        -- simpl. rewrite El. simpl. rewrite prune_lookup, decide_False; [apply lookup_insert|].
           unfold blocksToCache. rewrite wrap64_small; [lia|].
           unfold in_int64. change (2 ^ 63) with 9223372036854775808 in *. lia.
        -- left. simpl. apply lookup_insert.
      * assert (Hb : b_hrs b <> k). { intros Hb. apply (Hoth _ _ _ Hlx Hb Hn). }
        destruct (save_not_k (vs_lss st) (SSC (b_hrs b) (Some sig) (Some (b_sb b))) Hne Hb Hc) as [H1 H2].
        apply (Hlevel _ pc); simpl; try done; [by rewrite El|by rewrite El|].
        rewrite (tstep_threads _ _ _ _ _ _ _ _ _ _ Ht). by rewrite lookup_insert_ne.
    + destruct (decide (t = t1)) as [->|Hn].
      * rewrite Hl in Hlx. injection Hlx as <- ->.
        apply (Hlevel _ pc'); simpl; try done; [by rewrite El|by rewrite El|]. apply lookup_insert.
      * apply (Hlevel _ pc); simpl; try done; [by rewrite El|by rewrite El|].
        rewrite (tstep_threads _ _ _ _ _ _ _ _ _ _ Ht). by rewrite lookup_insert_ne.
Qed.

Lemma skipped_fresh st op st1 o r : skipped st -> vstep st op = VOk st1 o -> o <> OReturn t1 b1 r true.
Proof.
  intros (_ & _ & pc & Hl & Hpc) Hs ->. apply vstep_case in Hs.
  inversion Hs as [| | |t b pc2 op' st' pc2' o' Hop Hlx Ht]; subst.
  inversion Ht; subst. rewrite Hl in Hlx. injection Hlx as ->. eapply Hpc; done.
Qed.

(** the blocks of all calls are near *)
Definition blocks_near (st : vstate) : Prop :=
  forall t b pc, vs_threads st !! t = Some (Thread b pc) -> h_height (b_hrs b) <= h_height k + 3.
Lemma near_step st op st1 o : blocks_near st -> vstep st op = VOk st1 o ->
  (forall t b r, op = VCall t b r -> h_height (b_hrs b) <= h_height k + 3) -> blocks_near st1.
Proof.
  intros Hb Hs Hn t b pc Hl. apply vstep_case in Hs.
  destruct Hs as [t' b' r pc1 Hn' Hrr|t' b' Hn'|c a|t' b' pc1 op st' pc' o Hop Hlx Ht]; simpl in Hl.
  - apply lookup_insert_Some in Hl as [[-> E]|[_ E]]; [|eauto]. injection E as <- <-. eauto.
  - apply lookup_insert_Some in Hl as [[-> E]|[_ E]]; [|eauto]. injection E as <- <-. eauto.
  - eauto.
  - rewrite (tstep_threads _ _ _ _ _ _ _ _ _ _ Ht) in Hl.
    apply lookup_insert_Some in Hl as [[-> E]|[_ E]]; [|eauto]. injection E as <- <-. eauto.
Qed.

Lemma near_cons op o l : near (h_height k) ((op, o) :: l) ->
  (forall t b r, op = VCall t b r -> h_height (b_hrs b) <= h_height k + 3) /\
  (forall c, op = VLss c -> h_height (c_hrs c) <= h_height k + 3) /\ near (h_height k) l.
Proof.
  intros [H1 H2]. split; [intros t b r ->; eapply (H1 t b r); left|]. split; [intros c ->; eapply (H2 c); left|].
  split; [intros t b r H; eapply (H1 t b r); right; done|intros c H; eapply (H2 c); right; done].
Qed.
Lemma no_event_cons op o l : no_event k ((op, o) :: l) ->
  (forall c, op = VLss c -> c_hrs c <> k) /\ no_event k l.
Proof.
  intros H. split; [intros c ->; apply H; left|]. intros c Hc. apply H. right. done.
Qed.

Lemma skipped_run st l st' : vrun st l st' -> skipped st ->
  skipped st' /\ forall op r, (op, OReturn t1 b1 r true) ∉ l.
Proof.
  induction 1 as [|s op s1 o l' s2 Hs Hr IH]; intros Hk'; [split; [done|]; intros op r; apply not_elem_of_nil|].
  destruct (IH (skipped_step _ _ _ _ Hk' Hs)) as [H1 H2]. split; [done|].
  intros op' r Hin. apply elem_of_cons in Hin as [E|Hin]; [|by eapply H2].
  injection E as -> <-. exact (skipped_fresh _ _ _ _ r Hk' Hs eq_refl).
Qed.
Lemma done_run sig st l st' : vrun st l st' -> done_by sig st -> blocks_near st -> near (h_height k) l ->
  done_by sig st' /\ forall op r, (op, OReturn t1 b1 r true) ∈ l -> r_sig r = Some sig.
Proof.
  induction 1 as [|s op s1 o l' s2 Hs Hr IH]; intros Hd Hb Hn.
  { split; [done|]. intros op r H. apply elem_of_nil in H. done. }
  apply near_cons in Hn as (N1 & N2 & N3).
  destruct (done_step _ _ _ _ _ Hd Hs N2 Hb) as [D1 D2].
  destruct (IH D1 (near_step _ _ _ _ Hb Hs N1) N3) as [H1 H2]. split; [done|].
  intros op' r Hin. apply elem_of_cons in Hin as [E|Hin]; [|eauto]. injection E as -> <-. eauto.
Qed.
Lemma pending_run st l st' : vrun st l st' -> pending st -> hrs_le k (ss_hrs (vs_init st)) -> blocks_near st ->
  near (h_height k) l -> no_event k l ->
  (pending st' /\ (forall op r, (op, OReturn t1 b1 r true) ∉ l)) \/
  (skipped st' /\ (forall op r, (op, OReturn t1 b1 r true) ∉ l)) \/
  (exists sig, done_by sig st' /\ forall op r, (op, OReturn t1 b1 r true) ∈ l -> r_sig r = Some sig).
Proof.
  induction 1 as [|s op s1 o l' s2 Hs Hr IH]; intros Hp Hi Hb Hn He.
  { left. split; [done|]. intros op r; apply not_elem_of_nil. }
  apply near_cons in Hn as (N1 & N2 & N3). apply no_event_cons in He as (E1 & E2).
  destruct (pending_step _ _ _ _ Hp Hs Hi E1) as [Hph Hnr].
  pose proof (near_step _ _ _ _ Hb Hs N1) as Hb1.
  assert (Hi1 : hrs_le k (ss_hrs (vs_init s1))).
  { eapply hrs_le_trans; [exact Hi|]. eapply vstep_mono; eauto. }
  assert (Hcons : (forall op r, (op, OReturn t1 b1 r true) ∉ l') ->
            forall op' r, (op', OReturn t1 b1 r true) ∉ (op, o) :: l').
  { intros Hx op' r Hin. apply elem_of_cons in Hin as [E|Hin]; [|by eapply Hx]. injection E as -> <-. by eapply Hnr. }
  destruct Hph as [Hph|[Hph|[sig Hph]]].
  - destruct (IH Hph Hi1 Hb1 N3 E2) as [[H1 H2]|[[H1 H2]|(sig & H1 & H2)]]; [left; auto|right; left; auto|].
    right. right. exists sig. split; [done|]. intros op' r Hin. apply elem_of_cons in Hin as [E|Hin]; [|eauto].
    exfalso. injection E as -> <-. by eapply Hnr.
  - right. left. destruct (skipped_run _ _ _ Hr Hph) as [H1 H2]. auto.
  - right. right. exists sig. destruct (done_run _ _ _ _ Hr Hph Hb1 N3) as [H1 H2]. split; [done|].
    intros op' r Hin. apply elem_of_cons in Hin as [E|Hin]; [|eauto]. exfalso. injection E as -> <-. by eapply Hnr.
Qed.

(** before the level is initiated *)
Definition quiet (st : vstate) : Prop :=
  ss_hrs (vs_lss st) <> k /\ ss_cache (vs_lss st) !! k = None /\
  forall t b pc, vs_threads st !! t = Some (Thread b pc) -> b_hrs b = k -> outside pc.
Lemma quiet_step st op st1 o : quiet st -> vstep st op = VOk st1 o -> hrs_lt (ss_hrs (vs_init st1)) k ->
  (forall c, op = VLss c -> c_hrs c <> k) -> quiet st1.
Proof.
  intros (Hne & Hc & Hout) Hs Hini Hev.
  apply vstep_case in Hs. destruct Hs as [t b r pc1 Hn Hrr|t b Hn|c a|t b pc1 op st' pc' o Hop Hlx Ht]; simpl in Hini.
  - split; [done|]. split; [done|]. intros t' b' pc' Hl2 Hb. simpl in Hl2.
    apply lookup_insert_Some in Hl2 as [[-> E]|[_ E]]; [|by eapply Hout].
    injection E as <- <-. destruct Hrr as [[_ ->]|[_ ->]]; done.
  - split; [done|]. split; [done|]. intros t' b' pc' Hl2 Hb. simpl in Hl2.
    apply lookup_insert_Some in Hl2 as [[-> E]|[_ E]]; [|by eapply Hout]. injection E as <- <-. done.
  - destruct (save_not_k (vs_lss st) c Hne (Hev c eq_refl) Hc) as [H1 H2]. done.
  - assert (Hsv : ss_hrs (vs_lss st') <> k /\ ss_cache (vs_lss st') !! k = None).
    { pose proof Ht as Ht'. apply tstep_lss in Ht as [->|(sg & -> & -> & -> & _ & ->)]; [done|].
      apply save_not_k; try done. simpl. intros Hb. apply (Hout _ _ _ Hlx Hb). }
    split; [apply Hsv|]. split; [apply Hsv|]. intros t' b' pc2 Hl2 Hb. simpl in Hl2.
    rewrite (tstep_threads _ _ _ _ _ _ _ _ _ _ Ht) in Hl2.
    apply lookup_insert_Some in Hl2 as [[-> E]|[_ E]]; [|by eapply Hout]. injection E as <- <-.
    pose proof (Hout _ _ _ Hlx Hb) as Ho.
    destruct (outside_or_start _ _ _ _ _ _ _ _ Ht Ho) as [H|H]; [done|]. exfalso. subst o.
    inversion Ht; subst.
    + match goal with H : save _ _ = _ |- _ => 
        pose proof (save_accepted (vs_init st) (new_consensus (b_hrs b))) as Ha; rewrite H in Ha end.
      simpl in Ha. specialize (Ha eq_refl). rewrite Ha in Hini. simpl in Hini. rewrite Hb in Hini.
      eapply hrs_lt_irrefl; eauto.
    + match goal with H : get_existing _ _ = Val None |- _ => apply get_existing_val in H as (c & Hc' & _) end.
      rewrite Hb in Hc'. congruence.
Qed.
Lemma quiet_run st l st' : vrun st l st' -> quiet st -> hrs_lt (ss_hrs (vs_init st')) k -> no_event k l -> quiet st'.
Proof.
  induction 1 as [|s op s1 o l' s2 Hs Hr IH]; intros Hq Hi He; [done|].
  apply no_event_cons in He as (E1 & E2). apply IH; [|done|done].
  eapply quiet_step; eauto. apply vrun_mono in Hr as [Hm _]. eapply hrs_le_lt_trans; eauto.
Qed.
Lemma near_run st l st' : vrun st l st' -> blocks_near st -> near (h_height k) l -> blocks_near st'.
Proof.
  induction 1 as [|s op s1 o l' s2 Hs Hr IH]; intros Hb Hn; [done|].
  apply near_cons in Hn as (N1 & N2 & N3). apply IH; [|done]. eapply near_step; eauto.
Qed.
End Level.

Lemma near_app h l l' : near h (l ++ l') -> near h l /\ near h l'.
Proof.
  intros [H1 H2]. unfold near, ops_of in *. rewrite map_app in *.
  split; (split; [intros t b r Hx; eapply (H1 t b r)|intros c Hx; eapply (H2 c)]); apply elem_of_app; auto.
Qed.
Lemma no_event_app k l l' : no_event k (l ++ l') -> no_event k l /\ no_event k l'.
Proof.
  unfold no_event, ops_of. rewrite map_app. intros H. split; intros c Hc; apply H, elem_of_app; auto.
Qed.
Lemma untimed_in tau op o l : (tau, op, o) ∈ l -> (op, o) ∈ untimed l.
Proof. intros H. apply elem_of_list_fmap. exists (tau, op, o). done. Qed.

(** the second request *)
Lemma repeat_answered l0 l st t1 b1 tau1 taus op1 r1 t2 b2 tau2 o2 tau r2 f2 :
  cache_sound l0 -> vrun (new_validator l0) (untimed l) st -> timed l ->
  no_event (b_hrs b1) (untimed l) -> near (h_height (b_hrs b1)) (untimed l) ->
  0 <= h_height (b_hrs b1) -> h_height (b_hrs b1) + 3 < 2 ^ 63 ->
  (tau1, VInit t1, OStart t1 b1) ∈ l -> (taus, op1, OReturn t1 b1 r1 true) ∈ l ->
  (tau2, VInit t2, o2) ∈ l -> (tau, VPoll t2, OReturn t2 b2 r2 f2) ∈ l ->
  same_request b2 b1 -> taus < tau2 + 990 ->
  exists sig, r1 = VR (Some sig) (b_ts b1) None /\ r2 = VR (Some sig) (b_ts b2) None.
Proof.
  intros Hcs Hr Ht Hne Hnear H0 H63 Hin1 HinF Hin2 HinP [Hk Hsame] Htime.
  set (k := b_hrs b1) in *. assert (Hk1 : b_hrs b1 = k) by done.
  assert (Hi : idle (new_validator l0)) by done.
  assert (HF : exists sig, r1 = VR (Some sig) (b_ts b1) None).
  { destruct (fresh_verified C cfg _ _ _ t1 b1 r1 Hi Hr) as (sig & -> & _); [exists op1; by eapply untimed_in|]. eauto. }
  destruct HF as [sig1 ->]. exists sig1. split; [done|].
  pose proof (poll_after_init _ _ _ _ _ _ Hi Hr Ht Hin2) as Hafter.
  pose proof HinP as HinP'. pose proof HinF as HinF'.
  apply elem_of_list_split in Hin1 as (la & lb & El).
  pose proof Hr as Hr0. rewrite El, untimed_app in Hr0. simpl in Hr0.
  apply vrun_app_inv in Hr0 as (sA & HrA & Hr0). inversion Hr0 as [|? ? sB ? ? ? HsB HrB]; subst.
  rewrite untimed_app in Hnear, Hne. simpl in Hnear, Hne.
  apply near_app in Hnear as [NA NB]. apply near_cons in NB as (_ & _ & NB).
  apply no_event_app in Hne as [EA EB]. apply no_event_cons in EB as (_ & EB).
  destruct (threads_inv_run C cfg _ _ sA Hi HrA) as [HinvA _].
  (* the state at the start of the signature *)
  assert (HiA : hrs_lt (ss_hrs (vs_init sA)) k /\ hrs_le k (ss_hrs (vs_init sB)) /\
            exists st', vs_lss sB = vs_lss sA /\ vs_threads st' = vs_threads sA /\
              sB = set_pc st' t1 b1 (PcCollect None [] [])).
  { pose proof HsB as Hc. apply vstep_case in Hc.
    inversion Hc as [| | |t' b' pc op' st' pc' o Hop Hl Hts]; subst.
    assert (t' = t1 /\ b' = b1) as (-> & ->). { inversion Hts; subst; done. }
    inversion Hts; subst.
    match goal with H : save _ _ = _ |- _ =>
      pose proof (save_ok_iff (vs_init sA) (new_consensus (b_hrs b1))) as Hok;
      pose proof (save_accepted (vs_init sA) (new_consensus (b_hrs b1))) as Ha; rewrite H in Hok, Ha end.
    simpl in Hok, Ha. specialize (Ha eq_refl). destruct Hok as [Hok _].
    split; [apply Hok; done|]. split; [simpl; rewrite Ha; right; done|]. eexists. split; [|split; [|done]]; done. }
  destruct HiA as (HiA & HiB & st' & ElB & EtB & EsB).
  assert (Hl0 : hrs_lt (ss_hrs l0) k).
  { apply vrun_mono in HrA as [Hm _]. eapply hrs_le_lt_trans; [exact Hm|done]. }
  assert (Hc0 : ss_cache l0 !! k = None).
  { destruct (ss_cache l0 !! k) eqn:E; [|done]. apply Hcs in E as [_ E]. exfalso.
    eapply hrs_lt_irrefl, hrs_le_lt_trans; eauto. }
  assert (HqA : quiet k sA).
  { eapply (quiet_run k b1 Hk1 H0 H63); [exact HrA| |done|done]. split; [|split; [done|]].
    - simpl. intros E. rewrite E in Hl0. eapply hrs_lt_irrefl; eauto.
    - simpl. intros t b pc Hl. rewrite lookup_empty in Hl. done. }
  assert (HbA : blocks_near k sA).
  { eapply near_run; [exact HrA| |done]. simpl. intros t b pc Hl. simpl in Hl. rewrite lookup_empty in Hl. done. }
  assert (HbB : blocks_near k sB). { eapply near_step; [exact HbA|exact HsB|]. done. }
  (* the phase at that moment *)
  assert (HphB : pending k t1 b1 sB \/ skipped k t1 b1 sB).
  { destruct HqA as (Q1 & Q2 & Q3).
    assert (Hth : vs_threads sB !! t1 = Some (Thread b1 (PcCollect None [] []))).
    { rewrite EsB. simpl. apply lookup_insert. }
    destruct (hrs_trichotomy (ss_hrs (vs_lss sA)) k) as [H|[H|H]]; [left|done|right].
    - split; [by rewrite ElB|]. split; [by rewrite ElB|]. split; [|eauto].
      intros t b pc Hl Hb Hn. rewrite EsB in Hl. simpl in Hl. rewrite lookup_insert_ne, EtB in Hl by done. eauto.
    - split; [by rewrite ElB|]. split; [by rewrite ElB|]. eauto. }
  (* neither event is before it *)
  assert (HF : (taus, op1, OReturn t1 b1 (VR (Some sig1) (b_ts b1) None) true) ∈ lb).
  { apply elem_of_app in HinF as [H|H]; [|apply elem_of_cons in H as [H|H]; [done|done]]. exfalso.
    apply untimed_in in H.
    destruct (return_case C cfg _ _ _ _ _ _ _ _ Hi HrA H) as (l1 & s1 & s2 & l2 & _ & R1 & R2 & R3 & Hc).
    destruct Hc as [(_ & _ & ?)|(pc & sx & Hl & Hinv & Htt & _)]; [done|].
    inversion Htt; subst. simpl in Hinv. destruct Hinv as (_ & _ & Hle & _).
    apply vstep_mono in R2 as [R2 _]. apply vrun_mono in R3 as [R3 _].
    eapply hrs_lt_irrefl, hrs_le_lt_trans; [exact Hle|]. eapply hrs_le_lt_trans; [exact R2|].
    eapply hrs_le_lt_trans; [exact R3|exact HiA]. }
  assert (HP : (tau, VPoll t2, OReturn t2 b2 r2 f2) ∈ lb).
  { apply elem_of_app in HinP as [H|H]; [|apply elem_of_cons in H as [H|H]; [done|done]]. exfalso.
    apply untimed_in in H.
    destruct (return_case C cfg _ _ _ _ _ _ _ _ Hi HrA H) as (l1 & s1 & s2 & l2 & _ & R1 & R2 & R3 & Hc).
    destruct Hc as [(? & _ & _)|(pc & sx & Hl & Hinv & Htt & _)]; [done|].
    assert (Hle : hrs_le (b_hrs b2) (ss_hrs (vs_init s1))) by (inversion Htt; subst; apply Hinv).
    rewrite Hk in Hle.
    apply vstep_mono in R2 as [R2 _]. apply vrun_mono in R3 as [R3 _].
    eapply hrs_lt_irrefl, hrs_le_lt_trans; [exact Hle|]. eapply hrs_le_lt_trans; [exact R2|].
    eapply hrs_le_lt_trans; [exact R3|exact HiA]. }
  destruct HphB as [HphB|HphB].
  2: { exfalso. destruct (skipped_run k t1 b1 Hk1 H0 H63 _ _ _ HrB HphB) as [_ H]. eapply H, untimed_in, HF. }
  (* the look that returned *)
  apply elem_of_list_split in HP as (lb1 & lb2 & Elb).
  rewrite Elb, untimed_app in HrB. simpl in HrB. apply vrun_app_inv in HrB as (sP & HrP & HrB).
  inversion HrB as [|? ? sQ ? ? ? HsP HrQ]; subst.
  rewrite untimed_app in NB, EB. simpl in NB, EB.
  apply near_app in NB as [NB1 NB2]. apply near_cons in NB2 as (_ & _ & NB2).
  apply no_event_app in EB as [EB1 EB2]. apply no_event_cons in EB2 as (_ & EB2).
  pose proof HsP as HsP'. apply poll_step in HsP' as (b & i & Hlp & Hdo).
  apply do_poll_return in Hdo as (_ & -> & -> & Hcases).
  pose proof (pending_run k t1 b1 Hk1 H0 H63 _ _ _ HrP HphB HiB HbB NB1 EB1) as Hph.
  destruct Hph as [[Hph HnF]|[[Hph HnF]|(sig & Hph & HnF)]].
  - exfalso. destruct Hph as (Hlt & Hcn & _).
    assert (E : get_existing (vs_lss sP) b = Fail ExWaiting).
    { apply look_none; rewrite Hk; [done|left; done]. }
    destruct Hcases as [(s & Ex & _)|[(_ & Ei & _)|[Ex|(e & Ex & _)]]]; try congruence.
    (* it was the hundredth *)
    assert (HrAll : vrun (new_validator l0) (untimed (la ++ (tau1, VInit t1, OStart t1 b1) :: lb1)) sP).
    { rewrite untimed_app. simpl. eapply vrun_app; [exact HrA|]. econstructor; [exact HsB|exact HrP]. }
    destruct (count_run _ _ _ Hi HrAll t2) as (_ & _ & Hcnt). specialize (Hcnt _ _ Hlp). subst i.
    set (L := la ++ (tau1, VInit t1, OStart t1 b1) :: lb1 ++ (tau, VPoll t2, OReturn t2 b r2 false) :: lb2) in *.
    assert (EL : L = (la ++ (tau1, VInit t1, OStart t1 b1) :: lb1) ++ (tau, VPoll t2, OReturn t2 b r2 false) :: lb2).
    { unfold L. rewrite <- app_assoc. done. }
    pose proof (poll_time L t2 tau2 99 Ht Hafter _ _ _ _ EL Hcnt) as Hlate.
    (* the first answer came later *)
    assert (HF2 : (taus, op1, OReturn t1 b1 (VR (Some sig1) (b_ts b1) None) true) ∈ lb2).
    { apply elem_of_app in HF as [H|H]; [exfalso; eapply HnF, untimed_in, H|].
      apply elem_of_cons in H as [H|H]; [done|done]. }
    apply elem_of_list_split in HF2 as (x1 & x2 & E2). unfold timed in Ht. rewrite EL, E2 in Ht.
    apply pairs_split in Ht. destruct Ht as [Ho _]. unfold at_time in Ho. cbn [fst] in Ho. lia.
  - exfalso. destruct (skipped_run k t1 b1 Hk1 H0 H63 _ _ _ HrB Hph) as [_ HnF2].
    apply elem_of_app in HF as [H|H]; [eapply HnF, untimed_in, H|]. apply untimed_in in H. by eapply HnF2.
  - assert (Hsig : sig = sig1).
    { apply elem_of_app in HF as [H|H]; [apply untimed_in, HnF in H; simpl in H; congruence|].
      destruct (done_run k t1 b1 Hk1 H0 H63 sig _ _ _ HrB Hph) as [_ HnF2].
      - eapply near_run; [exact HrP|exact HbB|exact NB1].
      - destruct NB2 as [N1 N2]. split; [intros t' b' r' Hx|intros c Hx]; apply elem_of_cons in Hx as [Hx|Hx]; try done; eauto.
      - assert (Hx : r_sig (VR (Some sig1) (b_ts b1) None) = Some sig).
        { apply untimed_in in H. by eapply HnF2. }
        simpl in Hx. congruence. }
    subst sig1. destruct Hph as (_ & Hcc & _).
    assert (E : get_existing (vs_lss sP) b = Val (Some sig)).
    { eapply look_some; [rewrite Hk; exact Hcc|done|]. simpl. done. }
    destruct Hcases as [(s & Ex & ->)|[(Ex & _ & _)|[Ex|(e & Ex & _)]]]; congruence.
Qed.
End T.
