(** More properties of SignBlock: retries, repeated proposals, conflicts, followers. *)
From Verif Require Import GoBase Wire Canonical SignState Spec SignStateProofs Crypto LocalCosigner
  CosignerSpec CosignerProofs Cluster ClusterProofs Validator ValidatorSpec ValidatorProofs ValidatorProofs2
  ValidatorProofs3.
Local Open Scope Z_scope.

Section V.
Context (C : Crypto) (cfg : vconf).
Notation vstep := (vstep C cfg).
Notation vrun := (vrun C cfg).

(** positions outside the signing protocol *)

Lemma outside_step st t b pc op st' pc' o :
  tstep C cfg st t b pc op st' pc' o -> outside pc -> hrs_le (b_hrs b) (ss_hrs (vs_init st)) ->
  get_existing (vs_lss st) b <> Val None -> outside pc' /\ st' = st /\ (forall t' b', o <> OStart t' b') /\
  (forall t' w k ps sb, o <> OAsk t' w k ps sb).
Proof.
  intros Ht Ho Hle Hg. destruct Ht; simpl in Ho; try done.
  exfalso. pose proof (save_ok_iff (vs_init st) (new_consensus (b_hrs b))) as Hok. rewrite H in Hok. simpl in Hok.
  destruct Hok as [Hok _]. specialize (Hok eq_refl). eapply hrs_lt_irrefl, hrs_lt_le_trans; eauto.
Qed.

Lemma no_record_fails lss b : ss_cache lss !! b_hrs b = None -> forall so, get_existing lss b <> Val so.
Proof. intros H so Hg. apply get_existing_val in Hg as (c & Hc & _). congruence. Qed.

(** C30: after a failed attempt at [k] nothing short of a raft event helps *)

Lemma stuck_step k st op st1 o : stuck_at k st -> vstep st op = VOk st1 o ->
  (forall c, op = VLss c -> c_hrs c <> k) ->
  stuck_at k st1 /\
  match o with
  | OStart _ b => b_hrs b <> k
  | OReturn t b r f => b_hrs b = k -> f = false /\ (r_err r <> None \/ exists ans, op = VProxy t ans)
  | _ => True
  end.
Proof.
  intros (H1 & H2 & H3) Hs Hev. pose proof (vstep_mono _ _ _ _ _ _ Hs) as [Hm1 Hm2]. apply vstep_case in Hs.
  assert (L1 : hrs_le k (ss_hrs (vs_init st1))) by (eapply hrs_le_trans; eauto).
  destruct Hs as [t b r pc Hl Hrr|t b Hl|c a|t b pc op st' pc' o Hop Hl Ht].
  - split; [|done]. split; [done|]. split; [done|]. intros t' b' pc'. simpl.
    intros [[-> [= <- <-]]|[_ Hx]]%lookup_insert_Some Hb; [|eapply H3; eauto].
    destruct Hrr as [[_ ->]|[_ ->]]; done.
  - split; [|intros _; split; [done|by left]]. split; [done|]. split; [done|]. intros t' b' pc'. simpl.
    intros [[-> [= <- <-]]|[_ Hx]]%lookup_insert_Some Hb; [done|eapply H3; eauto].
  - split; [|done]. split; [done|]. split; [|done]. simpl.
    destruct (ss_cache (save (vs_lss st) c).1 !! k) as [c'|] eqn:E; [|done].
    apply save_cache in E as [E|(-> & _ & _)]; [congruence|]. destruct (Hev c); done.
  - destruct (decide (b_hrs b = k)) as [Hb|Hb].
    + subst k. pose proof (no_record_fails _ _ H2) as Hg.
      pose proof (outside_step _ _ _ _ _ _ _ _ Ht (H3 _ _ _ Hl eq_refl) H1 (Hg None)) as (Ho & -> & Hst & _).
      split.
      * split; [done|]. split; [done|]. intros t' b' p'. simpl.
        intros [[-> [= <- <-]]|[_ Hx]]%lookup_insert_Some Hb; [done|eapply H3; eauto].
      * pose proof (H3 _ _ _ Hl eq_refl) as Hout.
        inversion Ht; subst; try done; simpl in Hout; try done;
          try (exfalso; eapply Hst; reflexivity); try (exfalso; eapply Hg; eassumption);
          intros _; (split; [done|]); [right; eauto|left; done|left; done].
    + split.
      * split; [done|]. split.
        { cbn [set_pc vs_lss]. destruct (tstep_lss _ _ _ _ _ _ _ _ _ _ Ht) as [-> |(sig & -> & -> & -> & Hle & ->)]; [done|].
          destruct (ss_cache (save _ _).1 !! k) as [c'|] eqn:E; [|done].
          apply save_cache in E as [E|(-> & _ & _)]; [congruence|]. by destruct Hb. }
        simpl. rewrite (tstep_threads _ _ _ _ _ _ _ _ _ _ Ht). intros t' b' p'.
        intros [[-> [= <- <-]]|[_ Hx]]%lookup_insert_Some Hb'; [done|eapply H3; eauto].
      * destruct Ht; done.
Qed.

Lemma stuck_run k st l st' : vrun st l st' -> stuck_at k st -> no_event k l ->
  (forall op t b, (op, OStart t b) ∈ l -> b_hrs b <> k) /\
  (forall op t b r f, (op, OReturn t b r f) ∈ l -> b_hrs b = k ->
     f = false /\ (r_err r <> None \/ exists ans, op = VProxy t ans)).
Proof.
  intros Hr Hk Hev. revert Hev. cut (no_event k l -> stuck_at k st' /\
  (forall op t b, (op, OStart t b) ∈ l -> b_hrs b <> k) /\
  (forall op t b r f, (op, OReturn t b r f) ∈ l -> b_hrs b = k ->
     f = false /\ (r_err r <> None \/ exists ans, op = VProxy t ans))); [tauto|].
  pattern l, st'. eapply (vrun_rev_ind C cfg st); [| |exact Hr]; cbv beta; clear l st' Hr.
  - intros _. split; [done|]. split; intros *; intros Hin; by apply elem_of_nil in Hin.
  - intros l s op s1 o Hr IH Hs Hev.
    destruct IH as (I1 & I2 & I3). { intros c Hc. apply Hev. by apply elem_ops_snoc. }
    destruct (stuck_step k s op s1 o I1 Hs) as [S1 S2].
    { intros c ->. apply Hev. apply elem_ops_last. }
    split; [done|]. split.
    + intros op' t b [Hin|[= -> <-]%elem_of_list_singleton]%elem_of_app; [eauto|]. exact S2.
    + intros op' t b r f [Hin|[= -> <-]%elem_of_list_singleton]%elem_of_app; [eauto|]. exact S2.
Qed.

(** C31: with a recorded proposal *)
Definition answered_at (k : hrs) (c : consensus) (st0 st : vstate) : Prop :=
  hrs_le k (ss_hrs (vs_init st)) /\ hrs_le k (ss_hrs (vs_lss st)) /\
  (ss_cache (vs_lss st) !! k = Some c \/ ss_cache (vs_lss st) !! k = None) /\
  forall t b pc, vs_threads st0 !! t = None -> vs_threads st !! t = Some (Thread b pc) ->
    b_hrs b = k -> outside pc.

Lemma get_existing_record lss b c sig :
  h_step (b_hrs b) = stepPropose -> c_sig c = Some sig ->
  (ss_cache lss !! b_hrs b = Some c -> get_existing lss b = Val (Some sig)).
Proof.
  intros Hp Hs Hc. unfold get_existing, get_from_cache. rewrite Hc, Hp. simpl. congruence.
Qed.

Lemma answered_step k c sig st0 st op st1 o :
  h_step k = stepPropose -> c_sig c = Some sig ->
  answered_at k c st0 st -> vstep st op = VOk st1 o ->
  answered_at k c st0 st1 /\
  match o with
  | OStart t b => vs_threads st0 !! t = None -> b_hrs b <> k
  | OAsk t w key ps sb => vs_threads st0 !! t = None -> ht_hrs key <> k
  | OReturn t b r f => b_hrs b = k -> vs_threads st0 !! t = None -> f = false /\
      (r = VR (Some sig) (b_ts b) None \/ op = VCall t b RNone \/ (exists ans, op = VProxy t ans) \/
       (r_err r <> None /\ ss_cache (vs_lss st) !! k = None))
  | _ => True
  end.
Proof.
  intros Hk Hsig (H1 & H1' & H2 & H3) Hs. pose proof (vstep_mono _ _ _ _ _ _ Hs) as [Hm1 Hm2].
  apply vstep_case in Hs.
  assert (Hsave : forall c', ss_cache (save (vs_lss st) c').1 !! k = Some c \/ ss_cache (save (vs_lss st) c').1 !! k = None).
  { intros c'. destruct (ss_cache (save (vs_lss st) c').1 !! k) as [c2|] eqn:E; [|by right].
    apply save_cache in E as [E|(-> & _ & Hlt)]; [destruct H2; left; congruence|].
    exfalso. eapply hrs_lt_irrefl, hrs_lt_le_trans; eauto. }
  assert (L1 : hrs_le k (ss_hrs (vs_init st1))) by exact (hrs_le_trans _ _ _ H1 Hm1).
  assert (L2 : hrs_le k (ss_hrs (vs_lss st1))) by exact (hrs_le_trans _ _ _ H1' Hm2).
  destruct Hs as [t b r pc Hl Hrr|t b Hl|c' a|t b pc op st' pc' o Hop Hl Ht].
  - split; [|done]. split; [done|]. split; [done|]. split; [done|]. intros t' b' pc' Hn. simpl.
    intros [[-> [= <- <-]]|[_ Hx]]%lookup_insert_Some Hb; [|eapply H3; eauto].
    destruct Hrr as [[_ ->]|[_ ->]]; done.
  - split; [|intros _ _; split; [done|right; by left]].
    split; [done|]. split; [done|]. split; [done|]. intros t' b' pc' Hn. simpl.
    intros [[-> [= <- <-]]|[_ Hx]]%lookup_insert_Some Hb; [done|eapply H3; eauto].
  - split; [|done]. split; [done|]. split; [done|]. split; [apply Hsave|done].
  - assert (Hc1 : ss_cache (vs_lss (set_pc st' t b pc')) !! k = Some c \/ ss_cache (vs_lss (set_pc st' t b pc')) !! k = None).
    { simpl. destruct (tstep_lss _ _ _ _ _ _ _ _ _ _ Ht) as [-> |(s & _ & _ & _ & _ & ->)]; [done|]. apply Hsave. }
    destruct (vs_threads st0 !! t) eqn:Et0.
    { split.
      - split; [done|]. split; [done|]. split; [done|]. simpl. rewrite (tstep_threads _ _ _ _ _ _ _ _ _ _ Ht).
        intros t' b' p' Hn. intros [[-> [= <- <-]]|[_ Hx]]%lookup_insert_Some Hb; [congruence|eapply H3; eauto].
      - destruct Ht; try done; simpl; intros; congruence. }
    destruct (decide (b_hrs b = k)) as [Hb|Hb].
    + subst k.
      assert (Hg : forall so, get_existing (vs_lss st) b = Val so -> so = Some sig).
      { intros so Hso. destruct H2 as [H2|H2].
        - rewrite (get_existing_record _ _ _ _ Hk Hsig H2) in Hso. congruence.
        - by destruct (no_record_fails _ _ H2 so). }
      assert (Hg0 : get_existing (vs_lss st) b <> Val None). { intros Hx. apply Hg in Hx. done. }
      assert (Hf : (forall s, get_existing (vs_lss st) b <> Val s) -> ss_cache (vs_lss st) !! b_hrs b = None).
      { intros Hno. destruct H2 as [H2|H2]; [|done].
        destruct (Hno (Some sig)). eapply get_existing_record; eauto. }
      pose proof (outside_step _ _ _ _ _ _ _ _ Ht (H3 _ _ _ Et0 Hl eq_refl) H1 Hg0) as (Ho & -> & Hst & Hask).
      split.
      * split; [done|]. split; [done|]. split; [done|]. intros t' b' p' Hn. simpl.
        intros [[-> [= <- <-]]|[_ Hx]]%lookup_insert_Some Hb; [done|eapply H3; eauto].
      * pose proof (H3 _ _ _ Et0 Hl eq_refl) as Hout.
        inversion Ht; subst; try done; simpl in Hout; try done;
          try (exfalso; eapply Hst; reflexivity); intros _ _; (split; [done|]);
          try (left; match goal with H : get_existing _ _ = Val _ |- _ => apply Hg in H end; congruence).
        -- right. right. left. eauto.
        -- right. right. right. split; [done|auto].
        -- right. right. right. split; [done|auto].
    + split.
      * split; [done|]. split; [done|]. split; [done|].
        simpl. rewrite (tstep_threads _ _ _ _ _ _ _ _ _ _ Ht). intros t' b' p' Hn.
        intros [[-> [= <- <-]]|[_ Hx]]%lookup_insert_Some Hb'; [done|eapply H3; eauto].
      * destruct Ht; done.
Qed.

Lemma answered_run k c sig st l st' :
  h_step k = stepPropose -> c_sig c = Some sig -> ss_cache (vs_lss st) !! k = Some c ->
  hrs_le k (ss_hrs (vs_init st)) -> hrs_le k (ss_hrs (vs_lss st)) -> vrun st l st' ->
  forall l1 op o l2, l = l1 ++ (op, o) :: l2 ->
  match o with
  | OStart t b => vs_threads st !! t = None -> b_hrs b <> k
  | OAsk t w key ps sb => vs_threads st !! t = None -> ht_hrs key <> k
  | OReturn t b r f => b_hrs b = k -> vs_threads st !! t = None -> f = false /\
      (r = VR (Some sig) (b_ts b) None \/ op = VCall t b RNone \/ (exists ans, op = VProxy t ans) \/
       (r_err r <> None /\ exists st1, vrun st l1 st1 /\ ss_cache (vs_lss st1) !! k = None))
  | _ => True
  end.
Proof.
  intros Hk Hsig Hc Hi Hl Hr l1 op o l2 ->. apply vrun_app_inv in Hr as (stm & Hr1 & Hr2).
  assert (Ha : answered_at k c st stm).
  { clear Hr2. revert l1 stm Hr1. apply vrun_rev_ind.
    - split; [done|]. split; [done|]. split; [by left|]. intros t b pc Hn. congruence.
    - intros l s op' s1 o' Hr IH Hs. eapply answered_step in Hs; [apply Hs| | |]; eauto. }
  inversion Hr2 as [|? ? s1 ? ? ? Hs Hrest]; subst.
  destruct (answered_step _ _ _ _ _ _ _ _ Hk Hsig Ha Hs) as [_ H]. destruct o; try done.
  intros Hb Hn. destruct (H Hb Hn) as [-> [?|[?|[?|[? ?]]]]]; (split; [done|]); eauto 10.
Qed.

(** C32 *)
Lemma fresh_own st0 l st t b r lc : idle st0 -> vrun st0 l st -> own_backed l lc ->
  returned l t b r true -> released lc (b_sb b).
Proof.
  intros Hi Hr Hb Hret. destruct (fresh_group _ _ _ _ _ _ _ _ Hi Hr Hret) as (l1 & op & l2 & -> & Hg & Hw).
  destruct Hg as (_ & _ & _ & H0 & _). destruct (Hw _ H0) as [(s & e & Hs & Hne) (op' & k & ps & Ha)].
  apply (Hb t).
  - exists s, e. split; [|done]. unfold ops_of. rewrite map_app. apply elem_of_app. by left.
  - exists op', k, ps. apply elem_of_app. by left.
Qed.
Lemma fresh_no_conflict st0 l st ccfg cst lc cst' t1 b1 r1 t2 b2 r2 k :
  idle st0 -> vrun st0 l st -> crun C ccfg cst lc cst' -> own_backed l lc ->
  returned l t1 b1 r1 true -> returned l t2 b2 r2 true -> bytes_for (b_sb b1) k -> bytes_for (b_sb b2) k ->
  same_message_but_time (b_sb b1) (b_sb b2).
Proof. intros. eapply no_conflict; eauto using fresh_own. Qed.

Lemma group_quorum t l cl faulty sb :
  NoDup (vc_id cfg :: vc_peers cfg) -> full_group cfg t l -> cluster_backed cfg cl faulty l ->
  (forall w, w ∈ map fst (participants cfg t l) -> gave_share l t w /\ was_asked l t w sb) ->
  quorum_for cfg cl faulty sb.
Proof.
  intros Hnd (H1 & H2 & H3 & H4 & H5) Hb Hw.
  set (ids := omap (id_of cfg) (map fst (participants cfg t l))).
  assert (Hinj : forall w w' i, id_of cfg w = Some i -> id_of cfg w' = Some i -> w = w').
  { intros w w' i Ha Hb'. 
    assert (E : forall w, id_of cfg w = (vc_id cfg :: vc_peers cfg) !! w) by (intros [|x]; done).
    rewrite E in Ha, Hb'. exact (NoDup_lookup _ _ _ _ Hnd Ha Hb'). }
  assert (Hids : NoDup ids /\ length ids = length (participants cfg t l)).
  { unfold ids. rewrite <- (map_length fst (participants cfg t l)). clear Hw H2 H4.
    induction (map fst (participants cfg t l)) as [|w ws IH]; [split; [constructor|done]|].
    destruct (H5 w) as [i Hi]; [left|]. cbn. rewrite Hi. cbn. apply list.NoDup_cons in H3 as [Hx H3].
    destruct IH as [I1 I2]; [done|intros w' Hw'; apply H5; by right|]. split; [|cbn; f_equal; exact I2].
    apply list.NoDup_cons. split; [|exact I1]. intros Hin.
    apply elem_of_list_omap in Hin as (w' & Hin & Hw'). apply Hx. by rewrite (Hinj w w' i Hi Hw'). }
  exists (list_to_set ids). split.
  - rewrite size_list_to_set by apply Hids. destruct Hids as [_ ->]. lia.
  - intros i Hi. apply elem_of_list_to_set, elem_of_list_omap in Hi as (w & Hin & Hi).
    destruct (Hw w Hin). eapply Hb; eauto.
Qed.

Lemma gave_share_app l l' t w : gave_share l t w -> gave_share (l ++ l') t w.
Proof. intros (s & e & H & Hn). exists s, e. split; [|done]. unfold ops_of. rewrite map_app. apply elem_of_app. by left. Qed.
Lemma was_asked_app l l' t w sb : was_asked l t w sb -> was_asked (l ++ l') t w sb.
Proof. intros (op' & k & ps & H). exists op', k, ps. apply elem_of_app. by left. Qed.
Lemma cluster_backed_prefix cl faulty l l' : cluster_backed cfg cl faulty (l ++ l') -> cluster_backed cfg cl faulty l.
Proof. intros H t w sb i Hg Ha Hi. eapply H; eauto using gave_share_app, was_asked_app. Qed.

(** every signature the leader releases is backed by a quorum for bytes known for it *)
Lemma success_backed st0 l st cl faulty op t b sig ts f :
  idle st0 -> vrun st0 l st -> NoDup (vc_id cfg :: vc_peers cfg) -> cluster_backed cfg cl faulty l ->
  records (backed cfg cl faulty) (vs_lss st0) -> (forall c, VLss c ∈ ops_of l -> backed cfg cl faulty c) ->
  (op, OReturn t b (VR (Some sig) ts None) f) ∈ l -> (forall ans, op <> VProxy t ans) ->
  quorum_for cfg cl faulty (b_sb b) \/
  (h_step (b_hrs b) = stepPropose /\ f = false /\
   exists l1 l2 st1 c, l = l1 ++ (op, OReturn t b (VR (Some sig) ts None) f) :: l2 /\ vrun st0 l1 st1 /\
     ss_cache (vs_lss st1) !! b_hrs b = Some c /\ c_sig c = Some sig /\
     quorum_for cfg cl faulty (slice_of (c_sb c))).
Proof.
  intros Hi Hr Hnd Hb Hrec Hev Hin Hnp.
  destruct (return_case _ _ _ _ _ _ _ _ _ _ Hi Hr Hin) as (l1 & st1 & st2 & l2 & -> & H1 & H2 & H3 & Hc).
  destruct Hc as [(_ & ? & ?)|(pc & st' & Hl & Hinv & Ht & _)]; [done|].
  assert (Hrec1 : records (backed cfg cl faulty) (vs_lss st1)).
  { eapply records_run; eauto.
    - intros c Hc. apply Hev. unfold ops_of. rewrite map_app. apply elem_of_app. by left.
    - intros la t' b' s' lb -> _ _ Hg Hw. unfold backed. cbn [c_sb slice_of].
      rewrite <- app_assoc in Hb. eapply group_quorum; eauto using cluster_backed_prefix. }
  assert (Hex : get_existing (vs_lss st1) b = Val (Some sig) -> f = false ->
    quorum_for cfg cl faulty (b_sb b) \/ (h_step (b_hrs b) = stepPropose /\ f = false /\
    exists l1' l2' st1' c, l1 ++ (op, OReturn t b (VR (Some sig) ts None) f) :: l2 = l1' ++ (op, OReturn t b (VR (Some sig) ts None) f) :: l2' /\
     vrun st0 l1' st1' /\ ss_cache (vs_lss st1') !! b_hrs b = Some c /\ c_sig c = Some sig /\
     quorum_for cfg cl faulty (slice_of (c_sb c)))).
  { intros Hg Hf. apply get_existing_val in Hg as (c & Hc & [[Hs Hsig]|(_ & _ & ? & _)]); [|done].
    pose proof (Hrec1 _ _ Hc) as [_ Hq]. destruct Hs as [Hs|Hs]; [right|left; rewrite Hs; done].
    split; [done|]. split; [done|]. exists l1, l2, st1, c. done. }
  inversion Ht; subst; auto.
  - destruct (Hnp ans). done.
  - left. eapply group_quorum; [done|apply Hinv| |apply Hinv]. eapply cluster_backed_prefix; eauto.
Qed.

Lemma quorum_no_conflict cl faulty m1 m2 k :
  correct C cl faulty -> 2 * vc_threshold cfg > Z.of_nat (size cl + size faulty) ->
  quorum_for cfg cl faulty m1 -> quorum_for cfg cl faulty m2 -> bytes_for m1 k -> bytes_for m2 k ->
  same_message_but_time m1 m2.
Proof.
  intros Hc Ht (q1 & Hq1 & Hs1) (q2 & Hq2 & Hs2) Hk1 Hk2.
  eapply (cluster_safe C cl faulty (Z.to_nat (vc_threshold cfg)) q1 q2); eauto; lia.
Qed.

(** C33 *)
Lemma proxy_reports b ans : reports b ans (proxy_result b ans).
Proof.
  unfold reports, proxy_result. destruct ans as [[d|x]|sig]; [|eauto|done].
  destruct (bool_decide (33 < length d)%nat) eqn:E1; cbn [andb]; [|eauto].
  destruct (bytes_equal (take 33 d) beyond_prefix) eqn:E2; [|eauto].
  apply bool_decide_eq_true in E1, E2. eexists. split; [done|]. right.
  exists d, (drop 33 d). do 2 (split; [done|]). rewrite <- E2. split; [by rewrite take_drop|].
  intros Hd. apply (f_equal length) in Hd. rewrite drop_length in Hd. simpl in Hd. lia.
Qed.

Lemma follower_run st0 l st :
  idle st0 -> vrun st0 l st -> (forall t b r, VCall t b r ∈ ops_of l -> r <> RLeader) ->
  vs_init st = vs_init st0 /\ vs_lss st = run_saves (vs_lss st0) (events l) /\
  (forall op o, (op, o) ∈ l -> match o with
     | OStart _ _ | OAsk _ _ _ _ _ => False
     | OReturn t b r f => f = false /\
         (op = VCall t b RNone /\ r = VR None (b_ts b) (Some EvNoRaft) \/
          exists ans, op = VProxy t ans /\ reports b ans r)
     | _ => True
     end).
Proof.
  intros Hi Hr Hnl. revert Hnl. 
  cut ((forall t b r, VCall t b r ∈ ops_of l -> r <> RLeader) ->
  (forall t b pc, vs_threads st !! t = Some (Thread b pc) -> pc = PcProxy \/ pc = PcDone) /\
  vs_init st = vs_init st0 /\ vs_lss st = run_saves (vs_lss st0) (events l) /\
  (forall op o, (op, o) ∈ l -> match o with
     | OStart _ _ | OAsk _ _ _ _ _ => False
     | OReturn t b r f => f = false /\
         (op = VCall t b RNone /\ r = VR None (b_ts b) (Some EvNoRaft) \/
          exists ans, op = VProxy t ans /\ reports b ans r)
     | _ => True
     end)); [tauto|].
  pattern l, st. eapply (vrun_rev_ind C cfg st0); [| |exact Hr]; cbv beta; clear l st Hr.
  - intros _. split; [intros t b pc H; rewrite Hi, lookup_empty in H; done|]. split; [done|]. split; [done|].
    intros op o Hin. by apply elem_of_nil in Hin.
  - intros l s op s1 o Hr IH Hs Hnl.
    destruct IH as (I1 & I2 & I3 & I4). { intros t b r H. eapply Hnl. by apply elem_ops_snoc. }
    assert (Hev : events (l ++ [(op, o)]) = events l ++ match op with VLss c => [c] | _ => [] end).
    { unfold events. rewrite ops_snoc, omap_app. destruct op; done. }
    rewrite Hev, run_saves_app, <- I3. apply vstep_case in Hs.
    destruct Hs as [t b r pc Hl Hrr|t b Hl|c' a|t b pc op st' pc' o Hop Hl Ht].
    + destruct Hrr as [[-> ->]|[-> _]]; [|destruct (Hnl t b RLeader); [apply elem_ops_last|done]].
      split; [cbn [set_pc vs_threads]; intros t' b' p' [[-> [= <- <-]]|[_ Hx]]%lookup_insert_Some; [by left|eauto]|].
      split; [done|]. split; [done|].
      intros op o [Hin|[= -> ->]%elem_of_list_singleton]%elem_of_app; [by apply I4|done].
    + split; [cbn [set_pc vs_threads]; intros t' b' p' [[-> [= <- <-]]|[_ Hx]]%lookup_insert_Some; [by right|eauto]|].
      split; [done|]. split; [done|].
      intros op o [Hin|[= -> ->]%elem_of_list_singleton]%elem_of_app; [by apply I4|].
      split; [done|]. by left.
    + split; [done|]. split; [done|]. split; [done|].
      intros op o [Hin|[= -> ->]%elem_of_list_singleton]%elem_of_app; [by apply I4|done].
    + destruct (I1 _ _ _ Hl) as [-> | ->]; [|inversion Ht]. inversion Ht; subst.
      split; [cbn [set_pc vs_threads]; intros t' b' p' [[-> [= <- <-]]|[_ Hx]]%lookup_insert_Some; [by right|eauto]|].
      split; [done|]. split; [done|].
      intros op o [Hin|[= -> ->]%elem_of_list_singleton]%elem_of_app; [by apply I4|].
      split; [done|]. right. exists ans. split; [done|]. apply proxy_reports.
Qed.
End V.
