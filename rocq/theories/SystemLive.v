(** A healthy cluster signs, in the model of the whole cluster (C73). *)
From Verif Require Import GoBase Wire Canonical SignState Spec SignStateProofs Crypto LocalCosigner CosignerProofs
  CosignerProofs2 CanonicalApi Poly Scheme RoundSpec RoundProofs3 RoundProofs4 Validator ValidatorProofs Config KeyShares KeySharesSpec KeySharesProofs
  Json Disk Raft RaftSpec System SystemSpec SystemProofs SystemLiveSpec.
Local Open Scope Z_scope.

(** ** calls as sequences of atomic steps *)
Section Calls.
Context (C : Crypto) (cfg : cos_config).
Definition about (k : hrst) (op : cop) : Prop :=
  match op with
  | OpGet k' _ _ => k' = k
  | OpSet k' _ _ => k' = k
  | OpSign sb => unpack_hrst sb = Val k
  | OpLSS _ => False
  end.
Lemma get_parts_crun st k ids st' ps : get_parts C cfg st k ids = (st', Val ps) ->
  exists l, crun C cfg st l st' /\ Forall (fun x => about k (fst x)) l.
Proof.
  revert st st' ps. induction ids as [|[j r] ids IH]; intros st st' ps; cbn [get_parts].
  - intros [= <- <-]. exists []. split; constructor.
  - destruct (j =? cc_id cfg); [apply IH|].
    destruct (get_part C cfg st k j r) as [st1 [p|e|]] eqn:E; [|discriminate|discriminate].
    destruct (get_parts C cfg st1 k ids) as [st2 [l|e|]] eqn:E2; [|discriminate|discriminate].
    intros [= <- <-]. destruct (IH _ _ _ E2) as (l' & Hr & Hf).
    exists ((OpGet k j r, ObsPart p) :: l'). split; [|by constructor].
    econstructor; [|exact Hr]. simpl. by rewrite E.
Qed.
Lemma set_parts_crun st k ps st' : set_parts C cfg st k ps = (st', Val tt) ->
  exists l, crun C cfg st l st' /\ Forall (fun x => about k (fst x)) l.
Proof.
  revert st st'. induction ps as [|[p r] ps IH]; intros st st'; cbn [set_parts].
  - intros [= <-]. exists []. split; constructor.
  - destruct (set_part C cfg st k p r) as [st1 [u|e|]] eqn:E; [|discriminate|discriminate].
    intros H. destruct (IH _ _ H) as (l' & Hr & Hf). exists ((OpSet k p r, ObsSetOk) :: l'). split; [|by constructor].
    econstructor; [|exact Hr]. simpl. by rewrite E.
Qed.
Lemma set_and_sign_crun st k ps sb st' r : set_and_sign C cfg st k ps sb = (st', Val r) -> unpack_hrst sb = Val k ->
  exists l, crun C cfg st (l ++ [(OpSign sb, ObsShare sb r)]) st' /\
    Forall (fun x => about k (fst x)) (l ++ [(OpSign sb, ObsShare sb r)]).
Proof.
  unfold set_and_sign. destruct (set_parts C cfg st k ps) as [st1 [[]|e|]] eqn:E; [|discriminate|discriminate].
  intros Hs Hu. destruct (set_parts_crun _ _ _ _ E) as (l & Hr & Hf). exists l. split.
  - apply crun_app. exists st1. split; [done|]. econstructor; [|constructor]. simpl. by rewrite Hs.
  - apply Forall_app. split; [done|]. by constructor.
Qed.

(** what a step about [k] can record *)
Definition cos_below (w : hrs) (st : cos_state) : Prop :=
  hrs_le (ss_hrs (cs_lss st)) w /\ forall k, is_Some (cs_meta st !! k) -> hrs_le (ht_hrs k) w.
Lemma em_below w st k kd rnd st' m : em_case C cfg st k kd rnd st' m -> ht_hrs kd = ht_hrs k ->
  hrs_le (ht_hrs k) w -> cos_below w st -> cos_below w st'.
Proof.
  intros [H -> |Hn H -> |s r Hn Hd Hr Hm ->] Ekd Hk [H1 H2]; (split; [done|]); intros k' Hk'; simpl in Hk'.
  - by apply H2.
  - destruct (decide (k' = k)) as [-> |]; [done|]. rewrite lookup_insert_ne in Hk' by done. by apply H2.
  - destruct (decide (k' = k)) as [-> |]; [done|]. rewrite lookup_insert_ne in Hk' by done.
    destruct (decide (k' = kd)) as [-> |]; [by rewrite Ekd|]. rewrite lookup_insert_ne in Hk' by done. by apply H2.
Qed.
Lemma slot_below w st m i p st' : set_slot st m i p = Some st' -> cos_below w st -> cos_below w st'.
Proof. unfold set_slot. destruct (idx_set _ _ _); [|discriminate]. by intros [= <-]. Qed.
Lemma save_level s c w : hrs_le (ss_hrs s) w -> hrs_le (c_hrs c) w -> hrs_le (ss_hrs (save s c).1) w.
Proof. intros H1 H2. destruct (save_fields s c) as [-> |(-> & _)]; done. Qed.
Lemma cstep_below w k st op st' o : cstep C cfg st op = Some (st', o) -> about k op -> hrs_le (ht_hrs k) w ->
  cos_below w st -> cos_below w st'.
Proof.
  destruct op as [k' id rnd|k' p rnd|sb|c]; simpl; [intros H ->|intros H ->|intros H Hu|done]; intros Hk Hb.
  - destruct (get_part C cfg st k id rnd) as [s1 o1] eqn:E. apply get_part_spec in E.
    assert (Hs : s1 = st' /\ o1 <> Panic) by (destruct o1; [injection H; done|injection H; done|done]).
    destruct Hs as [-> Hp].
    destruct o1 as [p|[]|]; try done;
      try (destruct E as (s2 & m & own & E1 & _ & E2 & _); eapply slot_below; [exact E2|]; by eapply em_below; [exact E1|..]).
    by destruct E as [-> _].
  - destruct (set_part C cfg st k p rnd) as [s1 o1] eqn:E. apply set_part_spec in E.
    assert (Hs : s1 = st' /\ o1 <> Panic) by (destruct o1; [injection H; done|injection H; done|done]).
    destruct Hs as [-> Hp]. destruct o1 as [u|e|]; [|..|done].
    + destruct E as (_ & s2 & m & sh & E1 & _ & E2). eapply slot_below; [exact E2|]. by eapply em_below; [exact E1|..].
    + destruct E as [-> |(m & E1)]; [done|]. by eapply em_below; [exact E1|..].
  - assert (Hs : exists o1, sign C cfg st sb = (st', o1)).
    { destruct (sign C cfg st sb) as [s1 [r|e|]]; [injection H as <- _; eauto|injection H as <- _; eauto|done]. }
    destruct Hs as (o1 & Hs). clear H. unfold sign in Hs. rewrite Hu in Hs.
    assert (Hf : forall o1, sign_fresh C cfg st sb k = (st', o1) -> cos_below w st').
    { clear Hs o1. intros o1 Hs. unfold sign_fresh in Hs. destruct (cs_meta st !! k) as [m|]; [|by injection Hs as <- _].
      destruct (cr_add_scalars C _) as [es|]; [|by injection Hs as <- _].
      destruct (cr_add_elements C _) as [ep|]; [|by injection Hs as <- _].
      destruct (negb _); [by injection Hs as <- _|]. destruct (negb _); [by injection Hs as <- _|].
      destruct (cr_sign_share C _ _ _ _ _) as [sig|]; [|by injection Hs as <- _].
      destruct Hb as [Hb1 Hb2].
      pose proof (save_level (SS (ss_hrs (cs_lss st)) (Some ep) (ss_sig (cs_lss st)) (ss_sb (cs_lss st)) (ss_cache (cs_lss st)))
        (SSC (ht_hrs k) (Some sig) (Some sb)) w Hb1 Hk) as Hl.
      destruct (save _ _) as [l2 err]. cbn [fst] in Hl.
      assert (K1 : cos_below w (with_lss st l2)) by (split; done).
      assert (K2 : cos_below w (with_meta (with_lss st l2) (prune_meta k (cs_meta (with_lss st l2))))).
      { split; [done|]. intros k' Hk'. simpl in Hk'. rewrite prune_meta_lookup in Hk'. case_decide; [by destruct Hk'|]. by apply Hb2. }
      destruct err as [[]|]; injection Hs as <- _; done. }
    destruct (check_hrs (cs_lss st) (ht_hrs k)) as [[]|e|].
    + destruct (bytes_equal _ _); [by injection Hs as <- _|].
      destruct (only_differ_by_timestamp _ _ _); [by injection Hs as <- _|]. by eapply Hf.
    + by eapply Hf.
    + by injection Hs as <- _.
    + by injection Hs as <- _.
Qed.
Lemma crun_below w k st l st' : crun C cfg st l st' -> Forall (fun x => about k (fst x)) l -> hrs_le (ht_hrs k) w ->
  cos_below w st -> cos_below w st'.
Proof.
  intros Hr Hf Hk. revert Hf. induction Hr as [|st op st1 o l st2 Hs Hr IH]; intros Hf Hb; [done|].
  inversion Hf; subst. apply IH; [done|]. by eapply cstep_below; eauto.
Qed.
End Calls.

Section ValBelow.
Context (C : Crypto) (cfg : vconf).
Definition val_below (w : hrs) (v : vstate) : Prop :=
  hrs_le (ss_hrs (vs_init v)) w /\ hrs_le (ss_hrs (vs_lss v)) w.
(** only the call [t] for [b] acts *)
Definition of_call (t : nat) (b : block) (op : vop) : Prop :=
  match op with VCall t' b' _ => t' = t /\ b' = b | _ => op_thread op = Some t end.
Lemma tstep_lss st t b pc op st' pc' o w : tstep C cfg st t b pc op st' pc' o ->
  hrs_le (b_hrs b) w -> val_below w st -> val_below w st'.
Proof.
  intros Ht Hk [H1 H2]. pose proof (save_level (vs_init st) (new_consensus (b_hrs b)) w H1 Hk) as K1.
  assert (K2 : forall sig, hrs_le (ss_hrs (save (vs_lss st) (SSC (b_hrs b) (Some sig) (Some (b_sb b)))).1) w)
    by (intros sig; by apply save_level).
  destruct Ht; try (split; done); simpl.
  - split; [|done]. rewrite H in K1. done.
  - split; [done|]. apply K2.
Qed.
Lemma vstep_below w t b st op st' o : vstep C cfg st op = VOk st' o -> of_call t b op -> hrs_le (b_hrs b) w ->
  (forall b' pc, vs_threads st !! t = Some (Thread b' pc) -> b' = b) -> val_below w st ->
  val_below w st' /\ (forall b' pc, vs_threads st' !! t = Some (Thread b' pc) -> b' = b) /\
  (forall t', t' <> t -> vs_threads st' !! t' = vs_threads st !! t').
Proof.
  intros Hs Ho Hk Ht Hb. apply vstep_case in Hs. destruct Hs as [t' b' r pc' Hn Hrr|t' b' Hn|c a|t' b' pc0 op st' pc' o Hop Hl' Hst].
  - simpl in Ho. destruct Ho as [-> ->]. split; [done|]. simpl. rewrite lookup_insert. split; [by intros ? ? [= <- _]|].
    intros t' Hne. by rewrite lookup_insert_ne.
  - simpl in Ho. destruct Ho as [-> ->]. split; [done|]. simpl. rewrite lookup_insert. split; [by intros ? ? [= <- _]|].
    intros t' Hne. by rewrite lookup_insert_ne.
  - done.
  - assert (t' = t) as -> by (destruct op; simpl in Ho, Hop; congruence).
    assert (b' = b) as -> by (by eapply Ht). split; [|split].
    + pose proof (tstep_lss _ _ _ _ _ _ _ _ w Hst Hk Hb) as [K1 K2]. split; done.
    + simpl. rewrite lookup_insert. by intros ? ? [= <- _].
    + intros t' Hne. simpl. rewrite lookup_insert_ne by done. by rewrite (tstep_threads _ _ _ _ _ _ _ _ _ _ Hst).
Qed.
Lemma vrun_below w t b st l st' : vrun C cfg st l st' -> Forall (fun x => of_call t b (fst x)) l -> hrs_le (b_hrs b) w ->
  (forall b' pc, vs_threads st !! t = Some (Thread b' pc) -> b' = b) -> val_below w st -> val_below w st'.
Proof.
  induction 1 as [|st op st1 o l st2 Hs Hr IH]; intros Hf Hk Ht Hb; [done|].
  inversion Hf; subst. destruct (vstep_below w t b _ _ _ _ Hs ltac:(done) Hk Ht Hb) as (K1 & K2 & _). by apply IH.
Qed.
End ValBelow.

(** ** lifting runs of one process to the cluster *)
Section Lift.
Context (C : Crypto) (K : sysconf) (faulty : gset Z) (S0 : system).
Notation srun := (srun C K faulty S0).
Definition cos_events (i : Z) (l : list (cop * cobs)) : history := map (fun x => (ECos i (fst x), SCos (snd x))) l.
Definition val_events (i : Z) (l : list (vop * vobs)) : history := map (fun x => (EVal i (fst x), SVal (snd x))) l.

Lemma upd_same S i n : sy_hosts S !! i = Some n -> upd S i n = S.
Proof. intros H. unfold upd. rewrite insert_id by done. by destruct S. Qed.
Lemma upd_upd S i n n' : upd (upd S i n) i n' = upd S i n'.
Proof. unfold upd. simpl. by rewrite insert_insert. Qed.

Lemma cos_lift i k l : forall h S n st', srun h S -> sy_hosts S !! i = Some n ->
  crun C (sc_cos K i) (cn_cos (ho_cos n)) l st' -> Forall (fun x => about k (fst x)) l ->
  exists n', srun (h ++ cos_events i l) (upd S i n') /\ ho_val n' = ho_val n /\ cn_cos (ho_cos n') = st'.
Proof.
  induction l as [|[op o] l IH]; intros h S n st' Hr Hn Hc Hf.
  { inversion Hc; subst. exists n. rewrite app_nil_r, upd_same by done. done. }
  inversion Hc as [|? ? st1 ? ? ? Hs Hc']; subst. inversion Hf as [|? ? Hop Hf']; subst.
  set (ws := if bool_decide (ss_hrs (cs_lss st1) = ss_hrs (cs_lss (cn_cos (ho_cos n))))
             then cn_ws (ho_cos n) else new_writer :: cn_ws (ho_cos n)).
  set (n1 := Host (ho_val n) (ho_vfile n) (ho_vws n) (CNode st1 (cn_file (ho_cos n)) ws) (ho_applied n)).
  assert (Hstep : sstep C K faulty h S (ECos i op) = Some (upd S i n1, SCos o)).
  { cbv beta iota delta [System.sstep]. rewrite Hn. unfold host_cos, cnstep. rewrite Hs.
    destruct op; [done|done|done|by simpl in Hop]. }
  destruct (IH (h ++ [(ECos i op, SCos o)]) (upd S i n1) n1 st') as (n' & H1 & H2 & H3).
  - by econstructor.
  - simpl. apply lookup_insert.
  - done.
  - done.
  - exists n'. rewrite upd_upd, <- app_assoc in H1. done.
Qed.

(** several cosigners, one after the other *)
Lemma cos_lift_all k (l : Z -> list (cop * cobs)) (st' : Z -> cos_state) P : NoDup P -> forall h S,
  srun h S -> (forall i, i ∈ P -> exists n, sy_hosts S !! i = Some n /\
     crun C (sc_cos K i) (cn_cos (ho_cos n)) (l i) (st' i) /\ Forall (fun x => about k (fst x)) (l i)) ->
  let h' := mjoin (map (fun i => cos_events i (l i)) P) in
  exists S', srun (h ++ h') S' /\ sy_log S' = sy_log S /\ sy_proposed S' = sy_proposed S /\
    (forall i, i ∉ P -> sy_hosts S' !! i = sy_hosts S !! i) /\
    (forall i n, i ∈ P -> sy_hosts S !! i = Some n -> exists n', sy_hosts S' !! i = Some n' /\
       ho_val n' = ho_val n /\ cn_cos (ho_cos n') = st' i).
Proof.
  induction P as [|i P IH]; intros Hnd h S Hr HP h'.
  { exists S. unfold h'. simpl. rewrite app_nil_r. split_and!; try done. intros i n Hi. by apply not_elem_of_nil in Hi. }
  apply list.NoDup_cons in Hnd as [Hni Hnd].
  destruct (HP i) as (n & Hn & Hc & Hf); [left|].
  destruct (cos_lift i k (l i) h S n (st' i) Hr Hn Hc Hf) as (n' & H1 & H2 & H3).
  destruct (IH Hnd (h ++ cos_events i (l i)) (upd S i n') H1) as (S' & K1 & K2 & K3 & K4 & K5).
  { intros j Hj. destruct (HP j) as (nj & Hnj & Hcj & Hfj); [by right|]. exists nj. simpl.
    rewrite lookup_insert_ne by (intros ->; done). done. }
  exists S'. unfold h'. cbn [map mjoin list_join]. rewrite app_assoc. split; [exact K1|]. split; [done|]. split; [done|]. split.
  - intros j Hj. rewrite K4 by (intros ?; apply Hj; by right). simpl. apply lookup_insert_ne. intros ->. apply Hj. left.
  - intros j nj [->|Hj]%elem_of_cons Hnj.
    + rewrite Hn in Hnj. injection Hnj as <-. rewrite K4 by done. simpl. rewrite lookup_insert. eauto.
    + apply K5; [done|]. simpl. rewrite lookup_insert_ne by (intros ->; done). done.
Qed.

Lemma share_given_app h h' j sb r : share_given h j sb r = true -> share_given (h ++ h') j sb r = true.
Proof. unfold share_given. rewrite existsb_app. intros ->. done. Qed.

(** an action of the call [t] for [b] that the others allow after [h] *)
Definition allowed (i : Z) (t : nat) (b : block) (h : history) (op : vop) : Prop :=
  match op with
  | VCall _ _ _ | VLss _ | VProxy _ _ => False
  | VEmit _ ok => ok = false
  | VSig t' w (Some resp) => t' = t /\ exists j, id_of (sc_val K i) w = Some j /\ share_given h j (b_sb b) resp = true
  | _ => True
  end.
Lemma allowed_app i t b h h' op : allowed i t b h op -> allowed i t b (h ++ h') op.
Proof.
  destruct op; try done. destruct r as [resp|]; [|done]. simpl. intros (-> & j & H1 & H2).
  split; [done|]. exists j. split; [done|]. by apply share_given_app.
Qed.
Lemma val_step1 i h S n op v o : srun h S -> sy_hosts S !! i = Some n ->
  possible K faulty h S i (ho_val n) op = true -> vstep C (sc_val K i) (ho_val n) op = VOk v o ->
  exists n', srun (h ++ [(EVal i op, SVal o)]) (upd S i n') /\ ho_val n' = v /\ ho_cos n' = ho_cos n.
Proof.
  intros Hr Hn Hp Hs.
  exists (Host v (ho_vfile n) (val_writers (ho_val n) v (ho_vws n)) (ho_cos n) (ho_applied n)).
  split; [|done]. econstructor; [done|]. cbv beta iota delta [System.sstep]. by rewrite Hn, Hp, Hs.
Qed.
Lemma val_lift i t b l : forall h S n v', srun h S -> sy_hosts S !! i = Some n ->
  (exists pc, vs_threads (ho_val n) !! t = Some (Thread b pc)) ->
  vrun C (sc_val K i) (ho_val n) l v' -> Forall (fun x => allowed i t b h (fst x)) l ->
  exists n', srun (h ++ val_events i l) (upd S i n') /\ ho_val n' = v' /\ ho_cos n' = ho_cos n.
Proof.
  induction l as [|[op o] l IH]; intros h S n v' Hr Hn [pc Ht] Hc Hf.
  { inversion Hc; subst. exists n. rewrite app_nil_r, upd_same by done. done. }
  inversion Hc as [|? ? v1 ? ? ? Hs Hc']; subst. inversion Hf as [|? ? Hop Hf']; subst.
  destruct (val_step1 i h S n op v1 o Hr Hn) as (n1 & H1 & H2 & H3); [|done|].
  { cbn [fst] in Hop. destruct op; try done; [|]; simpl.
    - destruct r as [resp|]; [|done]. destruct Hop as (-> & j & Hj & Hg). rewrite Hj, Ht, Hg. apply orb_true_r.
    - simpl in Hop. by subst ok. }
  destruct (IH (h ++ [(EVal i op, SVal o)]) (upd S i n1) n1 v') as (n' & K1 & K2 & K3).
  - done.
  - simpl. apply lookup_insert.
  - subst v1. by eapply thread_keeps.
  - by rewrite H2.
  - eapply Forall_impl; [|exact Hf']. intros x. apply allowed_app.
  - exists n'. rewrite upd_upd, <- app_assoc in K1. split; [exact K1|]. split; [done|]. by rewrite K3.
Qed.
End Lift.

Lemma signable_fits chain b : signable chain b -> hrs_fits (b_hrs b) = true.
Proof.
  assert (H : forall h r s, in_int64 h -> in_int32 r -> 1 <= s <= 3 -> hrs_fits (HRS h r s) = true).
  { intros h r s [H1 H2] [H3 H4] H5. unfold hrs_fits. simpl. rewrite !andb_true_iff, !Z.leb_le, !Z.ltb_lt.
    change (2 ^ 63) with 9223372036854775808 in *. change (2 ^ 31) with 2147483648 in *. lia. }
  destruct 1 as [chain v b Hr _ _ Hb|chain p b Hr _ Hb].
  - unfold vote_block in Hb. destruct (vote_type_to_step (v_type v)) as [s|] eqn:Es; [|done].
    destruct (vote_sign_bytes chain v) as [sb| |]; [|done|done]. injection Hb as <-. destruct Hr as (_ & H1 & H2 & _).
    apply H; [done|done|]. apply step_of_type_spec in Es. destruct Es as [[_ ->]|[_ ->]]; lia.
  - unfold proposal_block in Hb. destruct (proposal_sign_bytes chain p) as [sb| |]; [|done|done].
    injection Hb as <-. destruct Hr as (H1 & H2 & _). apply H; [done|done|]. unfold stepPropose. lia.
Qed.

Section Sign.
Context (C : Crypto) (R : reading) (HS : threshold_scheme C R) (pub : bytes) (t n : Z) (K : sysconf).
Context (Hn : 2 <= n <= rd_max R) (Hn' : n <= 255) (Ht : 1 <= t <= n) (Hd : deployed C R pub t n K).
Context (faulty : gset Z) (S0 : system).
Notation srun := (srun C K faulty S0).

(** [S'] is [S] with the validator of host [i0] in state [v] and the cosigners in the states [cs] *)
Definition track (S : system) (i0 : Z) (S' : system) (v : vstate) (cs : Z -> cos_state) : Prop :=
  forall i, match sy_hosts S !! i with
            | Some m => exists m', sy_hosts S' !! i = Some m' /\
                ho_val m' = (if decide (i = i0) then v else ho_val m) /\ cn_cos (ho_cos m') = cs i
            | None => sy_hosts S' !! i = None
            end.
Lemma track_at S i0 S' v cs m : track S i0 S' v cs -> sy_hosts S !! i0 = Some m ->
  exists m', sy_hosts S' !! i0 = Some m' /\ ho_val m' = v.
Proof. intros H Hm. specialize (H i0). rewrite Hm, decide_True in H by done. destruct H as (m' & ? & ? & _). eauto. Qed.
Lemma track_val S i0 S1 v cs n1 v' n' : track S i0 S1 v cs -> sy_hosts S1 !! i0 = Some n1 ->
  ho_val n' = v' -> ho_cos n' = ho_cos n1 -> is_Some (sy_hosts S !! i0) -> track S i0 (upd S1 i0 n') v' cs.
Proof.
  intros H Hn1 Hv Hc Hi0 i. specialize (H i). destruct (sy_hosts S !! i) as [m|] eqn:Em.
  - destruct H as (m' & H1 & H2 & H3). simpl. destruct (decide (i = i0)) as [-> |Hne].
    + rewrite lookup_insert. exists n'. split; [done|]. split; [done|]. rewrite Hc. rewrite Hn1 in H1. by injection H1 as ->.
    + rewrite lookup_insert_ne by done. eauto.
  - simpl. destruct (decide (i = i0)) as [-> |Hne]; [rewrite Em in Hi0; by destruct Hi0|]. by rewrite lookup_insert_ne.
Qed.
Lemma track_cos S i0 S1 v cs S2 cs' (P : list Z) : track S i0 S1 v cs ->
  (forall i, i ∉ P -> sy_hosts S2 !! i = sy_hosts S1 !! i) ->
  (forall i n, i ∈ P -> sy_hosts S1 !! i = Some n -> exists n', sy_hosts S2 !! i = Some n' /\
     ho_val n' = ho_val n /\ cn_cos (ho_cos n') = cs' i) -> (forall i, i ∈ P -> is_Some (sy_hosts S !! i)) ->
  track S i0 S2 v (fun i => if decide (i ∈ P) then cs' i else cs i).
Proof.
  intros H Ho Hp HP i. specialize (H i). destruct (sy_hosts S !! i) as [m|] eqn:Em.
  - destruct H as (m' & H1 & H2 & H3). destruct (decide (i ∈ P)) as [Hi|Hi].
    + destruct (Hp i m' Hi H1) as (m2 & K1 & K2 & K3). exists m2. rewrite K2. done.
    + rewrite Ho by done. eauto.
  - destruct (decide (i ∈ P)) as [Hi|Hi]; [destruct (HP i Hi) as [? K1]; congruence|]. by rewrite Ho.
Qed.

Lemma sign_once h S j w : (forall i, 1 <= i <= n -> is_Some (sy_hosts S !! i)) ->
  srun h S -> job_ok R n K j -> is_new C R t n K S j ->
  exists h' S' e c, srun (h ++ h') S' /\ answered C pub h' S' j /\ calm h' /\
    (forall i, is_Some (sy_hosts S !! i) <-> is_Some (sy_hosts S' !! i)) /\
    sy_log S' = sy_log S ++ [e] /\ event_of e = Some c /\ c_hrs c = b_hrs (jb_block j) /\
    (hrs_le (b_hrs (jb_block j)) w -> all_below w S -> all_below w S').
Proof.
  intros Hhosts Hr ((chain & Hsig) & Hlead & Hq & Hrnd & Hasked & Hans & Hord) [Hnew1 Hnew2].
  destruct Hd as (expand & rnd & gens & L & sk0 & ks & c & r & Hg & Hkp & Hcs & Hruns).
  set (b := jb_block j) in *. set (i0 := jb_leader j) in *. set (ws := jb_peers j) in *.
  set (vcfg := sc_val K i0) in *. set (P := participants K j) in *.
  destruct (Hruns i0 Hlead) as (_ & Ev0 & _). fold vcfg in Ev0.
  destruct (Hhosts i0 Hlead) as [n0 Hn0]. destruct (Hnew1 n0 Hn0) as [Hi Hl].
  set (tid := fresh (dom (vs_threads (ho_val n0)))).
  assert (Htid : vs_threads (ho_val n0) !! tid = None) by (apply not_elem_of_dom; apply is_fresh).
  clearbody tid.
  assert (Hids : all_ids vcfg n).
  { destruct (runs_val C expand rnd gens L pub sk0 t n ks Hcs i0 (c i0) (r i0)) as (Hx & _); [by apply Hruns|done|].
    by rewrite Ev0. }
  assert (HW : forall w, w ∈ jb_all j -> is_Some (id_of vcfg w)).
  { intros x [Hx|Hx]%elem_of_app; [by apply Hq|]. apply elem_of_list_singleton in Hx as ->. by eexists. }
  assert (HP : forall i, i ∈ P -> 1 <= i <= n).
  { intros i Hin. apply elem_of_list_fmap in Hin as (x & -> & Hx). destruct (HW x Hx) as [k Hk].
    change (sc_val K (jb_leader j)) with vcfg. unfold idw. rewrite Hk. by eapply RoundProofs3.id_range. }
  assert (HndP : NoDup P).
  { apply NoDup_fmap_2_strong.
    - intros x x' Hx Hx'. by apply (RoundProofs4.idw_inj vcfg n Hids (jb_all j) HW).
    - apply NoDup_app. destruct Hq as (Hq1 & Hq2 & _). split; [done|]. split; [|apply NoDup_singleton].
      intros x Hx Hx'. apply elem_of_list_singleton in Hx' as ->. done. }
  set (st := fun i => match sy_hosts S !! i with Some m => cn_cos (ho_cos m) | None => new_cosigner zero_state end).
  destruct (end_to_end C R expand rnd gens L pub sk0 t n ks chain b c r i0 tid (ho_val n0) ws st (jb_rnd j) true
    HS Hn Hn' Ht Hg Hkp Hcs (fun i Hi => proj1 (Hruns i Hi)) Hlead Hsig) as (st1 & ps & Hget & Hrest).
  { by rewrite <- Ev0. }
  { done. }
  { done. }
  { done. }
  { rewrite <- Ev0. intros i Hin. split; [|by apply Hrnd]. destruct (Hhosts i (HP i Hin)) as [m Hm].
    unfold st. rewrite Hm. by apply (Hnew2 i m). }
  rewrite <- Ev0 in Hget, Hrest. change (map (idw vcfg) (ws ++ [0%nat])) with P in Hget, Hrest.
  set (sd := Schedule ws (jb_asked j) (fun x => answers vcfg (jb_order j x) ps) (jb_ans j)).
  set (sel := fun i => map (fun p => (p, None : option (bytes * bytes)))
     (parts_for vcfg (sd_order sd (default 0%nat (list_find (fun x => idw vcfg x = i) (jb_all j) ≫= fun y => Some (snd y)))) i)).
  assert (Hwof : forall x, x ∈ jb_all j ->
    default 0%nat (list_find (fun y => idw vcfg y = idw vcfg x) (jb_all j) ≫= fun y => Some (snd y)) = x).
  { intros x Hx. destruct (list_find_elem_of (fun y => idw vcfg y = idw vcfg x) (jb_all j) x Hx eq_refl) as [[p y] Hf].
    rewrite Hf. simpl. apply list_find_Some in Hf as (Hy1 & Hy2 & _). apply elem_of_list_lookup_2 in Hy1.
    by apply (RoundProofs4.idw_inj vcfg n Hids (jb_all j) HW). }
  destruct (Hrest sd sel) as (E & st2 & sig & Hsign & s & l & v' & Hvr & Hops & Hret & Hver & _ & Hlev).
  { done. }
  { split; [done|]. split; [done|]. intros x Hx. unfold sd, answers. cbn [sd_order].
    apply Permutation_map. by apply Hord. }
  { intros x Hx. unfold sel. rewrite map_map. cbn [fst]. rewrite map_id. by rewrite Hwof. }
  clear Hrest Hnew1.
  (* split the leader's run *)
  unfold honest_ops in Hops. fold vcfg in Hops. cbn [sd_peers sd_asked sd_order sd_ans] in Hops.
  set (mid := map (fun x => VParts tid x (Some (ps (idw vcfg x)))) (sd_peers sd) ++
      [VOwn tid (Some (ps (vc_id vcfg))); VGo tid] ++ map (fun x => VAsk tid x (sd_order sd x)) (sd_asked sd)).
  set (fin := map (fun x => VSig tid x (Some (sig (idw vcfg x), E))) (sd_ans sd) ++ [VFinish tid; VSave tid]).
  assert (Hops' : map fst l = [VCall tid b RLeader] ++ [VInit tid] ++ mid ++ fin ++ [VEmit tid true]).
  { rewrite Hops. unfold mid, fin. rewrite <- !app_assoc. simpl. rewrite <- ?app_assoc. done. }
  assert (Hcall : Forall (fun x => of_call tid b (fst x)) l).
  { apply List.Forall_forall. intros x Hx. apply (in_map fst) in Hx. rewrite Hops' in Hx. unfold mid, fin in Hx.
    rewrite !in_app_iff, !in_map_iff in Hx. simpl in Hx.
    destruct x as [op o]. simpl in Hx |- *. clear -Hx. naive_solver. }
  clear Hops. change (map fst l) with (fst <$> l) in Hops'. pose proof Hvr as Hvrall.
  apply fmap_app_inv in Hops' as (la & l1 & Ela & Hops' & ->). symmetry in Hops'.
  apply fmap_app_inv in Hops' as (lb & l2 & Elb & Hops' & ->). symmetry in Hops'.
  apply fmap_app_inv in Hops' as (lm & l3 & Elm & Hops' & ->). symmetry in Hops'.
  apply fmap_app_inv in Hops' as (lf & le & Elf & Ele & ->).
  destruct la as [|[op1 o1] [|]]; try discriminate. injection Ela as <-.
  destruct lb as [|[op2 o2] [|]]; try discriminate. injection Elb as <-.
  destruct le as [|[op5 o5] [|]]; try discriminate. injection Ele as <-.
  apply vrun_app_inv in Hvr as (v1 & Hv1 & Hvr). apply vrun_app_inv in Hvr as (v2 & Hv2 & Hvr).
  apply vrun_app_inv in Hvr as (v3 & Hv3 & Hvr). apply vrun_app_inv in Hvr as (v4 & Hv4 & Hv5).
  inversion Hv1 as [|? ? ? ? ? ? Hs1 Hx]; subst. inversion Hx; subst. clear Hx Hv1.
  inversion Hv5 as [|? ? ? ? ? ? Hs5 Hx]; subst. inversion Hx; subst. clear Hx Hv5.
  assert (Hkeep : forall va lx vb, vrun C vcfg va lx vb -> (exists pc, vs_threads va !! tid = Some (Thread b pc)) ->
     exists pc, vs_threads vb !! tid = Some (Thread b pc)).
  { induction 1 as [|va op vm o lx vb Hs _ IH]; intros [pc Hpc]; [eauto|]. apply IH. by eapply thread_keeps. }
  assert (Ht1 : exists pc, vs_threads v1 !! tid = Some (Thread b pc)).
  { simpl in Hs1. rewrite Htid in Hs1. injection Hs1 as <- _. simpl. rewrite lookup_insert. eauto. }
  pose proof (Hkeep _ _ _ Hv2 Ht1) as Ht2. pose proof (Hkeep _ _ _ Hv3 Ht2) as Ht3. pose proof (Hkeep _ _ _ Hv4 Ht3) as Ht4.
  assert (Hi0 : is_Some (sy_hosts S !! i0)) by eauto.
  assert (HPh : forall i, i ∈ P -> is_Some (sy_hosts S !! i)) by (intros i Hin; by apply Hhosts, HP).
  (* VCall, VInit *)
  destruct (val_step1 C K faulty S0 i0 h S n0 (VCall tid b RLeader) v1 o1 Hr Hn0) as (n1 & Hr1 & Hnv1 & Hnc1).
  { simpl. eapply signable_fits; eauto. }
  { exact Hs1. }
  assert (Htr1 : track S i0 (upd S i0 n1) v1 st).
  { eapply track_val; [|exact Hn0|done|done|done]. intros i. destruct (sy_hosts S !! i) as [m|] eqn:Em; [|done].
    exists m. split; [done|]. unfold st. rewrite Em. split; [|done]. instantiate (1 := ho_val n0). case_decide; [|done]. subst i. congruence. }
  set (S1 := upd S i0 n1) in *. set (h1 := h ++ [(EVal i0 (VCall tid b RLeader), SVal o1)]) in *.
  assert (Hn1 : sy_hosts S1 !! i0 = Some n1) by apply lookup_insert.
  destruct (val_lift C K faulty S0 i0 tid b [(VInit tid, o2)] h1 S1 n1 v2 Hr1 Hn1) as (n2 & Hr2 & Hnv2 & Hnc2).
  { by rewrite Hnv1. }
  { by rewrite Hnv1. }
  { by repeat constructor. }
  pose proof (track_val _ _ _ _ _ _ _ _ Htr1 Hn1 Hnv2 Hnc2 Hi0) as Htr2.
  set (S2 := upd S1 i0 n2) in *. set (h2 := h1 ++ val_events i0 [(VInit tid, o2)]) in *.
  (* parts *)
  destruct (RoundProofs2.list_choice [] (fun i l => crun C (sc_cos K i) (st i) l (st1 i) /\
     Forall (fun x => about (b_key b) (fst x)) l) P) as (lg & Hlg).
  { intros i Hin. destruct (Hruns i (HP i Hin)) as (_ & _ & Ec). rewrite Ec. eapply get_parts_crun. by apply Hget. }
  destruct (cos_lift_all C K faulty S0 (b_key b) lg st1 P HndP h2 S2 Hr2) as (S3 & Hr3 & Hlog3 & Hpr3 & Hot3 & Hin3).
  { intros i Hin. specialize (Htr2 i). destruct (HPh i Hin) as [m Hm]. rewrite Hm in Htr2.
    destruct Htr2 as (m' & H1 & _ & H3). exists m'. rewrite H3. split; [done|]. by apply Hlg. }
  set (hg := mjoin (map (fun i => cos_events i (lg i)) P)) in *.
  pose proof (track_cos _ _ _ _ _ _ _ _ Htr2 Hot3 Hin3 HPh) as Htr3.
  set (cs3 := fun i => if decide (i ∈ P) then st1 i else st i) in *.
  destruct (track_at _ _ _ _ _ _ Htr3 Hn0) as (n3 & Hn3 & Hnv3).
  (* up to the signing requests *)
  destruct (val_lift C K faulty S0 i0 tid b lm (h2 ++ hg) S3 n3 v3 Hr3 Hn3) as (n4 & Hr4 & Hnv4 & Hnc4).
  { by rewrite Hnv3. }
  { by rewrite Hnv3. }
  { apply List.Forall_forall. intros x Hx. apply (in_map fst) in Hx. change (map fst lm) with (fst <$> lm) in Hx.
    rewrite <- Elm in Hx. unfold mid in Hx. rewrite !in_app_iff, !in_map_iff in Hx. simpl in Hx.
    destruct x as [op o]. simpl in Hx |- *. clear -Hx. naive_solver. }
  pose proof (track_val _ _ _ _ _ _ _ _ Htr3 Hn3 Hnv4 Hnc4 Hi0) as Htr4.
  set (S4 := upd S3 i0 n4) in *. set (h4 := (h2 ++ hg) ++ val_events i0 lm) in *.
  (* signatures *)
  destruct (RoundProofs2.list_choice [] (fun i l => crun C (sc_cos K i) (st1 i) l (st2 i) /\
     Forall (fun x => about (b_key b) (fst x)) l /\
     (OpSign (b_sb b), ObsShare (b_sb b) (SignResp (Some E) (Some (sig i)) true)) ∈ l) P) as (ls & Hls).
  { intros i Hin. destruct (Hruns i (HP i Hin)) as (_ & _ & Ec). rewrite Ec.
    destruct (set_and_sign_crun C (ru_cos (r i)) (st1 i) (b_key b) (sel i) (b_sb b) _ _ (Hsign i Hin)) as (l0 & H1 & H2).
    { by eapply signable_key. }
    eexists. split; [exact H1|]. split; [exact H2|]. apply elem_of_app. right. left. }
  destruct (cos_lift_all C K faulty S0 (b_key b) ls st2 P HndP h4 S4 Hr4) as (S5 & Hr5 & Hlog5 & Hpr5 & Hot5 & Hin5).
  { intros i Hin. specialize (Htr4 i). destruct (HPh i Hin) as [m Hm]. rewrite Hm in Htr4.
    destruct Htr4 as (m' & H1 & _ & H3). exists m'. rewrite H3. split; [done|]. unfold cs3. rewrite decide_True by done.
    destruct (Hls i Hin) as (K1 & K2 & _). done. }
  set (hs := mjoin (map (fun i => cos_events i (ls i)) P)) in *.
  pose proof (track_cos _ _ _ _ _ _ _ _ Htr4 Hot5 Hin5 HPh) as Htr5.
  set (cs5 := fun i => if decide (i ∈ P) then st2 i else cs3 i) in *.
  destruct (track_at _ _ _ _ _ _ Htr5 Hn0) as (n5 & Hn5 & Hnv5).
  assert (Hshare : forall i, i ∈ P -> share_given (h4 ++ hs) i (b_sb b) (sig i, E) = true).
  { intros i Hin. unfold share_given. apply existsb_exists.
    exists (ECos i (OpSign (b_sb b)), SCos (ObsShare (b_sb b) (SignResp (Some E) (Some (sig i)) true))). split.
    - apply elem_of_list_In. apply elem_of_app. right. unfold hs. apply elem_of_list_join.
      exists (cos_events i (ls i)). split.
      + unfold cos_events. apply elem_of_list_fmap. destruct (Hls i Hin) as (_ & _ & H3). eexists. split; [|exact H3]. done.
      + apply elem_of_list_fmap. eauto.
    - by apply bool_decide_eq_true. }
  destruct (val_lift C K faulty S0 i0 tid b lf (h4 ++ hs) S5 n5 v4 Hr5 Hn5) as (n6 & Hr6 & Hnv6 & Hnc6).
  { by rewrite Hnv5. }
  { by rewrite Hnv5. }
  { apply List.Forall_forall. intros x Hx. apply (in_map fst) in Hx. change (map fst lf) with (fst <$> lf) in Hx.
    rewrite <- Elf in Hx. unfold fin in Hx. apply in_app_iff in Hx as [Hx|Hx].
    2:{ destruct x as [op o]. simpl in Hx |- *. clear -Hx. naive_solver. }
    apply in_map_iff in Hx as (y & <- & Hy). apply elem_of_list_In in Hy. unfold sd in Hy. cbn [sd_ans] in Hy. rewrite Hans in Hy.
    simpl. split; [done|]. destruct (HW y Hy) as [p Hp]. exists p.
    split; [done|]. assert (Ep : idw vcfg y = p) by (unfold idw; by rewrite Hp). rewrite Ep. apply Hshare.
    rewrite <- Ep. apply elem_of_list_fmap. eauto. }
  pose proof (track_val _ _ _ _ _ _ _ _ Htr5 Hn5 Hnv6 Hnc6 Hi0) as Htr6.
  set (S6 := upd S5 i0 n6) in *. set (h6 := (h4 ++ hs) ++ val_events i0 lf) in *.
  assert (Hn6 : sy_hosts S6 !! i0 = Some n6) by apply lookup_insert.
  (* raft *)
  destruct Ht4 as [pc4 Ht4].
  assert (Hpc : exists sg, pc4 = PcSaved sg /\ o5 = OReturn tid b (VR (Some sg) (b_ts b) None) true /\ v' = set_pc v4 tid b PcDone).
  { simpl in Hs5. rewrite Ht4 in Hs5. destruct pc4; try discriminate. injection Hs5 as <- <-. eauto. }
  destruct Hpc as (sg & -> & -> & ->).
  assert (Esg : sg = E ++ s).
  { apply elem_of_app in Hret as [Hret|Hret]; [apply elem_of_list_singleton in Hret; discriminate|].
    apply elem_of_app in Hret as [Hret|Hret]; [apply elem_of_list_singleton in Hret; discriminate|].
    assert (Hno : forall A (f : A -> vop) (xs : list A), (forall x, f x <> VEmit tid true) -> VEmit tid true ∉ map f xs).
    { intros A f xs Hf Hin. apply elem_of_list_fmap in Hin as (x & Hx & _). by apply (Hf x). }
    apply elem_of_app in Hret as [Hret|Hret].
    { exfalso. assert (Hin : VEmit tid true ∈ mid) by (rewrite Elm; apply elem_of_list_fmap; eexists; split; [|exact Hret]; done).
      unfold mid in Hin. apply elem_of_app in Hin as [Hin|Hin]; [by eapply Hno in Hin|].
      apply elem_of_app in Hin as [Hin|Hin]; [|by eapply Hno in Hin].
      apply elem_of_cons in Hin as [Hin|Hin]; [done|]. apply elem_of_list_singleton in Hin. done. }
    apply elem_of_app in Hret as [Hret|Hret].
    { exfalso. assert (Hin : VEmit tid true ∈ fin) by (rewrite Elf; apply elem_of_list_fmap; eexists; split; [|exact Hret]; done).
      unfold fin in Hin. apply elem_of_app in Hin as [Hin|Hin]; [by eapply Hno in Hin|].
      apply elem_of_cons in Hin as [Hin|Hin]; [done|]. apply elem_of_list_singleton in Hin. done. }
    apply elem_of_list_singleton in Hret. injection Hret as ->. done. }
  subst sg. set (en := emit_entry (SSC (b_hrs b) (Some (E ++ s)) (Some (b_sb b)))).
  assert (Hlog : sy_log S6 = sy_log S) by (simpl; rewrite Hlog5; simpl; by rewrite Hlog3).
  assert (Hen : thread_entry (ho_val n6) tid = Some en) by (unfold thread_entry; by rewrite Hnv6, Ht4).
  set (S7 := System (sy_hosts S6) (en :: sy_proposed S6) (sy_log S6)).
  assert (Hr7 : srun (h6 ++ [(EPropose i0 tid, SNone)]) S7).
  { econstructor; [exact Hr6|]. cbv beta iota delta [System.sstep]. by rewrite Hn6, Hen. }
  set (S8 := System (sy_hosts S6) (en :: sy_proposed S6) (sy_log S6 ++ [en])).
  assert (Hr8 : srun ((h6 ++ [(EPropose i0 tid, SNone)]) ++ [(ECommit en, SNone)]) S8).
  { econstructor; [exact Hr7|]. cbv beta iota delta [System.sstep]. rewrite bool_decide_eq_true_2; [done|]. left. }
  destruct (val_step1 C K faulty S0 i0 _ S8 n6 (VEmit tid true) (set_pc v4 tid b PcDone)
     (OReturn tid b (VR (Some (E ++ s)) (b_ts b) None) true) Hr8 Hn6) as (n9 & Hr9 & Hnv9 & Hnc9).
  { cbv beta iota delta [possible]. rewrite Hen. apply bool_decide_eq_true. simpl. apply elem_of_app. right. left. }
  { rewrite Hnv6. exact Hs5. }
  assert (Htr9 : track S i0 (upd S8 i0 n9) (set_pc v4 tid b PcDone) cs5).
  { eapply track_val; [|exact Hn6|done|done|done]. exact Htr6. }
  assert (Hec : event_of en = Some (as_sent (SSC (b_hrs b) (Some (E ++ s)) (Some (b_sb b))))).
  { apply RaftProofs.emit_event. apply fits_range. by eapply signable_fits. }
  eexists _, _, en, _. split; [|].
  { unfold h6, h4, h2, h1 in Hr9. rewrite <- !app_assoc in Hr9. exact Hr9. }
  split; [|split; [|split; [|split; [|split; [exact Hec|split; [done|]]]]]].
  - exists (E ++ s). split; [|split; [done|]].
    + exists (VEmit tid true), tid, (b_ts b), true. rewrite !elem_of_app. do 8 right. left.
    + simpl. apply elem_of_app. right. left.
  - intros i k o. split; intros Hin; rewrite !elem_of_app in Hin; unfold hg, hs, val_events, cos_events in Hin;
    repeat (destruct Hin as [Hin|Hin]; [first [apply elem_of_list_singleton in Hin; discriminate
      |apply elem_of_list_fmap in Hin as (? & ? & _); discriminate
      |apply elem_of_list_join in Hin as (? & Hin & Hin2); apply elem_of_list_fmap in Hin2 as (? & -> & _);
        apply elem_of_list_fmap in Hin as (? & ? & _); discriminate]|]);
    apply elem_of_list_singleton in Hin; discriminate.
  - intros i. specialize (Htr9 i). destruct (sy_hosts S !! i) as [m|].
    + destruct Htr9 as (m' & -> & _). split; eauto.
    + rewrite Htr9. done.
  - rewrite <- Hlog. done.
  - intros Hw [Hbl Hb]. split.
    { intros e c0 [He|He%elem_of_list_singleton]%elem_of_app Hec0.
      - apply (Hbl e c0); [|done]. rewrite <- Hlog. exact He.
      - subst e. rewrite Hec in Hec0. by injection Hec0 as <-. }
    intros i m Hm. specialize (Htr9 i). destruct (sy_hosts S !! i) as [m0|] eqn:Em0; [|congruence].
    destruct Htr9 as (m' & H1 & H2 & H3). rewrite Hm in H1. injection H1 as <-.
    destruct (Hb i m0 Em0) as (B1 & B2 & B3 & B4).
    assert (Bc : cos_below w (st i)) by (unfold st; rewrite Em0; split; done).
    assert (Bc' : cos_below w (cs5 i)).
    { unfold cs5, cs3. destruct (decide (i ∈ P)) as [Hin|Hin]; [|exact Bc]. destruct (Hlg i Hin) as [G1 G2]. destruct (Hls i Hin) as (G3 & G4 & _).
      eapply crun_below; [exact G3|exact G4|exact Hw|]. eapply crun_below; [exact G1|exact G2|exact Hw|exact Bc]. }
    assert (Bv : val_below w (ho_val m)).
    { rewrite H2. case_decide as Hii; [|split; done]. subst i. rewrite Hn0 in Em0. injection Em0 as <-.
      eapply vrun_below; [exact Hvrall|exact Hcall|exact Hw| |split; done]. intros b' pc Hx. congruence. }
    rewrite H3. destruct Bv, Bc'. done.
Qed.

Lemma handed_app_l h h' i b sig : handed_out h i b sig -> handed_out (h ++ h') i b sig.
Proof. intros (op & tt & ts & f & H). exists op, tt, ts, f. apply elem_of_app. by left. Qed.
Lemma handed_app_r h h' i b sig : handed_out h' i b sig -> handed_out (h ++ h') i b sig.
Proof. intros (op & tt & ts & f & H). exists op, tt, ts, f. apply elem_of_app. by right. Qed.

End Sign.

(** ** raft catches up *)
Section Catch.
Context (C : Crypto) (K : sysconf) (faulty : gset Z) (S0 : system).
Notation srun := (srun C K faulty S0).
Lemma apply_one h S i m e : srun h S -> sy_hosts S !! i = Some m -> sy_log S !! ho_applied m = Some e ->
  exists m', srun (h ++ [(EApply i, SNone)]) (upd S i m') /\ ho_applied m' = (ho_applied m + 1)%nat /\
    vs_init (ho_val m') = vs_init (ho_val m) /\ cs_meta (cn_cos (ho_cos m')) = cs_meta (cn_cos (ho_cos m)) /\
    match event_of e with
    | None => ho_val m' = ho_val m /\ ho_cos m' = ho_cos m
    | Some c => vs_lss (ho_val m') = (save (vs_lss (ho_val m)) c).1 /\
                cs_lss (cn_cos (ho_cos m')) = (save (cs_lss (cn_cos (ho_cos m))) c).1
    end.
Proof.
  intros Hr Hm He. destruct (event_of e) as [c|] eqn:Ee.
  - destruct (save (vs_lss (ho_val m)) c) as [lv ev] eqn:Ev. destruct (save (cs_lss (cn_cos (ho_cos m))) c) as [lc ec] eqn:Ec.
    assert (Hs : exists m', sstep C K faulty h S (EApply i) = Some (upd S i m', SNone) /\ ho_applied m' = (ho_applied m + 1)%nat /\
      vs_init (ho_val m') = vs_init (ho_val m) /\ cs_meta (cn_cos (ho_cos m')) = cs_meta (cn_cos (ho_cos m)) /\
      vs_lss (ho_val m') = lv /\ cs_lss (cn_cos (ho_cos m')) = lc).
    { eexists. cbv beta iota delta [System.sstep]. rewrite Hm, He, Ee. unfold vstep, cnstep, cstep, save_lss. rewrite Ev, Ec.
      split; [reflexivity|]. done. }
    destruct Hs as (m' & Hs & H1 & H2 & H3 & H4 & H5). exists m'. split; [by econstructor|]. cbn [fst]. done.
  - eexists (Host _ _ _ _ _). split; [econstructor; [exact Hr|]|].
    + cbv beta iota delta [System.sstep]. rewrite Hm, He, Ee. reflexivity.
    + done.
Qed.
Lemma save_ge s c : hrs_le (ss_hrs s) (ss_hrs (save s c).1) /\ hrs_le (c_hrs c) (ss_hrs (save s c).1).
Proof.
  destruct (save_cases s c) as [[H1 H2]|[[H1 H2]|[H1 (e & _ & H2)]]].
  - assert (E : ss_hrs (save s c).1 = c_hrs c).
    { by rewrite (save_accepted _ _ H2). }
    rewrite E. split; [by left|apply hrs_le_refl].
  - rewrite H2. simpl. rewrite H1. split; apply hrs_le_refl.
  - rewrite H2. simpl. split; [apply hrs_le_refl|by left].
Qed.
Lemma catch_up k : forall h S i m w, srun h S -> sy_hosts S !! i = Some m ->
  length (sy_log S) = (ho_applied m + k)%nat ->
  exists h' m', srun (h ++ h') (upd S i m') /\ applies i h' /\ ho_applied m' = length (sy_log S) /\
    hrs_le (ss_hrs (vs_lss (ho_val m))) (ss_hrs (vs_lss (ho_val m'))) /\
    hrs_le (ss_hrs (cs_lss (cn_cos (ho_cos m)))) (ss_hrs (cs_lss (cn_cos (ho_cos m')))) /\
    (forall e c, e ∈ drop (ho_applied m) (sy_log S) -> event_of e = Some c ->
       hrs_le (c_hrs c) (ss_hrs (vs_lss (ho_val m'))) /\ hrs_le (c_hrs c) (ss_hrs (cs_lss (cn_cos (ho_cos m'))))) /\
    (all_below w S -> all_below w (upd S i m')).
Proof.
  induction k as [|k IH]; intros h S i m w Hr Hm Hk.
  { exists [], m. rewrite app_nil_r, upd_same by done. split; [done|]. split; [intros x Hx; by apply not_elem_of_nil in Hx|].
    split; [lia|]. split; [apply hrs_le_refl|]. split; [apply hrs_le_refl|]. split; [|done].
    intros e c He. rewrite drop_ge in He by lia. by apply not_elem_of_nil in He. }
  destruct (lookup_lt_is_Some_2 (sy_log S) (ho_applied m)) as [e He]; [lia|].
  destruct (apply_one h S i m e Hr Hm He) as (m1 & Hr1 & Ha1 & Hi1 & Hme1 & Hc1).
  destruct (IH (h ++ [(EApply i, SNone)]) (upd S i m1) i m1 w Hr1) as (h' & m' & Hr' & Hap & Hal & Hv & Hcs & Hev & Hb).
  { apply lookup_insert. }
  { simpl. lia. }
  rewrite upd_upd in Hr', Hb. rewrite <- app_assoc in Hr'. simpl in Hal, Hev.
  assert (Hlv : hrs_le (ss_hrs (vs_lss (ho_val m))) (ss_hrs (vs_lss (ho_val m1))) /\
                hrs_le (ss_hrs (cs_lss (cn_cos (ho_cos m)))) (ss_hrs (cs_lss (cn_cos (ho_cos m1))))).
  { destruct (event_of e) as [c|]; destruct Hc1 as [-> ->]; split; try apply hrs_le_refl; apply save_ge. }
  exists ([(EApply i, SNone)] ++ h'), m'. split; [exact Hr'|]. split; [|split; [done|]].
  { intros x [Hx|Hx]%elem_of_app; [by apply elem_of_list_singleton in Hx|by apply Hap]. }
  split; [eapply hrs_le_trans; [apply Hlv|done]|]. split; [eapply hrs_le_trans; [apply Hlv|done]|]. split.
  - intros e' c He' Hc'. rewrite (drop_S _ e) in He' by done. apply elem_of_cons in He' as [-> |He'].
    + rewrite Hc' in Hc1. destruct Hc1 as [E1 E2]. split; (eapply hrs_le_trans; [|first [exact Hv|exact Hcs]]).
      * rewrite E1. apply save_ge.
      * rewrite E2. apply save_ge.
    + apply (Hev e' c); [|done]. rewrite Ha1. by replace (ho_applied m + 1)%nat with (Datatypes.S (ho_applied m)) by lia.
  - intros [B1 B2]. apply Hb. split; [done|]. intros i' m2 Hm2. simpl in Hm2.
    destruct (decide (i' = i)) as [-> |Hne]; [|rewrite lookup_insert_ne in Hm2 by done; by apply (B2 i')].
    rewrite lookup_insert in Hm2. injection Hm2 as <-. destruct (B2 i m Hm) as (C1 & C2 & C3 & C4).
    rewrite Hi1, Hme1. split; [done|]. destruct (event_of e) as [c|] eqn:Ee.
    + destruct Hc1 as [-> ->]. assert (Hcw : hrs_le (c_hrs c) w) by (eapply B1; [by eapply elem_of_list_lookup_2|done]).
      split; [by apply save_level|]. split; [by apply save_level|done].
    + destruct Hc1 as [-> ->]. done.
Qed.
End Catch.

Section Many.
Context (C : Crypto) (R : reading) (HS : threshold_scheme C R) (pub : bytes) (t n : Z) (K : sysconf).
Context (Hn : 2 <= n <= rd_max R) (Hn' : n <= 255) (Ht : 1 <= t <= n) (Hd : deployed C R pub t n K).
Context (faulty : gset Z) (S0 : system).
Notation srun := (srun C K faulty S0).

Lemma applied_upd (S : system) i m m' j k : sy_hosts S !! i = Some m -> ho_applied m' = ho_applied m ->
  sy_hosts (upd S i m') !! j = Some k -> exists k', sy_hosts S !! j = Some k' /\ ho_applied k = ho_applied k'.
Proof.
  intros Hm Ha. simpl. destruct (decide (j = i)) as [-> |Hne].
  - rewrite lookup_insert. intros [= <-]. eauto.
  - rewrite lookup_insert_ne by done. eauto.
Qed.
(** how far the log was applied changes only when an entry is applied or a process starts *)
Lemma applied_step h S e S' o j k : sstep C K faulty h S e = Some (S', o) ->
  (forall i, e <> EApply i) -> (forall i q, e <> ERestart i q) -> sy_hosts S' !! j = Some k ->
  exists k', sy_hosts S !! j = Some k' /\ ho_applied k = ho_applied k'.
Proof.
  intros Hs H1 H2 Hk. cbv beta iota delta [System.sstep] in Hs. destruct e as [i op|i op|i q|i q|i q|i q|i q|e|i|i q].
  - destruct (sy_hosts S !! i) as [m|] eqn:Em; [|discriminate]. destruct (possible _ _ _ _ _ _ _); [|discriminate].
    destruct (vstep _ _ _ _) as [| |v ob]; [discriminate|discriminate|]. injection Hs as <- <-. eapply (applied_upd S i m); [exact Em| |exact Hk]; done.
  - unfold host_cos in Hs. destruct (sy_hosts S !! i) as [m|] eqn:Em; [|by destruct op].
    destruct op; try discriminate; destruct (cnstep _ _ _ _) as [[cn [|[? ?] [|]]]|]; try discriminate;
      injection Hs as <- <-; (eapply (applied_upd S i m); [exact Em| |exact Hk]); done.
  - destruct (sy_hosts S !! i) as [m|] eqn:Em; [|discriminate]. destruct (ho_vws m !! q); [|discriminate].
    destruct (read_field _ _); [|discriminate]. injection Hs as <- <-. eapply (applied_upd S i m); [exact Em| |exact Hk]; done.
  - destruct (sy_hosts S !! i) as [m|] eqn:Em; [|discriminate]. destruct (ho_vws m !! q); [|discriminate].
    destruct (bool_decide _); [|discriminate]. injection Hs as <- <-. eapply (applied_upd S i m); [exact Em| |exact Hk]; done.
  - unfold host_cos in Hs. destruct (sy_hosts S !! i) as [m|] eqn:Em; [|discriminate].
    destruct (cnstep _ _ _ _) as [[cn ?]|]; [|discriminate]. injection Hs as <- <-. eapply (applied_upd S i m); [exact Em| |exact Hk]; done.
  - unfold host_cos in Hs. destruct (sy_hosts S !! i) as [m|] eqn:Em; [|discriminate].
    destruct (cnstep _ _ _ _) as [[cn ?]|]; [|discriminate]. injection Hs as <- <-. eapply (applied_upd S i m); [exact Em| |exact Hk]; done.
  - destruct (sy_hosts S !! i) as [m|] eqn:Em; [|discriminate]. destruct (thread_entry _ _); [|discriminate].
    injection Hs as <- <-. eauto.
  - destruct (bool_decide _); [|discriminate]. injection Hs as <- <-. eauto.
  - by destruct (H1 i).
  - by destruct (H2 i q).
Qed.
Lemma log_step h S e S' o : sstep C K faulty h S e = Some (S', o) -> exists l, sy_log S' = sy_log S ++ l.
Proof.
  intros Hs. assert (Hu : forall i m, exists l, sy_log (upd S i m) = sy_log S ++ l) by (intros; exists []; by rewrite app_nil_r).
  cbv beta iota delta [System.sstep] in Hs. unfold host_cos in Hs.
  destruct e as [i op|i op|i q|i q|i q|i q|i q|e|i|i q];
    try (destruct (sy_hosts S !! i) as [m|] eqn:Em; [|first [discriminate|by destruct op]]).
  - destruct (possible _ _ _ _ _ _ _); [|discriminate].
    destruct (vstep _ _ _ _) as [| |v ob]; [discriminate|discriminate|]. by injection Hs as <- <-.
  - destruct op; try discriminate; destruct (cnstep _ _ _ _) as [[cn [|[? ?] [|]]]|]; try discriminate;
      by injection Hs as <- <-.
  - destruct (ho_vws m !! q); [|discriminate]. destruct (read_field _ _); [|discriminate]. by injection Hs as <- <-.
  - destruct (ho_vws m !! q); [|discriminate]. destruct (bool_decide _); [|discriminate]. by injection Hs as <- <-.
  - destruct (cnstep _ _ _ _) as [[cn ?]|]; [|discriminate]. by injection Hs as <- <-.
  - destruct (cnstep _ _ _ _) as [[cn ?]|]; [|discriminate]. by injection Hs as <- <-.
  - destruct (thread_entry _ _); [|discriminate]. injection Hs as <- <-. exists []. by rewrite app_nil_r.
  - destruct (bool_decide _); [|discriminate]. injection Hs as <- <-. eauto.
  - destruct (sy_log S !! ho_applied m); [|discriminate]. destruct (event_of _).
    + destruct (vstep _ _ _ _); [discriminate|discriminate|]. destruct (cnstep _ _ _ _) as [[cn ?]|]; [|discriminate]. by injection Hs as <- <-.
    + by injection Hs as <- <-.
  - destruct (bool_decide _); [|discriminate]. destruct (load_or_create _).
    destruct (cnstep _ _ _ _) as [[cn ?]|]; [|discriminate]. by injection Hs as <- <-.
Qed.
Lemma applied_inv h S : applied_ok S0 -> srun h S -> applied_ok S.
Proof.
  intros H0. induction 1 as [|h S e S' o Hr IH Hs]; [done|]. intros j k Hk. destruct (log_step _ _ _ _ _ Hs) as [l Hl].
  assert (Hlen : (length (sy_log S) <= length (sy_log S'))%nat) by (rewrite Hl, app_length; lia).
  assert (Hcase : (exists i, e = EApply i) \/ (exists i q, e = ERestart i q) \/
    ((forall i, e <> EApply i) /\ forall i q, e <> ERestart i q)) by (destruct e; eauto; right; right; done).
  destruct Hcase as [[i ->]|[(i & q & ->)|[H1 H2]]].
  - cbv beta iota delta [System.sstep] in Hs. destruct (sy_hosts S !! i) as [m|] eqn:Em; [|discriminate].
    destruct (sy_log S !! ho_applied m) as [x|] eqn:Ex; [|discriminate]. apply lookup_lt_Some in Ex.
    assert (HS' : exists m', S' = upd S i m' /\ ho_applied m' = (ho_applied m + 1)%nat).
    { destruct (event_of _).
      - destruct (vstep _ _ _ _); [discriminate|discriminate|]. destruct (cnstep _ _ _ _) as [[cn ?]|]; [|discriminate].
        injection Hs as <- <-. eauto.
      - injection Hs as <- <-. eauto. }
    destruct HS' as (m' & -> & Hm'). simpl in Hk |- *. destruct (decide (j = i)) as [-> |Hne].
    + rewrite lookup_insert in Hk. injection Hk as <-. lia.
    + rewrite lookup_insert_ne in Hk by done. by apply (IH j).
  - cbv beta iota delta [System.sstep] in Hs. destruct (sy_hosts S !! i) as [m|] eqn:Em; [|discriminate].
    destruct (bool_decide _) eqn:Eb; [|discriminate]. apply bool_decide_eq_true in Eb. destruct (load_or_create _).
    destruct (cnstep _ _ _ _) as [[cn ?]|]; [|discriminate]. injection Hs as <- <-. simpl in Hk |- *.
    destruct (decide (j = i)) as [-> |Hne].
    + rewrite lookup_insert in Hk. injection Hk as <-. done.
    + rewrite lookup_insert_ne in Hk by done. by apply (IH j).
  - destruct (applied_step _ _ _ _ _ _ _ Hs H1 H2 Hk) as (k' & Hk' & ->). apply IH in Hk'. lia.
Qed.
Lemma applied_calm h h' : forall S S', srun h S -> srun (h ++ h') S' -> calm h' ->
  forall j k, sy_hosts S' !! j = Some k -> exists k', sy_hosts S !! j = Some k' /\ ho_applied k = ho_applied k'.
Proof.
  induction h' as [|[e o] h' IH] using rev_ind; intros S S' Hr Hr' Hc j k Hk.
  { rewrite app_nil_r in Hr'. rewrite (srun_fun _ _ _ _ _ _ _ Hr Hr'). eauto. }
  rewrite app_assoc in Hr'. inversion Hr' as [E|h0 S1 e' S2 o' Hr1 Hs E]; [by destruct (h ++ h')|].
  apply app_inj_tail in E as [-> [= -> ->]]. subst S2.
  destruct (applied_step _ _ _ _ _ j k Hs) as (k1 & Hk1 & ->); [..|done|].
  - intros i ->. apply (proj2 (Hc i 0%nat o)). apply elem_of_app. right. left.
  - intros i q ->. apply (proj1 (Hc i q o)). apply elem_of_app. right. left.
  - eapply (IH S S1); [done|done| |done]. intros i q o'. destruct (Hc i q o') as [G1 G2]. split; intros G; [apply G1|apply G2]; apply elem_of_app; by left.
Qed.

(** all hosts *)
Lemma catch_all w ids : NoDup ids -> forall h S, srun h S -> applied_ok S ->
  (forall i, i ∈ ids -> is_Some (sy_hosts S !! i)) -> all_below w S ->
  exists h' S', srun (h ++ h') S' /\ (forall x, x ∈ h' -> exists i, x = (EApply i, SNone)) /\
    sy_log S' = sy_log S /\ (forall i, is_Some (sy_hosts S !! i) <-> is_Some (sy_hosts S' !! i)) /\ all_below w S' /\
    (forall i, i ∉ ids -> sy_hosts S' !! i = sy_hosts S !! i) /\
    forall i m m', i ∈ ids -> sy_hosts S !! i = Some m -> sy_hosts S' !! i = Some m' ->
      ho_applied m' = length (sy_log S) /\
      forall e c, e ∈ drop (ho_applied m) (sy_log S) -> event_of e = Some c ->
        hrs_le (c_hrs c) (ss_hrs (vs_lss (ho_val m'))) /\ hrs_le (c_hrs c) (ss_hrs (cs_lss (cn_cos (ho_cos m')))).
Proof.
  induction ids as [|i ids IH]; intros Hnd h S Hr Ha Hh Hb.
  { exists [], S. rewrite app_nil_r. split; [done|]. split; [intros x Hx; by apply not_elem_of_nil in Hx|].
    split; [done|]. split; [done|]. split; [done|]. split; [done|]. intros i m m' Hi. by apply not_elem_of_nil in Hi. }
  apply list.NoDup_cons in Hnd as [Hni Hnd]. destruct (Hh i) as [m Hm]; [left|].
  destruct (catch_up C K faulty S0 (length (sy_log S) - ho_applied m) h S i m w Hr Hm) as (h1 & m1 & Hr1 & Hap & Hal & _ & _ & Hev & Hb1).
  { pose proof (Ha i m Hm). lia. }
  destruct (IH Hnd (h ++ h1) (upd S i m1) Hr1) as (h2 & S2 & Hr2 & Hap2 & Hl2 & Hh2 & Hb2 & Ho2 & Hi2).
  - intros j k Hk. simpl in Hk |- *. destruct (decide (j = i)) as [-> |Hne].
    + rewrite lookup_insert in Hk. injection Hk as <-. lia.
    + rewrite lookup_insert_ne in Hk by done. by apply (Ha j).
  - intros j Hj. simpl. rewrite lookup_insert_ne by (intros ->; done). apply Hh. by right.
  - by apply Hb1.
  - exists (h1 ++ h2), S2. rewrite app_assoc. split; [done|]. split.
    { intros x [Hx|Hx]%elem_of_app; [|by apply Hap2]. exists i. by apply Hap. }
    split; [done|]. split.
    { intros j. rewrite <- Hh2. simpl. destruct (decide (j = i)) as [-> |Hne].
      - rewrite lookup_insert, Hm. split; eauto.
      - by rewrite lookup_insert_ne. }
    split; [done|]. split.
    { intros j Hj. rewrite Ho2 by (intros ?; apply Hj; by right). simpl. apply lookup_insert_ne. intros ->. apply Hj. left. }
    intros j k k' [-> |Hj]%elem_of_cons Hk Hk'.
    + rewrite Ho2 in Hk' by done. simpl in Hk'. rewrite lookup_insert in Hk'. injection Hk' as <-. rewrite Hm in Hk. injection Hk as <-. done.
    + apply (Hi2 j k k' Hj); [|done]. simpl. rewrite lookup_insert_ne by (intros ->; done). done.
Qed.

Lemma sign_many js : forall h S w, applied_ok S0 -> (forall i, is_Some (sy_hosts S !! i) <-> 1 <= i <= n) -> srun h S ->
  Forall (job_ok R n K) js -> all_below w S -> rising w js ->
  exists h' S', srun (h ++ h') S' /\ Forall (answered C pub h' S') js /\ (forall i k o, (ERestart i k, o) ∉ h') /\
    (forall e, e ∈ sy_log S -> e ∈ sy_log S') /\ all_below (last_level w js) S' /\
    (js <> [] \/ in_step w S -> in_step (last_level w js) S').
Proof.
  intros h S w H0. revert h S w. induction js as [|j js IH]; intros h S w Hh Hr Hok Hb Hri.
  { exists [], S. rewrite app_nil_r. split; [done|]. split; [constructor|]. split; [intros i k o Hin; by apply not_elem_of_nil in Hin|].
    split; [done|]. split; [done|]. by intros [H|H]. }
  inversion Hok as [|? ? Hj Hjs]; subst. destruct Hri as [Hlt Hri].
  assert (Hle : forall k, hrs_le k w -> hrs_le k (b_hrs (jb_block j))) by (intros k Hk; left; eapply hrs_le_lt_trans; eauto).
  destruct (sign_once C R HS pub t n K Hn Hn' Ht Hd faulty S0 h S j (b_hrs (jb_block j))) as (h1 & S1 & e & c & Hr1 & Ha & Hno & Hh1 & Hlg & Hec & Hcl & Hb1).
  { intros i Hi. by apply Hh. }
  { done. }
  { done. }
  { split.
    - intros m Hm. destruct (proj2 Hb _ _ Hm) as (B1 & B2 & _). split; eapply hrs_le_lt_trans; eauto.
    - intros i m _ Hm. destruct (proj2 Hb _ _ Hm) as (_ & _ & B3 & B4). split; [|eapply hrs_le_lt_trans; eauto].
      left. apply eq_None_not_Some. intros Hx. apply B4 in Hx. cbn [b_key ht_hrs] in Hx. eapply hrs_lt_irrefl. eapply hrs_le_lt_trans; eauto. }
  assert (Hb1' : all_below (b_hrs (jb_block j)) S1).
  { apply Hb1; [by right|].
    split; [intros e' c' He Hc; apply Hle; by eapply Hb|].
    intros i m Hm. destruct (proj2 Hb i m Hm) as (B1 & B2 & B3 & B4). split_and!; auto. }
  destruct (catch_all (b_hrs (jb_block j)) (seqZ 1 n) (NoDup_seqZ _ _) (h ++ h1) S1 Hr1) as (h2 & S2 & Hr2 & Hap2 & Hl2 & Hh2 & Hb2 & _ & Hi2).
  { by eapply applied_inv. }
  { intros i Hi. apply Hh1, Hh. apply elem_of_seqZ in Hi. lia. }
  { done. }
  assert (Hstep2 : in_step (b_hrs (jb_block j)) S2).
  { intros i m2 Hm2. destruct (proj2 (Hh2 i)) as [m1 Hm1]; [eauto|].
    assert (Hin : i ∈ seqZ 1 n). { apply elem_of_seqZ. assert (1 <= i <= n) by (apply Hh, Hh1; eauto). lia. }
    destruct (Hi2 i m1 m2 Hin Hm1 Hm2) as [G1 G2]. rewrite Hl2.
    destruct (applied_calm _ _ _ _ Hr Hr1 Hno i m1 Hm1) as (m & Hm & Ham).
    pose proof (applied_inv _ _ H0 Hr i m Hm) as Hlen.
    destruct (G2 e c) as [L1 L2]; [|done|].
    { rewrite Hlg, drop_app_le by (rewrite Ham; done). apply elem_of_app. right. left. }
    rewrite Hcl in L1, L2. destruct (proj2 Hb2 i m2 Hm2) as (_ & B2 & B3 & _).
    split; [by apply hrs_le_antisym|]. split; [by apply hrs_le_antisym|done]. }
  destruct (IH ((h ++ h1) ++ h2) S2 (b_hrs (jb_block j))) as (h3 & S3 & Hr3 & Ha3 & Hno3 & Hlg3 & Hb3 & Hst3).
  - intros i. rewrite <- Hh2, <- Hh1. apply Hh.
  - done.
  - done.
  - done.
  - done.
  - exists ((h1 ++ h2) ++ h3), S3. rewrite !app_assoc. split; [done|]. split; [constructor|split; [|split; [|split]]].
    + destruct Ha as (sig & H1 & H2 & H3). exists sig. split; [by do 2 apply handed_app_l|]. split; [done|]. apply Hlg3. by rewrite Hl2.
    + eapply Forall_impl; [|exact Ha3]. intros j' (sig & H1 & H2 & H3). exists sig. split; [by apply handed_app_r|done].
    + intros i k o [[Hin|Hin]%elem_of_app|Hin]%elem_of_app.
      * by apply (proj1 (Hno i k o)).
      * destruct (Hap2 _ Hin). discriminate.
      * by apply Hno3 in Hin.
    + intros e' He. apply Hlg3. rewrite Hl2, Hlg. apply elem_of_app. by left.
    + done.
    + intros _. cbn [last_level]. apply Hst3. by right.
Qed.
End Many.
