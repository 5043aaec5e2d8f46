(** What a SignBlock call knows at each point. *)
From Verif Require Import GoBase Wire Canonical SignState Spec SignStateProofs Crypto LocalCosigner
  CosignerSpec CosignerProofs2 Validator ValidatorSpec ValidatorProofs.
Local Open Scope Z_scope.

Lemma collect_length i j sigs : length (collect_sigs i sigs) = length (collect_sigs j sigs).
Proof.
  revert i j. induction sigs as [|s l IH]; intros i j; [done|].
  destruct s as [|x s]; cbn [collect_sigs length]; [apply IH|f_equal; apply IH].
Qed.
Lemma collect_insert i (sigs : list bytes) n (s : bytes) :
  (length (collect_sigs i (<[n:=s]> sigs)) <=
   length (collect_sigs i sigs) + (if decide (s <> []) then 1 else 0))%nat.
Proof.
  revert i n. induction sigs as [|y l IH]; intros i n; [simpl; lia|].
  destruct n as [|n].
  - change (<[0%nat:=s]> (y :: l)) with (s :: l).
    destruct s as [|x s], y as [|z y]; cbn [collect_sigs length];
      destruct decide; try congruence; try lia; exfalso; apply n; done.
  - change (<[S n:=s]> (y :: l)) with (y :: <[n:=s]> l).
    specialize (IH (i + 1) n). destruct y as [|z y]; cbn [collect_sigs length]; lia.
Qed.
Lemma collect_replicate n i : collect_sigs i (replicate n []) = [].
Proof. revert i. induction n as [|n IH]; intros i; [done|]. simpl. apply IH. Qed.

Lemma elem_of_take_in {A} n (l : list A) x : x ∈ take n l -> x ∈ l.
Proof. intros H. rewrite <- (take_drop n l). apply elem_of_app. by left. Qed.
Lemma NoDup_take {A} n (l : list A) : NoDup l -> NoDup (take n l).
Proof. intros H. rewrite <- (take_drop n l) in H. apply NoDup_app in H. tauto. Qed.

Lemma ops_snoc l op o : ops_of (l ++ [(op, o)]) = ops_of l ++ [op].
Proof. unfold ops_of. rewrite map_app. done. Qed.
Lemma peer_answers_snoc t l op o :
  peer_answers t (l ++ [(op, o)]) = peer_answers t l ++ match peer_answer t op with Some x => [x] | None => [] end.
Proof. unfold peer_answers. rewrite ops_snoc, omap_app. simpl. destruct (peer_answer t op); done. Qed.
Lemma own_answers_snoc t l op o :
  own_answers t (l ++ [(op, o)]) = own_answers t l ++ match own_answer t op with Some x => [x] | None => [] end.
Proof. unfold own_answers. rewrite ops_snoc, omap_app. simpl. destruct (own_answer t op); done. Qed.
Lemma elem_ops_snoc l op o x : x ∈ ops_of l -> x ∈ ops_of (l ++ [(op, o)]).
Proof. rewrite ops_snoc, elem_of_app. auto. Qed.
Lemma elem_ops_last l op o : op ∈ ops_of (l ++ [(op, o)]).
Proof. rewrite ops_snoc, elem_of_app. right. left. Qed.

Section V.
Context (C : Crypto) (cfg : vconf).
Notation vstep := (vstep C cfg).
Notation vrun := (vrun C cfg).

Lemma gave_share_snoc l t w op o : gave_share l t w -> gave_share (l ++ [(op, o)]) t w.
Proof. intros (s & e & H & Hn). exists s, e. split; [by apply elem_ops_snoc|done]. Qed.

Lemma was_asked_snoc l t w sb op o : was_asked l t w sb -> was_asked (l ++ [(op, o)]) t w sb.
Proof. intros (op' & k & ps & H). exists op', k, ps. apply elem_of_app. by left. Qed.

(** operations that touch the answers of [t] *)
Definition answers_of (op : vop) (t : nat) : Prop :=
  is_Some (peer_answer t op) \/ is_Some (own_answer t op).
Local Instance answers_of_dec op t : Decision (answers_of op t).
Proof. unfold answers_of. apply _. Qed.
Lemma participants_snoc l t op o :
  ~ answers_of op t -> participants cfg t (l ++ [(op, o)]) = participants cfg t l.
Proof.
  intros H. unfold participants. rewrite peer_answers_snoc, own_answers_snoc.
  destruct (peer_answer t op) eqn:E1; [destruct H; left; eauto|].
  destruct (own_answer t op) eqn:E2; [destruct H; right; eauto|].
  rewrite !app_nil_r. done.
Qed.
Lemma answers_thread op t : answers_of op t -> op_thread op = Some t.
Proof.
  intros [[x H]|[x H]]; destruct op; simpl in H; try discriminate; destruct r; try discriminate;
  case_decide; simplify_eq; done.
Qed.

(** nothing answered yet *)
Definition no_answers (t : nat) (l : list (vop * vobs)) : Prop :=
  peer_answers t l = [] /\ own_answers t l = [].

Definition pc_inv (l : list (vop * vobs)) (st : vstate) (t : nat) (b : block) (pc : vpc) : Prop :=
  match pc with
  | PcProxy => VCall t b RFollower ∈ ops_of l
  | PcInit => VCall t b RLeader ∈ ops_of l /\ no_answers t l
  | PcPoll _ | PcLate =>
      VCall t b RLeader ∈ ops_of l /\ no_answers t l /\ hrs_le (b_hrs b) (ss_hrs (vs_init st))
  | PcCollect own got ans =>
      VCall t b RLeader ∈ ops_of l /\ started l t b /\ hrs_le (b_hrs b) (ss_hrs (vs_init st)) /\
      1 <= vc_threshold cfg /\
      got = take (Z.to_nat (vc_threshold cfg - 1)) (peer_answers t l) /\
      own_answers t l = match own with None => [] | Some ps => [(0%nat, ps)] end /\
      NoDup (map fst (peer_answers t l)) /\
      (forall w, w ∈ map fst (peer_answers t l) -> w ∈ ans /\ w <> 0%nat /\ is_Some (id_of cfg w))
  | PcSign got asked ans sigs eph =>
      VCall t b RLeader ∈ ops_of l /\ started l t b /\ hrs_le (b_hrs b) (ss_hrs (vs_init st)) /\
      got = participants cfg t l /\ full_group cfg t l /\
      (forall w, w ∈ asked -> w ∈ map fst got /\ was_asked l t w (b_sb b)) /\ (forall w, w ∈ ans -> w ∈ asked) /\ NoDup ans /\
      length sigs = Z.to_nat (v_total cfg) /\
      exists ok, NoDup ok /\ (forall w, w ∈ ok -> w ∈ ans /\ gave_share l t w) /\
        (length (collect_sigs 0 sigs) <= length ok)%nat
  | PcVerified sig =>
      VCall t b RLeader ∈ ops_of l /\ started l t b /\ hrs_le (b_hrs b) (ss_hrs (vs_init st)) /\
      cr_verify C (vc_pub cfg) (b_sb b) sig = true /\ full_group cfg t l /\
      (forall w, w ∈ map fst (participants cfg t l) -> gave_share l t w /\ was_asked l t w (b_sb b))
  | PcSaved sig =>
      VCall t b RLeader ∈ ops_of l /\ started l t b /\ hrs_le (b_hrs b) (ss_hrs (vs_init st)) /\
      cr_verify C (vc_pub cfg) (b_sb b) sig = true /\ full_group cfg t l /\
      (forall w, w ∈ map fst (participants cfg t l) -> gave_share l t w /\ was_asked l t w (b_sb b)) /\
      hrs_le (b_hrs b) (ss_hrs (vs_lss st))
  | PcDone => True
  end.

Lemma started_snoc l t b op o : started l t b -> started (l ++ [(op, o)]) t b.
Proof. intros [op' H]. exists op'. apply elem_of_app. by left. Qed.
Lemma started_last l t b op : started (l ++ [(op, OStart t b)]) t b.
Proof. exists op. apply elem_of_app. right. left. Qed.
Lemma full_group_eq l l' t : participants cfg t l' = participants cfg t l -> full_group cfg t l -> full_group cfg t l'.
Proof. unfold full_group. intros ->. done. Qed.
Lemma no_answers_snoc l t op o : ~ answers_of op t -> no_answers t l -> no_answers t (l ++ [(op, o)]).
Proof.
  intros H [H1 H2]. split.
  - rewrite peer_answers_snoc. destruct (peer_answer t op) eqn:E; [destruct H; left; eauto|]. by rewrite app_nil_r.
  - rewrite own_answers_snoc. destruct (own_answer t op) eqn:E; [destruct H; right; eauto|]. by rewrite app_nil_r.
Qed.

(** an action of another thread preserves what [t] knows *)
Lemma pc_inv_frame l st st1 t b pc op o :
  ~ answers_of op t ->
  hrs_le (ss_hrs (vs_init st)) (ss_hrs (vs_init st1)) ->
  hrs_le (ss_hrs (vs_lss st)) (ss_hrs (vs_lss st1)) ->
  pc_inv l st t b pc -> pc_inv (l ++ [(op, o)]) st1 t b pc.
Proof.
  intros Hn Hi Hl. pose proof (participants_snoc l t op o Hn) as Hp.
  pose proof (no_answers_snoc l t op o Hn) as Hna.
  assert (Hpa : peer_answers t (l ++ [(op, o)]) = peer_answers t l).
  { rewrite peer_answers_snoc. destruct (peer_answer t op) eqn:E; [destruct Hn; left; eauto|]. by rewrite app_nil_r. }
  assert (Hoa : own_answers t (l ++ [(op, o)]) = own_answers t l).
  { rewrite own_answers_snoc. destruct (own_answer t op) eqn:E; [destruct Hn; right; eauto|]. by rewrite app_nil_r. }
  destruct pc; unfold pc_inv.
  - apply elem_ops_snoc.
  - intros [H1 H2]. split; [by apply elem_ops_snoc|auto].
  - intros (H1 & H2 & H3). split; [by apply elem_ops_snoc|]. split; [auto|]. eapply hrs_le_trans; eauto.
  - intros (H1 & H2 & H3). split; [by apply elem_ops_snoc|]. split; [auto|]. eapply hrs_le_trans; eauto.
  - rewrite Hpa, Hoa. intros (H1 & H2 & H3 & H4).
    split; [by apply elem_ops_snoc|]. split; [by apply started_snoc|]. split; [eapply hrs_le_trans; eauto|done].
  - intros (H1 & H2 & H3 & H4 & H5 & H6 & H7 & H8 & H9 & ok & H10 & H11 & H12).
    split; [by apply elem_ops_snoc|]. split; [by apply started_snoc|]. split; [eapply hrs_le_trans; eauto|].
    split; [congruence|]. split; [by eapply full_group_eq|].
    split; [intros w Hw; destruct (H6 w Hw); split; [done|by apply was_asked_snoc]|]. do 3 (split; [done|]).
    exists ok. split; [done|]. split; [|done]. intros w Hw. destruct (H11 w Hw). split; [done|by apply gave_share_snoc].
  - intros (H1 & H2 & H3 & H4 & H5 & H6).
    split; [by apply elem_ops_snoc|]. split; [by apply started_snoc|]. split; [eapply hrs_le_trans; eauto|].
    split; [done|]. split; [by eapply full_group_eq|]. rewrite Hp. intros w Hw. destruct (H6 w Hw).
    split; [by apply gave_share_snoc|by apply was_asked_snoc].
  - intros (H1 & H2 & H3 & H4 & H5 & H6 & H7).
    split; [by apply elem_ops_snoc|]. split; [by apply started_snoc|]. split; [exact (hrs_le_trans _ _ _ H3 Hi)|].
    split; [done|]. split; [by eapply full_group_eq|].
    split; [rewrite Hp; intros w Hw; destruct (H6 w Hw); split; [by apply gave_share_snoc|by apply was_asked_snoc]|].
    eapply hrs_le_trans; eauto.
  - done.
Qed.

Lemma tstep_init_mono st t b pc op st' pc' o :
  tstep C cfg st t b pc op st' pc' o -> hrs_le (ss_hrs (vs_init st)) (ss_hrs (vs_init st')).
Proof.
  intros H. apply tstep_init in H as [-> |(_ & _ & H & -> & _)]; [apply hrs_le_refl|left; done].
Qed.
Lemma tstep_lss_mono st t b pc op st' pc' o :
  tstep C cfg st t b pc op st' pc' o -> hrs_le (ss_hrs (vs_lss st)) (ss_hrs (vs_lss st')).
Proof.
  intros H. apply tstep_lss in H as [-> |(sig & _ & _ & _ & _ & ->)]; [apply hrs_le_refl|apply save_mono].
Qed.
Lemma vstep_mono st op st1 o : vstep st op = VOk st1 o ->
  hrs_le (ss_hrs (vs_init st)) (ss_hrs (vs_init st1)) /\ hrs_le (ss_hrs (vs_lss st)) (ss_hrs (vs_lss st1)).
Proof.
  intros H. apply vstep_case in H. destruct H; simpl.
  - split; apply hrs_le_refl.
  - split; apply hrs_le_refl.
  - split; [apply hrs_le_refl|apply save_mono].
  - split; [eapply tstep_init_mono|eapply tstep_lss_mono]; eauto.
Qed.
Lemma vrun_mono st l st1 : vrun st l st1 ->
  hrs_le (ss_hrs (vs_init st)) (ss_hrs (vs_init st1)) /\ hrs_le (ss_hrs (vs_lss st)) (ss_hrs (vs_lss st1)).
Proof.
  induction 1 as [|? ? ? ? ? ? Hs Hr IH]; [split; apply hrs_le_refl|].
  apply vstep_mono in Hs. split; eapply hrs_le_trans; try apply Hs; apply IH.
Qed.

Lemma tstep_op st t b pc op st' pc' o : tstep C cfg st t b pc op st' pc' o -> op_thread op = Some t.
Proof. destruct 1; done. Qed.

Lemma save_level s c : hrs_le (ss_hrs s) (c_hrs c) -> ss_hrs (save s c).1 = c_hrs c.
Proof.
  intros Hle. destruct ((save s c).2) eqn:E.
  - destruct (save_cases s c) as [[H1 H2]|[[H1 H2]|[H1 (e & _ & H2)]]].
    + congruence.
    + rewrite H2. done.
    + exfalso. destruct Hle as [H|H]; [eapply hrs_lt_irrefl, hrs_lt_trans; eauto|].
      rewrite H in H1. eapply hrs_lt_irrefl; eauto.
  - rewrite (save_accepted _ _ E). done.
Qed.

Lemma not_answers op t : peer_answer t op = None -> own_answer t op = None -> ~ answers_of op t.
Proof. intros H1 H2 [[x Hx]|[x Hx]]; congruence. Qed.

(** a step of [t] itself *)
Lemma pc_inv_step l st t b pc op st' pc' o :
  pc_inv l st t b pc -> tstep C cfg st t b pc op st' pc' o ->
  pc_inv (l ++ [(op, o)]) (set_pc st' t b pc') t b pc'.
Proof.
  intros Hi Hs. pose proof (tstep_init_mono _ _ _ _ _ _ _ _ Hs) as Hm.
  pose proof (tstep_lss_mono _ _ _ _ _ _ _ _ Hs) as Hm2.
  destruct (decide (answers_of op t)) as [Ha|Hn].
  { destruct Hs; simpl in Hi; try (exfalso; destruct Ha as [[x Hx]|[x Hx]]; simpl in Hx; discriminate).
    - destruct Hi as (K1 & K2 & K3 & K4 & K5 & K6 & K7 & K8).
      split; [by apply elem_ops_snoc|]. split; [by apply started_snoc|]. split; [done|]. split; [done|].
      rewrite peer_answers_snoc, own_answers_snoc. simpl. rewrite app_nil_r, K6.
      rewrite decide_True by done. done.
    - destruct Hi as (K1 & K2 & K3 & K4 & K5 & K6 & K7 & K8).
      split; [by apply elem_ops_snoc|]. split; [by apply started_snoc|]. split; [done|]. split; [done|].
      rewrite peer_answers_snoc, own_answers_snoc. simpl. rewrite app_nil_r, K6.
      rewrite decide_True by done.
      assert (Hlen : (length (peer_answers t l) < Z.to_nat (vc_threshold cfg - 1))%nat).
      { rewrite K5, take_length in H2. lia. }
      split; [rewrite K5, !take_ge; [done|rewrite app_length; simpl; lia|lia]|]. split; [done|].
      rewrite map_app. simpl. split.
      { apply NoDup_app. split; [done|]. split; [|apply NoDup_singleton].
        intros x Hx [= ->]%elem_of_list_singleton. apply H0. apply K8. done. }
      intros x [Hx| ->%elem_of_list_singleton]%elem_of_app.
      + apply K8 in Hx as (Hx1 & Hx2 & Hx3). split; [by right|done].
      + split; [left|done].
    - destruct Hi as (K1 & K2 & K3 & K4 & K5 & K6 & K7 & K8).
      split; [by apply elem_ops_snoc|]. split; [by apply started_snoc|]. split; [done|]. split; [done|].
      rewrite peer_answers_snoc, own_answers_snoc. simpl. rewrite app_nil_r, K6.
      rewrite decide_True by done.
      assert (Hlen : (Z.to_nat (vc_threshold cfg - 1) <= length (peer_answers t l))%nat).
      { rewrite K5, take_length in H2. lia. }
      split; [rewrite take_app_le by done; done|]. split; [done|].
      rewrite map_app. simpl. split.
      { apply NoDup_app. split; [done|]. split; [|apply NoDup_singleton].
        intros x Hx [= ->]%elem_of_list_singleton. apply H0. apply K8. done. }
      intros x [Hx| ->%elem_of_list_singleton]%elem_of_app.
      + apply K8 in Hx as (Hx1 & Hx2 & Hx3). split; [by right|done].
      + split; [left|done]. }
  assert (Hf : pc_inv (l ++ [(op, o)]) (set_pc st' t b pc') t b pc).
  { eapply pc_inv_frame; eauto. }
  clear Hi. rename Hf into Hi.
  destruct Hs; simpl in Hi |- *; try done;
    try (exfalso; apply Hn; unfold answers_of; simpl; rewrite decide_True by done; eauto; fail).
  - (* TInitNew *)
    destruct Hi as [K1 [K2 K3]]. split; [done|]. split; [apply started_last|]. split.
    { pose proof (save_accepted (vs_init st) (new_consensus (b_hrs b))) as Ha. rewrite H in Ha. simpl in Ha.
      rewrite Ha by done. apply hrs_le_refl. }
    split; [lia|]. rewrite K2, K3. split; [by rewrite take_nil|]. split; [done|]. split; [constructor|].
    intros w Hw. by apply elem_of_nil in Hw.
  - (* TInitSame *) destruct Hi as [K1 K2]. split; [done|]. split; [done|]. right. done.
  - destruct Hi as [K1 K2]. split; [done|]. split; [done|]. left. done.
  - (* TPollAgain *)
    destruct Hi as (K1 & [K2 K3] & K4). split; [done|]. split; [apply started_last|]. split; [done|].
    split; [lia|]. rewrite K2, K3. split; [by rewrite take_nil|]. split; [done|]. split; [constructor|].
    intros w Hw. by apply elem_of_nil in Hw.
  - (* TPartsFail *)
    destruct Hi as (K1' & K2 & K3 & K4 & K5 & K6 & K7 & K8).
    do 7 (split; [done|]). intros x Hx. apply K8 in Hx as (? & ? & ?). split; [by right|done].
  - (* TGo *)
    destruct Hi as (K1 & K2 & K3 & K4 & K5 & K6 & K7 & K8).
    assert (Hgot : got ++ [(0%nat, own)] = participants cfg t (l ++ [(VGo t, OTau)])).
    { unfold participants. rewrite K6, <- K5. done. }
    split; [done|]. split; [done|]. split; [done|]. split; [done|]. split.
    { unfold full_group. rewrite <- Hgot. split; [done|]. split; [rewrite app_length; simpl; lia|].
      assert (Hsub : forall w, w ∈ map fst got -> w ∈ map fst (peer_answers t (l ++ [(VGo t, OTau)]))).
      { intros w Hw. rewrite K5 in Hw. apply elem_of_list_In, in_map_iff in Hw as (x & <- & Hx).
        apply elem_of_list_In, in_map. apply elem_of_list_In in Hx. apply elem_of_list_In.
        eapply elem_of_take_in; eauto. }
      rewrite map_app. simpl. split.
      { apply NoDup_app. split.
        - rewrite K5. rewrite <- firstn_map. apply NoDup_take. exact K7.
        - split; [|apply NoDup_singleton]. intros x Hx [= ->]%elem_of_list_singleton.
          apply Hsub, K8 in Hx as (? & ? & ?). done. }
      split; [apply elem_of_app; right; left|].
      intros w [Hw| ->%elem_of_list_singleton]%elem_of_app.
      - apply Hsub, K8 in Hw as (? & ? & ?). done.
      - simpl. eauto. }
    split; [intros w Hw; by apply elem_of_nil in Hw|]. split; [intros w Hw; by apply elem_of_nil in Hw|].
    split; [constructor|]. split; [apply replicate_length|]. exists []. split; [constructor|].
    split; [intros w Hw; by apply elem_of_nil in Hw|]. rewrite collect_replicate. done.
  - (* TAsk *)
    destruct Hi as (K3 & K4 & K5 & K6 & K7 & K8 & K9 & K10 & K11 & ok & K12 & K13 & K14).
    do 5 (split; [done|]). split.
    { intros x [-> |Hx]%elem_of_cons; [|auto]. split; [done|].
      exists (VAsk t w order), (b_key b), (parts_for cfg order pid). apply elem_of_app. right. left. }
    split; [intros x Hx; right; auto|]. do 2 (split; [done|]). exists ok. done.
  - (* TSigFail *)
    destruct Hi as (K3 & K4 & K5 & K6 & K7 & K8 & K9 & K10 & K11 & ok & K12 & K13 & K14).
    do 6 (split; [done|]). split.
    { intros x [-> |Hx]%elem_of_cons; [done|auto]. }
    split; [by constructor|]. split; [done|]. exists ok. split; [done|]. split; [|done].
    intros x Hx. apply K13 in Hx as [? ?]. split; [by right|done].
  - (* TSigOk *)
    destruct Hi as (K3 & K4 & K5 & K6 & K7 & K8 & K9 & K10 & K11 & ok & K12 & K13 & K14).
    apply idx_set_spec in H2 as [Hr ->].
    do 6 (split; [done|]). split.
    { intros x [-> |Hx]%elem_of_cons; [done|auto]. }
    split; [by constructor|]. split; [by rewrite insert_length|].
    pose proof (collect_insert 0 sigs (Z.to_nat (pid - 1)) sig) as Hlen.
    case_decide as Hne.
    + exists (w :: ok). split; [constructor; [|done]; intros Hw; apply K13 in Hw as [Hw _]; done|].
      split; [|cbn [length]; lia].
      intros x [-> |Hx]%elem_of_cons.
      * split; [left|]. exists sig, e. split; [apply elem_ops_last|done].
      * apply K13 in Hx as [? ?]. split; [by right|done].
    + exists ok. split; [done|]. split; [|lia].
      intros x Hx. apply K13 in Hx as [? ?]. split; [by right|done].
  - (* TFinish *)
    destruct Hi as (K3 & K4 & K5 & K6 & K7 & K8 & K9 & K10 & K11 & ok & K12 & K13 & K14).
    do 5 (split; [done|]). intros w Hw.
    assert (Hlen : Z.of_nat (length (map fst got)) = vc_threshold cfg).
    { rewrite map_length, K6. apply K7. }
    assert (Hsub : ok ⊆ map fst got).
    { intros x Hx. apply K8, K9, K13. done. }
    assert (HinOk : w ∈ ok).
    { destruct (decide (w ∈ ok)) as [|Hno]; [done|exfalso].
      assert (Hw2 : NoDup (w :: ok)) by (constructor; done).
      assert (Hs2 : (w :: ok) ⊆ map fst got).
      { intros x [-> |Hx]%elem_of_cons; [rewrite K6; done|auto]. }
      assert (Hl2 : (length (w :: ok) <= length (map fst got))%nat).
      { apply NoDup_ListNoDup in Hw2. apply (NoDup_incl_length Hw2). intros x Hx.
        apply elem_of_list_In, Hs2, elem_of_list_In. done. }
      simpl in Hl2. lia. }
    split; [apply K13; done|]. apply K8, K9, K13. done.
  - (* TSave *)
    destruct Hi as (K1 & K2 & K3 & K4 & K5 & K6). do 6 (split; [done|]).
    rewrite save_level; [apply hrs_le_refl|]. done.
Qed.

Definition threads_inv (l : list (vop * vobs)) (st : vstate) : Prop :=
  forall t b pc, vs_threads st !! t = Some (Thread b pc) -> pc_inv l st t b pc.

(** no action of a call happens before it is made *)
Definition quiet (l : list (vop * vobs)) (st : vstate) : Prop :=
  forall t, vs_threads st !! t = None -> no_answers t l.

Lemma threads_inv_run st0 l st :
  idle st0 -> vrun st0 l st -> threads_inv l st /\ quiet l st.
Proof.
  intros Hidle. revert l st. apply vrun_rev_ind.
  - split; [intros t b pc H; rewrite Hidle in H; by rewrite lookup_empty in H|intros t _; split; done].
  - intros l st op st1 o Hr [IH Hq] Hs. pose proof (vstep_mono _ _ _ _ Hs) as [Hm1 Hm2].
    apply vstep_case in Hs. destruct Hs as [t b r pc Hl Hrr|t b Hl|c a|t b pc op st' pc' o Hop Hl Hs].
    + split; intros t'; simpl.
      * intros b' pc'. destruct (decide (t' = t)) as [-> |Hne].
        -- rewrite lookup_insert. intros [= <- <-]. pose proof (Hq _ Hl) as Hna.
           destruct Hrr as [[-> ->]|[-> ->]]; simpl; [apply elem_ops_last|].
           split; [apply elem_ops_last|]. apply no_answers_snoc; [by apply not_answers|done].
        -- rewrite lookup_insert_ne by done. intros H. eapply pc_inv_frame; eauto.
           by apply not_answers.
      * intros H. apply no_answers_snoc; [by apply not_answers|]. apply Hq.
        destruct (decide (t' = t)) as [-> |Hne]; [done|]. by rewrite lookup_insert_ne in H.
    + split; intros t'; simpl.
      * intros b' pc'. destruct (decide (t' = t)) as [-> |Hne].
        -- rewrite lookup_insert. intros [= <- <-]. done.
        -- rewrite lookup_insert_ne by done. intros H. eapply pc_inv_frame; eauto. by apply not_answers.
      * intros H. apply no_answers_snoc; [by apply not_answers|]. apply Hq.
        destruct (decide (t' = t)) as [-> |Hne]; [done|]. by rewrite lookup_insert_ne in H.
    + split; intros t'; simpl.
      * intros b' pc' H. eapply pc_inv_frame; eauto. by apply not_answers.
      * intros H. apply no_answers_snoc; [by apply not_answers|]. by apply Hq.
    + pose proof (tstep_threads _ _ _ _ _ _ _ _ _ _ Hs) as Htt. split; intros t'; simpl.
      * rewrite Htt. intros b' pc2. destruct (decide (t' = t)) as [-> |Hne].
        -- rewrite lookup_insert. intros [= <- <-]. eapply pc_inv_step; eauto.
        -- rewrite lookup_insert_ne by done. intros H. eapply pc_inv_frame; eauto.
           intros Ha. apply answers_thread in Ha. congruence.
      * rewrite Htt. destruct (decide (t' = t)) as [-> |Hne]; [by rewrite lookup_insert|].
        rewrite lookup_insert_ne by done. intros H. apply no_answers_snoc; [|by apply Hq].
        intros Ha. apply answers_thread in Ha. congruence.
Qed.
End V.
