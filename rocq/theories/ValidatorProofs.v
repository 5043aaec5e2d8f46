(** Invariants of SignBlock over all interleavings. *)
From Verif Require Import GoBase Wire Canonical SignState Spec SignStateProofs Crypto LocalCosigner
  CosignerSpec Validator ValidatorSpec.
Local Open Scope Z_scope.

Section V.
Context (C : Crypto) (cfg : vconf).
Notation vstep := (vstep C cfg).
Notation vrun := (vrun C cfg).
Notation thread_step := (thread_step C cfg).

(** ** Runs *)
Lemma vrun_snoc st l st1 op st2 o :
  vrun st l st1 -> vstep st1 op = VOk st2 o -> vrun st (l ++ [(op, o)]) st2.
Proof.
  induction 1 as [|? ? ? ? ? ? H1 H2 IH]; intros Hx; simpl; econstructor; eauto. constructor.
Qed.
Lemma vrun_app st l1 st1 l2 st2 : vrun st l1 st1 -> vrun st1 l2 st2 -> vrun st (l1 ++ l2) st2.
Proof. induction 1; intros Hx; simpl; [done|]. econstructor; eauto. Qed.
Lemma vrun_app_inv st l1 l2 st2 : vrun st (l1 ++ l2) st2 -> exists st1, vrun st l1 st1 /\ vrun st1 l2 st2.
Proof.
  revert st. induction l1 as [|x l1 IH]; simpl; intros st H; [exists st; split; [constructor|done]|].
  inversion H as [|? op st1 o ? ? Hs Hr]; subst. apply IH in Hr as (s & H1 & H2).
  exists s. split; [econstructor; eauto|done].
Qed.
Lemma vrun_fun st l st1 st2 : vrun st l st1 -> vrun st l st2 -> st1 = st2.
Proof.
  intros H. revert st2. induction H as [|? ? ? ? ? ? Hs Hr IH]; intros s2 H2; inversion H2; subst; [done|].
  apply IH. congruence.
Qed.
Lemma vrun_rev_ind st0 (P : list (vop * vobs) -> vstate -> Prop) :
  P [] st0 ->
  (forall l st op st1 o, vrun st0 l st -> P l st -> vstep st op = VOk st1 o -> P (l ++ [(op, o)]) st1) ->
  forall l st, vrun st0 l st -> P l st.
Proof.
  intros H0 Hs l. induction l as [|[op o] l IH] using rev_ind; intros st Hr.
  - inversion Hr; subst. done.
  - apply vrun_app_inv in Hr as (s1 & H1 & H2). inversion H2 as [|? ? s2 ? ? ? Hst Hr2]; subst.
    inversion Hr2; subst. eapply Hs; eauto.
Qed.

(** ** The steps of a thread, as a relation *)
Inductive tstep (st : vstate) (t : nat) (b : block) : vpc -> vop -> vstate -> vpc -> vobs -> Prop :=
| TProxy ans : tstep st t b PcProxy (VProxy t ans) st PcDone (OReturn t b (proxy_result b ans) false)
| TInitNew i : save (vs_init st) (new_consensus (b_hrs b)) = (i, None) -> 1 <= vc_threshold cfg ->
    tstep st t b PcInit (VInit t) (VState (vs_lss st) i (vs_threads st)) (PcCollect None [] []) (OStart t b)
| TInitSame : b_hrs b = ss_hrs (vs_init st) ->
    tstep st t b PcInit (VInit t) st (PcPoll 0) OTau
| TInitLate : hrs_lt (b_hrs b) (ss_hrs (vs_init st)) ->
    tstep st t b PcInit (VInit t) st PcLate OTau
| TPollHit i sig : get_existing (vs_lss st) b = Val (Some sig) ->
    tstep st t b (PcPoll i) (VPoll t) st PcDone (OReturn t b (VR (Some sig) (b_ts b) None) false)
| TPollAgain i : get_existing (vs_lss st) b = Val None -> 1 <= vc_threshold cfg ->
    tstep st t b (PcPoll i) (VPoll t) st (PcCollect None [] []) (OStart t b)
| TPollWait i : get_existing (vs_lss st) b = Fail ExWaiting ->
    tstep st t b (PcPoll i) (VPoll t) st (PcPoll (S i)) OTau
| TPollFail i e : (forall s, get_existing (vs_lss st) b <> Val s) ->
    tstep st t b (PcPoll i) (VPoll t) st PcDone (OReturn t b (VR None (b_ts b) (Some e)) false)
| TLateHit sig : get_existing (vs_lss st) b = Val sig ->
    tstep st t b PcLate (VLate t) st PcDone (OReturn t b (VR sig (b_ts b) None) false)
| TLateFail e : (forall s, get_existing (vs_lss st) b <> Val s) ->
    tstep st t b PcLate (VLate t) st PcDone (OReturn t b (VR None (b_ts b) (Some e)) false)
| TOwn ps got ans :
    tstep st t b (PcCollect None got ans) (VOwn t (Some ps)) st (PcCollect (Some ps) got ans) OTau
| TOwnFail got ans :
    tstep st t b (PcCollect None got ans) (VOwn t None) st PcDone
      (OReturn t b (VR None (b_ts b) (Some EvOwnParts)) false)
| TPartsFail own got ans w : w <> 0%nat -> w ∉ ans -> is_Some (id_of cfg w) ->
    tstep st t b (PcCollect own got ans) (VParts t w None) st (PcCollect own got (w :: ans)) OTau
| TPartsAdd own got ans w ps : w <> 0%nat -> w ∉ ans -> is_Some (id_of cfg w) ->
    Z.of_nat (length got) < vc_threshold cfg - 1 ->
    tstep st t b (PcCollect own got ans) (VParts t w (Some ps)) st
      (PcCollect own (got ++ [(w, ps)]) (w :: ans)) OTau
| TPartsLate own got ans w ps : w <> 0%nat -> w ∉ ans -> is_Some (id_of cfg w) ->
    vc_threshold cfg - 1 <= Z.of_nat (length got) ->
    tstep st t b (PcCollect own got ans) (VParts t w (Some ps)) st (PcCollect own got (w :: ans)) OTau
| TGo own got ans : Z.of_nat (length got) = vc_threshold cfg - 1 ->
    tstep st t b (PcCollect (Some own) got ans) (VGo t) st
      (PcSign (got ++ [(0%nat, own)]) [] [] (replicate (Z.to_nat (v_total cfg)) []) None) OTau
| TTimeout1 own got ans :
    tstep st t b (PcCollect (Some own) got ans) (VTimeout t) st PcDone
      (OReturn t b (VR None (b_ts b) (Some EvPartsTimeout)) false)
| TAsk got asked ans sigs eph w order pid : id_of cfg w = Some pid ->
    w ∈ map fst got -> w ∉ asked -> Permutation order got ->
    tstep st t b (PcSign got asked ans sigs eph) (VAsk t w order) st
      (PcSign got (w :: asked) ans sigs eph) (OAsk t w (b_key b) (parts_for cfg order pid) (b_sb b))
| TSigFail got asked ans sigs eph w : w ∈ asked -> w ∉ ans ->
    tstep st t b (PcSign got asked ans sigs eph) (VSig t w None) st
      (PcSign got asked (w :: ans) sigs eph) OTau
| TSigOk got asked ans sigs eph w pid sig e sigs' : id_of cfg w = Some pid -> w ∈ asked -> w ∉ ans ->
    idx_set sigs (pid - 1) sig = Some sigs' ->
    tstep st t b (PcSign got asked ans sigs eph) (VSig t w (Some (sig, e))) st
      (PcSign got asked (w :: ans) sigs' (if pid =? vc_id cfg then Some e else eph)) OTau
| TTimeout2 got asked ans sigs eph :
    tstep st t b (PcSign got asked ans sigs eph) (VTimeout t) st PcDone
      (OReturn t b (VR None (b_ts b) (Some EvSignTimeout)) false)
| TFinish got asked ans sigs eph comb : Z.of_nat (length ans) = vc_threshold cfg ->
    vc_threshold cfg <= Z.of_nat (length (collect_sigs 0 sigs)) ->
    cr_combine C (v_total cfg) (map fst (collect_sigs 0 sigs)) (map snd (collect_sigs 0 sigs)) = Some comb ->
    cr_verify C (vc_pub cfg) (b_sb b) (slice_of eph ++ comb) = true ->
    tstep st t b (PcSign got asked ans sigs eph) (VFinish t) st (PcVerified (slice_of eph ++ comb)) OTau
| TFinishFail got asked ans sigs eph e :
    tstep st t b (PcSign got asked ans sigs eph) (VFinish t) st PcDone
      (OReturn t b (VR None (b_ts b) (Some e)) false)
| TSave sig : hrs_le (ss_hrs (vs_lss st)) (b_hrs b) ->
    tstep st t b (PcVerified sig) (VSave t)
      (VState (save (vs_lss st) (SSC (b_hrs b) (Some sig) (Some (b_sb b)))).1 (vs_init st) (vs_threads st))
      (PcSaved sig) OTau
| TSaveFail sig e : hrs_lt (b_hrs b) (ss_hrs (vs_lss st)) ->
    tstep st t b (PcVerified sig) (VSave t) st PcDone
      (OReturn t b (VR None (b_ts b) (Some (EvSave e))) false)
| TEmit sig ok :
    tstep st t b (PcSaved sig) (VEmit t ok) st PcDone
      (OReturn t b (VR (Some sig) (b_ts b) None) true).

Lemma save_cases s c :
  (hrs_lt (ss_hrs s) (c_hrs c) /\ (save s c).2 = None) \/
  (c_hrs c = ss_hrs s /\ save s c = (s, Some SameHRS)) \/
  (hrs_lt (c_hrs c) (ss_hrs s) /\ exists e, e <> SameHRS /\ save s c = (s, Some e)).
Proof.
  unfold save. pose proof (error_spec s (c_hrs c)) as H.
  destruct (error_if_less_or_equal s (c_hrs c)) as [e|]; [|left; done].
  destruct e; [right; right|right; right|right; right|right; left; done].
  - split; [left; lia|eexists; split; [|done]; done].
  - split; [right; lia|eexists; split; [|done]; done].
  - split; [right; lia|eexists; split; [|done]; done].
Qed.

Lemma set_pc_self st t b pc : set_pc st t b pc = VState (vs_lss st) (vs_init st) (<[t := Thread b pc]> (vs_threads st)).
Proof. done. Qed.

Lemma thread_step_tstep st t b pc op st1 o :
  op_thread op = Some t -> thread_step st t b pc op = VOk st1 o ->
  exists st' pc', tstep st t b pc op st' pc' o /\ st1 = set_pc st' t b pc'.
Proof.
  intros Hop H. unfold Validator.thread_step in H.
  destruct op; simpl in Hop; try discriminate; injection Hop as ->; destruct pc; try discriminate.
  - injection H as <- <-. eexists _, _. split; [constructor|done].
  - unfold do_init in H.
    destruct (save_cases (vs_init st) (new_consensus (b_hrs b))) as [[H1 H2]|[[H1 H2]|[H1 (e & He & H2)]]].
    + destruct (save (vs_init st) (new_consensus (b_hrs b))) as [i err] eqn:Es. simpl in H2. subst err.
      unfold start in H. destruct (Z.ltb_spec (vc_threshold cfg - 1) 0); [discriminate|].
      injection H as <- <-. eexists _, _. split; [apply TInitNew; [exact Es|lia]|done].
    + rewrite H2 in H. injection H as <- <-. eexists _, _. split; [by apply TInitSame|].
      destruct st; done.
    + rewrite H2 in H. exists st, PcLate. destruct e; try done; injection H as <- <-;
      (split; [by apply TInitLate|]; destruct st; done).
  - unfold do_poll in H. destruct (get_existing (vs_lss st) b) as [[sig|]|[e| |]|] eqn:E.
    + injection H as <- <-. eexists _, _. split; [by apply TPollHit|done].
    + unfold start in H. destruct (Z.ltb_spec (vc_threshold cfg - 1) 0); [discriminate|].
      injection H as <- <-. eexists _, _. split; [apply TPollAgain; [done|lia]|done].
    + injection H as <- <-. eexists _, _. split; [apply TPollFail; congruence|done].
    + injection H as <- <-. eexists _, _. split; [apply TPollFail; congruence|done].
    + case_bool_decide; injection H as <- <-.
      * eexists _, _. split; [apply TPollFail; congruence|done].
      * eexists _, _. split; [by apply TPollWait|done].
    + discriminate.
  - unfold do_late in H. destruct (get_existing (vs_lss st) b) as [sig|e|] eqn:E;
      injection H as <- <-; eexists _, _; (split; [|done]).
    + by apply TLateHit.
    + apply TLateFail; congruence.
    + apply TLateFail; congruence.
  - destruct own; [discriminate|]. destruct r; injection H as <- <-; eexists _, _; (split; [constructor|done]).
  - unfold do_parts in H. destruct (id_of cfg w) eqn:Ei; [|discriminate].
    case_bool_decide as Hd; [discriminate|]. apply Decidable.not_or in Hd as [H1 H2].
    assert (is_Some (id_of cfg w)) by (rewrite Ei; eauto).
    destruct r as [ps|]; [|injection H as <- <-; eexists _, _; split; [by constructor|done]].
    destruct (Z.ltb_spec (Z.of_nat (length got)) (vc_threshold cfg - 1)); injection H as <- <-;
      eexists _, _; (split; [|done]).
    + by apply TPartsAdd.
    + by apply TPartsLate.
  - destruct own; [|discriminate]. unfold do_go in H. destruct (Z.eqb_spec (Z.of_nat (length got)) (vc_threshold cfg - 1)); [|discriminate].
    injection H as <- <-. eexists _, _. split; [by constructor|done].
  - unfold do_ask in H. destruct (id_of cfg w) eqn:Ei; [|discriminate].
    case_bool_decide as Hd; [|discriminate]. destruct Hd as (H1 & H2 & H3).
    injection H as <- <-. eexists _, _. split; [by econstructor|done].
  - unfold do_sig in H. destruct (id_of cfg w) eqn:Ei; [|discriminate].
    case_bool_decide as Hd; [|discriminate]. destruct Hd as (H1 & H2).
    destruct r as [[sig e]|]; [|injection H as <- <-; eexists _, _; split; [by constructor|done]].
    destruct (idx_set sigs (z - 1) sig) eqn:E; [|discriminate].
    injection H as <- <-. eexists _, _. split; [eapply TSigOk; eauto|done].
  - destruct own; [|discriminate]. injection H as <- <-. eexists _, _. split; [constructor|done].
  - injection H as <- <-. eexists _, _. split; [constructor|done].
  - unfold do_finish in H. destruct (Z.eqb_spec (Z.of_nat (length ans)) (vc_threshold cfg)); [|discriminate].
    destruct (Z.ltb_spec (Z.of_nat (length (collect_sigs 0 sigs))) (vc_threshold cfg)).
    { injection H as <- <-. eexists _, _. split; [apply TFinishFail|done]. }
    destruct (cr_combine _ _ _ _) eqn:Ec; [|discriminate].
    destruct (cr_verify _ _ _ _) eqn:Ev; injection H as <- <-; eexists _, _; (split; [|done]).
    + eapply TFinish; eauto.
    + apply TFinishFail.
  - unfold do_save in H.
    destruct (save_cases (vs_lss st) (SSC (b_hrs b) (Some sig) (Some (b_sb b)))) as [[H1 H2]|[[H1 H2]|[H1 (e & He & H2)]]].
    + pose proof (TSave st t b sig) as T. 
      destruct (save (vs_lss st) _) as [i err] eqn:Es. simpl in H2. subst err.
      injection H as <- <-. eexists _, _. split; [apply T; left; exact H1|done].
    + pose proof (TSave st t b sig) as T. rewrite H2 in H, T. injection H as <- <-.
      eexists _, _. split; [apply T; right; done|done].
    + rewrite H2 in H. exists st, PcDone. destruct e; try done; injection H as <- <-;
      (split; [by apply TSaveFail|]; destruct st; done).
  - injection H as <- <-. eexists _, _. split; [constructor|done].
Qed.

(** all steps *)
Inductive vcase (st : vstate) : vop -> vstate -> vobs -> Prop :=
| VCcall t b r pc : vs_threads st !! t = None ->
    (r = RFollower /\ pc = PcProxy \/ r = RLeader /\ pc = PcInit) ->
    vcase st (VCall t b r) (set_pc st t b pc) OTau
| VCnone t b : vs_threads st !! t = None ->
    vcase st (VCall t b RNone) (set_pc st t b PcDone)
      (OReturn t b (VR None (b_ts b) (Some EvNoRaft)) false)
| VClss c a : vcase st (VLss c) (VState (save (vs_lss st) c).1 (vs_init st) (vs_threads st)) (OLss c a)
| VCthread t b pc op st' pc' o : op_thread op = Some t -> vs_threads st !! t = Some (Thread b pc) ->
    tstep st t b pc op st' pc' o -> vcase st op (set_pc st' t b pc') o.

Lemma vstep_case st op st1 o : vstep st op = VOk st1 o -> vcase st op st1 o.
Proof.
  intros H. destruct (op_thread op) as [t|] eqn:Et.
  - assert (H' : match vs_threads st !! t with None => VNo
                 | Some (Thread b pc) => thread_step st t b pc op end = VOk st1 o).
    { destruct op; simpl in Et; try discriminate; injection Et as ->; exact H. }
    destruct (vs_threads st !! t) as [[b pc]|] eqn:El; [|discriminate].
    apply thread_step_tstep in H' as (st' & pc' & H1 & ->); [|done]. econstructor; eauto.
  - destruct op; try discriminate; simpl in H.
    + destruct (vs_threads st !! t) eqn:El; [discriminate|].
      destruct r; injection H as <- <-; constructor; eauto.
    + destruct (save (vs_lss st) c) as [l e] eqn:Es. injection H as <- <-.
      replace l with (save (vs_lss st) c).1 by (rewrite Es; done). constructor.
Qed.

(** a step changes the thread of the action only *)
Lemma tstep_threads st t b pc op st' pc' o :
  tstep st t b pc op st' pc' o -> vs_threads st' = vs_threads st.
Proof. destruct 1; done. Qed.
Lemma tstep_init st t b pc op st' pc' o :
  tstep st t b pc op st' pc' o ->
  vs_init st' = vs_init st \/
  (op = VInit t /\ pc = PcInit /\ hrs_lt (ss_hrs (vs_init st)) (b_hrs b) /\ ss_hrs (vs_init st') = b_hrs b /\ o = OStart t b).
Proof.
  intros Ht. destruct Ht as [| i H H0 | | | | | | | | | | | | | | | | | | | | | | | |]; try (left; done).
  right. split; [done|]. split; [done|].
  pose proof (save_ok_iff (vs_init st) (new_consensus (b_hrs b))) as Hok. rewrite H in Hok. simpl in Hok.
  pose proof (save_accepted (vs_init st) (new_consensus (b_hrs b))) as Ha. rewrite H in Ha. simpl in Ha.
  split; [apply Hok; done|]. simpl. rewrite Ha by done. done.
Qed.
Lemma tstep_lss st t b pc op st' pc' o :
  tstep st t b pc op st' pc' o ->
  vs_lss st' = vs_lss st \/
  exists sig, op = VSave t /\ pc = PcVerified sig /\ pc' = PcSaved sig /\ hrs_le (ss_hrs (vs_lss st)) (b_hrs b) /\
    vs_lss st' = (save (vs_lss st) (SSC (b_hrs b) (Some sig) (Some (b_sb b)))).1.
Proof. destruct 1; try (left; done). right. eexists. eauto 10. Qed.
End V.
