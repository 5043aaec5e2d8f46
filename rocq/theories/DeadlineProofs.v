(** C100: what a follower answers. *)
From Verif Require Import GoBase Wire Canonical CanonicalProofs SignState Spec CanonicalApi Crypto LocalCosigner CosignerSpec
  Cluster Toy CosignerWitness Utf8 Utf8Proofs Validator ValidatorSpec ValidatorProofs ValidatorWitness Rpc RpcSpec RpcProofs
  TimedSpec TimedProofs TimedWitness Deadline DeadlineSpec.
Local Open Scope Z_scope.
Local Notation sz l := (Z.of_nat (length l) < 2 ^ 63).

Section Proofs.
Context (C : Crypto) (txt : verr -> bytes) (expired chain : bytes).

(** the block and the answer of a call of thread [t] *)
Lemma proxy_step cfg st l st' t ans t' b r f : vrun C cfg st l st' ->
  (VProxy t ans, OReturn t' b r f) ∈ l -> t' = t /\ r = proxy_result b ans /\ f = false.
Proof.
  intros Hr. induction Hr as [|st op st1 o l st2 Hs Hr IH]; intros Hin; [by apply elem_of_nil in Hin|].
  apply elem_of_cons in Hin as [E|Hin]; [|by apply IH].
  injection E as <- <-. unfold vstep in Hs. cbn [op_thread] in Hs.
  destruct (vs_threads st !! t) as [[b0 pc]|]; [|discriminate Hs].
  unfold thread_step in Hs. destruct pc; try discriminate Hs.
  unfold ret in Hs. injection Hs as <- <- <- <-. done.
Qed.

Lemma untimed_elem l tau op o : (tau, op, o) ∈ l -> (op, o) ∈ untimed l.
Proof. intros H. apply elem_of_list_fmap. by exists (tau, op, o). Qed.

Lemma answer_cases cfg st lF st' lL tF tL b dial reply tau ans rF f :
  vrun C cfg st (untimed lF) st' -> handed_on txt expired chain lF lL tF tL b dial reply ->
  (tau, VProxy tF ans, OReturn tF b rF f) ∈ lF ->
  f = false /\
  (forall back r, reply = Some (back, r) -> back < dial + 4000 ->
     back <= tau /\
     (r_err r = None -> r_sig r <> Some [] -> sz (block_response (r_sig r)) -> rF = VR (r_sig r) (b_ts b) None) /\
     (forall e, r_err r = Some e -> rF = VR None (b_ts b) (Some (EvProxy (OtherErr (txt e)))))) /\
  ((forall back r, reply = Some (back, r) -> dial + 4000 <= back) ->
     dial + 4000 <= tau /\ rF = VR None (b_ts b) (Some (EvProxy (OtherErr expired)))).
Proof.
  intros Hr (_ & _ & Hp) Hin. destruct (Hp _ _ _ Hin) as [-> Hdue].
  destruct (proxy_step _ _ _ _ _ _ _ _ _ _ Hr (untimed_elem _ _ _ _ Hin)) as (_ & -> & ->). split; [done|].
  unfold leader_sign_block, rpc_timeout in *. split.
  - intros back r -> Hb%Z.ltb_lt. rewrite Hb in Hdue |- *. cbn [fst snd] in *. split; [exact Hdue|]. unfold handler_answer. split.
    + intros -> Hn Hs. by rewrite block_response_received.
    + intros e ->. reflexivity.
  - intros Hl. destruct reply as [[back r]|]; [|split; [exact Hdue|reflexivity]].
    pose proof (Hl _ _ eq_refl) as Hb%Z.ltb_ge. rewrite Hb in Hdue |- *. split; [exact Hdue|reflexivity].
Qed.

(** a repeated request through a follower *)
Lemma repeat_followed cfgL l0 lL stL t1 b1 tau1 taus op1 r1 t2 tau2 o2 cfgF st lF st' tF b dial back r2 tau ans r f :
  cache_sound l0 -> vrun C cfgL (new_validator l0) (untimed lL) stL -> timed lL ->
  no_event (b_hrs b1) (untimed lL) -> near (h_height (b_hrs b1)) (untimed lL) ->
  0 <= h_height (b_hrs b1) -> h_height (b_hrs b1) + 3 < 2 ^ 63 ->
  (tau1, VInit t1, OStart t1 b1) ∈ lL -> (taus, op1, OReturn t1 b1 r1 true) ∈ lL ->
  r_sig r1 <> Some [] -> sz (block_response (r_sig r1)) ->
  vrun C cfgF st (untimed lF) st' -> handed_on txt expired chain lF lL tF t2 b dial (Some (back, r2)) ->
  block_ok b -> (forall req, block_request chain b = Some req -> sz req) -> same_request b b1 ->
  (tau2, VInit t2, o2) ∈ lL -> taus < tau2 + 990 ->
  (forall x op b' r' f', (x, op, OReturn t2 b' r' f') ∈ lL -> op = VPoll t2) ->
  back < dial + 4000 -> (tau, VProxy tF ans, OReturn tF b r f) ∈ lF ->
  exists sig, r1 = VR (Some sig) (b_ts b1) None /\ r = VR (Some sig) (b_ts b) None.
Proof.
  intros Hcs HrL Ht Hne Hnear H0 H63 Hin1 HinF Hn Hsz HrF Hho Hb Hreq Hsame Hin2 Htime Hpoll Hback Hin.
  destruct (answer_cases _ _ _ _ _ _ _ _ _ _ _ _ _ _ HrF Hho Hin) as (_ & Hok & _).
  destruct (Hok _ _ eq_refl Hback) as (_ & Hsig & _).
  destruct Hho as (_ & (tauc & req & b' & Eq & Erec & _ & _ & Hrep) & _).
  assert (b' = b) as ->.
  { assert (Hu : utf8_text chain).
    { apply valid_utf8_spec. unfold block_request in Eq. by destruct (valid_utf8 chain). }
    destruct (block_request_received chain b Hb Hu) as (req' & Eq' & Hrec).
    rewrite Eq in Eq'. injection Eq' as <-. rewrite Hrec in Erec by (by apply Hreq). by injection Erec. }
  destruct (Hrep _ _ eq_refl) as (taur & op & f2 & Hret & _).
  assert (op = VPoll t2) as -> by (by eapply Hpoll).
  destruct (repeat_answered C cfgL l0 lL stL t1 b1 tau1 taus op1 r1 t2 b tau2 o2 taur r2 f2) as (sig & E1 & E2); try done.
  exists sig. split; [done|]. subst r1 r2. by apply Hsig.
Qed.
End Proofs.

(** ** Witnesses *)

Definition w_txt (e : verr) : bytes := [].
Definition w_expired : bytes := [x64].
Definition vcfgF : vconf := VConf 2 (toy_enc 1) 2 [1; 3].
Definition f_log (ops : list vop) : list (vop * vobs) :=
  match vrun_ops toy vcfgF v0 ops with Some (_, l) => l | None => [] end.
Definition f_after (ops : list vop) : vstate :=
  match vrun_ops toy vcfgF v0 ops with Some (s, _) => s | None => v0 end.
Lemma f_run ops : vrun_ops toy vcfgF v0 ops <> None -> vrun toy vcfgF v0 (f_log ops) (f_after ops).
Proof.
  intros H. unfold f_log, f_after. destruct (vrun_ops toy vcfgF v0 ops) as [[s l]|] eqn:E; [|done].
  eapply vrun_ops_vrun, E.
Qed.

(** the leader: the parts are there after 3 s, the shares 3 s later *)
Definition long_ops : list vop := take 2 e2e ++ take 1 (drop 4 e2e) ++ take 2 (drop 2 e2e) ++ drop 5 e2e.
Definition long_times : list Z := [20; 20; 20; 2000; 3020; 3020; 3020; 3020; 6000; 6010; 6010; 6010; 6010].
Lemma long_summary : summary long_times long_ops [0; 2; 5; 12]%nat = Some (true, true,
  [Some (20, VCall 7 (eblock 11 x0a 1) RLeader, OTau);
   Some (20, VOwn 7 (Some (parts1 11 x0a 1)), OTau);
   Some (3020, VGo 7, OTau);
   Some (6010, VEmit 7 true, OReturn 7 (eblock 11 x0a 1) (VR (Some e2e_sig) (Time 1600000000 1) None) true)]).
Proof. vm_compute. reflexivity. Qed.

Definition late_F : list tevent :=
  [(0, VCall 1 (eblock 11 x0a 1) RFollower, OTau);
   (4010, VProxy 1 (inl (OtherErr w_expired)),
    OReturn 1 (eblock 11 x0a 1) (VR None (Time 1600000000 1) (Some (EvProxy (OtherErr w_expired)))) false)].
Lemma late_F_run : vrun toy vcfgF v0 (untimed late_F) (f_after (map fst (untimed late_F))).
Proof.
  pose proof (f_run (map fst (untimed late_F))) as H.
  assert (E : f_log (map fst (untimed late_F)) = untimed late_F) by (vm_compute; reflexivity).
  rewrite E in H. apply H. vm_compute. discriminate.
Qed.
Definition w_chain : bytes := [x63].
Lemma w_request : exists req, block_request w_chain (eblock 11 x0a 1) = Some req /\
  block_received req = Some (w_chain, eblock 11 x0a 1).
Proof.
  destruct (block_request w_chain (eblock 11 x0a 1)) as [req|] eqn:E; [|vm_compute in E; discriminate E].
  exists req. split; [done|]. vm_compute in E. injection E as <-. vm_compute. reflexivity.
Qed.

Lemma late_answer :
  exists lF lL stF stL tF tL b dial sig taur op tau,
    vrun toy vcfgF v0 (untimed lF) stF /\ vrun toy vcfg v0 (untimed lL) stL /\ timed lF /\ timed lL /\
    (taur, op, OReturn tL b (VR (Some sig) (b_ts b) None) true) ∈ lL /\ within_waits lL tL taur /\
    handed_on w_txt w_expired w_chain lF lL tF tL b dial (Some (taur, VR (Some sig) (b_ts b) None)) /\
    (tau, VProxy tF (inl (OtherErr w_expired)),
     OReturn tF b (VR None (b_ts b) (Some (EvProxy (OtherErr w_expired)))) false) ∈ lF.
Proof.
  destruct (summary_ok _ _ _ _ long_summary) as (Hr & Ht & _ & Hl).
  set (l := clock long_times (v_log v0 long_ops)) in *. clearbody l.
  cbn [map] in Hl. injection Hl as L0 L2 L5 L12. apply elem_of_list_lookup_2 in L0, L2, L5, L12.
  destruct w_request as (req & Eq & Erec).
  exists late_F, l, (f_after (map fst (untimed late_F))), (v_after v0 long_ops), 1%nat, 7%nat, (eblock 11 x0a 1), 10, e2e_sig,
    6010, (VEmit 7 true), 4010.
  split; [exact late_F_run|]. split; [exact Hr|]. split; [apply timedb_ok; vm_compute; reflexivity|]. split; [exact Ht|].
  split; [exact L12|]. split.
  { exists 20, 3020. do 3 eexists. split; [exact L2|]. split; [exact L5|]. lia. }
  split; [|unfold late_F; set_solver].
  split; [exists 0; split; [unfold late_F; set_solver|lia]|]. split.
  - exists 20, req, (eblock 11 x0a 1). split; [exact Eq|]. split; [exact Erec|]. split; [exact L0|]. split; [lia|].
    intros back r [= <- <-]. exists 6010, (VEmit 7 true), true. split; [exact L12|lia].
  - intros tau ans o Hin. unfold late_F in Hin. apply elem_of_cons in Hin as [Hin|Hin]; [discriminate Hin|].
    apply elem_of_list_singleton in Hin. injection Hin as -> -> _. split; [reflexivity|vm_compute; discriminate].
Qed.

(** the request is repeated through the follower while the leader signs *)
Definition quick_F : list tevent :=
  [(0, VCall 1 (eblock 11 x0a 1) RFollower, OTau);
   (305, VProxy 1 (inr (Some e2e_sig)), OReturn 1 (eblock 11 x0a 1) (VR (Some e2e_sig) (Time 1600000000 1) None) false)].
Lemma quick_F_run : vrun toy vcfgF v0 (untimed quick_F) (f_after (map fst (untimed quick_F))).
Proof.
  pose proof (f_run (map fst (untimed quick_F))) as H.
  assert (E : f_log (map fst (untimed quick_F)) = untimed quick_F) by (vm_compute; reflexivity).
  rewrite E in H. apply H. vm_compute. discriminate.
Qed.
Definition poll_returns (t : nat) (x : tevent) : bool :=
  match x with
  | (_, op, OReturn t' _ _ _) => if (t' =? t)%nat then match op with VPoll u => (u =? t)%nat | _ => false end else true
  | _ => true
  end.
Lemma quick_polls : forallb (poll_returns 8) (clock quick_times (v_log v0 quick_ops)) = true.
Proof. vm_compute. reflexivity. Qed.
Lemma quick_call : clock quick_times (v_log v0 quick_ops) !! 2%nat = Some (0, VCall 8 (eblock 11 x0a 1) RLeader, OTau).
Proof. vm_compute. reflexivity. Qed.
Lemma e2e_block_ok : block_ok (eblock 11 x0a 1).
Proof. repeat split; vm_compute; congruence. Qed.

Lemma quick_followed :
  exists lL stL t1 tau1 taus op1 t2 tau2 lF st' tF b dial back tau sig,
    cache_sound lss10 /\ vrun toy vcfg (new_validator lss10) (untimed lL) stL /\ timed lL /\
    no_event (b_hrs b) (untimed lL) /\ near (h_height (b_hrs b)) (untimed lL) /\
    0 <= h_height (b_hrs b) /\ h_height (b_hrs b) + 3 < 2 ^ 63 /\
    (tau1, VInit t1, OStart t1 b) ∈ lL /\ (taus, op1, OReturn t1 b (VR (Some sig) (b_ts b) None) true) ∈ lL /\
    sig <> [] /\ sz (block_response (Some sig)) /\ vrun toy vcfgF v0 (untimed lF) st' /\
    handed_on w_txt w_expired w_chain lF lL tF t2 b dial (Some (back, VR (Some sig) (b_ts b) None)) /\
    block_ok b /\ (forall req, block_request w_chain b = Some req -> sz req) /\ same_request b b /\
    (tau2, VInit t2, OTau) ∈ lL /\ taus < tau2 + 990 /\
    (forall x op b' r' f', (x, op, OReturn t2 b' r' f') ∈ lL -> op = VPoll t2) /\ back < dial + 4000 /\
    (tau, VProxy tF (inr (Some sig)), OReturn tF b (VR (Some sig) (b_ts b) None) false) ∈ lF.
Proof.
  destruct (summary_ok _ _ _ _ quick_summary) as (Hr & Ht & Hn & Hl).
  pose proof quick_polls as Hp. pose proof quick_call as L2.
  set (l := clock quick_times (v_log v0 quick_ops)) in *. clearbody l.
  destruct (Hn (HRS 11 0 3)) as [Hnear Hev]. cbn [map] in Hl. injection Hl as L1 L3 L44 L45.
  apply elem_of_list_lookup_2 in L1, L2, L3, L44, L45. destruct w_request as (req & Eq & Erec).
  exists l, (v_after v0 quick_ops), 7%nat, 0, 297, (VEmit 7 true), 8%nat, 0, quick_F, (f_after (map fst (untimed quick_F))),
    1%nat, (eblock 11 x0a 1), 0, 302, 305, e2e_sig.
  split; [exact lss10_sound|].
  split; [exact Hr|]. split; [exact Ht|]. split; [exact Hev|]. split; [exact Hnear|].
  split; [vm_compute; discriminate|]. split; [vm_compute; reflexivity|].
  split; [exact L1|]. split; [exact L44|].
  split; [vm_compute; discriminate|]. split; [vm_compute; reflexivity|]. split; [exact quick_F_run|]. split.
  { split; [exists 0; split; [unfold quick_F; set_solver|lia]|]. split.
    - exists 0, req, (eblock 11 x0a 1). split; [exact Eq|]. split; [exact Erec|]. split; [exact L2|]. split; [lia|].
      intros back r [= <- <-]. exists 300, (VPoll 8), false. split; [exact L45|lia].
    - intros tau ans o Hin. unfold quick_F in Hin. apply elem_of_cons in Hin as [Hin|Hin]; [discriminate Hin|].
      apply elem_of_list_singleton in Hin. injection Hin as -> -> _. split; vm_compute; congruence. }
  split; [exact e2e_block_ok|]. split.
  { intros req' E. vm_compute in E. injection E as <-. vm_compute. reflexivity. }
  split; [split; [reflexivity|left; reflexivity]|]. split; [exact L3|]. split; [lia|]. split.
  { intros x op b' r' f' Hin. rewrite forallb_forall in Hp. apply elem_of_list_In, Hp in Hin. cbn in Hin.
    destruct op; try discriminate Hin. apply Nat.eqb_eq in Hin. by subst. }
  split; [lia|unfold quick_F; set_solver].
Qed.
