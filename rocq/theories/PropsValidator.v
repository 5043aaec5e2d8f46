(** C25-C33: the threshold validator (signer/threshold_validator.go).

    A run is any interleaving of SignBlock calls, answers of cosigners and of the raft leader
    (arbitrary), timeouts and raft events. *)
From Verif Require Import GoBase Canonical SignState Spec SignStateProofs CanonicalApi Crypto LocalCosigner
  CosignerSpec Cluster Toy CosignerWitness DiskWitness Validator ValidatorSpec ValidatorProofs ValidatorProofs2
  ValidatorProofs3 ValidatorProofs4 ValidatorWitness.
Local Open Scope Z_scope.

(** C25: a newly assembled signature verifies, under the validator key, for exactly the bytes of a
    request made to this leader *)
Theorem C25_fresh_signature_verified : forall C cfg st0 l st t b r,
  idle st0 -> vrun C cfg st0 l st -> returned l t b r true ->
  exists sig, r = VR (Some sig) (b_ts b) None /\ cr_verify C (vc_pub cfg) (b_sb b) sig = true /\
    VCall t b RLeader ∈ ops_of l.
Proof. exact fresh_verified. Qed.
(** any other signature handed out is the raft leader's answer or a recorded one *)
Theorem C25_other_signatures_recorded : forall C cfg st0 l st op t b sig ts,
  idle st0 -> vrun C cfg st0 l st -> (op, OReturn t b (VR (Some sig) ts None) false) ∈ l ->
  (exists ans, op = VProxy t ans) \/
  (VCall t b RLeader ∈ ops_of l /\ exists l1 l2 st1 c,
     l = l1 ++ (op, OReturn t b (VR (Some sig) ts None) false) :: l2 /\ vrun C cfg st0 l1 st1 /\
     ss_cache (vs_lss st1) !! b_hrs b = Some c /\ c_sig c = Some sig /\
     (b_sb b = slice_of (c_sb c) \/ h_step (b_hrs b) = stepPropose)).
Proof. exact other_from_cache. Qed.

(** C26 full statement: every call that returns without error returns a signature valid for the
    returned message. False twice: *)
Theorem C26_success_without_signature_refuted : exists l st t b,
  vrun toy vcfg v0 l st /\ returned l t b (VR None (b_ts b) None) false.
Proof.
  exists (v_log v0 nil_ops), (v_after v0 nil_ops), 9%nat, (eblock 11 x0a 2).
  destruct nil_success as [H1 H2]. split; [exact H1|exact H2].
Qed.
Theorem C26_proposal_signature_refuted : exists l st t p b sig,
  vrun toy vcfg v0 l st /\ proposal_block irishub p = Val b /\
  (forall c, VLss c ∈ ops_of l -> valid_record toy (vc_pub vcfg) c) /\
  returned l t b (VR (Some sig) (b_ts b) None) false /\
  cr_verify toy (vc_pub vcfg) (b_sb b) sig = false.
Proof.
  destruct other_prop_success as (H1 & H2 & H3 & H4).
  exists (v_log v0 other_prop_ops), (v_after v0 other_prop_ops), 8%nat, (wprop x0b), (pblock x0b),
    (toy_sig (psb x0a)).
  split; [exact H1|]. split; [apply pblock_is; vm_compute; discriminate|]. split; [|split; [exact H2|exact H3]].
  intros c Hc%event_in.
  assert (E : events (v_log v0 other_prop_ops) = [prop_record]) by (vm_compute; reflexivity).
  rewrite E in Hc. apply elem_of_list_singleton in Hc. rewrite Hc. exact prop_record_valid.
Qed.
(** what holds for the leader when its own recorded signatures and those received are valid: only
    the two exceptions above *)
Theorem C26_success_means_partial : forall C cfg st0 l st op t b so ts f,
  idle st0 -> vrun C cfg st0 l st -> (op, OReturn t b (VR so ts None) f) ∈ l -> (forall ans, op <> VProxy t ans) ->
  records (valid_record C (vc_pub cfg)) (vs_lss st0) ->
  (forall c, VLss c ∈ ops_of l -> valid_record C (vc_pub cfg) c) ->
  ts = b_ts b /\
  ((exists sig m, so = Some sig /\ cr_verify C (vc_pub cfg) m sig = true /\
      (m = b_sb b \/ h_step (b_hrs b) = stepPropose)) \/
   (so = None /\ op = VLate t /\ h_step (b_hrs b) <> stepPropose)).
Proof. exact success_means. Qed.
(** at the level of SignVote: a vote handed back with a signature carries a valid one for itself *)
Theorem C26_signed_vote_partial : forall C cfg st0 l st op t chain v b r f v' sig e,
  idle st0 -> vrun C cfg st0 l st -> (op, OReturn t b r f) ∈ l -> (forall ans, op <> VProxy t ans) ->
  records (valid_record C (vc_pub cfg)) (vs_lss st0) ->
  (forall c, VLss c ∈ ops_of l -> valid_record C (vc_pub cfg) c) ->
  vote_block chain v = Val b -> finish_vote v r = (v', Some sig, e) ->
  v' = v /\ exists sb, vote_sign_bytes chain v' = Val sb /\ (e = None -> cr_verify C (vc_pub cfg) sb sig = true).
Proof.
  intros C cfg st0 l st op t chain v b r f v' sig e Hi Hr Hin Hnp Hrec Hev Hb Hf.
  unfold finish_vote in Hf. injection Hf as <- Hs <-.
  unfold vote_block in Hb. destruct (vote_type_to_step (v_type v)) as [s|] eqn:Es; [|discriminate].
  destruct (vote_sign_bytes chain v) as [sb| |] eqn:Eb; [|discriminate..]. injection Hb as <-.
  assert (Hts : r_stamp r = v_ts v).
  { destruct (return_case _ _ _ _ _ _ _ _ _ _ Hi Hr Hin) as (l1 & st1 & st2 & l2 & _ & _ & _ & _ & Hc).
    destruct Hc as [(_ & -> & _)|(pc & st' & _ & _ & Ht & _)]; [done|]. inversion Ht; subst; try done.
    unfold proxy_result. destruct ans as [[d|x]|sg]; simpl; try done. destruct (_ && _); done. }
  rewrite Hts. split; [by destruct v|]. replace (Vote _ _ _ _ _) with v by (by destruct v).
  exists sb. split; [exact Eb|]. intros He. destruct r as [so ts er]. simpl in *. subst so er ts.
  destruct (success_means _ _ _ _ _ _ _ _ _ _ _ Hi Hr Hin Hnp Hrec Hev) as [_ [(sg & m & [= ->] & Hv & Hm)|(? & _)]]; [|done].
  destruct Hm as [-> |Hm]; [exact Hv|]. simpl in Hm.
  exfalso. unfold vote_type_to_step in Es. 
  repeat match type of Es with context [if ?c then _ else _] => destruct c end; inversion Es; subst; done.
Qed.

(** C27: the second time the signing protocol is started at a height/round/step, there is a record
    for it which differs from the request only by timestamp, or has no signature *)
Theorem C27_second_start_partial : forall C cfg st0 l st l1 op1 t1 b1 l2 op2 t2 b2 l3,
  idle st0 -> vrun C cfg st0 l st ->
  l = l1 ++ (op1, OStart t1 b1) :: l2 ++ (op2, OStart t2 b2) :: l3 -> b_hrs b1 = b_hrs b2 ->
  exists stm c, vrun C cfg st0 (l1 ++ (op1, OStart t1 b1) :: l2) stm /\ op2 = VPoll t2 /\
    ss_cache (vs_lss stm) !! b_hrs b2 = Some c /\
    (c_sig c = None \/
     h_step (b_hrs b2) <> stepPropose /\ b_sb b2 <> slice_of (c_sb c) /\
     only_differ_by_timestamp (h_step (c_hrs c)) (slice_of (c_sb c)) (b_sb b2) = None).
Proof. exact second_start. Qed.
(** full statement, when all records carry signatures: only votes that differ from the recorded one
    only by timestamp are signed again *)
Theorem C27_signed_records_partial : forall C cfg st0 l st l1 op1 t1 b1 l2 op2 t2 b2 l3,
  idle st0 -> vrun C cfg st0 l st ->
  records (fun c => c_sig c <> None) (vs_lss st0) -> (forall c, VLss c ∈ ops_of l -> c_sig c <> None) ->
  l = l1 ++ (op1, OStart t1 b1) :: l2 ++ (op2, OStart t2 b2) :: l3 -> b_hrs b1 = b_hrs b2 ->
  h_step (b_hrs b2) <> stepPropose /\
  exists stm c, vrun C cfg st0 (l1 ++ (op1, OStart t1 b1) :: l2) stm /\
    ss_cache (vs_lss stm) !! b_hrs b2 = Some c /\ b_sb b2 <> slice_of (c_sb c) /\
    only_differ_by_timestamp (h_step (c_hrs c)) (slice_of (c_sb c)) (b_sb b2) = None.
Proof.
  intros C cfg st0 l st l1 op1 t1 b1 l2 op2 t2 b2 l3 Hi Hr Hrec Hev El Hb.
  destruct (second_start _ _ _ _ _ _ _ _ _ _ _ _ _ _ Hi Hr El Hb) as (stm & c & Hm & _ & Hc & [Hn|(H1 & H2 & H3)]).
  - exfalso. assert (Hx : records (fun c => c_sig c <> None) (vs_lss stm)).
    { eapply (records_run C cfg _ st0); [exact Hi|exact Hm|exact Hrec| |].
      - intros c' Hc'. apply Hev. subst l. unfold ops_of in *.
        rewrite map_app, map_cons in Hc'. rewrite map_app, map_cons, map_app, map_cons.
        apply elem_of_app in Hc' as [?|Hc']; [apply elem_of_app; by left|]. apply elem_of_app. right.
        apply elem_of_cons in Hc' as [->|Hc']; [left|]. right. apply elem_of_app. by left.
      - intros. simpl. discriminate. }
    apply Hx in Hc as [_ Hc]. done.
  - split; [done|]. exists stm, c. done.
Qed.
(** without that: two different proposals for one height and round are both attempted *)
Theorem C27_unsigned_record_refuted : exists st0 l st t1 b1 t2 b2,
  idle st0 /\ vrun toy vcfg st0 l st /\ started l t1 b1 /\ started l t2 b2 /\ t1 <> t2 /\
  b_hrs b1 = b_hrs b2 /\ h_step (b_hrs b1) = stepPropose /\ b_sb b1 <> b_sb b2.
Proof.
  destruct started_twice as (H1 & H2 & H3).
  exists (new_validator lss_nosig), (v_log (new_validator lss_nosig) twice_ops),
    (v_after (new_validator lss_nosig) twice_ops), 7%nat, (pblock x0a), 8%nat, (pblock x0b).
  split; [done|]. split; [done|]. split; [done|]. split; [done|]. split; [done|]. split; [done|]. split; [done|].
  vm_compute. discriminate.
Qed.

(** C28: a signing request goes to a member of a group of exactly threshold distinct cosigners: the
    first threshold-1 peers that answered, and ourselves. It carries the key and bytes of the
    request, is sent once, and its parts are as they should be. *)
Theorem C28_requests : forall C cfg st0 l st l1 op t w k ps sb l2,
  idle st0 -> vrun C cfg st0 l st -> l = l1 ++ (op, OAsk t w k ps sb) :: l2 ->
  exists b pid, VCall t b RLeader ∈ ops_of l1 /\ k = b_key b /\ sb = b_sb b /\ id_of cfg w = Some pid /\
    full_group cfg t l1 /\ w ∈ map fst (participants cfg t l1) /\
    ~ (exists sb', was_asked l1 t w sb') /\
    right_parts cfg (participants cfg t l1) pid ps.
Proof. exact ask_right. Qed.
(** and a signature is only assembled when every member gave a share for these bytes *)
Theorem C28_all_gave_shares : forall C cfg st0 l st t b r,
  idle st0 -> vrun C cfg st0 l st -> returned l t b r true ->
  exists l1 op l2, l = l1 ++ (op, OReturn t b r true) :: l2 /\ full_group cfg t l1 /\
    forall w, w ∈ map fst (participants cfg t l1) -> gave_share l1 t w /\ was_asked l1 t w (b_sb b).
Proof. exact fresh_group. Qed.

(** C29: the signature was recorded by an action before which the last signed state was not above
    the request, and the last signed state is never below it again *)
Theorem C29_watermark : forall C cfg st0 l st t b r,
  idle st0 -> vrun C cfg st0 l st -> returned l t b r true ->
  hrs_le (b_hrs b) (ss_hrs (vs_lss st)) /\
  exists l1 st1 st2 l2, l = l1 ++ (VSave t, OTau) :: l2 /\ vrun C cfg st0 l1 st1 /\
    vstep C cfg st1 (VSave t) = VOk st2 OTau /\
    hrs_le (ss_hrs (vs_lss st1)) (b_hrs b) /\ ss_hrs (vs_lss st2) = b_hrs b.
Proof. exact fresh_watermark. Qed.

(** C30 is false: one attempt that timed out blocks its height/round/step on this leader *)
Theorem C30_retry_refuted : exists l st t b,
  vrun toy vcfg v0 l st /\ returned l t b (VR None (b_ts b) (Some EvPartsTimeout)) false /\
  forall l' st', vrun toy vcfg st l' st' -> no_event (b_hrs b) l' ->
    forall op t' b' r f, (op, OReturn t' b' r f) ∈ l' -> b_hrs b' = b_hrs b ->
      r_err r <> None \/ exists ans, op = VProxy t' ans.
Proof.
  destruct lonely_run as (H1 & H2 & H3).
  exists (v_log v0 lonely_ops), (v_after v0 lonely_ops), 7%nat, (eblock 11 x0a 1).
  split; [exact H1|]. split; [exact H2|]. intros l' st' Hr Hev op t' b' r f Hin Hb.
  eapply (stuck_run _ _ _ _ _ _ Hr H3 Hev) in Hin as [_ Hin]; [exact Hin|exact Hb].
Qed.
(** the same for every configuration: from any state with the level initiated, no record for it and
    no attempt under way, the signing protocol never starts again at that level *)
Theorem C30_stuck : forall C cfg k st l st',
  vrun C cfg st l st' -> stuck_at k st -> no_event k l ->
  (forall op t b, (op, OStart t b) ∈ l -> b_hrs b <> k) /\
  (forall op t b r f, (op, OReturn t b r f) ∈ l -> b_hrs b = k ->
     f = false /\ (r_err r <> None \/ exists ans, op = VProxy t ans)).
Proof. exact stuck_run. Qed.
(** what holds: a failed attempt does not affect higher levels; missing: the same level *)
Theorem C30_higher_level_partial : forall C cfg st t b,
  vs_threads st !! t = Some (Thread b PcInit) -> hrs_lt (ss_hrs (vs_init st)) (b_hrs b) ->
  1 <= vc_threshold cfg ->
  exists st', vstep C cfg st (VInit t) = VOk st' (OStart t b) /\ vs_lss st' = vs_lss st.
Proof.
  intros C cfg st t b Ht Hlt Hthr. unfold vstep, op_thread. rewrite Ht. unfold thread_step, do_init.
  pose proof (proj2 (save_ok_iff (vs_init st) (new_consensus (b_hrs b))) Hlt) as He.
  destruct (save (vs_init st) (new_consensus (b_hrs b))) as [i e]. simpl in He. subst e.
  unfold start. destruct (Z.ltb_spec (vc_threshold cfg - 1) 0); [lia|]. eexists. split; [reflexivity|done].
Qed.

(** C31: once the level of a recorded proposal has been initiated here, calls made from then on for
    that level never start or contact anyone, and success returns the recorded signature, whatever
    the content of the request; an error other than "no raft" needs the record to be gone (pruned) *)
Theorem C31_recorded_proposal_partial : forall C cfg k c sig st l st',
  h_step k = stepPropose -> c_sig c = Some sig -> ss_cache (vs_lss st) !! k = Some c ->
  hrs_le k (ss_hrs (vs_init st)) -> hrs_le k (ss_hrs (vs_lss st)) -> vrun C cfg st l st' ->
  forall l1 op o l2, l = l1 ++ (op, o) :: l2 ->
  match o with
  | OStart t b => vs_threads st !! t = None -> b_hrs b <> k
  | OAsk t w key ps sb => vs_threads st !! t = None -> ht_hrs key <> k
  | OReturn t b r f => b_hrs b = k -> vs_threads st !! t = None -> f = false /\
      (r = VR (Some sig) (b_ts b) None \/ op = VCall t b RNone \/ (exists ans, op = VProxy t ans) \/
       (r_err r <> None /\ exists st1, vrun C cfg st l1 st1 /\ ss_cache (vs_lss st1) !! k = None))
  | _ => True
  end.
Proof. exact answered_run. Qed.
(** full statement false: a record received from another leader does not stop a new attempt, even
    for a different proposal *)
Theorem C31_new_leader_refuted : exists c l st t b,
  vrun toy vcfg v0 ((VLss c, OLss c true) :: l) st /\ valid_record toy (vc_pub vcfg) c /\
  h_step (c_hrs c) = stepPropose /\ b_hrs b = c_hrs c /\ Some (b_sb b) <> c_sb c /\ started l t b.
Proof.
  destruct event_start as (H1 & _ & H3).
  exists prop_record, [(VCall 7 (pblock x0b) RLeader, OTau); (VInit 7, OStart 7 (pblock x0b))],
    (v_after v0 event_start_ops), 7%nat, (pblock x0b).
  rewrite H3 in H1. split; [exact H1|]. split; [exact prop_record_valid|]. split; [done|]. split; [done|].
  split; [vm_compute; discriminate|]. exists (VInit 7). right. left.
Qed.

(** C32, own cosigner correct: newly assembled signatures never conflict *)
Theorem C32_fresh_never_conflict : forall C cfg st0 l st ccfg cst lc cst' t1 b1 r1 t2 b2 r2 k,
  idle st0 -> vrun C cfg st0 l st -> crun C ccfg cst lc cst' -> own_backed l lc ->
  returned l t1 b1 r1 true -> returned l t2 b2 r2 true -> bytes_for (b_sb b1) k -> bytes_for (b_sb b2) k ->
  same_message_but_time (b_sb b1) (b_sb b2).
Proof. exact fresh_no_conflict. Qed.
(** ... recorded signatures included: every signature the leader returns has a quorum of cosigners
    behind the bytes it signs, provided the records it starts with and receives have one; *)
Theorem C32_quorum_behind_every_signature : forall C cfg st0 l st cl faulty op t b sig ts f,
  idle st0 -> vrun C cfg st0 l st -> NoDup (vc_id cfg :: vc_peers cfg) -> cluster_backed cfg cl faulty l ->
  records (backed cfg cl faulty) (vs_lss st0) -> (forall c, VLss c ∈ ops_of l -> backed cfg cl faulty c) ->
  (op, OReturn t b (VR (Some sig) ts None) f) ∈ l -> (forall ans, op <> VProxy t ans) ->
  quorum_for cfg cl faulty (b_sb b) \/
  (h_step (b_hrs b) = stepPropose /\ f = false /\
   exists l1 l2 st1 c, l = l1 ++ (op, OReturn t b (VR (Some sig) ts None) f) :: l2 /\ vrun C cfg st0 l1 st1 /\
     ss_cache (vs_lss st1) !! b_hrs b = Some c /\ c_sig c = Some sig /\
     quorum_for cfg cl faulty (slice_of (c_sb c))).
Proof. exact success_backed. Qed.
(** ... and two quorums never back conflicting bytes *)
Theorem C32_quorums_agree : forall C cfg cl faulty m1 m2 k,
  correct C cl faulty -> 2 * vc_threshold cfg > Z.of_nat (size cl + size faulty) ->
  quorum_for cfg cl faulty m1 -> quorum_for cfg cl faulty m2 -> bytes_for m1 k -> bytes_for m2 k ->
  same_message_but_time m1 m2.
Proof. exact quorum_no_conflict. Qed.
(** in one statement, for votes *)
Theorem C32_votes_never_conflict_partial : forall C cfg st0 l st cl faulty op1 t1 b1 s1 ts1 f1 op2 t2 b2 s2 ts2 f2 k,
  idle st0 -> vrun C cfg st0 l st -> NoDup (vc_id cfg :: vc_peers cfg) -> cluster_backed cfg cl faulty l ->
  records (backed cfg cl faulty) (vs_lss st0) -> (forall c, VLss c ∈ ops_of l -> backed cfg cl faulty c) ->
  correct C cl faulty -> 2 * vc_threshold cfg > Z.of_nat (size cl + size faulty) ->
  (op1, OReturn t1 b1 (VR (Some s1) ts1 None) f1) ∈ l -> (forall ans, op1 <> VProxy t1 ans) ->
  (op2, OReturn t2 b2 (VR (Some s2) ts2 None) f2) ∈ l -> (forall ans, op2 <> VProxy t2 ans) ->
  h_step (b_hrs b1) <> stepPropose -> h_step (b_hrs b2) <> stepPropose ->
  bytes_for (b_sb b1) k -> bytes_for (b_sb b2) k -> same_message_but_time (b_sb b1) (b_sb b2).
Proof.
  intros * Hi Hr Hn Hb Hrec Hev Hc Ht H1 N1 H2 N2 P1 P2 K1 K2.
  destruct (success_backed _ _ _ _ _ _ _ _ _ _ _ _ _ Hi Hr Hn Hb Hrec Hev H1 N1) as [Q1|(? & _)]; [|done].
  destruct (success_backed _ _ _ _ _ _ _ _ _ _ _ _ _ Hi Hr Hn Hb Hrec Hev H2 N2) as [Q2|(? & _)]; [|done].
  eapply quorum_no_conflict; eauto.
Qed.
(** without trust in the raft events: false *)
Theorem C32_events_refuted : exists l st t1 b1 r1 t2 b2 s2 k,
  vrun toy vcfg v0 l st /\ (forall c, VLss c ∈ ops_of l -> valid_record toy (vc_pub vcfg) c) /\
  returned l t1 b1 r1 true /\ returned l t2 b2 (VR (Some s2) (b_ts b2) None) false /\
  bytes_for (b_sb b1) k /\ bytes_for (b_sb b2) k /\ ~ same_message_but_time (b_sb b1) (b_sb b2).
Proof.
  destruct conflict_run as (H1 & H2 & H3).
  exists (v_log v0 conflict_ops), (v_after v0 conflict_ops), 7%nat, (eblock 11 x0a 1).
  eexists. exists 8%nat, (eblock 11 x0b 1). eexists. exists (HRS 11 0 3).
  split; [exact H1|]. split.
  { intros c Hc%event_in.
    assert (E : events (v_log v0 conflict_ops) = [evil_record]) by (vm_compute; reflexivity).
    rewrite E in Hc. apply elem_of_list_singleton in Hc. rewrite Hc. exact evil_valid. }
  split; [exact H2|]. split; [exact H3|].
  split; [exists 1600000000000000001; vm_compute; reflexivity|].
  split; [exists 1600000000000000001; vm_compute; reflexivity|]. exact wsb_not_same.
Qed.

(** C33: a node that never leads keeps its initiated state, only raft events change its last signed
    state, it never contacts cosigners, and it answers with what the leader answered *)
Theorem C33_followers : forall C cfg st0 l st,
  idle st0 -> vrun C cfg st0 l st -> (forall t b r, VCall t b r ∈ ops_of l -> r <> RLeader) ->
  vs_init st = vs_init st0 /\ vs_lss st = run_saves (vs_lss st0) (events l) /\
  (forall op o, (op, o) ∈ l -> match o with
     | OStart _ _ | OAsk _ _ _ _ _ => False
     | OReturn t b r f => f = false /\
         (op = VCall t b RNone /\ r = VR None (b_ts b) (Some EvNoRaft) \/
          exists ans, op = VProxy t ans /\ reports b ans r)
     | _ => True
     end).
Proof. exact follower_run. Qed.

(** ** Non-vacuity *)

(** C25, C28, C29, C32: a complete signing of a 2-of-3 cluster, cosigners included *)
Example ex_fresh :
  idle v0 /\ vrun toy vcfg v0 (v_log v0 e2e) (v_after v0 e2e) /\
  returned (v_log v0 e2e) 7 (eblock 11 x0a 1) (VR (Some e2e_sig) (Time 1600000000 1) None) true /\
  crun toy ecfg1 wst0 ecos1_log (c_after ecfg1 (ops1 11 x0a 1)) /\ own_backed (v_log v0 e2e) ecos1_log /\
  bytes_for (wsb 11 x0a 1) (HRS 11 0 3).
Proof.
  split; [exact v0_idle|]. split; [apply e2e_run|]. split; [apply e2e_run|]. split; [apply ecos1_run|].
  split; [apply e2e_own_backed|]. exists 1600000000000000001. vm_compute. reflexivity.
Qed.
Example ex_ask : exists l1 k p l2,
  v_log v0 e2e = l1 ++ (VAsk 7 1 (rev (order12 11 x0a 1)), OAsk 7 1 k [p] (wsb 11 x0a 1)) :: l2 /\
  pt_source p = 1 /\ pt_dest p = 2.
Proof.
  exists (take 7 (v_log v0 e2e)), (b_key (eblock 11 x0a 1)), (part_at (c_log ecfg1 (get1 11 x0a 1)) 0), (drop 8 (v_log v0 e2e)).
  split; [vm_compute; reflexivity|]. split; vm_compute; reflexivity.
Qed.
Example ex_cluster_hyps :
  correct toy ecluster ∅ /\ cluster_backed vcfg ecluster ∅ (v_log v0 e2e) /\
  2 * vc_threshold vcfg > Z.of_nat (size ecluster + size (∅ : gset Z)) /\
  NoDup (vc_id vcfg :: vc_peers vcfg) /\ (forall c, VLss c ∉ ops_of (v_log v0 e2e)).
Proof.
  split; [exact ecluster_correct|]. split; [exact e2e_cluster_backed|].
  split; [unfold ecluster; rewrite ecluster_size; vm_compute; reflexivity|].
  split.
  { simpl. repeat (apply list.NoDup_cons; split; [set_solver|]). constructor. }
  intros c Hin%event_in. assert (E : events (v_log v0 e2e) = []) by (vm_compute; reflexivity).
    rewrite E in Hin. by apply elem_of_nil in Hin.
Qed.
(** C26, C27, C32: a validator that has signed nothing yet has no records *)
Definition lss_fresh : sign_state := SS (HRS 10 0 0) None None None ∅.
Example ex_records : forall P, records P (vs_lss (new_validator lss_fresh)).
Proof. intros P k c H. simpl in H. by rewrite lookup_empty in H. Qed.
Example ex_fresh_start : exists l st r,
  vrun toy vcfg (new_validator lss_fresh) l st /\ returned l 7 (eblock 11 x0a 1) r true /\
  forall c, VLss c ∉ ops_of l.
Proof.
  exists (v_log (new_validator lss_fresh) e2e), (v_after (new_validator lss_fresh) e2e). eexists.
  split; [apply v_run; vm_compute; discriminate|]. split.
  - exists (VEmit 7 true). apply elem_of_list_lookup. exists 12%nat. vm_compute. reflexivity.
  - intros c Hin%event_in. assert (E : events (v_log (new_validator lss_fresh) e2e) = []) by (vm_compute; reflexivity).
    rewrite E in Hin. by apply elem_of_nil in Hin.
Qed.
(** C27 *)
Example ex_second_start :
  vrun toy vcfg v0 (v_log v0 again_ops) (v_after v0 again_ops) /\
  exists l1 l2 l3, v_log v0 again_ops =
    l1 ++ (VInit 7, OStart 7 (eblock 11 x0a 1)) :: l2 ++ (VPoll 8, OStart 8 (eblock 11 x0a 2)) :: l3.
Proof. exact started_again. Qed.
(** C30 *)
Example ex_stuck : stuck_at (HRS 11 0 3) (v_after v0 lonely_ops).
Proof. apply lonely_run. Qed.
(** C31: after the attempt for another proposal at the level and the event, calls are answered *)
Definition answered_ops : list vop := [VCall 8 (pblock x0b) RLeader; VInit 8; VPoll 8].
Definition answered_start : vstate := v_after v0 [VCall 7 (pblock x0a) RLeader; VInit 7; VLss prop_record].
Example ex_answered :
  ss_cache (vs_lss answered_start) !! HRS 11 0 1 = Some prop_record /\
  hrs_le (HRS 11 0 1) (ss_hrs (vs_init answered_start)) /\ hrs_le (HRS 11 0 1) (ss_hrs (vs_lss answered_start)) /\
  vs_threads answered_start !! 8%nat = None /\
  vrun toy vcfg answered_start (v_log answered_start answered_ops) (v_after answered_start answered_ops) /\
  returned (v_log answered_start answered_ops) 8 (pblock x0b)
    (VR (Some (toy_sig (psb x0a))) (Time 1600000000 1) None) false.
Proof.
  split; [vm_compute; reflexivity|]. split; [right; vm_compute; reflexivity|].
  split; [right; vm_compute; reflexivity|]. split; [vm_compute; reflexivity|].
  split; [apply v_run; vm_compute; discriminate|].
  exists (VPoll 8). apply elem_of_list_lookup. exists 2%nat. vm_compute. reflexivity.
Qed.
(** C33 *)
Example ex_follower :
  vrun toy vcfg v0 (v_log v0 follower_ops) (v_after v0 follower_ops) /\
  (forall t b r, VCall t b r ∈ ops_of (v_log v0 follower_ops) -> r <> RLeader) /\
  ss_hrs (vs_lss (v_after v0 follower_ops)) = HRS 11 0 3.
Proof. exact follower_example. Qed.

Print Assumptions C25_fresh_signature_verified.
Print Assumptions C25_other_signatures_recorded.
Print Assumptions C26_success_without_signature_refuted.
Print Assumptions C26_proposal_signature_refuted.
Print Assumptions C26_success_means_partial.
Print Assumptions C26_signed_vote_partial.
Print Assumptions C27_second_start_partial.
Print Assumptions C27_signed_records_partial.
Print Assumptions C27_unsigned_record_refuted.
Print Assumptions C28_requests.
Print Assumptions C28_all_gave_shares.
Print Assumptions C29_watermark.
Print Assumptions C30_retry_refuted.
Print Assumptions C30_stuck.
Print Assumptions C30_higher_level_partial.
Print Assumptions C31_recorded_proposal_partial.
Print Assumptions C31_new_leader_refuted.
Print Assumptions C32_fresh_never_conflict.
Print Assumptions C32_quorum_behind_every_signature.
Print Assumptions C32_quorums_agree.
Print Assumptions C32_votes_never_conflict_partial.
Print Assumptions C32_events_refuted.
Print Assumptions C33_followers.
