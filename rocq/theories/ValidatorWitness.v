(** Concrete runs of the threshold validator (toy cryptography). *)
From Verif Require Import GoBase Wire Canonical SignState Spec CanonicalApi Crypto LocalCosigner
  CosignerSpec Cluster Toy CosignerWitness Validator ValidatorSpec ValidatorProofs ValidatorProofs3 ValidatorProofs4.
Local Open Scope Z_scope.

(** executes a list of actions *)
Fixpoint vrun_ops (C : Crypto) (cfg : vconf) (st : vstate) (ops : list vop)
  : option (vstate * list (vop * vobs)) :=
  match ops with
  | [] => Some (st, [])
  | op :: ops' =>
      match vstep C cfg st op with
      | VOk st1 o =>
          match vrun_ops C cfg st1 ops' with
          | None => None
          | Some (st2, l) => Some (st2, (op, o) :: l)
          end
      | _ => None
      end
  end.
Lemma vrun_ops_vrun C cfg st ops st' l : vrun_ops C cfg st ops = Some (st', l) -> vrun C cfg st l st'.
Proof.
  revert st l. induction ops as [|op ops IH]; intros st l H; simpl in H.
  - injection H as <- <-. constructor.
  - destruct (vstep C cfg st op) as [| |st1 o] eqn:E; [done|done|].
    destruct (vrun_ops C cfg st1 ops) as [[st2 l2]|] eqn:E2; [|done].
    injection H as <- <-. econstructor; eauto.
Qed.

(** a 2-of-3 cluster: key 1 shared as 1 + 4x; the leader is cosigner 1 *)
Definition ecfg (i : Z) (rsa : bytes) : cos_config :=
  CosConfig i (toy_enc (1 + 4 * i)) (toy_enc 1) rsa 3 2 wpeers.
Definition ecfg1 := ecfg 1 [x01].
Definition ecfg2 := ecfg 2 [x02].
Definition vcfg : vconf := VConf 2 (toy_enc 1) 1 [2; 3].

(** block of a precommit for block hash [x], at height [h] *)
Definition eblock (h : Z) (x : byte) (ns : Z) : block :=
  Block (HRS h 0 3) (wsb h x ns) (Time 1600000000 ns).

(** end to end: all three parties computed by the model *)
Definition c_after (cfg : cos_config) (ops : list cop) : cos_state :=
  match run_ops toy cfg wst0 ops with Some (st, _) => st | None => wst0 end.
Definition c_log (cfg : cos_config) (ops : list cop) : list (cop * cobs) :=
  match run_ops toy cfg wst0 ops with Some (_, l) => l | None => [] end.
Lemma c_run cfg ops : run_ops toy cfg wst0 ops <> None -> crun toy cfg wst0 (c_log cfg ops) (c_after cfg ops).
Proof.
  intros H. unfold c_log, c_after. destruct (run_ops toy cfg wst0 ops) as [[st l]|] eqn:E; [|done].
  eapply run_ops_crun, E.
Qed.
Definition part_at (l : list (cop * cobs)) (n : nat) : part :=
  match l !! n with Some (_, ObsPart p) => p | _ => Part 0 0 [] [] None end.
Definition share_at (l : list (cop * cobs)) (n : nat) : bytes * bytes :=
  match l !! n with
  | Some (_, ObsShare _ r) => (slice_of (sr_sig r), slice_of (sr_eph r))
  | _ => ([], [])
  end.

Section EndToEnd.
Context (h : Z) (x : byte) (ns : Z) (t : nat).
Let b := eblock h x ns.
Definition get1 : list cop := [OpGet (b_key b) 2 (wrnd x21); OpGet (b_key b) 3 (wrnd x21)].
Definition get2 : list cop := [OpGet (b_key b) 1 (wrnd x22); OpGet (b_key b) 3 (wrnd x22)].
Definition parts1 : list part := [part_at (c_log ecfg1 get1) 0; part_at (c_log ecfg1 get1) 1].
Definition parts2 : list part := [part_at (c_log ecfg2 get2) 0; part_at (c_log ecfg2 get2) 1].
Definition order12 : list (nat * list part) := [(1%nat, parts2); (0%nat, parts1)].
Definition ops1 : list cop := get1 ++ [OpSet (b_key b) (part_at (c_log ecfg2 get2) 0) None; OpSign (b_sb b)].
Definition ops2 : list cop := get2 ++ [OpSet (b_key b) (part_at (c_log ecfg1 get1) 0) None; OpSign (b_sb b)].
Definition collect_ops : list vop :=
  [VCall t b RLeader; VInit t; VParts t 2 None; VParts t 1 (Some parts2); VOwn t (Some parts1); VGo t].
Definition e2e_ops : list vop :=
  collect_ops ++
  [VAsk t 0 order12; VAsk t 1 (rev order12);
   VSig t 1 (Some (share_at (c_log ecfg2 ops2) 3)); VSig t 0 (Some (share_at (c_log ecfg1 ops1) 3));
   VFinish t; VSave t; VEmit t true].
End EndToEnd.

Definition lss10 : sign_state := loaded_state (HRS 10 0 0) None None None.
Definition v0 : vstate := new_validator lss10.
Definition v_log (st : vstate) (ops : list vop) : list (vop * vobs) :=
  match vrun_ops toy vcfg st ops with Some (_, l) => l | None => [] end.
Definition v_after (st : vstate) (ops : list vop) : vstate :=
  match vrun_ops toy vcfg st ops with Some (s, _) => s | None => st end.
Lemma v_run st ops : vrun_ops toy vcfg st ops <> None -> vrun toy vcfg st (v_log st ops) (v_after st ops).
Proof.
  intros H. unfold v_log, v_after. destruct (vrun_ops toy vcfg st ops) as [[s l]|] eqn:E; [|done].
  eapply vrun_ops_vrun, E.
Qed.

(** two of three cosigners sign a precommit; the combined signature verifies and is returned *)
Definition e2e : list vop := e2e_ops 11 x0a 1 7.
Definition last_return (l : list (vop * vobs)) : option vresult :=
  match list.last l with Some (_, OReturn _ _ r _) => Some r | _ => None end.
Definition e2e_sig : bytes := match last_return (v_log v0 e2e) with Some (VR (Some s) _ _) => s | _ => [] end.

Lemma v0_idle : idle v0. Proof. done. Qed.
Lemma e2e_run :
  vrun toy vcfg v0 (v_log v0 e2e) (v_after v0 e2e) /\
  returned (v_log v0 e2e) 7 (eblock 11 x0a 1) (VR (Some e2e_sig) (Time 1600000000 1) None) true /\
  length e2e_sig = 64%nat.
Proof.
  split; [apply v_run; vm_compute; discriminate|].
  split; [exists (VEmit 7 true); apply elem_of_list_lookup; exists 12%nat; vm_compute; reflexivity|].
  vm_compute. reflexivity.
Qed.

(** a signature made with the whole key *)
Definition toy_sig (m : bytes) : bytes :=
  toy_enc 3 ++ toy_enc (3 + toy_ch (toy_enc 3) (toy_enc 1) m).
Definition wprop (x : byte) : proposal := Proposal 11 0 (-1) (wbid x) (Time 1600000000 1).
Definition psb (x : byte) : bytes :=
  match proposal_sign_bytes irishub (wprop x) with Val b => b | _ => [] end.
Definition pblock (x : byte) : block := Block (HRS 11 0 1) (psb x) (Time 1600000000 1).
Lemma pblock_is x : psb x <> [] -> proposal_block irishub (wprop x) = Val (pblock x).
Proof.
  unfold proposal_block, pblock, psb. destruct (proposal_sign_bytes irishub (wprop x)); done.
Qed.

(** C26: a vote below the initiated level that differs from the recorded one only by timestamp *)
Definition nil_ops : list vop :=
  e2e ++ [VCall 8 (eblock 12 x0a 1) RLeader; VInit 8; VCall 9 (eblock 11 x0a 2) RLeader; VInit 9; VLate 9].
Lemma nil_success :
  vrun toy vcfg v0 (v_log v0 nil_ops) (v_after v0 nil_ops) /\
  returned (v_log v0 nil_ops) 9 (eblock 11 x0a 2) (VR None (Time 1600000000 2) None) false.
Proof.
  split; [apply v_run; vm_compute; discriminate|].
  exists (VLate 9). apply elem_of_list_lookup. exists 17%nat. vm_compute. reflexivity.
Qed.

(** C26: a second proposal with other content *)
Definition prop_record : consensus := SSC (HRS 11 0 1) (Some (toy_sig (psb x0a))) (Some (psb x0a)).
Definition other_prop_ops : list vop :=
  [VCall 7 (eblock 11 x0a 1) RLeader; VInit 7; VLss prop_record; VCall 8 (pblock x0b) RLeader; VInit 8; VLate 8].
Lemma prop_record_valid : valid_record toy (vc_pub vcfg) prop_record.
Proof. exists (toy_sig (psb x0a)). split; [done|]. vm_compute. reflexivity. Qed.
Lemma other_prop_success :
  vrun toy vcfg v0 (v_log v0 other_prop_ops) (v_after v0 other_prop_ops) /\
  returned (v_log v0 other_prop_ops) 8 (pblock x0b)
    (VR (Some (toy_sig (psb x0a))) (Time 1600000000 1) None) false /\
  cr_verify toy (vc_pub vcfg) (psb x0b) (toy_sig (psb x0a)) = false /\ psb x0a <> psb x0b.
Proof.
  split; [apply v_run; vm_compute; discriminate|].
  split; [exists (VLate 8); apply elem_of_list_lookup; exists 5%nat; vm_compute; reflexivity|].
  split; [vm_compute; reflexivity|vm_compute; discriminate].
Qed.

(** C27: a record without signature *)
Definition lss_nosig : sign_state := loaded_state (HRS 11 0 1) None None None.
Definition twice_ops : list vop :=
  [VCall 7 (pblock x0a) RLeader; VInit 7; VPoll 7; VCall 8 (pblock x0b) RLeader; VInit 8; VPoll 8].
Lemma started_twice :
  vrun toy vcfg (new_validator lss_nosig) (v_log (new_validator lss_nosig) twice_ops)
    (v_after (new_validator lss_nosig) twice_ops) /\
  started (v_log (new_validator lss_nosig) twice_ops) 7 (pblock x0a) /\
  started (v_log (new_validator lss_nosig) twice_ops) 8 (pblock x0b).
Proof.
  split; [apply v_run; vm_compute; discriminate|]. split.
  - exists (VPoll 7). apply elem_of_list_lookup. exists 2%nat. vm_compute. reflexivity.
  - exists (VPoll 8). apply elem_of_list_lookup. exists 5%nat. vm_compute. reflexivity.
Qed.
(** two votes that differ by timestamp only, both signed *)
Definition again_ops : list vop :=
  e2e ++ [VCall 8 (eblock 11 x0a 2) RLeader; VInit 8; VPoll 8].
Lemma started_again :
  vrun toy vcfg v0 (v_log v0 again_ops) (v_after v0 again_ops) /\
  exists l1 l2 l3, v_log v0 again_ops =
    l1 ++ (VInit 7, OStart 7 (eblock 11 x0a 1)) :: l2 ++ (VPoll 8, OStart 8 (eblock 11 x0a 2)) :: l3.
Proof.
  split; [apply v_run; vm_compute; discriminate|].
  exists (take 1 (v_log v0 again_ops)), (take 13 (drop 2 (v_log v0 again_ops))), [].
  vm_compute. reflexivity.
Qed.

(** C30: no peer answers *)
Definition lonely_ops : list vop :=
  [VCall 7 (eblock 11 x0a 1) RLeader; VInit 7; VOwn 7 (Some []); VTimeout 7].
Lemma lonely_run :
  vrun toy vcfg v0 (v_log v0 lonely_ops) (v_after v0 lonely_ops) /\
  returned (v_log v0 lonely_ops) 7 (eblock 11 x0a 1) (VR None (Time 1600000000 1) (Some EvPartsTimeout)) false /\
  stuck_at (HRS 11 0 3) (v_after v0 lonely_ops).
Proof.
  split; [apply v_run; vm_compute; discriminate|].
  split; [exists (VTimeout 7); apply elem_of_list_lookup; exists 3%nat; vm_compute; reflexivity|].
  split; [right; vm_compute; reflexivity|]. split; [vm_compute; reflexivity|].
  assert (E : map_to_list (vs_threads (v_after v0 lonely_ops)) = [(7%nat, Thread (eblock 11 x0a 1) PcDone)])
    by (vm_compute; reflexivity).
  intros t b pc Hl _. apply elem_of_map_to_list in Hl. rewrite E in Hl.
  apply elem_of_list_singleton in Hl. injection Hl as _ _ ->. done.
Qed.

(** C31: the record came from another leader *)
Definition event_start_ops : list vop := [VLss prop_record; VCall 7 (pblock x0b) RLeader; VInit 7].
Lemma event_start :
  vrun toy vcfg v0 (v_log v0 event_start_ops) (v_after v0 event_start_ops) /\
  ss_cache (vs_lss (v_after v0 [VLss prop_record])) !! HRS 11 0 1 = Some prop_record /\
  v_log v0 event_start_ops =
    [(VLss prop_record, OLss prop_record true); (VCall 7 (pblock x0b) RLeader, OTau);
     (VInit 7, OStart 7 (pblock x0b))].
Proof.
  split; [apply v_run; vm_compute; discriminate|]. split; [vm_compute; reflexivity|].
  vm_compute. reflexivity.
Qed.

(** C32: an event with a conflicting record *)
Definition evil_record : consensus := SSC (HRS 11 0 3) (Some (toy_sig (wsb 11 x0b 1))) (Some (wsb 11 x0b 1)).
Definition conflict_ops : list vop :=
  take 11 e2e ++ [VLss evil_record; VSave 7; VEmit 7 true; VCall 8 (eblock 11 x0b 1) RLeader; VInit 8; VPoll 8].
Lemma evil_valid : valid_record toy (vc_pub vcfg) evil_record.
Proof. exists (toy_sig (wsb 11 x0b 1)). split; [done|]. vm_compute. reflexivity. Qed.
Lemma conflict_run :
  vrun toy vcfg v0 (v_log v0 conflict_ops) (v_after v0 conflict_ops) /\
  returned (v_log v0 conflict_ops) 7 (eblock 11 x0a 1) (VR (Some e2e_sig) (Time 1600000000 1) None) true /\
  returned (v_log v0 conflict_ops) 8 (eblock 11 x0b 1)
    (VR (Some (toy_sig (wsb 11 x0b 1))) (Time 1600000000 1) None) false.
Proof.
  split; [apply v_run; vm_compute; discriminate|]. split.
  - exists (VEmit 7 true). apply elem_of_list_lookup. exists 13%nat. vm_compute. reflexivity.
  - exists (VPoll 8). apply elem_of_list_lookup. exists 16%nat. vm_compute. reflexivity.
Qed.

(** the cosigners of [e2e] *)
Definition ecos1_log := c_log ecfg1 (ops1 11 x0a 1).
Definition ecos2_log := c_log ecfg2 (ops2 11 x0a 1).
Lemma ecos1_run : crun toy ecfg1 wst0 ecos1_log (c_after ecfg1 (ops1 11 x0a 1)).
Proof. apply c_run. vm_compute. discriminate. Qed.
Lemma ecos2_run : crun toy ecfg2 wst0 ecos2_log (c_after ecfg2 (ops2 11 x0a 1)).
Proof. apply c_run. vm_compute. discriminate. Qed.
Lemma ecos1_released : released ecos1_log (wsb 11 x0a 1).
Proof.
  exists (OpSign (wsb 11 x0a 1)).
  exists (match ecos1_log !! 3%nat with Some (_, ObsShare _ r) => r | _ => SignResp None None false end).
  apply elem_of_list_lookup. exists 3%nat. vm_compute. reflexivity.
Qed.
Lemma ecos2_released : released ecos2_log (wsb 11 x0a 1).
Proof.
  exists (OpSign (wsb 11 x0a 1)).
  exists (match ecos2_log !! 3%nat with Some (_, ObsShare _ r) => r | _ => SignResp None None false end).
  apply elem_of_list_lookup. exists 3%nat. vm_compute. reflexivity.
Qed.

(** the raft events of a log *)
Lemma event_in l c : VLss c ∈ ops_of l -> c ∈ events l.
Proof. intros H. apply elem_of_list_omap. exists (VLss c). done. Qed.
(** all signing requests of a log *)
Definition asks (l : list (vop * vobs)) : list (nat * nat * bytes) :=
  omap (fun x => match snd x with OAsk t w _ _ sb => Some (t, w, sb) | _ => None end) l.
Lemma asks_spec l t w sb : was_asked l t w sb -> (t, w, sb) ∈ asks l.
Proof.
  intros (op & k & ps & Hin). apply elem_of_list_omap. exists (op, OAsk t w k ps sb). done.
Qed.
Lemma e2e_asks : asks (v_log v0 e2e) = [(7%nat, 0%nat, wsb 11 x0a 1); (7%nat, 1%nat, wsb 11 x0a 1)].
Proof. vm_compute. reflexivity. Qed.
Lemma e2e_own_backed : own_backed (v_log v0 e2e) ecos1_log.
Proof.
  intros t sb _ Ha. apply asks_spec in Ha. rewrite e2e_asks in Ha. revert Ha.
  generalize ecos1_released. generalize ecos1_log, (wsb 11 x0a 1). intros lc m Hrel Ha.
  apply elem_of_cons in Ha as [[= -> ->]|Ha]; [done|].
  apply elem_of_list_singleton in Ha. discriminate.
Qed.
Definition ecluster_of (l1 l2 : list (cop * cobs)) (s1 s2 : cos_state) : cluster :=
  {[1 := Node ecfg1 wst0 l1 s1; 2 := Node ecfg2 wst0 l2 s2; 3 := Node (ecfg 3 [x03]) wst0 [] wst0]}.
Definition ecluster : cluster :=
  ecluster_of ecos1_log ecos2_log (c_after ecfg1 (ops1 11 x0a 1)) (c_after ecfg2 (ops2 11 x0a 1)).
Lemma ecluster_correct : correct toy ecluster ∅.
Proof.
  unfold ecluster. generalize ecos1_run, ecos2_run. 
  generalize ecos1_log, ecos2_log, (c_after ecfg1 (ops1 11 x0a 1)), (c_after ecfg2 (ops2 11 x0a 1)).
  intros l1 l2 s1 s2 R1 R2 i nd H _. unfold ecluster_of in H.
  apply lookup_insert_Some in H as [[_ <-]|[_ H]]; [exact R1|].
  apply lookup_insert_Some in H as [[_ <-]|[_ H]]; [exact R2|].
  apply lookup_singleton_Some in H as [_ <-]. constructor.
Qed.
Lemma ecluster_size l1 l2 s1 s2 : size (ecluster_of l1 l2 s1 s2) = 3%nat.
Proof. reflexivity. Qed.
Lemma e2e_cluster_backed : cluster_backed vcfg ecluster ∅ (v_log v0 e2e).
Proof.
  intros t w sb i _ Ha Hi. apply asks_spec in Ha. rewrite e2e_asks in Ha. revert Ha. unfold ecluster.
  generalize ecos1_released, ecos2_released.
  generalize ecos1_log, ecos2_log, (c_after ecfg1 (ops1 11 x0a 1)), (c_after ecfg2 (ops2 11 x0a 1)), (wsb 11 x0a 1).
  intros l1 l2 s1 s2 m R1 R2 Ha.
  apply elem_of_cons in Ha as [[= -> -> ->]|[= -> -> ->]%elem_of_list_singleton]; simpl in Hi; injection Hi as <-.
  - exists (Node ecfg1 wst0 l1 s1). split; [reflexivity|]. intros _. exact R1.
  - exists (Node ecfg2 wst0 l2 s2). split; [reflexivity|]. intros _. exact R2.
Qed.

(** C33: a follower *)
Definition follower_ops : list vop :=
  [VCall 1 (eblock 11 x0a 1) RNone; VCall 2 (eblock 11 x0a 1) RFollower; VLss evil_record;
   VProxy 2 (inr (Some e2e_sig)); VCall 3 (eblock 11 x0b 1) RFollower;
   VProxy 3 (inl (RPCErr (beyond_prefix ++ [x20])))].
Lemma follower_example :
  vrun toy vcfg v0 (v_log v0 follower_ops) (v_after v0 follower_ops) /\
  (forall t b r, VCall t b r ∈ ops_of (v_log v0 follower_ops) -> r <> RLeader) /\
  ss_hrs (vs_lss (v_after v0 follower_ops)) = HRS 11 0 3.
Proof.
  split; [apply v_run; vm_compute; discriminate|]. split; [|vm_compute; reflexivity].
  intros t b r Hin ->. apply elem_of_list_In in Hin.
  assert (E : forallb (fun op => match op with VCall _ _ RLeader => false | _ => true end)
                (ops_of (v_log v0 follower_ops)) = true) by (vm_compute; reflexivity).
  rewrite forallb_forall in E. apply E in Hin. discriminate.
Qed.
