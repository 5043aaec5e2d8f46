(** C69: raft membership; C70: order of events at start; C71: `state set` and running signers *)
From Coq Require Import Strings.String.
From Verif Require Import GoBase Canonical SignState Spec Json Utf8 Raft RaftSpec Disk DiskSpec Config ConfigSpec
  ConfigWitness Startup StartupSpec StartupProofs.
Local Open Scope Z_scope.

(** ** C69 *)

(** C69 on an empty raft directory: if IDs and addresses tell the servers apart, a node runs with
    exactly itself and its configured peers. Missing: see the refutations. *)
Theorem C69_members_partial : forall host s k, told_apart host s k ->
  exists c, boot_node host None s k = Some c /\ NoDup c /\ (length c = S (length (co_peers s))) /\
    forall x, x ∈ c <-> named host s k x.
Proof. exact first_boot. Qed.
Print Assumptions C69_members_partial.
(** otherwise it runs without any membership *)
Theorem C69_no_members : forall host s k, ~ told_apart host s k -> boot_node host None s k = None.
Proof. exact boot_refused. Qed.
Print Assumptions C69_no_members.
(** nodes that follow one plan have one membership, and any majority of one node's membership
    shares a server with any majority of another's *)
Theorem C69_agree : forall host ids url i j si sj ki kj, good_plan host ids url -> i ∈ ids -> j ∈ ids ->
  follows host ids url i si ki -> follows host ids url j sj kj ->
  exists ci cj, boot_node host None si ki = Some ci /\ boot_node host None sj kj = Some cj /\
    ci ≡ₚ cj /\ (length ci = length ids) /\
    forall qi qj, majority ci qi -> majority cj qj -> exists x, x ∈ qi /\ x ∈ qj.
Proof. exact plan_agree. Qed.
Print Assumptions C69_agree.

(** the URLs here begin with tcp:// *)
Definition host6 (u : bytes) : bytes := drop 6 u.
Definition url3 (i : Z) : bytes :=
  if i =? 1 then lit "tcp://a:2222" else if i =? 2 then lit "tcp://b:2222" else lit "tcp://c:2222".
Definition section1 : cosigner_section := CosSection 2 3 (lit "tcp://a:2222") peers23 (lit "1500ms").
Definition section2 : cosigner_section :=
  CosSection 2 3 (lit "tcp://b:2222") [CPeer 3 (url3 3); CPeer 1 (url3 1)] (lit "1500ms").
Definition key_no (i : Z) : cosigner_key := CKey i [x05] [x4d] [x01] [x01] [[x01]; [x02]; [x03]].
Example ex_plan : good_plan host6 [1; 2; 3] url3.
Proof.
  split; [apply (bool_decide_unpack _); vm_compute; reflexivity|].
  split; [apply (bool_decide_unpack _); vm_compute; reflexivity|].
  intros i Hi. repeat (apply elem_of_cons in Hi as [-> |Hi]; [vm_compute; discriminate|]). by apply elem_of_nil in Hi.
Qed.
Example ex_follows1 : follows host6 [1; 2; 3] url3 1 section1 (key_no 1).
Proof. split; [done|]. split; [done|]. reflexivity. Qed.
Example ex_follows2 : follows host6 [1; 2; 3] url3 2 section2 (key_no 2).
Proof. split; [done|]. split; [done|]. cbn. apply Permutation_swap. Qed.
Example ex_told_apart : told_apart host6 section1 (key_no 1).
Proof.
  split; [apply (bool_decide_unpack _); vm_compute; reflexivity|].
  split; [apply (bool_decide_unpack _); vm_compute; reflexivity|].
  apply (bool_decide_unpack _); vm_compute; reflexivity.
Qed.
Example ex_membership : boot_node host6 None section1 (key_no 1) =
  Some [(lit "1", lit "a:2222"); (lit "2", lit "b:2222"); (lit "3", lit "c:2222")].
Proof. vm_compute. reflexivity. Qed.

(** C69 full statement: a cosigner that starts is in a raft cluster with its configured peers.
    False: a configuration that lists our own ID among the peers is accepted, and the node starts,
    but it has no membership, so it never sees a leader. *)
Theorem C69_own_id_refuted : exists c s k r, accepted wlib c /\ cf_cosigner c = Some s /\
  start_cosigner wlib c k = Some r /\ boot_node host6 None s k = None.
Proof.
  exists (cfg_of (lit "chain") 2 3 peers23). eexists _, (key_no 2).
  destruct (start_cosigner wlib (cfg_of (lit "chain") 2 3 peers23) (key_no 2)) as [r|] eqn:E;
    [|vm_compute in E; discriminate].
  exists r. split; [vm_compute; reflexivity|]. split; [reflexivity|]. split; [reflexivity|]. vm_compute. reflexivity.
Qed.
Print Assumptions C69_own_id_refuted.
(** and false after a change of the configuration: a peer added to the configuration of a node that
    has run before does not become a member *)
Theorem C69_later_change_refuted : exists c arg c' s s' k ms,
  accepted wlib c /\ cf_cosigner c = Some s /\ boot_node host6 None s k = Some ms /\
  run_cmd wlib c (PeersAdd arg) = Val c' /\ accepted wlib c' /\ cf_cosigner c' = Some s' /\
  exists p, p ∈ co_peers s' /\
    exists ms', boot_node host6 (Some ms) s' k = Some ms' /\ print_int (pe_id p) ∉ map fst ms'.
Proof.
  exists (cfg_of (lit "chain") 2 4 peers23), (lit "tcp://d:2222|4").
  eexists (cfg_of (lit "chain") 2 4 (peers23 ++ [CPeer 4 (lit "tcp://d:2222")])), _, _, (key_no 1), _.
  split; [vm_compute; reflexivity|]. split; [reflexivity|]. split; [vm_compute; reflexivity|].
  split; [vm_compute; reflexivity|]. split; [vm_compute; reflexivity|]. split; [reflexivity|].
  exists (CPeer 4 (lit "tcp://d:2222")). split.
  - apply elem_of_list_In. cbn. auto.
  - eexists. split; [reflexivity|]. apply (bool_decide_unpack _). vm_compute. reflexivity.
Qed.
Print Assumptions C69_later_change_refuted.

(** ** C70 *)

(** C70 full statement: no order of the events at start makes the process panic. Exactly two
    do: an event applied before the validator is set, and a SignBlock call after the gRPC server was
    made before the validator was set. *)
Theorem C70_crash_iff : forall f l, boot_run (boot0 f) l = Panic <->
  exists l1 op l2 b, l = l1 ++ op :: l2 /\ boot_run (boot0 f) l1 = Val b /\
    ((exists e, op = BtApply e /\ bt_open b = true /\ lss_event e /\ BtSet ∉ l1) \/
     (op = BtSignBlock /\ exists k1 k2, l1 = k1 ++ BtServe :: k2 /\ BtSet ∉ k1)).
Proof. exact crash_causes. Qed.
Print Assumptions C70_crash_iff.
(** so it cannot happen if the main goroutine is first *)
Theorem C70_set_first_partial : forall f l, boot_run (boot0 f) (BtSet :: l) <> Panic.
Proof. exact set_first. Qed.
Print Assumptions C70_set_first_partial.
(** whatever the order: if there is no panic, the entries have been applied, all and in order *)
Theorem C70_applied : forall f l b, boot_run (boot0 f) l = Val b -> bt_fsm b = apply_all (applied l) f.
Proof. intros f l b. exact (applies (boot0 f) l b). Qed.
Print Assumptions C70_applied.

Definition some_event : bytes := emit_entry (SSC (HRS 11 0 2) (Some [x01]) (Some [x02])).
Example ex_event : lss_event some_event. Proof. eexists. vm_compute. reflexivity. Qed.
Definition zero_fsm : fsm := Fsm ∅ (SS (HRS 0 0 0) None None None ∅) (SS (HRS 0 0 0) None None None ∅).
Example ex_good_start : exists b,
  boot_run (boot0 zero_fsm) [BtOpen; BtSet; BtServe; BtApply some_event; BtSignBlock] = Val b /\
  ss_hrs (f_cos (bt_fsm b)) = HRS 11 0 2.
Proof. eexists. split; [cbn; reflexivity|vm_compute; reflexivity]. Qed.

(** C70 is false: nothing orders the two goroutines. An event in the log ends the process; ... *)
Theorem C70_event_refuted : exists f l, boot_run (boot0 f) l = Panic /\ BtSignBlock ∉ l.
Proof.
  exists zero_fsm, [BtOpen; BtApply some_event; BtSet; BtServe]. split; [vm_compute; reflexivity|].
  intros H. repeat (apply elem_of_cons in H as [H|H]; [discriminate|]). by apply elem_of_nil in H.
Qed.
Print Assumptions C70_event_refuted.
(** ... and a process can come up, answer nodes, and end at every SignBlock call a follower sends it *)
Theorem C70_sign_refuted : exists f l b, boot_run (boot0 f) l = Val b /\ BtSet ∈ l /\
  boot_step b BtSignBlock = Panic /\
  forall l' b', boot_run b l' = Val b' -> boot_step b' BtSignBlock = Panic.
Proof.
  exists zero_fsm, [BtOpen; BtServe; BtSet]. eexists. split; [cbn; reflexivity|].
  split; [apply elem_of_list_further, elem_of_list_further, elem_of_list_here|]. split; [reflexivity|].
  intros l' b' H.
  assert (H2 : boot_run (boot0 zero_fsm) ([BtOpen; BtServe; BtSet] ++ l') = Val b') by (rewrite boot_run_app; exact H).
  assert (H3 : boot_run (boot0 zero_fsm) (([BtOpen; BtServe; BtSet] ++ l') ++ [BtSignBlock]) = Panic).
  { apply crash_causes. eexists _, _, [], b'. split; [done|]. split; [exact H2|]. right. split; [done|].
    exists [BtOpen], (BtSet :: l'). split; [done|]. intros Hin. apply elem_of_list_singleton in Hin. done. }
  rewrite boot_run_app, H2 in H3. cbn in H3. destruct (bt_serve b') as [[]|] eqn:E; try done.
  cbn. by rewrite E.
Qed.
Print Assumptions C70_sign_refuted.

(** ** C71 *)

(** a signer whose program name contains horcrux is noticed, and nothing is changed *)
Theorem C71_noticed_partial : forall bsd table self p hf pv share arg,
  p ∈ table -> occurs (lit "horcrux") (pc_name p) -> pc_pid p <> self ->
  (bsd = true -> ~ ancestor table (pc_pid p) self) ->
  state_set_cmd bsd table self hf pv share arg = inl SeRunning.
Proof. exact refused_when_seen. Qed.
Print Assumptions C71_noticed_partial.
(** if no other process has such a name, the command does its work *)
Theorem C71_allowed_partial : forall bsd table self hf pv share arg,
  (forall p, p ∈ table -> occurs (lit "horcrux") (pc_name p) -> pc_pid p = self \/
     (bsd = true /\ pc_pid p ∈ ancestors (length table) table self)) ->
  state_set_cmd bsd table self hf pv share arg = state_set false hf pv share arg.
Proof. exact unseen_allowed. Qed.
Print Assumptions C71_allowed_partial.

(** init, the shell, the command, bash, ps and pgrep *)
Definition table0 (name : string) : list process :=
  [Process 1 0 (lit "systemd"); Process 50 1 (lit "bash"); Process 60 50 (lit name);
   Process 61 60 (lit "bash"); Process 62 61 (lit "ps"); Process 63 61 (lit "pgrep")].
Example ex_noticed : Process 40 1 (lit "horcrux") ∈ Process 40 1 (lit "horcrux") :: table0 "horcrux" /\
  occurs (lit "horcrux") (lit "horcrux") /\ 40 <> 63.
Proof. split; [apply elem_of_list_here|]. split; [by exists [], []|done]. Qed.
Example ex_not_ancestor : ~ ancestor (Process 40 1 (lit "horcrux") :: table0 "horcrux") 40 63.
Proof.
  assert (H : forall a b, ancestor (Process 40 1 (lit "horcrux") :: table0 "horcrux") a b -> a <> 40).
  { induction 1 as [p Hp|p a Hp _ IH]; [|done].
    repeat (apply elem_of_cons in Hp as [-> |Hp]; [cbn; lia|]). by apply elem_of_nil in Hp. }
  intros Ha. by apply (H _ _ Ha).
Qed.
Example ex_allowed : forall p, p ∈ table0 "horcrux" -> occurs (lit "horcrux") (pc_name p) -> pc_pid p = 63 \/
     (true = true /\ pc_pid p ∈ ancestors (length (table0 "horcrux")) (table0 "horcrux") 63).
Proof.
  intros p Hp Hc. apply contains_iff in Hc. revert Hc. unfold table0 in Hp.
  repeat (apply elem_of_cons in Hp as [-> |Hp]; [first [by vm_compute|intros _; right; split; [done|];
    apply (bool_decide_unpack _); vm_compute; reflexivity]|]). by apply elem_of_nil in Hp.
Qed.

(** C71 full statement: `state set` is refused if and only if a signer is running. False twice. On
    Linux the command notices itself: it never does anything if its own name contains horcrux *)
Theorem C71_never_on_linux : forall table self own hf pv share arg,
  own ∈ table -> occurs (lit "horcrux") (pc_name own) -> pc_pid own <> self ->
  state_set_cmd false table self hf pv share arg = inl SeRunning.
Proof. intros. by eapply refused_when_seen. Qed.
Print Assumptions C71_never_on_linux.
Theorem C71_no_signer_refuted : exists table self own,
  own ∈ table /\ pc_name own = lit "horcrux" /\ pc_pid own <> self /\
  (forall p, p ∈ table -> occurs (lit "horcrux") (pc_name p) -> p = own) /\
  forall hf pv share arg, state_set_cmd false table self hf pv share arg = inl SeRunning.
Proof.
  exists (table0 "horcrux"), 63, (Process 60 50 (lit "horcrux")).
  assert (Hin : Process 60 50 (lit "horcrux") ∈ table0 "horcrux")
    by (apply elem_of_list_further, elem_of_list_further, elem_of_list_here).
  split; [done|]. split; [done|]. split; [done|]. split.
  - intros p Hp Hc. apply contains_iff in Hc. revert Hc.
    unfold table0 in Hp.
    repeat (apply elem_of_cons in Hp as [-> |Hp]; [by vm_compute|]). by apply elem_of_nil in Hp.
  - intros. eapply C71_never_on_linux; [exact Hin|by exists [], []|done].
Qed.
Print Assumptions C71_no_signer_refuted.
(** and a signer started from a renamed program is not noticed: its state is changed under it *)
Theorem C71_renamed_refuted : exists table self signer pv share arg j1 j2,
  signer ∈ table /\ state_set_cmd false table self HomeDefault pv share arg = inr (Some j1, Some j2).
Proof.
  exists (Process 40 1 (lit "signer-v2") :: table0 "signer-v2"), 63, (Process 40 1 (lit "signer-v2")).
  eexists (Some (marshal_state (FR 5 0 2 None None None))), (Some (marshal_state (FR 5 0 2 None None None))), (lit "9"), _, _.
  split; [apply elem_of_list_here|]. vm_compute. reflexivity.
Qed.
Print Assumptions C71_renamed_refuted.
