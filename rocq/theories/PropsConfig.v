(** C35, C47-C52, C60, C63-C65: configuration and commands (cmd/horcrux/cmd). *)
From Coq Require Import Strings.String.
From Verif Require Import GoBase Wire Canonical SignState Spec Crypto LocalCosigner CosignerSpec Json
  Utf8 Disk Toy CosignerWitness Validator ValidatorWitness Config ConfigSpec ConfigProofs
  ConfigProofs2 ConfigWitness ConfigApi.
Local Open Scope list_scope.
Local Open Scope Z_scope.

(** C35 is false: `config init` with two peers accepts every threshold up to 3, in particular 1 of
    3 (two disjoint quorums), 0 (the default of the flag) and negative ones *)
Theorem C35_threshold_refuted : forall t, t <= 3 -> exists c s,
  config_init wlib (lit "chain") (Some (lit "tcp://n:1234")) (Some (flags t)) = inr c /\
  accepted wlib c /\ cf_cosigner c = Some s /\ co_shares s = 3 /\ length (co_peers s) = 2%nat /\
  co_threshold s = t.
Proof.
  intros t Ht. exists (cfg_of (lit "chain") t 3 peers23). eexists.
  pose proof (init_any_threshold t Ht) as H. split; [exact H|].
  split; [|repeat split].
  apply init_spec in H as (? & ? & _ & _ & _ & _ & _ & _ & H). exact H.
Qed.
(** a leader with a threshold below 1 panics at the first block *)
Theorem C35_threshold_zero_panics_refuted : forall C cfg lss t b,
  vc_threshold cfg < 1 -> hrs_lt (ss_hrs lss) (b_hrs b) ->
  exists st, vrun C cfg (new_validator lss) [(VCall t b RLeader, OTau)] st /\
    vstep C cfg st (VInit t) = VCrash.
Proof. exact threshold_zero_panics. Qed.
(** what acceptance does guarantee: it is equivalent to the conditions below, which include the
    upper bound on the threshold but no lower one *)
Theorem C35_accepted_iff_partial : forall L c, accepted L c <->
  cf_chain c <> [] /\ last_ok L (cf_nodes c) /\
  exists s, cf_cosigner c = Some s /\ co_threshold s <= Z.of_nat (length (co_peers s)) + 1 /\
    lib_duration L (co_timeout s) = true /\ lib_url L (co_listen s) = true /\
    NoDup (map pe_id (co_peers s)) /\
    (forall p, p ∈ co_peers s -> 1 <= pe_id p <= co_shares s) /\
    Z.of_nat (length (co_peers s)) <> co_shares s.
Proof. exact accepted_exactly. Qed.
Theorem C35_threshold_at_most_shares_partial : forall L c s,
  accepted L c -> cf_cosigner c = Some s -> 0 <= co_shares s ->
  co_threshold s <= Z.of_nat (length (co_peers s)) + 1 <= co_shares s.
Proof. exact threshold_at_most_shares. Qed.

(** C47 holds for numbers of shares that are not negative *)
Theorem C47_exact_partial : forall l n, 0 <= n ->
  (validate_peers l n = None <->
   NoDup (map pe_id l) /\ (forall p, p ∈ l -> 1 <= pe_id p <= n) /\ Z.of_nat (length l) < n).
Proof. exact peers_ok_iff. Qed.
(** a negative number of shares is accepted for the empty list (`peers set-shares -1`) *)
Theorem C47_negative_refuted : forall n, n < 0 ->
  validate_peers [] n = None /\ ~ Z.of_nat (length (@nil cpeer)) < n.
Proof. exact negative_shares. Qed.
Example C47_example :
  validate_peers peers23 3 = None /\ validate_peers peers23 2 = Some CeRange /\
  validate_peers (CPeer 1 [] :: peers23) 3 = Some CeTooMany /\
  validate_peers (peers23 ++ [CPeer 2 []]) 5 = Some CeDuplicate.
Proof. vm_compute. repeat split. Qed.

(** C48 is false: `peers remove` can leave fewer cosigners than the threshold *)
Theorem C48_remove_refuted : exists L c c' arg,
  accepted L c /\ run_cmd L c (PeersRemove arg) = Val c' /\ ~ accepted L c'.
Proof.
  exists wlib, (cfg_of (lit "chain") 3 3 peers23),
    (cfg_of (lit "chain") 3 3 [CPeer 3 (lit "tcp://c:2222")]), (lit "2").
  exact remove_below_threshold.
Qed.
(** any sequence of commands, failing ones included, keeps every other condition; so the result is
    accepted iff the threshold is still reachable *)
Theorem C48_cmds_partial : forall L c cmds, accepted L c ->
  (accepted L (after_cmds L c cmds) <-> threshold_ok (after_cmds L c cmds)).
Proof. exact cmds_accepted_iff. Qed.
Theorem C48_without_remove_partial : forall L c cmds,
  accepted L c -> Forall (fun cmd => ~ is_remove cmd) cmds -> accepted L (after_cmds L c cmds).
Proof. exact cmds_no_remove. Qed.
Theorem C48_single_signer : forall L c cmds,
  accepted_single L c -> cf_cosigner c = None -> accepted_single L (after_cmds L c cmds).
Proof. exact cmds_single. Qed.
Theorem C48_failure_changes_nothing : forall L c cmd,
  (forall c', run_cmd L c cmd <> Val c') -> after_cmd L c cmd = c.
Proof. exact failed_cmd. Qed.
(** the effect of each successful command on the configuration *)
Theorem C48_effects : forall L c cmd c', run_cmd L c cmd = Val c' ->
  match cmd with
  | NodesAdd arg => c' = with_nodes c (cf_nodes c ++ filter (fun n => n ∉ cf_nodes c) (split ","%byte arg)) /\
      exists n, n ∈ split ","%byte arg /\ n ∉ cf_nodes c
  | NodesRemove arg => c' = with_nodes c (filter (fun n => n ∉ split ","%byte arg) (cf_nodes c)) /\
      cf_nodes c' <> []
  | PeersAdd arg => exists s l, cf_cosigner c = Some s /\ flag_of arg l /\
      c' = with_section c (with_peers s (co_peers s ++ filter (fun p => p ∉ co_peers s) l)) /\
      exists p, p ∈ l /\ p ∉ co_peers s
  | PeersRemove arg => exists s ids, cf_cosigner c = Some s /\
      Forall2 (fun x i => decimal x i /\ in_int64 i) (split ","%byte arg) ids /\
      c' = with_section c (with_peers s (filter (fun p => pe_id p ∉ ids) (co_peers s))) /\
      filter (fun p => pe_id p ∉ ids) (co_peers s) <> []
  | SetShares arg => exists s n, cf_cosigner c = Some s /\ decimal arg n /\
      c' = with_section c (CosSection (co_threshold s) n (co_listen s) (co_peers s) (co_timeout s))
  end.
Proof. exact cmd_effects. Qed.
Example C48_example :
  after_cmds wlib (cfg_of (lit "chain") 2 3 peers23)
    [SetShares (lit "4"); PeersAdd (lit "tcp://d:2222|4,tcp://b:2222|2"); PeersAdd (lit "x|1");
     PeersRemove (lit "3"); NodesAdd (lit "tcp://m:1")]
  = Config (lit "chain")
      (Some (CosSection 2 4 (lit "tcp://a:2222")
               [CPeer 2 (lit "tcp://b:2222"); CPeer 4 (lit "tcp://d:2222")] (lit "1500ms")))
      [lit "tcp://n:1234"; lit "tcp://m:1"].
Proof. vm_compute. reflexivity. Qed.

(** C49 is false: only the last address matters *)
Theorem C49_first_ignored_refuted : forall L bad good,
  lib_url L bad = false -> lib_url L good = true -> validate_nodes L [bad; good] = None.
Proof. exact first_ignored. Qed.
Theorem C49_last_checked_partial : forall L l,
  validate_nodes L l = None <-> (forall n, list.last l = Some n -> lib_url L n = true).
Proof. exact nodes_iff. Qed.
Example C49_example : lib_url wlib [x01] = false /\ lib_url wlib (lit "tcp://a") = true.
Proof. vm_compute. split; reflexivity. Qed.

(** C50: the accepted strings are those of the grammar, with the peers they denote *)
Theorem C50_parse_exact : forall s l, peers_from_flag s = inr l <-> flag_of s l.
Proof. exact peers_from_iff. Qed.
Theorem C50_round_trip : forall l, l <> [] ->
  (forall p, p ∈ l -> plain (pe_addr p) /\ in_int64 (pe_id p)) -> peers_from_flag (render l) = inr l.
Proof. exact parse_render. Qed.
Theorem C50_numbers : forall s z, go_atoi s = Some z <-> decimal s z /\ in_int64 z.
Proof. exact atoi_iff. Qed.
Example C50_example : render peers23 = lit "tcp://b:2222|2,tcp://c:2222|3" /\
  peers_from_flag (lit "tcp://b:2222|2,tcp://c:2222|3") = inr peers23 /\
  peers_from_flag (lit "tcp://b:2222|2,") = inl CePeerString /\
  peers_from_flag (lit "a|+7") = inr [CPeer 7 (lit "a")] /\
  peers_from_flag (lit "a|7x") = inl CeNumber.
Proof. vm_compute. repeat split. Qed.

(** C51: whatever part of the command was carried out, a cosigner that starts afterwards has the
    share state the configured chain had before *)
Theorem C51_crash_safe : forall L c new h h' s,
  hm_config h = Some c -> set_chain c new h h' -> start_share L h' = Some s ->
  load (hm_files h !! share_path (cf_chain c)) = Some s.
Proof. exact set_chain_safe. Qed.
(** and after a complete execution it does start (unless the new ID is empty) *)
Theorem C51_complete : forall L c new h h1 h2 s,
  hm_config h = Some c -> accepted L c -> new <> [] ->
  rename (pv_path (cf_chain c)) (pv_path new) h = Some h1 ->
  rename (share_path (cf_chain c)) (share_path new) h1 = Some h2 ->
  load (hm_files h !! share_path (cf_chain c)) = Some s ->
  start_share L (Home (Some (Config new (cf_cosigner c) (cf_nodes c))) (hm_files h2)) = Some s.
Proof. exact set_chain_complete. Qed.

Example C51_example :
  set_chain (cfg_of (lit "a") 2 3 peers23) (lit "b") two_chains (moved two_chains (lit "a") (lit "b")) /\
  start_share wlib (moved two_chains (lit "a") (lit "b")) <> None.
Proof. split; apply overwritten_watermark. Qed.

(** C63 is false: the command silently replaces the state of the chain with the new ID *)
Theorem C63_overwrites_refuted : exists L c new h h' k k',
  hm_config h = Some c /\ set_chain c new h h' /\ start_share L h' <> None /\
  watermark (hm_files h !! share_path new) = Some k /\
  watermark (hm_files h' !! share_path new) = Some k' /\ hrs_lt k' k.
Proof. exact set_chain_overwrites. Qed.
(** C63 when that chain has no files, or the ID does not change: no state is lost. The two files
    of the old chain are the two files of the new one, every other file is as before. *)
Theorem C63_no_state_lost_partial : forall c new h h1 h2,
  (new = cf_chain c \/ hm_files h !! share_path new = None /\ hm_files h !! pv_path new = None) ->
  rename (pv_path (cf_chain c)) (pv_path new) h = Some h1 ->
  rename (share_path (cf_chain c)) (share_path new) h1 = Some h2 ->
  hm_files h2 !! share_path new = hm_files h !! share_path (cf_chain c) /\
  hm_files h2 !! pv_path new = hm_files h !! pv_path (cf_chain c) /\
  forall n b, hm_files h !! n = Some b -> exists n', hm_files h2 !! n' = Some b /\
    (n <> share_path (cf_chain c) -> n <> pv_path (cf_chain c) -> n' = n).
Proof. exact set_chain_no_loss. Qed.

Example C63_example :
  hm_files two_chains !! share_path (lit "c") = None /\ hm_files two_chains !! pv_path (lit "c") = None /\
  watermark (hm_files (moved two_chains (lit "a") (lit "c")) !! share_path (lit "c")) = Some (HRS 5 0 3) /\
  watermark (hm_files (moved two_chains (lit "a") (lit "c")) !! share_path (lit "b")) = Some (HRS 100 0 3).
Proof. vm_compute. repeat split. Qed.

(** C64: a configuration written by `config init` leaves exactly one ID for the local cosigner *)
Theorem C64_one_id_left : forall L chain nodes f c,
  config_init L chain nodes (Some f) = inr c ->
  exists s i, cf_cosigner c = Some s /\ accepted L c /\ flag_of (if_peers f) (co_peers s) /\
    1 <= i <= co_shares s /\ i ∉ map pe_id (co_peers s) /\
    (forall j, 1 <= j <= co_shares s -> j <> i -> j ∈ map pe_id (co_peers s)).
Proof. exact init_one_left. Qed.
Example C64_example :
  config_init wlib (lit "chain") (Some (lit "tcp://n:1234")) (Some (flags 2))
  = inr (cfg_of (lit "chain") 2 3 peers23).
Proof. exact (init_any_threshold 2 ltac:(lia)). Qed.

(** C52 is false: with more shares than cosigners the IDs exceed the slices *)
Theorem C52_index_refuted : exists L c k r,
  accepted L c /\ start_cosigner L c k = Some r /\
  (exists lss hk p rnd, cstep toy (ru_cos r) (new_cosigner lss) (OpSet hk p rnd) = None) /\
  (exists lss st l t w a, vrun toy (ru_val r) (new_validator lss) l st /\
     vstep toy (ru_val r) st (VSig t w a) = VCrash).
Proof. exact index_panics. Qed.
(** C52 when there are as many shares as cosigners (as `config init` writes it), fewer than 256,
    and the local ID is one of them: no request makes the cosigner or the leader panic when
    storing parts or signatures *)
Theorem C52_one_per_share_partial : forall C L c k r,
  deals C -> start_cosigner L c k = Some r -> one_per_share c k ->
  (forall lss l st, crun C (ru_cos r) (new_cosigner lss) l st ->
    (forall hk id rnd, cstep C (ru_cos r) st (OpGet hk id rnd) <> None) /\
    (forall hk p rnd, cstep C (ru_cos r) st (OpSet hk p rnd) <> None)) /\
  (forall lss l st t w a, vrun C (ru_val r) (new_validator lss) l st ->
    vstep C (ru_val r) st (VSig t w a) <> VCrash).
Proof. exact index_safe. Qed.
(** and nothing else makes the leader panic but a threshold below 1 (which does, C35_threshold_zero_panics_refuted) or the library
    that combines shares *)
Theorem C52_leader_partial : forall C L c k r lss l st op,
  deals C -> start_cosigner L c k = Some r -> one_per_share c k ->
  vrun C (ru_val r) (new_validator lss) l st -> vstep C (ru_val r) st op = VCrash ->
  vc_threshold (ru_val r) < 1 \/
  exists ids shares, length ids = length shares /\ vc_threshold (ru_val r) <= Z.of_nat (length ids) /\
    cr_combine C (v_total (ru_val r)) ids shares = None.
Proof. exact leader_panics. Qed.
Example C52_example :
  deals toy /\ accepted wlib (cfg_of (lit "chain") 2 3 peers23) /\
  one_per_share (cfg_of (lit "chain") 2 3 peers23) key1 /\
  exists r, start_cosigner wlib (cfg_of (lit "chain") 2 3 peers23) key1 = Some r.
Proof. split; [exact toy_deals|exact narrow_ok]. Qed.

(** C60: no file goes down, whether or not the writes started by the command happen *)
Theorem C60_never_lowers : forall running hf pv share arg j1 j2 d1 d2,
  state_set running hf pv share arg = inr (j1, j2) ->
  exists k1 k1' k2 k2', watermark pv = Some k1 /\ watermark share = Some k2 /\
    watermark (after_write pv j1 d1) = Some k1' /\ watermark (after_write share j2 d2) = Some k2' /\
    hrs_le k1 k1' /\ hrs_le k2 k2'.
Proof. exact state_set_mono. Qed.
(** the second half is false: the command may succeed and exit before either file is written *)
Theorem C60_lost_write_refuted : exists pv share arg j1 j2 k,
  decimal arg 9 /\ state_set false HomeDefault pv share arg = inr (j1, j2) /\
  watermark (after_write pv j1 false) = Some k /\ watermark (after_write share j2 false) = Some k /\
  h_height k < 9.
Proof. exact state_set_lost_ex. Qed.
Theorem C60_when_written_partial : forall running hf pv share arg h j1 j2,
  decimal arg h -> state_set running hf pv share arg = inr (j1, j2) ->
  raised_to h pv (after_write pv j1 true) /\ raised_to h share (after_write share j2 true).
Proof. exact state_set_raises. Qed.

Example C60_example :
  match state_set false HomeDefault f5 f5 (lit "9") with
  | inr (Some j1, Some j2) => watermark (Some j1) = Some (HRS 9 0 0) /\ j2 = j1
  | _ => False
  end.
Proof. exact state_set_runs. Qed.

(** C65 is false in every case: with --home the command always fails *)
Theorem C65_home_flag_refuted : forall running dir_exists pv share arg,
  (dir_exists = false -> pv = None) ->
  exists err, state_set running (HomeGiven dir_exists) pv share arg = inl err.
Proof. exact state_set_home. Qed.
Theorem C65_default_home_partial : forall pv share arg h s1 s2,
  load pv = Some s1 -> load share = Some s2 -> decimal arg h -> in_int64 h ->
  exists j1 j2, state_set false HomeDefault pv share arg = inr (j1, j2).
Proof. exact state_set_default. Qed.

Print Assumptions C35_threshold_refuted.
Print Assumptions C35_threshold_zero_panics_refuted.
Print Assumptions C35_accepted_iff_partial.
Print Assumptions C35_threshold_at_most_shares_partial.
Print Assumptions C47_exact_partial.
Print Assumptions C47_negative_refuted.
Print Assumptions C48_remove_refuted.
Print Assumptions C48_cmds_partial.
Print Assumptions C48_without_remove_partial.
Print Assumptions C48_single_signer.
Print Assumptions C48_failure_changes_nothing.
Print Assumptions C48_effects.
Print Assumptions C49_first_ignored_refuted.
Print Assumptions C49_last_checked_partial.
Print Assumptions C50_parse_exact.
Print Assumptions C50_round_trip.
Print Assumptions C50_numbers.
Print Assumptions C51_crash_safe.
Print Assumptions C51_complete.
Print Assumptions C63_overwrites_refuted.
Print Assumptions C63_no_state_lost_partial.
Print Assumptions C64_one_id_left.
Print Assumptions C52_index_refuted.
Print Assumptions C52_one_per_share_partial.
Print Assumptions C52_leader_partial.
Print Assumptions C60_never_lowers.
Print Assumptions C60_lost_write_refuted.
Print Assumptions C60_when_written_partial.
Print Assumptions C65_home_flag_refuted.
Print Assumptions C65_default_home_partial.
