(** The facts about configuration in the form used by PropsConfig.v *)
From Coq Require Import Strings.String.
From Verif Require Import GoBase Wire Canonical SignState Spec SignStateProofs Crypto LocalCosigner
  CosignerSpec Json Utf8 Disk Toy CosignerWitness Validator ValidatorWitness Config ConfigSpec
  ConfigProofs ConfigProofs2 ConfigWitness.
Local Open Scope list_scope.
Local Open Scope Z_scope.

Lemma threshold_zero_panics C cfg lss t b :
  vc_threshold cfg < 1 -> hrs_lt (ss_hrs lss) (b_hrs b) ->
  exists st, vrun C cfg (new_validator lss) [(VCall t b RLeader, OTau)] st /\
    vstep C cfg st (VInit t) = VCrash.
Proof.
  intros Ht Hk. exists (set_pc (new_validator lss) t b PcInit).
  split; [by econstructor; [|constructor]|].
  cbn [vstep op_thread set_pc vs_threads]. rewrite lookup_insert. cbn [thread_step].
  unfold do_init. cbn [vs_init set_pc new_validator].
  set (i := SS (ss_hrs lss) None None None ∅).
  assert (E : (save i (new_consensus (b_hrs b))).2 = None) by (apply save_ok_iff; done).
  destruct (save i (new_consensus (b_hrs b))) as [i' err]. simpl in E. subst err.
  unfold start. destruct (Z.ltb_spec (vc_threshold cfg - 1) 0); [done|lia].
Qed.

Lemma accepted_exactly L c : accepted L c <->
  cf_chain c <> [] /\ last_ok L (cf_nodes c) /\
  exists s, cf_cosigner c = Some s /\ co_threshold s <= Z.of_nat (length (co_peers s)) + 1 /\
    lib_duration L (co_timeout s) = true /\ lib_url L (co_listen s) = true /\
    NoDup (map pe_id (co_peers s)) /\
    (forall p, p ∈ co_peers s -> 1 <= pe_id p <= co_shares s) /\
    Z.of_nat (length (co_peers s)) <> co_shares s.
Proof.
  rewrite accepted_iff. split.
  - intros [(H1 & H2 & s & Hs & H3) (s' & Hs' & Ht)]. split; [done|]. split; [done|].
    rewrite Hs in Hs'. injection Hs' as <-. exists s. done.
  - intros (H1 & H2 & s & Hs & Ht & H3). split; [|by exists s].
    split; [done|]. split; [done|]. exists s. done.
Qed.
Lemma threshold_at_most_shares L c s :
  accepted L c -> cf_cosigner c = Some s -> 0 <= co_shares s ->
  co_threshold s <= Z.of_nat (length (co_peers s)) + 1 <= co_shares s.
Proof.
  intros H Hs H0. apply accepted_exactly in H as (_ & _ & s' & Hs' & Ht & _ & _ & Hn & Hr & Hl).
  rewrite Hs in Hs'. injection Hs' as <-. pose proof (pigeonhole _ _ Hn Hr H0). lia.
Qed.
Lemma negative_shares n : n < 0 ->
  validate_peers [] n = None /\ ~ Z.of_nat (length (@nil cpeer)) < n.
Proof.
  intros H. split; [|simpl; lia]. apply validate_peers_iff. split; [constructor|]. split; [|simpl; lia].
  intros p Hp. inversion Hp.
Qed.
Lemma cmds_accepted_iff L c cmds : accepted L c ->
  (accepted L (after_cmds L c cmds) <-> threshold_ok (after_cmds L c cmds)).
Proof.
  intros H. split.
  - intros H'. by apply accepted_iff in H' as [_ H'].
  - by apply cmds_accepted.
Qed.
Lemma failed_cmd L c cmd : (forall c', run_cmd L c cmd <> Val c') -> after_cmd L c cmd = c.
Proof. intros H. unfold after_cmd. destruct (run_cmd L c cmd) as [c'| |] eqn:E; [by destruct (H c')|done..]. Qed.

Lemma mapM_atoi l ids : mapM go_atoi l = Some ids ->
  Forall2 (fun x i => decimal x i /\ in_int64 i) l ids.
Proof.
  intros H. apply mapM_Some in H. eapply Forall2_impl; [exact H|]. intros x i Hx. by apply atoi_iff.
Qed.
Lemma cmd_effects L c cmd c' : run_cmd L c cmd = Val c' ->
  match cmd with
  | NodesAdd arg => c' = with_nodes c (cf_nodes c ++ filter (fun n => n ∉ cf_nodes c) (split ","%byte arg)) /\
      exists n, n ∈ split ","%byte arg /\ n ∉ cf_nodes c
  | NodesRemove arg => c' = with_nodes c (filter (fun n => n ∉ split ","%byte arg) (cf_nodes c)) /\
      cf_nodes c' <> []
  | PeersAdd arg => exists s l, cf_cosigner c = Some s /\ flag_of arg l /\
      c' = with_section c (with_peers s (co_peers s ++ filter (fun p => p ∉ co_peers s) l)) /\
      exists p, p ∈ l /\ p ∉ co_peers s
  | PeersRemove arg => exists s ids, cf_cosigner c = Some s /\
      Forall2 (fun x i => decimal x i /\ in_int64 i) (split ","%byte arg) ids /\
      c' = with_section c (with_peers s (filter (fun p => pe_id p ∉ ids) (co_peers s))) /\
      filter (fun p => pe_id p ∉ ids) (co_peers s) <> []
  | SetShares arg => exists s n, cf_cosigner c = Some s /\ decimal arg n /\
      c' = with_section c (CosSection (co_threshold s) n (co_listen s) (co_peers s) (co_timeout s))
  end.
Proof.
  intros H. destruct cmd.
  - apply nodes_add_spec in H as (H1 & H2 & _). done.
  - apply nodes_remove_spec in H as (H1 & H2 & _). done.
  - apply peers_add_spec in H as (s & l & H1 & H2 & H3 & H4 & _). exists s, l. done.
  - apply peers_remove_spec in H as (s & ids & H1 & H2 & H3 & H4 & _). exists s, ids.
    split; [done|]. split; [by apply mapM_atoi|done].
  - apply set_shares_spec in H as (s & n & H1 & H2 & H3 & _). exists s, n. done.
Qed.
Lemma first_ignored L bad good :
  lib_url L bad = false -> lib_url L good = true -> validate_nodes L [bad; good] = None.
Proof. intros _ H. unfold validate_nodes. simpl. by rewrite H. Qed.

Lemma set_chain_overwrites : exists L c new h h' k k',
  hm_config h = Some c /\ set_chain c new h h' /\ start_share L h' <> None /\
  watermark (hm_files h !! share_path new) = Some k /\
  watermark (hm_files h' !! share_path new) = Some k' /\ hrs_lt k' k.
Proof.
  destruct overwritten_watermark as (H1 & H2 & H3 & H4).
  exists wlib, (cfg_of (lit "a") 2 3 peers23), (lit "b"), two_chains, (moved two_chains (lit "a") (lit "b")),
    (HRS 100 0 3), (HRS 5 0 3).
  split; [done|]. split; [done|]. split; [done|]. split; [done|]. split; [done|]. left. simpl. lia.
Qed.
Lemma set_chain_no_loss c new h h1 h2 :
  (new = cf_chain c \/ hm_files h !! share_path new = None /\ hm_files h !! pv_path new = None) ->
  rename (pv_path (cf_chain c)) (pv_path new) h = Some h1 ->
  rename (share_path (cf_chain c)) (share_path new) h1 = Some h2 ->
  hm_files h2 !! share_path new = hm_files h !! share_path (cf_chain c) /\
  hm_files h2 !! pv_path new = hm_files h !! pv_path (cf_chain c) /\
  forall n b, hm_files h !! n = Some b -> exists n', hm_files h2 !! n' = Some b /\
    (n <> share_path (cf_chain c) -> n <> pv_path (cf_chain c) -> n' = n).
Proof.
  intros Hf H1 H2. destruct (both_renames _ _ _ _ _ H1 H2) as (Hs & Hp & _ & Ho).
  split; [done|]. split; [done|]. intros n b Hn.
  destruct (decide (n = share_path (cf_chain c))) as [->|N1].
  { exists (share_path new). rewrite Hs. split; [done|]. intros Hx. done. }
  destruct (decide (n = pv_path (cf_chain c))) as [->|N2].
  { exists (pv_path new). rewrite Hp. split; [done|]. intros _ Hx. done. }
  exists n. split; [|done]. rewrite Ho; [done| | |done|done].
  - intros ->. destruct Hf as [->|[Hf _]]; [done|congruence].
  - intros ->. destruct Hf as [->|[_ Hf]]; [done|congruence].
Qed.

Lemma init_one_left L chain nodes f c : config_init L chain nodes (Some f) = inr c ->
  exists s i, cf_cosigner c = Some s /\ accepted L c /\ flag_of (if_peers f) (co_peers s) /\
    1 <= i <= co_shares s /\ i ∉ map pe_id (co_peers s) /\
    (forall j, 1 <= j <= co_shares s -> j <> i -> j ∈ map pe_id (co_peers s)).
Proof.
  intros H. apply init_spec in H as (peers & s & Hf & _ & Hs & Hp & Hsh & _ & Ha).
  pose proof Ha as Ha'. apply accepted_exactly in Ha' as (_ & _ & s' & Hs' & _ & _ & _ & Hn & Hr & _).
  rewrite Hs in Hs'. injection Hs' as <-. subst peers.
  rewrite Hsh in Hr. destruct (one_left _ Hn Hr) as (i & Hi & Hni & Hall).
  exists s, i. rewrite Hsh. done.
Qed.

Lemma index_panics : exists L c k r,
  accepted L c /\ start_cosigner L c k = Some r /\
  (exists lss hk p rnd, cstep toy (ru_cos r) (new_cosigner lss) (OpSet hk p rnd) = None) /\
  (exists lss st l t w a, vrun toy (ru_val r) (new_validator lss) l st /\
     vstep toy (ru_val r) st (VSig t w a) = VCrash).
Proof.
  destruct wide_panics as (H1 & H2 & H3 & st & l & H4 & H5).
  exists wlib, wide, wide_key, wide_run. split; [done|]. split; [done|]. split.
  - exists (loaded_state (HRS 10 0 0) None None None), (wkey 11 1), part4, (Some (toy_enc 3, toy_enc 4)).
    exact H3.
  - exists lss10, st, l, 7%nat, 1%nat, (Some (toy_enc 1, toy_enc 2)). done.
Qed.

Lemma state_set_lost_ex : exists pv share arg j1 j2 k,
  decimal arg 9 /\ state_set false HomeDefault pv share arg = inr (j1, j2) /\
  watermark (after_write pv j1 false) = Some k /\ watermark (after_write share j2 false) = Some k /\
  h_height k < 9.
Proof.
  destruct state_set_lost as (j1 & j2 & H1 & H2 & H3).
  exists f5, f5, (lit "9"), j1, j2, (HRS 5 0 3). split.
  { assert (E : go_atoi (lit "9") = Some 9) by (vm_compute; reflexivity). by apply atoi_iff in E as [E _]. }
  split; [done|]. split; [done|]. split; [done|]. simpl. lia.
Qed.
Lemma state_set_default pv share arg h s1 s2 :
  load pv = Some s1 -> load share = Some s2 -> decimal arg h -> in_int64 h ->
  exists j1 j2, state_set false HomeDefault pv share arg = inr (j1, j2).
Proof.
  intros H1 H2 Hd Hr. unfold state_set. rewrite H1, H2, (proj2 (atoi_iff arg h)) by done. eauto.
Qed.

(** the leader can only panic where there is no threshold or in the library that combines shares *)
Lemma leader_panics C L c k r lss l st op :
  deals C -> start_cosigner L c k = Some r -> one_per_share c k ->
  vrun C (ru_val r) (new_validator lss) l st -> vstep C (ru_val r) st op = VCrash ->
  vc_threshold (ru_val r) < 1 \/
  exists ids shares, length ids = length shares /\ vc_threshold (ru_val r) <= Z.of_nat (length ids) /\
    cr_combine C (v_total (ru_val r)) ids shares = None.
Proof.
  intros HC Hs Ho Hr Hop. destruct (Z.lt_ge_cases (vc_threshold (ru_val r)) 1) as [|Ht]; [by left|]. right.
  pose proof (proj2 (index_safe C L c k r HC Hs Ho)) as Hsig.
  assert (Hst : forall st t b, start (ru_val r) st t b <> VCrash).
  { intros st' t b. unfold start. destruct (Z.ltb_spec (vc_threshold (ru_val r) - 1) 0); [lia|done]. }
  destruct op as [t b r'|t x|t|t|t|t x|t w x|t|t w o|t w x|t|t|t|t x|x];
    try (exfalso; by apply (Hsig lss l st t w x Hr));
    try (cbn [vstep op_thread] in Hop; destruct (vs_threads st !! t) as [[b pc]|]; [|done];
         destruct pc; cbn [thread_step] in Hop; try done).
  - cbn [vstep] in Hop. destruct (vs_threads st !! t); [done|]. by destruct r'.
  - unfold do_init in Hop. destruct (save _ _) as [i [[]|]]; try done. by apply Hst in Hop.
  - unfold do_poll in Hop. destruct (get_existing (vs_lss st) b) as [[sig|]|e|] eqn:E; try done.
    + by apply Hst in Hop.
    + destruct e; try done. by case_bool_decide.
    + unfold get_existing in E. destruct (get_from_cache _ _) as [k' [c'|]].
      * destruct (_ || _); [done|]. by destruct (only_differ_by_timestamp _ _ _).
      * cbv zeta in E. by destruct (_ || _).
  - unfold do_late in Hop. by destruct (get_existing _ _).
  - destruct own; [done|]. by destruct x.
  - unfold do_parts in Hop. destruct (id_of _ _); [|done]. by case_bool_decide.
  - destruct own; [|done]. unfold do_go in Hop. by destruct (_ =? _).
  - unfold do_ask in Hop. destruct (id_of _ _); [|done]. by case_bool_decide.
  - by destruct own.
  - unfold do_finish in Hop. destruct (_ =? _); [|done]. cbv zeta in Hop. destruct (Z.ltb_spec (Z.of_nat (length (collect_sigs 0 sigs))) (vc_threshold (ru_val r))) as [|Hl]; [done|].
    destruct (cr_combine C _ _ _) as [x|] eqn:E; [by destruct (cr_verify _ _ _ _)|].
    eexists _, _. split; [|split; [|exact E]]; rewrite ?map_length; done.
  - unfold do_save in Hop. destruct (save _ _) as [i [[]|]]; done.
  - cbn [vstep] in Hop. by destruct (save _ _).
Qed.
