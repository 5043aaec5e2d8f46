(** Requests made again (C74, C75). *)
From Verif Require Import GoBase Wire Canonical SignState Spec SignStateProofs Crypto LocalCosigner Poly Scheme RoundSpec
  RoundProofs Validator ValidatorProofs Config KeyShares KeySharesSpec KeySharesProofs Json Disk Raft RaftSpec System SystemSpec
  SystemProofs SystemLiveSpec SystemLive FailoverSpec.
Local Open Scope Z_scope.

Lemma idx_nonneg {A} (l : list A) i x : 1 <= i -> idx l (i - 1) = Some x -> l !! Z.to_nat (i - 1) = Some x.
Proof. unfold idx. destruct (Z.ltb_spec (i - 1) 0); [lia|done]. Qed.

Section Ready.
Context (C : Crypto) (R : reading) (n t : Z) (k : hrst).
(** asking for parts leaves a cosigner ready *)
Lemma get_ready cfg st i id rnd st' o : cc_id cfg = i -> cc_total cfg = n -> cc_threshold cfg = t -> 1 <= i ->
  ready C R n t i st k -> (exists s r, gr_deal rnd = Some (s, r) /\ rd_is_scalar R s) ->
  get_part C cfg st k id rnd = (st', o) -> o <> Panic -> ready C R n t i st' k.
Proof.
  intros Hid Htot Hthr Hi [Hm Hlt] (s & r & Hdeal & Hs) Hg Ho.
  assert (Hst : exists st1 m own st2, ensure_meta C cfg st k k (gr_deal rnd) = (st1, Val m) /\
    idx (m_dealt m) (i - 1) = Some own /\ set_slot st1 m (i - 1) (PM own (cr_base C (m_secret m))) = Some st2 /\ st' = st2).
  { unfold get_part in Hg. rewrite Hid in Hg.
    destruct (ensure_meta C cfg st k k (gr_deal rnd)) as [st1 [m|e|]] eqn:Ee.
    - destruct (idx (m_dealt m) (i - 1)) as [own|] eqn:Eo; [|injection Hg as <- <-; done].
      destruct (set_slot st1 m (i - 1) (PM own (cr_base C (m_secret m)))) as [st2|] eqn:Es; [|injection Hg as <- <-; done].
      exists st1, m, own, st2. split; [done|]. split; [done|]. split; [done|].
      destruct (cc_peers cfg !! id); [|by injection Hg as <- <-].
      destruct (idx (m_dealt m) (id - 1)); [|by injection Hg as <- <-].
      destruct (cr_encrypt C _ _ _); [|by injection Hg as <- <-].
      destruct (cr_rsa_sign C _ _ _); by injection Hg as <- <-.
    - exfalso. unfold ensure_meta, deal_shares in Ee. rewrite Hdeal in Ee. by destruct (cs_meta st !! k).
    - injection Hg as <- <-. done. }
  destruct Hst as (st1 & m & own & st2 & He & Hown & Hset & ->). apply idx_nonneg in Hown; [|done].
  unfold set_slot, idx_set in Hset. destruct (idx (peers_of st1 m) (i - 1)) as [x|] eqn:Ex; [|done]. injection Hset as <-.
  destruct Hm as [Hm|(s0 & r0 & ref & own0 & Hm & Hs0 & Hown0 & Hheap)].
  - unfold ensure_meta, deal_shares in He. rewrite Hm, Hdeal, Htot, Hthr in He. injection He as <- <-.
    split; [right|exact Hlt]. exists s, r, (cs_next st), own. simpl. rewrite !lookup_insert. split; [done|]. split; [done|].
    split; [done|]. unfold peers_of. simpl. rewrite lookup_insert. done.
  - unfold ensure_meta in He. rewrite Hm in He. injection He as <- <-. simpl in Hown. rewrite Hown0 in Hown. injection Hown as <-.
    split; [right|exact Hlt]. exists s0, r0, ref, own0. simpl. rewrite !lookup_insert. split; [done|]. split; [done|].
    split; [done|]. unfold peers_of. simpl. rewrite Hheap. simpl. by rewrite list_insert_insert.
Qed.
End Ready.

Section Failover.
Context (C : Crypto) (R : reading) (HS : threshold_scheme C R) (pub : bytes) (t n : Z) (K : sysconf).
Context (Hn : 2 <= n <= rd_max R) (Hn' : n <= 255) (Ht : 1 <= t <= n) (Hd : deployed C R pub t n K).
Context (faulty : gset Z) (S0 : system).
Notation srun := (srun C K faulty S0).

Lemma deployed_cos i : 1 <= i <= n -> cc_id (sc_cos K i) = i /\ cc_total (sc_cos K i) = n /\ cc_threshold (sc_cos K i) = t.
Proof.
  destruct Hd as (expand & rnd & gens & L & sk0 & ks & c & r & Hg & Hkp & Hcs & Hruns). intros Hi.
  destruct (runs_member C R HS expand rnd gens L pub sk0 t n ks Hn Hn' Ht Hg Hkp Hcs) as (a & sk & _ & _ & Hmem).
  destruct (Hruns i Hi) as (Hr & _ & ->). destruct (Hmem i _ _ Hr Hi) as (H1 & _ & _ & _ & _ & H2 & H3 & _). done.
Qed.
Lemma participants_range j : job_ok R n K j -> forall i, i ∈ participants K j -> 1 <= i <= n.
Proof.
  intros (_ & Hlead & Hq & _) i Hin.
  destruct Hd as (expand & rnd & gens & L & sk0 & ks & c & r & Hg & Hkp & Hcs & Hruns).
  destruct (Hruns _ Hlead) as (Hr & Ev & _).
  assert (Hids : all_ids (sc_val K (jb_leader j)) n).
  { destruct (runs_val C expand rnd gens L pub sk0 t n ks Hcs (jb_leader j) (c (jb_leader j)) (r (jb_leader j))) as (Hx & _); [done|done|]. by rewrite Ev. }
  apply elem_of_list_fmap in Hin as (x & -> & Hx).
  assert (HW : is_Some (id_of (sc_val K (jb_leader j)) x)).
  { apply elem_of_app in Hx as [Hx|Hx]; [by apply Hq|]. apply elem_of_list_singleton in Hx as ->. by eexists. }
  destruct HW as [q Hk]. unfold idw. rewrite Hk. by eapply RoundProofs3.id_range.
Qed.

(** one event of an earlier attempt *)
Lemma keeps_new h S e S' o j : job_ok R n K j -> sstep C K faulty h S e = Some (S', o) ->
  only_collected R K j [(e, o)] -> is_new C R t n K S j -> is_new C R t n K S' j.
Proof.
  intros Hj Hs Hoc [N1 N2]. specialize (Hoc e o ltac:(left)).
  (* what a change of one host has to respect *)
  assert (Hupd : forall i m m', sy_hosts S !! i = Some m ->
     (i = jb_leader j -> vs_init (ho_val m') = vs_init (ho_val m) /\ vs_lss (ho_val m') = vs_lss (ho_val m)) ->
     (i ∈ participants K j -> ready C R n t i (cn_cos (ho_cos m)) (b_key (jb_block j)) ->
        ready C R n t i (cn_cos (ho_cos m')) (b_key (jb_block j))) -> is_new C R t n K (upd S i m') j).
  { intros i m m' Hm Hv Hc. split.
    - intros q Hq. simpl in Hq. destruct (decide (jb_leader j = i)) as [E|Hne].
      + rewrite E, lookup_insert in Hq. injection Hq as <-. destruct Hv as [-> ->]; [done|]. apply N1. by rewrite E.
      + rewrite lookup_insert_ne in Hq by done. by apply N1.
    - intros i' q Hp Hq. simpl in Hq. destruct (decide (i' = i)) as [-> |Hne].
      + rewrite lookup_insert in Hq. injection Hq as <-. apply Hc; [done|]. by apply N2.
      + rewrite lookup_insert_ne in Hq by done. by apply N2. }
  cbv beta iota delta [System.sstep] in Hs. unfold host_cos in Hs.
  destruct e as [i op|i op|i q|i q|i q|i q|i q|e|i|i q];
    try (destruct (sy_hosts S !! i) as [m|] eqn:Em; [|first [discriminate|by destruct op]]).
  - destruct (possible _ _ _ _ _ _ _); [|discriminate].
    destruct (vstep _ _ _ _) as [| |v ob]; [discriminate|discriminate|]. injection Hs as <- <-.
    apply (Hupd i m); [done|intros ->; done|done].
  - destruct (decide (i ∈ participants K j)) as [Hin|Hin].
    + specialize (Hoc Hin). destruct op as [k' id rnd| | |]; try done. destruct Hoc as [-> Hrnd]. simpl in Hs.
      destruct (get_part C (sc_cos K i) (cn_cos (ho_cos m)) (b_key (jb_block j)) id rnd) as [st' og] eqn:Eg.
      destruct (deployed_cos i (participants_range j Hj i Hin)) as (D1 & D2 & D3).
      assert (Hi : 1 <= i) by (pose proof (participants_range j Hj i Hin); lia).
      assert (Hok : og <> Panic) by (by destruct og).
      assert (Hs' : exists m', S' = upd S i m' /\ ho_val m' = ho_val m /\ cn_cos (ho_cos m') = st').
      { destruct og; [injection Hs as <- <-; eauto|injection Hs as <- <-; eauto|done]. }
      destruct Hs' as (m' & -> & H1 & H2). apply (Hupd i m); [done|by rewrite H1|]. intros _ Hrd. rewrite H2.
      eapply get_ready; eauto.
    + destruct op; try discriminate; destruct (cnstep _ _ _ _) as [[cn [|[? ?] [|]]]|]; try discriminate;
        injection Hs as <- <-; apply (Hupd i m); done.
  - destruct (ho_vws m !! q); [|discriminate]. destruct (read_field _ _); [|discriminate]. injection Hs as <- <-. by apply (Hupd i m).
  - destruct (ho_vws m !! q); [|discriminate]. destruct (bool_decide _); [|discriminate]. injection Hs as <- <-. by apply (Hupd i m).
  - unfold cnstep in Hs. destruct (cn_ws (ho_cos m) !! q); [|discriminate]. destruct (read_field _ _); [|discriminate].
    injection Hs as <- <-. by apply (Hupd i m).
  - unfold cnstep in Hs. destruct (cn_ws (ho_cos m) !! q); [|discriminate]. destruct (bool_decide _); [|discriminate].
    injection Hs as <- <-. by apply (Hupd i m).
  - destruct (thread_entry _ _); [|discriminate]. by injection Hs as <- <-.
  - destruct (bool_decide _); [|discriminate]. by injection Hs as <- <-.
  - destruct Hoc as [O1 O2]. destruct (sy_log S !! ho_applied m); [|discriminate]. destruct (event_of _).
    + destruct (vstep _ _ _ _); [discriminate|discriminate|]. destruct (cnstep _ _ _ _) as [[cn ?]|]; [|discriminate].
      injection Hs as <- <-. by apply (Hupd i m).
    + injection Hs as <- <-. by apply (Hupd i m).
  - destruct Hoc as [O1 O2]. destruct (bool_decide _); [|discriminate]. destruct (load_or_create _).
    destruct (cnstep _ _ _ _) as [[cn ?]|]; [|discriminate]. injection Hs as <- <-. by apply (Hupd i m).
Qed.

Lemma hosts_step h S e S' o : sstep C K faulty h S e = Some (S', o) -> forall i, is_Some (sy_hosts S !! i) -> is_Some (sy_hosts S' !! i).
Proof.
  intros Hs i Hi.
  assert (Hu : forall i' m, is_Some (sy_hosts (upd S i' m) !! i)).
  { intros i' m. simpl. destruct (decide (i = i')) as [-> |Hne]; [rewrite lookup_insert; eauto|by rewrite lookup_insert_ne]. }
  cbv beta iota delta [System.sstep] in Hs. unfold host_cos in Hs.
  destruct e as [q op|q op|q k|q k|q k|q k|q k|e|q|q k];
    try (destruct (sy_hosts S !! q) as [m|] eqn:Em; [|first [discriminate|by destruct op]]).
  - destruct (possible _ _ _ _ _ _ _); [|discriminate].
    destruct (vstep _ _ _ _) as [| |v ob]; [discriminate|discriminate|]. by injection Hs as <- <-.
  - destruct op; try discriminate; destruct (cnstep _ _ _ _) as [[cn [|[? ?] [|]]]|]; try discriminate; by injection Hs as <- <-.
  - destruct (ho_vws m !! k); [|discriminate]. destruct (read_field _ _); [|discriminate]. by injection Hs as <- <-.
  - destruct (ho_vws m !! k); [|discriminate]. destruct (bool_decide _); [|discriminate]. by injection Hs as <- <-.
  - destruct (cnstep _ _ _ _) as [[cn ?]|]; [|discriminate]. by injection Hs as <- <-.
  - destruct (cnstep _ _ _ _) as [[cn ?]|]; [|discriminate]. by injection Hs as <- <-.
  - destruct (thread_entry _ _); [|discriminate]. by injection Hs as <- <-.
  - destruct (bool_decide _); [|discriminate]. by injection Hs as <- <-.
  - destruct (sy_log S !! ho_applied m); [|discriminate]. destruct (event_of _).
    + destruct (vstep _ _ _ _); [discriminate|discriminate|]. destruct (cnstep _ _ _ _) as [[cn ?]|]; [|discriminate]. by injection Hs as <- <-.
    + by injection Hs as <- <-.
  - destruct (bool_decide _); [|discriminate]. destruct (load_or_create _).
    destruct (cnstep _ _ _ _) as [[cn ?]|]; [|discriminate]. by injection Hs as <- <-.
Qed.

Lemma after_collecting h S j h1 S1 : job_ok R n K j -> (forall i, 1 <= i <= n -> is_Some (sy_hosts S !! i)) ->
  srun h S -> is_new C R t n K S j -> srun (h ++ h1) S1 -> only_collected R K j h1 ->
  is_new C R t n K S1 j /\ forall i, 1 <= i <= n -> is_Some (sy_hosts S1 !! i).
Proof.
  intros Hj Hh Hr Hnew. revert S1. induction h1 as [|[e o] h1 IH] using rev_ind; intros S1 Hr1 Hoc.
  { rewrite app_nil_r in Hr1. rewrite <- (srun_fun _ _ _ _ _ _ _ Hr Hr1). done. }
  rewrite app_assoc in Hr1. inversion Hr1 as [E|h0 Sm e' S2 o' Hrm Hs E]; [by destruct (h ++ h1)|].
  apply app_inj_tail in E as [-> [= -> ->]]. subst S2.
  destruct (IH Sm Hrm) as [G1 G2].
  { intros e' o' Hin. apply (Hoc e' o'). apply elem_of_app. by left. }
  split.
  - eapply keeps_new; [done|done| |done]. intros e' o' Hin. apply elem_of_list_singleton in Hin as [= -> ->].
    apply (Hoc e o). apply elem_of_app. right. left.
  - intros i Hi. eapply hosts_step; [done|]. by apply G2.
Qed.
Lemma takes_over h S j h1 S1 : job_ok R n K j -> (forall i, 1 <= i <= n -> is_Some (sy_hosts S !! i)) ->
  srun h S -> is_new C R t n K S j -> srun (h ++ h1) S1 -> only_collected R K j h1 ->
  exists h2 S2, srun ((h ++ h1) ++ h2) S2 /\ answered C pub h2 S2 j /\ calm h2.
Proof.
  intros Hj Hh Hr Hnew Hr1 Hoc. destruct (after_collecting h S j h1 S1 Hj Hh Hr Hnew Hr1 Hoc) as [G1 G2].
  destruct (sign_once C R HS pub t n K Hn Hn' Ht Hd faulty S0 (h ++ h1) S1 j (b_hrs (jb_block j)) G2 Hr1 Hj G1)
    as (h2 & S2 & e & c & H1 & H2 & H3 & _). eauto.
Qed.
End Failover.

(** ** A recorded signature *)
Section Again.
Context (C : Crypto) (K : sysconf) (faulty : gset Z) (S0 : system).
Notation srun := (srun C K faulty S0).
Lemma again h S i m b sig : srun h S -> sy_hosts S !! i = Some m -> hrs_fits (b_hrs b) = true ->
  recorded_as (ho_val m) b sig -> ~ hrs_lt (ss_hrs (vs_init (ho_val m))) (b_hrs b) ->
  exists h' m', srun (h ++ h') (upd S i m') /\ handed_out h' i b sig /\
    (forall e o, (e, o) ∈ h' -> exists op, e = EVal i op) /\
    vs_lss (ho_val m') = vs_lss (ho_val m) /\ vs_init (ho_val m') = vs_init (ho_val m) /\ ho_cos m' = ho_cos m.
Proof.
  intros Hr Hm Hf (c & Hc & Hsig & Hsb) Hnlt.
  set (t := fresh (dom (vs_threads (ho_val m)))).
  assert (Htid : vs_threads (ho_val m) !! t = None) by (apply not_elem_of_dom; apply is_fresh). clearbody t.
  assert (Hex : get_existing (vs_lss (ho_val m)) b = Val (Some sig)).
  { unfold get_existing, get_from_cache. rewrite Hc, Hsb. cbn [slice_of].
    assert (E : bytes_equal (b_sb b) (b_sb b) = true) by (unfold bytes_equal; by apply bool_decide_eq_true).
    by rewrite E, orb_true_r, Hsig. }
  (* the three actions *)
  destruct (val_step1 C K faulty S0 i h S m (VCall t b RLeader) (set_pc (ho_val m) t b PcInit) OTau Hr Hm) as (m1 & Hr1 & Hv1 & Hc1).
  { exact Hf. }
  { simpl. by rewrite Htid. }
  assert (Hm1 : sy_hosts (upd S i m1) !! i = Some m1) by apply lookup_insert.
  assert (Hth1 : vs_threads (ho_val m1) !! t = Some (Thread b PcInit)) by (rewrite Hv1; apply lookup_insert).
  assert (Hlate : exists pc, vstep C (sc_val K i) (ho_val m1) (VInit t) = VOk (set_pc (ho_val m1) t b pc) OTau /\
    ((exists q, pc = PcPoll q) \/ pc = PcLate)).
  { simpl. rewrite Hth1. simpl. unfold do_init. rewrite Hv1. cbn [set_pc vs_init vs_lss].
    destruct (save_cases (vs_init (ho_val m)) (new_consensus (b_hrs b))) as [[H1 H2]|[[H1 H2]|[H1 (e & He & H2)]]].
    - done.
    - rewrite H2. exists (PcPoll 0). split; [done|]. left. eauto.
    - rewrite H2. exists PcLate. split; [|by right]. by destruct e. }
  destruct Hlate as (pc & Hs2 & Hpc).
  destruct (val_step1 C K faulty S0 i _ _ m1 (VInit t) (set_pc (ho_val m1) t b pc) OTau Hr1 Hm1) as (m2 & Hr2 & Hv2 & Hc2); [done|exact Hs2|].
  rewrite upd_upd in Hr2. assert (Hm2 : sy_hosts (upd S i m2) !! i = Some m2) by apply lookup_insert.
  assert (Hth2 : vs_threads (ho_val m2) !! t = Some (Thread b pc)) by (rewrite Hv2; apply lookup_insert).
  assert (Hl2 : vs_lss (ho_val m2) = vs_lss (ho_val m)) by (rewrite Hv2; simpl; by rewrite Hv1).
  assert (Hi2 : vs_init (ho_val m2) = vs_init (ho_val m)) by (rewrite Hv2; simpl; by rewrite Hv1).
  assert (Hs3 : exists op, possible K faulty ((h ++ [(EVal i (VCall t b RLeader), SVal OTau)]) ++ [(EVal i (VInit t), SVal OTau)])
      (upd S i m2) i (ho_val m2) op = true /\ vstep C (sc_val K i) (ho_val m2) op =
      VOk (set_pc (ho_val m2) t b PcDone) (OReturn t b (VR (Some sig) (b_ts b) None) false)).
  { destruct Hpc as [[q ->]| ->].
    - exists (VPoll t). split; [done|]. simpl. rewrite Hth2. simpl. unfold do_poll. rewrite Hl2, Hex. done.
    - exists (VLate t). split; [done|]. simpl. rewrite Hth2. simpl. unfold do_late. rewrite Hl2, Hex. done. }
  destruct Hs3 as (op & Hp3 & Hs3).
  destruct (val_step1 C K faulty S0 i _ _ m2 op _ _ Hr2 Hm2 Hp3 Hs3) as (m3 & Hr3 & Hv3 & Hc3). rewrite upd_upd in Hr3.
  exists ([(EVal i (VCall t b RLeader), SVal OTau); (EVal i (VInit t), SVal OTau);
           (EVal i op, SVal (OReturn t b (VR (Some sig) (b_ts b) None) false))]), m3.
  rewrite <- !app_assoc in Hr3. split; [exact Hr3|]. split.
  - exists op, t, (b_ts b), false. right. right. left.
  - split; [|split; [by rewrite Hv3|split; [by rewrite Hv3|congruence]]].
    intros e o Hin. repeat (apply elem_of_cons in Hin as [[= -> ->]|Hin]; [eauto|]). by apply not_elem_of_nil in Hin.
Qed.
End Again.
