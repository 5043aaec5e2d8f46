(** Index safety (C52), `chain-id set` (C51, C63), `state set` (C60, C65). *)
From Verif Require Import GoBase Wire Canonical SignState Spec SignStateProofs Crypto LocalCosigner
  CosignerSpec CosignerProofs CosignerProofs2 Json Utf8 Disk DiskSpec DiskProofs Validator ValidatorProofs
  Config ConfigSpec ConfigProofs.

(** ** Indices *)

Section Index.
Context (C : Crypto) (cfg : cos_config).
Context (HC : deals C).
Context (Hid : 1 <= cc_id cfg <= cc_total cfg).
Context (Hpeers : forall i pk, cc_peers cfg !! i = Some pk -> 1 <= i <= cc_total cfg).

Notation len := (Z.to_nat (cc_total cfg)).

(** every metadata record has slices with one entry per cosigner *)
Definition sized (st : cos_state) (m : meta) : Prop :=
  length (m_dealt m) = len /\ exists l, cs_heap st !! m_ref m = Some l /\ length l = len.
Definition all_sized (st : cos_state) : Prop := forall k m, cs_meta st !! k = Some m -> sized st m.

Lemma em_sized st k kd rnd st1 m : all_sized st -> em_case C cfg st k kd rnd st1 m ->
  all_sized st1 /\ sized st1 m.
Proof.
  intros H [Hk -> | Hn Hk -> | sc r Hn Hd Hr Hm ->].
  - split; [done|]. by eapply H.
  - split; [|by eapply H]. intros k' m' Hk'. simpl in Hk'.
    apply lookup_insert_Some in Hk' as [[_ <-]|[_ Hk']]; [by eapply H|]. by eapply (H k').
  - assert (S : sized (CosState (cs_lss st) (<[k:=m]> (<[kd:=m]> (cs_meta st)))
        (<[cs_next st:=replicate len empty_peer_meta]> (cs_heap st)) (S (cs_next st))) m).
    { split; [rewrite Hm; simpl; apply HC|]. exists (replicate len empty_peer_meta).
      rewrite Hm. simpl. split; [apply lookup_insert|apply replicate_length]. }
    split; [|done]. intros k' m' Hk'. simpl in Hk'.
    apply lookup_insert_Some in Hk' as [[_ <-]|[_ Hk']]; [done|].
    apply lookup_insert_Some in Hk' as [[_ <-]|[_ Hk']]; [done|].
    destruct (H _ _ Hk') as [H1 (l & H2 & H3)]. split; [done|]. simpl.
    destruct (decide (m_ref m' = cs_next st)) as [->|Hne].
    + exists (replicate len empty_peer_meta). split; [apply lookup_insert|apply replicate_length].
    + exists l. rewrite lookup_insert_ne by done. done.
Qed.

Lemma slot_sized st m i p st' : all_sized st -> sized st m -> set_slot st m i p = Some st' ->
  all_sized st'.
Proof.
  intros H Hm E. unfold set_slot in E. destruct (idx_set (peers_of st m) i p) as [l|] eqn:El; [|done].
  injection E as <-. apply idx_set_spec in El as [_ ->].
  destruct Hm as [_ (l0 & Hl0 & Hlen)].
  intros k' m' Hk'. simpl in Hk'. destruct (H _ _ Hk') as [H1 (l' & H2 & H3)]. split; [done|]. simpl.
  destruct (decide (m_ref m' = m_ref m)) as [->|Hne].
  - eexists. split; [apply lookup_insert|]. rewrite insert_length. unfold peers_of. rewrite Hl0. done.
  - exists l'. rewrite lookup_insert_ne by done. done.
Qed.
Lemma slot_possible st m i p : sized st m -> 1 <= i <= cc_total cfg -> set_slot st m (i - 1) p <> None.
Proof.
  intros [_ (l & Hl & Hlen)] Hi. unfold set_slot.
  destruct (idx_set (peers_of st m) (i - 1) p) as [l'|] eqn:E; [done|].
  apply idx_set_none in E. unfold peers_of in E. rewrite Hl in E. simpl in E. lia.
Qed.
Lemma idx_possible {A} (l : list A) i : length l = len -> 1 <= i <= cc_total cfg -> idx l (i - 1) <> None.
Proof.
  intros Hl Hi E. unfold idx in E. destruct (Z.ltb_spec (i - 1) 0); [lia|].
  apply lookup_ge_None in E. lia.
Qed.

Lemma get_part_safe st k id rnd : all_sized st ->
  all_sized (get_part C cfg st k id rnd).1 /\ (get_part C cfg st k id rnd).2 <> Panic.
Proof.
  intros H. unfold get_part. destruct (ensure_meta C cfg st k k (gr_deal rnd)) as [st1 om] eqn:E.
  apply ensure_meta_spec in E. destruct om as [m|e|]; [|destruct E as [_ ->]; done|done].
  destruct (em_sized _ _ _ _ _ _ H E) as [H1 Hm].
  destruct (idx (m_dealt m) (cc_id cfg - 1)) as [own|] eqn:Eo.
  2:{ apply idx_possible in Eo; [done|apply Hm|done]. }
  destruct (set_slot st1 m (cc_id cfg - 1) _) as [st2|] eqn:Es.
  2:{ by apply slot_possible in Es. }
  pose proof (slot_sized _ _ _ _ _ H1 Hm Es) as H2.
  destruct (cc_peers cfg !! id) as [pk|] eqn:Ep; [|done].
  destruct (idx (m_dealt m) (id - 1)) as [sh|] eqn:Ei.
  2:{ apply idx_possible in Ei; [done|apply Hm|]. by eapply Hpeers. }
  destruct (cr_encrypt C pk sh (gr_enc rnd)); [|done]. destruct (cr_rsa_sign C _ _ _); done.
Qed.
Lemma set_part_safe st k p rnd : all_sized st ->
  all_sized (set_part C cfg st k p rnd).1 /\ (set_part C cfg st k p rnd).2 <> Panic.
Proof.
  intros H. unfold set_part. destruct (check_source C cfg p) as [e|] eqn:Ec; [done|].
  destruct (ensure_meta C cfg st k (zero_key k) rnd) as [st1 om] eqn:E.
  apply ensure_meta_spec in E. destruct om as [m|e|]; [|destruct E as [_ ->]; done|done].
  destruct (em_sized _ _ _ _ _ _ H E) as [H1 Hm].
  destruct (cr_decrypt C _ _) as [sh|]; [|done].
  assert (Hs : 1 <= pt_source p <= cc_total cfg).
  { apply check_source_ok in Ec as (sig & pk & _ & Hp & _). by eapply Hpeers. }
  destruct (set_slot st1 m (pt_source p - 1) _) as [st2|] eqn:Es.
  2:{ by apply slot_possible in Es. }
  split; [|done]. by eapply slot_sized.
Qed.

Lemma cstep_sized st op st' o : all_sized st -> cstep C cfg st op = Some (st', o) -> all_sized st'.
Proof.
  intros H Hs. destruct op as [k id rnd|k p rnd|sb|c]; simpl in Hs.
  - pose proof (get_part_safe st k id rnd H) as [H1 _].
    destruct (get_part C cfg st k id rnd) as [s [p|e|]]; [injection Hs as <- _; done..|done].
  - pose proof (set_part_safe st k p rnd H) as [H1 _].
    destruct (set_part C cfg st k p rnd) as [s [u|e|]]; [injection Hs as <- _; done..|done].
  - destruct (sign C cfg st sb) as [s o'] eqn:E. apply sign_spec in E.
    destruct o' as [r|e|]; [|injection Hs as <- <-; subst; done|done].
    injection Hs as <- _. pose proof (sign_case_level _ _ _ _ _ _ E) as [Hb _].
    destruct (sign_case_meta C cfg _ _ _ _ _ E Hb) as (Hf & Hnf & Hh & _).
    intros k m Hk. unfold sized. rewrite Hh. apply (H k).
    destruct (sr_fresh r); [|rewrite Hnf in Hk; done].
    rewrite Hf in Hk by done. by destruct (decide _).
  - unfold save_lss in Hs. destruct (save (cs_lss st) c) as [l e]. injection Hs as <- _. done.
Qed.
Lemma crun_sized st l st' : all_sized st -> crun C cfg st l st' -> all_sized st'.
Proof. intros H Hr. induction Hr; [done|]. apply IHHr. by eapply cstep_sized. Qed.

Lemma parts_never_panic lss l st : crun C cfg (new_cosigner lss) l st ->
  (forall k id rnd, cstep C cfg st (OpGet k id rnd) <> None) /\
  (forall k p rnd, cstep C cfg st (OpSet k p rnd) <> None).
Proof.
  intros Hr. assert (H : all_sized st).
  { eapply crun_sized; [|exact Hr]. intros k m Hk. simpl in Hk. by rewrite lookup_empty in Hk. }
  split.
  - intros k id rnd. simpl. pose proof (get_part_safe st k id rnd H) as [_ Hp].
    destruct (get_part C cfg st k id rnd) as [s [p|e|]]; done.
  - intros k p rnd. simpl. pose proof (set_part_safe st k p rnd H) as [_ Hp].
    destruct (set_part C cfg st k p rnd) as [s [u|e|]]; done.
Qed.
End Index.

(** the validator's slice of share signatures *)
Section VIndex.
Context (C : Crypto) (cfg : vconf).
Context (Hids : forall w i, id_of cfg w = Some i -> 1 <= i <= v_total cfg).

Definition pc_sized (pc : vpc) : Prop :=
  match pc with PcSign _ _ _ sigs _ => length sigs = Z.to_nat (v_total cfg) | _ => True end.
Definition threads_sized (st : vstate) : Prop :=
  forall t b pc, vs_threads st !! t = Some (Thread b pc) -> pc_sized pc.

Lemma set_pc_sized st t b pc : threads_sized st -> pc_sized pc -> threads_sized (set_pc st t b pc).
Proof.
  intros H Hp t' b' pc' Ht. simpl in Ht.
  apply lookup_insert_Some in Ht as [[_ E]|[_ Ht]]; [injection E as <- <-; done|by eapply H].
Qed.
Lemma vstep_sized st op st' o : threads_sized st -> vstep C cfg st op = VOk st' o -> threads_sized st'.
Proof.
  intros H Hs.
  assert (F : forall (st1 : vstate) t b r f st2 o2, threads_sized st1 ->
    ret st1 t b r f = VOk st2 o2 -> threads_sized st2).
  { intros st1 t b r f st2 o2 H1 E. injection E as <- _. by apply set_pc_sized. }
  assert (S : forall (st1 : vstate) t b st2 o2, threads_sized st1 ->
    start cfg st1 t b = VOk st2 o2 -> threads_sized st2).
  { intros st1 t b st2 o2 H1 E. unfold start in E. destruct (_ <? _); [done|].
    injection E as <- _. by apply set_pc_sized. }
  assert (T : forall t b pc, op_thread op = Some t -> vs_threads st !! t = Some (Thread b pc) ->
    thread_step C cfg st t b pc op = VOk st' o -> threads_sized st').
  { intros t b pc Ho Ht Hs'. specialize (H t b pc Ht) as Hpc.
    destruct op; simpl in Ho; try discriminate; destruct pc; simpl in Hs'; try discriminate.
    - by eapply F.
    - unfold do_init in Hs'. destruct (save _ _) as [i err].
      assert (Hi : threads_sized (VState (vs_lss st) i (vs_threads st))) by done.
      destruct err as [[]|]; try (injection Hs' as <- _; by apply set_pc_sized). by eapply S.
    - unfold do_poll in Hs'. destruct (get_existing _ _) as [[sig|]|[]|]; try done;
        try (by eapply F); try (by eapply S).
      case_bool_decide; [by eapply F|]. injection Hs' as <- _. by apply set_pc_sized.
    - unfold do_late in Hs'. destruct (get_existing _ _); by eapply F.
    - destruct own; [done|]. destruct r; [|by eapply F]. injection Hs' as <- _. by apply set_pc_sized.
    - unfold do_parts in Hs'. destruct (id_of cfg w); [|done]. case_bool_decide; [done|].
      injection Hs' as <- _. by apply set_pc_sized.
    - destruct own; [|done]. unfold do_go in Hs'. destruct (_ =? _); [|done].
      injection Hs' as <- _. apply set_pc_sized; [done|]. simpl. apply replicate_length.
    - unfold do_ask in Hs'. destruct (id_of cfg w); [|done]. case_bool_decide; [|done].
      injection Hs' as <- _. by apply set_pc_sized.
    - unfold do_sig in Hs'. destruct (id_of cfg w); [|done]. case_bool_decide; [|done].
      destruct r as [[sig e]|]; [|injection Hs' as <- _; by apply set_pc_sized].
      destruct (idx_set sigs _ sig) as [sigs'|] eqn:E; [|done]. injection Hs' as <- _.
      apply set_pc_sized; [done|]. simpl. apply idx_set_spec in E as [_ ->].
      rewrite insert_length. done.
    - destruct own; [|done]. by eapply F.
    - by eapply F.
    - unfold do_finish in Hs'. destruct (_ =? _); [|done]. cbv zeta in Hs'.
      destruct (_ <? _); [by eapply F|]. destruct (cr_combine _ _ _ _); [|done].
      destruct (cr_verify _ _ _ _); [|by eapply F]. injection Hs' as <- _. by apply set_pc_sized.
    - unfold do_save in Hs'. destruct (save _ _) as [i err].
      assert (Hi : threads_sized (VState i (vs_init st) (vs_threads st))) by done.
      destruct err as [[]|]; try (by eapply F); injection Hs' as <- _; by apply set_pc_sized.
    - by eapply F. }
  destruct op as [t b r|t ?|t|t|t|t ?|t ? ?|t|t ? ?|t ? ?|t|t|t|t ?|c];
    try (simpl in Hs; destruct (vs_threads st !! t) as [[b pc]|] eqn:Et; [|done];
         eapply (T t b pc); [reflexivity|exact Et|exact Hs]).
  - simpl in Hs. destruct (vs_threads st !! t); [done|].
    destruct r; [by eapply F|..]; injection Hs as <- _; by apply set_pc_sized.
  - simpl in Hs. destruct (save _ _) as [i err]. injection Hs as <- _. done.
Qed.

Lemma sig_never_panics lss l st t w r : vrun C cfg (new_validator lss) l st ->
  vstep C cfg st (VSig t w r) <> VCrash.
Proof.
  intros Hr. assert (H : threads_sized st).
  { pattern l, st. eapply (vrun_rev_ind C cfg (new_validator lss)); [| |exact Hr]; cbv beta.
    - intros t' b pc Ht. simpl in Ht. by rewrite lookup_empty in Ht.
    - intros l1 s1 op s2 o _ H Hs. by eapply vstep_sized. }
  simpl. destruct (vs_threads st !! t) as [[b pc]|] eqn:Et; [|done].
  specialize (H t b pc Et). destruct pc; try done. simpl. unfold do_sig.
  destruct (id_of cfg w) as [i|] eqn:Ei; [|done]. case_bool_decide; [|done].
  destruct r as [[sig e]|]; [|done].
  destruct (idx_set sigs (i - 1) sig) eqn:Es; [done|]. exfalso.
  apply idx_set_none in Es. apply Hids in Ei. simpl in H. lia.
Qed.
End VIndex.

(** configurations with one entry per share *)
Lemma peer_keys_dom keys l m m' i pk : peer_keys keys l m = Some m' -> m' !! i = Some pk ->
  (exists pk', m !! i = Some pk') \/ i ∈ map pe_id l.
Proof.
  revert m. induction l as [|p l IH]; intros m H Hi; simpl in H.
  - injection H as <-. left. eauto.
  - destruct (_ || _); [done|]. destruct (idx keys (pe_id p - 1)) as [pk'|]; [|done].
    destruct (IH _ H Hi) as [[pk2 H2]|H2]; [|right; by right].
    apply lookup_insert_Some in H2 as [[<- _]|[_ H2]]; [right; by left|left; eauto].
Qed.

Lemma index_safe C L c k r : deals C -> start_cosigner L c k = Some r -> one_per_share c k ->
  (forall lss l st, crun C (ru_cos r) (new_cosigner lss) l st ->
    (forall hk id rnd, cstep C (ru_cos r) st (OpGet hk id rnd) <> None) /\
    (forall hk p rnd, cstep C (ru_cos r) st (OpSet hk p rnd) <> None)) /\
  (forall lss l st t w a, vrun C (ru_val r) (new_validator lss) l st ->
    vstep C (ru_val r) st (VSig t w a) <> VCrash).
Proof.
  intros HC Hs (s & Hc & Hsh & Hlt & Hid). unfold start_cosigner in Hs.
  destruct (validate_cosigner L c) eqn:Ev; [done|]. rewrite Hc in Hs.
  apply (accepted_iff L) in Ev as [(_ & _ & s' & Hc' & _ & _ & Hnd & Hr & _) _].
  rewrite Hc in Hc'. injection Hc' as <-.
  unfold running_of in Hs. destruct (peer_keys _ _ _) as [m|] eqn:Em; [|done]. injection Hs as <-.
  cbn [ru_cos ru_val].
  assert (Ht : u8 (Z.of_nat (length (co_peers s)) + 1) = co_shares s).
  { unfold u8. rewrite Hsh. apply Z.mod_small. change (2 ^ 8) with 256. lia. }
  split.
  - intros lss l st Hrun. eapply parts_never_panic; [done|..|exact Hrun]; simpl; rewrite Ht; [done|].
    intros i pk Hi. destruct (peer_keys_dom _ _ _ _ _ _ Em Hi) as [[pk' H]|H].
    + apply lookup_singleton_Some in H as [<- _]. done.
    + apply elem_of_list_fmap in H as (p & -> & Hp). by apply Hr.
  - intros lss l st t w a Hrun. eapply sig_never_panics; [|exact Hrun].
    intros w' i Hw. unfold v_total. simpl. rewrite map_length.
    rewrite Z.mod_small by lia. rewrite <- Hsh. unfold id_of in Hw. simpl in Hw.
    destruct w' as [|w']; [by injection Hw as <-|].
    apply list_lookup_fmap_Some in Hw as (p & Hp & ->). apply Hr. by eapply elem_of_list_lookup_2.
Qed.

(** ** chain-id set *)

Lemma pv_share_ne a b : pv_path a <> share_path b.
Proof.
  unfold pv_path, share_path. intros H. apply (f_equal (@rev byte)) in H.
  rewrite !rev_app_distr in H. vm_compute (rev pv_suffix) in H. vm_compute (rev share_suffix) in H.
  simpl in H. congruence.
Qed.
Lemma share_path_inj a b : share_path a = share_path b -> a = b.
Proof. apply app_inv_tail. Qed.
Lemma pv_path_inj a b : pv_path a = pv_path b -> a = b.
Proof. apply app_inv_tail. Qed.

(** files after a rename *)
Lemma rename_lookup old new h h1 n : rename old new h = Some h1 ->
  hm_config h1 = hm_config h /\ (exists b, hm_files h !! old = Some b) /\
  hm_files h1 !! n = if decide (n = new) then hm_files h !! old
                     else if decide (n = old) then None else hm_files h !! n.
Proof.
  unfold rename. intros H. destruct (hm_files h !! old) as [b|] eqn:E; [|done]. injection H as <-.
  split; [done|]. split; [eauto|]. simpl. destruct (decide (n = new)) as [->|Hn].
  - apply lookup_insert.
  - rewrite lookup_insert_ne by done. destruct (decide (n = old)) as [->|Ho].
    + apply lookup_delete.
    + by rewrite lookup_delete_ne by done.
Qed.

Lemma both_renames c new h h1 h2 :
  rename (pv_path (cf_chain c)) (pv_path new) h = Some h1 ->
  rename (share_path (cf_chain c)) (share_path new) h1 = Some h2 ->
  hm_files h2 !! share_path new = hm_files h !! share_path (cf_chain c) /\
  hm_files h2 !! pv_path new = hm_files h !! pv_path (cf_chain c) /\
  (cf_chain c <> new -> hm_files h2 !! share_path (cf_chain c) = None /\
                         hm_files h2 !! pv_path (cf_chain c) = None) /\
  (forall n, n <> share_path new -> n <> pv_path new ->
     n <> share_path (cf_chain c) -> n <> pv_path (cf_chain c) -> hm_files h2 !! n = hm_files h !! n).
Proof.
  intros H1 H2.
  assert (E1 : forall n, hm_files h1 !! n = _) by (intros n; apply (rename_lookup _ _ _ _ n H1)).
  assert (E2 : forall n, hm_files h2 !! n = _) by (intros n; apply (rename_lookup _ _ _ _ n H2)).
  assert (N : forall a b, share_path a <> pv_path b) by (intros a b Hx; by apply (pv_share_ne b a)).
  repeat split.
  - rewrite E2, decide_True by done. rewrite E1, !decide_False by apply N. done.
  - rewrite E2, !decide_False by apply pv_share_ne. rewrite E1, decide_True by done. done.
  - rewrite E2, decide_False by (intros Hx; by apply share_path_inj in Hx).
    by rewrite decide_True by done.
  - rewrite E2, !decide_False by apply pv_share_ne.
    rewrite E1, decide_False by (intros Hx; by apply pv_path_inj in Hx). by rewrite decide_True by done.
  - intros n Hn1 Hn2 Hn3 Hn4. rewrite E2, !decide_False by done. rewrite E1, !decide_False by done. done.
Qed.

Lemma set_chain_safe L c new h h' s : hm_config h = Some c -> set_chain c new h h' ->
  start_share L h' = Some s -> load (hm_files h !! share_path (cf_chain c)) = Some s.
Proof.
  assert (N : forall a b, share_path a <> pv_path b) by (intros a b Hx; by apply (pv_share_ne b a)).
  intros Hc Hset Hst. unfold start_share in Hst. destruct Hset as [|h1 H1|h1 h2 H1 H2|h1 h2 o H1 H2 Ho|h1 h2 H1 H2].
  - rewrite Hc in Hst. destruct (validate_cosigner L c); done.
  - destruct (rename_lookup _ _ _ _ (share_path (cf_chain c)) H1) as (Hc1 & _ & Hl).
    rewrite Hc1, Hc in Hst. destruct (validate_cosigner L c); [done|].
    rewrite Hl, !decide_False in Hst by apply N. done.
  - destruct (rename_lookup _ _ _ _ (share_path (cf_chain c)) H1) as (Hc1 & _ & _).
    destruct (rename_lookup _ _ _ _ (share_path (cf_chain c)) H2) as (Hc2 & _ & _).
    rewrite Hc2, Hc1, Hc in Hst. destruct (validate_cosigner L c); [done|].
    destruct (both_renames _ _ _ _ _ H1 H2) as (Hs & _ & Hn & _).
    destruct (decide (cf_chain c = new)) as [E|Hne].
    + rewrite <- E in Hs. rewrite Hs in Hst. done.
    + destruct (Hn Hne) as [Hx _]. rewrite Hx in Hst. done.
  - destruct (both_renames _ _ _ _ _ H1 H2) as (Hs & _ & _ & _). simpl in Hst.
    destruct o as [c'|]; [|done]. destruct (validate_cosigner L c') eqn:Ev; [done|].
    destruct Ho as [Ho|Ho].
    + apply (accepted_iff L) in Ev as [(_ & _ & s' & Hs' & _) _]. congruence.
    + simpl in Ho. rewrite Ho, Hs in Hst. done.
  - destruct (both_renames _ _ _ _ _ H1 H2) as (Hs & _ & _ & _). simpl in Hst.
    destruct (validate_cosigner L _); [done|]. rewrite Hs in Hst. done.
Qed.

(** a complete execution of the command, as one function; it fails exactly when a file is missing *)
Lemma set_chain_complete L c new h h1 h2 s : hm_config h = Some c -> accepted L c -> new <> [] ->
  rename (pv_path (cf_chain c)) (pv_path new) h = Some h1 ->
  rename (share_path (cf_chain c)) (share_path new) h1 = Some h2 ->
  load (hm_files h !! share_path (cf_chain c)) = Some s ->
  start_share L (Home (Some (Config new (cf_cosigner c) (cf_nodes c))) (hm_files h2)) = Some s.
Proof.
  intros Hc Ha Hn H1 H2 Hl. unfold start_share. cbn [hm_config cf_chain hm_files].
  assert (Ev : accepted L (Config new (cf_cosigner c) (cf_nodes c))).
  { apply accepted_iff in Ha as [(_ & Hx & s' & Hs') Ht]. apply accepted_iff.
    split; [|done]. split; [done|]. split; [done|]. exists s'. done. }
  unfold accepted in Ev. rewrite Ev.
  destruct (both_renames _ _ _ _ _ H1 H2) as (Hs & _). rewrite Hs. done.
Qed.

(** ** state set *)

Lemma save_job_some s h b : in_int64 h -> save_job s h = Some b ->
  hrs_lt (ss_hrs s) (HRS h 0 0) /\ watermark (Some b) = Some (HRS h 0 0).
Proof.
  intros Hr H. unfold save_job in H. cbv zeta in H.
  set (s1 := SS (ss_hrs s) None (ss_sig s) (ss_sb s) (ss_cache s)) in H.
  set (c := SSC (HRS h 0 0) None None) in H.
  destruct (save s1 c) as [s2 err] eqn:E. destruct err; [done|]. injection H as <-.
  assert (H2 : (save s1 c).2 = None) by (rewrite E; done).
  assert (Hk : ss_hrs s2 = HRS h 0 0).
  { pose proof (save_accepted_fields s1 c H2) as Hf. rewrite E in Hf. simpl in Hf. tauto. }
  split; [apply save_ok_iff in H2; done|].
  destruct (load_after_save s2) as (s' & Hl & Hh & _).
  { rewrite Hk. split; [done|]. split; vm_compute; split; congruence. }
  unfold watermark. rewrite Hl. simpl. congruence.
Qed.
Lemma save_job_none s h : save_job s h = None -> hrs_le (HRS h 0 0) (ss_hrs s).
Proof.
  intros H. unfold save_job in H. cbv zeta in H.
  set (s1 := SS (ss_hrs s) None (ss_sig s) (ss_sb s) (ss_cache s)) in H.
  set (c := SSC (HRS h 0 0) None None) in H.
  destruct (save s1 c) as [s2 err] eqn:E. destruct err as [e|]; [|done].
  destruct (hrs_trichotomy (HRS h 0 0) (ss_hrs s)) as [Hlt|[Heq|Hgt]].
  - left. done.
  - right. done.
  - exfalso. assert (H2 : (save s1 c).2 = None) by (apply save_ok_iff; done).
    rewrite E in H2. done.
Qed.

Lemma after_write_mono f s h d : in_int64 h -> load f = Some s ->
  exists k', watermark (after_write f (save_job s h) d) = Some k' /\ hrs_le (ss_hrs s) k'.
Proof.
  intros Hr Hl. destruct (save_job s h) as [b|] eqn:E; simpl.
  - destruct d.
    + destruct (save_job_some s h b Hr E) as [H1 H2]. exists (HRS h 0 0). split; [done|by left].
    + exists (ss_hrs s). unfold watermark. rewrite Hl. split; [done|by right].
  - exists (ss_hrs s). unfold watermark. rewrite Hl. split; [done|by right].
Qed.

Lemma state_set_inv r hf pv share arg j1 j2 : state_set r hf pv share arg = inr (j1, j2) ->
  exists s1 s2 h, load pv = Some s1 /\ load share = Some s2 /\ decimal arg h /\ in_int64 h /\
    j1 = save_job s1 h /\ j2 = save_job s2 h.
Proof.
  unfold state_set. intros H. destruct r; [done|]. destruct hf as [|[]]; try done.
  all: destruct (load pv) as [s1|]; [|done]; destruct (load share) as [s2|]; [|done];
    destruct (go_atoi arg) as [h|] eqn:E; [|done]; injection H as <- <-;
    apply atoi_iff in E as [E1 E2]; exists s1, s2, h; done.
Qed.

Lemma state_set_mono r hf pv share arg j1 j2 d1 d2 : state_set r hf pv share arg = inr (j1, j2) ->
  exists k1 k1' k2 k2', watermark pv = Some k1 /\ watermark share = Some k2 /\
    watermark (after_write pv j1 d1) = Some k1' /\ watermark (after_write share j2 d2) = Some k2' /\
    hrs_le k1 k1' /\ hrs_le k2 k2'.
Proof.
  intros H. apply state_set_inv in H as (s1 & s2 & h & H1 & H2 & Hd & Hr & -> & ->).
  destruct (after_write_mono pv s1 h d1 Hr H1) as (k1' & Hk1 & L1).
  destruct (after_write_mono share s2 h d2 Hr H2) as (k2' & Hk2 & L2).
  exists (ss_hrs s1), k1', (ss_hrs s2), k2'. unfold watermark at 1 2. rewrite H1, H2. done.
Qed.

Lemma after_write_raised f s h : in_int64 h -> load f = Some s ->
  raised_to h f (after_write f (save_job s h) true).
Proof.
  intros Hr Hl. exists (ss_hrs s). unfold watermark at 1. rewrite Hl. split; [done|].
  destruct (save_job s h) as [b|] eqn:E; simpl.
  - left. by apply save_job_some.
  - right. split; [by apply save_job_none|done].
Qed.
Lemma state_set_raises r hf pv share arg h j1 j2 : decimal arg h ->
  state_set r hf pv share arg = inr (j1, j2) ->
  raised_to h pv (after_write pv j1 true) /\ raised_to h share (after_write share j2 true).
Proof.
  intros Ha H. apply state_set_inv in H as (s1 & s2 & h' & H1 & H2 & Hd & Hr & -> & ->).
  assert (h' = h) as ->.
  { assert (Hx : go_atoi arg = Some h') by (by apply atoi_iff).
    destruct (decide (in_int64 h)) as [Hi|Hi]; [|].
    - assert (Hy : go_atoi arg = Some h) by (by apply atoi_iff). congruence.
    - exfalso. assert (Hfun : forall s z z', decimal s z -> decimal s z' -> z = z').
      { intros s z z' A B. inversion A as [? ? N1 D1|? ? N1 D1|? ? N1 D1]; subst;
          inversion B as [? ? N2 D2|? ? N2 D2|? ? N2 D2]; subst;
          apply digits_denote_iff in D1 as [F1 ->]; apply digits_denote_iff in D2 as [F2 ->];
          try done;
          repeat match goal with
            | F : all_digits ("+"%byte :: _) |- _ => apply List.Forall_cons_iff in F as [F _]
            | F : all_digits ("-"%byte :: _) |- _ => apply List.Forall_cons_iff in F as [F _]
          end;
          exfalso; repeat match goal with F : 48 <= bz _ < 58 |- _ => revert F end;
          vm_compute; intros [? ?]; congruence. }
      apply Hi. rewrite <- (Hfun _ _ _ Hd Ha). done. }
  split; by apply after_write_raised.
Qed.

Lemma state_set_home r e pv share arg : (e = false -> pv = None) ->
  exists err, state_set r (HomeGiven e) pv share arg = inl err.
Proof.
  intros H. unfold state_set. destruct r; [eauto|]. destruct e; [eauto|]. rewrite (H eq_refl). simpl. eauto.
Qed.
