(** More lemmas about LocalCosigner.v: C06-C17. *)
From Coq Require Import ZifyBool ZifyNat Sorting.Sorted Znumtheory.
From Verif Require Import GoBase Wire Canonical SignState Spec SignStateProofs CanonicalProofs
  CanonicalApi Crypto LocalCosigner CosignerSpec CosignerProofs.

Section Proofs.
Context (C : Crypto) (cfg : cos_config).

Notation sign := (sign C cfg).
Notation get_part := (get_part C cfg).
Notation set_part := (set_part C cfg).
Notation ensure_meta := (ensure_meta C cfg).
Notation cstep := (cstep C cfg).
Notation crun := (crun C cfg).
Notation sign_case := (sign_case C cfg).

(** *** C06 *)

Lemma cstep_share st op st' sb r :
  cstep st op = Some (st', ObsShare sb r) -> op = OpSign sb /\ sign st sb = (st', Val r).
Proof.
  destruct op as [k id rnd|k p rnd|sb'|c]; simpl.
  - destruct (get_part st k id rnd) as [s [p|e|]]; discriminate.
  - destruct (set_part st k p rnd) as [s [u|e|]]; discriminate.
  - destruct (sign st sb') as [s [r'|e|]] eqn:E; [|discriminate..]. intros [= <- <- <-]. done.
  - destruct (save_lss st c); discriminate.
Qed.

Lemma cstep_level st op st' o k :
  cstep st op = Some (st', o) -> level_of o = [k] -> k = ss_hrs (cs_lss st').
Proof.
  destruct o as [p|sb r|c acc| |e]; simpl; try discriminate.
  - intros H Hl. apply cstep_share in H as [_ H]. apply sign_spec in H.
    apply sign_case_level in H as [[t H] _]. rewrite H in Hl. injection Hl as <-. done.
  - destruct acc; [|discriminate]. intros H [= <-].
    destruct op as [k' id rnd|k' p rnd|sb'|c']; simpl in H.
    + destruct (get_part st k' id rnd) as [s [p|e|]]; discriminate.
    + destruct (set_part st k' p rnd) as [s [u|e|]]; discriminate.
    + destruct (sign st sb') as [s [r'|e|]]; discriminate.
    + unfold save_lss in H. destruct (save (cs_lss st) c') as [l e] eqn:E.
      destruct e as [e|]; [discriminate|]. injection H as <- <-.
      pose proof (save_accepted (cs_lss st) c') as Ha. rewrite E in Ha. simpl in *.
      rewrite Ha by done. done.
Qed.

Lemma level_of_length o : level_of o = [] \/ exists k, level_of o = [k].
Proof.
  destruct o as [p|sb r|c [] | |e]; simpl; eauto. destruct (unpack_hrst sb); eauto.
Qed.

Lemma levels_sorted st l st' :
  crun st l st' -> StronglySorted hrs_le (ss_hrs (cs_lss st) :: levels l) /\
                   Forall (hrs_le (ss_hrs (cs_lss st))) (levels l).
Proof.
  induction 1 as [st|st op st1 o l st2 Hs Hr [IH1 IH2]].
  - split; repeat constructor.
  - assert (Hm : hrs_le (ss_hrs (cs_lss st)) (ss_hrs (cs_lss st1))) by (eapply cstep_mono; eauto).
    assert (HF : Forall (hrs_le (ss_hrs (cs_lss st))) (levels l)).
    { eapply List.Forall_impl; [|exact IH2]. intros k Hk. eapply hrs_le_trans; eauto. }
    destruct (level_of_length o) as [E|[k E]]; change (levels ((op, o) :: l)) with (level_of o ++ levels l);
      rewrite E; simpl.
    + split; [|done]. constructor; [|done]. inversion IH1; done.
    + assert (k = ss_hrs (cs_lss st1)) as -> by (eapply cstep_level; eauto).
      split; [|constructor; done]. constructor; [done|]. constructor; done.
Qed.

Lemma released_level st l st' sb : crun st l st' -> released l sb -> exists k, bytes_for sb k.
Proof.
  intros Hr H. apply crun_vouched in Hr as [_ Hv]. destruct (Hv _ H) as (k & Hk & _). eauto.
Qed.

(** *** C07 *)

Lemma sign_retry st sb k :
  unpack_hrst sb = Val k -> ht_hrs k = ss_hrs (cs_lss st) -> ss_sb (cs_lss st) = Some sb ->
  is_Some (ss_sig (cs_lss st)) ->
  sign st sb = (st, Val (SignResp (ss_eph (cs_lss st)) (ss_sig (cs_lss st)) false)).
Proof.
  intros Hk Hh Hsb Hsig. unfold LocalCosigner.sign. rewrite Hk.
  pose proof (check_hrs_spec (cs_lss st) (ht_hrs k)) as (_ & T & _).
  rewrite (proj2 T) by (rewrite Hsb; eauto). rewrite Hsb. simpl. rewrite bytes_equal_refl. done.
Qed.

Lemma signs_only_lss st l st' sb k :
  crun st l st' -> signs_only sb l -> unpack_hrst sb = Val k -> ht_hrs k = ss_hrs (cs_lss st) ->
  ss_sb (cs_lss st) = Some sb -> is_Some (ss_sig (cs_lss st)) -> cs_lss st' = cs_lss st.
Proof.
  intros Hr Hq Hk. induction Hr as [st|st op st1 o l st2 Hs Hr IH]; [done|].
  intros Hh Hsb Hsig.
  assert (E : cs_lss st1 = cs_lss st).
  { destruct op as [k' id rnd|k' p rnd|sb'|c']; simpl in Hs.
    - pose proof (get_part_lss C cfg st k' id rnd) as H.
      destruct (get_part st k' id rnd) as [s [p|e|]]; simpl in *; congruence.
    - pose proof (set_part_lss C cfg st k' p rnd) as H.
      destruct (set_part st k' p rnd) as [s [u|e|]]; simpl in *; congruence.
    - destruct (sign st sb') as [s o'] eqn:E. pose proof E as E'. apply sign_spec in E.
      destruct o' as [r|e|]; [|injection Hs as <- <-; subst; done|discriminate].
      injection Hs as <- <-. specialize (Hq _ _ (elem_of_list_here _ _)). simpl in Hq. subst sb'.
      rewrite (sign_retry st sb k) in E' by done. congruence.
    - specialize (Hq (OpLSS c') o (elem_of_list_here _ _)). unfold save_lss in Hs.
      destruct (save (cs_lss st) c') as [l' e] eqn:E. injection Hs as <- <-. simpl in Hq.
      destruct e as [e|]; [|discriminate].
      pose proof (save_rejected (cs_lss st) c' e) as Hj. rewrite E in Hj. simpl in *. auto. }
  rewrite <- E in *. apply IH; try done. intros op' o' Hin. apply (Hq op'). by right.
Qed.

Lemma retry_same st sb st1 r l st2 :
  sign st sb = (st1, Val r) -> ss_sb (cs_lss st1) = Some sb -> crun st1 l st2 -> signs_only sb l ->
  exists r', sign st2 sb = (st2, Val r') /\ sr_eph r' = sr_eph r /\ sr_sig r' = sr_sig r.
Proof.
  intros Hs Hsb Hr Hq. apply sign_spec in Hs.
  assert (H : exists k, unpack_hrst sb = Val k /\ ht_hrs k = ss_hrs (cs_lss st1) /\
     is_Some (ss_sig (cs_lss st1)) /\ sr_eph r = ss_eph (cs_lss st1) /\
     sr_sig r = ss_sig (cs_lss st1)).
  { destruct Hs as [k Hk Heq Hsb' Hsig -> -> | k last es ep sig Hk Heq Hsb' Hne Hsig Hd Hf -> Hr'
         | k es ep sig Hk Hlt Hf -> ->].
    - exists k. done.
    - exfalso. simpl in Hsb. congruence.
    - exists k. cbn [cs_lss with_meta with_lss].
      rewrite save_accepted by (apply save_ok_iff; exact Hlt). simpl. eauto. }
  destruct H as (k & Hk & Hh & Hsig & He & Hg).
  assert (E : cs_lss st2 = cs_lss st1) by (eapply signs_only_lss; eauto).
  eexists. split; [apply (sign_retry st2 sb k); try rewrite E; done|]. simpl. rewrite E. done.
Qed.

(** *** C08 *)

(** signing the same bytes with anything appended reuses the nonce *)
Lemma nonce_reuse st sb st1 r1 t sig2 es :
  sign st sb = (st1, Val r1) -> hrs_lt (ss_hrs (cs_lss st)) (ss_hrs (cs_lss st1)) -> t <> [] ->
  forall ep, sr_eph r1 = Some ep ->
  (exists k m, unpack_hrst sb = Val k /\ cs_meta st !! k = Some m /\
     cr_add_scalars C (map pm_share (used_parts (peers_of st m))) = Some es) ->
  cr_sign_share C (sb ++ t) (cc_share cfg) es (cc_pub cfg) ep = Some sig2 ->
  exists st2, sign st1 (sb ++ t) = (st2, Val (SignResp (Some ep) (Some sig2) true)) /\
  exists sig1, sr_sig r1 = Some sig1 /\
    cr_sign_share C sb (cc_share cfg) es (cc_pub cfg) ep = Some sig1.
Proof.
  intros Hs Hlt Ht ep Hep (k0 & m0 & Hk0 & Hm0 & Hes) Hsig2. apply sign_spec in Hs.
  destruct Hs as [k Hk Heq Hsb Hsig -> -> | k last es' ep' sig Hk Heq Hsb Hne Hsig Hd Hf -> Hr'
         | k es' ep' sig Hk Hlt' Hf -> ->].
  - exfalso. eapply hrs_lt_irrefl; eauto.
  - exfalso. simpl in Hlt. eapply hrs_lt_irrefl; eauto.
  - assert (k0 = k) as -> by congruence. simpl in Hep. injection Hep as ->.
    destruct Hf as [(m & Hm & Hes' & Hep) Hlen Hmin Hsig].
    assert (m0 = m) as -> by congruence. assert (es' = es) as -> by congruence.
    cbn [cs_lss with_meta with_lss] in *.
    rewrite save_accepted in * by (apply save_ok_iff; exact Hlt'). cbn [ss_hrs c_hrs] in *.
    assert (Hne : bytes_equal (sb ++ t) sb = false).
    { apply not_true_is_false. rewrite bytes_equal_spec. intros E.
      rewrite <- (app_nil_r sb) in E at 2. apply app_inv_head in E. done. }
    unfold LocalCosigner.sign. rewrite (unpack_app _ t _ Hk).
    cbn [cs_lss with_meta with_lss].
    match goal with |- context [check_hrs ?l ?x] =>
      pose proof (check_hrs_spec l x) as (_ & T & _) end.
    rewrite (proj2 T) by (simpl; eauto). cbn [ss_sb c_sb slice_of ss_hrs c_hrs].
    rewrite Hne. rewrite (only_differ_app sb sb t k) by (auto).
    unfold sign_fresh. cbn [cs_meta with_meta with_lss].
    rewrite prune_meta_lookup. rewrite decide_False by apply hrs_lt_irrefl. rewrite Hm.
    match goal with |- context [peers_of ?s m] => change (peers_of s m) with (peers_of st m) end.
    rewrite Hes, Hep. rewrite bool_decide_true by done. cbn [negb]. rewrite Hmin. cbn [negb].
    rewrite Hsig2. cbn [cs_lss with_meta with_lss].
    match goal with |- context [save ?l ?x] => destruct (save l x) as [l2 e] eqn:E end.
    assert (e = Some SameHRS) as ->.
    { match type of E with save ?l ?x = _ => pose proof (save_same_iff l x) as Hi end.
      rewrite E in Hi. simpl in Hi. apply Hi. done. }
    eexists. split; [done|]. exists sig. split; done.
Qed.


Lemma nanos_inj t u : time_valid t = true -> time_valid u = true -> nanos_of t = nanos_of u -> t = u.
Proof.
  rewrite !time_valid_spec. unfold nanos_of. destruct t as [s n], u as [s' n']. simpl.
  change (10 ^ 9) with 1000000000. intros. f_equal; lia.
Qed.

Lemma canonical_same_key st l st' a b k :
  crun st l st' -> released l a -> released l b -> canonical_bytes a -> canonical_bytes b ->
  unpack_hrst a = Val k -> unpack_hrst b = Val k -> a = b.
Proof.
  intros Hr Ha Hb Ca Cb Hka Hkb.
  assert (Hs : same_message_but_time a b).
  { destruct k as [k t]. eapply no_conflict; eauto; exists t; done. }
  assert (Hvote : forall chain v s x, vote_in_range chain v -> step_of_type (v_type v) s ->
    vote_sign_bytes chain v = Val x ->
    unpack_hrst x = Val (HRST (HRS (v_height v) (v_round v) s) (nanos_of (v_ts v))) ->
    exists c, x = delimited (m_vote c) /\ decode_vote x = Some c /\ decode_proposal x = None /\
      time_valid (cv_ts c) = true /\ cv_ts c = v_ts v).
  { intros chain v s x Hrv Hst Hx Hu.
    destruct (vote_sign_bytes_inv _ _ _ Hrv Hx) as (c & Hw & -> & _ & _ & _ & _ & Et & _).
    exists c. split; [done|]. pose proof (decode_vote_roundtrip c [] Hw) as D. rewrite app_nil_r in D.
    split; [done|]. split; [|split; [apply Hw|done]].
    unfold unpack_hrst in Hu. destruct (decode_proposal _); [|done].
    injection Hu as _ _ Hs' _. unfold step_of_type in Hst. unfold stepPropose in *. lia. }
  assert (Hprop : forall chain p x, proposal_in_range chain p ->
    in_int64 (nanos_of (p_ts p)) -> proposal_sign_bytes chain p = Val x ->
    unpack_hrst x = Val (HRST (HRS (p_height p) (p_round p) 1) (nanos_of (p_ts p))) /\
    exists c, x = delimited (m_proposal c) /\ decode_proposal x = Some c /\
      time_valid (cp_ts c) = true /\ cp_ts c = p_ts p).
  { intros chain p x Hrp Hn Hx. split.
    { pose proof (unpack_proposal_api _ _ _ [] Hrp Hx Hn) as E. rewrite app_nil_r in E. done. }
    destruct (proposal_sign_bytes_inv _ _ _ Hrp Hx) as (c & Hw & -> & _ & _ & _ & _ & _ & Et & _).
    exists c. split; [done|]. pose proof (decode_proposal_roundtrip c [] Hw) as D.
    rewrite app_nil_r in D. split; [done|]. split; [apply Hw|done]. }
  destruct Ca as [chain v s b1 Hrv Hst Hts Hbv Hu|chain p b1 Hrp Hts Hbp];
  destruct Cb as [chain' v' s' b2 Hrv' Hst' Hts' Hbv' Hu'|chain' p' b2 Hrp' Hts' Hbp'].
  - destruct (Hvote _ _ _ _ Hrv Hst Hbv Hu) as (c & Ex & Dv & Dp & Tv & Et).
    destruct (Hvote _ _ _ _ Hrv' Hst' Hbv' Hu') as (c' & Ex' & Dv' & Dp' & Tv' & Et').
    destruct Hs as [(p & q & Hp & _)|(_ & _ & x & y & Hx & Hy & Hxy)]; [congruence|].
    assert (x = c) as -> by congruence. assert (y = c') as -> by congruence.
    assert (Etime : cv_ts c = cv_ts c').
    { apply nanos_inj; [done..|]. rewrite Et, Et'. rewrite Hu in Hka. rewrite Hu' in Hkb. congruence. }
    rewrite Ex, Ex'. destruct Hxy as (? & ? & ? & ? & ?). destruct c, c'; simpl in *. congruence.
  - exfalso. destruct (Hprop _ _ _ Hrp' Hts' Hbp') as [Hu' _]. rewrite Hu in Hka.
    rewrite Hu', <- Hka in Hkb. injection Hkb as _ _ E _. unfold step_of_type in Hst. lia.
  - exfalso. destruct (Hprop _ _ _ Hrp Hts Hbp) as [Hu _]. rewrite Hu in Hka.
    rewrite Hu', <- Hka in Hkb. injection Hkb as _ _ E _. unfold step_of_type in Hst'. lia.
  - destruct (Hprop _ _ _ Hrp Hts Hbp) as (Hu & c & Ex & Dp & Tv & Et).
    destruct (Hprop _ _ _ Hrp' Hts' Hbp') as (Hu' & c' & Ex' & Dp' & Tv' & Et').
    destruct Hs as [(x & y & Hx & Hy & Hxy)|(Hp & _)]; [|congruence].
    assert (x = c) as -> by congruence. assert (y = c') as -> by congruence.
    assert (Etime : cp_ts c = cp_ts c').
    { apply nanos_inj; [done..|]. rewrite Et, Et'. rewrite Hu in Hka. rewrite Hu' in Hkb. congruence. }
    rewrite Ex, Ex'. destruct Hxy as (? & ? & ? & ? & ? & ?). destruct c, c'; simpl in *. congruence.
Qed.

(** *** metadata *)

Inductive em_case (st : cos_state) (k kd : hrst) (rnd : option (bytes * bytes))
    (st' : cos_state) (m : meta) : Prop :=
| EMHere (H : cs_meta st !! k = Some m) (Hst : st' = st)
| EMAlias (Hn : cs_meta st !! k = None) (H : cs_meta st !! kd = Some m)
    (Hst : st' = with_meta st (<[k := m]> (cs_meta st)))
| EMNew secret r (Hn : cs_meta st !! k = None) (Hd : cs_meta st !! kd = None)
    (Hrnd : rnd = Some (secret, r))
    (Hm : m = Meta secret (cr_deal C secret r (cc_threshold cfg) (cc_total cfg)) (cs_next st))
    (Hst : st' = CosState (cs_lss st) (<[k := m]> (<[kd := m]> (cs_meta st)))
        (<[cs_next st := replicate (Z.to_nat (cc_total cfg)) empty_peer_meta]> (cs_heap st))
        (S (cs_next st))).

Lemma ensure_meta_spec st k kd rnd st' o :
  ensure_meta st k kd rnd = (st', o) ->
  match o with
  | Val m => em_case st k kd rnd st' m
  | Fail e => e = ERand /\ st' = st
  | Panic => False
  end.
Proof.
  unfold LocalCosigner.ensure_meta, deal_shares.
  destruct (cs_meta st !! k) as [m|] eqn:Ek.
  - intros [= <- <-]. apply EMHere; done.
  - destruct (cs_meta st !! kd) as [m|] eqn:Ed.
    + intros [= <- <-]. eapply EMAlias; eauto.
    + destruct rnd as [[secret r]|].
      * intros [= <- <-]. eapply EMNew; eauto.
      * intros [= <- <-]. done.
Qed.

Lemma em_case_lookup st k kd rnd st' m :
  em_case st k kd rnd st' m -> cs_meta st' !! k = Some m.
Proof.
  intros [H -> | Hn H -> | sc r Hn Hd Hr Hm ->]; simpl; [done| |]; apply lookup_insert.
Qed.

Lemma em_case_keep st k kd rnd st' m k' m' :
  em_case st k kd rnd st' m -> cs_meta st !! k' = Some m' -> cs_meta st' !! k' = Some m'.
Proof.
  intros [H -> | Hn H -> | sc r Hn Hd Hr Hm ->] Hk'; simpl; [done| |].
  - rewrite lookup_insert_ne by congruence. done.
  - rewrite !lookup_insert_ne by congruence. done.
Qed.

Lemma idx_spec {A} (l : list A) i x : idx l i = Some x <-> 0 <= i /\ l !! Z.to_nat i = Some x.
Proof.
  unfold idx. destruct (Z.ltb_spec i 0); split; intros; try discriminate; try tauto. lia.
Qed.
Lemma idx_set_spec {A} (l : list A) i x l' :
  idx_set l i x = Some l' <-> 0 <= i < Z.of_nat (length l) /\ l' = <[Z.to_nat i := x]> l.
Proof.
  unfold idx_set. destruct (idx l i) as [y|] eqn:E.
  - apply idx_spec in E as [E1 E2]. apply lookup_lt_Some in E2. split.
    + intros [= <-]. split; [lia|done].
    + intros [_ ->]. done.
  - split; [discriminate|]. intros [H _]. exfalso. unfold idx in E.
    destruct (Z.ltb_spec i 0); [lia|]. apply lookup_ge_None in E. lia.
Qed.

Lemma idx_set_none {A} (l : list A) i x :
  idx_set l i x = None -> ~ (0 <= i < Z.of_nat (length l)).
Proof.
  intros E H. pose proof (proj2 (idx_set_spec l i x _) (conj H eq_refl)). congruence.
Qed.

Lemma get_part_spec st k id rnd st' o :
  get_part st k id rnd = (st', o) ->
  match o with
  | Panic => True
  | Fail ERand => st' = st /\ cs_meta st !! k = None
  | _ =>
    exists st1 m own, em_case st k k (gr_deal rnd) st1 m /\
      idx (m_dealt m) (cc_id cfg - 1) = Some own /\
      set_slot st1 m (cc_id cfg - 1) (PM own (cr_base C (m_secret m))) = Some st' /\
      match o with Val p => honest_part C cfg m id p | _ => True end
  end.
Proof.
  unfold LocalCosigner.get_part. destruct (ensure_meta st k k (gr_deal rnd)) as [st1 om] eqn:E.
  pose proof E as E0. apply ensure_meta_spec in E. destruct om as [m|e|]; [|..].
  2:{ destruct E as [-> ->]. intros [= <- <-]. split; [done|].
      unfold LocalCosigner.ensure_meta in E0. destruct (cs_meta st !! k); [discriminate|done]. }
  2:{ intros [= <- <-]. done. }
  destruct (idx (m_dealt m) (cc_id cfg - 1)) as [own|] eqn:Eo; [|intros [= <- <-]; done].
  destruct (set_slot st1 m (cc_id cfg - 1) _) as [st2|] eqn:Es; [|intros [= <- <-]; done].
  destruct (cc_peers cfg !! id) as [pk|] eqn:Ep.
  2:{ intros [= <- <-]. eauto 10. }
  destruct (idx (m_dealt m) (id - 1)) as [sh|] eqn:Ei; [|intros [= <- <-]; done].
  destruct (cr_encrypt C pk sh (gr_enc rnd)) as [enc|] eqn:Een; [|intros [= <- <-]; eauto 10].
  destruct (cr_rsa_sign C _ _ _) as [sg|] eqn:Er; [|intros [= <- <-]; eauto 10].
  intros [= <- <-]. exists st1, m, own. repeat split; try done.
  apply idx_spec in Ei as [Ei1 Ei2]. exists pk, sh, (gr_enc rnd). repeat split; try done; [lia|].
  eauto.
Qed.

Lemma set_part_spec st k p rnd st' o :
  set_part st k p rnd = (st', o) ->
  match o with
  | Panic => True
  | Fail _ => st' = st \/ exists m, em_case st k (zero_key k) rnd st' m
  | Val _ =>
    check_source C cfg p = None /\
    exists st1 m share, em_case st k (zero_key k) rnd st1 m /\
      cr_decrypt C (cc_rsa cfg) (pt_enc p) = Some share /\
      set_slot st1 m (pt_source p - 1) (PM share (pt_eph p)) = Some st'
  end.
Proof.
  unfold LocalCosigner.set_part. destruct (check_source C cfg p) as [e|] eqn:Ec.
  { intros [= <- <-]. left. done. }
  destruct (ensure_meta st k (zero_key k) rnd) as [st1 om] eqn:E.
  apply ensure_meta_spec in E. destruct om as [m|e|]; [|..].
  2:{ destruct E as [-> ->]. intros [= <- <-]. left. done. }
  2:{ done. }
  destruct (cr_decrypt C _ _) as [sh|] eqn:Ed.
  2:{ intros [= <- <-]. right. eauto. }
  destruct (set_slot st1 m _ _) as [st2|] eqn:Es; intros [= <- <-]; [|done].
  split; [done|]. eauto 10.
Qed.

(** *** C10, C11 *)

Lemma check_source_ok p : check_source C cfg p = None <->
  exists sig pk, pt_sig p = Some sig /\ cc_peers cfg !! pt_source p = Some pk /\
    cr_rsa_verify C pk (Payload (pt_source p) (pt_eph p) (pt_enc p)) sig = true.
Proof.
  unfold check_source. destruct (pt_sig p) as [sig|]; [|split; [discriminate|]; intros (? & ? & ? & _); discriminate].
  destruct (cc_peers cfg !! pt_source p) as [pk|]; [|split; [discriminate|]; intros (? & ? & _ & ? & _); discriminate].
  unfold part_payload. destruct (cr_rsa_verify C pk _ sig) eqn:E; split; try discriminate; eauto 10.
  intros (? & ? & [= <-] & [= <-] & ?). congruence.
Qed.

Lemma check_source_bad p : check_source C cfg p <> None <-> unauthenticated C cfg p.
Proof.
  unfold check_source, unauthenticated, part_payload.
  destruct (pt_sig p) as [sig|]; [|split; [auto|discriminate]].
  destruct (cc_peers cfg !! pt_source p) as [pk|]; [|split; [auto|discriminate]].
  destruct (cr_rsa_verify C pk _ sig) eqn:E; split; try discriminate; try done.
  - intros [?|[?|(? & ? & [= <-] & [= <-] & ?)]]; congruence.
  - intros _. right; right. eauto.
Qed.

Lemma unauthenticated_rejected st k p rnd :
  unauthenticated C cfg p -> exists e, set_part st k p rnd = (st, Fail e).
Proof.
  intros H. apply check_source_bad in H. unfold LocalCosigner.set_part.
  destruct (check_source C cfg p) as [e|]; [eauto|done].
Qed.

Lemma set_parts_lss st k ps : cs_lss (set_parts C cfg st k ps).1 = cs_lss st.
Proof.
  revert st. induction ps as [|[p rnd] ps IH]; intros st; simpl; [done|].
  pose proof (set_part_lss C cfg st k p rnd) as H.
  destruct (set_part st k p rnd) as [st1 [u|e|]]; simpl in *; [|done|done]. rewrite IH. done.
Qed.

(** a request containing an unauthenticated part releases nothing and leaves the sign state *)
Lemma unauthenticated_request st k ps sb p rnd :
  (p, rnd) ∈ ps -> unauthenticated C cfg p ->
  forall st' o, set_and_sign C cfg st k ps sb = (st', o) ->
  cs_lss st' = cs_lss st /\ forall r, o <> Val r.
Proof.
  intros Hin Hu st' o H. unfold set_and_sign in H.
  pose proof (set_parts_lss st k ps) as Hl.
  assert (Hv : forall x, (set_parts C cfg st k ps).2 <> Val x).
  { clear H Hl. revert st. induction ps as [|[q rq] ps IH]; intros st x; [inversion Hin|].
    simpl. destruct (set_part st k q rq) as [st1 o1] eqn:E1.
    apply elem_of_cons in Hin as [[= <- <-]|Hin].
    - destruct (unauthenticated_rejected st k p rnd Hu) as [e E]. rewrite E in E1.
      injection E1 as <- <-. discriminate.
    - destruct o1 as [u|e|]; [apply IH; done|discriminate..]. }
  destruct (set_parts C cfg st k ps) as [st1 [u|e|]]; simpl in *.
  - destruct (Hv u); done.
  - injection H as <- <-. split; [done|discriminate].
  - injection H as <- <-. split; [done|discriminate].
Qed.

(** what an accepted part changes *)
Lemma accepted_part st k p rnd st' :
  set_part st k p rnd = (st', Val tt) ->
  exists sig pk share,
    pt_sig p = Some sig /\ cc_peers cfg !! pt_source p = Some pk /\
    cr_rsa_verify C pk (Payload (pt_source p) (pt_eph p) (pt_enc p)) sig = true /\
    cr_decrypt C (cc_rsa cfg) (pt_enc p) = Some share /\
    1 <= pt_source p /\
    slots st' k !! Z.to_nat (pt_source p - 1) = Some (PM share (pt_eph p)) /\
    (forall i, i <> Z.to_nat (pt_source p - 1) -> cs_meta st !! k <> None ->
       slots st' k !! i = slots st k !! i) /\
    cs_lss st' = cs_lss st.
Proof.
  intros H. pose proof (set_part_lss C cfg st k p rnd) as Hl. rewrite H in Hl.
  apply set_part_spec in H as (Hc & st1 & m & share & Hem & Hd & Hs).
  apply check_source_ok in Hc as (sig & pk & Hsig & Hpk & Hv).
  exists sig, pk, share. split; [done|]. split; [done|]. split; [done|]. split; [done|].
  pose proof (em_case_lookup _ _ _ _ _ _ Hem) as Hk.
  unfold set_slot in Hs. destruct (idx_set _ _ _) as [l'|] eqn:Ei; [|discriminate].
  apply idx_set_spec in Ei as [Hi ->]. injection Hs as <-.
  split; [lia|].
  unfold slots. simpl. rewrite Hk. rewrite lookup_insert. simpl.
  split. { apply list_lookup_insert. lia. }
  split; [|done]. intros i Hne Hnn. rewrite list_lookup_insert_ne by done.
  destruct Hem as [H -> | Hn H -> | sc r Hn Hd' Hr Hm ->]; [rewrite H; done|done|done].
Qed.

(** *** C12 *)


(** the cosigner's own slot is filled with its own dealt share *)
Definition own_slot (st : cos_state) (k : hrst) (m : meta) : Prop :=
  cs_meta st !! k = Some m /\
  exists own, m_dealt m !! Z.to_nat (cc_id cfg - 1) = Some own /\
    slots st k !! Z.to_nat (cc_id cfg - 1) = Some (PM own (cr_base C (m_secret m))).

Lemma get_part_own_slot st k id rnd st' p :
  get_part st k id rnd = (st', Val p) ->
  exists m, own_slot st' k m /\ honest_part C cfg m id p /\
    (forall m', cs_meta st !! k = Some m' -> m' = m).
Proof.
  intros H. apply get_part_spec in H as (stm & m & own & Hem & Hown & Hslot & Hp).
  exists m. pose proof (em_case_lookup _ _ _ _ _ _ Hem) as Hk.
  apply idx_spec in Hown as [Hid Hown].
  split; [|split; [done|]].
  - split; [rewrite (set_slot_meta _ _ _ _ _ Hslot); done|]. exists own. split; [done|].
    unfold set_slot in Hslot. destruct (idx_set _ _ _) as [l'|] eqn:Ei; [|discriminate].
    apply idx_set_spec in Ei as [Hi ->]. injection Hslot as <-.
    unfold slots. simpl. rewrite Hk, lookup_insert. simpl. apply list_lookup_insert. lia.
  - intros m' Hm'. pose proof (em_case_keep _ _ _ _ _ _ _ _ Hem Hm'). congruence.
Qed.

Lemma get_parts_spec st k ids st' ps :
  get_parts C cfg st k ids = (st', Val ps) ->
  map pt_dest ps = filter (fun id => id <> cc_id cfg) (map fst ids) /\
  cs_lss st' = cs_lss st /\
  (ps = [] -> st' = st) /\
  (ps <> [] -> exists m, own_slot st' k m /\
     (forall p, p ∈ ps -> honest_part C cfg m (pt_dest p) p) /\
     (forall m', cs_meta st !! k = Some m' -> m' = m)).
Proof.
  revert st st' ps. induction ids as [|[id rnd] ids IH]; intros st st' ps H; simpl in H.
  - injection H as <- <-. done.
  - rewrite map_cons, filter_cons. cbn [fst]. destruct (Z.eqb_spec id (cc_id cfg)) as [E|E].
    + rewrite decide_False by tauto. apply IH in H. exact H.
    + rewrite decide_True by done.
      destruct (get_part st k id rnd) as [st1 [p|e|]] eqn:Eg; [|discriminate..].
      destruct (get_parts C cfg st1 k ids) as [st2 [ps'|e|]] eqn:Es; [|discriminate..].
      injection H as <- <-. pose proof (get_part_lss C cfg st k id rnd) as Hl. rewrite Eg in Hl.
      apply get_part_own_slot in Eg as (m & Hown & Hp & Hold).
      apply IH in Es as (Hd & Hl2 & Hnil & Hm).
      pose proof Hp as (_ & Hpd & _).
      split; [simpl; congruence|]. split; [simpl in Hl; congruence|]. split; [done|]. intros _.
      exists m. destruct ps' as [|p' ps'].
      * rewrite Hnil by done. split; [done|]. split; [|done].
        intros q ->%elem_of_list_singleton. rewrite Hpd. done.
      * destruct Hm as (m' & Hown' & Hall & Hold'); [done|].
        assert (m = m') as <- by (apply Hold', Hown).
        split; [done|]. split; [|done].
        intros q [->|Hq]%elem_of_cons; [rewrite Hpd; done|apply Hall, Hq].
Qed.

(** [ids] lists every configured peer once, in any order *)
Lemma get_parts_shape st k ids st' ps :
  map fst ids ≡ₚ map fst (map_to_list (cc_peers cfg)) ->
  get_parts C cfg st k ids = (st', Val ps) ->
  NoDup (map pt_dest ps) /\
  (forall id, id ∈ map pt_dest ps <-> is_Some (cc_peers cfg !! id) /\ id <> cc_id cfg) /\
  cs_lss st' = cs_lss st /\
  (ps <> [] -> exists m, cs_meta st' !! k = Some m /\
     (forall p, p ∈ ps -> honest_part C cfg m (pt_dest p) p) /\
     (forall m', cs_meta st !! k = Some m' -> m' = m) /\
     exists own, m_dealt m !! Z.to_nat (cc_id cfg - 1) = Some own /\
       slots st' k !! Z.to_nat (cc_id cfg - 1) = Some (PM own (cr_base C (m_secret m)))).
Proof.
  intros Hperm H. apply get_parts_spec in H as (Hd & Hl & _ & Hm).
  split; [|split; [|split; [done|]]].
  - rewrite Hd. apply list.NoDup_filter. rewrite Hperm. apply NoDup_fst_map_to_list.
  - intros id. rewrite Hd, elem_of_list_filter, Hperm.
    rewrite elem_of_list_fmap. split.
    + intros [Hne ([i pk] & -> & Hin)]. apply elem_of_map_to_list in Hin. simpl in *. eauto.
    + intros [[pk Hpk] Hne]. split; [done|]. exists (id, pk). split; [done|].
      apply elem_of_map_to_list. done.
  - intros Hne. destruct (Hm Hne) as (m & (Hk & Hown) & Hall & Hold). eauto 10.
Qed.

(** *** C13, C14 *)

Lemma sign_case_meta st sb st' r k :
  sign_case st sb st' r -> bytes_for sb k ->
  (sr_fresh r = true -> forall k', cs_meta st' !! k' =
     if decide (hrs_lt (ht_hrs k') k) then None else cs_meta st !! k') /\
  (sr_fresh r = false -> st' = st) /\ cs_heap st' = cs_heap st /\ cs_next st' = cs_next st.
Proof.
  intros [k0 Hk Heq Hsb Hsig -> -> | k0 last es ep sig Hk Heq Hsb Hne Hsig Hd Hf -> ->
         | k0 es ep sig Hk Hlt Hf -> ->] [t Ht]; cbn [sr_fresh].
  - done.
  - assert (k0 = HRST k t) as -> by congruence. split; [|done]. intros _ k'. simpl.
    apply prune_meta_lookup.
  - assert (k0 = HRST k t) as -> by congruence. split; [|done]. intros _ k'. simpl.
    apply prune_meta_lookup.
Qed.

Lemma cstep_meta_stable st op st' o k m :
  cstep st op = Some (st', o) -> cs_meta st !! k = Some m ->
  (forall sb r k', o = ObsShare sb r -> bytes_for sb k' -> ~ hrs_lt (ht_hrs k) k') ->
  cs_meta st' !! k = Some m.
Proof.
  intros Hs Hm Hq. destruct op as [k' id rnd|k' p rnd|sb|c]; simpl in Hs.
  - destruct (get_part st k' id rnd) as [s o'] eqn:E. apply get_part_spec in E.
    assert (H : s = st \/ exists st1 m' i x, em_case st k' k' (gr_deal rnd) st1 m' /\
                  set_slot st1 m' i x = Some s \/ o' = Panic).
    { destruct o' as [p|e|]; [|destruct e|]; try (destruct E as (st1 & m' & own & H1 & _ & H2 & _);
        right; do 4 eexists; left; eauto); [left; tauto|].
      right. exists st, m, 0, empty_peer_meta. right. done. }
    assert (Hsame : o' <> Panic -> cs_meta s !! k = Some m).
    { intros Hnp. destruct H as [-> |(st1 & m' & i & x & [[H1 H2]|H])]; [done| |done].
      rewrite (set_slot_meta _ _ _ _ _ H2). eapply em_case_keep; eauto. }
    destruct o' as [p|e|]; [injection Hs as <- <-; apply Hsame; discriminate..|discriminate].
  - destruct (set_part st k' p rnd) as [s o'] eqn:E. apply set_part_spec in E.
    destruct o' as [u|e|]; [|..|discriminate]; injection Hs as <- <-.
    + destruct E as (_ & st1 & m' & sh & H1 & _ & H2).
      rewrite (set_slot_meta _ _ _ _ _ H2). eapply em_case_keep; eauto.
    + destruct E as [-> |[m' H1]]; [done|]. eapply em_case_keep; eauto.
  - destruct (sign st sb) as [s o'] eqn:E. apply sign_spec in E.
    destruct o' as [r|e|]; [|injection Hs as <- <-; subst; done|discriminate].
    injection Hs as <- <-. pose proof (sign_case_level _ _ _ _ _ _ E) as [Hb _].
    destruct (sign_case_meta _ _ _ _ _ E Hb) as (H1 & H2 & _).
    destruct (sr_fresh r) eqn:Ef; [|rewrite H2; done].
    rewrite H1 by done. rewrite decide_False; [done|]. eapply Hq; eauto.
  - unfold save_lss in Hs. destruct (save (cs_lss st) c) as [l e]. injection Hs as <- <-. done.
Qed.

Lemma crun_meta_stable st l st' k m :
  crun st l st' -> cs_meta st !! k = Some m -> no_share_above (ht_hrs k) l ->
  cs_meta st' !! k = Some m /\
  forall id rnd p, (OpGet k id rnd, ObsPart p) ∈ l -> honest_part C cfg m id p.
Proof.
  induction 1 as [st|st op st1 o l st2 Hs Hr IH]; intros Hm Hq.
  { split; [done|]. intros id rnd p H. inversion H. }
  assert (Hm1 : cs_meta st1 !! k = Some m).
  { eapply cstep_meta_stable; eauto. intros sb r k' -> Hb. eapply Hq; [left|done]. }
  destruct IH as [IH1 IH2]; [done| |].
  { intros op' sb r k' Hin. eapply Hq. right. exact Hin. }
  split; [done|]. intros id rnd p Hin. apply elem_of_cons in Hin as [Hin|Hin]; [|eauto].
  injection Hin as <- <-. simpl in Hs.
  destruct (get_part st k id rnd) as [s [p'|e|]] eqn:E; [|discriminate..].
  injection Hs as -> ->. apply get_part_own_slot in E as (m' & _ & Hp & Hold).
  rewrite (Hold m Hm). done.
Qed.

(** *** C15 *)

(** any request, even for an unknown peer, leaves an entry *)
Lemma get_part_adds st k id s r :
  (forall s r, length (cr_deal C s r (cc_threshold cfg) (cc_total cfg)) = Z.to_nat (cc_total cfg)) ->
  1 <= cc_id cfg <= cc_total cfg -> cc_peers cfg !! id = None -> cs_meta st !! k = None ->
  exists st', cstep st (OpGet k id (GetRnd (Some (s, r)) [] [])) = Some (st', ObsErr EUnknownPeer) /\
    size (cs_meta st') = S (size (cs_meta st)) /\ cs_lss st' = cs_lss st /\
    (forall k', k' <> k -> cs_meta st' !! k' = cs_meta st !! k').
Proof.
  intros Hdeal Hid Hpeer Hk. simpl. unfold LocalCosigner.get_part, LocalCosigner.ensure_meta, deal_shares.
  rewrite Hk. cbn [gr_deal]. cbn [m_dealt].
  destruct (idx (cr_deal C s r _ _) (cc_id cfg - 1)) as [own|] eqn:Eo.
  2:{ exfalso. unfold idx in Eo. destruct (Z.ltb_spec (cc_id cfg - 1) 0); [lia|].
      apply lookup_ge_None in Eo. rewrite Hdeal in Eo. lia. }
  match goal with |- context [set_slot ?a ?b ?c ?d] => destruct (set_slot a b c d) as [st2|] eqn:Es end.
  2:{ exfalso. unfold set_slot in Es. destruct (idx_set _ _ _) as [l'|] eqn:Ei; [discriminate|].
      apply idx_set_none in Ei. unfold peers_of in Ei. simpl in Ei. rewrite lookup_insert in Ei.
      simpl in Ei. rewrite replicate_length in Ei. lia. }
  rewrite Hpeer. eexists. split; [done|].
  rewrite (set_slot_meta _ _ _ _ _ Es), (set_slot_lss _ _ _ _ _ Es). simpl.
  rewrite insert_insert, map_size_insert_None by done. split; [done|]. split; [done|].
  intros k' Hne. rewrite lookup_insert_ne by done. done.
Qed.

Lemma metadata_unbounded (s r : bytes) id n st0 :
  (forall s r, length (cr_deal C s r (cc_threshold cfg) (cc_total cfg)) = Z.to_nat (cc_total cfg)) ->
  1 <= cc_id cfg <= cc_total cfg -> cc_peers cfg !! id = None ->
  exists l st, crun (new_cosigner st0) l st /\ size (cs_meta st) = n /\
    (forall op o, (op, o) ∈ l -> o = ObsErr EUnknownPeer) /\
    (forall t, Z.of_nat n <= t -> cs_meta st !! HRST (HRS 1 0 1) t = None).
Proof.
  intros Hdeal Hid Hpeer. induction n as [|n (l & st & Hr & Hsz & Herr & Hfree)].
  - exists [], (new_cosigner st0). split; [constructor|]. split; [apply map_size_empty|].
    split; [intros op o H; inversion H|]. intros t _. apply lookup_empty.
  - destruct (get_part_adds st (HRST (HRS 1 0 1) (Z.of_nat n)) id s r Hdeal Hid Hpeer) as
      (st' & Hs & Hsz' & _ & Hoth); [apply Hfree; lia|].
    exists (l ++ [(OpGet (HRST (HRS 1 0 1) (Z.of_nat n)) id (GetRnd (Some (s, r)) [] []), ObsErr EUnknownPeer)]), st'.
    split; [|split; [congruence|split]].
    + apply crun_app. exists st. split; [done|]. econstructor; [exact Hs|constructor].
    + intros op o [H|H]%elem_of_app; [eauto|]. apply elem_of_list_singleton in H. congruence.
    + intros t Ht. rewrite Hoth; [apply Hfree; lia|]. intros [= E]. lia.
Qed.

(** *** C16 *)

(** no two keys share their slots *)
Definition separated (st : cos_state) : Prop :=
  (forall k m, cs_meta st !! k = Some m -> (m_ref m < cs_next st)%nat) /\
  (forall k1 k2 m1 m2, cs_meta st !! k1 = Some m1 -> cs_meta st !! k2 = Some m2 ->
     m_ref m1 = m_ref m2 -> k1 = k2).

Lemma separated_frame st k1 k2 m1 m2 i p st' :
  separated st -> k1 <> k2 -> cs_meta st !! k1 = Some m1 -> cs_meta st !! k2 = Some m2 ->
  set_slot st m1 i p = Some st' -> slots st' k2 = slots st k2.
Proof.
  intros [_ Hs] Hne H1 H2 H. unfold set_slot in H. destruct (idx_set _ _ _); [|discriminate].
  injection H as <-. unfold slots. simpl. rewrite H2. rewrite lookup_insert_ne; [done|].
  intros E. apply Hne. eauto.
Qed.

Lemma set_slot_separated st m i p st' :
  set_slot st m i p = Some st' -> separated st -> separated st'.
Proof.
  intros H [H1 H2]. unfold separated. rewrite (set_slot_meta _ _ _ _ _ H), (set_slot_next _ _ _ _ _ H).
  done.
Qed.

Lemma em_same_separated st k rnd st' m :
  em_case st k k rnd st' m -> separated st -> separated st'.
Proof.
  intros [H -> | Hn H -> | sc r Hn Hd Hr Hm ->] [S1 S2]; [done|congruence|].
  rewrite insert_insert. split; simpl.
  - intros k' m' [[<- <-]|[Hne H]]%lookup_insert_Some; [subst m; simpl; lia|].
    apply S1 in H. lia.
  - intros k1 k2 m1 m2 [[<- <-]|[Hne1 H1]]%lookup_insert_Some [[<- <-]|[Hne2 H2]]%lookup_insert_Some E;
      [done| | |eauto].
    + apply S1 in H2. subst m. simpl in E. lia.
    + apply S1 in H1. subst m. simpl in E. lia.
Qed.

Lemma cstep_separated st op st' o :
  cstep st op = Some (st', o) ->
  (forall k p rnd, op = OpSet k p rnd -> is_Some (cs_meta st !! k)) ->
  separated st -> separated st'.
Proof.
  intros Hs Hk Hsep. destruct op as [k' id rnd|k' p rnd|sb|c]; simpl in Hs.
  - destruct (get_part st k' id rnd) as [s o'] eqn:E. apply get_part_spec in E.
    assert (Hsame : o' <> Panic -> separated s).
    { intros Hnp. destruct o' as [p|e|]; [|destruct e|done];
        try (destruct E as (st1 & m' & own & H1 & _ & H2 & _);
             eapply set_slot_separated; [exact H2|]; eapply em_same_separated; eauto).
      destruct E as [-> _]. done. }
    destruct o' as [p|e|]; [injection Hs as <- <-; apply Hsame; discriminate..|discriminate].
  - destruct (Hk _ _ _ eq_refl) as [m0 Hm0].
    destruct (set_part st k' p rnd) as [s o'] eqn:E. apply set_part_spec in E.
    assert (Hem : forall st1 m, em_case st k' (zero_key k') rnd st1 m -> st1 = st).
    { intros st1 m [H -> | Hn H -> | sc r Hn Hd Hr Hm ->]; [done|congruence..]. }
    destruct o' as [u|e|]; [|..|discriminate]; injection Hs as <- <-.
    + destruct E as (_ & st1 & m' & sh & H1 & _ & H2).
      eapply set_slot_separated; [exact H2|]. rewrite (Hem _ _ H1). done.
    + destruct E as [-> |[m' H1]]; [done|]. rewrite (Hem _ _ H1). done.
  - destruct (sign st sb) as [s o'] eqn:E. apply sign_spec in E.
    destruct o' as [r|e|]; [|injection Hs as <- <-; subst; done|discriminate].
    injection Hs as <- <-. pose proof (sign_case_level _ _ _ _ _ _ E) as [Hb _].
    destruct (sign_case_meta _ _ _ _ _ E Hb) as (H1 & H2 & _ & Hn).
    destruct (sr_fresh r) eqn:Ef; [|rewrite H2; done]. specialize (H1 eq_refl).
    destruct Hsep as [S1 S2]. split.
    + intros k m Hm. rewrite Hn. rewrite H1 in Hm. destruct (decide _); [discriminate|eauto].
    + intros k1 k2 m1 m2 Hm1 Hm2. rewrite H1 in Hm1, Hm2.
      destruct (decide (hrs_lt (ht_hrs k1) _)); [discriminate|].
      destruct (decide (hrs_lt (ht_hrs k2) _)); [discriminate|eauto].
  - unfold save_lss in Hs. destruct (save (cs_lss st) c) as [l e]. injection Hs as <- <-. done.
Qed.

Lemma crun_separated st l st' :
  crun st l st' -> sets_known C cfg st l -> separated st -> separated st'.
Proof.
  intros Hr. induction Hr as [st|st op st1 o l st2 Hs Hr IH]; intros Hk Hsep; [done|].
  apply IH.
  - intros l1 k p rnd o' l2 stm -> Hr1. eapply (Hk ((op, o) :: l1)); [done|].
    econstructor; eauto.
  - eapply cstep_separated; eauto. intros k p rnd ->.
    eapply (Hk [] k p rnd o l st); [done|constructor].
Qed.

(** storing a part for one key leaves the slots of every other key alone *)
Lemma independent lss l st k1 k2 p rnd st' :
  crun (new_cosigner lss) (l ++ [(OpSet k1 p rnd, ObsSetOk)]) st' ->
  sets_known C cfg (new_cosigner lss) (l ++ [(OpSet k1 p rnd, ObsSetOk)]) ->
  crun (new_cosigner lss) l st -> k1 <> k2 -> slots st' k2 = slots st k2.
Proof.
  intros Hr Hk Hr1 Hne.
  assert (Hsep : separated st).
  { eapply crun_separated; [exact Hr1| |].
    - intros l1 k q rq o l2 stm -> Hr2. eapply (Hk l1); [|exact Hr2].
      rewrite <- app_assoc. simpl. reflexivity.
    - split; [intros k m H|intros k k' m m' H]; simpl in H; rewrite lookup_empty in H; discriminate. }
  assert (Hs : cstep st (OpSet k1 p rnd) = Some (st', ObsSetOk)).
  { apply crun_app in Hr as (st1 & Ha & Hb). inversion Hb as [|? ? ? ? ? ? Hs Hn]; subst.
    inversion Hn; subst. replace st with st1; [done|].
    clear -Ha Hr1. revert st Hr1. induction Ha as [s|s op s1 o l s2 Hs Hr IH]; intros st Hr1.
    - inversion Hr1; done.
    - inversion Hr1 as [|? ? s1' ? ? ? Hs' Hr']; subst. rewrite Hs in Hs'. injection Hs' as <-. eauto. }
  destruct (Hk l k1 p rnd ObsSetOk [] st) as [m0 Hm0]; [done|done|].
  simpl in Hs. destruct (set_part st k1 p rnd) as [s [u|e|]] eqn:E; [|discriminate..].
  injection Hs as ->. apply set_part_spec in E as (_ & st1 & m & sh & Hem & _ & Hslot).
  assert (st1 = st /\ m = m0) as [-> ->].
  { destruct Hem as [H -> | Hn H -> | sc r Hn Hd Hr' Hm ->]; [|congruence..]. split; congruence. }
  destruct (cs_meta st !! k2) as [m2|] eqn:E2.
  - eapply separated_frame; eauto.
  - unfold slots. rewrite (set_slot_meta _ _ _ _ _ Hslot), E2. done.
Qed.

(** *** C17 *)

Lemma set_and_sign_level st k ps sb st' r :
  set_and_sign C cfg st k ps sb = (st', Val r) ->
  exists lvl, bytes_for sb lvl /\ hrs_le (ss_hrs (cs_lss st)) lvl /\ ss_hrs (cs_lss st') = lvl /\
    (hrs_lt (ss_hrs (cs_lss st)) lvl -> ss_sb (cs_lss st') = Some sb /\ ss_sig (cs_lss st') = sr_sig r
                                       /\ ss_eph (cs_lss st') = sr_eph r) /\
    (lvl = ss_hrs (cs_lss st) -> ss_sb (cs_lss st') = ss_sb (cs_lss st) /\
                                 ss_sig (cs_lss st') = ss_sig (cs_lss st)).
Proof.
  unfold set_and_sign. pose proof (set_parts_lss st k ps) as Hl.
  destruct (set_parts C cfg st k ps) as [st1 [u|e|]]; [|discriminate..]. simpl in Hl.
  intros H. apply sign_spec in H. rewrite <- Hl. clear Hl.
  pose proof (sign_case_level _ _ _ _ _ _ H) as [Hb Hle].
  exists (ss_hrs (cs_lss st')). split; [done|]. split; [done|]. split; [done|].
  destruct H as [k0 Hk Heq Hsb Hsig -> -> | k0 last es ep sig Hk Heq Hsb Hne Hsig Hd Hf -> ->
         | k0 es ep sig Hk Hlt Hf -> ->].
  - split; [|done]. intros Hlt. destruct (hrs_lt_irrefl _ Hlt).
  - split; [|done]. intros Hlt. destruct (hrs_lt_irrefl _ Hlt).
  - cbn [cs_lss with_meta with_lss] in *.
    rewrite save_accepted by (apply save_ok_iff; exact Hlt). simpl. split; [done|].
    intros E. rewrite E in Hlt. destruct (hrs_lt_irrefl _ Hlt).
Qed.

(** the state after a request without parts does not depend on the claimed key *)
Lemma claim_irrelevant st k k' sb : set_and_sign C cfg st k [] sb = set_and_sign C cfg st k' [] sb.
Proof. done. Qed.

Definition consistent (l : sign_state) : Prop :=
  forall sb, ss_sb l = Some sb -> bytes_for sb (ss_hrs l).

Lemma crun_consistent st l st' :
  crun st l st' -> consistent (cs_lss st) ->
  (forall c sb, (OpLSS c, ObsLSS c true) ∈ l -> c_sb c = Some sb -> bytes_for sb (c_hrs c)) ->
  consistent (cs_lss st').
Proof.
  induction 1 as [st|st op st1 o l st2 Hs Hr IH]; intros Hc Hev; [done|].
  apply IH; [|intros; eapply Hev; [right; done|done]]. clear IH Hr.
  destruct op as [k' id rnd|k' p rnd|sb|c]; simpl in Hs.
  - pose proof (get_part_lss C cfg st k' id rnd) as H.
    destruct (get_part st k' id rnd) as [s [p|e|]]; simpl in *; try discriminate; injection Hs as <- <-; rewrite H; done.
  - pose proof (set_part_lss C cfg st k' p rnd) as H.
    destruct (set_part st k' p rnd) as [s [u|e|]]; simpl in *; try discriminate; injection Hs as <- <-; rewrite H; done.
  - destruct (sign st sb) as [s o'] eqn:E. apply sign_spec in E.
    destruct o' as [r|e|]; [|injection Hs as <- <-; subst; done|discriminate]. injection Hs as <- <-.
    pose proof (sign_case_level _ _ _ _ _ _ E) as [Hb Hle].
    destruct E as [k0 Hk Heq Hsb Hsig -> -> | k0 last es ep sig Hk Heq Hsb Hne Hsig Hd Hf -> ->
         | k0 es ep sig Hk Hlt Hf -> ->]; [done|exact Hc|].
    cbn [cs_lss with_meta with_lss] in *. intros sb'.
    rewrite save_accepted in * by (apply save_ok_iff; exact Hlt). simpl in *. intros [= <-]. done.
  - unfold save_lss in Hs. destruct (save (cs_lss st) c) as [l' e] eqn:E. injection Hs as <- <-.
    simpl. destruct e as [e|].
    + pose proof (save_rejected (cs_lss st) c e) as Hj. rewrite E in Hj. simpl in Hj.
      rewrite Hj by done. done.
    + pose proof (save_accepted (cs_lss st) c) as Ha. rewrite E in Ha. simpl in Ha.
      rewrite Ha by done. intros sb Hsb. simpl in *. eapply Hev; [left|done].
Qed.

(** *** C22 *)
Lemma sign_panics st sb : unpack_hrst sb = Panic -> cstep st (OpSign sb) = None.
Proof. intros H. simpl. unfold LocalCosigner.sign. rewrite H. done. Qed.

End Proofs.
