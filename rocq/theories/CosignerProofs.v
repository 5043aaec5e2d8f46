(** Lemmas about LocalCosigner.v *)
From Verif Require Import GoBase Wire Canonical SignState Spec SignStateProofs CanonicalApi
  Crypto LocalCosigner CosignerSpec.
From Coq Require Import ZifyBool ZifyNat.

Lemma nano_roundtrip ts : in_int64 ts -> unix_nano (time_of_nano ts) = ts.
Proof.
  intros H. unfold unix_nano, time_of_nano. cbn [t_secs t_nanos].
  pose proof (Z.div_mod ts (10 ^ 9)). rewrite wrap64_small; unfold in_int64 in *; lia.
Qed.

Lemma hrst_less_spec a b : hrst_less a b = true <-> hrs_lt (ht_hrs a) (ht_hrs b).
Proof.
  unfold hrst_less, hrs_lt.
  repeat match goal with |- context [?x <? ?y] => destruct (Z.ltb_spec x y) end;
    split; try discriminate; try lia; done.
Qed.

Lemma hrst_less_false a b : hrst_less a b = false <-> hrs_le (ht_hrs b) (ht_hrs a).
Proof.
  rewrite <- hrs_not_lt, <- hrst_less_spec. destruct (hrst_less a b); split; done.
Qed.

Lemma prune_meta_lookup k m k' :
  prune_meta k m !! k' = if decide (hrs_lt (ht_hrs k') (ht_hrs k)) then None else m !! k'.
Proof.
  unfold prune_meta. destruct (decide _) as [Hd|Hd].
  - apply map_filter_lookup_None. right. intros x _. simpl.
    apply hrst_less_spec in Hd. congruence.
  - destruct (m !! k') as [c|] eqn:E.
    + apply map_filter_lookup_Some. split; [done|].
      apply hrst_less_false, hrs_not_lt, Hd.
    + apply map_filter_lookup_None. left. done.
Qed.

Section Proofs.
Context (C : Crypto) (cfg : cos_config).

Notation sign := (sign C cfg).
Notation get_part := (get_part C cfg).
Notation set_part := (set_part C cfg).
Notation ensure_meta := (ensure_meta C cfg).
Notation cstep := (cstep C cfg).
Notation crun := (crun C cfg).

(** *** frames *)

Lemma deal_shares_lss st k rnd : cs_lss (deal_shares C cfg st k rnd).1 = cs_lss st.
Proof. unfold deal_shares. destruct (_ !! k); [done|]. destruct rnd as [[]|]; done. Qed.

Lemma set_slot_lss st m i p st' : set_slot st m i p = Some st' -> cs_lss st' = cs_lss st.
Proof. unfold set_slot. destruct (idx_set _ _ _); [|discriminate]. intros [= <-]. done. Qed.
Lemma set_slot_meta st m i p st' : set_slot st m i p = Some st' -> cs_meta st' = cs_meta st.
Proof. unfold set_slot. destruct (idx_set _ _ _); [|discriminate]. intros [= <-]. done. Qed.
Lemma set_slot_next st m i p st' : set_slot st m i p = Some st' -> cs_next st' = cs_next st.
Proof. unfold set_slot. destruct (idx_set _ _ _); [|discriminate]. intros [= <-]. done. Qed.

Lemma ensure_meta_lss st k kd rnd : cs_lss (ensure_meta st k kd rnd).1 = cs_lss st.
Proof.
  unfold LocalCosigner.ensure_meta. destruct (_ !! k); [done|].
  pose proof (deal_shares_lss st kd rnd) as H.
  destruct (deal_shares C cfg st kd rnd) as [st' [m|e|]]; simpl in *; done.
Qed.

Lemma get_part_lss st k id rnd : cs_lss (get_part st k id rnd).1 = cs_lss st.
Proof.
  unfold LocalCosigner.get_part.
  pose proof (ensure_meta_lss st k k (gr_deal rnd)) as H.
  destruct (ensure_meta st k k (gr_deal rnd)) as [st1 [m|e|]]; simpl in *; [|done|done].
  destruct (idx (m_dealt m) (cc_id cfg - 1)) as [own|]; [|done].
  destruct (set_slot st1 m _ _) as [st2|] eqn:E; [|done].
  apply set_slot_lss in E.
  destruct (cc_peers cfg !! id) as [pk|]; [|simpl; congruence].
  destruct (idx (m_dealt m) (id - 1)) as [sh|]; [|simpl; congruence].
  destruct (cr_encrypt C pk sh _) as [enc|]; [|simpl; congruence].
  destruct (cr_rsa_sign C _ _ _) as [sg|]; simpl; congruence.
Qed.

Lemma set_part_lss st k p rnd : cs_lss (set_part st k p rnd).1 = cs_lss st.
Proof.
  unfold LocalCosigner.set_part.
  destruct (check_source C cfg p); [done|].
  pose proof (ensure_meta_lss st k (zero_key k) rnd) as H.
  destruct (ensure_meta st k (zero_key k) rnd) as [st1 [m|e|]]; simpl in *; [|done|done].
  destruct (cr_decrypt C _ _) as [sh|]; [|done].
  destruct (set_slot st1 m _ _) as [st2|] eqn:E; [|done].
  apply set_slot_lss in E. simpl. congruence.
Qed.

(** *** sign *)

(** a fresh share was computed from the metadata at [k] *)
Record fresh_share (st : cos_state) (sb : bytes) (k : hrst) (es ep sig : bytes) : Prop := {
  fs_meta : exists m, cs_meta st !! k = Some m /\
      cr_add_scalars C (map pm_share (used_parts (peers_of st m))) = Some es /\
      cr_add_elements C (map pm_eph (used_parts (peers_of st m))) = Some ep;
  fs_len : length es = 32%nat;
  fs_min : cr_sc_minimal C es = true;
  fs_sig : cr_sign_share C sb (cc_share cfg) es (cc_pub cfg) ep = Some sig }.

Definition set_eph (l : sign_state) (ep : bytes) : sign_state :=
  SS (ss_hrs l) (Some ep) (ss_sig l) (ss_sb l) (ss_cache l).

Inductive sign_case (st : cos_state) (sb : bytes) (st' : cos_state) (r : sign_resp) : Prop :=
| SCRetry k (Hk : unpack_hrst sb = Val k)
    (Heq : ht_hrs k = ss_hrs (cs_lss st))
    (Hsb : ss_sb (cs_lss st) = Some sb)
    (Hsig : is_Some (ss_sig (cs_lss st)))
    (Hst : st' = st)
    (Hr : r = SignResp (ss_eph (cs_lss st)) (ss_sig (cs_lss st)) false)
| SCSame k last es ep sig (Hk : unpack_hrst sb = Val k)
    (Heq : ht_hrs k = ss_hrs (cs_lss st))
    (Hsb : ss_sb (cs_lss st) = Some last) (Hne : sb <> last)
    (Hsig : is_Some (ss_sig (cs_lss st)))
    (Hdiff : only_differ_by_timestamp (h_step (ss_hrs (cs_lss st))) last sb = None)
    (Hf : fresh_share st sb k es ep sig)
    (Hst : st' = with_meta (with_lss st (set_eph (cs_lss st) ep)) (prune_meta k (cs_meta st)))
    (Hr : r = SignResp (Some ep) (Some sig) true)
| SCHigher k es ep sig (Hk : unpack_hrst sb = Val k)
    (Hlt : hrs_lt (ss_hrs (cs_lss st)) (ht_hrs k))
    (Hf : fresh_share st sb k es ep sig)
    (Hst : st' = with_meta (with_lss st
              (save (set_eph (cs_lss st) ep) (SSC (ht_hrs k) (Some sig) (Some sb))).1)
              (prune_meta k (cs_meta st)))
    (Hr : r = SignResp (Some ep) (Some sig) true).

Lemma sign_fresh_spec st sb k st' o :
  sign_fresh C cfg st sb k = (st', o) -> hrs_le (ss_hrs (cs_lss st)) (ht_hrs k) ->
  match o with
  | Val r => exists es ep sig, fresh_share st sb k es ep sig /\
      r = SignResp (Some ep) (Some sig) true /\
      st' = with_meta (with_lss st
              (save (set_eph (cs_lss st) ep) (SSC (ht_hrs k) (Some sig) (Some sb))).1)
              (prune_meta k (cs_meta st))
  | Fail _ => st' = st
  | Panic => True
  end.
Proof.
  intros H Hle. unfold sign_fresh in H.
  destruct (cs_meta st !! k) as [m|] eqn:Em; [|injection H as <- <-; done].
  destruct (cr_add_scalars C _) as [es|] eqn:Es; [|injection H as <- <-; done].
  destruct (cr_add_elements C _) as [ep|] eqn:Ep; [|injection H as <- <-; done].
  case_bool_decide as Hl; cbn [negb] in H; [|injection H as <- <-; done].
  destruct (cr_sc_minimal C es) eqn:Emin; cbn [negb] in H; [|injection H as <- <-; done].
  destruct (cr_sign_share C _ _ _ _ _) as [sig|] eqn:Esig; [|injection H as <- <-; done].
  fold (set_eph (cs_lss st) ep) in H.
  destruct (save (set_eph (cs_lss st) ep) _) as [l2 err] eqn:Esave.
  assert (Hn : forall e, err = Some e -> e = SameHRS).
  { intros e ->. pose proof (save_regression_iff (set_eph (cs_lss st) ep)
      (SSC (ht_hrs k) (Some sig) (Some sb))) as (R1 & R2 & R3).
    rewrite Esave in R1, R2, R3. simpl in *.
    destruct e; [..|done]; exfalso.
    - apply proj1 in R1. specialize (R1 eq_refl). apply hrs_le_height in Hle. lia.
    - apply proj1 in R2. specialize (R2 eq_refl). destruct Hle as [Hle|Hle];
        [unfold hrs_lt in Hle|rewrite Hle in R2]; lia.
    - apply proj1 in R3. specialize (R3 eq_refl). destruct Hle as [Hle|Hle];
        [unfold hrs_lt in Hle|rewrite Hle in R3]; lia. }
  destruct err as [e|].
  - rewrite (Hn e eq_refl) in H. injection H as <- <-.
    exists es, ep, sig. split; [|split; [done|rewrite Esave; done]].
    split; eauto.
  - injection H as <- <-. exists es, ep, sig. split; [|split; [done|rewrite Esave; done]].
    split; eauto.
Qed.

Lemma sign_spec st sb st' o :
  sign st sb = (st', o) ->
  match o with
  | Val r => sign_case st sb st' r
  | Fail _ => st' = st
  | Panic => True
  end.
Proof.
  intros H. unfold LocalCosigner.sign in H.
  destruct (unpack_hrst sb) as [k|e|] eqn:Ek; [|injection H as <- <-; done..].
  pose proof (check_hrs_spec (cs_lss st) (ht_hrs k)) as (T1 & T2 & T3 & _).
  destruct (check_hrs (cs_lss st) (ht_hrs k)) as [b|e|]; [|injection H as <- <-; done..].
  destruct b.
  - destruct (proj1 T2 eq_refl) as (Heq & [last Hsb] & Hsig). clear T1 T2 T3.
    rewrite Hsb in H. cbn [slice_of] in H.
    destruct (bytes_equal sb last) eqn:Eb.
    + apply bytes_equal_spec in Eb. subst last. injection H as <- <-.
      eapply SCRetry; eauto.
    + assert (Hne : sb <> last) by (intros ->; rewrite bytes_equal_refl in Eb; discriminate).
      destruct (only_differ_by_timestamp _ _ _) as [e|] eqn:Ed; [injection H as <- <-; done|].
      apply sign_fresh_spec in H; [|rewrite Heq; apply hrs_le_refl].
      destruct o as [r|e|]; [|done|done].
      destruct H as (es & ep & sig & Hf & -> & ->).
      assert (Hs : (save (set_eph (cs_lss st) ep) (SSC (ht_hrs k) (Some sig) (Some sb))).1
                   = set_eph (cs_lss st) ep).
      { eapply save_rejected. apply save_same_iff. simpl. done. }
      rewrite Hs. eapply SCSame; eauto.
  - pose proof (proj1 T1 eq_refl) as Hlt.
    apply sign_fresh_spec in H; [|left; exact Hlt].
    destruct o as [r|e|]; [|done|done].
    destruct H as (es & ep & sig & Hf & -> & ->). eapply SCHigher; eauto.
Qed.

(** the watermark after a step *)
Lemma save_eph_hrs l ep c : ss_hrs (save (set_eph l ep) c).1 = ss_hrs (save l c).1.
Proof.
  unfold save. change (error_if_less_or_equal (set_eph l ep) (c_hrs c))
    with (error_if_less_or_equal l (c_hrs c)).
  destruct (error_if_less_or_equal l (c_hrs c)); done.
Qed.

Lemma sign_case_level st sb st' r :
  sign_case st sb st' r ->
  bytes_for sb (ss_hrs (cs_lss st')) /\ hrs_le (ss_hrs (cs_lss st)) (ss_hrs (cs_lss st')).
Proof.
  intros [k Hk Heq Hsb Hsig -> Hr | k last es ep sig Hk Heq Hsb Hne Hsig Hd Hf -> Hr
         | k es ep sig Hk Hlt Hf -> Hr].
  - destruct k as [k t]. simpl in *. subst k. split; [exists t; done|apply hrs_le_refl].
  - destruct k as [k t]. simpl in *. subst k. split; [exists t; done|apply hrs_le_refl].
  - cbn [cs_lss with_meta with_lss]. rewrite save_accepted by (apply save_ok_iff; exact Hlt).
    cbn [ss_hrs c_hrs]. destruct k as [k t]. simpl in *.
    split; [exists t; done|left; done].
Qed.

Lemma cstep_mono st op st' o :
  cstep st op = Some (st', o) -> hrs_le (ss_hrs (cs_lss st)) (ss_hrs (cs_lss st')).
Proof.
  destruct op as [k id rnd|k p rnd|sb|c]; simpl.
  - pose proof (get_part_lss st k id rnd) as H.
    destruct (get_part st k id rnd) as [s [p|e|]]; simpl in *; intros [= <- <-];
      rewrite H; apply hrs_le_refl.
  - pose proof (set_part_lss st k p rnd) as H.
    destruct (set_part st k p rnd) as [s [u|e|]]; simpl in *; intros [= <- <-];
      rewrite H; apply hrs_le_refl.
  - destruct (sign st sb) as [s o'] eqn:E. apply sign_spec in E.
    destruct o' as [r|e|]; intros [= <- <-].
    + apply sign_case_level in E. apply E.
    + subst s. apply hrs_le_refl.
  - unfold save_lss. pose proof (save_mono (cs_lss st) c) as H.
    destruct (save (cs_lss st) c) as [l e]. simpl in *. intros [= <- <-]. exact H.
Qed.

(** *** C05: no conflicting shares *)

Definition compat (step : Z) (last sb : bytes) : Prop :=
  sb = last \/ only_differ_by_timestamp step last sb = None.

Lemma unpack_decodes sb k t :
  unpack_hrst sb = Val (HRST k t) ->
  (h_step k = 1 /\ exists p, decode_proposal sb = Some p) \/
  ((h_step k = 2 \/ h_step k = 3) /\ decode_proposal sb = None /\
   exists v, decode_vote sb = Some v).
Proof.
  unfold unpack_hrst. destruct (decode_proposal sb) as [p|].
  - intros [= <- _]. left. split; [done|]. eauto.
  - destruct (decode_vote sb) as [v|]; [|discriminate].
    destruct (vote_type_to_step (cv_type v)) as [s|] eqn:Es; [|discriminate].
    intros [= <- _]. right. apply step_of_type_spec in Es. unfold step_of_type in Es.
    simpl. split; [lia|]. eauto.
Qed.

Lemma same_vote_refl v : same_vote_but_time v v.
Proof. repeat split. Qed.
Lemma same_vote_sym v w : same_vote_but_time v w -> same_vote_but_time w v.
Proof. unfold same_vote_but_time. intuition congruence. Qed.
Lemma same_vote_trans u v w :
  same_vote_but_time u v -> same_vote_but_time v w -> same_vote_but_time u w.
Proof. unfold same_vote_but_time. intuition congruence. Qed.
Lemma same_proposal_refl v : same_proposal_but_time v v.
Proof. repeat split. Qed.
Lemma same_proposal_sym v w : same_proposal_but_time v w -> same_proposal_but_time w v.
Proof. unfold same_proposal_but_time. intuition congruence. Qed.
Lemma same_proposal_trans u v w :
  same_proposal_but_time u v -> same_proposal_but_time v w -> same_proposal_but_time u w.
Proof. unfold same_proposal_but_time. intuition congruence. Qed.

Lemma compat_same k last a b :
  bytes_for a k -> bytes_for b k -> compat (h_step k) last a -> compat (h_step k) last b ->
  same_message_but_time a b.
Proof.
  intros [ta Ha] [tb Hb] Ca Cb.
  apply unpack_decodes in Ha, Hb.
  destruct Ha as [[Hs [pa Ha]]|[Hs [Ha0 [va Ha]]]].
  - destruct Hb as [[_ [pb Hb]]|[? _]]; [|lia]. left. exists pa, pb. split; [done|]. split; [done|].
    assert (Hl : forall x px, decode_proposal x = Some px -> compat (h_step k) last x ->
      exists pl, decode_proposal last = Some pl /\ same_proposal_but_time pl px).
    { intros x px Hx [ -> |Hd]; [exists px; split; [done|apply same_proposal_refl]|].
      apply only_differ_iff in Hd as [[_ (p & q & Hp & Hq & Hpq)]|[? _]]; [|lia].
      assert (q = px) as -> by congruence. eauto. }
    destruct (Hl _ _ Ha Ca) as (pl & Hp1 & Hs1). destruct (Hl _ _ Hb Cb) as (pl' & Hp2 & Hs2).
    assert (pl' = pl) as -> by congruence.
    eapply same_proposal_trans; [apply same_proposal_sym, Hs1|exact Hs2].
  - destruct Hb as [[? _]|[_ [Hb0 [vb Hb]]]]; [lia|]. right. split; [done|]. split; [done|].
    exists va, vb. split; [done|]. split; [done|].
    assert (Hl : forall x px, decode_vote x = Some px -> compat (h_step k) last x ->
      exists pl, decode_vote last = Some pl /\ same_vote_but_time pl px).
    { intros x px Hx [ -> |Hd]; [exists px; split; [done|apply same_vote_refl]|].
      apply only_differ_iff in Hd as [[? _]|[_ (p & q & Hp & Hq & Hpq)]]; [lia|].
      assert (q = px) as -> by congruence. eauto. }
    destruct (Hl _ _ Ha Ca) as (pl & Hp1 & Hs1). destruct (Hl _ _ Hb Cb) as (pl' & Hp2 & Hs2).
    assert (pl' = pl) as -> by congruence.
    eapply same_vote_trans; [apply same_vote_sym, Hs1|exact Hs2].
Qed.

(** the last recorded sign bytes vouch for every released share at the current level *)
Definition vouched (st : cos_state) (sb : bytes) : Prop :=
  exists k, bytes_for sb k /\ hrs_le k (ss_hrs (cs_lss st)) /\
    (k = ss_hrs (cs_lss st) -> exists last, ss_sb (cs_lss st) = Some last /\
       compat (h_step (ss_hrs (cs_lss st))) last sb).

Lemma vouched_mono st st' sb :
  vouched st sb ->
  (hrs_lt (ss_hrs (cs_lss st)) (ss_hrs (cs_lss st')) \/
   (ss_hrs (cs_lss st) = ss_hrs (cs_lss st') /\ ss_sb (cs_lss st) = ss_sb (cs_lss st'))) ->
  vouched st' sb.
Proof.
  intros (k & Hk & Hle & Hv) [Hlt|[Heq Hs]]; exists k; (split; [done|]).
  - split; [left; eapply hrs_le_lt_trans; eauto|]. intros ->. exfalso.
    eapply hrs_lt_irrefl, hrs_le_lt_trans; eauto.
  - rewrite <- Heq, <- Hs. done.
Qed.

Lemma sign_case_vouched st sb st' r :
  sign_case st sb st' r ->
  vouched st' sb /\ forall sb', vouched st sb' -> vouched st' sb'.
Proof.
  intros [k Hk Heq Hsb Hsig -> Hr | k last es ep sig Hk Heq Hsb Hne Hsig Hd Hf -> Hr
         | k es ep sig Hk Hlt Hf -> Hr]; destruct k as [k t]; cbn [ht_hrs] in *.
  - split; [|done]. exists k. split; [exists t; done|]. rewrite Heq.
    split; [apply hrs_le_refl|]. intros _. exists sb. split; [done|left; done].
  - split.
    + exists k. split; [exists t; done|]. cbn [cs_lss with_meta with_lss set_eph ss_hrs ss_sb].
      rewrite Heq. split; [apply hrs_le_refl|]. intros _. exists last. split; [done|right; done].
    + intros sb' Hv. eapply vouched_mono; [exact Hv|]. right. done.
  - assert (E : (save (set_eph (cs_lss st) ep) (SSC k (Some sig) (Some sb))).2 = None)
      by (apply save_ok_iff; exact Hlt).
    split.
    + exists k. split; [exists t; done|]. cbn [cs_lss with_meta with_lss].
      rewrite (save_accepted _ _ E). cbn [ss_hrs c_hrs ss_sb c_sb].
      split; [apply hrs_le_refl|]. intros _. exists sb. split; [done|left; done].
    + intros sb' Hv. eapply vouched_mono; [exact Hv|]. left.
      cbn [cs_lss with_meta with_lss]. rewrite (save_accepted _ _ E). exact Hlt.
Qed.

Lemma cstep_vouched st op st' o :
  cstep st op = Some (st', o) ->
  (forall sb, vouched st sb -> vouched st' sb) /\
  (forall sb r, o = ObsShare sb r -> vouched st' sb).
Proof.
  destruct op as [k id rnd|k p rnd|sb|c]; simpl.
  - pose proof (get_part_lss st k id rnd) as H.
    destruct (get_part st k id rnd) as [s [p|e|]]; simpl in *; intros [= <- <-];
      (split; [|discriminate]); intros sb Hv; eapply vouched_mono; eauto; right; rewrite H; done.
  - pose proof (set_part_lss st k p rnd) as H.
    destruct (set_part st k p rnd) as [s [u|e|]]; simpl in *; intros [= <- <-];
      (split; [|discriminate]); intros sb Hv; eapply vouched_mono; eauto; right; rewrite H; done.
  - destruct (sign st sb) as [s o'] eqn:E. apply sign_spec in E.
    destruct o' as [r|e|]; intros [= <- <-].
    + apply sign_case_vouched in E as [E1 E2]. split; [exact E2|]. intros sb' r' [= <- <-]. exact E1.
    + subst s. split; [done|discriminate].
  - unfold save_lss. destruct (save (cs_lss st) c) as [l e] eqn:E. intros [= <- <-].
    split; [|discriminate]. intros sb Hv. eapply vouched_mono; [exact Hv|].
    cbn [cs_lss with_lss]. destruct e as [e|].
    + right. pose proof (save_rejected (cs_lss st) c e) as Hr. rewrite E in Hr.
      simpl in Hr. rewrite Hr by done. done.
    + left. pose proof (save_accepted (cs_lss st) c) as Ha.
      pose proof (save_ok_iff (cs_lss st) c) as Ho. rewrite E in Ha, Ho. simpl in Ha, Ho.
      rewrite Ha by done. simpl. apply Ho. done.
Qed.

Lemma released_cons op o l sb :
  released ((op, o) :: l) sb <-> (exists r, o = ObsShare sb r) \/ released l sb.
Proof.
  unfold released. split.
  - intros (op' & r & H). apply elem_of_cons in H as [[= -> <-]|H]; eauto.
  - intros [[r ->]|(op' & r & H)].
    + exists op, r. apply elem_of_cons. auto.
    + exists op', r. apply elem_of_cons. auto.
Qed.

Lemma crun_vouched st l st' :
  crun st l st' ->
  (forall sb, vouched st sb -> vouched st' sb) /\ (forall sb, released l sb -> vouched st' sb).
Proof.
  induction 1 as [st|st op st1 o l st2 Hs Hr [IH1 IH2]].
  - split; [done|]. intros sb (op & r & H). inversion H.
  - apply cstep_vouched in Hs as [H1 H2]. split; [eauto|].
    intros sb [[r ->]|H]%released_cons; eauto.
Qed.

Lemma crun_app st l1 l2 st2 :
  crun st (l1 ++ l2) st2 <-> exists st1, crun st l1 st1 /\ crun st1 l2 st2.
Proof.
  split.
  - revert st. induction l1 as [|[op o] l1 IH]; intros st H; simpl in *.
    + exists st. split; [constructor|done].
    + inversion H as [|? ? stx ? ? ? Hs Hr]; subst.
      apply IH in Hr as (st1 & H1 & H2). exists st1. split; [econstructor; eauto|done].
  - intros (st1 & H1 & H2). induction H1; simpl; [done|]. econstructor; eauto.
Qed.

Lemma crun_mono st l st' : crun st l st' -> hrs_le (ss_hrs (cs_lss st)) (ss_hrs (cs_lss st')).
Proof.
  induction 1; [apply hrs_le_refl|]. eapply hrs_le_trans; [eapply cstep_mono; eauto|done].
Qed.

Lemma bytes_for_fun sb k k' : bytes_for sb k -> bytes_for sb k' -> k = k'.
Proof. intros [t H] [t' H']. congruence. Qed.

Lemma vouched_before_after st l st' sb k :
  crun st l st' -> vouched st sb -> bytes_for sb k -> k = ss_hrs (cs_lss st') ->
  exists last, ss_sb (cs_lss st') = Some last /\ compat (h_step k) last sb.
Proof.
  intros Hr Hv Hk Hh. apply crun_vouched in Hr as [H _]. apply H in Hv.
  destruct Hv as (k' & Hk' & _ & Hv). assert (k' = k) as -> by eauto using bytes_for_fun.
  rewrite Hh. apply Hv. exact Hh.
Qed.

Lemma no_conflict st l st' a b k :
  crun st l st' -> released l a -> released l b -> bytes_for a k -> bytes_for b k ->
  same_message_but_time a b.
Proof.
  intros Hr Ha Hb Hka Hkb.
  (* look at the state right after the later of the two releases: both are vouched there at
     level k *)
  assert (Hsplit : exists l1 op r l2 x, l = l1 ++ (op, ObsShare x r) :: l2 /\ (x = a \/ x = b) /\
            (forall y, (y = a \/ y = b) -> released (l1 ++ [(op, ObsShare x r)]) y)).
  { clear Hr Hka Hkb st st'. induction l as [|[op o] l IH] using rev_ind.
    - destruct Ha as (? & ? & H). inversion H.
    - assert (Hd : (exists r, o = ObsShare a r \/ o = ObsShare b r) \/
                   ((forall r, o <> ObsShare a r) /\ (forall r, o <> ObsShare b r))).
      { destruct o as [p|sb r|c acc| |e]; try (right; split; discriminate).
        destruct (decide (sb = a)) as [ -> |Hna]; [left; eauto|].
        destruct (decide (sb = b)) as [ -> |Hnb]; [left; eauto|].
        right. split; intros r' [= ? ?]; congruence. }
      destruct Hd as [[r [-> | ->]]|[H1 H2]].
      + exists l, op, r, [], a. split; [done|]. split; [auto|]. intros y [-> | ->]; done.
      + exists l, op, r, [], b. split; [done|]. split; [auto|]. intros y [-> | ->]; done.
      + assert (Hrel : forall y, (y = a \/ y = b) -> released (l ++ [(op, o)]) y -> released l y).
        { intros y Hy (op' & r & Hin). apply elem_of_app in Hin as [Hin|Hin]; [exists op', r; done|].
          apply elem_of_list_singleton in Hin. injection Hin as -> Ho.
          destruct Hy as [-> | ->]; [destruct (H1 r)|destruct (H2 r)]; done. }
        destruct IH as (l1 & op' & r & l2 & x & -> & Hx & Hy); [eauto..|].
        exists l1, op', r, (l2 ++ [(op, o)]), x. split; [|done].
        rewrite <- app_assoc. done. }
  destruct Hsplit as (l1 & op & r & l2 & x & -> & Hx & Hrel).
  rewrite cons_middle, app_assoc in Hr. apply crun_app in Hr as (sm & Hr1 & _).
  assert (Hkx : bytes_for x k) by (destruct Hx as [-> | ->]; done).
  assert (Hlevel : k = ss_hrs (cs_lss sm)).
  { apply crun_app in Hr1 as (s1 & _ & Hlast). inversion Hlast as [|? ? s2 ? ? ? Hs Hn]; subst.
    inversion Hn; subst. destruct op as [k' id rnd|k' p rnd|sb|c]; simpl in Hs.
    - destruct (get_part s1 k' id rnd) as [? [?|?|]]; discriminate.
    - destruct (set_part s1 k' p rnd) as [? [?|?|]]; discriminate.
    - destruct (sign s1 sb) as [s o'] eqn:E. apply sign_spec in E.
      destruct o' as [r'|e|]; [|discriminate..]. injection Hs as <- <- <-.
      apply sign_case_level in E as [E _]. eauto using bytes_for_fun.
    - destruct (save_lss s1 c) as [? ?]; discriminate. }
  apply crun_vouched in Hr1 as [_ Hv].
  assert (Hc : forall y, (y = a \/ y = b) -> bytes_for y k -> exists last,
     ss_sb (cs_lss sm) = Some last /\ compat (h_step k) last y).
  { intros y Hy Hky. destruct (Hv y (Hrel y Hy)) as (k' & Hk' & _ & Hv').
    assert (k' = k) as -> by eauto using bytes_for_fun. rewrite Hlevel. apply Hv', Hlevel. }
  destruct (Hc a) as (la & Hla & Ca); [auto..|]. destruct (Hc b) as (lb & Hlb & Cb); [auto..|].
  assert (lb = la) as -> by congruence.
  eapply compat_same; eauto.
Qed.

End Proofs.
