(** Sign bytes as the API produces them: consequences of CanonicalProofs.v. *)
From Verif Require Import GoBase Wire WireProofs Canonical SignState Spec CanonicalProofs.
From Coq Require Import ZifyBool ZifyNat.

(** *** sizes *)

Lemma varint_enc_go_length n v : (length (varint_enc_go n v) <= n)%nat.
Proof.
  revert v. induction n as [|n IH]; intros v; simpl; [done|].
  destruct (v <? 128); simpl; [lia|]. specialize (IH (v / 128)). lia.
Qed.
Lemma e_varint_length tag v : (length (e_varint tag v) <= 11)%nat.
Proof.
  unfold e_varint, varint_enc. destruct (v =? 0); [simpl; lia|]. cbn [length].
  pose proof (varint_enc_go_length 10 (u64 v)). lia.
Qed.
Lemma e_fixed64_length tag v : (length (e_fixed64 tag v) <= 9)%nat.
Proof. unfold e_fixed64. destruct (v =? 0); simpl; lia. Qed.
Lemma e_msg_length tag p : (length (e_msg tag p) <= 11 + length p)%nat.
Proof.
  unfold e_msg, len_enc. cbn [length]. rewrite app_length.
  pose proof (varint_enc_go_length 10 (Z.of_nat (length p))). unfold varint_enc. lia.
Qed.
Lemma e_bytes_length tag p : (length (e_bytes tag p) <= 11 + length p)%nat.
Proof. destruct p; [simpl; lia|]. apply e_msg_length. Qed.

Lemma hash_ok_length h : hash_ok h = true -> (length h <= 32)%nat.
Proof. unfold hash_ok. intros [H|H]%orb_prop; apply bool_decide_eq_true in H; lia. Qed.

Lemma m_bid_length b : bid_ok b = true -> (length (m_bid b) <= 200)%nat.
Proof.
  unfold bid_ok. intros [H1 H2]%andb_prop. apply hash_ok_length in H1, H2.
  unfold m_bid, m_psh. rewrite app_length.
  pose proof (e_bytes_length x0a (bid_hash b)).
  pose proof (e_msg_length x12 (m_psh (bid_psh b))) as H3. unfold m_psh in H3 at 2.
  rewrite app_length in H3.
  pose proof (e_varint_length x08 (psh_total (bid_psh b))).
  pose proof (e_bytes_length x12 (psh_hash (bid_psh b))).
  unfold m_psh in H3. lia.
Qed.

Lemma e_bid_length tag b :
  match b with Some b => bid_ok b = true | None => True end ->
  (length (e_bid tag b) <= 300)%nat.
Proof.
  destruct b as [b|]; simpl; [|lia]. intros H. apply m_bid_length in H.
  pose proof (e_msg_length tag (m_bid b)). unfold e_msg in *. simpl in *. lia.
Qed.

Lemma m_timestamp_length t : (length (m_timestamp t) <= 22)%nat.
Proof.
  unfold m_timestamp. rewrite app_length.
  pose proof (e_varint_length x08 (t_secs t)). pose proof (e_varint_length x10 (t_nanos t)). lia.
Qed.

Lemma m_vote_small v :
  match cv_bid v with Some b => bid_ok b = true | None => True end ->
  Z.of_nat (length (cv_chain v)) < 2 ^ 62 -> small (m_vote v).
Proof.
  intros Hb Hc. unfold small, m_vote. rewrite !app_length.
  pose proof (e_varint_length x08 (cv_type v)). pose proof (e_fixed64_length x11 (cv_height v)).
  pose proof (e_fixed64_length x19 (cv_round v)). pose proof (e_bid_length x22 _ Hb).
  pose proof (e_msg_length x2a (m_timestamp (cv_ts v))).
  pose proof (m_timestamp_length (cv_ts v)). pose proof (e_bytes_length x32 (cv_chain v)).
  change (2 ^ 62) with 4611686018427387904 in Hc.
  change (2 ^ 63) with 9223372036854775808. lia.
Qed.
Lemma m_proposal_small p :
  match cp_bid p with Some b => bid_ok b = true | None => True end ->
  Z.of_nat (length (cp_chain p)) < 2 ^ 62 -> small (m_proposal p).
Proof.
  intros Hb Hc. unfold small, m_proposal. rewrite !app_length.
  pose proof (e_varint_length x08 (cp_type p)). pose proof (e_fixed64_length x11 (cp_height p)).
  pose proof (e_varint_length x20 (cp_pol p)).
  pose proof (e_fixed64_length x19 (cp_round p)). pose proof (e_bid_length x2a _ Hb).
  pose proof (e_msg_length x32 (m_timestamp (cp_ts p))).
  pose proof (m_timestamp_length (cp_ts p)). pose proof (e_bytes_length x3a (cp_chain p)).
  change (2 ^ 62) with 4611686018427387904 in Hc.
  change (2 ^ 63) with 9223372036854775808. lia.
Qed.

(** *** what successful sign-bytes calls return *)

Lemma int32_int64 z : in_int32 z -> in_int64 z.
Proof. unfold in_int32, in_int64. lia. Qed.

Lemma vote_sign_bytes_inv chain v b :
  vote_in_range chain v -> vote_sign_bytes chain v = Val b ->
  exists c, vote_wf c /\ b = delimited (m_vote c) /\
    cv_type c = v_type v /\ cv_height c = v_height v /\ cv_round c = v_round v /\
    cv_bid c = (if bool_decide (v_bid v = empty_bid) then None else Some (v_bid v)) /\
    cv_ts c = v_ts v /\ cv_chain c = chain.
Proof.
  intros (Hty & Hhe & Hro & Hto & Hch).
  unfold vote_sign_bytes, canonicalize_vote, canonicalize_bid.
  destruct (bid_ok (v_bid v)) eqn:Eb; [|discriminate]. cbn [cv_ts].
  destruct (time_valid (v_ts v)) eqn:Et; [|discriminate]. intros [= <-].
  eexists. split; [|split; [reflexivity|repeat split]].
  constructor; simpl; auto using int32_int64.
  - destruct (bool_decide _); simpl; [done|]. exact Hto.
  - apply m_vote_small; simpl; [|exact Hch]. destruct (bool_decide _); [done|exact Eb].
Qed.

Lemma proposal_sign_bytes_inv chain p b :
  proposal_in_range chain p -> proposal_sign_bytes chain p = Val b ->
  exists c, proposal_wf c /\ b = delimited (m_proposal c) /\
    cp_type c = ProposalType /\ cp_height c = p_height p /\ cp_round c = p_round p /\
    cp_pol c = p_pol p /\
    cp_bid c = (if bool_decide (p_bid p = empty_bid) then None else Some (p_bid p)) /\
    cp_ts c = p_ts p /\ cp_chain c = chain.
Proof.
  intros (Hhe & Hro & Hpo & Hto & Hch).
  unfold proposal_sign_bytes, canonicalize_proposal, canonicalize_bid.
  destruct (bid_ok (p_bid p)) eqn:Eb; [|discriminate]. cbn [cp_ts].
  destruct (time_valid (p_ts p)) eqn:Et; [|discriminate]. intros [= <-].
  eexists. split; [|split; [reflexivity|repeat split]].
  constructor; simpl; auto using int32_int64.
  - unfold ProposalType, in_int32. lia.
  - destruct (bool_decide _); simpl; [done|]. exact Hto.
  - apply m_proposal_small; simpl; [|exact Hch]. destruct (bool_decide _); [done|exact Eb].
Qed.

(** *** C18 *)

(** the corner in which a vote's sign bytes also decode as a proposal *)
Definition reads_as_proposal (chain : bytes) (v : vote) : Prop :=
  v_bid v = empty_bid /\ v_ts v = epoch /\ (chain = [] \/ um_timestamp chain <> None).

Lemma proposal_of_epoch_vote c :
  vote_wf c -> cv_bid c = None -> cv_ts c = epoch ->
  unmarshal h_proposal empty_proposal (m_vote c) =
  match cv_chain c with
  | [] => Some (CProp (cv_type c) (cv_height c) (cv_round c) 0 (Some empty_bid) zero_time [])
  | ch => match um_timestamp ch with
          | Some t => Some (CProp (cv_type c) (cv_height c) (cv_round c) 0 (Some empty_bid) t [])
          | None => None
          end
  end.
Proof.
  intros [Hty Hhe Hro Hbi Hts Hsm] Eb Et. destruct c as [ty he ro bi ts ch].
  cbn [cv_type cv_height cv_round cv_bid cv_ts cv_chain] in *. subst bi ts.
  unfold m_vote, small in *. cbn [cv_type cv_height cv_round cv_bid cv_ts cv_chain e_bid] in *.
  apply app_small in Hsm as [_ Hsm]. apply app_small in Hsm as [_ Hsm].
  apply app_small in Hsm as [_ Hsm]. apply app_small in Hsm as [_ Hsm].
  apply app_small in Hsm as [_ Hch]. apply ebytes_small in Hch.
  erewrite (step_varint _ consuming_proposal x08 1 ty _ (CProp ty 0 0 0 None zero_time []));
    try reflexivity.
  2:{ intros ->. reflexivity. }
  2:{ intros _. cbv beta. rewrite wrap32_u64, wrap32_small by done. reflexivity. }
  erewrite (step_fixed64 _ consuming_proposal x11 2 he _ (CProp ty he 0 0 None zero_time []));
    try reflexivity.
  2:{ intros ->. reflexivity. }
  2:{ intros _. cbv beta. rewrite wrap64_u64, wrap64_small by done. reflexivity. }
  erewrite (step_fixed64 _ consuming_proposal x19 3 ro _ (CProp ty he ro 0 None zero_time []));
    try reflexivity.
  2:{ intros ->. reflexivity. }
  2:{ intros _. cbv beta. rewrite wrap64_u64, wrap64_small by done. reflexivity. }
  cbn [app].
  erewrite (step_msg _ consuming_proposal x2a 5 _ _
    (CProp ty he ro 0 (Some empty_bid) zero_time [])); try reflexivity.
  destruct ch as [|b ch]; [reflexivity|].
  cbn [e_bytes]. destruct (um_timestamp (b :: ch)) as [t|] eqn:E.
  - change (x32 :: len_enc (b :: ch)) with (e_msg x32 (b :: ch)).
    rewrite <- (app_nil_r (e_msg x32 (b :: ch))).
    erewrite (step_msg _ consuming_proposal x32 6 _ _
      (CProp ty he ro 0 (Some empty_bid) t [])); try reflexivity.
    + lia.
    + cbv beta. rewrite E. reflexivity.
  - eapply (unmarshal_err _ _ _ _ _ 6 2); [apply tag_byte; reflexivity|reflexivity|reflexivity|].
    unfold h_proposal, on_bytes. cbn [Z.eqb Pos.eqb].
    rewrite <- (app_nil_r (len_enc (b :: ch))), len_roundtrip by lia. rewrite E. reflexivity.
Qed.

Lemma step_of_type_spec ty s : vote_type_to_step ty = Some s <-> step_of_type ty s.
Proof.
  unfold vote_type_to_step, step_of_type, PrevoteType, PrecommitType, stepPrevote, stepPrecommit.
  destruct (Z.eqb_spec ty 1) as [->|]; [split; [intros [= <-]; lia|intros; f_equal; lia]|].
  destruct (Z.eqb_spec ty 2) as [->|]; [split; [intros [= <-]; lia|intros; f_equal; lia]|].
  split; [discriminate|lia].
Qed.

Lemma unix_nano_exact t : in_int64 (nanos_of t) -> unix_nano t = nanos_of t.
Proof. intros H. unfold unix_nano. apply wrap64_small. exact H. Qed.

Lemma unpack_vote_api chain v b s tail :
  vote_in_range chain v -> step_of_type (v_type v) s -> vote_sign_bytes chain v = Val b ->
  in_int64 (nanos_of (v_ts v)) -> ~ reads_as_proposal chain v ->
  unpack_hrst (b ++ tail) = Val (HRST (HRS (v_height v) (v_round v) s) (nanos_of (v_ts v))).
Proof.
  intros Hr Hs Hb Hn Hm.
  destruct (vote_sign_bytes_inv _ _ _ Hr Hb) as (c & Hc & -> & Ety & Ehe & Ero & Ebi & Ets & Ech).
  apply step_of_type_spec in Hs. rewrite <- Ety in Hs.
  rewrite <- Ehe, <- Ero, <- Ets in *.
  destruct (decide (cv_bid c = None /\ cv_ts c = epoch)) as [[Hb0 Ht0]|Hne].
  - unfold unpack_hrst, decode_proposal. rewrite unmarshal_delimited_delimited by apply Hc.
    rewrite proposal_of_epoch_vote by done.
    assert (Hz : v_bid v = empty_bid).
    { rewrite Hb0 in Ebi. destruct (bool_decide_reflect (v_bid v = empty_bid)); congruence. }
    assert (Hcond : ~ (chain = [] \/ um_timestamp chain <> None)).
    { intros H. apply Hm. split; [done|]. split; [congruence|done]. }
    rewrite Ech. destruct chain as [|x chain]; [exfalso; apply Hcond; auto|].
    destruct (um_timestamp (x :: chain)) eqn:E; [exfalso; apply Hcond; right; discriminate|].
    rewrite decode_vote_roundtrip, Hs by done. rewrite unix_nano_exact by done. done.
  - rewrite unpack_vote with (s := s); [rewrite unix_nano_exact by done; done|done| |done].
    destruct (cv_bid c) as [x|]; [left; discriminate|]. right. intros E. apply Hne. done.
Qed.

Lemma unpack_vote_misread chain v b tail :
  vote_in_range chain v -> vote_sign_bytes chain v = Val b -> reads_as_proposal chain v ->
  exists t, unpack_hrst (b ++ tail) = Val (HRST (HRS (v_height v) (v_round v) 1) t).
Proof.
  intros Hr Hb (Hm1 & Hm2 & Hm3).
  destruct (vote_sign_bytes_inv _ _ _ Hr Hb) as (c & Hc & -> & Ety & Ehe & Ero & Ebi & Ets & Ech).
  rewrite Hm1, bool_decide_eq_true_2 in Ebi by done.
  unfold unpack_hrst, decode_proposal. rewrite unmarshal_delimited_delimited by apply Hc.
  rewrite proposal_of_epoch_vote by congruence. rewrite Ech.
  destruct chain as [|x chain].
  - eexists. cbn. rewrite Ehe, Ero. reflexivity.
  - destruct Hm3 as [?|Hm3]; [discriminate|].
    destruct (um_timestamp (x :: chain)) as [t|]; [|done].
    eexists. cbn. rewrite Ehe, Ero. reflexivity.
Qed.

(** exactly when extraction gives the right step *)
Lemma unpack_vote_iff chain v b s tail :
  vote_in_range chain v -> step_of_type (v_type v) s -> vote_sign_bytes chain v = Val b ->
  in_int64 (nanos_of (v_ts v)) ->
  (unpack_hrst (b ++ tail) = Val (HRST (HRS (v_height v) (v_round v) s) (nanos_of (v_ts v)))
   <-> ~ reads_as_proposal chain v).
Proof.
  intros Hr Hs Hb Hn. split.
  - intros E Hm. destruct (unpack_vote_misread _ _ _ tail Hr Hb Hm) as [t Et].
    rewrite E in Et. injection Et as Et _. unfold step_of_type in Hs. lia.
  - intros Hm. eapply unpack_vote_api; eauto.
Qed.

Lemma unpack_proposal_api chain p b tail :
  proposal_in_range chain p -> proposal_sign_bytes chain p = Val b ->
  in_int64 (nanos_of (p_ts p)) ->
  unpack_hrst (b ++ tail) = Val (HRST (HRS (p_height p) (p_round p) 1) (nanos_of (p_ts p))).
Proof.
  intros Hr Hb Hn.
  destruct (proposal_sign_bytes_inv _ _ _ Hr Hb) as
    (c & Hc & -> & Ety & Ehe & Ero & Epo & Ebi & Ets & Ech).
  rewrite unpack_proposal by done. rewrite Ehe, Ero, Ets, unix_nano_exact by done. done.
Qed.

(** *** C19 *)

Lemma domain_separation chain v b chain' p b' :
  vote_in_range chain v -> (exists s, step_of_type (v_type v) s) ->
  proposal_in_range chain' p ->
  vote_sign_bytes chain v = Val b -> proposal_sign_bytes chain' p = Val b' -> b <> b'.
Proof.
  intros Hr [s Hs] Hr' Hb Hb' E.
  destruct (vote_sign_bytes_inv _ _ _ Hr Hb) as (c & Hc & -> & Ety & _).
  destruct (proposal_sign_bytes_inv _ _ _ Hr' Hb') as (c' & Hc' & -> & Ety' & _).
  assert (E' : delimited (m_vote c) ++ [] = delimited (m_proposal c') ++ []) by (rewrite E; done).
  apply delimited_inj in E' as [E' _]; [|apply Hc|apply Hc'].
  unfold m_vote, m_proposal in E'. rewrite Ety, Ety' in E'.
  destruct Hs as [[Hs _]|[Hs _]]; rewrite Hs in E'; discriminate E'.
Qed.

(** *** C20 *)

Lemma canonical_vote_bytes_inj v w r s :
  vote_wf v -> vote_wf w -> delimited (m_vote v) ++ r = delimited (m_vote w) ++ s -> v = w /\ r = s.
Proof.
  intros Hv Hw E. apply delimited_inj in E as [E ->]; [|apply Hv|apply Hw].
  pose proof (unmarshal_m_vote v Hv) as H. rewrite E, (unmarshal_m_vote w Hw) in H. split; congruence.
Qed.
Lemma canonical_proposal_bytes_inj v w r s :
  proposal_wf v -> proposal_wf w ->
  delimited (m_proposal v) ++ r = delimited (m_proposal w) ++ s -> v = w /\ r = s.
Proof.
  intros Hv Hw E. apply delimited_inj in E as [E ->]; [|apply Hv|apply Hw].
  pose proof (unmarshal_m_proposal v Hv) as H. rewrite E, (unmarshal_m_proposal w Hw) in H.
  split; congruence.
Qed.

Lemma vote_sign_bytes_inj chain v chain' v' b :
  vote_in_range chain v -> vote_in_range chain' v' ->
  vote_sign_bytes chain v = Val b -> vote_sign_bytes chain' v' = Val b ->
  v = v' /\ chain = chain'.
Proof.
  intros Hr Hr' Hb Hb'.
  destruct (vote_sign_bytes_inv _ _ _ Hr Hb) as (c & Hc & -> & Ety & Ehe & Ero & Ebi & Ets & Ech).
  destruct (vote_sign_bytes_inv _ _ _ Hr' Hb') as
    (c' & Hc' & E & Ety' & Ehe' & Ero' & Ebi' & Ets' & Ech').
  assert (E' : delimited (m_vote c) ++ [] = delimited (m_vote c') ++ []) by (rewrite E; done).
  apply canonical_vote_bytes_inj in E' as [-> _]; [|done|done].
  split; [|congruence].
  assert (v_bid v = v_bid v').
  { rewrite Ebi in Ebi'. repeat case_bool_decide; congruence. }
  destruct v, v'; simpl in *. congruence.
Qed.

Lemma proposal_sign_bytes_inj chain v chain' v' b :
  proposal_in_range chain v -> proposal_in_range chain' v' ->
  proposal_sign_bytes chain v = Val b -> proposal_sign_bytes chain' v' = Val b ->
  v = v' /\ chain = chain'.
Proof.
  intros Hr Hr' Hb Hb'.
  destruct (proposal_sign_bytes_inv _ _ _ Hr Hb) as
    (c & Hc & -> & Ety & Ehe & Ero & Epo & Ebi & Ets & Ech).
  destruct (proposal_sign_bytes_inv _ _ _ Hr' Hb') as
    (c' & Hc' & E & Ety' & Ehe' & Ero' & Epo' & Ebi' & Ets' & Ech').
  assert (E' : delimited (m_proposal c) ++ [] = delimited (m_proposal c') ++ [])
    by (rewrite E; done).
  apply canonical_proposal_bytes_inj in E' as [-> _]; [|done|done].
  split; [|congruence].
  assert (p_bid v = p_bid v').
  { rewrite Ebi in Ebi'. repeat case_bool_decide; congruence. }
  destruct v, v'; simpl in *. congruence.
Qed.

(** *** C21 *)

Lemma check_vote_ts_iff a b :
  check_vote_ts a b = None <->
  exists v w, decode_vote a = Some v /\ decode_vote b = Some w /\ same_vote_but_time v w.
Proof.
  unfold check_vote_ts. split.
  - destruct (decode_vote a) as [v|]; [|discriminate].
    destruct (decode_vote b) as [w|]; [|discriminate].
    case_bool_decide as H.
    + intros _. exists v, w. repeat split; rewrite <- H; done.
    + destruct (cv_bid w), (cv_bid v); try discriminate; destruct (bytes_equal _ _); discriminate.
  - intros (v & w & -> & -> & H1 & H2 & H3 & H4 & H5).
    rewrite bool_decide_eq_true_2; [done|].
    destruct v, w; unfold set_vote_ts; simpl in *. congruence.
Qed.

Lemma check_proposal_ts_iff a b :
  check_proposal_ts a b = None <->
  exists v w, decode_proposal a = Some v /\ decode_proposal b = Some w /\ same_proposal_but_time v w.
Proof.
  unfold check_proposal_ts. split.
  - destruct (decode_proposal a) as [v|]; [|discriminate].
    destruct (decode_proposal b) as [w|]; [|discriminate].
    case_bool_decide as H; [|discriminate].
    intros _. exists v, w. repeat split; rewrite <- H; done.
  - intros (v & w & -> & -> & H1 & H2 & H3 & H4 & H5 & H6).
    rewrite bool_decide_eq_true_2; [done|].
    destruct v, w; unfold set_proposal_ts; simpl in *. congruence.
Qed.

Lemma only_differ_iff step a b :
  only_differ_by_timestamp step a b = None <->
  (step = 1 /\ exists p q, decode_proposal a = Some p /\ decode_proposal b = Some q /\
                 same_proposal_but_time p q) \/
  ((step = 2 \/ step = 3) /\ exists v w, decode_vote a = Some v /\ decode_vote b = Some w /\
                 same_vote_but_time v w).
Proof.
  unfold only_differ_by_timestamp, stepPropose, stepPrevote, stepPrecommit.
  destruct (Z.eqb_spec step 1) as [->|H1].
  { rewrite check_proposal_ts_iff. split; [tauto|]. intros [[_ H]|[[?|?] _]]; [done|lia|lia]. }
  destruct (Z.eqb_spec step 2) as [->|H2]; simpl.
  { rewrite check_vote_ts_iff. split; [tauto|]. intros [[? _]|[_ ?]]; [lia|done]. }
  destruct (Z.eqb_spec step 3) as [->|H3]; simpl.
  { rewrite check_vote_ts_iff. split; [tauto|]. intros [[? _]|[_ ?]]; [lia|done]. }
  split; [discriminate|lia].
Qed.

(** on sign bytes of real votes the check compares the votes *)
Lemma only_differ_votes chain v a chain' w b s :
  vote_in_range chain v -> vote_in_range chain' w -> step_of_type (v_type v) s ->
  vote_sign_bytes chain v = Val a -> vote_sign_bytes chain' w = Val b ->
  (only_differ_by_timestamp s a b = None <->
   v_type v = v_type w /\ v_height v = v_height w /\ v_round v = v_round w /\
   v_bid v = v_bid w /\ chain = chain').
Proof.
  intros Hv Hw Hs Ha Hb. rewrite only_differ_iff.
  destruct (vote_sign_bytes_inv _ _ _ Hv Ha) as (c & Hc & -> & Ety & Ehe & Ero & Ebi & Ets & Ech).
  destruct (vote_sign_bytes_inv _ _ _ Hw Hb) as
    (c' & Hc' & -> & Ety' & Ehe' & Ero' & Ebi' & Ets' & Ech').
  pose proof (decode_vote_roundtrip c [] Hc) as D. rewrite app_nil_r in D.
  pose proof (decode_vote_roundtrip c' [] Hc') as D'. rewrite app_nil_r in D'.
  assert (Hbid : cv_bid c = cv_bid c' <-> v_bid v = v_bid w).
  { rewrite Ebi, Ebi'. split; [|intros ->; done]. repeat case_bool_decide; congruence. }
  unfold same_vote_but_time. split.
  - intros [[? _]|[_ (x & y & Hx & Hy & H)]]; [unfold step_of_type in Hs; lia|].
    assert (x = c) as -> by congruence. assert (y = c') as -> by congruence.
    destruct H as (E1 & E2 & E3 & E4 & E5). apply Hbid in E4.
    repeat split; congruence.
  - intros (E1 & E2 & E3 & E4 & E5). right. split; [unfold step_of_type in Hs; lia|].
    exists c, c'. repeat split; try congruence. apply Hbid, E4.
Qed.

Lemma only_differ_proposals chain v a chain' w b :
  proposal_in_range chain v -> proposal_in_range chain' w ->
  proposal_sign_bytes chain v = Val a -> proposal_sign_bytes chain' w = Val b ->
  (only_differ_by_timestamp 1 a b = None <->
   p_height v = p_height w /\ p_round v = p_round w /\ p_pol v = p_pol w /\
   p_bid v = p_bid w /\ chain = chain').
Proof.
  intros Hv Hw Ha Hb. rewrite only_differ_iff.
  destruct (proposal_sign_bytes_inv _ _ _ Hv Ha) as
    (c & Hc & -> & Ety & Ehe & Ero & Epo & Ebi & Ets & Ech).
  destruct (proposal_sign_bytes_inv _ _ _ Hw Hb) as
    (c' & Hc' & -> & Ety' & Ehe' & Ero' & Epo' & Ebi' & Ets' & Ech').
  pose proof (decode_proposal_roundtrip c [] Hc) as D. rewrite app_nil_r in D.
  pose proof (decode_proposal_roundtrip c' [] Hc') as D'. rewrite app_nil_r in D'.
  assert (Hbid : cp_bid c = cp_bid c' <-> p_bid v = p_bid w).
  { rewrite Ebi, Ebi'. split; [|intros ->; done]. repeat case_bool_decide; congruence. }
  unfold same_proposal_but_time. split.
  - intros [[_ (x & y & Hx & Hy & H)]|[? _]]; [|lia].
    assert (x = c) as -> by congruence. assert (y = c') as -> by congruence.
    destruct H as (E1 & E2 & E3 & E4 & E5 & E6). apply Hbid in E5.
    repeat split; congruence.
  - intros (E1 & E2 & E3 & E4 & E5). left. split; [done|].
    exists c, c'. repeat split; try congruence. apply Hbid, E4.
Qed.

(** *** C22 *)

Lemma unpack_panic_iff l :
  unpack_hrst l = Panic <->
  decode_proposal l = None /\
  exists v, decode_vote l = Some v /\ cv_type v <> 1 /\ cv_type v <> 2.
Proof.
  unfold unpack_hrst. destruct (decode_proposal l) as [p|].
  - split; [discriminate|]. intros [? _]. discriminate.
  - destruct (decode_vote l) as [v|].
    + unfold vote_type_to_step, PrevoteType, PrecommitType.
      destruct (Z.eqb_spec (cv_type v) 1).
      { split; [discriminate|]. intros (_ & w & [= <-] & ? & ?). done. }
      destruct (Z.eqb_spec (cv_type v) 2).
      { split; [discriminate|]. intros (_ & w & [= <-] & ? & ?). done. }
      split; [|done]. intros _. split; [done|]. exists v. done.
    + split; [discriminate|]. intros (_ & w & ? & _). discriminate.
Qed.

Lemma unpack_panic_witness : unpack_hrst [x02; x22; x00] = Panic.
Proof. vm_compute. reflexivity. Qed.

(** *** witnesses *)

(** "irishub-1": its 9 bytes parse as an unknown fixed64 field of a Timestamp *)
Definition irishub : bytes := [x69; x72; x69; x73; x68; x75; x62; x2d; x31].
Definition hash32 (b : byte) : bytes := replicate 32 b.

Definition nil_epoch_prevote : vote := Vote 1 100 0 empty_bid epoch.

Lemma nil_epoch_prevote_misread :
  exists b, vote_sign_bytes irishub nil_epoch_prevote = Val b /\
            unpack_hrst b = Val (HRST (HRS 100 0 1) 0).
Proof. eexists. split; [vm_compute; reflexivity|]. vm_compute; reflexivity. Qed.

(** two timestamps 2^64 nanoseconds apart have the same UnixNano *)
Definition t_1970 : time := Time 5 7.
Definition t_2554 : time := Time 18446744078 709551623.
Lemma unix_nano_collision :
  time_valid t_1970 = true /\ time_valid t_2554 = true /\ t_1970 <> t_2554 /\
  unix_nano t_1970 = unix_nano t_2554.
Proof. repeat split; discriminate. Qed.

Lemma unpack_vote_refutation : exists chain v b,
  vote_in_range chain v /\ step_of_type (v_type v) 2 /\ vote_sign_bytes chain v = Val b /\
  in_int64 (nanos_of (v_ts v)) /\
  unpack_hrst b = Val (HRST (HRS (v_height v) (v_round v) 1) 0).
Proof.
  destruct nil_epoch_prevote_misread as (b & Hb & Hu).
  exists irishub, nil_epoch_prevote, b.
  split; [|split; [|split; [exact Hb|split; [|exact Hu]]]].
  - unfold vote_in_range, in_int32, in_int64. simpl. lia.
  - left. done.
  - unfold in_int64, nanos_of. simpl. lia.
Qed.

Lemma unpack_timestamp_refutation : exists chain v w b c k,
  vote_in_range chain v /\ vote_in_range chain w /\ v_ts v <> v_ts w /\ b <> c /\
  vote_sign_bytes chain v = Val b /\ vote_sign_bytes chain w = Val c /\
  unpack_hrst b = Val k /\ unpack_hrst c = Val k.
Proof.
  exists irishub, (Vote 1 100 0 empty_bid t_1970), (Vote 1 100 0 empty_bid t_2554).
  do 3 eexists.
  split; [unfold vote_in_range, in_int32, in_int64; simpl; lia|].
  split; [unfold vote_in_range, in_int32, in_int64; simpl; lia|].
  split; [discriminate|].
  split; [|split; [vm_compute; reflexivity|split; [vm_compute; reflexivity|]]].
  2:{ split; [vm_compute; reflexivity|]. vm_compute. reflexivity. }
  discriminate.
Qed.

(** *** bytes after the framed message are ignored *)

Lemma read_uvarint_app n l t v r :
  read_uvarint_go n l = Some (v, r) -> read_uvarint_go n (l ++ t) = Some (v, r ++ t).
Proof.
  revert l v r. induction n as [|n IH]; intros l v r H; [discriminate|].
  destruct l as [|b l]; [discriminate|]. simpl in *.
  destruct (bz b <? 128).
  - destruct (bool_decide (n = 0%nat) && (1 <? bz b)); [discriminate|]. injection H as <- <-. done.
  - destruct (read_uvarint_go n l) as [[v' r']|] eqn:E; [|discriminate].
    rewrite (IH _ _ _ E). injection H as <- <-. done.
Qed.

Lemma read_uvarint_nonneg n l v r : read_uvarint_go n l = Some (v, r) -> 0 <= v.
Proof.
  revert l v r. induction n as [|n IH]; intros l v r H; [discriminate|].
  destruct l as [|b l]; [discriminate|]. simpl in H. pose proof (bz_range b).
  destruct (bz b <? 128).
  - destruct (bool_decide (n = 0%nat) && (1 <? bz b)); [discriminate|]. injection H as <- _. lia.
  - destruct (read_uvarint_go n l) as [[v' r']|] eqn:E; [|discriminate].
    injection H as <- _. apply IH in E. pose proof (Z.mod_pos_bound (bz b) 128). lia.
Qed.

Lemma read_delimited_app l t p r :
  read_delimited (Z.of_nat (length l)) l = Some (p, r) ->
  read_delimited (Z.of_nat (length (l ++ t))) (l ++ t) = Some (p, r ++ t).
Proof.
  unfold read_delimited, read_uvarint.
  destruct (read_uvarint_go 10 l) as [[v r']|] eqn:E; [|discriminate].
  pose proof (read_uvarint_nonneg _ _ _ _ E) as Hv.
  rewrite (read_uvarint_app _ _ t _ _ E). rewrite !app_length.
  destruct (Z.leb_spec (2 ^ 63 - 1) v); [discriminate|].
  destruct (Z.ltb_spec (Z.of_nat (length l)) v); [discriminate|].
  destruct (Z.ltb_spec (Z.of_nat (length r')) v); [discriminate|].
  intros [= <- <-].
  destruct (Z.ltb_spec (Z.of_nat (length l + length t)) v); [lia|].
  destruct (Z.ltb_spec (Z.of_nat (length r' + length t)) v); [lia|].
  simpl. rewrite take_app_le, drop_app_le by lia. done.
Qed.

Lemma decode_app l t :
  (exists p, decode_proposal l = Some p) \/ (exists v, decode_vote l = Some v) ->
  decode_proposal (l ++ t) = decode_proposal l /\ decode_vote (l ++ t) = decode_vote l.
Proof.
  unfold decode_proposal, decode_vote, unmarshal_delimited.
  destruct (read_delimited (Z.of_nat (length l)) l) as [[p r]|] eqn:E.
  - rewrite (read_delimited_app _ t _ _ E). done.
  - intros [[? ?]|[? ?]]; discriminate.
Qed.

Lemma unpack_app l t k : unpack_hrst l = Val k -> unpack_hrst (l ++ t) = Val k.
Proof.
  intros H. unfold unpack_hrst in *.
  destruct (decode_app l t) as [-> ->]; [|exact H].
  destruct (decode_proposal l); [left; eauto|].
  destruct (decode_vote l); [right; eauto|discriminate].
Qed.

(** any suffix counts as "only the timestamp differs" *)
Lemma only_differ_app last l t k :
  unpack_hrst l = Val k ->
  l = last \/ only_differ_by_timestamp (h_step (ht_hrs k)) last l = None ->
  only_differ_by_timestamp (h_step (ht_hrs k)) last (l ++ t) = None.
Proof.
  intros Hu Hd.
  assert (Hdec : decode_proposal (l ++ t) = decode_proposal l /\
                 decode_vote (l ++ t) = decode_vote l).
  { apply decode_app. unfold unpack_hrst in Hu.
    destruct (decode_proposal l); [left; eauto|].
    destruct (decode_vote l); [right; eauto|discriminate]. }
  destruct Hdec as [Hdp Hdv]. apply only_differ_iff. rewrite Hdp, Hdv.
  destruct Hd as [<-|Hd]; [|apply only_differ_iff in Hd; exact Hd].
  unfold unpack_hrst in Hu. destruct (decode_proposal l) as [p|].
  - left. injection Hu as <-. split; [done|]. exists p, p. repeat split.
  - right. destruct (decode_vote l) as [v|]; [|discriminate].
    destruct (vote_type_to_step (cv_type v)) as [s|] eqn:Es; [|discriminate].
    injection Hu as <-. apply step_of_type_spec in Es. unfold step_of_type in Es.
    split; [simpl; lia|]. exists v, v. repeat split.
Qed.
