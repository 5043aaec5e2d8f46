(** C18-C22: sign bytes (signer/Serialization.go:27-44, signer/sign_state.go:286-358). *)
From Verif Require Import GoBase Wire Canonical SignState Spec CanonicalProofs CanonicalApi.

(** C18 for proposals, in full (timestamps between the years 1678 and 2262, where UnixNano is
    exact); bytes after the message do not matter. *)
Theorem C18_unpack_proposal : forall chain p b tail,
  proposal_in_range chain p -> proposal_sign_bytes chain p = Val b ->
  in_int64 (nanos_of (p_ts p)) ->
  unpack_hrst (b ++ tail) = Val (HRST (HRS (p_height p) (p_round p) 1) (nanos_of (p_ts p))).
Proof. exact unpack_proposal_api. Qed.

(** C18 for votes, with the exact condition: extraction is right if and only if the vote is not
    one of the nil-block, Unix-epoch votes whose chain ID parses as a protobuf Timestamp. *)
Theorem C18_unpack_vote_partial : forall chain v b s tail,
  vote_in_range chain v -> step_of_type (v_type v) s -> vote_sign_bytes chain v = Val b ->
  in_int64 (nanos_of (v_ts v)) ->
  (unpack_hrst (b ++ tail) = Val (HRST (HRS (v_height v) (v_round v) s) (nanos_of (v_ts v)))
   <-> ~ reads_as_proposal chain v).
Proof. exact unpack_vote_iff. Qed.

(** C18 is false as stated: on chain "irishub-1" a prevote for nil with timestamp 1970-01-01 is
    taken for a proposal. *)
Theorem C18_unpack_vote_refuted : exists chain v b,
  vote_in_range chain v /\ step_of_type (v_type v) 2 /\ vote_sign_bytes chain v = Val b /\
  in_int64 (nanos_of (v_ts v)) /\
  unpack_hrst b = Val (HRST (HRS (v_height v) (v_round v) 1) 0).
Proof. exact unpack_vote_refutation. Qed.

(** C18 is false for timestamps too: two valid timestamps of otherwise identical votes, 2^64
    nanoseconds apart, give the same key. *)
Theorem C18_timestamp_refuted : exists chain v w b c k,
  vote_in_range chain v /\ vote_in_range chain w /\ v_ts v <> v_ts w /\ b <> c /\
  vote_sign_bytes chain v = Val b /\ vote_sign_bytes chain w = Val c /\
  unpack_hrst b = Val k /\ unpack_hrst c = Val k.
Proof. exact unpack_timestamp_refutation. Qed.

(** C19 *)
Theorem C19_domain_separation : forall chain v b chain' p b',
  vote_in_range chain v -> (exists s, step_of_type (v_type v) s) ->
  proposal_in_range chain' p ->
  vote_sign_bytes chain v = Val b -> proposal_sign_bytes chain' p = Val b' -> b <> b'.
Proof. exact domain_separation. Qed.

(** C20: decoding gives the canonical message back, whatever follows it *)
Theorem C20_decode_vote : forall v tail,
  vote_wf v -> decode_vote (delimited (m_vote v) ++ tail) = Some v.
Proof. exact decode_vote_roundtrip. Qed.
Theorem C20_decode_proposal : forall p tail,
  proposal_wf p -> decode_proposal (delimited (m_proposal p) ++ tail) = Some p.
Proof. exact decode_proposal_roundtrip. Qed.
(** C20: sign bytes determine message and chain *)
Theorem C20_vote_sign_bytes_injective : forall chain v chain' v' b,
  vote_in_range chain v -> vote_in_range chain' v' ->
  vote_sign_bytes chain v = Val b -> vote_sign_bytes chain' v' = Val b ->
  v = v' /\ chain = chain'.
Proof. exact vote_sign_bytes_inj. Qed.
Theorem C20_proposal_sign_bytes_injective : forall chain v chain' v' b,
  proposal_in_range chain v -> proposal_in_range chain' v' ->
  proposal_sign_bytes chain v = Val b -> proposal_sign_bytes chain' v' = Val b ->
  v = v' /\ chain = chain'.
Proof. exact proposal_sign_bytes_inj. Qed.

(** C21: exact acceptance condition, for every step value and all byte strings *)
Theorem C21_only_differ_exact : forall step a b,
  only_differ_by_timestamp step a b = None <->
  (step = 1 /\ exists p q, decode_proposal a = Some p /\ decode_proposal b = Some q /\
                 same_proposal_but_time p q) \/
  ((step = 2 \/ step = 3) /\ exists v w, decode_vote a = Some v /\ decode_vote b = Some w /\
                 same_vote_but_time v w).
Proof. exact only_differ_iff. Qed.
(** C21: on sign bytes of actual votes and proposals the check is equality up to timestamp,
    including block ID and chain ID *)
Theorem C21_only_differ_votes : forall chain v a chain' w b s,
  vote_in_range chain v -> vote_in_range chain' w -> step_of_type (v_type v) s ->
  vote_sign_bytes chain v = Val a -> vote_sign_bytes chain' w = Val b ->
  (only_differ_by_timestamp s a b = None <->
   v_type v = v_type w /\ v_height v = v_height w /\ v_round v = v_round w /\
   v_bid v = v_bid w /\ chain = chain').
Proof. exact only_differ_votes. Qed.
Theorem C21_only_differ_proposals : forall chain v a chain' w b,
  proposal_in_range chain v -> proposal_in_range chain' w ->
  proposal_sign_bytes chain v = Val a -> proposal_sign_bytes chain' w = Val b ->
  (only_differ_by_timestamp 1 a b = None <->
   p_height v = p_height w /\ p_round v = p_round w /\ p_pol v = p_pol w /\
   p_bid v = p_bid w /\ chain = chain').
Proof. exact only_differ_proposals. Qed.

(** C22 is false: three bytes crash UnpackHRST *)
Theorem C22_unpack_panics_refuted : exists l, unpack_hrst l = Panic.
Proof. exact (ex_intro _ _ unpack_panic_witness). Qed.
(** C22: the exact set of byte strings that crash it *)
Theorem C22_unpack_panics_exactly_partial : forall l,
  unpack_hrst l = Panic <->
  decode_proposal l = None /\
  exists v, decode_vote l = Some v /\ cv_type v <> 1 /\ cv_type v <> 2.
Proof. exact unpack_panic_iff. Qed.

Print Assumptions C18_unpack_proposal.
Print Assumptions C18_unpack_vote_partial.
Print Assumptions C18_unpack_vote_refuted.
Print Assumptions C18_timestamp_refuted.
Print Assumptions C19_domain_separation.
Print Assumptions C20_decode_vote.
Print Assumptions C20_decode_proposal.
Print Assumptions C20_vote_sign_bytes_injective.
Print Assumptions C20_proposal_sign_bytes_injective.
Print Assumptions C21_only_differ_exact.
Print Assumptions C21_only_differ_votes.
Print Assumptions C21_only_differ_proposals.
Print Assumptions C22_unpack_panics_refuted.
Print Assumptions C22_unpack_panics_exactly_partial.

(** ** Non-vacuity: a precommit on "irishub-1" and a proposal *)
Definition ex_bid : block_id := BID (hash32 x0b) (PSH 3 (hash32 x0c)).
Definition ex_vote : vote := Vote 2 4611 1 ex_bid (Time 1600000000 123456789).
Definition ex_proposal : proposal := Proposal 4611 1 (-1) ex_bid (Time 1600000000 5).

Example ex_ranges :
  vote_in_range irishub ex_vote /\ step_of_type (v_type ex_vote) 3 /\
  proposal_in_range irishub ex_proposal /\ ~ reads_as_proposal irishub ex_vote /\
  in_int64 (nanos_of (v_ts ex_vote)).
Proof.
  unfold vote_in_range, proposal_in_range, step_of_type, in_int32, in_int64, reads_as_proposal.
  repeat split; try (vm_compute; congruence); try (vm_compute; intuition congruence).
Qed.
Example ex_unpack : exists b, vote_sign_bytes irishub ex_vote = Val b /\
  unpack_hrst b = Val (HRST (HRS 4611 1 3) 1600000000123456789).
Proof. eexists. split; [vm_compute; reflexivity|]. vm_compute; reflexivity. Qed.
Example ex_unpack_proposal : exists b, proposal_sign_bytes irishub ex_proposal = Val b /\
  unpack_hrst b = Val (HRST (HRS 4611 1 1) 1600000000000000005).
Proof. eexists. split; [vm_compute; reflexivity|]. vm_compute; reflexivity. Qed.
Example ex_wf : vote_wf (CVote 2 4611 1 (Some ex_bid) (Time 1600000000 123456789) irishub).
Proof.
  constructor; unfold in_int32, in_int64, small; simpl; try lia; try (vm_compute; congruence).
  unfold psh_wf. simpl. lia.
Qed.
