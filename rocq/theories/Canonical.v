(** Canonical votes and proposals, their sign bytes, [UnpackHRST] and the timestamp check.

    /repo anchors: signer/Serialization.go:27-44, signer/sign_state.go:19-50 and 286-358,
    signer/Cosigner.go:9-20 (HRSKey, HRSTKey),
    signer/threshold_validator.go:93-125.
    Generated code and canonicalisation come from tendermint v0.34.14
    (proto/tendermint/types/canonical.pb.go, types/canonical.go, types/block.go).

    Simplifications: strings are byte lists; the message fields that never enter sign bytes
    (validator address and index) are kept only in the remote-signer model; error texts are
    dropped, error kinds are kept where callers distinguish them. *)
From Verif Require Import GoBase Wire.

(** ** Time *)

(** [time.Time] as seconds since the Unix epoch plus nanoseconds in [0, 1e9). *)
Record time := Time { t_secs : Z; t_nanos : Z }.

(** the zero [time.Time{}] (January 1, year 1) *)
Definition min_secs : Z := -62135596800.
Definition max_secs : Z := 253402300800.
Definition zero_time : time := Time min_secs 0.
Definition epoch : time := Time 0 0.

(** [t.UnixNano()]: int64 arithmetic wraps (signer/Serialization.go:32,39) *)
Definition unix_nano (t : time) : Z := wrap64 (t_secs t * 10 ^ 9 + t_nanos t).

(** [time.Unix(0, ns)] (signer/Cosigner.go, signer/grpc_server.go:27,
    signer/threshold_validator.go:312): normalises into seconds and nanoseconds. *)
Definition time_of_nano (ns : Z) : time := Time (ns / 10 ^ 9) (ns mod 10 ^ 9).

(** gogo [validateTimestamp] *)
Definition time_valid (t : time) : bool :=
  (min_secs <=? t_secs t) && (t_secs t <? max_secs) &&
  (0 <=? t_nanos t) && (t_nanos t <? 10 ^ 9).

(** ** Messages *)

(** [CanonicalPartSetHeader], [CanonicalBlockID], [CanonicalVote], [CanonicalProposal] *)
Record part_set_header := PSH { psh_total : Z; psh_hash : bytes }.
Record block_id := BID { bid_hash : bytes; bid_psh : part_set_header }.
Record canonical_vote := CVote {
  cv_type : Z; cv_height : Z; cv_round : Z;
  cv_bid : option block_id; cv_ts : time; cv_chain : bytes }.
Record canonical_proposal := CProp {
  cp_type : Z; cp_height : Z; cp_round : Z; cp_pol : Z;
  cp_bid : option block_id; cp_ts : time; cp_chain : bytes }.

Definition empty_psh : part_set_header := PSH 0 [].
Definition empty_bid : block_id := BID [] empty_psh.
(** [new(CanonicalVote)], [new(CanonicalProposal)]: all fields zero *)
Definition empty_vote : canonical_vote := CVote 0 0 0 None zero_time [].
Definition empty_proposal : canonical_proposal := CProp 0 0 0 0 None zero_time [].

Global Instance psh_eq_dec : EqDecision part_set_header.
Proof. solve_decision. Defined.
Global Instance bid_eq_dec : EqDecision block_id.
Proof. solve_decision. Defined.
Global Instance time_eq_dec : EqDecision time.
Proof. solve_decision. Defined.
Global Instance cv_eq_dec : EqDecision canonical_vote.
Proof. solve_decision. Defined.
Global Instance cp_eq_dec : EqDecision canonical_proposal.
Proof. solve_decision. Defined.

(** tmProto.SignedMsgType values *)
Definition PrevoteType : Z := 1.
Definition PrecommitType : Z := 2.
Definition ProposalType : Z := 32.

(** ** Decoding: the generated [Unmarshal] methods (canonical.pb.go) *)

(** a [case] of the switch: check the wire type, decode, assign *)
Definition on_varint {M} (wt : Z) (r : bytes) (set : Z -> M) : field_result M :=
  if wt =? 0 then
    match varint_dec 10 r with Some (v, r') => FOk (set v) r' | None => FErr end
  else FErr.
Definition on_fixed64 {M} (wt : Z) (r : bytes) (set : Z -> M) : field_result M :=
  if wt =? 1 then
    match le_dec 8 r with Some (v, r') => FOk (set v) r' | None => FErr end
  else FErr.
Definition on_bytes {M} (wt : Z) (r : bytes) (set : bytes -> option M) : field_result M :=
  if wt =? 2 then
    match len_dec r with
    | Some (p, r') => match set p with Some m => FOk m r' | None => FErr end
    | None => FErr
    end
  else FErr.

(** google.protobuf.Timestamp followed by [TimestampFromProto] (gogo StdTimeUnmarshal) *)
Definition h_timestamp (fn wt : Z) (m : time) (r : bytes) : field_result time :=
  match fn with
  | 1 => on_varint wt r (fun v => Time (wrap64 v) (t_nanos m))
  | 2 => on_varint wt r (fun v => Time (t_secs m) (wrap32 v))
  | _ => FUnknown
  end.
Definition um_timestamp (l : bytes) : option time :=
  match unmarshal h_timestamp (Time 0 0) l with
  | Some t => if time_valid t then Some t else None
  | None => None
  end.

Definition h_psh (fn wt : Z) (m : part_set_header) (r : bytes) : field_result part_set_header :=
  match fn with
  | 1 => on_varint wt r (fun v => PSH (u32 v) (psh_hash m))
  | 2 => on_bytes wt r (fun p => Some (PSH (psh_total m) p))
  | _ => FUnknown
  end.

Definition h_bid (fn wt : Z) (m : block_id) (r : bytes) : field_result block_id :=
  match fn with
  | 1 => on_bytes wt r (fun p => Some (BID p (bid_psh m)))
  | 2 => on_bytes wt r (fun p =>
           match unmarshal h_psh (bid_psh m) p with
           | Some h => Some (BID (bid_hash m) h)
           | None => None
           end)
  | _ => FUnknown
  end.

(** [if m.BlockID == nil { m.BlockID = &CanonicalBlockID{} }; m.BlockID.Unmarshal(..)] *)
Definition um_bid (cur : option block_id) (p : bytes) : option block_id :=
  unmarshal h_bid (default empty_bid cur) p.

Definition h_vote (fn wt : Z) (m : canonical_vote) (r : bytes) : field_result canonical_vote :=
  match m with
  | CVote ty he ro bi ts ch =>
    match fn with
    | 1 => on_varint wt r (fun v => CVote (wrap32 v) he ro bi ts ch)
    | 2 => on_fixed64 wt r (fun v => CVote ty (wrap64 v) ro bi ts ch)
    | 3 => on_fixed64 wt r (fun v => CVote ty he (wrap64 v) bi ts ch)
    | 4 => on_bytes wt r (fun p =>
             match um_bid bi p with Some b => Some (CVote ty he ro (Some b) ts ch) | None => None end)
    | 5 => on_bytes wt r (fun p =>
             match um_timestamp p with Some t => Some (CVote ty he ro bi t ch) | None => None end)
    | 6 => on_bytes wt r (fun p => Some (CVote ty he ro bi ts p))
    | _ => FUnknown
    end
  end.

Definition h_proposal (fn wt : Z) (m : canonical_proposal) (r : bytes)
  : field_result canonical_proposal :=
  match m with
  | CProp ty he ro po bi ts ch =>
    match fn with
    | 1 => on_varint wt r (fun v => CProp (wrap32 v) he ro po bi ts ch)
    | 2 => on_fixed64 wt r (fun v => CProp ty (wrap64 v) ro po bi ts ch)
    | 3 => on_fixed64 wt r (fun v => CProp ty he (wrap64 v) po bi ts ch)
    | 4 => on_varint wt r (fun v => CProp ty he ro (wrap64 v) bi ts ch)
    | 5 => on_bytes wt r (fun p =>
             match um_bid bi p with Some b => Some (CProp ty he ro po (Some b) ts ch) | None => None end)
    | 6 => on_bytes wt r (fun p =>
             match um_timestamp p with Some t => Some (CProp ty he ro po bi t ch) | None => None end)
    | 7 => on_bytes wt r (fun p => Some (CProp ty he ro po bi ts p))
    | _ => FUnknown
    end
  end.

(** [protoio.UnmarshalDelimited(signBytes, &vote)] (signer/Serialization.go:37,
    signer/sign_state.go:308,311) *)
Definition decode_vote (l : bytes) : option canonical_vote :=
  unmarshal_delimited (unmarshal h_vote empty_vote) l.
(** [protoio.UnmarshalDelimited(signBytes, &proposal)] (signer/Serialization.go:30,
    signer/sign_state.go:341,344) *)
Definition decode_proposal (l : bytes) : option canonical_proposal :=
  unmarshal_delimited (unmarshal h_proposal empty_proposal) l.

(** ** Encoding: the generated [MarshalToSizedBuffer] methods *)

Definition e_varint (tag : byte) (v : Z) : bytes :=
  if v =? 0 then [] else tag :: varint_enc (u64 v).
Definition e_fixed64 (tag : byte) (v : Z) : bytes :=
  if v =? 0 then [] else tag :: le_enc 8 (u64 v).
(** optional bytes/string field: omitted when empty *)
Definition e_bytes (tag : byte) (p : bytes) : bytes :=
  match p with [] => [] | _ => tag :: len_enc p end.
(** embedded message: always written *)
Definition e_msg (tag : byte) (p : bytes) : bytes := tag :: len_enc p.

Definition m_timestamp (t : time) : bytes :=
  e_varint x08 (t_secs t) ++ e_varint x10 (t_nanos t).
Definition m_psh (h : part_set_header) : bytes :=
  e_varint x08 (psh_total h) ++ e_bytes x12 (psh_hash h).
Definition m_bid (b : block_id) : bytes :=
  e_bytes x0a (bid_hash b) ++ e_msg x12 (m_psh (bid_psh b)).
Definition e_bid (tag : byte) (b : option block_id) : bytes :=
  match b with None => [] | Some b => e_msg tag (m_bid b) end.

Definition m_vote (v : canonical_vote) : bytes :=
  e_varint x08 (cv_type v) ++ e_fixed64 x11 (cv_height v) ++ e_fixed64 x19 (cv_round v) ++
  e_bid x22 (cv_bid v) ++ e_msg x2a (m_timestamp (cv_ts v)) ++ e_bytes x32 (cv_chain v).
Definition m_proposal (p : canonical_proposal) : bytes :=
  e_varint x08 (cp_type p) ++ e_fixed64 x11 (cp_height p) ++ e_fixed64 x19 (cp_round p) ++
  e_varint x20 (cp_pol p) ++
  e_bid x2a (cp_bid p) ++ e_msg x32 (m_timestamp (cp_ts p)) ++ e_bytes x3a (cp_chain p).

(** ** Votes and proposals as received from the validator node (tmProto.Vote/Proposal) *)

(** tmProto.Vote / tmProto.Proposal without the fields that never enter sign bytes. Rounds are
    int32 in these messages. [v_bid] is a struct value: the nil block ID is the zero struct. *)
Record vote := Vote { v_type : Z; v_height : Z; v_round : Z; v_bid : block_id; v_ts : time }.
Record proposal := Proposal {
  p_height : Z; p_round : Z; p_pol : Z; p_bid : block_id; p_ts : time }.

(** [ValidateHash]: empty or 32 bytes *)
Definition hash_ok (h : bytes) : bool :=
  bool_decide (length h = 0%nat) || bool_decide (length h = 32%nat).
(** [BlockID.ValidateBasic] through [BlockIDFromProto] *)
Definition bid_ok (b : block_id) : bool := hash_ok (bid_hash b) && hash_ok (psh_hash (bid_psh b)).
(** [CanonicalizeBlockID]: nil for the zero block ID; panics on an invalid one *)
Definition canonicalize_bid (b : block_id) : outcome unit (option block_id) :=
  if bid_ok b then
    Val (if bool_decide (b = empty_bid) then None else Some b)
  else Panic.

(** [types.CanonicalizeVote] *)
Definition canonicalize_vote (chain : bytes) (v : vote) : outcome unit canonical_vote :=
  match canonicalize_bid (v_bid v) with
  | Val b => Val (CVote (v_type v) (v_height v) (v_round v) b (v_ts v) chain)
  | Fail e => Fail e
  | Panic => Panic
  end.
(** [types.CanonicalizeProposal]: the type is always ProposalType *)
Definition canonicalize_proposal (chain : bytes) (p : proposal) : outcome unit canonical_proposal :=
  match canonicalize_bid (p_bid p) with
  | Val b => Val (CProp ProposalType (p_height p) (p_round p) (p_pol p) b (p_ts p) chain)
  | Fail e => Fail e
  | Panic => Panic
  end.

(** [types.VoteSignBytes] / [types.ProposalSignBytes]: panic when marshalling fails, that is
    when the timestamp is outside the protobuf range. *)
Definition vote_sign_bytes (chain : bytes) (v : vote) : outcome unit bytes :=
  match canonicalize_vote chain v with
  | Val c => if time_valid (cv_ts c) then Val (delimited (m_vote c)) else Panic
  | Fail e => Fail e
  | Panic => Panic
  end.
Definition proposal_sign_bytes (chain : bytes) (p : proposal) : outcome unit bytes :=
  match canonicalize_proposal chain p with
  | Val c => if time_valid (cp_ts c) then Val (delimited (m_proposal c)) else Panic
  | Fail e => Fail e
  | Panic => Panic
  end.

(** ** Keys *)

(** signer/Cosigner.go:9-20 HRSKey, HRSTKey (the latter has the timestamp as a fourth field) *)
Record hrs := HRS { h_height : Z; h_round : Z; h_step : Z }.
Record hrst := HRST { ht_hrs : hrs; ht_time : Z }.
Global Instance hrs_eq_dec : EqDecision hrs.
Proof. solve_decision. Defined.
Global Instance hrst_eq_dec : EqDecision hrst.
Proof. solve_decision. Defined.
Global Instance hrs_countable : Countable hrs.
Proof.
  refine (inj_countable' (fun k => (h_height k, h_round k, h_step k))
            (fun '(a, b, c) => HRS a b c) _).
  intros []; reflexivity.
Defined.
Global Instance hrst_countable : Countable hrst.
Proof.
  refine (inj_countable' (fun k => (ht_hrs k, ht_time k)) (fun '(a, b) => HRST a b) _).
  intros []; reflexivity.
Defined.

(** signer/sign_state.go:19-24 *)
Definition stepPropose : Z := 1.
Definition stepPrevote : Z := 2.
Definition stepPrecommit : Z := 3.

(** signer/sign_state.go:26-46 CanonicalVoteToStep, VoteToStep: panic on any other type *)
Definition vote_type_to_step (ty : Z) : option Z :=
  if ty =? PrevoteType then Some stepPrevote
  else if ty =? PrecommitType then Some stepPrecommit
  else None.

(** signer/Serialization.go:28-44 UnpackHRST: proposal first (the decoded Type is not looked
    at), then vote. *)
Definition unpack_hrst (l : bytes) : outcome unit hrst :=
  match decode_proposal l with
  | Some p => Val (HRST (HRS (cp_height p) (cp_round p) stepPropose) (unix_nano (cp_ts p)))
  | None =>
      match decode_vote l with
      | Some v =>
          match vote_type_to_step (cv_type v) with
          | Some s => Val (HRST (HRS (cv_height v) (cv_round v) s) (unix_nano (cv_ts v)))
          | None => Panic
          end
      | None => Fail tt
      end
  end.

(** ** signer/sign_state.go:286-358: the only-differ-by-timestamp check *)

Inductive differ_error :=
| DiffLastUndecodable | DiffNewUndecodable
| DiffNewNil | DiffLastNil | DiffBlockHash | DiffConflict | DiffBadStep.

Definition set_vote_ts (v : canonical_vote) (t : time) : canonical_vote :=
  CVote (cv_type v) (cv_height v) (cv_round v) (cv_bid v) t (cv_chain v).
Definition set_proposal_ts (p : canonical_proposal) (t : time) : canonical_proposal :=
  CProp (cp_type p) (cp_height p) (cp_round p) (cp_pol p) (cp_bid p) t (cp_chain p).

(** [blockID.GetHash()]: nil-safe getter *)
Definition get_hash (b : option block_id) : bytes :=
  match b with Some b => bid_hash b | None => [] end.

(** sign_state.go:306-337 checkVoteOnlyDifferByTimestamp; [None] is a nil error *)
Definition check_vote_ts (last new : bytes) : option differ_error :=
  match decode_vote last with
  | None => Some DiffLastUndecodable
  | Some lv =>
      match decode_vote new with
      | None => Some DiffNewUndecodable
      | Some nv =>
          if bool_decide (set_vote_ts nv (cv_ts lv) = lv) then None
          else match cv_bid nv, cv_bid lv with
               | None, Some _ => Some DiffNewNil
               | Some _, None => Some DiffLastNil
               | _, _ =>
                   if bytes_equal (get_hash (cv_bid lv)) (get_hash (cv_bid nv))
                   then Some DiffConflict else Some DiffBlockHash
               end
      end
  end.

(** sign_state.go:339-358 checkProposalOnlyDifferByTimestamp *)
Definition check_proposal_ts (last new : bytes) : option differ_error :=
  match decode_proposal last with
  | None => Some DiffLastUndecodable
  | Some lp =>
      match decode_proposal new with
      | None => Some DiffNewUndecodable
      | Some np =>
          if bool_decide (set_proposal_ts np (cp_ts lp) = lp) then None else Some DiffConflict
      end
  end.

(** sign_state.go:296-304 onlyDifferByTimestamp *)
Definition only_differ_by_timestamp (step : Z) (last new : bytes) : option differ_error :=
  if step =? stepPropose then check_proposal_ts last new
  else if (step =? stepPrevote) || (step =? stepPrecommit) then check_vote_ts last new
  else Some DiffBadStep.
