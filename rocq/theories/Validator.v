(** The threshold validator: signer/threshold_validator.go.

    Every SignBlock call is a thread; [vstep] is one atomic action of one thread, of one of its
    goroutines, or of the raft FSM. Actions are atomic when the code holds a mutex for their whole
    duration or touches only data of its own; concurrent calls and raft events are interleaved
    arbitrarily. What other processes do (cosigners' answers, the raft leader's answer, timeouts,
    raft role) is an argument of the action, so it is arbitrary.

    The own cosigner is participant 0 and [peers[i]] is participant [i+1] (the code uses the
    interface value, a pointer, as map key).

    Simplifications: log messages are dropped; the read of lastSignStateInitiated inside
    newBeyondBlockError (without its mutex, only for the text) is made with the action; goroutines
    of waitForPeerEphemeralShares that answer after the wait ended are dropped (they cannot insert
    any more: the map has threshold-1 entries). *)
From Verif Require Import GoBase Wire Canonical SignState Crypto LocalCosigner.
Local Open Scope Z_scope.

(** threshold_validator.go:127-133 Block *)
Record block := Block { b_hrs : hrs; b_sb : bytes; b_ts : time }.
(** threshold_validator.go:316-321 *)
Definition b_key (b : block) : hrst := HRST (b_hrs b) (unix_nano (b_ts b)).

Global Instance part_eq_dec : EqDecision part.
Proof. solve_decision. Defined.

(** threshold_validator.go:19-43 ThresholdValidator, constant part; [vc_peers] are the IDs of the
    peer cosigners *)
Record vconf := VConf { vc_threshold : Z; vc_pub : bytes; vc_id : Z; vc_peers : list Z }.

(** ID of a participant *)
Definition id_of (cfg : vconf) (w : nat) : option Z :=
  match w with O => Some (vc_id cfg) | S i => vc_peers cfg !! i end.

(** an error from another process: *rpcTypes.RPCError with its Data field, or anything else *)
Inductive go_error := RPCErr (data : bytes) | OtherErr (text : bytes).

Inductive verr :=
| EvNoRaft                      (* 296 *)
| EvProxy (e : go_error)        (* 309 *)
| EvProxyBeyond (msg : bytes)   (* 306 BeyondBlockError rebuilt from the text *)
| EvDiffer (e : differ_error)   (* 277 *)
| EvBeyond (init k : hrs)       (* 285, 356 BeyondBlockError *)
| EvWaitTimeout                 (* 348 *)
| EvOwnParts                    (* 384 *)
| EvPartsTimeout                (* 390 *)
| EvSignTimeout                 (* 421 *)
| EvNotEnough                   (* 441 *)
| EvInvalid                     (* 452 *)
| EvSave (e : save_error).      (* 466 *)

(** results of SignBlock: signature (None is nil), timestamp, error *)
Record vresult := VR { r_sig : option bytes; r_stamp : time; r_err : option verr }.

(** threshold_validator.go:263-288 getExistingBlockSignature; [Val None] is (nil, nil error).
    [init] is lastSignStateInitiated's height/round/step (for the error text) *)
Inductive ex_err := ExDiffer (e : differ_error) | ExBeyond | ExWaiting.
Definition get_existing (lss : sign_state) (b : block) : outcome ex_err (option bytes) :=
  let '(latest, existing) := get_from_cache lss (b_hrs b) in
  match existing with
  | Some c =>
      if (h_step (b_hrs b) =? stepPropose) || bytes_equal (b_sb b) (slice_of (c_sb c))
      then Val (c_sig c)
      else match only_differ_by_timestamp (h_step (c_hrs c)) (slice_of (c_sb c)) (b_sb b) with
           | Some e => Fail (ExDiffer e)
           | None => Val None
           end
  | None =>
      let k := b_hrs b in
      if (h_height k <? h_height latest) ||
         ((h_height latest =? h_height k) && (h_round k <? h_round latest)) ||
         ((h_height latest =? h_height k) && (h_round latest =? h_round k) && (h_step k <? h_step latest))
      then Fail ExBeyond else Fail ExWaiting
  end.

(** threshold_validator.go:299-311: a follower's answer from the leader's *)
Definition beyond_prefix : bytes :=
  (* "Progress already started on block" *)
  ["P"; "r"; "o"; "g"; "r"; "e"; "s"; "s"; " "; "a"; "l"; "r"; "e"; "a"; "d"; "y"; " ";
   "s"; "t"; "a"; "r"; "t"; "e"; "d"; " "; "o"; "n"; " "; "b"; "l"; "o"; "c"; "k"]%byte.
Definition proxy_result (b : block) (ans : go_error + option bytes) : vresult :=
  match ans with
  | inr sig => VR sig (b_ts b) None
  | inl (RPCErr d) =>
      if bool_decide (33 < length d)%nat && bytes_equal (take 33 d) beyond_prefix
      then VR None (b_ts b) (Some (EvProxyBeyond d))
      else VR None (b_ts b) (Some (EvProxy (RPCErr d)))
  | inl e => VR None (b_ts b) (Some (EvProxy e))
  end.

(** ** One call *)

(** position of a SignBlock call *)
Inductive vpc :=
| PcProxy                                    (* 301: waiting for the leader's answer *)
| PcInit                                     (* 324: about to save the initiated state *)
| PcPoll (i : nat)                           (* 329: i iterations done *)
| PcLate                                     (* 351: the initiated state was beyond *)
| PcCollect (own : option (list part))       (* 375-392: our parts, once known *)
            (got : list (nat * list part))   (* encryptedEphemeralSharesThresholdMap *)
            (ans : list nat)                 (* peers whose goroutine is done *)
| PcSign (got : list (nat * list part))      (* 399-422: the map with ourselves added *)
         (asked ans : list nat)              (* goroutines that sent their request / are done *)
         (sigs : list bytes)                 (* shareSignatures, [] is nil *)
         (eph : option bytes)                (* ephemeralPublic *)
| PcVerified (sig : bytes)                   (* 451: verified, about to save *)
| PcSaved (sig : bytes)                      (* 471: about to emit *)
| PcDone.

Record thread := Thread { th_block : block; th_pc : vpc }.

(** mutable part of ThresholdValidator *)
Record vstate := VState {
  vs_lss : sign_state; vs_init : sign_state; vs_threads : gmap nat thread }.

(** threshold_validator.go:56-75 NewThresholdValidator *)
Definition new_validator (lss : sign_state) : vstate :=
  VState lss (SS (ss_hrs lss) None None None ∅) ∅.

Definition set_pc (st : vstate) (t : nat) (b : block) (pc : vpc) : vstate :=
  VState (vs_lss st) (vs_init st) (<[t := Thread b pc]> (vs_threads st)).

(** total, threshold_validator.go:364 *)
Definition v_total (cfg : vconf) : Z := (Z.of_nat (length (vc_peers cfg)) + 1) mod 256.

(** threshold_validator.go:205-220: the parts sent to participant with ID [pid], when the
    goroutine ranges over the map in the order [order] *)
Definition first_for (pid : Z) (ps : list part) : option part :=
  head (filter (fun p => pt_dest p = pid) ps).
Definition parts_for (cfg : vconf) (order : list (nat * list part)) (pid : Z) : list part :=
  omap (fun '(_, ps) =>
          match first_for pid ps with
          | Some p => if existsb (fun '(w, _) => bool_decide (id_of cfg w = Some (pt_source p))) order
                      then Some p else None
          | None => None
          end) order.

(** threshold_validator.go:426-437: IDs and shares with a non-empty signature *)
Fixpoint collect_sigs (i : Z) (sigs : list bytes) : list (Z * bytes) :=
  match sigs with
  | [] => []
  | [] :: l => collect_sigs (i + 1) l
  | s :: l => (i + 1, s) :: collect_sigs (i + 1) l
  end.

(** ** Actions *)

Inductive role := RNone | RFollower | RLeader.

Inductive vop :=
| VCall (t : nat) (b : block) (r : role)             (* SignBlock is called in state [r] of raft *)
| VProxy (t : nat) (ans : go_error + option bytes)   (* LeaderSignBlock returns *)
| VInit (t : nat)
| VPoll (t : nat)
| VLate (t : nat)
| VOwn (t : nat) (r : option (list part))            (* our GetEphemeralSecretParts returns *)
| VParts (t : nat) (w : nat) (r : option (list part)) (* a peer's GetEphemeralSecretParts returns *)
| VGo (t : nat)                                      (* the wait for parts completes *)
| VAsk (t : nat) (w : nat) (order : list (nat * list part)) (* a goroutine sends its request *)
| VSig (t : nat) (w : nat) (r : option (bytes * bytes)) (* answer: signature, ephemeral public *)
| VTimeout (t : nat)
| VFinish (t : nat)                                  (* all answered: assemble and verify *)
| VSave (t : nat)
| VEmit (t : nat) (ok : bool)
| VLss (c : consensus).                              (* raft_events.go:35 *)

(** what is visible outside *)
Inductive vobs :=
| OTau
| OStart (t : nat) (b : block)                              (* the signing protocol starts *)
| OAsk (t : nat) (w : nat) (k : hrst) (ps : list part) (sb : bytes)
| OReturn (t : nat) (b : block) (r : vresult) (fresh : bool)
| OLss (c : consensus) (accepted : bool).

(** [VNo]: the action is not possible; [VCrash]: the process panics *)
Inductive vres := VNo | VCrash | VOk (st : vstate) (o : vobs).

Section Steps.
Context (C : Crypto) (cfg : vconf).

Definition ret (st : vstate) (t : nat) (b : block) (r : vresult) (fresh : bool) : vres :=
  VOk (set_pc st t b PcDone) (OReturn t b r fresh).
Definition fail (st : vstate) (t : nat) (b : block) (e : verr) : vres :=
  ret st t b (VR None (b_ts b) (Some e)) false.

(** threshold_validator.go:363-376: WaitGroup.Add with a negative number panics *)
Definition start (st : vstate) (t : nat) (b : block) : vres :=
  if vc_threshold cfg - 1 <? 0 then VCrash
  else VOk (set_pc st t b (PcCollect None [] [])) (OStart t b).

(** threshold_validator.go:324-361, first decision *)
Definition do_init (st : vstate) (t : nat) (b : block) : vres :=
  let '(i, err) := save (vs_init st) (new_consensus (b_hrs b)) in
  let st' := VState (vs_lss st) i (vs_threads st) in
  match err with
  | None => start st' t b
  | Some SameHRS => VOk (set_pc st' t b (PcPoll 0)) OTau
  | Some _ => VOk (set_pc st' t b PcLate) OTau
  end.

(** threshold_validator.go:329-349: one iteration *)
Definition do_poll (st : vstate) (t : nat) (b : block) (i : nat) : vres :=
  match get_existing (vs_lss st) b with
  | Val (Some sig) => ret st t b (VR (Some sig) (b_ts b) None) false
  | Val None => start st t b
  | Fail ExWaiting =>
      if bool_decide (S i = 100%nat) then fail st t b EvWaitTimeout
      else VOk (set_pc st t b (PcPoll (S i))) OTau
  | Fail ExBeyond => fail st t b (EvBeyond (ss_hrs (vs_init st)) (b_hrs b))
  | Fail (ExDiffer e) => fail st t b (EvDiffer e)
  | Panic => VCrash
  end.

(** threshold_validator.go:351-359 *)
Definition do_late (st : vstate) (t : nat) (b : block) : vres :=
  match get_existing (vs_lss st) b with
  | Val sig => ret st t b (VR sig (b_ts b) None) false
  | _ => fail st t b (EvBeyond (ss_hrs (vs_init st)) (b_hrs b))
  end.

(** threshold_validator.go:179-190 *)
Definition do_parts (st : vstate) (t : nat) (b : block) own got ans w (r : option (list part)) : vres :=
  match id_of cfg w with
  | None => VNo
  | Some _ =>
      if bool_decide (w = 0%nat \/ w ∈ ans) then VNo
      else
        let got' := match r with
                    | None => got
                    | Some ps => if Z.of_nat (length got) <? vc_threshold cfg - 1
                                 then got ++ [(w, ps)] else got
                    end in
        VOk (set_pc st t b (PcCollect own got' (w :: ans))) OTau
  end.

(** threshold_validator.go:392-409 *)
Definition do_go (st : vstate) (t : nat) (b : block) (own : list part) got : vres :=
  if Z.of_nat (length got) =? vc_threshold cfg - 1
  then VOk (set_pc st t b
              (PcSign (got ++ [(0%nat, own)]) [] []
                 (replicate (Z.to_nat (v_total cfg)) []) None)) OTau
  else VNo.

(** threshold_validator.go:204-228 *)
Definition do_ask (st : vstate) (t : nat) (b : block) got asked ans sigs eph w order : vres :=
  match id_of cfg w with
  | None => VNo
  | Some pid =>
      if bool_decide (w ∈ map fst got /\ w ∉ asked /\ Permutation order got)
      then VOk (set_pc st t b (PcSign got (w :: asked) ans sigs eph))
             (OAsk t w (b_key b) (parts_for cfg order pid) (b_sb b))
      else VNo
  end.

(** threshold_validator.go:230-246 *)
Definition do_sig (st : vstate) (t : nat) (b : block) got asked ans sigs eph w
    (r : option (bytes * bytes)) : vres :=
  match id_of cfg w with
  | None => VNo
  | Some pid =>
      if bool_decide (w ∈ asked /\ w ∉ ans) then
        match r with
        | None => VOk (set_pc st t b (PcSign got asked (w :: ans) sigs eph)) OTau
        | Some (sig, e) =>
            match idx_set sigs (pid - 1) sig with
            | None => VCrash
            | Some sigs' =>
                VOk (set_pc st t b (PcSign got asked (w :: ans) sigs'
                       (if pid =? vc_id cfg then Some e else eph))) OTau
            end
        end
      else VNo
  end.

(** threshold_validator.go:426-453 *)
Definition do_finish (st : vstate) (t : nat) (b : block) ans sigs (eph : option bytes) : vres :=
  if Z.of_nat (length (ans : list nat)) =? vc_threshold cfg then
    let l := collect_sigs 0 sigs in
    if Z.of_nat (length l) <? vc_threshold cfg then fail st t b EvNotEnough
    else match cr_combine C (v_total cfg) (map fst l) (map snd l) with
         | None => VCrash
         | Some comb =>
             let sig := slice_of eph ++ comb in
             if cr_verify C (vc_pub cfg) (b_sb b) sig
             then VOk (set_pc st t b (PcVerified sig)) OTau
             else fail st t b EvInvalid
         end
  else VNo.

(** threshold_validator.go:455-468 *)
Definition do_save (st : vstate) (t : nat) (b : block) (sig : bytes) : vres :=
  let '(l, err) := save (vs_lss st) (SSC (b_hrs b) (Some sig) (Some (b_sb b))) in
  let st' := VState l (vs_init st) (vs_threads st) in
  match err with
  | None | Some SameHRS => VOk (set_pc st' t b (PcSaved sig)) OTau
  | Some e => fail st' t b (EvSave e)
  end.

Definition thread_step (st : vstate) (t : nat) (b : block) (pc : vpc) (op : vop) : vres :=
  match op, pc with
  | VProxy _ ans, PcProxy => ret st t b (proxy_result b ans) false
  | VInit _, PcInit => do_init st t b
  | VPoll _, PcPoll i => do_poll st t b i
  | VLate _, PcLate => do_late st t b
  | VOwn _ r, PcCollect None got ans =>
      match r with
      | None => fail st t b EvOwnParts
      | Some ps => VOk (set_pc st t b (PcCollect (Some ps) got ans)) OTau
      end
  | VParts _ w r, PcCollect own got ans => do_parts st t b own got ans w r
  | VGo _, PcCollect (Some own) got _ => do_go st t b own got
  | VTimeout _, PcCollect (Some _) _ _ => fail st t b EvPartsTimeout
  | VAsk _ w order, PcSign got asked ans sigs eph => do_ask st t b got asked ans sigs eph w order
  | VSig _ w r, PcSign got asked ans sigs eph => do_sig st t b got asked ans sigs eph w r
  | VTimeout _, PcSign _ _ _ _ _ => fail st t b EvSignTimeout
  | VFinish _, PcSign _ _ ans sigs eph => do_finish st t b ans sigs eph
  | VSave _, PcVerified sig => do_save st t b sig
  (* threshold_validator.go:470-476: an Emit error is only logged *)
  | VEmit _ _, PcSaved sig => ret st t b (VR (Some sig) (b_ts b) None) true
  | _, _ => VNo
  end.

Definition op_thread (op : vop) : option nat :=
  match op with
  | VCall _ _ _ | VLss _ => None
  | VProxy t _ | VInit t | VPoll t | VLate t | VOwn t _ | VParts t _ _ | VGo t | VAsk t _ _
  | VSig t _ _ | VTimeout t | VFinish t | VSave t | VEmit t _ => Some t
  end.

Definition vstep (st : vstate) (op : vop) : vres :=
  match op with
  (* threshold_validator.go:290-314 *)
  | VCall t b r =>
      match vs_threads st !! t with
      | Some _ => VNo
      | None =>
          match r with
          | RNone => fail st t b EvNoRaft
          | RFollower => VOk (set_pc st t b PcProxy) OTau
          | RLeader => VOk (set_pc st t b PcInit) OTau
          end
      end
  (* threshold_validator.go:77-79, raft_events.go:35 *)
  | VLss c =>
      let '(l, err) := save (vs_lss st) c in
      VOk (VState l (vs_init st) (vs_threads st)) (OLss c (match err with None => true | _ => false end))
  | _ =>
      match op_thread op with
      | None => VNo
      | Some t =>
          match vs_threads st !! t with
          | None => VNo
          | Some (Thread b pc) => thread_step st t b pc op
          end
      end
  end.

(** runs, oldest action first *)
Inductive vrun : vstate -> list (vop * vobs) -> vstate -> Prop :=
| vrun_nil st : vrun st [] st
| vrun_cons st op st1 o l st2 :
    vstep st op = VOk st1 o -> vrun st1 l st2 -> vrun st ((op, o) :: l) st2.

End Steps.

(** ** SignVote and SignProposal *)

(** threshold_validator.go:93-107: the block of a vote; VoteToStep and VoteSignBytes may panic *)
Definition vote_block (chain : bytes) (v : vote) : outcome unit block :=
  match vote_type_to_step (v_type v), vote_sign_bytes chain v with
  | Some s, Val sb => Val (Block (HRS (v_height v) (v_round v) s) sb (v_ts v))
  | _, _ => Panic
  end.
(** threshold_validator.go:111-125 *)
Definition proposal_block (chain : bytes) (p : proposal) : outcome unit block :=
  match proposal_sign_bytes chain p with
  | Val sb => Val (Block (HRS (p_height p) (p_round p) stepPropose) sb (p_ts p))
  | _ => Panic
  end.
(** threshold_validator.go:103-106: the vote handed back, with its Signature field and the error *)
Definition finish_vote (v : vote) (r : vresult) : vote * option bytes * option verr :=
  (Vote (v_type v) (v_height v) (v_round v) (v_bid v) (r_stamp r), r_sig r, r_err r).
(** threshold_validator.go:121-124 *)
Definition finish_proposal (p : proposal) (r : vresult) : proposal * option bytes * option verr :=
  (Proposal (p_height p) (p_round p) (p_pol p) (p_bid p) (r_stamp r), r_sig r, r_err r).
