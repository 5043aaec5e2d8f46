(** C23, C24, C45, C46: messages between cosigners (signer/Cosigner.go, grpc_server.go,
    remote_cosigner.go, raft_events.go), the privval protocol (signer/Serialization.go) and the
    remote signer (signer/remote_signer.go). *)
From Verif Require Import GoBase Wire WireProofs Canonical CanonicalProofs CanonicalApi SignState Spec Crypto Utf8 Utf8Proofs
  LocalCosigner Toy CosignerWitness Validator ValidatorSpec ValidatorWitness Privval RemoteSigner PrivvalSpec
  PrivvalProofs RemoteSignerProofs Rpc RpcSpec RpcProofs.
Local Open Scope Z_scope.
Local Notation sz l := (Z.of_nat (length l) < 2 ^ 63).

(** C23: what a cosigner is asked for is what the caller asked for, and the caller gets what the
    cosigner answered: keys, *)
Theorem C23_get_request : forall k, key_ok k -> get_received (get_request k) = Some k.
Proof. exact get_request_received. Qed.
Print Assumptions C23_get_request.
(** parts, all of them and in order, *)
Theorem C23_get_response : forall ps, Forall part_ok ps -> sz (get_response ps) -> get_answer (get_response ps) = Some ps.
Proof. exact get_response_received. Qed.
Print Assumptions C23_get_response.
(** signing requests, *)
Theorem C23_sign_request : forall ps k sb, Forall part_ok ps -> key_ok k -> sz (sign_request ps k sb) ->
  sign_received (sign_request ps k sb) = Some (ps, k, sb).
Proof. exact sign_request_received. Qed.
Print Assumptions C23_sign_request.
(** their answers, *)
Theorem C23_sign_response : forall eph ts sig,
  0 <= t_nanos ts < 10 ^ 9 -> in_int64 (nanos_of ts) -> sz (sign_response eph ts sig) ->
  sign_answer (sign_response eph ts sig) = Some (eph, ts, sig).
Proof. exact sign_response_received. Qed.
Print Assumptions C23_sign_response.
(** blocks passed on to the leader (the chain ID must be UTF-8, otherwise nothing is sent), *)
Theorem C23_block_request : forall chain b, block_ok b ->
  (utf8_text chain -> exists l, block_request chain b = Some l /\ (sz l -> block_received l = Some (chain, b))) /\
  (~ utf8_text chain -> block_request chain b = None).
Proof. intros chain b Hb. split; [by apply block_request_received|apply block_request_refused]. Qed.
Print Assumptions C23_block_request.
(** and signatures *)
Theorem C23_block_response : forall sig, sig <> Some [] -> sz (block_response sig) ->
  block_answer (block_response sig) = Some sig.
Proof. exact block_response_received. Qed.
Print Assumptions C23_block_response.

Example C23_key_example : key_ok (HRST (HRS (-5) (2 ^ 62) (-128)) (- 2 ^ 63)).
Proof. repeat split; vm_compute; congruence. Qed.
Example C23_part_example : let ps := [Part (2 ^ 31 - 1) (- 2 ^ 31) [x01] [x02] None; Part 3 0 [] [x04] (Some [x05])] in
  Forall part_ok ps /\ sz (get_response ps) /\ sz (sign_request ps (HRST (HRS 1 2 3) 4) [x07]).
Proof. split; [|by split]. repeat constructor; cbn; try done; vm_compute; congruence. Qed.
Example C23_time_example : let t := Time 1600000000 999999999 in 0 <= t_nanos t < 10 ^ 9 /\ in_int64 (nanos_of t) /\ sz (sign_response [x01] t [x02]).
Proof. repeat split; vm_compute; congruence. Qed.
Example C23_block_example : block_ok (eblock 11 x0a 1) /\ utf8_text irishub.
Proof. split; [repeat split; vm_compute; congruence|]. apply valid_utf8_spec. reflexivity. Qed.
(** out of range: IDs are truncated, and a timestamp that nanoseconds cannot represent (here
    time.Time{}) is changed *)
Example C23_id_lost : get_answer (get_response [Part (2 ^ 32 + 1) 2 [] [] None]) = Some [Part 1 2 [] [] None].
Proof. reflexivity. Qed.
Example C23_time_lost : exists b, block_from_proto (Some (block_to_proto b)) <> b /\ time_valid (b_ts b) = true.
Proof. exists (Block (HRS 1 0 2) [x01] zero_time). split; [vm_compute; congruence|reflexivity]. Qed.

(** C24: ReadMsg returns the message WriteMsg wrote and leaves exactly what follows *)
Theorem C24_read_write : forall m rest, message_ok m -> Z.of_nat (length (m_message m)) <= 10240 ->
  exists l, write_msg m = Some l /\ read_msg (l ++ rest) = Some (m, rest).
Proof.
  intros m rest Hok Hl. exists (delimited (m_message m)). unfold write_msg. rewrite ok_marshallable by done.
  split; [done|]. by apply read_write.
Qed.
Print Assumptions C24_read_write.
(** for any sequence of messages *)
Theorem C24_stream : forall ms rest,
  Forall (fun m => message_ok m /\ Z.of_nat (length (m_message m)) <= 10240) ms -> reads (stream ms ++ rest) ms rest.
Proof. exact read_stream. Qed.
Print Assumptions C24_stream.
Theorem C24_reads_deterministic : forall l ms l' ms' l'',
  length ms = length ms' -> reads l ms l' -> reads l ms' l'' -> ms = ms' /\ l' = l''.
Proof. exact reads_det. Qed.
Print Assumptions C24_reads_deterministic.
(** longer messages are refused *)
Theorem C24_long_refused : forall m rest, Z.of_nat (length (m_message m)) > 10240 -> sz (m_message m) ->
  read_msg (delimited (m_message m) ++ rest) = None.
Proof. exact read_long. Qed.
Print Assumptions C24_long_refused.
(** whatever is read is a message with fields in range *)
Theorem C24_read_in_range : forall l m rest, read_msg l = Some (m, rest) -> message_ok m.
Proof. exact read_msg_ok. Qed.
Print Assumptions C24_read_in_range.

Definition ex_vote : pvote := PVote (Vote 2 11 0 (wbid x0a) (Time 1600000000 1)) (repeat x01 20) 7 [].
Definition ex_prop : pprop := PProp 32 (wprop x0a) [].
Definition ex_messages : list message :=
  [SignVoteRequest (Some ex_vote) irishub; PingRequest; SignProposalRequest (Some ex_prop) irishub;
   PubKeyRequest []; SignVoteRequest None []; SignedVoteResponse empty_pvote (Some (RSError (-1) [x41]))].
Example C24_example : Forall (fun m => message_ok m /\ Z.of_nat (length (m_message m)) <= 10240) ex_messages.
Proof. repeat constructor; vm_compute; congruence. Qed.
Example C24_long_example : Z.of_nat (length (m_message (PubKeyRequest (repeat x41 (Z.to_nat 10240))))) > 10240.
Proof. vm_compute. reflexivity. Qed.

(** C45: the response is of the kind of the request, *)
Theorem C45_matching_response : forall s chain req res,
  is_request req = true -> handle_request s chain req = Val res -> answers req res.
Proof. exact matching. Qed.
Print Assumptions C45_matching_response.
(** whatever the signer behind it is: its error is told with an empty result, and is not the end of the
    process; only a panic is, *)
Theorem C45_failure : forall s chain req text, failed_with s chain req text ->
  handle_request s chain req = Val (refusal_of req text).
Proof. exact failure_told. Qed.
Print Assumptions C45_failure.
Example C45_failure_example : failed_with (Signer (Fail [x41]) (fun _ _ => Fail [x42]) (fun _ _ => Panic)) [] (PubKeyRequest []) [x41] /\
  failed_with (Signer (Fail [x41]) (fun _ _ => Fail [x42]) (fun _ _ => Panic)) [] (SignVoteRequest None []) [x42].
Proof. split; reflexivity. Qed.
(** a vote response has an error and an empty vote, or no error and the vote of the request with the
    signature and the timestamp from SignBlock; SignBlock was called with the sign bytes for the
    configured chain ID, whatever the request's *)
Theorem C45_vote_response : forall pub answer text chain v c res,
  handle_request (tv_signer pub answer text) chain (SignVoteRequest (Some v) c) = Val res ->
  exists b sb, vote_sign_bytes chain (pv_vote v) = Val sb /\
    b = Block (HRS (v_height (pv_vote v)) (v_round (pv_vote v)) (if v_type (pv_vote v) =? 1 then 2 else 3)) sb (v_ts (pv_vote v)) /\
    let r := answer chain b in
    match r_err r with
    | Some e => res = SignedVoteResponse empty_pvote (Some (RSError 0 (text e)))
    | None => exists v', res = SignedVoteResponse v' None /\
        pv_addr v' = pv_addr v /\ pv_index v' = pv_index v /\ pv_sig v' = slice_of (r_sig r) /\
        pv_vote v' = Vote (v_type (pv_vote v)) (v_height (pv_vote v)) (v_round (pv_vote v)) (v_bid (pv_vote v)) (r_stamp r)
    end.
Proof. exact tv_vote_response. Qed.
Print Assumptions C45_vote_response.
Theorem C45_proposal_response : forall pub answer text chain p c res,
  handle_request (tv_signer pub answer text) chain (SignProposalRequest (Some p) c) = Val res ->
  exists b sb, proposal_sign_bytes chain (pp_prop p) = Val sb /\
    b = Block (HRS (p_height (pp_prop p)) (p_round (pp_prop p)) 1) sb (p_ts (pp_prop p)) /\
    let r := answer chain b in
    match r_err r with
    | Some e => res = SignedProposalResponse empty_pprop (Some (RSError 0 (text e)))
    | None => exists p', res = SignedProposalResponse p' None /\
        pp_type p' = pp_type p /\ pp_sig p' = slice_of (r_sig r) /\
        pp_prop p' = Proposal (p_height (pp_prop p)) (p_round (pp_prop p)) (p_pol (pp_prop p)) (p_bid (pp_prop p)) (r_stamp r)
    end.
Proof. exact tv_prop_response. Qed.
Print Assumptions C45_proposal_response.
(** with answers from a run of the threshold validator: not even the timestamp changes, and a newly
    assembled signature verifies for the vote in the response *)
Theorem C45_vote_through_validator : forall C cfg st0 l st t chain v c res pub text answer f,
  idle st0 -> vrun C cfg st0 l st ->
  (forall b, vote_block chain (pv_vote v) = Val b -> returned l t b (answer chain b) f) ->
  handle_request (tv_signer pub answer text) chain (SignVoteRequest (Some v) c) = Val res ->
  (exists e, res = SignedVoteResponse empty_pvote (Some (RSError 0 (text e)))) \/
  exists v' sb, res = SignedVoteResponse v' None /\ resigned_vote v (pv_sig v') v' /\
    vote_sign_bytes chain (pv_vote v) = Val sb /\ (f = true -> cr_verify C (vc_pub cfg) sb (pv_sig v') = true).
Proof. exact vote_through_validator. Qed.
Print Assumptions C45_vote_through_validator.
Theorem C45_proposal_through_validator : forall C cfg st0 l st t chain p c res pub text answer f,
  idle st0 -> vrun C cfg st0 l st ->
  (forall b, proposal_block chain (pp_prop p) = Val b -> returned l t b (answer chain b) f) ->
  handle_request (tv_signer pub answer text) chain (SignProposalRequest (Some p) c) = Val res ->
  (exists e, res = SignedProposalResponse empty_pprop (Some (RSError 0 (text e)))) \/
  exists p' sb, res = SignedProposalResponse p' None /\ resigned_prop p (pp_sig p') p' /\
    proposal_sign_bytes chain (pp_prop p) = Val sb /\ (f = true -> cr_verify C (vc_pub cfg) sb (pp_sig p') = true).
Proof. exact proposal_through_validator. Qed.
Print Assumptions C45_proposal_through_validator.

Definition ex_result : vresult := VR (Some e2e_sig) (Time 1600000000 1) None.
Example C45_example : exists l st, vrun toy vcfg v0 l st /\
  (forall b, vote_block irishub (pv_vote ex_vote) = Val b -> returned l 7 b ex_result true) /\
  exists v', handle_request (tv_signer [] (fun _ _ => ex_result) (fun _ => [])) irishub
    (SignVoteRequest (Some ex_vote) [x99]) = Val (SignedVoteResponse v' None) /\ length (pv_sig v') = 64%nat.
Proof.
  destruct e2e_run as (H1 & H2 & H3). exists (v_log v0 e2e), (v_after v0 e2e). split; [exact H1|]. split.
  - intros b Hb. assert (E : vote_block irishub (pv_vote ex_vote) = Val (eblock 11 x0a 1)) by (vm_compute; reflexivity).
    rewrite E in Hb. injection Hb as <-. exact H2.
  - exists (PVote (pv_vote ex_vote) (repeat x01 20) 7 e2e_sig). split; [|exact H3]. unfold handle_request, handle_vote, tv_signer, sg_vote, tv_vote.
    assert (E : vote_block irishub (pv_vote ex_vote) = Val (eblock 11 x0a 1)) by (vm_compute; reflexivity).
    rewrite E. reflexivity.
Qed.

(** C46 is false: three bytes, a SignVoteRequest without a vote, make the process panic; *)
Theorem C46_nil_vote_refuted : exists input, length input = 3%nat /\ forall pub answer text chain,
  serve (fun n => tv_signer pub (answer n) text) chain input = ([], EndPanic).
Proof. exists [x02; x1a; x00]. split; reflexivity. Qed.
Print Assumptions C46_nil_vote_refuted.
(** so does a vote of unknown type, or one with a hash of the wrong length *)
Theorem C46_bad_vote_refuted : forall v, v = PVote (Vote 0 1 0 empty_bid (Time 0 0)) [] 0 [] \/
    v = PVote (Vote 1 1 0 (BID [x01] (PSH 0 [])) (Time 0 0)) [] 0 [] ->
  pvote_ok v /\ forall pub answer text chain,
  serve (fun n => tv_signer pub (answer n) text) chain (delimited (m_message (SignVoteRequest (Some v) []))) = ([], EndPanic).
Proof. intros v [-> | ->]; (split; [repeat split; vm_compute; congruence|reflexivity]). Qed.
Print Assumptions C46_bad_vote_refuted.
(** which requests do: those that ask for a signature on nothing, on a vote that is neither prevote
    nor precommit, or with a hash that is not empty or 32 bytes *)
Theorem C46_panics_iff : forall pub answer text chain req, message_ok req ->
  (handle_request (tv_signer pub answer text) chain req = Panic <-> ~ signable req) /\
  (forall e, handle_request (tv_signer pub answer text) chain req <> Fail e).
Proof. intros. split; [by apply tv_panics_iff|intros e; apply tv_never_fails]. Qed.
Print Assumptions C46_panics_iff.
(** all other requests get an answer: on any input, every message up to the first such request (or
    the end, or the first thing that is no message) is answered, in order, one for one *)
Theorem C46_any_input_partial : forall pub answer text chain input,
  (forall n b, time_valid (b_ts b) = true -> time_valid (r_stamp (answer n chain b)) = true) ->
  let ss := fun n => tv_signer pub (answer n) text in
  exists reqs rest outs, reads input reqs rest /\ answered ss chain 0 reqs outs /\ Forall signable reqs /\
    fst (serve ss chain input) = stream outs /\
    ((snd (serve ss chain input) = EndRead /\ read_msg rest = None) \/
     (snd (serve ss chain input) = EndPanic /\ exists m r, read_msg rest = Some (m, r) /\ ~ signable m)).
Proof. exact tv_serve_any. Qed.
Print Assumptions C46_any_input_partial.
(** in particular *)
Theorem C46_stream_partial : forall pub answer text chain reqs,
  (forall n b, time_valid (b_ts b) = true -> time_valid (r_stamp (answer n chain b)) = true) ->
  let ss := fun n => tv_signer pub (answer n) text in
  Forall (fun m => message_ok m /\ Z.of_nat (length (m_message m)) <= 10240) reqs ->
  Forall signable reqs -> Forall (fun m => is_request m = true) reqs ->
  exists outs, serve ss chain (stream reqs) = (stream outs, EndRead) /\ all_answer reqs outs.
Proof.
  intros pub answer text chain reqs Hts ss Hok Hs Hr.
  destruct (tv_serve_stream pub answer text chain reqs Hts Hok Hs) as (outs & H1 & H2 & _).
  exists outs. split; [exact H1|]. by eapply answered_matching.
Qed.
Print Assumptions C46_stream_partial.
Example C46_example : let reqs := [SignVoteRequest (Some ex_vote) irishub; PingRequest; SignProposalRequest (Some ex_prop) []; PubKeyRequest []] in
  Forall (fun m => message_ok m /\ Z.of_nat (length (m_message m)) <= 10240) reqs /\ Forall signable reqs /\
  Forall (fun m => is_request m = true) reqs /\
  (forall (n : nat) b, time_valid (b_ts b) = true -> time_valid (r_stamp ex_result) = true).
Proof.
  split; [repeat constructor; vm_compute; congruence|]. split; [|split; [repeat constructor|done]].
  repeat constructor; (eexists; split; [reflexivity|]); repeat split; cbn; auto; right; reflexivity.
Qed.
