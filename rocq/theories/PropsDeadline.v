(** C100: a request handed on to the leader (raft_events.go:58-77, remote_cosigner.go:29-35,
    grpc_server.go:19-35, threshold_validator.go:298-312). *)
From Verif Require Import GoBase Wire Canonical CanonicalProofs SignState Spec CanonicalApi Crypto LocalCosigner CosignerSpec
  Cluster Toy CosignerWitness Utf8 Validator ValidatorSpec ValidatorProofs ValidatorWitness Rpc RpcSpec
  TimedSpec TimedWitness Deadline DeadlineSpec DeadlineProofs.
Local Open Scope Z_scope.
Local Notation sz l := (Z.of_nat (length l) < 2 ^ 63).

(** C100, refuted: neither wait of the leader's call lasts 4 s and it returns a new signature, but the
    follower has already answered its chain node with an error *)
Theorem C100_signed_refuted :
  exists lF lL stF stL tF tL b dial sig taur op tau,
    vrun toy vcfgF v0 (untimed lF) stF /\ vrun toy vcfg v0 (untimed lL) stL /\ timed lF /\ timed lL /\
    (taur, op, OReturn tL b (VR (Some sig) (b_ts b) None) true) ∈ lL /\ within_waits lL tL taur /\
    handed_on w_txt w_expired w_chain lF lL tF tL b dial (Some (taur, VR (Some sig) (b_ts b) None)) /\
    (tau, VProxy tF (inl (OtherErr w_expired)),
     OReturn tF b (VR None (b_ts b) (Some (EvProxy (OtherErr w_expired)))) false) ∈ lF.
Proof. exact late_answer. Qed.
Print Assumptions C100_signed_refuted.

(** C100, guarded: an answer that is back less than 4 s after the request was sent is the follower's
    answer, a signature as it is and an error as an error; otherwise the follower answers with the error
    of the expired call, no sooner than after 4 s. *)
Theorem C100_answer_partial C txt expired chain cfg st lF st' lL tF tL b dial reply tau ans rF f :
  vrun C cfg st (untimed lF) st' -> handed_on txt expired chain lF lL tF tL b dial reply ->
  (tau, VProxy tF ans, OReturn tF b rF f) ∈ lF ->
  f = false /\
  (forall back r, reply = Some (back, r) -> back < dial + 4000 ->
     back <= tau /\
     (r_err r = None -> r_sig r <> Some [] -> sz (block_response (r_sig r)) -> rF = VR (r_sig r) (b_ts b) None) /\
     (forall e, r_err r = Some e -> rF = VR None (b_ts b) (Some (EvProxy (OtherErr (txt e)))))) /\
  ((forall back r, reply = Some (back, r) -> dial + 4000 <= back) ->
     dial + 4000 <= tau /\ rF = VR None (b_ts b) (Some (EvProxy (OtherErr expired)))).
Proof. exact (answer_cases C txt expired chain cfg st lF st' lL tF tL b dial reply tau ans rF f). Qed.
Print Assumptions C100_answer_partial.

(** C100, guarded: the signature is not lost. A request repeated through a follower, whose call at the
    leader waits for the first one, gets the signature of the first call. *)
Theorem C100_repeat_partial C txt expired chain cfgL l0 lL stL t1 b1 tau1 taus op1 r1 t2 tau2 o2 cfgF st lF st' tF b dial back
    r2 tau ans r f :
  cache_sound l0 -> vrun C cfgL (new_validator l0) (untimed lL) stL -> timed lL ->
  no_event (b_hrs b1) (untimed lL) -> near (h_height (b_hrs b1)) (untimed lL) ->
  0 <= h_height (b_hrs b1) -> h_height (b_hrs b1) + 3 < 2 ^ 63 ->
  (tau1, VInit t1, OStart t1 b1) ∈ lL -> (taus, op1, OReturn t1 b1 r1 true) ∈ lL ->
  r_sig r1 <> Some [] -> sz (block_response (r_sig r1)) ->
  vrun C cfgF st (untimed lF) st' -> handed_on txt expired chain lF lL tF t2 b dial (Some (back, r2)) ->
  block_ok b -> (forall req, block_request chain b = Some req -> sz req) -> same_request b b1 ->
  (tau2, VInit t2, o2) ∈ lL -> taus < tau2 + 990 ->
  (forall x op b' r' f', (x, op, OReturn t2 b' r' f') ∈ lL -> op = VPoll t2) ->
  back < dial + 4000 -> (tau, VProxy tF ans, OReturn tF b r f) ∈ lF ->
  exists sig, r1 = VR (Some sig) (b_ts b1) None /\ r = VR (Some sig) (b_ts b) None.
Proof.
  exact (repeat_followed C txt expired chain cfgL l0 lL stL t1 b1 tau1 taus op1 r1 t2 tau2 o2 cfgF st lF st' tF b dial back
    r2 tau ans r f).
Qed.
Print Assumptions C100_repeat_partial.

(** the hypotheses of both hold of a run in which the leader needs 300 ms *)
Example C100_repeat_case :
  exists lL stL t1 tau1 taus op1 t2 tau2 lF st' tF b dial back tau sig,
    cache_sound lss10 /\ vrun toy vcfg (new_validator lss10) (untimed lL) stL /\ timed lL /\
    no_event (b_hrs b) (untimed lL) /\ near (h_height (b_hrs b)) (untimed lL) /\
    0 <= h_height (b_hrs b) /\ h_height (b_hrs b) + 3 < 2 ^ 63 /\
    (tau1, VInit t1, OStart t1 b) ∈ lL /\ (taus, op1, OReturn t1 b (VR (Some sig) (b_ts b) None) true) ∈ lL /\
    sig <> [] /\ sz (block_response (Some sig)) /\ vrun toy vcfgF v0 (untimed lF) st' /\
    handed_on w_txt w_expired w_chain lF lL tF t2 b dial (Some (back, VR (Some sig) (b_ts b) None)) /\
    block_ok b /\ (forall req, block_request w_chain b = Some req -> sz req) /\ same_request b b /\
    (tau2, VInit t2, OTau) ∈ lL /\ taus < tau2 + 990 /\
    (forall x op b' r' f', (x, op, OReturn t2 b' r' f') ∈ lL -> op = VPoll t2) /\ back < dial + 4000 /\
    (tau, VProxy tF (inr (Some sig)), OReturn tF b (VR (Some sig) (b_ts b) None) false) ∈ lF.
Proof. exact quick_followed. Qed.
