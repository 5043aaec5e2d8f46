(** C86: a request repeated while the first one is being signed (threshold_validator.go:283-345,
    441-485). *)
From Verif Require Import GoBase Wire Canonical SignState Spec CanonicalApi Crypto LocalCosigner
  CosignerSpec Cluster Toy CosignerWitness Validator ValidatorSpec ValidatorProofs ValidatorWitness
  TimedSpec TimedProofs TimedWitness.
Local Open Scope Z_scope.

(** C86, refuted: the first call gets its signature after 2 s, well within its time-outs; the second
    call for the same request gave up after 990 ms *)
Theorem C86_repeat_refuted :
  exists l st t1 t2 b sig tau1 taus tau2 tau op1,
    vrun toy vcfg v0 (untimed l) st /\ timed l /\ t1 <> t2 /\
    no_event (b_hrs b) (untimed l) /\ near (h_height (b_hrs b)) (untimed l) /\
    (tau1, VInit t1, OStart t1 b) ∈ l /\ (taus, op1, OReturn t1 b (VR (Some sig) (b_ts b) None) true) ∈ l /\
    taus <= tau1 + 2500 /\
    (tau2, VInit t2, OTau) ∈ l /\
    (tau, VPoll t2, OReturn t2 b (VR None (b_ts b) (Some EvWaitTimeout)) false) ∈ l.
Proof. exact slow_repeat. Qed.
Print Assumptions C86_repeat_refuted.

(** C86, guarded: if the first call returns less than 990 ms after the second one began to wait, the
    second returns the same signature; no new signature is made. *)
Theorem C86_repeat_partial C cfg l0 l st t1 b1 tau1 taus op1 r1 t2 b2 tau2 o2 tau r2 f2 :
  cache_sound l0 -> vrun C cfg (new_validator l0) (untimed l) st -> timed l ->
  no_event (b_hrs b1) (untimed l) -> near (h_height (b_hrs b1)) (untimed l) ->
  0 <= h_height (b_hrs b1) -> h_height (b_hrs b1) + 3 < 2 ^ 63 ->
  (tau1, VInit t1, OStart t1 b1) ∈ l -> (taus, op1, OReturn t1 b1 r1 true) ∈ l ->
  (tau2, VInit t2, o2) ∈ l -> (tau, VPoll t2, OReturn t2 b2 r2 f2) ∈ l ->
  same_request b2 b1 -> taus < tau2 + 990 ->
  exists sig, r1 = VR (Some sig) (b_ts b1) None /\ r2 = VR (Some sig) (b_ts b2) None.
Proof. exact (repeat_answered C cfg l0 l st t1 b1 tau1 taus op1 r1 t2 b2 tau2 o2 tau r2 f2). Qed.
Print Assumptions C86_repeat_partial.

(** the hypotheses hold of a run in which the shares take 300 ms *)
Example C86_repeat_case :
  exists l st t1 t2 b sig tau1 taus tau2 tau op1,
    cache_sound lss10 /\ vrun toy vcfg (new_validator lss10) (untimed l) st /\ timed l /\ t1 <> t2 /\
    no_event (b_hrs b) (untimed l) /\ near (h_height (b_hrs b)) (untimed l) /\
    0 <= h_height (b_hrs b) /\ h_height (b_hrs b) + 3 < 2 ^ 63 /\
    (tau1, VInit t1, OStart t1 b) ∈ l /\ (taus, op1, OReturn t1 b (VR (Some sig) (b_ts b) None) true) ∈ l /\
    (tau2, VInit t2, OTau) ∈ l /\ (tau, VPoll t2, OReturn t2 b (VR (Some sig) (b_ts b) None) false) ∈ l /\
    same_request b b /\ taus < tau2 + 990.
Proof. exact quick_repeat. Qed.
