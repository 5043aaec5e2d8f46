(** C09: what holds. *)
From Verif Require Import GoBase Canonical SignState Spec Crypto LocalCosigner Poly Scheme CosignerSpec NonceSpec
  Toy ToyScheme CosignerWitness HidingSpec HidingProofs HidingWitness.
Local Open Scope Z_scope.

(** C09, what holds: take any run in which parts are stored only for keys the cosigner dealt for, none of
    them as its own, and new shares for one key are for the same bytes and nonce. Everything the
    cosigner answered, including all parts for up to threshold - 2 colluding peers in the clear, could
    have been answered with any other key share: there is a run with that share, the same requests and
    the same view. *)
Theorem C09_share_hidden_partial : forall C R cfg lss l st P x',
  threshold_scheme C R -> hiding_laws C R (cc_rsa cfg) ->
  1 <= cc_id cfg <= cc_total cfg -> cc_total cfg <= rd_max R ->
  rd_is_scalar R (cc_share cfg) -> rd_is_point R (cc_pub cfg) ->
  NoDup P -> (forall j, j ∈ P -> 1 <= j <= cc_total cfg) -> cc_id cfg ∉ P -> Z.of_nat (length P) + 2 <= cc_threshold cfg ->
  crun C cfg (new_cosigner lss) l st ->
  sets_known C cfg (new_cosigner lss) l -> no_own_parts cfg l -> well_formed C R cfg l -> one_share_per_key l ->
  rd_is_scalar R x' ->
  exists l' st', crun C (with_share cfg x') (new_cosigner lss) l' st' /\ same_view P l l'.
Proof. exact share_hidden. Qed.
(** a run of a 3-of-4 cosigner that hands out parts, stores two, signs and repeats the share *)
Example C09_example : threshold_scheme toy toy_reading /\ hiding_laws toy toy_reading (cc_rsa (hcfg 1)) /\
  crun toy (hcfg 1) (new_cosigner (cs_lss wst0)) htrace hend /\
  sets_known toy (hcfg 1) (new_cosigner (cs_lss wst0)) htrace /\ no_own_parts (hcfg 1) htrace /\
  well_formed toy toy_reading (hcfg 1) htrace /\ one_share_per_key htrace /\
  (exists r1 r2, hobs 5 = ObsShare (wsb 11 x0a 1) r1 /\ sr_fresh r1 = true /\ hobs 6 = ObsShare (wsb 11 x0a 1) r2 /\ sr_fresh r2 = false) /\
  NoDup [3] /\ cc_id (hcfg 1) ∉ [3] /\ Z.of_nat (length [3]) + 2 <= cc_threshold (hcfg 1).
Proof.
  split; [exact toy_scheme|]. split; [exact (toy_hiding _)|]. split; [exact hcrun|]. split; [exact hknown|]. split; [exact h_no_own|].
  split; [exact h_well_formed|]. split; [exact h_once|]. split; [exact h_share|].
  split; [apply NoDup_singleton|]. split; [simpl; intros H%elem_of_list_singleton; discriminate H|]. vm_compute. discriminate.
Qed.

Print Assumptions C09_share_hidden_partial.
