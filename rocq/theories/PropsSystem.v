(** C72: a whole cluster. *)
From Verif Require Import GoBase Canonical SignState Spec Crypto LocalCosigner CosignerSpec Validator ValidatorSpec Disk
  DiskSpec Toy CosignerWitness ValidatorWitness DiskWitness System SystemSpec SystemProofs SystemWitness FailoverWitness SystemLossWitness.
Local Open Scope Z_scope.

(** C72, first half: every signature any host hands out (as leader, from its records, or passed on
    from the leader), in any history, with any loss of files, verifies for bytes that a threshold of
    cosigners signed *)
Theorem C72_signatures : forall C K faulty S0 t pub h S,
  set_up K S0 t pub -> first_start S0 -> first_files S0 -> srun C K faulty S0 h S ->
  forall i b sig, handed_out h i b sig ->
  exists m, cr_verify C pub m sig = true /\ supported S0 t faulty h m.
Proof. exact cluster_any_file. Qed.
(** for votes these are the bytes of the request, unless a validator read back a file that mixes two
    of its states (C38) *)
Theorem C72_supported_partial : forall C K faulty S0 t pub h S,
  set_up K S0 t pub -> first_start S0 -> srun C K faulty S0 h S -> files_true C K faulty S0 h ->
  forall i b sig, handed_out h i b sig ->
  exists m, cr_verify C pub m sig = true /\ supported S0 t faulty h m /\
    (h_step (b_hrs b) <> stepPropose -> m = b_sb b).
Proof. exact cluster_signatures. Qed.
(** second half: no two such messages conflict, if the cosigners that are faulty or lost state in a
    restart are few enough *)
Theorem C72_agree_partial : forall C K faulty lossy S0 t h S m1 m2 k,
  srun C K faulty S0 h S -> shares_kept C K faulty S0 lossy h ->
  2 * t > Z.of_nat (size (sy_hosts S0) + size (faulty ∪ lossy)) ->
  supported S0 t faulty h m1 -> supported S0 t faulty h m2 -> bytes_for m1 k -> bytes_for m2 k ->
  same_message_but_time m1 m2.
Proof. exact cluster_agree. Qed.
(** in particular if few enough hosts are faulty or restart at all, whatever happens to their files *)
Theorem C72_few_restarts_partial : forall C K faulty S0 t pub h S i1 b1 s1 i2 b2 s2,
  set_up K S0 t pub -> first_start S0 -> first_files S0 -> srun C K faulty S0 h S ->
  2 * t > Z.of_nat (size (sy_hosts S0) + size (faulty ∪ restarted h)) ->
  handed_out h i1 b1 s1 -> handed_out h i2 b2 s2 ->
  exists m1 m2, cr_verify C pub m1 s1 = true /\ cr_verify C pub m2 s2 = true /\
    supported S0 t faulty h m1 /\ supported S0 t faulty h m2 /\
    forall k, bytes_for m1 k -> bytes_for m2 k -> same_message_but_time m1 m2.
Proof.
  intros * H1 H2 Hf Hr Ht G1 G2.
  destruct (cluster_any_file _ _ _ _ _ _ _ _ H1 H2 Hf Hr _ _ _ G1) as (m1 & V1 & Q1).
  destruct (cluster_any_file _ _ _ _ _ _ _ _ H1 H2 Hf Hr _ _ _ G2) as (m2 & V2 & Q2).
  exists m1, m2. do 4 (split; [done|]). intros k K1 K2.
  eapply cluster_agree; [exact Hr|apply restarted_lossy|exact Ht|exact Q1|exact Q2|exact K1|exact K2].
Qed.
(** in one statement: two votes with the same height, round and step answered with a signature by
    any two hosts differ at most in their timestamps *)
Theorem C72_votes_partial : forall C K faulty lossy S0 t pub h S i1 b1 s1 i2 b2 s2 k,
  set_up K S0 t pub -> first_start S0 -> srun C K faulty S0 h S ->
  files_true C K faulty S0 h -> shares_kept C K faulty S0 lossy h ->
  2 * t > Z.of_nat (size (sy_hosts S0) + size (faulty ∪ lossy)) ->
  handed_out h i1 b1 s1 -> handed_out h i2 b2 s2 ->
  h_step (b_hrs b1) <> stepPropose -> h_step (b_hrs b2) <> stepPropose ->
  bytes_for (b_sb b1) k -> bytes_for (b_sb b2) k ->
  cr_verify C pub (b_sb b1) s1 = true /\ cr_verify C pub (b_sb b2) s2 = true /\
  same_message_but_time (b_sb b1) (b_sb b2).
Proof.
  intros * H1 H2 Hr Hf Hk Ht G1 G2 P1 P2 K1 K2.
  destruct (cluster_signatures _ _ _ _ _ _ _ _ H1 H2 Hr Hf _ _ _ G1) as (m1 & V1 & Q1 & E1).
  destruct (cluster_signatures _ _ _ _ _ _ _ _ H1 H2 Hr Hf _ _ _ G2) as (m2 & V2 & Q2 & E2).
  rewrite <- (E1 P1), <- (E2 P2) in *. split; [done|]. split; [done|].
  eapply cluster_agree; [exact Hr|exact Hk|exact Ht|exact Q1|exact Q2|exact K1|exact K2].
Qed.
(** in particular if no host restarts *)
Theorem C72_no_restart_partial : forall C K faulty S0 t pub h S i1 b1 s1 i2 b2 s2 k,
  set_up K S0 t pub -> first_start S0 -> srun C K faulty S0 h S -> (forall i n o, (ERestart i n, o) ∉ h) ->
  2 * t > Z.of_nat (size (sy_hosts S0) + size faulty) ->
  handed_out h i1 b1 s1 -> handed_out h i2 b2 s2 ->
  h_step (b_hrs b1) <> stepPropose -> h_step (b_hrs b2) <> stepPropose ->
  bytes_for (b_sb b1) k -> bytes_for (b_sb b2) k -> same_message_but_time (b_sb b1) (b_sb b2).
Proof.
  intros * H1 H2 Hr Hre Ht G1 G2 P1 P2 K1 K2.
  apply (C72_votes_partial C K faulty ∅ S0 t pub h S i1 b1 s1 i2 b2 s2 k); try done.
  - intros h1 i n o h2 S' nd E. exfalso. apply (Hre i n o). rewrite E. apply elem_of_app. right. left.
  - intros h1 i n o h2 S' nd E. exfalso. apply (Hre i n o). rewrite E. apply elem_of_app. right. left.
  - rewrite (right_id_L ∅ (∪)). exact Ht.
Qed.
(** C72 is false as stated: in a 2-of-3 cluster one host that crashes before its file is written signs
    again, and the other two hand out valid signatures for two conflicting precommits. (Here
    2t = n + 1: the bound above is exact.) *)
Theorem C72_crash_refuted : exists C K S0 t pub h S i1 b1 s1 i2 b2 s2 k,
  set_up K S0 t pub /\ first_start S0 /\ first_files S0 /\ srun C K ∅ S0 h S /\
  2 * t = Z.of_nat (size (sy_hosts S0)) + 1 /\ size (restarted h) = 1%nat /\
  handed_out h i1 b1 s1 /\ handed_out h i2 b2 s2 /\
  h_step (b_hrs b1) <> stepPropose /\ h_step (b_hrs b2) <> stepPropose /\
  bytes_for (b_sb b1) k /\ bytes_for (b_sb b2) k /\
  cr_verify C pub (b_sb b1) s1 = true /\ cr_verify C pub (b_sb b2) s2 = true /\
  ~ same_message_but_time (b_sb b1) (b_sb b2).
Proof.
  destruct one_crash_facts as (h & S & s1 & s2 & Hr & Hc & G1 & G2 & V1 & V2).
  exists toy, kconf, sys0, 2, (toy_enc 1), h, S, 1, fb, s1, 3, fbB, s2, (HRS 11 0 3).
  split; [exact sys0_set_up|]. split; [exact sys0_first|]. split; [exact sys0_files|]. split; [exact Hr|].
  split; [rewrite sys0_size; reflexivity|]. split; [rewrite Hc; apply size_singleton|].
  split; [exact G1|]. split; [exact G2|]. split; [discriminate|]. split; [discriminate|].
  split; [exists 1600000000000000001; vm_compute; reflexivity|].
  split; [exists 1600000000000000001; vm_compute; reflexivity|].
  split; [exact V1|]. split; [exact V2|]. exact wsb_not_same.
Qed.

(** a history that meets the hypotheses: one vote signed, replicated, passed on by a follower; files
    written, all hosts restarted and the log replayed; then a retry at a new leader is answered from
    its record and a conflicting vote is refused *)
Example C72_example :
  set_up kconf sys0 2 (toy_enc 1) /\ first_start sys0 /\ srun toy kconf ∅ sys0 life_hist life_end /\
  files_true toy kconf ∅ sys0 life_hist /\ shares_kept toy kconf ∅ sys0 ∅ life_hist /\ 2 * 2 > Z.of_nat (size (sy_hosts sys0) + size (∅ ∪ ∅ : gset Z)) /\
  map (fun x => (fst x, r_sig (snd x))) (returns life_hist) =
    [(1, Some (sig_of 11 x0a 1)); (2, Some (sig_of 11 x0a 1)); (3, Some (sig_of 11 x0a 1)); (3, None)].
Proof.
  split; [exact sys0_set_up|]. split; [exact sys0_first|]. destruct life_facts as (H1 & H2 & H3).
  apply good_kept in H2 as [H2 H2'].
  split; [exact H1|]. split; [exact H2'|]. split; [exact H2|]. split; [rewrite sys0_size; vm_compute; reflexivity|exact H3].
Qed.

(** a cluster of two in which host 2 loses its state and signs two conflicting votes: still only one of
    them can get a signature *)
Example C72_loss_example : exists h S sig,
  set_up kconf2 sys2 2 (toy_enc 1) /\ first_start sys2 /\ first_files sys2 /\ srun toy kconf2 ∅ sys2 h S /\
  2 * 2 > Z.of_nat (size (sy_hosts sys2) + size (∅ ∪ restarted h)) /\
  handed_out h 1 fb sig /\ gave h 2 (b_sb fb) /\ gave h 2 (b_sb fbB) /\ ~ same_message_but_time (b_sb fb) (b_sb fbB).
Proof.
  destruct one_lost_facts as (h & S & sig & Hr & Hc & G1 & G2 & G3). exists h, S, sig.
  split; [exact sys2_set_up|]. split; [exact sys2_first|]. split; [exact sys2_files|]. split; [exact Hr|].
  split; [rewrite Hc; vm_compute; reflexivity|]. split; [exact G1|]. split; [exact G2|]. split; [exact G3|exact wsb_not_same].
Qed.

Print Assumptions C72_signatures.
Print Assumptions C72_few_restarts_partial.
Print Assumptions C72_supported_partial.
Print Assumptions C72_agree_partial.
Print Assumptions C72_votes_partial.
Print Assumptions C72_no_restart_partial.
Print Assumptions C72_crash_refuted.
