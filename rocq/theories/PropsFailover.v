(** C74 and C75: requests made again after a first attempt. *)
From Verif Require Import GoBase Canonical SignState Spec Crypto LocalCosigner Poly Scheme RoundSpec Validator
  Config KeyShares KeySharesSpec Toy ToyScheme Disk RaftSpec System SystemSpec SystemWitness SystemLiveSpec SystemLiveWitness
  FailoverSpec FailoverProofs FailoverWitness.
Local Open Scope Z_scope.

(** C74 where it holds: other leaders started on a request, crashed or not, and came no further than
    collecting parts from the cosigners that answer now. Then the next leader gets a valid signature. *)
Theorem C74_takes_over_partial : forall C R pub t n K faulty S0 h S j h1 S1,
  threshold_scheme C R -> 2 <= n <= rd_max R -> n <= 255 -> 1 <= t <= n -> deployed C R pub t n K ->
  job_ok R n K j -> (forall i, 1 <= i <= n -> is_Some (sy_hosts S !! i)) ->
  srun C K faulty S0 h S -> is_new C R t n K S j ->
  srun C K faulty S0 (h ++ h1) S1 -> only_collected R K j h1 ->
  exists h2 S2, srun C K faulty S0 ((h ++ h1) ++ h2) S2 /\ answered C pub h2 S2 j /\ calm h2.
Proof.
  intros C R pub t n K faulty S0 h S j h1 S1 HS Hn Hn' Ht Hd.
  exact (takes_over C R HS pub t n K Hn Hn' Ht Hd faulty S0 h S j h1 S1).
Qed.
(** a fresh 2-of-3 cluster in which host 2 led, got parts from hosts 1 and 3 and stopped *)
Example C74_example :
  deployed toy toy_reading (toy_enc 77) 2 3 kw /\ job_ok toy_reading 3 kw wjob /\ is_new toy toy_reading 2 3 kw sysw wjob /\
  srun toy kw ∅ sysw ([] ++ early_hist) early_end /\ only_collected toy_reading kw wjob early_hist /\ length early_hist = 6%nat.
Proof.
  split; [exact kw_deployed|]. split; [exact (Forall_inv wjobs_ok)|]. split; [exact sysw_new|].
  split; [apply early_facts|]. split; [exact early_only|]. pose proof (proj2 early_facts) as E.
  apply (f_equal length) in E. rewrite map_length in E. exact E.
Qed.
(** C74 is false: the leader crashes once, after one cosigner has signed. No message is lost and no
    cosigner ever answers with an error, but each of the three hosts in turn fails to assemble a valid
    signature, with every pair of cosigners; nobody gets the vote signed. *)
Theorem C74_lost_vote_refuted : exists K S0 h S b,
  set_up K S0 2 (toy_enc 1) /\ first_start S0 /\ srun toy K ∅ S0 h S /\ restarts_good toy K ∅ S0 h /\
  crashes h = [1] /\ cosigners_fine h /\ (forall i, 1 <= i <= 3 -> refused h i b EvInvalid) /\
  forall i b' sig, ~ handed_out h i b' sig.
Proof.
  destruct failover_facts as (h & S & H). exists kconf, sys0, h, S, fb.
  split; [exact sys0_set_up|]. split; [exact sys0_first|exact H].
Qed.

(** C75 where it holds: a leader that recorded a signature, and has started on its level before,
    answers the same request with it; no cosigner is asked and nothing recorded changes *)
Theorem C75_recorded_partial : forall C K faulty S0 h S i m b sig,
  srun C K faulty S0 h S -> sy_hosts S !! i = Some m -> hrs_fits (b_hrs b) = true ->
  recorded_as (ho_val m) b sig -> ~ hrs_lt (ss_hrs (vs_init (ho_val m))) (b_hrs b) ->
  exists h' m', srun C K faulty S0 (h ++ h') (upd S i m') /\ handed_out h' i b sig /\
    (forall e o, (e, o) ∈ h' -> exists op, e = EVal i op) /\
    vs_lss (ho_val m') = vs_lss (ho_val m) /\ vs_init (ho_val m') = vs_init (ho_val m) /\ ho_cos m' = ho_cos m.
Proof. exact again. Qed.
(** the host that signed is in such a state *)
Example C75_example : exists m,
  srun toy kconf ∅ sys0 signed_hist signed_end /\ sy_hosts signed_end !! 1 = Some m /\ hrs_fits (b_hrs fb) = true /\
  recorded_as (ho_val m) fb fsig /\ ss_hrs (vs_init (ho_val m)) = b_hrs fb.
Proof. exact signed_one. Qed.
(** C75 is false for a new leader: every host has recorded the replicated signature, no host crashed,
    but host 3 starts a new signing round when it is asked as leader, and fails *)
Theorem C75_new_leader_refuted : exists K S0 h1 S1 h2 S2 b sig,
  set_up K S0 2 (toy_enc 1) /\ first_start S0 /\
  srun toy K ∅ S0 h1 S1 /\ handed_out h1 1 b sig /\ cr_verify toy (toy_enc 1) (b_sb b) sig = true /\
  (forall i m, sy_hosts S1 !! i = Some m -> recorded_as (ho_val m) b sig) /\
  srun toy K ∅ S0 (h1 ++ h2) S2 /\ crashes (h1 ++ h2) = [] /\ cosigners_fine (h1 ++ h2) /\ refused h2 3 b EvInvalid.
Proof.
  destruct signed_facts as (H1 & H2 & H3 & H4). destruct again_facts as (h2 & S2 & H).
  exists kconf, sys0, signed_hist, signed_end, h2, S2, fb, fsig.
  split; [exact sys0_set_up|]. split; [exact sys0_first|].
  split; [exact H1|]. split; [exact H2|]. split; [exact H3|]. split; [exact H4|exact H].
Qed.
(** C75 is false for a vote that was signed with a second timestamp: the same host, asked again,
    gets an answer from another cosigner and fails *)
Theorem C75_second_timestamp_refuted : exists K S0 h1 S1 h2 S2 b sig,
  set_up K S0 2 (toy_enc 1) /\ first_start S0 /\
  srun toy K ∅ S0 h1 S1 /\ handed_out h1 1 b sig /\ cr_verify toy (toy_enc 1) (b_sb b) sig = true /\
  srun toy K ∅ S0 (h1 ++ h2) S2 /\ crashes (h1 ++ h2) = [] /\ cosigners_fine (h1 ++ h2) /\ refused h2 1 b EvInvalid.
Proof.
  destruct resigned_facts as (H1 & H2 & H3). destruct stamp_facts as (h2 & S2 & H).
  exists kconf, sys0, resigned_hist, resigned_end, h2, S2, fb2, fsig2.
  split; [exact sys0_set_up|]. split; [exact sys0_first|]. split; [exact H1|]. split; [exact H2|]. split; [exact H3|exact H].
Qed.

Print Assumptions C74_takes_over_partial.
Print Assumptions C74_lost_vote_refuted.
Print Assumptions C75_recorded_partial.
Print Assumptions C75_new_leader_refuted.
Print Assumptions C75_second_timestamp_refuted.
