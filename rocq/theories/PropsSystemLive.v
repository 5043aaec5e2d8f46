(** C73: a healthy cluster of at least two cosigners keeps signing. *)
From Verif Require Import GoBase Canonical SignState Spec Crypto LocalCosigner Poly Scheme RoundSpec Validator
  Config KeyShares KeySharesSpec Toy ToyScheme Disk RaftSpec System SystemSpec SystemLiveSpec SystemLive SystemLiveWitness.
Local Open Scope Z_scope.

(** C73, one request: in any state of the cluster, after any history, a request that is above what
    its leader and the [t] cosigners that answer recorded is answered with a valid signature, which is
    handed to raft, whatever the order of messages *)
Theorem C73_signs : forall C R pub t n K faulty S0 h S j w,
  threshold_scheme C R -> 2 <= n <= rd_max R -> n <= 255 -> 1 <= t <= n -> deployed C R pub t n K ->
  (forall i, 1 <= i <= n -> is_Some (sy_hosts S !! i)) ->
  srun C K faulty S0 h S -> job_ok R n K j -> is_new C R t n K S j ->
  exists h' S' e c, srun C K faulty S0 (h ++ h') S' /\ answered C pub h' S' j /\ calm h' /\
    (forall i, is_Some (sy_hosts S !! i) <-> is_Some (sy_hosts S' !! i)) /\
    sy_log S' = sy_log S ++ [e] /\ event_of e = Some c /\ c_hrs c = b_hrs (jb_block j) /\
    (hrs_le (b_hrs (jb_block j)) w -> all_below w S -> all_below w S').
Proof. intros C R pub t n K faulty S0 h S j w HS Hn Hn' Ht Hd. exact (sign_once C R HS pub t n K Hn Hn' Ht Hd faulty S0 h S j w). Qed.
(** C73, any number of requests: rising requests, each to any host as leader and with any [t]
    cosigners answering, are all answered with valid signatures without a restart; every host ends with
    its validator and its cosigner at the level of the last request *)
Theorem C73_keeps_signing : forall C R pub t n K faulty S0 js h S w,
  threshold_scheme C R -> 2 <= n <= rd_max R -> n <= 255 -> 1 <= t <= n -> deployed C R pub t n K ->
  applied_ok S0 -> (forall i, is_Some (sy_hosts S !! i) <-> 1 <= i <= n) -> srun C K faulty S0 h S ->
  Forall (job_ok R n K) js -> all_below w S -> rising w js ->
  exists h' S', srun C K faulty S0 (h ++ h') S' /\ Forall (answered C pub h' S') js /\
    (forall i k o, (ERestart i k, o) ∉ h') /\ (forall e, e ∈ sy_log S -> e ∈ sy_log S') /\
    all_below (last_level w js) S' /\ (js <> [] \/ in_step w S -> in_step (last_level w js) S').
Proof.
  intros C R pub t n K faulty S0 js h S w HS Hn Hn' Ht Hd.
  exact (sign_many C R HS pub t n K Hn Hn' Ht Hd faulty S0 js h S w).
Qed.
(** C73, raft: any host can apply the rest of the log, and is then at least at the level of every
    event in it *)
Theorem C73_catches_up : forall C K faulty S0 h S i m w,
  srun C K faulty S0 h S -> applied_ok S0 -> sy_hosts S !! i = Some m ->
  exists h' m', srun C K faulty S0 (h ++ h') (upd S i m') /\ applies i h' /\ ho_applied m' = length (sy_log S) /\
    hrs_le (ss_hrs (vs_lss (ho_val m))) (ss_hrs (vs_lss (ho_val m'))) /\
    hrs_le (ss_hrs (cs_lss (cn_cos (ho_cos m)))) (ss_hrs (cs_lss (cn_cos (ho_cos m')))) /\
    (forall e c, e ∈ drop (ho_applied m) (sy_log S) -> event_of e = Some c ->
       hrs_le (c_hrs c) (ss_hrs (vs_lss (ho_val m'))) /\ hrs_le (c_hrs c) (ss_hrs (cs_lss (cn_cos (ho_cos m'))))) /\
    (all_below w S -> all_below w (upd S i m')).
Proof.
  intros C K faulty S0 h S i m w Hr H0 Hm. apply (catch_up C K faulty S0 (length (sy_log S) - ho_applied m)); [done|done|].
  pose proof (applied_inv C K faulty S0 h S H0 Hr i m Hm). lia.
Qed.

(** the hypotheses hold for a fresh 2-of-3 cluster and two precommits, the first led by host 1 and
    signed by 3 and 1, the second led by host 2 and signed by 1 and 2 *)
Example C73_example :
  threshold_scheme toy toy_reading /\ 2 <= 3 <= rd_max toy_reading /\ deployed toy toy_reading (toy_enc 77) 2 3 kw /\
  applied_ok sysw /\ (forall i, is_Some (sy_hosts sysw !! i) <-> 1 <= i <= 3) /\ srun toy kw ∅ sysw [] sysw /\
  Forall (job_ok toy_reading 3 kw) wjobs /\ all_below (HRS 0 0 0) sysw /\ rising (HRS 0 0 0) wjobs /\
  map (participants kw) wjobs = [[3; 1]; [1; 2]].
Proof.
  split; [exact toy_scheme|]. split; [simpl; lia|]. split; [exact kw_deployed|].
  split; [intros i m Hm; apply sysw_host in Hm as ->; simpl; lia|]. split; [exact sysw_hosts|]. split; [constructor|].
  split; [exact wjobs_ok|]. split; [exact sysw_below|]. split; [exact wjobs_rising|exact wjobs_participants].
Qed.

Print Assumptions C73_signs.
Print Assumptions C73_keeps_signing.
Print Assumptions C73_catches_up.
