(** C84: what chain nodes read from the sockets of a cluster. *)
From Verif Require Import GoBase Wire Canonical CanonicalProofs CanonicalApi SignState Spec Crypto LocalCosigner CosignerSpec Toy
  CosignerWitness Validator ValidatorSpec ValidatorWitness Privval RemoteSigner PrivvalSpec ConnLoop ConnLoopSpec Disk DiskSpec
  System SystemSpec SystemProofs SystemWitness FailoverWitness SystemLossWitness
  Poly Scheme RoundSpec Json Config ConfigSpec KeyFile KeyFileSpec KeyShares KeySharesSpec SystemLiveSpec Startup StartupSpec
  Machine MachineSpec MachineProofs PropsSystem PropsMachine SocketSpec SocketProofs SocketWitness.
Local Open Scope list_scope.
Local Open Scope Z_scope.

(** C84 is false as stated. One host loses the state it has in memory when it crashes (C72): both
    precommits are read from sockets, by nodes connected to two other hosts, and their signatures verify *)
Theorem C84_crash_refuted : exists C K S0 t pub chain h S i1 v1 sb1 i2 v2 sb2,
  set_up K S0 t pub /\ first_start S0 /\ srun C K ∅ S0 h S /\
  2 * t = Z.of_nat (size (sy_hosts S0)) + 1 /\ size (restarted h) = 1%nat /\
  vote_read chain pub h i1 v1 /\ vote_read chain pub h i2 v2 /\
  vote_sign_bytes chain (pv_vote v1) = Val sb1 /\ vote_sign_bytes chain (pv_vote v2) = Val sb2 /\
  cr_verify C pub sb1 (pv_sig v1) = true /\ cr_verify C pub sb2 (pv_sig v2) = true /\
  double_vote (pv_vote v1) (pv_vote v2).
Proof.
  destruct crash_votes as (h & S & s1 & s2 & Hr & Hc & R1 & R2 & V1 & V2).
  exists toy, kconf, sys0, 2, (toy_enc 1), irishub, h, S, 1, (sock (wvote 11 x0a 1) s1), (b_sb fb), 3, (sock (wvote 11 x0b 1) s2), (b_sb fbB).
  split; [exact sys0_set_up|]. split; [exact sys0_first|]. split; [exact Hr|]. split; [rewrite sys0_size; reflexivity|].
  split; [rewrite Hc; apply size_singleton|]. split; [exact R1|]. split; [exact R2|].
  split; [vm_compute; reflexivity|]. split; [vm_compute; reflexivity|]. split; [exact V1|]. split; [exact V2|].
  split; [reflexivity|]. split; [reflexivity|]. split; [reflexivity|]. intros E. discriminate E.
Qed.
(** nor without any crash, fault or loss: a precommit for nil with the timestamp 1970-01-01 is taken
    for a proposal by the cosigners (C18), which then do not see that it conflicts *)
Theorem C84_epoch_refuted : exists C K S0 t pub chain h S i1 v1 sb1 i2 v2 sb2,
  set_up K S0 t pub /\ first_start S0 /\ srun C K ∅ S0 h S /\ (forall i n o, (ERestart i n, o) ∉ h) /\
  2 * t > Z.of_nat (size (sy_hosts S0)) /\
  vote_read chain pub h i1 v1 /\ vote_read chain pub h i2 v2 /\
  vote_sign_bytes chain (pv_vote v1) = Val sb1 /\ vote_sign_bytes chain (pv_vote v2) = Val sb2 /\
  cr_verify C pub sb1 (pv_sig v1) = true /\ cr_verify C pub sb2 (pv_sig v2) = true /\
  double_vote (pv_vote v1) (pv_vote v2).
Proof.
  destruct epoch_facts as (h & S & s1 & s2 & Hr & Hc & R1 & R2 & V1 & V2).
  exists toy, kconf, sys0, 2, (toy_enc 1), irishub, h, S, 1, (sock nil_vote s1), (b_sb nil_block), 3, (sock (wvote 11 x0b 1) s2), (b_sb fbB).
  split; [exact sys0_set_up|]. split; [exact sys0_first|]. split; [exact Hr|]. split; [exact Hc|].
  split; [rewrite sys0_size; reflexivity|]. split; [exact R1|]. split; [exact R2|].
  split; [vm_compute; reflexivity|]. split; [vm_compute; reflexivity|]. split; [exact V1|]. split; [exact V2|].
  split; [reflexivity|]. split; [reflexivity|]. split; [reflexivity|]. intros E. discriminate E.
Qed.
(** C84 otherwise: whatever chain nodes send to whatever hosts on whatever connections, and whatever
    fails, no two signed votes they read are a double vote, if the cosigners that are faulty or lost
    state in a restart are few enough and no vote reads as a proposal *)
Theorem C84_votes_partial : forall C K faulty lossy S0 t pub chain h S i1 v1 i2 v2,
  set_up K S0 t pub -> first_start S0 -> srun C K faulty S0 h S ->
  files_true C K faulty S0 h -> shares_kept C K faulty S0 lossy h ->
  2 * t > Z.of_nat (size (sy_hosts S0) + size (faulty ∪ lossy)) -> Z.of_nat (length chain) < 2 ^ 62 ->
  vote_read chain pub h i1 v1 -> vote_read chain pub h i2 v2 ->
  ~ reads_as_proposal chain (pv_vote v1) -> ~ reads_as_proposal chain (pv_vote v2) ->
  ~ double_vote (pv_vote v1) (pv_vote v2).
Proof.
  intros C K faulty lossy S0 t pub chain h S i1 v1 i2 v2 H1 H2 H3 H4 H5 H6 H7.
  exact (no_double_vote C K faulty lossy S0 S t pub h H1 H2 H3 H4 chain H7 i1 v1 i2 v2 H5 H6).
Qed.
(** in particular if no host restarts *)
Theorem C84_no_restart_partial : forall C K faulty S0 t pub chain h S i1 v1 i2 v2,
  set_up K S0 t pub -> first_start S0 -> srun C K faulty S0 h S -> (forall i n o, (ERestart i n, o) ∉ h) ->
  2 * t > Z.of_nat (size (sy_hosts S0) + size faulty) -> Z.of_nat (length chain) < 2 ^ 62 ->
  vote_read chain pub h i1 v1 -> vote_read chain pub h i2 v2 ->
  ~ reads_as_proposal chain (pv_vote v1) -> ~ reads_as_proposal chain (pv_vote v2) ->
  ~ double_vote (pv_vote v1) (pv_vote v2).
Proof.
  intros C K faulty S0 t pub chain h S i1 v1 i2 v2 H1 H2 H3 Hre Ht H7.
  apply (C84_votes_partial C K faulty ∅ S0 t pub chain h S i1 v1 i2 v2); try done.
  - intros h1 i n o h2 S' nd E. exfalso. apply (Hre i n o). rewrite E. apply elem_of_app. right. left.
  - intros h1 i n o h2 S' nd E. exfalso. apply (Hre i n o). rewrite E. apply elem_of_app. right. left.
  - rewrite (right_id_L ∅ (∪)). exact Ht.
Qed.
(** a signed vote that is read verifies under the key of the cluster, for its own sign bytes (so its
    timestamp, too, is the one that was signed), which a threshold of cosigners signed *)
Theorem C84_vote_verifies_partial : forall C K faulty S0 t pub chain h S i v,
  set_up K S0 t pub -> first_start S0 -> srun C K faulty S0 h S -> files_true C K faulty S0 h ->
  Z.of_nat (length chain) < 2 ^ 62 -> vote_read chain pub h i v ->
  exists sb, vote_sign_bytes chain (pv_vote v) = Val sb /\ cr_verify C pub sb (pv_sig v) = true /\ supported S0 t faulty h sb.
Proof.
  intros C K faulty S0 t pub chain h S i v H1 H2 H3 H4 H5.
  exact (vote_verifies C K faulty S0 S t pub h H1 H2 H3 H4 chain H5 i v).
Qed.
(** every signature that is read, of votes and proposals, whatever happened to files, is one over bytes
    that a threshold of cosigners signed (for proposals perhaps not the bytes asked for: C26) *)
Theorem C84_signatures : forall C K faulty S0 t pub chain h S i sig,
  set_up K S0 t pub -> first_start S0 -> first_files S0 -> srun C K faulty S0 h S -> Z.of_nat (length chain) < 2 ^ 62 ->
  (exists v, vote_read chain pub h i v /\ sig = pv_sig v) \/ (exists p, proposal_read chain pub h i p /\ sig = pp_sig p) ->
  exists m, cr_verify C pub m sig = true /\ supported S0 t faulty h m.
Proof.
  intros C K faulty S0 t pub chain h S i sig H1 H2 Hf H3 Hc [(v & Hv & ->)|(p & Hp & ->)].
  - destruct (read_vote _ _ _ _ _ _ H3 _ _ Hc _ _ Hv) as (sb & _ & _ & _ & G).
    exact (C72_signatures _ _ _ _ _ _ _ _ H1 H2 Hf H3 _ _ _ G).
  - destruct (read_proposal _ _ _ _ _ _ H3 _ _ Hc _ _ Hp) as (sb & _ & _ & G).
    exact (C72_signatures _ _ _ _ _ _ _ _ H1 H2 Hf H3 _ _ _ G).
Qed.
(** and the key that nodes read is the one the signatures verify under *)
Theorem C84_pub_key : forall C K faulty S0 pub chain h S i k e,
  srun C K faulty S0 h S -> node_read chain pub h i (PubKeyResponse k e) -> k = PkEd25519 pub /\ e = None.
Proof.
  intros C K faulty S0 pub chain h S i k e H. apply (read_pub_key C K faulty S0 S h H chain pub).
Qed.
(** all of it for a cluster set up with the commands (C79), for any plan *)
Theorem C84_set_up_partial : forall C R expand rnd gens L KL dflt P pub sk f ta na wr l r h faulty chain hist S i1 v1 i2 v2,
  deals C -> codec KL -> plan_ok L P -> length pub = 32%nat -> decimal ta (pl_t P) -> decimal na (pl_n P) ->
  rsa_works C R gens -> key_pair R (expand (take 32 sk)) pub ->
  create_cmd C expand rnd gens wr (Some (Some (PVKey (Some pub) (Some sk)))) [f; ta; na] = Val (l, None) ->
  (forall i, 1 <= i <= pl_n P -> started L KL dflt P l i (r i) (h i)) ->
  let K := SysConf (fun i => ru_val (r i)) (fun i => ru_cos (r i)) in
  2 * pl_t P > pl_n P + Z.of_nat (size faulty) -> Z.of_nat (length chain) < 2 ^ 62 ->
  srun C K faulty (cluster P h) hist S -> (forall i n o, (ERestart i n, o) ∉ hist) ->
  vote_read chain pub hist i1 v1 -> vote_read chain pub hist i2 v2 ->
  ~ reads_as_proposal chain (pv_vote v1) -> ~ reads_as_proposal chain (pv_vote v2) ->
  ~ double_vote (pv_vote v1) (pv_vote v2).
Proof.
  intros C R expand rnd gens L KL dflt P pub sk f ta na wr l r h faulty chain hist S i1 v1 i2 v2
    HC HK HP Hp Hta Hna Hg Hkp Hcmd Hst K Hq Hch Hrun Hre.
  destruct (C79_cluster C R expand rnd gens L KL dflt P pub sk f ta na wr l r h HC HK HP Hp Hta Hna Hg Hkp Hcmd Hst)
    as (_ & Hsu & Hfs & _).
  refine (C84_no_restart_partial C K faulty (cluster P h) (pl_t P) pub chain hist S i1 v1 i2 v2 Hsu Hfs Hrun Hre _ Hch).
  rewrite Nat2Z.inj_add, (cluster_size L KL dflt P HP pub Hp l r h Hst). lia.
Qed.
(** conversely nodes can read whatever a host hands out *)
Theorem C84_can_read : forall C K faulty S0 h S i chain pub v b sig,
  srun C K faulty S0 h S -> handed_out h i b sig -> vote_block chain v = Val b -> sig <> [] ->
  pvote_ok (PVote v [] 0 []) -> fits_msg (SignVoteRequest (Some (PVote v [] 0 [])) chain) ->
  fits_msg (SignedVoteResponse (PVote v [] 0 sig) None) -> vote_read chain pub h i (PVote v [] 0 sig).
Proof. exact can_read. Qed.

(** the history of C72_example: the vote is read from host 1, and after all hosts restarted from host 3 *)
Example C84_example :
  set_up kconf sys0 2 (toy_enc 1) /\ first_start sys0 /\ first_files sys0 /\ srun toy kconf ∅ sys0 life_hist life_end /\
  files_true toy kconf ∅ sys0 life_hist /\ shares_kept toy kconf ∅ sys0 ∅ life_hist /\
  2 * 2 > Z.of_nat (size (sy_hosts sys0) + size (∅ ∪ ∅ : gset Z)) /\ Z.of_nat (length irishub) < 2 ^ 62 /\
  vote_read irishub (toy_enc 1) life_hist 1 (sock (wvote 11 x0a 1) fsig) /\
  vote_read irishub (toy_enc 1) life_hist 3 (sock (wvote 11 x0a 1) fsig) /\
  ~ reads_as_proposal irishub (wvote 11 x0a 1).
Proof.
  split; [exact sys0_set_up|]. split; [exact sys0_first|]. split; [exact sys0_files|]. destruct life_facts as (H1 & H2 & _).
  apply good_kept in H2 as [H2 H2']. split; [exact H1|]. split; [exact H2'|]. split; [exact H2|].
  split; [rewrite sys0_size; vm_compute; reflexivity|]. split; [reflexivity|]. destruct life_votes as [V1 V3].
  split; [exact V1|]. split; [exact V3|]. intros [E _]. discriminate E.
Qed.

Print Assumptions C84_crash_refuted.
Print Assumptions C84_epoch_refuted.
Print Assumptions C84_votes_partial.
Print Assumptions C84_no_restart_partial.
Print Assumptions C84_vote_verifies_partial.
Print Assumptions C84_signatures.
Print Assumptions C84_pub_key.
Print Assumptions C84_set_up_partial.
Print Assumptions C84_can_read.
