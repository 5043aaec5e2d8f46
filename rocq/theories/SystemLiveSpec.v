(** Vocabulary for signing in a healthy cluster (C73). *)
From Verif Require Import GoBase Canonical SignState Spec Crypto LocalCosigner Poly Scheme RoundSpec Validator
  Config KeyShares KeySharesSpec Disk RaftSpec System SystemSpec.
Local Open Scope Z_scope.

(** the hosts run with the keys create-shares made for a [t]-of-[n] validator with public key
    [pub], each with a configuration that lists all others *)
Definition deployed (C : Crypto) (R : reading) (pub : bytes) (t n : Z) (K : sysconf) : Prop :=
  exists expand rnd gens L sk0 ks (c : Z -> config) (r : Z -> running),
    rsa_works C R gens /\ key_pair R (expand (take 32 sk0)) pub /\
    create_shares C expand rnd gens (PVKey (Some pub) (Some sk0)) t n = Val ks /\
    forall i, 1 <= i <= n -> runs_as L ks n t i (c i) (r i) /\ sc_val K i = ru_val (r i) /\ sc_cos K i = ru_cos (r i).

(** A request [jb_block] to the host [jb_leader] while it leads, and what is up to the scheduler, the
    network and the random generators: the peers that answer first, the order in which cosigner [i]
    makes its parts and with which randomness, the order of the signing requests and the answers, and
    the order in which the goroutine for a participant visits the parts. *)
Record job := Job {
  jb_block : block; jb_leader : Z; jb_peers : list nat; jb_rnd : Z -> list (Z * get_rnd);
  jb_asked : list nat; jb_ans : list nat; jb_order : nat -> list nat }.
Definition jb_all (j : job) : list nat := jb_peers j ++ [0%nat].
(** share IDs of those who take part *)
Definition participants (K : sysconf) (j : job) : list Z := map (idw (sc_val K (jb_leader j))) (jb_all j).
Definition job_ok (R : reading) (n : Z) (K : sysconf) (j : job) : Prop :=
  (exists chain, signable chain (jb_block j)) /\ 1 <= jb_leader j <= n /\
  quorum (sc_val K (jb_leader j)) (jb_peers j) /\
  (forall i, i ∈ participants K j -> asks_all R n (jb_rnd j i)) /\
  Permutation (jb_asked j) (jb_all j) /\ Permutation (jb_ans j) (jb_all j) /\
  forall w, w ∈ jb_all j -> Permutation (jb_order j w) (jb_all j).

(** the request is above what its leader and the participants recorded, and no participant holds
    parts of others for it yet *)
Definition is_new (C : Crypto) (R : reading) (t n : Z) (K : sysconf) (S : system) (j : job) : Prop :=
  (forall m, sy_hosts S !! jb_leader j = Some m ->
     hrs_lt (ss_hrs (vs_init (ho_val m))) (b_hrs (jb_block j)) /\
     hrs_lt (ss_hrs (vs_lss (ho_val m))) (b_hrs (jb_block j))) /\
  forall i m, i ∈ participants K j -> sy_hosts S !! i = Some m ->
    ready C R n t i (cn_cos (ho_cos m)) (b_key (jb_block j)).

(** nothing any host recorded, and no event in the raft log, is above [w] *)
Definition all_below (w : hrs) (S : system) : Prop :=
  (forall e c, e ∈ sy_log S -> event_of e = Some c -> hrs_le (c_hrs c) w) /\
  forall i n, sy_hosts S !! i = Some n ->
    hrs_le (ss_hrs (vs_init (ho_val n))) w /\ hrs_le (ss_hrs (vs_lss (ho_val n))) w /\
    hrs_le (ss_hrs (cs_lss (cn_cos (ho_cos n)))) w /\
    forall k, is_Some (cs_meta (cn_cos (ho_cos n)) !! k) -> hrs_le (ht_hrs k) w.

(** each request is above the one before *)
Fixpoint rising (w : hrs) (js : list job) : Prop :=
  match js with
  | [] => True
  | j :: js' => hrs_lt w (b_hrs (jb_block j)) /\ rising (b_hrs (jb_block j)) js'
  end.
Fixpoint last_level (w : hrs) (js : list job) : hrs :=
  match js with [] => w | j :: js' => last_level (b_hrs (jb_block j)) js' end.

(** in [h] the host answered the request with a valid signature, which raft was given *)
Definition answered (C : Crypto) (pub : bytes) (h : history) (S : system) (j : job) : Prop :=
  exists sig, handed_out h (jb_leader j) (jb_block j) sig /\
    cr_verify C pub (b_sb (jb_block j)) sig = true /\
    Raft.emit_entry (SSC (b_hrs (jb_block j)) (Some sig) (Some (b_sb (jb_block j)))) ∈ sy_log S.

(** every validator and every cosigner has recorded exactly the level [w] *)
Definition in_step (w : hrs) (S : system) : Prop :=
  forall i n, sy_hosts S !! i = Some n ->
    ss_hrs (vs_lss (ho_val n)) = w /\ ss_hrs (cs_lss (cn_cos (ho_cos n))) = w /\
    ho_applied n = length (sy_log S).

(** neither restarts nor raft entries applied *)
Definition calm (h : history) : Prop := forall i k o, (ERestart i k, o) ∉ h /\ (EApply i, o) ∉ h.

(** only raft entries applied by host [i] *)
Definition applies (i : Z) (h : history) : Prop := forall x, x ∈ h -> x = (EApply i, SNone).

(** no host is past the end of the raft log *)
Definition applied_ok (S : system) : Prop :=
  forall i m, sy_hosts S !! i = Some m -> (ho_applied m <= length (sy_log S))%nat.
