(** Specification vocabulary for key creation and end-to-end signing (C53-C56, C66, C67). *)
From Verif Require Import GoBase Canonical CanonicalApi SignState Spec Crypto LocalCosigner Poly Scheme
  RoundSpec Validator Config ConfigSpec KeyShares.
Local Open Scope Z_scope.

(** [n] keys with IDs 1..n for one validator; everybody lists the same RSA public keys, and the one
    listed for a cosigner is that of its own key pair *)
Definition key_set (pub : bytes) (n : Z) (ks : list cosigner_key) : Prop :=
  Z.of_nat (length ks) = n /\
  forall i k, ks !! i = Some k ->
    ck_id k = Z.of_nat i + 1 /\ ck_pub k = pub /\ Z.of_nat (length (ck_keys k)) = n /\
    forall j k', ks !! j = Some k' -> ck_keys k !! j = Some (ck_rsa_pub k').

(** [pub] is the public key of the scalar [s] *)
Definition key_pair (R : reading) (s pub : bytes) : Prop :=
  rd_is_scalar R s /\ rd_is_point R pub /\ rd_point R pub = mmul (rd_scalar R s) (rd_base R).

(** every generated RSA key works *)
Definition rsa_works (C : Crypto) (R : reading) (gens : nat -> option (bytes * bytes)) : Prop :=
  forall i sk pk, gens i = Some (sk, pk) -> rsa_pair C R sk pk.

(** cosigner [i] of a [t]-of-[n] cluster: its configuration lists all others, and it runs with the
    [i]-th key *)
Definition runs_as (L : Lib) (ks : list cosigner_key) (n t i : Z) (c : config) (r : running) : Prop :=
  exists s k, cf_cosigner c = Some s /\ co_threshold s = t /\
    Permutation (i :: map pe_id (co_peers s)) (seqZ 1 n) /\
    ks !! Z.to_nat (i - 1) = Some k /\ start_cosigner L c k = Some r.

(** a request whose height, round, step and time the cosigners read back from the sign bytes *)
Inductive signable : bytes -> block -> Prop :=
| SgVote chain v b :
    vote_in_range chain v -> in_int64 (nanos_of (v_ts v)) -> ~ reads_as_proposal chain v ->
    vote_block chain v = Val b -> signable chain b
| SgProposal chain p b :
    proposal_in_range chain p -> in_int64 (nanos_of (p_ts p)) ->
    proposal_block chain p = Val b -> signable chain b.
