(** What chain nodes read from the connections of the hosts of a cluster. *)
From Verif Require Import GoBase Wire Canonical SignState Validator Privval RemoteSigner PrivvalSpec ConnLoop ConnLoopSpec
  System SystemSpec.
Local Open Scope Z_scope.

(** the bytes written to connection [c] *)
Fixpoint received (c : nat) (tr : list lobs) : bytes :=
  match tr with
  | [] => []
  | OOut c' bs :: tr => if Nat.eqb c' c then bs ++ received c tr else received c tr
  | _ :: tr => received c tr
  end.

(** [s] asks the validator of host [i] in the history [h]: what it takes for a result of SignBlock
    was one *)
Definition asks_host (h : history) (i : Z) (pub : bytes) (s : signer) : Prop :=
  exists answer text, s = tv_signer pub answer text /\
    forall chain b, r_err (answer chain b) = None ->
      exists op t f, (EVal i op, SVal (OReturn t b (answer chain b) f)) ∈ h.

(** no answer has 2^63 bytes *)
Definition answers_fit (tr : list lobs) : Prop :=
  forall c req res, OAsk c req res ∈ tr -> Z.of_nat (length (m_message res)) < 2 ^ 63.

(** a chain node read [m] from a connection of a remote signer of host [i] (signer/remote_signer.go):
    any number of signers, any requests on any number of connections, any failures *)
Definition node_read (chain pub : bytes) (h : history) (i : Z) (m : message) : Prop :=
  exists ls st tr c ms rest,
    lrun chain l0 ls = Some (st, tr) /\ validators (asks_host h i pub) ls /\ answers_fit tr /\
    reads (received c tr) ms rest /\ m ∈ ms.

(** a signed vote, a signed proposal *)
Definition vote_read (chain pub : bytes) (h : history) (i : Z) (v : pvote) : Prop :=
  node_read chain pub h i (SignedVoteResponse v None) /\ pv_sig v <> [].
Definition proposal_read (chain pub : bytes) (h : history) (i : Z) (p : pprop) : Prop :=
  node_read chain pub h i (SignedProposalResponse p None) /\ pp_sig p <> [].

(** evidence of a double vote (tendermint DuplicateVoteEvidence) *)
Definition double_vote (v w : vote) : Prop :=
  v_type v = v_type w /\ v_height v = v_height w /\ v_round v = v_round w /\ v_bid v <> v_bid w.

(** a message short enough for the other side (Privval.max_msg_size) *)
Definition fits_msg (m : message) : Prop := Z.of_nat (length (m_message m)) <= max_msg_size.
