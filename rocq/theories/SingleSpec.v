(** What chain nodes read from a single signer (C87). *)
From Verif Require Import GoBase Wire Canonical Privval RemoteSigner PrivvalSpec ConnLoop FilePV Single SocketSpec.
Local Open Scope nat_scope.

(** what remote signer [i] did in life [k] of the process *)
Fixpoint of_signer (k i : nat) (h : list sobs) : list lobs :=
  match h with
  | [] => []
  | (k', i', o) :: h' => if Nat.eqb k' k && Nat.eqb i' i then o :: of_signer k i h' else of_signer k i h'
  end.
(** a chain node read [m] from connection [c] of that signer *)
Definition read_from (h : list sobs) (k i c : nat) (m : message) : Prop :=
  exists ms rest, reads (received c (of_signer k i h)) ms rest /\ m ∈ ms.
(** no answer has 2^63 bytes *)
Definition all_fit (h : list sobs) : Prop := forall k i, answers_fit (of_signer k i h).
(** a chain node got this vote or proposal signed, in life [k] *)
Definition got_vote (h : list sobs) (k : nat) (v : pvote) : Prop :=
  exists i c, read_from h k i c (SignedVoteResponse v None).
Definition got_proposal (h : list sobs) (k : nat) (p : pprop) : Prop :=
  exists i c, read_from h k i c (SignedProposalResponse p None).

(** one vote per height, round and type, one proposal per height and round; all of it the same, the
    timestamp and the signature included *)
Definition one_vote (v w : pvote) : Prop :=
  v_type (pv_vote v) = v_type (pv_vote w) -> v_height (pv_vote v) = v_height (pv_vote w) ->
  v_round (pv_vote v) = v_round (pv_vote w) -> pv_vote v = pv_vote w /\ pv_sig v = pv_sig w.
Definition one_proposal (p q : pprop) : Prop :=
  p_height (pp_prop p) = p_height (pp_prop q) -> p_round (pp_prop p) = p_round (pp_prop q) ->
  pp_prop p = pp_prop q /\ pp_sig p = pp_sig q.
(** the signature is one of the sign bytes of the message *)
Definition vote_signed (key : bytes -> option bytes) (chain : bytes) (v : pvote) : Prop :=
  exists sb, vote_sign_bytes chain (pv_vote v) = Val sb /\ key sb = Some (pv_sig v).
Definition proposal_signed (key : bytes -> option bytes) (chain : bytes) (p : pprop) : Prop :=
  exists sb, proposal_sign_bytes chain (pp_prop p) = Val sb /\ key sb = Some (pp_sig p).
