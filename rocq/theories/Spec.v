(** Specification vocabulary used by the property statements; independent of how the model
    computes. *)
From Verif Require Import GoBase Canonical SignState.

(** lexicographic order on height/round/step *)
Definition hrs_lt (a b : hrs) : Prop :=
  h_height a < h_height b \/
  (h_height a = h_height b /\
   (h_round a < h_round b \/ (h_round a = h_round b /\ h_step a < h_step b))).
Definition hrs_le (a b : hrs) : Prop := hrs_lt a b \/ a = b.

Global Instance hrs_lt_dec a b : Decision (hrs_lt a b).
Proof. unfold hrs_lt. apply _. Defined.

(** the sub-list of records that were strictly above everything before them, starting from
    watermark [w] *)
Fixpoint record_highs (w : hrs) (l : list consensus) : list consensus :=
  match l with
  | [] => []
  | c :: l' =>
      if decide (hrs_lt w (c_hrs c)) then c :: record_highs (c_hrs c) l'
      else record_highs w l'
  end.

(** the highest of [w] and the records of [l] *)
Fixpoint hrs_max (w : hrs) (l : list hrs) : hrs :=
  match l with
  | [] => w
  | k :: l' => if decide (hrs_lt w k) then hrs_max k l' else hrs_max w l'
  end.

(** ** Messages up to timestamp *)

Definition same_vote_but_time (v w : canonical_vote) : Prop :=
  cv_type v = cv_type w /\ cv_height v = cv_height w /\ cv_round v = cv_round w /\
  cv_bid v = cv_bid w /\ cv_chain v = cv_chain w.
Definition same_proposal_but_time (p q : canonical_proposal) : Prop :=
  cp_type p = cp_type q /\ cp_height p = cp_height q /\ cp_round p = cp_round q /\
  cp_pol p = cp_pol q /\ cp_bid p = cp_bid q /\ cp_chain p = cp_chain q.

(** the ranges of the Go field types of tmProto.Vote / tmProto.Proposal, and a chain ID that
    fits in memory *)
Definition vote_in_range (chain : bytes) (v : vote) : Prop :=
  in_int32 (v_type v) /\ in_int64 (v_height v) /\ in_int32 (v_round v) /\
  0 <= psh_total (bid_psh (v_bid v)) < 2 ^ 32 /\ Z.of_nat (length chain) < 2 ^ 62.
Definition proposal_in_range (chain : bytes) (p : proposal) : Prop :=
  in_int64 (p_height p) /\ in_int32 (p_round p) /\ in_int32 (p_pol p) /\
  0 <= psh_total (bid_psh (p_bid p)) < 2 ^ 32 /\ Z.of_nat (length chain) < 2 ^ 62.

(** tendermint's step of a vote type: prevote 2, precommit 3 *)
Definition step_of_type (ty s : Z) : Prop := (ty = 1 /\ s = 2) \/ (ty = 2 /\ s = 3).

(** exact nanoseconds since the epoch *)
Definition nanos_of (t : time) : Z := t_secs t * 1000000000 + t_nanos t.

(** two sign byte strings carry the same message up to the timestamp *)
Definition same_message_but_time (a b : bytes) : Prop :=
  (exists p q, decode_proposal a = Some p /\ decode_proposal b = Some q /\
               same_proposal_but_time p q) \/
  (decode_proposal a = None /\ decode_proposal b = None /\
   exists v w, decode_vote a = Some v /\ decode_vote b = Some w /\ same_vote_but_time v w).

(** the height/round/step a byte string is for *)
Definition bytes_for (sb : bytes) (k : hrs) : Prop :=
  exists t, unpack_hrst sb = Val (HRST k t).
