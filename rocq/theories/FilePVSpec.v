(** What a single signer may hand out (C57). *)
From Verif Require Import GoBase Canonical Spec Privval FilePV.
Local Open Scope Z_scope.

(** both at one height, round and step *)
Definition same_place (a b : seen) : Prop :=
  match a, b with
  | SawVote v, SawVote w =>
      v_height (pv_vote v) = v_height (pv_vote w) /\ v_round (pv_vote v) = v_round (pv_vote w) /\
      v_type (pv_vote v) = v_type (pv_vote w)
  | SawProp p, SawProp q =>
      p_height (pp_prop p) = p_height (pp_prop q) /\ p_round (pp_prop p) = p_round (pp_prop q)
  | _, _ => False
  end.
(** everything that is signed, the timestamp included, and the signature *)
Definition same_signed (a b : seen) : Prop :=
  match a, b with
  | SawVote v, SawVote w => pv_vote v = pv_vote w /\ pv_sig v = pv_sig w
  | SawProp p, SawProp q => pp_prop p = pp_prop q /\ pp_sig p = pp_sig q
  | _, _ => False
  end.
Definition no_double_sign (os : list seen) : Prop :=
  forall a b, a ∈ os -> b ∈ os -> same_place a b -> same_signed a b.

(** every signature handed out is one of the sign bytes of the message it comes with *)
Definition signed_by (key : bytes -> option bytes) (chain : bytes) (o : seen) : Prop :=
  match o with
  | SawVote v => exists sb, vote_sign_bytes chain (pv_vote v) = Val sb /\ key sb = Some (pv_sig v)
  | SawProp p => exists sb, proposal_sign_bytes chain (pp_prop p) = Val sb /\ key sb = Some (pp_sig p)
  | _ => True
  end.

(** requests with fields in the range of their Go types *)
Definition event_ok (chain : bytes) (e : event) : Prop :=
  match e with
  | AskVote (Some v) _ => vote_in_range chain (pv_vote v)
  | AskProp (Some p) _ => proposal_in_range chain (pp_prop p)
  | _ => True
  end.
(** requests read from a connection *)
Definition from_wire (e : event) : Prop :=
  match e with
  | AskVote v _ => exists l c r, read_msg l = Some (SignVoteRequest v c, r)
  | AskProp p _ => exists l c r, read_msg l = Some (SignProposalRequest p c, r)
  | _ => True
  end.
Definition not_start (e : event) : Prop := match e with Start => False | _ => True end.

(** the order of heights, rounds and steps *)
Definition above (a b : hrs) : Prop :=
  h_height b < h_height a \/
  h_height a = h_height b /\ (h_round b < h_round a \/ h_round a = h_round b /\ h_step b < h_step a).

(** what the answer keeps of the request *)
Definition keeps_vote (v w : pvote) : Prop :=
  v_type (pv_vote w) = v_type (pv_vote v) /\ v_height (pv_vote w) = v_height (pv_vote v) /\
  v_round (pv_vote w) = v_round (pv_vote v) /\ v_bid (pv_vote w) = v_bid (pv_vote v) /\
  pv_addr w = pv_addr v /\ pv_index w = pv_index v.
Definition keeps_prop (p q : pprop) : Prop :=
  pp_type q = pp_type p /\ p_height (pp_prop q) = p_height (pp_prop p) /\
  p_round (pp_prop q) = p_round (pp_prop p) /\ p_pol (pp_prop q) = p_pol (pp_prop p) /\
  p_bid (pp_prop q) = p_bid (pp_prop p).
