(** Vocabulary for statements about the privval protocol. *)
From Verif Require Import GoBase Wire Canonical Privval RemoteSigner.
Local Open Scope Z_scope.

(** integer fields in the range of their Go types, timestamps in the protobuf range *)
Definition bid_in_range (b : block_id) : Prop := 0 <= psh_total (bid_psh b) < 2 ^ 32.
Definition pvote_ok (v : pvote) : Prop :=
  in_int32 (v_type (pv_vote v)) /\ in_int64 (v_height (pv_vote v)) /\ in_int32 (v_round (pv_vote v)) /\
  bid_in_range (v_bid (pv_vote v)) /\ time_valid (v_ts (pv_vote v)) = true /\ in_int32 (pv_index v).
Definition pprop_ok (p : pprop) : Prop :=
  in_int32 (pp_type p) /\ in_int64 (p_height (pp_prop p)) /\ in_int32 (p_round (pp_prop p)) /\
  in_int32 (p_pol (pp_prop p)) /\ bid_in_range (p_bid (pp_prop p)) /\ time_valid (p_ts (pp_prop p)) = true.
Definition error_ok (e : option rs_error) : Prop :=
  match e with Some e => in_int32 (re_code e) | None => True end.
Definition opt_ok {A} (P : A -> Prop) (o : option A) : Prop := match o with Some x => P x | None => True end.
Definition message_ok (m : message) : Prop :=
  match m with
  | PubKeyResponse _ e => error_ok e
  | SignVoteRequest v _ => opt_ok pvote_ok v
  | SignedVoteResponse v e => pvote_ok v /\ error_ok e
  | SignProposalRequest p _ => opt_ok pprop_ok p
  | SignedProposalResponse p e => pprop_ok p /\ error_ok e
  | _ => True
  end.

(** the requests of a validator node *)
Definition is_request (m : message) : bool :=
  match m with
  | PubKeyRequest _ | SignVoteRequest _ _ | SignProposalRequest _ _ | PingRequest => true
  | _ => false
  end.
(** the kind of answer a request must get *)
Definition answers (req res : message) : Prop :=
  match req, res with
  | PubKeyRequest _, PubKeyResponse _ _ | SignVoteRequest _ _, SignedVoteResponse _ _
  | SignProposalRequest _ _, SignedProposalResponse _ _ | PingRequest, PingResponse => True
  | _, _ => False
  end.

(** the signer fails at a request with this text *)
Definition failed_with (s : signer) (chain : bytes) (req : message) (text : bytes) : Prop :=
  match req with
  | PubKeyRequest _ => sg_pub s = Fail text
  | SignVoteRequest v _ => sg_vote s chain v = Fail text
  | SignProposalRequest p _ => sg_prop s chain p = Fail text
  | _ => False
  end.
(** no key, an empty vote, an empty proposal, and the text with code 0 *)
Definition refusal_of (req : message) (text : bytes) : message :=
  match req with
  | PubKeyRequest _ => PubKeyResponse PkNone (Some (RSError 0 text))
  | SignVoteRequest _ _ => SignedVoteResponse empty_pvote (Some (RSError 0 text))
  | SignProposalRequest _ _ => SignedProposalResponse empty_pprop (Some (RSError 0 text))
  | _ => MsgNone
  end.

(** a vote that can be signed: a prevote or precommit whose hashes are empty or 32 bytes *)
Definition hash_size_ok (h : bytes) : Prop := length h = 0%nat \/ length h = 32%nat.
Definition bid_sizes_ok (b : block_id) : Prop := hash_size_ok (bid_hash b) /\ hash_size_ok (psh_hash (bid_psh b)).
Definition signable_vote (v : pvote) : Prop :=
  (v_type (pv_vote v) = 1 \/ v_type (pv_vote v) = 2) /\ bid_sizes_ok (v_bid (pv_vote v)).
Definition signable_prop (p : pprop) : Prop := bid_sizes_ok (p_bid (pp_prop p)).
(** a request that asks for a signature asks for one that can be made *)
Definition signable (m : message) : Prop :=
  match m with
  | SignVoteRequest v _ => exists v', v = Some v' /\ signable_vote v'
  | SignProposalRequest p _ => exists p', p = Some p' /\ signable_prop p'
  | _ => True
  end.

(** the vote [v'] is [v] with another signature; the same for proposals *)
Definition resigned_vote (v : pvote) (sig : bytes) (v' : pvote) : Prop :=
  pv_vote v' = pv_vote v /\ pv_addr v' = pv_addr v /\ pv_index v' = pv_index v /\ pv_sig v' = sig.
Definition resigned_prop (p : pprop) (sig : bytes) (p' : pprop) : Prop :=
  pp_type p' = pp_type p /\ pp_prop p' = pp_prop p /\ pp_sig p' = sig.

(** answers to a list of requests, numbered from [n] *)
Fixpoint answered (ss : nat -> signer) (chain : bytes) (n : nat) (reqs outs : list message) : Prop :=
  match reqs, outs with
  | [], [] => True
  | req :: reqs, out :: outs =>
      handle_request (ss n) chain req = Val out /\ answered ss chain (S n) reqs outs
  | _, _ => False
  end.

(** [answers], request by request *)
Fixpoint all_answer (reqs outs : list message) : Prop :=
  match reqs, outs with
  | [], [] => True
  | req :: reqs, out :: outs => answers req out /\ all_answer reqs outs
  | _, _ => False
  end.

(** a stream of messages *)
Definition stream (ms : list message) : bytes := flat_map (fun m => delimited (m_message m)) ms.
(** reading a stream to its end *)
Inductive reads : bytes -> list message -> bytes -> Prop :=
| reads_nil l : reads l [] l
| reads_cons l m l1 ms l2 : read_msg l = Some (m, l1) -> reads l1 ms l2 -> reads l (m :: ms) l2.
