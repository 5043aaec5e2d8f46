(** The remote signer: signer/remote_signer.go.

    The validator behind it ([privVal]) is a record of answers. [tv_signer] is the one of the
    threshold validator (threshold_validator.go:87-125), with arbitrary answers of SignBlock.

    Simplifications: logging is dropped; connections, dialing and shutting down are not modelled,
    [serve] is what happens on one connection until it is closed or the process panics. *)
From Verif Require Import GoBase Wire Canonical Validator Privval.
Local Open Scope Z_scope.

(** tm.PrivValidator. Votes and proposals come by pointer ([None] is nil); [Val] is the changed vote
    or proposal and a nil error, [Fail] an error with its text (what it did to the vote is lost, the
    handlers do not use it). *)
Record signer := Signer {
  sg_pub : outcome bytes pubkey;
  sg_vote : bytes -> option pvote -> outcome bytes pvote;
  sg_prop : bytes -> option pprop -> outcome bytes pprop }.

(** remote_signer.go:209-217 getRemoteSignerError *)
Definition signer_error (text : bytes) : option rs_error := Some (RSError 0 text).

(** remote_signer.go:141-160; [Panic] is a panic of the process *)
Definition handle_vote (s : signer) (chain : bytes) (v : option pvote) : outcome unit message :=
  match sg_vote s chain v with
  | Val v' => Val (SignedVoteResponse v' None)
  | Fail t => Val (SignedVoteResponse empty_pvote (signer_error t))
  | Panic => Panic
  end.
(** remote_signer.go:162-182 *)
Definition handle_proposal (s : signer) (chain : bytes) (p : option pprop) : outcome unit message :=
  match sg_prop s chain p with
  | Val p' => Val (SignedProposalResponse p' None)
  | Fail t => Val (SignedProposalResponse empty_pprop (signer_error t))
  | Panic => Panic
  end.
(** remote_signer.go:184-203; PubKeyToProto knows the key types of [pubkey] *)
Definition handle_pub_key (s : signer) : outcome unit message :=
  match sg_pub s with
  | Val k => Val (PubKeyResponse k None)
  | Fail t => Val (PubKeyResponse PkNone (signer_error t))
  | Panic => Panic
  end.
(** remote_signer.go:125-139 handleRequest *)
Definition handle_request (s : signer) (chain : bytes) (req : message) : outcome unit message :=
  match req with
  | SignVoteRequest v _ => handle_vote s chain v
  | SignProposalRequest p _ => handle_proposal s chain p
  | PubKeyRequest _ => handle_pub_key s
  | PingRequest => Val PingResponse
  | _ => Val MsgNone
  end.

(** remote_signer.go:101-122: one connection. The validator has state of its own, and is used by
    others at the same time: request number [n] is answered by [ss n]. Result: what was written, and
    why it ended. *)
Inductive ending := EndRead | EndWrite | EndPanic.
Fixpoint serve_loop (fuel n : nat) (ss : nat -> signer) (chain : bytes) (input : bytes) : bytes * ending :=
  match fuel with
  | O => ([], EndRead)
  | S f =>
      match read_msg input with
      | None => ([], EndRead)
      | Some (req, rest) =>
          match handle_request (ss n) chain req with
          | Val res =>
              match write_msg res with
              | Some out => let '(o, e) := serve_loop f (S n) ss chain rest in (out ++ o, e)
              | None => ([], EndWrite)
              end
          | _ => ([], EndPanic)
          end
      end
  end.
(** every message takes a byte of input at least, so this is fuel enough *)
Definition serve (ss : nat -> signer) (chain : bytes) (input : bytes) : bytes * ending :=
  serve_loop (S (length input)) 0 ss chain input.

(** threshold_validator.go:87-125 behind the interface. [answer]: the result of SignBlock for a
    block; [text]: error texts. A nil pointer is dereferenced. *)
Definition tv_vote (answer : bytes -> block -> vresult) (text : verr -> bytes)
    (chain : bytes) (v : option pvote) : outcome bytes pvote :=
  match v with
  | None => Panic
  | Some v =>
      match vote_block chain (pv_vote v) with
      | Val b =>
          let '(c, sig, err) := finish_vote (pv_vote v) (answer chain b) in
          match err with
          | Some e => Fail (text e)
          | None => Val (PVote c (pv_addr v) (pv_index v) (slice_of sig))
          end
      | _ => Panic
      end
  end.
Definition tv_prop (answer : bytes -> block -> vresult) (text : verr -> bytes)
    (chain : bytes) (p : option pprop) : outcome bytes pprop :=
  match p with
  | None => Panic
  | Some p =>
      match proposal_block chain (pp_prop p) with
      | Val b =>
          let '(c, sig, err) := finish_proposal (pp_prop p) (answer chain b) in
          match err with
          | Some e => Fail (text e)
          | None => Val (PProp (pp_type p) c (slice_of sig))
          end
      | _ => Panic
      end
  end.
Definition tv_signer (pub : bytes) (answer : bytes -> block -> vresult) (text : verr -> bytes) : signer :=
  Signer (Val (PkEd25519 pub)) (tv_vote answer text) (tv_prop answer text).
