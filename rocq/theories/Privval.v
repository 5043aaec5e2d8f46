(** The privval protocol: messages, their protobuf form, and the framing of
    signer/Serialization.go:12-25.

    The message types and the generated (un)marshalling code are tendermint v0.34.14
    proto/tendermint/privval/types.pb.go, proto/tendermint/types/types.pb.go and
    proto/tendermint/crypto/keys.pb.go (read from memory, see DESIGN.md section 4).

    Simplification: nil and empty byte slices are not distinguished (the wire format does not). *)
From Verif Require Import GoBase Wire Canonical.
Local Open Scope Z_scope.

(** ** Messages *)

(** tmProto.Vote: the fields that enter sign bytes, validator address, validator index, signature *)
Record pvote := PVote { pv_vote : vote; pv_addr : bytes; pv_index : Z; pv_sig : bytes }.
(** tmProto.Proposal: the type is not part of [proposal], sign bytes always use ProposalType *)
Record pprop := PProp { pp_type : Z; pp_prop : proposal; pp_sig : bytes }.
(** tmProtoPrivval.RemoteSignerError *)
Record rs_error := RSError { re_code : Z; re_text : bytes }.
(** tmProtoCrypto.PublicKey *)
Inductive pubkey := PkNone | PkEd25519 (k : bytes) | PkSecp256k1 (k : bytes).

(** tmProtoPrivval.Message *)
Inductive message :=
| MsgNone
| PubKeyRequest (chain : bytes)
| PubKeyResponse (k : pubkey) (e : option rs_error)
| SignVoteRequest (v : option pvote) (chain : bytes)
| SignedVoteResponse (v : pvote) (e : option rs_error)
| SignProposalRequest (p : option pprop) (chain : bytes)
| SignedProposalResponse (p : pprop) (e : option rs_error)
| PingRequest
| PingResponse.

(** zero values *)
Definition empty_pvote : pvote := PVote (Vote 0 0 0 empty_bid zero_time) [] 0 [].
Definition empty_pprop : pprop := PProp 0 (Proposal 0 0 0 empty_bid zero_time) [].
Definition empty_rs_error : rs_error := RSError 0 [].

(** ** Encoding *)

Definition m_pvote (v : pvote) : bytes :=
  let c := pv_vote v in
  e_varint x08 (v_type c) ++ e_varint x10 (v_height c) ++ e_varint x18 (v_round c) ++
  e_msg x22 (m_bid (v_bid c)) ++ e_msg x2a (m_timestamp (v_ts c)) ++
  e_bytes x32 (pv_addr v) ++ e_varint x38 (pv_index v) ++ e_bytes x42 (pv_sig v).
Definition m_pprop (p : pprop) : bytes :=
  let c := pp_prop p in
  e_varint x08 (pp_type p) ++ e_varint x10 (p_height c) ++ e_varint x18 (p_round c) ++
  e_varint x20 (p_pol c) ++ e_msg x2a (m_bid (p_bid c)) ++ e_msg x32 (m_timestamp (p_ts c)) ++
  e_bytes x3a (pp_sig p).
Definition m_rs_error (e : rs_error) : bytes := e_varint x08 (re_code e) ++ e_bytes x12 (re_text e).
Definition m_pubkey (k : pubkey) : bytes :=
  match k with PkNone => [] | PkEd25519 b => e_msg x0a b | PkSecp256k1 b => e_msg x12 b end.
(** a pointer field: omitted when nil *)
Definition e_opt {A} (tag : byte) (m : A -> bytes) (o : option A) : bytes :=
  match o with None => [] | Some x => e_msg tag (m x) end.

Definition m_message (m : message) : bytes :=
  match m with
  | MsgNone => []
  | PubKeyRequest c => e_msg x0a (e_bytes x0a c)
  | PubKeyResponse k e => e_msg x12 (e_msg x0a (m_pubkey k) ++ e_opt x12 m_rs_error e)
  | SignVoteRequest v c => e_msg x1a (e_opt x0a m_pvote v ++ e_bytes x12 c)
  | SignedVoteResponse v e => e_msg x22 (e_msg x0a (m_pvote v) ++ e_opt x12 m_rs_error e)
  | SignProposalRequest p c => e_msg x2a (e_opt x0a m_pprop p ++ e_bytes x12 c)
  | SignedProposalResponse p e => e_msg x32 (e_msg x0a (m_pprop p) ++ e_opt x12 m_rs_error e)
  | PingRequest => e_msg x3a []
  | PingResponse => e_msg x42 []
  end.
(** StdTimeMarshalTo fails outside years 1 to 9999 *)
Definition marshallable (m : message) : bool :=
  match m with
  | SignVoteRequest (Some v) _ | SignedVoteResponse v _ => time_valid (v_ts (pv_vote v))
  | SignProposalRequest (Some p) _ | SignedProposalResponse p _ => time_valid (p_ts (pp_prop p))
  | _ => true
  end.

(** ** Decoding *)

Definition h_pvote (fn wt : Z) (m : pvote) (r : bytes) : field_result pvote :=
  match m with
  | PVote (Vote ty he ro bi ts) ad ix sg =>
    match fn with
    | 1 => on_varint wt r (fun v => PVote (Vote (wrap32 v) he ro bi ts) ad ix sg)
    | 2 => on_varint wt r (fun v => PVote (Vote ty (wrap64 v) ro bi ts) ad ix sg)
    | 3 => on_varint wt r (fun v => PVote (Vote ty he (wrap32 v) bi ts) ad ix sg)
    | 4 => on_bytes wt r (fun p =>
             match unmarshal h_bid bi p with
             | Some b => Some (PVote (Vote ty he ro b ts) ad ix sg) | None => None end)
    | 5 => on_bytes wt r (fun p =>
             match um_timestamp p with
             | Some t => Some (PVote (Vote ty he ro bi t) ad ix sg) | None => None end)
    | 6 => on_bytes wt r (fun p => Some (PVote (Vote ty he ro bi ts) p ix sg))
    | 7 => on_varint wt r (fun v => PVote (Vote ty he ro bi ts) ad (wrap32 v) sg)
    | 8 => on_bytes wt r (fun p => Some (PVote (Vote ty he ro bi ts) ad ix p))
    | _ => FUnknown
    end
  end.
Definition h_pprop (fn wt : Z) (m : pprop) (r : bytes) : field_result pprop :=
  match m with
  | PProp ty (Proposal he ro po bi ts) sg =>
    match fn with
    | 1 => on_varint wt r (fun v => PProp (wrap32 v) (Proposal he ro po bi ts) sg)
    | 2 => on_varint wt r (fun v => PProp ty (Proposal (wrap64 v) ro po bi ts) sg)
    | 3 => on_varint wt r (fun v => PProp ty (Proposal he (wrap32 v) po bi ts) sg)
    | 4 => on_varint wt r (fun v => PProp ty (Proposal he ro (wrap32 v) bi ts) sg)
    | 5 => on_bytes wt r (fun p =>
             match unmarshal h_bid bi p with
             | Some b => Some (PProp ty (Proposal he ro po b ts) sg) | None => None end)
    | 6 => on_bytes wt r (fun p =>
             match um_timestamp p with
             | Some t => Some (PProp ty (Proposal he ro po bi t) sg) | None => None end)
    | 7 => on_bytes wt r (fun p => Some (PProp ty (Proposal he ro po bi ts) p))
    | _ => FUnknown
    end
  end.
Definition h_rs_error (fn wt : Z) (m : rs_error) (r : bytes) : field_result rs_error :=
  match fn with
  | 1 => on_varint wt r (fun v => RSError (wrap32 v) (re_text m))
  | 2 => on_bytes wt r (fun p => Some (RSError (re_code m) p))
  | _ => FUnknown
  end.
Definition h_pubkey (fn wt : Z) (m : pubkey) (r : bytes) : field_result pubkey :=
  match fn with
  | 1 => on_bytes wt r (fun p => Some (PkEd25519 p))
  | 2 => on_bytes wt r (fun p => Some (PkSecp256k1 p))
  | _ => FUnknown
  end.

(** fields of the request and response messages *)
Definition h_pk_req (fn wt : Z) (m : bytes) (r : bytes) : field_result bytes :=
  match fn with 1 => on_bytes wt r (fun p => Some p) | _ => FUnknown end.
(** a pointer to a message and a string *)
Definition h_req {A} (h : Z -> Z -> A -> bytes -> field_result A) (zero : A)
    (fn wt : Z) (m : option A * bytes) (r : bytes) : field_result (option A * bytes) :=
  match fn with
  | 1 => on_bytes wt r (fun p =>
           match unmarshal h (default zero (fst m)) p with
           | Some x => Some (Some x, snd m) | None => None end)
  | 2 => on_bytes wt r (fun p => Some (fst m, p))
  | _ => FUnknown
  end.
(** a message and a pointer to an error *)
Definition h_resp {A} (h : Z -> Z -> A -> bytes -> field_result A)
    (fn wt : Z) (m : A * option rs_error) (r : bytes) : field_result (A * option rs_error) :=
  match fn with
  | 1 => on_bytes wt r (fun p =>
           match unmarshal h (fst m) p with Some x => Some (x, snd m) | None => None end)
  | 2 => on_bytes wt r (fun p =>
           match unmarshal h_rs_error (default empty_rs_error (snd m)) p with
           | Some e => Some (fst m, Some e) | None => None end)
  | _ => FUnknown
  end.
(** PingRequest and PingResponse have no fields *)
Definition h_empty (fn wt : Z) (m : unit) (r : bytes) : field_result unit := FUnknown.

(** the oneof: every member is decoded into a new value, the last one stays *)
Definition h_message (fn wt : Z) (m : message) (r : bytes) : field_result message :=
  match fn with
  | 1 => on_bytes wt r (fun p =>
           match unmarshal h_pk_req [] p with Some c => Some (PubKeyRequest c) | None => None end)
  | 2 => on_bytes wt r (fun p =>
           match unmarshal (h_resp h_pubkey) (PkNone, None) p with
           | Some (k, e) => Some (PubKeyResponse k e) | None => None end)
  | 3 => on_bytes wt r (fun p =>
           match unmarshal (h_req h_pvote empty_pvote) (None, []) p with
           | Some (v, c) => Some (SignVoteRequest v c) | None => None end)
  | 4 => on_bytes wt r (fun p =>
           match unmarshal (h_resp h_pvote) (empty_pvote, None) p with
           | Some (v, e) => Some (SignedVoteResponse v e) | None => None end)
  | 5 => on_bytes wt r (fun p =>
           match unmarshal (h_req h_pprop empty_pprop) (None, []) p with
           | Some (v, c) => Some (SignProposalRequest v c) | None => None end)
  | 6 => on_bytes wt r (fun p =>
           match unmarshal (h_resp h_pprop) (empty_pprop, None) p with
           | Some (v, e) => Some (SignedProposalResponse v e) | None => None end)
  | 7 => on_bytes wt r (fun p =>
           match unmarshal h_empty tt p with Some _ => Some PingRequest | None => None end)
  | 8 => on_bytes wt r (fun p =>
           match unmarshal h_empty tt p with Some _ => Some PingResponse | None => None end)
  | _ => FUnknown
  end.

(** ** Framing *)

(** Serialization.go:12-18 ReadMsg: at most maxRemoteSignerMsgSize bytes of payload. The reader is
    not buffered beyond the message. The input is the rest of the stream; [None] is an error (or the
    end of the stream). *)
Definition max_msg_size : Z := 1024 * 10.
Definition read_msg (l : bytes) : option (message * bytes) :=
  match read_delimited max_msg_size l with
  | None => None
  | Some (payload, rest) =>
      match unmarshal h_message MsgNone payload with
      | Some m => Some (m, rest)
      | None => None
      end
  end.
(** Serialization.go:20-25 WriteMsg: what is written, [None] if marshalling fails *)
Definition write_msg (m : message) : option bytes :=
  if marshallable m then Some (delimited (m_message m)) else None.
