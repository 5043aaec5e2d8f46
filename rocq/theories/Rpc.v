(** The gRPC messages between cosigners: conversions (signer/Cosigner.go, signer/grpc_server.go,
    signer/remote_cosigner.go, signer/raft_events.go, signer/threshold_validator.go) and their
    protobuf form (signer/proto/cosigner_grpc_server.proto).

    The generated code uses google.golang.org/protobuf. It differs from the decoder of Wire.v in one
    respect: a field with an unexpected wire type is skipped like an unknown one. Limits on message
    sizes, transport and deadlines are not modelled, nor are the server's errors: an RPC either
    delivers the request and the response or fails. time.Unix yields a time with the local location
    where the original had UTC; times here have no location. *)
From Verif Require Import GoBase Wire Canonical Utf8 LocalCosigner Validator Privval.
Local Open Scope Z_scope.

(** ** Messages, cosigner_grpc_server.proto:14-62 *)
Record p_block := PBlock { pb_height : Z; pb_round : Z; pb_step : Z; pb_bytes : bytes; pb_time : Z }.
Record p_part := PPart {
  pp_source : Z; pp_dest : Z; pp_eph : bytes; pp_enc : bytes; pp_ssig : option bytes }.
Record p_hrst := PHRST { ph_height : Z; ph_round : Z; ph_step : Z; ph_time : Z }.

(** ** Conversions *)

(** Cosigner.go:31-38; int32(step) is exact *)
Definition hrst_to_proto (k : hrst) : p_hrst :=
  PHRST (h_height (ht_hrs k)) (h_round (ht_hrs k)) (wrap32 (h_step (ht_hrs k))) (ht_time k).
(** Cosigner.go:22-29; the getters return zero for a nil message *)
Definition hrst_from_proto (p : option p_hrst) : hrst :=
  match p with
  | None => HRST (HRS 0 0 0) 0
  | Some p => HRST (HRS (ph_height p) (ph_round p) (wrap8 (ph_step p))) (ph_time p)
  end.
(** Cosigner.go:60-68, 72-77 *)
Definition part_to_proto (p : part) : p_part :=
  PPart (wrap32 (pt_source p)) (wrap32 (pt_dest p)) (pt_eph p) (pt_enc p) (pt_sig p).
(** Cosigner.go:79-87, 89-95 *)
Definition part_from_proto (p : p_part) : part :=
  Part (pp_source p) (pp_dest p) (pp_eph p) (pp_enc p) (pp_ssig p).
(** threshold_validator.go:135-143 *)
Definition block_to_proto (b : block) : p_block :=
  PBlock (h_height (b_hrs b)) (h_round (b_hrs b)) (wrap32 (h_step (b_hrs b))) (b_sb b) (unix_nano (b_ts b)).
(** grpc_server.go:21-27 *)
Definition block_from_proto (p : option p_block) : block :=
  match p with
  | None => Block (HRS 0 0 0) [] (time_of_nano 0)
  | Some p => Block (HRS (pb_height p) (pb_round p) (wrap8 (pb_step p))) (pb_bytes p) (time_of_nano (pb_time p))
  end.

(** ** Encoding: fields in order, zero values omitted, message fields present *)
Definition e_obytes (tag : byte) (o : option bytes) : bytes := e_bytes tag (match o with Some b => b | None => [] end).
Definition m_p_block (p : p_block) : bytes :=
  e_varint x08 (pb_height p) ++ e_varint x10 (pb_round p) ++ e_varint x18 (pb_step p) ++
  e_bytes x22 (pb_bytes p) ++ e_varint x28 (pb_time p).
Definition m_p_part (p : p_part) : bytes :=
  e_varint x08 (pp_source p) ++ e_varint x10 (pp_dest p) ++ e_bytes x1a (pp_eph p) ++
  e_bytes x22 (pp_enc p) ++ e_obytes x2a (pp_ssig p).
Definition m_p_hrst (p : p_hrst) : bytes :=
  e_varint x08 (ph_height p) ++ e_varint x10 (ph_round p) ++ e_varint x18 (ph_step p) ++ e_varint x20 (ph_time p).
Definition e_parts (tag : byte) (ps : list p_part) : bytes := flat_map (fun p => e_msg tag (m_p_part p)) ps.

(** ** Decoding *)
Definition go_varint {M} (wt : Z) (r : bytes) (set : Z -> M) : field_result M :=
  if wt =? 0 then on_varint wt r set else FUnknown.
Definition go_bytes {M} (wt : Z) (r : bytes) (set : bytes -> option M) : field_result M :=
  if wt =? 2 then on_bytes wt r set else FUnknown.

Definition h_p_block (fn wt : Z) (m : p_block) (r : bytes) : field_result p_block :=
  match m with
  | PBlock he ro st sb ts =>
    match fn with
    | 1 => go_varint wt r (fun v => PBlock (wrap64 v) ro st sb ts)
    | 2 => go_varint wt r (fun v => PBlock he (wrap64 v) st sb ts)
    | 3 => go_varint wt r (fun v => PBlock he ro (wrap32 v) sb ts)
    | 4 => go_bytes wt r (fun p => Some (PBlock he ro st p ts))
    | 5 => go_varint wt r (fun v => PBlock he ro st sb (wrap64 v))
    | _ => FUnknown
    end
  end.
Definition h_p_part (fn wt : Z) (m : p_part) (r : bytes) : field_result p_part :=
  match m with
  | PPart s d ep en sg =>
    match fn with
    | 1 => go_varint wt r (fun v => PPart (wrap32 v) d ep en sg)
    | 2 => go_varint wt r (fun v => PPart s (wrap32 v) ep en sg)
    | 3 => go_bytes wt r (fun p => Some (PPart s d p en sg))
    | 4 => go_bytes wt r (fun p => Some (PPart s d ep p sg))
    | 5 => go_bytes wt r (fun p => Some (PPart s d ep en (Some p)))
    | _ => FUnknown
    end
  end.
Definition h_p_hrst (fn wt : Z) (m : p_hrst) (r : bytes) : field_result p_hrst :=
  match m with
  | PHRST he ro st ts =>
    match fn with
    | 1 => go_varint wt r (fun v => PHRST (wrap64 v) ro st ts)
    | 2 => go_varint wt r (fun v => PHRST he (wrap64 v) st ts)
    | 3 => go_varint wt r (fun v => PHRST he ro (wrap32 v) ts)
    | 4 => go_varint wt r (fun v => PHRST he ro st (wrap64 v))
    | _ => FUnknown
    end
  end.
Definition zero_part : p_part := PPart 0 0 [] [] None.
Definition zero_hrst : p_hrst := PHRST 0 0 0 0.
Definition zero_block : p_block := PBlock 0 0 0 [] 0.

(** a string field must be UTF-8 (utf8.ValidString; [san] replaces exactly what is not) *)
Definition valid_utf8 (s : bytes) : bool := bool_decide (san 0 s = s).

(** ** GetEphemeralSecretParts *)

(** remote_cosigner.go:74-76: what is sent *)
Definition get_request (k : hrst) : bytes := e_msg x0a (m_p_hrst (hrst_to_proto k)).
(** grpc_server.go:60: the key handed to the cosigner *)
Definition h_get_request (fn wt : Z) (m : option p_hrst) (r : bytes) : field_result (option p_hrst) :=
  match fn with
  | 1 => go_bytes wt r (fun p =>
           match unmarshal h_p_hrst (match m with Some x => x | None => zero_hrst end) p with
           | Some x => Some (Some x) | None => None end)
  | _ => FUnknown
  end.
Definition get_received (l : bytes) : option hrst :=
  match unmarshal h_get_request None l with Some p => Some (hrst_from_proto p) | None => None end.
(** grpc_server.go:64-66 *)
Definition get_response (ps : list part) : bytes := e_parts x0a (map part_to_proto ps).
(** remote_cosigner.go:80-82 *)
Definition h_get_response (fn wt : Z) (m : list p_part) (r : bytes) : field_result (list p_part) :=
  match fn with
  | 1 => go_bytes wt r (fun p =>
           match unmarshal h_p_part zero_part p with Some x => Some (m ++ [x]) | None => None end)
  | _ => FUnknown
  end.
Definition get_answer (l : bytes) : option (list part) :=
  match unmarshal h_get_response [] l with Some ps => Some (map part_from_proto ps) | None => None end.

(** ** SetEphemeralSecretPartsAndSign *)

(** remote_cosigner.go:95-99 *)
Definition sign_request (ps : list part) (k : hrst) (sb : bytes) : bytes :=
  e_parts x0a (map part_to_proto ps) ++ e_msg x12 (m_p_hrst (hrst_to_proto k)) ++ e_bytes x1a sb.
(** grpc_server.go:41-45 *)
Record p_sign := PSign { ps_parts : list p_part; ps_hrst : option p_hrst; ps_bytes : bytes }.
Definition h_sign_request (fn wt : Z) (m : p_sign) (r : bytes) : field_result p_sign :=
  match m with
  | PSign ps k sb =>
    match fn with
    | 1 => go_bytes wt r (fun p =>
             match unmarshal h_p_part zero_part p with Some x => Some (PSign (ps ++ [x]) k sb) | None => None end)
    | 2 => go_bytes wt r (fun p =>
             match unmarshal h_p_hrst (match k with Some x => x | None => zero_hrst end) p with
             | Some x => Some (PSign ps (Some x) sb) | None => None end)
    | 3 => go_bytes wt r (fun p => Some (PSign ps k p))
    | _ => FUnknown
    end
  end.
Definition sign_received (l : bytes) : option (list part * hrst * bytes) :=
  match unmarshal h_sign_request (PSign [] None []) l with
  | Some m => Some (map part_from_proto (ps_parts m), hrst_from_proto (ps_hrst m), ps_bytes m)
  | None => None
  end.
(** grpc_server.go:49-53 *)
Definition sign_response (eph : bytes) (ts : time) (sig : bytes) : bytes :=
  e_bytes x0a eph ++ e_varint x10 (unix_nano ts) ++ e_bytes x1a sig.
(** remote_cosigner.go:103-107 *)
Definition h_sign_response (fn wt : Z) (m : bytes * Z * bytes) (r : bytes) : field_result (bytes * Z * bytes) :=
  let '(eph, ts, sig) := m in
  match fn with
  | 1 => go_bytes wt r (fun p => Some (p, ts, sig))
  | 2 => go_varint wt r (fun v => (eph, wrap64 v, sig))
  | 3 => go_bytes wt r (fun p => Some (eph, ts, p))
  | _ => FUnknown
  end.
Definition sign_answer (l : bytes) : option (bytes * time * bytes) :=
  match unmarshal h_sign_response ([], 0, []) l with
  | Some (eph, ts, sig) => Some (eph, time_of_nano ts, sig)
  | None => None
  end.

(** ** SignBlock: a follower asks the raft leader *)

(** raft_events.go:66-69; [None]: the chain ID cannot be marshalled *)
Definition block_request (chain : bytes) (b : block) : option bytes :=
  if valid_utf8 chain then Some (e_bytes x0a chain ++ e_msg x12 (m_p_block (block_to_proto b))) else None.
(** grpc_server.go:21-28: what SignBlock is called with *)
Definition h_block_request (fn wt : Z) (m : bytes * option p_block) (r : bytes) : field_result (bytes * option p_block) :=
  match fn with
  | 1 => go_bytes wt r (fun p => if valid_utf8 p then Some (p, snd m) else None)
  | 2 => go_bytes wt r (fun p =>
           match unmarshal h_p_block (match snd m with Some x => x | None => zero_block end) p with
           | Some x => Some (fst m, Some x) | None => None end)
  | _ => FUnknown
  end.
Definition block_received (l : bytes) : option (bytes * block) :=
  match unmarshal h_block_request ([], None) l with
  | Some (c, b) => Some (c, block_from_proto b)
  | None => None
  end.
(** grpc_server.go:32-34 *)
Definition block_response (sig : option bytes) : bytes := e_obytes x0a sig.
(** raft_events.go:73-75; an absent field is nil *)
Definition h_block_response (fn wt : Z) (m : option bytes) (r : bytes) : field_result (option bytes) :=
  match fn with
  | 1 => go_bytes wt r (fun p => Some (Some p))
  | _ => FUnknown
  end.
Definition block_answer (l : bytes) : option (option bytes) := unmarshal h_block_response None l.
