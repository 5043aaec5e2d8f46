(** The local cosigner: signer/local_cosigner.go.

    The [Peers] slice of a metadata record is shared between map entries (dealShares stores the
    record under one key, setEphemeralSecretPart stores the same record under another), so the
    model keeps the slices in an explicit heap and metadata holds a reference.

    Granularity: every function below that takes [lastSignStateMutex] in the code is one atomic
    step; GetEphemeralSecretParts and SetEphemeralSecretPartsAndSign are sequences of such steps
    (the mutex is released in between), see [cstep].

    Simplifications: [time.Unix(0, ts).UnixNano()] is the identity on int64
    ([nano_roundtrip] in CosignerProofs.v) and is not written; nil and empty slices are not
    distinguished except for SourceSig and in the sign state. *)
From Verif Require Import GoBase Wire Canonical SignState Crypto.

(** ** State *)

(** local_cosigner.go:75-78 PeerMetadata; the zero value is two nil slices *)
Record peer_meta := PM { pm_share : bytes; pm_eph : bytes }.
Definition empty_peer_meta : peer_meta := PM [] [].

(** local_cosigner.go:80-85 HrsMetadata; [m_ref] locates the Peers slice in the heap *)
Record meta := Meta { m_secret : bytes; m_dealt : list bytes; m_ref : nat }.

(** constant part of LocalCosigner, local_cosigner.go:91-111: ID and ed25519 key share, validator
    public key bytes, RSA key, total and threshold (uint8), and the peers map (ID -> RSA key) *)
Record cos_config := CosConfig {
  cc_id : Z; cc_share : bytes; cc_pub : bytes; cc_rsa : bytes;
  cc_total : Z; cc_threshold : Z; cc_peers : gmap Z bytes }.

(** mutable part: lastSignState, hrsMeta and the heap *)
Record cos_state := CosState {
  cs_lss : sign_state;
  cs_meta : gmap hrst meta;
  cs_heap : gmap nat (list peer_meta);
  cs_next : nat }.

(** local_cosigner.go:115-141 NewLocalCosigner: empty metadata *)
Definition new_cosigner (lss : sign_state) : cos_state := CosState lss ∅ ∅ 0.

Definition with_lss (st : cos_state) (l : sign_state) : cos_state :=
  CosState l (cs_meta st) (cs_heap st) (cs_next st).
Definition with_meta (st : cos_state) (m : gmap hrst meta) : cos_state :=
  CosState (cs_lss st) m (cs_heap st) (cs_next st).
Definition with_heap (st : cos_state) (h : gmap nat (list peer_meta)) : cos_state :=
  CosState (cs_lss st) (cs_meta st) h (cs_next st).

Inductive cos_error :=
| EUnpack                    (* UnpackHRST error *)
| ECheck (e : check_error)   (* CheckHRS error *)
| EDiffer (e : differ_error) (* OnlyDifferByTimestamp error *)
| ENoMeta | EBounds | ESave (e : save_error)
| ERand | EUnknownPeer | EEncrypt | ERsaSign
| ENoSourceSig | EUnknownSource | EBadSourceSig | EDecrypt.

(** slice indexing [l[i]]; [None] is an index-out-of-range panic *)
Definition idx {A} (l : list A) (i : Z) : option A :=
  if i <? 0 then None else l !! Z.to_nat i.
(** slice element assignment [l[i] = x] *)
Definition idx_set {A} (l : list A) (i : Z) (x : A) : option (list A) :=
  match idx l i with None => None | Some _ => Some (<[Z.to_nat i := x]> l) end.

(** contents of the Peers slice of a metadata record *)
Definition peers_of (st : cos_state) (m : meta) : list peer_meta :=
  default [] (cs_heap st !! m_ref m).

(** [meta.Peers[i] = p] through the reference *)
Definition set_slot (st : cos_state) (m : meta) (i : Z) (p : peer_meta) : option cos_state :=
  match idx_set (peers_of st m) i p with
  | None => None
  | Some l => Some (with_heap st (<[m_ref m := l]> (cs_heap st)))
  end.

(** local_cosigner.go:21-48 HRSTKey.Less (the timestamp is not compared) *)
Definition hrst_less (a b : hrst) : bool :=
  if h_height (ht_hrs a) <? h_height (ht_hrs b) then true
  else if h_height (ht_hrs b) <? h_height (ht_hrs a) then false
  else if h_round (ht_hrs a) <? h_round (ht_hrs b) then true
  else if h_round (ht_hrs b) <? h_round (ht_hrs a) then false
  else h_step (ht_hrs a) <? h_step (ht_hrs b).

(** local_cosigner.go:240-246: the pruning loop of sign *)
Definition prune_meta (k : hrst) (m : gmap hrst meta) : gmap hrst meta :=
  filter (fun '(k', _) => hrst_less k' k = false) m.

Section Cosigner.
Context (C : Crypto) (cfg : cos_config).

(** ** sign: local_cosigner.go:158-251 *)

(** a signature response: ephemeral public key and signature (either may be nil in the retry
    branch); [sr_fresh] tells whether a new share was computed (ghost, for statements) *)
Record sign_resp := SignResp { sr_eph : option bytes; sr_sig : option bytes; sr_fresh : bool }.

(** local_cosigner.go:191-206: parts with a non-empty share, in slice order *)
Definition used_parts (l : list peer_meta) : list peer_meta :=
  filter (fun p => pm_share p <> []) l.

(** local_cosigner.go:185-250: from the metadata lookup on *)
Definition sign_fresh (st : cos_state) (sb : bytes) (k : hrst)
  : cos_state * outcome cos_error sign_resp :=
  match cs_meta st !! k with
  | None => (st, Fail ENoMeta)
  | Some m =>
      let parts := used_parts (peers_of st m) in
      match cr_add_scalars C (map pm_share parts), cr_add_elements C (map pm_eph parts) with
      | Some es, Some ep =>
          if negb (bool_decide (length es = 32%nat)) then (st, Fail EBounds)
          else if negb (cr_sc_minimal C es) then (st, Fail EBounds)
          else match cr_sign_share C sb (cc_share cfg) es (cc_pub cfg) ep with
               | None => (st, Panic)
               | Some sig =>
                   let l := cs_lss st in
                   let l1 := SS (ss_hrs l) (Some ep) (ss_sig l) (ss_sb l) (ss_cache l) in
                   let '(l2, err) := save l1 (SSC (ht_hrs k) (Some sig) (Some sb)) in
                   let st1 := with_lss st l2 in
                   match err with
                   | None | Some SameHRS =>
                       (with_meta st1 (prune_meta k (cs_meta st1)),
                        Val (SignResp (Some ep) (Some sig) true))
                   | Some e => (st1, Fail (ESave e))
                   end
               end
      | _, _ => (st, Panic)
      end
  end.

Definition sign (st : cos_state) (sb : bytes) : cos_state * outcome cos_error sign_resp :=
  match unpack_hrst sb with
  | Panic => (st, Panic)
  | Fail _ => (st, Fail EUnpack)
  | Val k =>
      let l := cs_lss st in
      match check_hrs l (ht_hrs k) with
      | Panic => (st, Panic)
      | Fail e => (st, Fail (ECheck e))
      | Val true =>
          if bytes_equal sb (slice_of (ss_sb l))
          then (st, Val (SignResp (ss_eph l) (ss_sig l) false))
          else match only_differ_by_timestamp (h_step (ss_hrs l)) (slice_of (ss_sb l)) sb with
               | Some e => (st, Fail (EDiffer e))
               | None => sign_fresh st sb k
               end
      | Val false => sign_fresh st sb k
      end
  end.

(** ** dealShares: local_cosigner.go:253-285. The randomness is the 32-byte secret read from
    crypto/rand ([None]: read error) and the dealing randomness. *)
Definition deal_shares (st : cos_state) (k : hrst) (rnd : option (bytes * bytes))
  : cos_state * outcome cos_error meta :=
  match cs_meta st !! k with
  | Some m => (st, Val m)
  | None =>
      match rnd with
      | None => (st, Fail ERand)
      | Some (secret, r) =>
          let m := Meta secret (cr_deal C secret r (cc_threshold cfg) (cc_total cfg)) (cs_next st) in
          (CosState (cs_lss st) (<[k := m]> (cs_meta st))
             (<[cs_next st := replicate (Z.to_nat (cc_total cfg)) empty_peer_meta]> (cs_heap st))
             (S (cs_next st)),
           Val m)
      end
  end.

(** The metadata lookup at the head of getEphemeralSecretPart (local_cosigner.go:329-345, with
    [kd = k]) and setEphemeralSecretPart (438-452, with [kd] the zero-time key): the entry at [k],
    or else the result of dealShares under [kd], stored at [k] as well. *)
Definition ensure_meta (st : cos_state) (k kd : hrst) (rnd : option (bytes * bytes))
  : cos_state * outcome cos_error meta :=
  match cs_meta st !! k with
  | Some m => (st, Val m)
  | None =>
      let '(st', o) := deal_shares st kd rnd in
      match o with
      | Val m => (with_meta st' (<[k := m]> (cs_meta st')), Val m)
      | Fail e => (st', Fail e)
      | Panic => (st', Panic)
      end
  end.

(** ** getEphemeralSecretPart: local_cosigner.go:315-393 *)

(** CosignerEphemeralSecretPart, signer/Cosigner.go:52-58 *)
Record part := Part {
  pt_source : Z; pt_dest : Z; pt_eph : bytes; pt_enc : bytes; pt_sig : option bytes }.
Definition part_payload (p : part) : payload := Payload (pt_source p) (pt_eph p) (pt_enc p).

(** randomness of one call: dealing, encryption, signature *)
Record get_rnd := GetRnd { gr_deal : option (bytes * bytes); gr_enc : bytes; gr_sig : bytes }.

Definition get_part (st : cos_state) (k : hrst) (id : Z) (rnd : get_rnd)
  : cos_state * outcome cos_error part :=
  let '(st1, om) := ensure_meta st k k (gr_deal rnd) in
  match om with
  | Fail e => (st1, Fail e)
  | Panic => (st1, Panic)
  | Val m =>
      let eph := cr_base C (m_secret m) in
      match idx (m_dealt m) (cc_id cfg - 1) with
      | None => (st1, Panic)
      | Some own =>
          match set_slot st1 m (cc_id cfg - 1) (PM own eph) with
          | None => (st1, Panic)
          | Some st2 =>
              match cc_peers cfg !! id with
              | None => (st2, Fail EUnknownPeer)
              | Some pk =>
                  match idx (m_dealt m) (id - 1) with
                  | None => (st2, Panic)
                  | Some share =>
                      match cr_encrypt C pk share (gr_enc rnd) with
                      | None => (st2, Fail EEncrypt)
                      | Some enc =>
                          match cr_rsa_sign C (cc_rsa cfg) (Payload (cc_id cfg) eph enc) (gr_sig rnd) with
                          | None => (st2, Fail ERsaSign)
                          | Some sig => (st2, Val (Part (cc_id cfg) id eph enc (Some sig)))
                          end
                      end
                  end
              end
          end
      end
  end.

(** ** setEphemeralSecretPart: local_cosigner.go:396-466 *)

(** dealShares is called there with a zero time.Time (local_cosigner.go:442-446) *)
Definition zero_key (k : hrst) : hrst := HRST (ht_hrs k) (unix_nano zero_time).

(** local_cosigner.go:398-425: verification of the source signature *)
Definition check_source (p : part) : option cos_error :=
  match pt_sig p with
  | None => Some ENoSourceSig
  | Some sig =>
      match cc_peers cfg !! pt_source p with
      | None => Some EUnknownSource
      | Some pk => if cr_rsa_verify C pk (part_payload p) sig then None else Some EBadSourceSig
      end
  end.

Definition set_part (st : cos_state) (k : hrst) (p : part) (rnd : option (bytes * bytes))
  : cos_state * outcome cos_error unit :=
  match check_source p with
  | Some e => (st, Fail e)
  | None =>
      let '(st1, om) := ensure_meta st k (zero_key k) rnd in
      match om with
      | Fail e => (st1, Fail e)
      | Panic => (st1, Panic)
      | Val m =>
          match cr_decrypt C (cc_rsa cfg) (pt_enc p) with
          | None => (st1, Fail EDecrypt)
          | Some share =>
              match set_slot st1 m (pt_source p - 1) (PM share (pt_eph p)) with
              | None => (st1, Panic)
              | Some st2 => (st2, Val tt)
              end
          end
      end
  end.

(** ** RPCs executed without interleaving *)

(** local_cosigner.go:287-311 GetEphemeralSecretParts; [ids] is the order in which Go ranges over
    the peers map. Line 290 makes a slice of capacity len(peers)-1 and would panic for an empty map;
    the map built by StartCosignerCmd (cosigner.go:177-191) always has the own ID, so this is left out. *)
Fixpoint get_parts (st : cos_state) (k : hrst) (ids : list (Z * get_rnd))
  : cos_state * outcome cos_error (list part) :=
  match ids with
  | [] => (st, Val [])
  | (id, rnd) :: ids' =>
      if id =? cc_id cfg then get_parts st k ids'
      else
        let '(st1, o) := get_part st k id rnd in
        match o with
        | Fail e => (st1, Fail e)
        | Panic => (st1, Panic)
        | Val p =>
            let '(st2, o2) := get_parts st1 k ids' in
            match o2 with
            | Val ps => (st2, Val (p :: ps))
            | Fail e => (st2, Fail e)
            | Panic => (st2, Panic)
            end
        end
  end.

(** local_cosigner.go:470-484: the loop over EncryptedSecrets *)
Fixpoint set_parts (st : cos_state) (k : hrst) (ps : list (part * option (bytes * bytes)))
  : cos_state * outcome cos_error unit :=
  match ps with
  | [] => (st, Val tt)
  | (p, rnd) :: ps' =>
      let '(st1, o) := set_part st k p rnd in
      match o with
      | Val _ => set_parts st1 k ps'
      | Fail e => (st1, Fail e)
      | Panic => (st1, Panic)
      end
  end.

(** local_cosigner.go:468-488 SetEphemeralSecretPartsAndSign *)
Definition set_and_sign (st : cos_state) (k : hrst) (ps : list (part * option (bytes * bytes)))
    (sb : bytes) : cos_state * outcome cos_error sign_resp :=
  let '(st1, o) := set_parts st k ps in
  match o with
  | Val _ => sign st1 sb
  | Fail e => (st1, Fail e)
  | Panic => (st1, Panic)
  end.

(** local_cosigner.go:111-113 SaveLastSignedState, called from raft_events.go:36 *)
Definition save_lss (st : cos_state) (c : consensus) : cos_state * option save_error :=
  let '(l, e) := save (cs_lss st) c in (with_lss st l, e).

(** ** Atomic steps of a running cosigner *)

(** One acquisition of the mutex. A run of concurrent requests is a sequence of these. *)
Inductive cop :=
| OpGet (k : hrst) (id : Z) (rnd : get_rnd)
| OpSet (k : hrst) (p : part) (rnd : option (bytes * bytes))
| OpSign (sb : bytes)
| OpLSS (c : consensus).

(** what the environment sees *)
Inductive cobs :=
| ObsPart (p : part)
| ObsShare (sb : bytes) (r : sign_resp)
| ObsLSS (c : consensus) (accepted : bool)
| ObsSetOk
| ObsErr (e : cos_error).

(** [None]: the process panicked *)
Definition cstep (st : cos_state) (op : cop) : option (cos_state * cobs) :=
  match op with
  | OpGet k id rnd =>
      match get_part st k id rnd with
      | (st', Val p) => Some (st', ObsPart p)
      | (st', Fail e) => Some (st', ObsErr e)
      | (_, Panic) => None
      end
  | OpSet k p rnd =>
      match set_part st k p rnd with
      | (st', Val _) => Some (st', ObsSetOk)
      | (st', Fail e) => Some (st', ObsErr e)
      | (_, Panic) => None
      end
  | OpSign sb =>
      match sign st sb with
      | (st', Val r) => Some (st', ObsShare sb r)
      | (st', Fail e) => Some (st', ObsErr e)
      | (_, Panic) => None
      end
  | OpLSS c =>
      let '(st', e) := save_lss st c in
      Some (st', ObsLSS c (match e with None => true | Some _ => false end))
  end.

(** a run: operations with their observations, oldest first *)
Inductive crun : cos_state -> list (cop * cobs) -> cos_state -> Prop :=
| crun_nil st : crun st [] st
| crun_cons st op st1 o l st2 :
    cstep st op = Some (st1, o) -> crun st1 l st2 -> crun st ((op, o) :: l) st2.

End Cosigner.
