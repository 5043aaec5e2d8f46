(** Vocabulary for statements about runs of a threshold validator. *)
From Verif Require Import GoBase Canonical SignState Spec Crypto LocalCosigner CosignerSpec Cluster Validator.
Local Open Scope Z_scope.

(** no call in progress *)
Definition idle (st : vstate) : Prop := vs_threads st = ∅.

(** the cache only holds records at or below the last signed state, under their own key *)
Definition cache_sound (s : sign_state) : Prop :=
  forall k c, ss_cache s !! k = Some c -> c_hrs c = k /\ hrs_le k (ss_hrs s).

Definition ops_of (l : list (vop * vobs)) : list vop := map fst l.

(** call [t], for block [b], started the signing protocol *)
Definition started (l : list (vop * vobs)) (t : nat) (b : block) : Prop :=
  exists op, (op, OStart t b) ∈ l.
(** call [t], for block [b], returned [r]; [true]: a newly assembled signature *)
Definition returned (l : list (vop * vobs)) (t : nat) (b : block) (r : vresult) (fresh : bool) : Prop :=
  exists op, (op, OReturn t b r fresh) ∈ l.

(** peers' successful answers with secret parts for call [t], in order of arrival, and our own *)
Definition peer_answer (t : nat) (op : vop) : option (nat * list part) :=
  match op with
  | VParts t' w (Some ps) => if decide (t' = t) then Some (w, ps) else None
  | _ => None
  end.
Definition own_answer (t : nat) (op : vop) : option (nat * list part) :=
  match op with
  | VOwn t' (Some ps) => if decide (t' = t) then Some (0%nat, ps) else None
  | _ => None
  end.
Definition peer_answers (t : nat) (l : list (vop * vobs)) := omap (peer_answer t) (ops_of l).
Definition own_answers (t : nat) (l : list (vop * vobs)) := omap (own_answer t) (ops_of l).

(** the first threshold-1 peers that answered, and ourselves *)
Definition participants (cfg : vconf) (t : nat) (l : list (vop * vobs)) : list (nat * list part) :=
  take (Z.to_nat (vc_threshold cfg - 1)) (peer_answers t l) ++ own_answers t l.

(** participant [w] answered the signing request of call [t] with a share *)
Definition gave_share (l : list (vop * vobs)) (t w : nat) : Prop :=
  exists sig eph, VSig t w (Some (sig, eph)) ∈ ops_of l /\ sig <> [].

(** participant [w] of call [t] was sent a signing request for the bytes [sb] *)
Definition was_asked (l : list (vop * vobs)) (t w : nat) (sb : bytes) : Prop :=
  exists op k ps, (op, OAsk t w k ps sb) ∈ l.

(** exactly threshold distinct participants, ourselves among them *)
Definition full_group (cfg : vconf) (t : nat) (l : list (vop * vobs)) : Prop :=
  1 <= vc_threshold cfg /\
  Z.of_nat (length (participants cfg t l)) = vc_threshold cfg /\
  NoDup (map fst (participants cfg t l)) /\ 0%nat ∈ map fst (participants cfg t l) /\
  (forall w, w ∈ map fst (participants cfg t l) -> is_Some (id_of cfg w)).

(** the parts [ps] sent to the participant with ID [pid] *)
Definition right_parts (cfg : vconf) (group : list (nat * list part)) (pid : Z) (ps : list part) : Prop :=
  (* at most one per participant, taken from its answer, addressed to [pid], made by a participant *)
  (exists givers, map snd givers = ps /\ NoDup (map fst givers) /\
     forall w p, (w, p) ∈ givers ->
       pt_dest p = pid /\ (exists w', w' ∈ map fst group /\ id_of cfg w' = Some (pt_source p)) /\
       exists ps1 ps2, (w, ps1 ++ p :: ps2) ∈ group /\ forall q, q ∈ ps1 -> pt_dest q <> pid) /\
  (* none left out *)
  (forall w ps1 p ps2, (w, ps1 ++ p :: ps2) ∈ group -> pt_dest p = pid ->
     (forall q, q ∈ ps1 -> pt_dest q <> pid) ->
     (exists w', w' ∈ map fst group /\ id_of cfg w' = Some (pt_source p)) -> p ∈ ps).

(** a record whose signature verifies for its bytes *)
Definition valid_record (C : Crypto) (pub : bytes) (c : consensus) : Prop :=
  exists sig, c_sig c = Some sig /\ cr_verify C pub (slice_of (c_sb c)) sig = true.

(** a follower's answer [r] reports the leader's answer [ans] *)
Definition reports (b : block) (ans : go_error + option bytes) (r : vresult) : Prop :=
  match ans with
  | inr sig => r = VR sig (b_ts b) None
  | inl e => exists e', r = VR None (b_ts b) (Some e') /\
      (e' = EvProxy e \/
       exists d rest, e = RPCErr d /\ e' = EvProxyBeyond d /\ d = beyond_prefix ++ rest /\ rest <> [])
  end.

(** the raft events of a run *)
Definition events (l : list (vop * vobs)) : list consensus :=
  omap (fun op => match op with VLss c => Some c | _ => None end) (ops_of l).

(** the shares our own cosigner gave are shares it released (in its own run [lc]) for the bytes it
    was asked to sign *)
Definition own_backed (l : list (vop * vobs)) (lc : list (cop * cobs)) : Prop :=
  forall t sb, gave_share l t 0 -> was_asked l t 0 sb -> released lc sb.
(** the same for all participants, found by ID in a cluster *)
Definition cluster_backed (cfg : vconf) (cl : cluster) (faulty : gset Z) (l : list (vop * vobs)) : Prop :=
  forall t w sb i, gave_share l t w -> was_asked l t w sb -> id_of cfg w = Some i ->
    exists nd, cl !! i = Some nd /\ (i ∉ faulty -> released (nd_log nd) sb).
(** at least threshold cosigners provided shares for [sb] *)
Definition quorum_for (cfg : vconf) (cl : cluster) (faulty : gset Z) (sb : bytes) : Prop :=
  exists q : gset Z, vc_threshold cfg <= Z.of_nat (size q) /\ signed_by cl faulty q sb.

(** no raft event for [k] *)
Definition no_event (k : hrs) (l : list (vop * vobs)) : Prop :=
  forall c, VLss c ∈ ops_of l -> c_hrs c <> k.

(** the records of a sign state are stored under their own key and satisfy [P] *)
Definition records (P : consensus -> Prop) (s : sign_state) : Prop :=
  forall k c, ss_cache s !! k = Some c -> c_hrs c = k /\ P c.

(** a call that is not collecting parts or shares *)
Definition outside (pc : vpc) : Prop :=
  match pc with PcProxy | PcInit | PcPoll _ | PcLate | PcDone => True | _ => False end.
(** the level [k] was initiated, has no record, and no call is working on it *)
Definition stuck_at (k : hrs) (st : vstate) : Prop :=
  hrs_le k (ss_hrs (vs_init st)) /\ ss_cache (vs_lss st) !! k = None /\
  forall t b pc, vs_threads st !! t = Some (Thread b pc) -> b_hrs b = k -> outside pc.

(** the bytes of a record have a quorum behind them *)
Definition backed (cfg : vconf) (cl : cluster) (faulty : gset Z) (c : consensus) : Prop :=
  quorum_for cfg cl faulty (slice_of (c_sb c)).
