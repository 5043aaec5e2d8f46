(** Vocabulary for statements about sign bytes and privval requests with arbitrary fields: what the
    fields mean by the definitions of tendermint (proto/tendermint/types/canonical.proto, types.proto,
    privval/types.proto). The generated code refuses a field that has another wire type than declared. *)
From Verif Require Import GoBase Wire Canonical Privval RpcFieldsSpec.
Local Open Scope Z_scope.

(** the 64-bit values given for field [n] *)
Definition fixeds (n : Z) (fs : list field) : list Z :=
  omap (fun f => match f with (k, FFixed64 v) => if k =? n then Some v else None | _ => None end) fs.
Definition last_fixed (n : Z) (fs : list field) : Z := default 0 (list.last (fixeds n fs)).

(** field numbers with their wire types *)
Definition typed (d : list (Z * Z)) (fs : list field) : Prop :=
  forall f w, f ∈ fs -> (fst f, w) ∈ d -> wire_type (snd f) = w.
Definition mistyped (d : list (Z * Z)) (fs : list field) : Prop :=
  exists f w, f ∈ fs /\ (fst f, w) ∈ d /\ wire_type (snd f) <> w.
Definition time_decl : list (Z * Z) := [(1, 0); (2, 0)].
Definition psh_decl : list (Z * Z) := [(1, 0); (2, 2)].
Definition bid_decl : list (Z * Z) := [(1, 2); (2, 2)].
Definition vote_decl : list (Z * Z) := [(1, 0); (2, 1); (3, 1); (4, 2); (5, 2); (6, 2)].
Definition proposal_decl : list (Z * Z) := [(1, 0); (2, 1); (3, 1); (4, 0); (5, 2); (6, 2); (7, 2)].
Definition pvote_decl : list (Z * Z) := [(1, 0); (2, 0); (3, 0); (4, 2); (5, 2); (6, 2); (7, 0); (8, 2)].
Definition pprop_decl : list (Z * Z) := [(1, 0); (2, 0); (3, 0); (4, 0); (5, 2); (6, 2); (7, 2)].
Definition request_decl : list (Z * Z) := [(1, 2); (2, 2)].

(** seconds and nanoseconds, in the years 1 to 9999 *)
Definition time_meant (fs : list field) : time := Time (signed 64 (last_int 1 fs)) (signed 32 (last_int 2 fs)).
Definition in_years (t : time) : Prop :=
  -62135596800 <= t_secs t < 253402300800 /\ 0 <= t_nanos t < 1000000000.
Definition times (n : Z) (fs : list field) (ts : list (list field)) : Prop :=
  submessages n fs ts /\ Forall (fun t => typed time_decl t /\ in_years (time_meant t)) ts.
(** a time given again replaces the one before; the zero time of Go if none is given *)
Definition last_time (ts : list (list field)) : time :=
  match list.last ts with Some t => time_meant t | None => Time (-62135596800) 0 end.

(** block IDs: messages with messages in field 2; given in pieces they are merged *)
Definition block_ids (n : Z) (fs : list field) (bs hs : list (list field)) : Prop :=
  submessages n fs bs /\ Forall (typed bid_decl) bs /\
  submessages 2 (concat bs) hs /\ Forall (typed psh_decl) hs.
Definition bid_meant (bs hs : list (list field)) : block_id :=
  BID (last_bytes 1 (concat bs)) (PSH (last_int 1 (concat hs) mod 2 ^ 32) (last_bytes 2 (concat hs))).

(** sign bytes of a vote *)
Definition vote_reads (fs : list field) (v : canonical_vote) : Prop :=
  Forall field_ok fs /\ typed vote_decl fs /\
  exists bs hs ts, block_ids 4 fs bs hs /\ times 5 fs ts /\
    v = CVote (signed 32 (last_int 1 fs)) (signed 64 (last_fixed 2 fs)) (signed 64 (last_fixed 3 fs))
          (if bs then None else Some (bid_meant bs hs)) (last_time ts) (last_bytes 6 fs).
(** sign bytes of a proposal *)
Definition proposal_reads (fs : list field) (p : canonical_proposal) : Prop :=
  Forall field_ok fs /\ typed proposal_decl fs /\
  exists bs hs ts, block_ids 5 fs bs hs /\ times 6 fs ts /\
    p = CProp (signed 32 (last_int 1 fs)) (signed 64 (last_fixed 2 fs)) (signed 64 (last_fixed 3 fs)) (signed 64 (last_int 4 fs))
          (if bs then None else Some (bid_meant bs hs)) (last_time ts) (last_bytes 7 fs).
(** reasons why fields are not a message: a declared field of another wire type, here, in a block ID
    (field [b]) or a time (field [t]), or a time out of range *)
Definition refused (d : list (Z * Z)) (b t : Z) (fs : list field) : Prop :=
  Forall field_ok fs /\
  (mistyped d fs \/
   exists sub, Forall field_ok sub /\
     ((enc sub ∈ byte_vals b fs /\ mistyped bid_decl sub) \/
      (enc sub ∈ byte_vals t fs /\ (mistyped time_decl sub \/ typed time_decl sub /\ ~ in_years (time_meant sub))))).
(** nanoseconds since 1970, in 64 bits *)
Definition nanos (t : time) : Z := signed 64 (t_secs t * 1000000000 + t_nanos t).

(** a vote and a proposal in a request of a chain node *)
Definition pvote_reads (fs : list field) (v : pvote) : Prop :=
  Forall field_ok fs /\ typed pvote_decl fs /\
  exists bs hs ts, block_ids 4 fs bs hs /\ times 5 fs ts /\
    v = PVote (Vote (signed 32 (last_int 1 fs)) (signed 64 (last_int 2 fs)) (signed 32 (last_int 3 fs)) (bid_meant bs hs) (last_time ts))
          (last_bytes 6 fs) (signed 32 (last_int 7 fs)) (last_bytes 8 fs).
Definition pprop_reads (fs : list field) (p : pprop) : Prop :=
  Forall field_ok fs /\ typed pprop_decl fs /\
  exists bs hs ts, block_ids 5 fs bs hs /\ times 6 fs ts /\
    p = PProp (signed 32 (last_int 1 fs))
          (Proposal (signed 64 (last_int 2 fs)) (signed 32 (last_int 3 fs)) (signed 32 (last_int 4 fs)) (bid_meant bs hs) (last_time ts))
          (last_bytes 7 fs).
(** a request: the vote or proposal in field 1, possibly in pieces, the chain ID in field 2 *)
Definition request_reads {A} (reads : list field -> A -> Prop) (fs : list field) (m : option A) (chain : bytes) : Prop :=
  Forall field_ok fs /\ typed request_decl fs /\
  exists ms, submessages 1 fs ms /\ chain = last_bytes 2 fs /\
    match m with None => ms = [] | Some x => ms <> [] /\ reads (concat ms) x end.
(** fields that no message of the privval protocol has *)
Definition foreign (fs : list field) : Prop := Forall (fun f => field_ok f /\ 8 < fst f) fs.
