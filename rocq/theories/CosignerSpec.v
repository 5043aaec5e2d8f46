(** Vocabulary for statements about runs of a cosigner. *)
From Verif Require Import GoBase Canonical SignState Spec Crypto LocalCosigner.

(** a signature share for [sb] was handed out in the run *)
Definition released (l : list (cop * cobs)) (sb : bytes) : Prop :=
  exists op r, (op, ObsShare sb r) ∈ l.

(** the height/round/step levels of the released shares and accepted last-signed-state events, in
    order *)
Definition level_of (o : cobs) : list hrs :=
  match o with
  | ObsShare sb _ => match unpack_hrst sb with Val k => [ht_hrs k] | _ => [] end
  | ObsLSS c true => [c_hrs c]
  | _ => []
  end.
Definition levels (l : list (cop * cobs)) : list hrs := flat_map (fun x => level_of (snd x)) l.

(** shares were released for no other bytes than [sb], and no last-signed-state event was
    accepted *)
Definition signs_only (sb : bytes) (l : list (cop * cobs)) : Prop :=
  forall op o, (op, o) ∈ l ->
    match o with
    | ObsShare sb' _ => sb' = sb
    | ObsLSS _ acc => acc = false
    | _ => True
    end.

(** no share above level [k] was released *)
Definition no_share_above (k : hrs) (l : list (cop * cobs)) : Prop :=
  forall op sb r k', (op, ObsShare sb r) ∈ l -> bytes_for sb k' -> ~ hrs_lt k k'.

(** [p] carries the share dealt to peer [id] in dealing [m] *)
Definition honest_part (C : Crypto) (cfg : cos_config) (m : meta) (id : Z) (p : part) : Prop :=
  pt_source p = cc_id cfg /\ pt_dest p = id /\ pt_eph p = cr_base C (m_secret m) /\
  exists pk share r,
    cc_peers cfg !! id = Some pk /\ 1 <= id /\ m_dealt m !! Z.to_nat (id - 1) = Some share /\
    cr_encrypt C pk share r = Some (pt_enc p) /\
    exists r' sig, pt_sig p = Some sig /\
      cr_rsa_sign C (cc_rsa cfg) (Payload (cc_id cfg) (pt_eph p) (pt_enc p)) r' = Some sig.

(** a secret part without a valid signature of a configured peer *)
Definition unauthenticated (C : Crypto) (cfg : cos_config) (p : part) : Prop :=
  pt_sig p = None \/ cc_peers cfg !! pt_source p = None \/
  exists sig pk, pt_sig p = Some sig /\ cc_peers cfg !! pt_source p = Some pk /\
    cr_rsa_verify C pk (Payload (pt_source p) (pt_eph p) (pt_enc p)) sig = false.

(** the parts stored for [k], in slot order *)
Definition slots (st : cos_state) (k : hrst) : list peer_meta :=
  match cs_meta st !! k with
  | None => []
  | Some m => default [] (cs_heap st !! m_ref m)
  end.

(** sign bytes of a vote or proposal (with a timestamp for which UnixNano is exact) of some chain,
    extracted correctly *)
Inductive canonical_bytes : bytes -> Prop :=
| CBVote chain v s b :
    vote_in_range chain v -> step_of_type (v_type v) s -> in_int64 (nanos_of (v_ts v)) ->
    vote_sign_bytes chain v = Val b ->
    unpack_hrst b = Val (HRST (HRS (v_height v) (v_round v) s) (nanos_of (v_ts v))) ->
    canonical_bytes b
| CBProposal chain p b :
    proposal_in_range chain p -> in_int64 (nanos_of (p_ts p)) ->
    proposal_sign_bytes chain p = Val b -> canonical_bytes b.

(** in the run, a part is only stored for keys the cosigner has metadata for at that moment *)
Definition sets_known (C : Crypto) (cfg : cos_config) (st : cos_state) (l : list (cop * cobs)) : Prop :=
  forall l1 k p rnd o l2 stm, l = l1 ++ (OpSet k p rnd, o) :: l2 -> crun C cfg st l1 stm ->
    is_Some (cs_meta stm !! k).

(** ** The key extraction attack *)

(** extended Euclid: [egcd n a b = (x, y)] with [x*a + y*b = gcd a b] for large enough [n] *)
Fixpoint egcd (n : nat) (a b : Z) : Z * Z :=
  match n with
  | O => (1, 0)
  | S n' => if b =? 0 then (1, 0)
            else let '(x, y) := egcd n' b (a mod b) in (y, x - (a / b) * y)
  end.
Definition inv_mod (L a : Z) : Z := (egcd (S (S (Z.to_nat L))) (a mod L) L).1.
(** what the attacker computes from two shares [s1], [s2] and their challenges *)
Definition extract (L s1 s2 c1 c2 : Z) : Z := ((s1 - s2) * inv_mod L (c1 - c2)) mod L.

(** tsed25519.SignWithShare: [s = k + H(R, A, M) x mod L] (threshold-ed25519 pkg/threshold.go) *)
Definition share_equation (C : Crypto) (L : Z) (sc : bytes -> Z) (ch : bytes -> bytes -> bytes -> Z) : Prop :=
  forall m x k A R s, cr_sign_share C m x k A R = Some s ->
    sc s mod L = (sc k + ch R A m * sc x) mod L.
