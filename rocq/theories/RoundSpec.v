(** Vocabulary for one honest signing round (C56, C66). *)
From Verif Require Import GoBase Canonical SignState Spec Crypto LocalCosigner Poly Scheme.

Section RoundSpec.
Context (C : Crypto) (R : reading).

(** The cosigner with share ID [i] of a [t]-of-[n] validator with public key [A]: its share is the
    value at [i] of the key polynomial [a], its RSA key is [sk i], and it knows a matching public
    key for every cosigner. *)
Definition member (a : list (rd_f R)) (sk : Z -> bytes) (n t : Z) (A : bytes) (i : Z)
    (cfg : cos_config) : Prop :=
  cc_id cfg = i /\ rd_is_scalar R (cc_share cfg) /\
  rd_scalar R (cc_share cfg) = peval (rd_f R) a (rd_id R i) /\
  cc_pub cfg = A /\ cc_rsa cfg = sk i /\ cc_total cfg = n /\ cc_threshold cfg = t /\
  forall j, 1 <= j <= n -> exists pk, cc_peers cfg !! j = Some pk /\ rsa_pair C R (sk j) pk.

(** nothing is known yet about [k], which is above everything signed *)
Definition unseen (st : cos_state) (k : hrst) : Prop :=
  cs_meta st !! k = None /\ hrs_lt (ss_hrs (cs_lss st)) (ht_hrs k).

(** cosigner [i] has dealt for [k], and stored its own part but none of another cosigner *)
Definition only_dealt (n t i : Z) (st : cos_state) (k : hrst) : Prop :=
  exists s r ref own, cs_meta st !! k = Some (Meta s (cr_deal C s r t n) ref) /\ rd_is_scalar R s /\
    cr_deal C s r t n !! Z.to_nat (i - 1) = Some own /\
    cs_heap st !! ref = Some (<[Z.to_nat (i - 1) := PM own (cr_base C s)]> (replicate (Z.to_nat n) empty_peer_meta)).
(** cosigner [i] has not signed at the level of [k] and holds no parts of others for it *)
Definition ready (n t i : Z) (st : cos_state) (k : hrst) : Prop :=
  (cs_meta st !! k = None \/ only_dealt n t i st k) /\ hrs_lt (ss_hrs (cs_lss st)) (ht_hrs k).

(** one request per cosigner of the cluster, in any order, with usable randomness *)
Definition asks_all (n : Z) (ids : list (Z * get_rnd)) : Prop :=
  Permutation (map fst ids) (seqZ 1 n) /\
  forall x, x ∈ ids -> exists s r, gr_deal (snd x) = Some (s, r) /\ rd_is_scalar R s.

(** [l] are the parts for [i] among the answers [ps] of the other participants, in any order *)
Definition parts_of_others (P : list Z) (ps : Z -> list part) (i : Z) (l : list part) : Prop :=
  exists js, Permutation (i :: js) P /\ Forall2 (fun j p => p ∈ ps j /\ pt_dest p = i) js l.
End RoundSpec.

(** ** The leader *)
From Verif Require Import Validator.

(** share ID of a participant (0 is the leader itself) *)
Definition idw (cfg : vconf) (w : nat) : Z := match id_of cfg w with Some i => i | None => 0 end.
(** the answers of the participants *)
Definition answers (cfg : vconf) (ws : list nat) (ps : Z -> list part) : list (nat * list part) :=
  map (fun w => (w, ps (idw cfg w))) ws.
(** What happens in an undisturbed call [t] for [b] with the peers [ws], in this order: cosigner
    [i] answers [ps i] when asked for parts; the participants are asked to sign in the order [asked]
    (the goroutine for [w] iterating over the parts in the order [ords w]) and answer in the order
    [ans], cosigner [i] with [sig i] and the nonce point [E]. *)
Record schedule := Schedule {
  sd_peers : list nat; sd_asked : list nat; sd_order : nat -> list (nat * list part); sd_ans : list nat }.
Definition honest_ops (cfg : vconf) (t : nat) (b : block) (sd : schedule) (ps : Z -> list part)
    (sig : Z -> bytes) (E : bytes) (emitted : bool) : list vop :=
  [VCall t b RLeader; VInit t] ++ map (fun w => VParts t w (Some (ps (idw cfg w)))) (sd_peers sd) ++
  [VOwn t (Some (ps (vc_id cfg))); VGo t] ++
  map (fun w => VAsk t w (sd_order sd w)) (sd_asked sd) ++
  map (fun w => VSig t w (Some (sig (idw cfg w), E))) (sd_ans sd) ++
  [VFinish t; VSave t; VEmit t emitted].
(** the participants *)
Definition sd_all (sd : schedule) : list nat := sd_peers sd ++ [0%nat].
Definition fair (cfg : vconf) (sd : schedule) (ps : Z -> list part) : Prop :=
  Permutation (sd_asked sd) (sd_all sd) /\ Permutation (sd_ans sd) (sd_all sd) /\
  forall w, w ∈ sd_all sd -> Permutation (sd_order sd w) (answers cfg (sd_all sd) ps).

(** every cosigner of [1..n] once, this one first *)
Definition all_ids (cfg : vconf) (n : Z) : Prop :=
  Permutation (vc_id cfg :: vc_peers cfg) (seqZ 1 n).
(** [t]-1 distinct peers *)
Definition quorum (cfg : vconf) (ws : list nat) : Prop :=
  NoDup ws /\ 0%nat ∉ ws /\ (forall w, w ∈ ws -> is_Some (id_of cfg w)) /\
  Z.of_nat (length ws) = vc_threshold cfg - 1.
