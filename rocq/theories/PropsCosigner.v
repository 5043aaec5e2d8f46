(** C05-C17, C22, C61: the local cosigner (signer/local_cosigner.go).

    A run [crun C cfg st l st'] is any sequence of atomic steps (one per acquisition of the
    cosigner's mutex): serving a secret part, storing one, signing, handling a last-signed-state
    event - with arbitrary arguments, from an arbitrary starting state. *)
From Coq Require Import Znumtheory Sorting.Sorted.
From Verif Require Import GoBase Wire Canonical SignState Spec Crypto LocalCosigner CosignerSpec
  CanonicalApi CosignerProofs CosignerProofs2 ExtractProofs Toy CosignerWitness.

(** C05 *)
Theorem C05_no_conflicting_shares : forall C cfg st l st' a b k,
  crun C cfg st l st' -> released l a -> released l b -> bytes_for a k -> bytes_for b k ->
  same_message_but_time a b.
Proof. exact no_conflict. Qed.

(** C06: every released share has a level, and the levels of the shares and accepted events, in
    order and preceded by the starting watermark, never decrease *)
Theorem C06_levels_never_decrease : forall C cfg st l st',
  crun C cfg st l st' ->
  (forall sb, released l sb -> exists k, bytes_for sb k) /\
  StronglySorted hrs_le (ss_hrs (cs_lss st) :: levels l).
Proof.
  exact (fun C cfg st l st' H =>
    conj (fun sb => released_level C cfg st l st' sb H) (proj1 (levels_sorted C cfg st l st' H))).
Qed.

(** C07 holds as long as no other timestamp was signed in between *)
Theorem C07_retry_partial : forall C cfg st sb st1 r l st2,
  sign C cfg st sb = (st1, Val r) -> ss_sb (cs_lss st1) = Some sb ->
  crun C cfg st1 l st2 -> signs_only sb l ->
  exists r', sign C cfg st2 sb = (st2, Val r') /\ sr_eph r' = sr_eph r /\ sr_sig r' = sr_sig r.
Proof. exact retry_same. Qed.
(** C07 is false in general: [sb] is still the last signed bytes, but the ephemeral public key
    returned belongs to another share *)
Theorem C07_retry_refuted : exists st sb st1 r1 l st2 r2,
  sign toy wcfg1 st sb = (st1, Val r1) /\ ss_sb (cs_lss st1) = Some sb /\
  crun toy wcfg1 st1 l st2 /\ ss_sb (cs_lss st2) = Some sb /\
  ss_hrs (cs_lss st2) = ss_hrs (cs_lss st1) /\
  sign toy wcfg1 st2 sb = (st2, Val r2) /\
  sr_sig r2 = sr_sig r1 /\ sr_eph r2 <> sr_eph r1.
Proof. exact mixed_retry. Qed.

(** C08 for the key proper: on sign bytes of real votes and proposals, equal keys mean equal
    bytes *)
Theorem C08_same_key_same_bytes_partial : forall C cfg st l st' a b k,
  crun C cfg st l st' -> released l a -> released l b -> canonical_bytes a -> canonical_bytes b ->
  unpack_hrst a = Val k -> unpack_hrst b = Val k -> a = b.
Proof. exact canonical_same_key. Qed.
(** C08 is false, for every cosigner and every fresh share: appending bytes to the message gives a
    different message that is signed with the same nonce share [es] and ephemeral key [ep] *)
Theorem C08_trailing_bytes_refuted : forall C cfg st sb st1 r1 t sig2 es,
  sign C cfg st sb = (st1, Val r1) -> hrs_lt (ss_hrs (cs_lss st)) (ss_hrs (cs_lss st1)) -> t <> [] ->
  forall ep, sr_eph r1 = Some ep ->
  (exists k m, unpack_hrst sb = Val k /\ cs_meta st !! k = Some m /\
     cr_add_scalars C (map pm_share (used_parts (peers_of st m))) = Some es) ->
  cr_sign_share C (sb ++ t) (cc_share cfg) es (cc_pub cfg) ep = Some sig2 ->
  exists st2, sign C cfg st1 (sb ++ t) = (st2, Val (SignResp (Some ep) (Some sig2) true)) /\
  exists sig1, sr_sig r1 = Some sig1 /\
    cr_sign_share C sb (cc_share cfg) es (cc_pub cfg) ep = Some sig1.
Proof. exact nonce_reuse. Qed.
(** C08 is false even for canonical bytes: keys that differ in the timestamp can share their
    nonce (including the cosigner's own contribution) *)
Theorem C08_aliased_keys_refuted : exists l st a b ra rb,
  crun toy wcfg1 wst0 l st /\ (OpSign a, ObsShare a ra) ∈ l /\ (OpSign b, ObsShare b rb) ∈ l /\
  a <> b /\ canonical_bytes a /\ canonical_bytes b /\
  sr_fresh ra = true /\ sr_fresh rb = true /\
  sr_eph ra = sr_eph rb /\ sr_sig ra <> sr_sig rb /\
  (exists p own, (OpGet (zero_key (wkey 11 1)) 2 (wrnd x21), ObsPart p) ∈ l /\
     slots (wafter alias_ops) (wkey 11 2) !! 0%nat = Some own /\ pm_share own <> [] /\
     pm_eph own = pt_eph p).
Proof. exact alias_nonce. Qed.

(** C09 is false for every cosigner: after any fresh share, one more signing request (the same
    bytes with something appended) lets the caller compute the private key share from the two
    responses. [extract] only uses the responses and the two public challenges. *)
Theorem C09_key_extraction_refuted : forall C cfg L sc ch st sb st1 r1 t,
  prime L -> share_equation C L sc ch ->
  (forall m x k A R, cr_sign_share C m x k A R <> None) ->
  sign C cfg st sb = (st1, Val r1) -> hrs_lt (ss_hrs (cs_lss st)) (ss_hrs (cs_lss st1)) ->
  t <> [] ->
  (forall R, (ch R (cc_pub cfg) sb - ch R (cc_pub cfg) (sb ++ t)) mod L <> 0) ->
  exists st2 r2 R s1 s2,
    sign C cfg st1 (sb ++ t) = (st2, Val r2) /\
    sr_eph r1 = Some R /\ sr_sig r1 = Some s1 /\ sr_eph r2 = Some R /\ sr_sig r2 = Some s2 /\
    extract L (sc s1) (sc s2) (ch R (cc_pub cfg) sb) (ch R (cc_pub cfg) (sb ++ t))
      = sc (cc_share cfg) mod L.
Proof. exact extraction_attack. Qed.
(** the whole attack on a concrete cosigner *)
Theorem C09_key_extraction_run_refuted : exists l st s1 s2 r1 r2 R,
  crun toy wcfg1 wst0 l st /\
  (OpSign (wsb 11 x0a 1), ObsShare (wsb 11 x0a 1) r1) ∈ l /\
  (OpSign (wsb 11 x0a 1 ++ [x00]), ObsShare (wsb 11 x0a 1 ++ [x00]) r2) ∈ l /\
  sr_sig r1 = Some s1 /\ sr_sig r2 = Some s2 /\ sr_eph r1 = Some R /\ sr_eph r2 = Some R /\
  extract toy_q (toy_dec s1) (toy_dec s2) (toy_ch R (cc_pub wcfg1) (wsb 11 x0a 1))
    (toy_ch R (cc_pub wcfg1) (wsb 11 x0a 1 ++ [x00])) = toy_dec (cc_share wcfg1).
Proof. exact append_extracts. Qed.

(** C09 is false even for canonical requests in proper order: the vote of height 11 is signed, then
    signed with a second timestamp; peer 2 then replaces its own part and has it signed once more.
    It knows both its parts ([wplain]) and computes the key share. *)
Theorem C09_replaced_part_refuted : exists l st p1 p2 s1 s2 r1 r2 R1 R2,
  crun toy wcfg1 wst0 l st /\
  (forall op o, (op, o) ∈ l -> match op with OpSign sb => canonical_bytes sb | _ => True end) /\
  l !! 4%nat = Some (OpSet (wkey 11 2) p1 None, ObsSetOk) /\ pt_source p1 = 2 /\
  l !! 5%nat = Some (OpSign (wsb 11 x0a 2), ObsShare (wsb 11 x0a 2) r1) /\
  l !! 6%nat = Some (OpSet (wkey 11 2) p2 None, ObsSetOk) /\ pt_source p2 = 2 /\
  l !! 7%nat = Some (OpSign (wsb 11 x0a 2), ObsShare (wsb 11 x0a 2) r2) /\
  sr_sig r1 = Some s1 /\ sr_sig r2 = Some s2 /\ sr_eph r1 = Some R1 /\ sr_eph r2 = Some R2 /\
  extract toy_q (toy_dec s1 - wplain p1) (toy_dec s2 - wplain p2)
    (toy_ch R1 (cc_pub wcfg1) (wsb 11 x0a 2)) (toy_ch R2 (cc_pub wcfg1) (wsb 11 x0a 2)) = toy_dec (cc_share wcfg1).
Proof. exact replace_extracts. Qed.

(** C61 is false for every cosigner: a single peer that sends one part for a key the cosigner has
    not dealt for knows the nonce share, and computes the key share from the response *)
Theorem C61_lone_peer_refuted : forall C cfg L sc ch st sb k p rnd pk sig x es R,
  prime L -> share_equation C L sc ch -> (forall m x k A R, cr_sign_share C m x k A R <> None) ->
  unpack_hrst sb = Val k -> hrs_lt (ss_hrs (cs_lss st)) (ht_hrs k) ->
  cs_meta st !! k = None -> cs_meta st !! zero_key k = None ->
  pt_sig p = Some sig -> cc_peers cfg !! pt_source p = Some pk ->
  cr_rsa_verify C pk (Payload (pt_source p) (pt_eph p) (pt_enc p)) sig = true ->
  1 <= pt_source p <= cc_total cfg ->
  cr_decrypt C (cc_rsa cfg) (pt_enc p) = Some x -> x <> [] ->
  cr_add_scalars C [x] = Some es -> length es = 32%nat -> cr_sc_minimal C es = true ->
  cr_add_elements C [pt_eph p] = Some R -> (ch R (cc_pub cfg) sb) mod L <> 0 ->
  exists st1 st2 s,
    cstep C cfg st (OpSet k p (Some rnd)) = Some (st1, ObsSetOk) /\
    cstep C cfg st1 (OpSign sb) = Some (st2, ObsShare sb (SignResp (Some R) (Some s) true)) /\
    extract L (sc s) (sc es) (ch R (cc_pub cfg) sb) 0 = sc (cc_share cfg) mod L.
Proof. exact lone_peer_attack. Qed.

(** C10, what holds: an accepted part was signed by the configured peer it names, and is stored in
    that peer's slot only *)
Theorem C10_accepted_part_partial : forall C cfg st k p rnd st',
  set_part C cfg st k p rnd = (st', Val tt) ->
  exists sig pk share,
    pt_sig p = Some sig /\ cc_peers cfg !! pt_source p = Some pk /\
    cr_rsa_verify C pk (Payload (pt_source p) (pt_eph p) (pt_enc p)) sig = true /\
    cr_decrypt C (cc_rsa cfg) (pt_enc p) = Some share /\
    1 <= pt_source p /\
    slots st' k !! Z.to_nat (pt_source p - 1) = Some (PM share (pt_eph p)) /\
    (forall i, i <> Z.to_nat (pt_source p - 1) -> cs_meta st !! k <> None ->
       slots st' k !! i = slots st k !! i) /\
    cs_lss st' = cs_lss st.
Proof. exact accepted_part. Qed.
(** C10 is false: whatever part a peer issued for [k1] is accepted for any other [k2] *)
Theorem C10_replay_refuted : forall C pub cfgA cfgB sA k1 rnd sA' p,
  rsa_correct C pub ->
  get_part C cfgA sA k1 (cc_id cfgB) rnd = (sA', Val p) ->
  cc_peers cfgB !! cc_id cfgA = Some (pub (cc_rsa cfgA)) ->
  cc_peers cfgA !! cc_id cfgB = Some (pub (cc_rsa cfgB)) ->
  1 <= cc_id cfgA <= cc_total cfgB ->
  forall sB k2 rnd', cs_meta sB !! k2 = None -> cs_meta sB !! zero_key k2 = None ->
  exists sB', set_part C cfgB sB k2 p (Some rnd') = (sB', Val tt).
Proof. exact replay_accepted. Qed.

(** C11 *)
Theorem C11_unauthenticated_part : forall C cfg st k p rnd,
  unauthenticated C cfg p -> exists e, set_part C cfg st k p rnd = (st, Fail e).
Proof. exact unauthenticated_rejected. Qed.
Theorem C11_unauthenticated_request : forall C cfg st k ps sb p rnd,
  (p, rnd) ∈ ps -> unauthenticated C cfg p ->
  forall st' o, set_and_sign C cfg st k ps sb = (st', o) ->
  cs_lss st' = cs_lss st /\ forall r, o <> Val r.
Proof. exact unauthenticated_request. Qed.

(** C12 for a call that is not interleaved with a signature; [ids] is the (arbitrary) order in
    which Go ranges over the peers map *)
Theorem C12_parts_shape_partial : forall C cfg st k ids st' ps,
  map fst ids ≡ₚ map fst (map_to_list (cc_peers cfg)) ->
  get_parts C cfg st k ids = (st', Val ps) ->
  NoDup (map pt_dest ps) /\
  (forall id, id ∈ map pt_dest ps <-> is_Some (cc_peers cfg !! id) /\ id <> cc_id cfg) /\
  cs_lss st' = cs_lss st /\
  (ps <> [] -> exists m, cs_meta st' !! k = Some m /\
     (forall p, p ∈ ps -> honest_part C cfg m (pt_dest p) p) /\
     (forall m', cs_meta st !! k = Some m' -> m' = m) /\
     exists own, m_dealt m !! Z.to_nat (cc_id cfg - 1) = Some own /\
       slots st' k !! Z.to_nat (cc_id cfg - 1) = Some (PM own (cr_base C (m_secret m)))).
Proof. exact get_parts_shape. Qed.
(** C12 is false when a share at a higher level is signed between two parts of the same call *)
Theorem C12_interleaving_refuted : exists l st p q,
  crun toy wcfg1 wst0 l st /\
  (OpGet (wkey 11 1) 2 (wrnd x21), ObsPart p) ∈ l /\
  (OpGet (wkey 11 1) 3 (wrnd x29), ObsPart q) ∈ l /\ pt_eph p <> pt_eph q.
Proof. exact interleaved_parts. Qed.

(** C13 *)
Theorem C13_dealing_stable : forall C cfg st l st' k m,
  crun C cfg st l st' -> cs_meta st !! k = Some m -> no_share_above (ht_hrs k) l ->
  cs_meta st' !! k = Some m /\
  forall id rnd p, (OpGet k id rnd, ObsPart p) ∈ l -> honest_part C cfg m id p.
Proof. exact crun_meta_stable. Qed.

(** C14, first half *)
Theorem C14_prune_exact_partial : forall C cfg st sb st' r k,
  sign C cfg st sb = (st', Val r) -> bytes_for sb k -> sr_fresh r = true ->
  forall k', cs_meta st' !! k' =
    if decide (hrs_lt (ht_hrs k') k) then None else cs_meta st !! k'.
Proof.
  exact (fun C cfg st sb st' r k H Hb Hf =>
    proj1 (sign_case_meta C cfg st sb st' r k (sign_spec C cfg st sb st' (Val r) H) Hb) Hf).
Qed.
(** C14, second half, is false *)
Theorem C14_parts_below_level_refuted : exists l st p,
  crun toy wcfg1 wst0 (l ++ [(OpGet (wkey 11 1) 3 (wrnd x29), ObsPart p)]) st /\
  released l (wsb 12 x0a 1) /\ bytes_for (wsb 12 x0a 1) (HRS 12 0 3) /\
  hrs_lt (ht_hrs (wkey 11 1)) (HRS 12 0 3).
Proof. exact parts_below_level. Qed.

(** C15 is false, for every cosigner: requests that are answered with an error (unknown peer) fill
    the metadata without bound *)
Theorem C15_metadata_unbounded_refuted : forall C cfg (s r : bytes) id n st0,
  (forall s r, length (cr_deal C s r (cc_threshold cfg) (cc_total cfg)) = Z.to_nat (cc_total cfg)) ->
  1 <= cc_id cfg <= cc_total cfg -> cc_peers cfg !! id = None ->
  exists l st, crun C cfg (new_cosigner st0) l st /\ size (cs_meta st) = n /\
    (forall op o, (op, o) ∈ l -> o = ObsErr EUnknownPeer) /\
    (forall t, Z.of_nat n <= t -> cs_meta st !! HRST (HRS 1 0 1) t = None).
Proof. exact metadata_unbounded. Qed.

(** C16 holds as long as parts are only stored for keys the cosigner has dealt for (which the
    protocol does by calling GetEphemeralSecretParts first) *)
Theorem C16_independent_partial : forall C cfg lss l st k1 k2 p rnd st',
  crun C cfg (new_cosigner lss) (l ++ [(OpSet k1 p rnd, ObsSetOk)]) st' ->
  sets_known C cfg (new_cosigner lss) (l ++ [(OpSet k1 p rnd, ObsSetOk)]) ->
  crun C cfg (new_cosigner lss) l st -> k1 <> k2 -> slots st' k2 = slots st k2.
Proof. exact independent. Qed.
(** C16 is false otherwise *)
Theorem C16_aliasing_refuted : exists st k1 k2 p st',
  (exists l, crun toy wcfg1 wst0 l st) /\ k1 <> k2 /\
  cstep toy wcfg1 st (OpSet k1 p None) = Some (st', ObsSetOk) /\
  map pm_share (used_parts (slots st k2)) <> [] /\
  cr_add_scalars toy (map pm_share (used_parts (slots st' k2))) <>
  cr_add_scalars toy (map pm_share (used_parts (slots st k2))).
Proof. exact alias_slots. Qed.

(** C17: success means the sign bytes themselves are at or above the watermark, and the recorded
    state is theirs, whatever key [k] was claimed *)
Theorem C17_level_from_bytes : forall C cfg st k ps sb st' r,
  set_and_sign C cfg st k ps sb = (st', Val r) ->
  exists lvl, bytes_for sb lvl /\ hrs_le (ss_hrs (cs_lss st)) lvl /\ ss_hrs (cs_lss st') = lvl /\
    (hrs_lt (ss_hrs (cs_lss st)) lvl -> ss_sb (cs_lss st') = Some sb /\ ss_sig (cs_lss st') = sr_sig r
                                       /\ ss_eph (cs_lss st') = sr_eph r) /\
    (lvl = ss_hrs (cs_lss st) -> ss_sb (cs_lss st') = ss_sb (cs_lss st) /\
                                 ss_sig (cs_lss st') = ss_sig (cs_lss st)).
Proof. exact set_and_sign_level. Qed.
(** C17: recorded bytes and recorded level agree throughout every run, provided they do at the
    start and in the events received *)
Theorem C17_record_consistent : forall C cfg st l st',
  crun C cfg st l st' ->
  (forall sb, ss_sb (cs_lss st) = Some sb -> bytes_for sb (ss_hrs (cs_lss st))) ->
  (forall c sb, (OpLSS c, ObsLSS c true) ∈ l -> c_sb c = Some sb -> bytes_for sb (c_hrs c)) ->
  forall sb, ss_sb (cs_lss st') = Some sb -> bytes_for sb (ss_hrs (cs_lss st')).
Proof. exact crun_consistent. Qed.

(** C22 is false at the API: these three bytes crash every cosigner in every state *)
Theorem C22_cosigner_panics_refuted : forall C cfg st,
  cstep C cfg st (OpSign [x02; x22; x00]) = None.
Proof. exact (fun C cfg st => sign_panics C cfg st _ unpack_panic_witness). Qed.

Print Assumptions C05_no_conflicting_shares.
Print Assumptions C06_levels_never_decrease.
Print Assumptions C07_retry_partial.
Print Assumptions C07_retry_refuted.
Print Assumptions C08_same_key_same_bytes_partial.
Print Assumptions C08_trailing_bytes_refuted.
Print Assumptions C08_aliased_keys_refuted.
Print Assumptions C09_key_extraction_refuted.
Print Assumptions C09_key_extraction_run_refuted.
Print Assumptions C09_replaced_part_refuted.
Print Assumptions C61_lone_peer_refuted.
Print Assumptions C10_accepted_part_partial.
Print Assumptions C10_replay_refuted.
Print Assumptions C11_unauthenticated_part.
Print Assumptions C11_unauthenticated_request.
Print Assumptions C12_parts_shape_partial.
Print Assumptions C12_interleaving_refuted.
Print Assumptions C13_dealing_stable.
Print Assumptions C14_prune_exact_partial.
Print Assumptions C14_parts_below_level_refuted.
Print Assumptions C15_metadata_unbounded_refuted.
Print Assumptions C16_independent_partial.
Print Assumptions C16_aliasing_refuted.
Print Assumptions C17_level_from_bytes.
Print Assumptions C17_record_consistent.
Print Assumptions C22_cosigner_panics_refuted.

(** ** Non-vacuity *)

(** C05, C06, C08: a run with three shares, two of them at the same level, and a refused one *)
Example ex_honest_run :
  crun toy wcfg1 wst0 (wtrace honest_ops) (wafter honest_ops) /\
  map (fun x => is_share (snd x)) (wtrace honest_ops)
    = [false; false; true; false; false; true; false; false; true; false] /\
  (exists e, wtrace honest_ops !! 9%nat = Some (OpSign (wsb 12 x0c 3), ObsErr (EDiffer e))).
Proof. exact honest_run. Qed.
Example ex_same_level : released (wtrace honest_ops) (wsb 12 x0b 1) /\
  released (wtrace honest_ops) (wsb 12 x0b 2) /\
  bytes_for (wsb 12 x0b 1) (HRS 12 0 3) /\ bytes_for (wsb 12 x0b 2) (HRS 12 0 3) /\
  wsb 12 x0b 1 <> wsb 12 x0b 2.
Proof.
  set (f := fun n => match wtrace honest_ops !! n with Some (_, ObsShare _ r) => r | _ => SignResp None None false end).
  split. { exists (OpSign (wsb 12 x0b 1)), (f 5%nat). apply elem_of_list_lookup. exists 5%nat. vm_compute. reflexivity. }
  split. { exists (OpSign (wsb 12 x0b 2)), (f 8%nat). apply elem_of_list_lookup. exists 8%nat. vm_compute. reflexivity. }
  split. { exists 1600000000000000001. vm_compute. reflexivity. }
  split. { exists 1600000000000000002. vm_compute. reflexivity. }
  vm_compute. discriminate.
Qed.
Example ex_levels : levels (wtrace honest_ops) = [HRS 11 0 3; HRS 12 0 3; HRS 12 0 3].
Proof. vm_compute. reflexivity. Qed.
(** C07, C13, C14, C17: the parts of the same run satisfy the hypotheses *)
Example ex_retry : exists st1 r, sign toy wcfg1 (wafter (take 2 honest_ops)) (wsb 11 x0a 1) = (st1, Val r)
  /\ ss_sb (cs_lss st1) = Some (wsb 11 x0a 1) /\ sr_fresh r = true
  /\ hrs_lt (ss_hrs (cs_lss (wafter (take 2 honest_ops)))) (ss_hrs (cs_lss st1))
  /\ cs_meta (wafter (take 2 honest_ops)) !! wkey 11 1 <> None.
Proof.
  set (s := sign toy wcfg1 (wafter (take 2 honest_ops)) (wsb 11 x0a 1)).
  exists (fst s), (match snd s with Val r => r | _ => SignResp None None false end).
  split. { vm_compute. reflexivity. }
  split. { vm_compute. reflexivity. }
  split. { vm_compute. reflexivity. }
  split. { left. vm_compute. reflexivity. }
  vm_compute. discriminate.
Qed.
(** C09, C61: the toy scheme has a prime order and satisfies the share equation; C61's attack is
    carried out *)
Example ex_share_equation : prime toy_q /\ share_equation toy toy_q toy_dec toy_ch.
Proof. exact (conj toy_prime toy_share_equation). Qed.
Example ex_lone_peer : exists st1 st2 s R,
  cstep toy wcfg1 wst0 (OpSet (wkey 11 1) (wpart (wkey 11 1) x31)
     (Some (replicate 32 x11, replicate 32 x07))) = Some (st1, ObsSetOk) /\
  cstep toy wcfg1 st1 (OpSign (wsb 11 x0a 1)) =
    Some (st2, ObsShare (wsb 11 x0a 1) (SignResp (Some R) (Some s) true)) /\
  extract toy_q (toy_dec s)
    (toy_dec (default [] (toy_deal (replicate 32 x31) (replicate 32 x07) 2 3 !! 0%nat)))
    (toy_ch R (cc_pub wcfg1) (wsb 11 x0a 1)) 0 = toy_dec (cc_share wcfg1).
Proof.
  set (st1 := (set_part toy wcfg1 wst0 (wkey 11 1) (wpart (wkey 11 1) x31)
     (Some (replicate 32 x11, replicate 32 x07))).1).
  set (s2 := sign toy wcfg1 st1 (wsb 11 x0a 1)).
  set (r := match snd s2 with Val r => r | _ => SignResp None None false end).
  exists st1, (fst s2), (default [] (sr_sig r)), (default [] (sr_eph r)).
  split. { vm_compute. reflexivity. }
  split. { vm_compute. reflexivity. }
  vm_compute. reflexivity.
Qed.
(** C10, C12: an issued part; its replay *)
Example ex_replay : exists st p stB,
  get_part toy wcfg2 wst0 (wkey 11 1) 1 (wrnd x31) = (st, Val p) /\
  set_part toy wcfg1 wst0 (wkey 99 7) p (Some (replicate 32 x11, replicate 32 x07)) = (stB, Val tt) /\
  slots stB (wkey 99 7) <> [].
Proof. exact toy_replay. Qed.
Example ex_get_parts : exists st' p q,
  get_parts toy wcfg1 wst0 (wkey 11 1) [(1, wrnd x01); (3, wrnd x02); (2, wrnd x03)]
    = (st', Val [p; q]) /\ pt_dest p = 3 /\ pt_dest q = 2.
Proof.
  set (s := get_parts toy wcfg1 wst0 (wkey 11 1) [(1, wrnd x01); (3, wrnd x02); (2, wrnd x03)]).
  set (f := fun n => match snd s with Val l => default (wpart (wkey 11 1) x31) (l !! n) | _ => wpart (wkey 11 1) x31 end).
  exists (fst s), (f 0%nat), (f 1%nat).
  split. { vm_compute. reflexivity. }
  split; vm_compute; reflexivity.
Qed.
(** C11: a part with a wrong signature *)
Example ex_unauthenticated :
  unauthenticated toy wcfg1 (Part 2 1 [x01] [x02] (Some [x09])) /\
  unauthenticated toy wcfg1 (Part 8 1 [x01] [x02] (Some [x09])).
Proof.
  split.
  - right; right. exists [x09], [x02]. split; [done|]. split; vm_compute; reflexivity.
  - right; left. vm_compute. reflexivity.
Qed.
(** C15: the toy dealer *)
Example ex_deal_length : forall s r,
  length (cr_deal toy s r (cc_threshold wcfg1) (cc_total wcfg1)) = Z.to_nat (cc_total wcfg1).
Proof. reflexivity. Qed.
(** C16: the honest run only stores parts for dealt keys *)
Example ex_sets_known : sets_known toy wcfg1 wst0 (wtrace (take 2 honest_ops)).
Proof.
  intros l1 k p rnd o l2 stm E Hr.
  assert (Hl : wtrace (take 2 honest_ops) =
    [(OpGet (wkey 11 1) 2 (wrnd x21),
      snd (default (OpSign [], ObsSetOk) (wtrace (take 2 honest_ops) !! 0%nat)));
     (OpSet (wkey 11 1) (wpart (wkey 11 1) x31) None, ObsSetOk)]) by (vm_compute; reflexivity).
  rewrite Hl in E. destruct l1 as [|x l1]; [discriminate|]. injection E as <- E.
  destruct l1 as [|y l1]; [|destruct l1; discriminate]. injection E as <- _ _ _ _.
  inversion Hr as [|? ? st1 ? ? ? Hs Hn]; subst. inversion Hn; subst. clear Hn Hr Hl.
  assert (Hc : match cstep toy wcfg1 wst0 (OpGet (wkey 11 1) 2 (wrnd x21)) with
               | Some (s, _) => match cs_meta s !! wkey 11 1 with Some _ => true | None => false end
               | None => false end = true) by (vm_compute; reflexivity).
  rewrite Hs in Hc. destruct (cs_meta stm !! wkey 11 1); [eauto|discriminate].
Qed.
