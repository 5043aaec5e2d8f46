(** Correctness of the key extraction computation of CosignerSpec.v. *)
From Coq Require Import Znumtheory.
From Verif Require Import GoBase Canonical SignState Spec SignStateProofs Crypto LocalCosigner
  CosignerSpec CosignerProofs CosignerProofs2.

Lemma egcd_spec n a b :
  0 <= a -> 0 <= b -> b < Z.of_nat n ->
  (egcd n a b).1 * a + (egcd n a b).2 * b = Z.gcd a b.
Proof.
  revert a b. induction n as [|n IH]; intros a b Ha Hb Hn; [lia|].
  cbn [egcd]. destruct (Z.eqb_spec b 0) as [->|Hz].
  - simpl. rewrite Z.gcd_0_r, Z.abs_eq; lia.
  - pose proof (Z.mod_pos_bound a b) as Hm.
    specialize (IH b (a mod b)). destruct (egcd n b (a mod b)) as [x y]. cbn [fst snd] in *.
    assert (E : Z.gcd b (a mod b) = Z.gcd a b).
    { rewrite Z.gcd_comm, Z.gcd_mod by lia. apply Z.gcd_comm. }
    rewrite E in IH. rewrite <- IH by lia. pose proof (Z.div_mod a b). nia.
Qed.

Lemma inv_mod_spec L a : prime L -> a mod L <> 0 -> (inv_mod L a * a) mod L = 1.
Proof.
  intros Hp Ha. assert (HL : 1 < L) by (destruct Hp; done).
  pose proof (Z.mod_pos_bound a L) as Hm.
  assert (Hg : Z.gcd (a mod L) L = 1).
  { apply Zgcd_1_rel_prime. apply rel_prime_sym, prime_rel_prime; [done|].
    intros Hd. apply Zdivide_mod in Hd. rewrite Z.mod_mod in Hd by lia. done. }
  unfold inv_mod. pose proof (egcd_spec (S (S (Z.to_nat L))) (a mod L) L) as E.
  rewrite Hg in E. specialize (E ltac:(lia) ltac:(lia) ltac:(lia)).
  destruct (egcd (S (S (Z.to_nat L))) (a mod L) L) as [x y]. cbn [fst snd] in *.
  rewrite <- Z.mul_mod_idemp_r by lia.
  replace (x * (a mod L)) with (1 + (- y) * L) by lia. rewrite Z.mod_add by lia.
  apply Z.mod_small. lia.
Qed.

Lemma extract_spec L s1 s2 k x c1 c2 :
  prime L -> (c1 - c2) mod L <> 0 ->
  s1 mod L = (k + c1 * x) mod L -> s2 mod L = (k + c2 * x) mod L ->
  extract L s1 s2 c1 c2 = x mod L.
Proof.
  intros Hp Hc H1 H2. assert (HL : 1 < L) by (destruct Hp; done).
  pose proof (inv_mod_spec _ _ Hp Hc) as Hi. unfold extract.
  rewrite <- Z.mul_mod_idemp_l, Zminus_mod, H1, H2, <- Zminus_mod, Z.mul_mod_idemp_l by lia.
  replace ((k + c1 * x - (k + c2 * x)) * inv_mod L (c1 - c2))
    with ((inv_mod L (c1 - c2) * (c1 - c2)) * x) by ring.
  rewrite <- Z.mul_mod_idemp_l, Hi by lia. f_equal. lia.
Qed.

Section Attack.
Context (C : Crypto) (cfg : cos_config).

(** after any fresh share, one more signing request yields the key share *)
Lemma extraction_attack L sc ch st sb st1 r1 t :
  prime L -> share_equation C L sc ch ->
  (forall m x k A R, cr_sign_share C m x k A R <> None) ->
  sign C cfg st sb = (st1, Val r1) -> hrs_lt (ss_hrs (cs_lss st)) (ss_hrs (cs_lss st1)) ->
  t <> [] ->
  (forall R, (ch R (cc_pub cfg) sb - ch R (cc_pub cfg) (sb ++ t)) mod L <> 0) ->
  exists st2 r2 R s1 s2,
    sign C cfg st1 (sb ++ t) = (st2, Val r2) /\
    sr_eph r1 = Some R /\ sr_sig r1 = Some s1 /\ sr_eph r2 = Some R /\ sr_sig r2 = Some s2 /\
    extract L (sc s1) (sc s2) (ch R (cc_pub cfg) sb) (ch R (cc_pub cfg) (sb ++ t))
      = sc (cc_share cfg) mod L.
Proof.
  intros Hp Heq Htot Hs Hlt Ht Hc. pose proof (sign_spec _ _ _ _ _ _ Hs) as Hcase. simpl in Hcase.
  destruct Hcase as [k Hk He Hsb Hsig -> -> | k last es ep sig Hk He Hsb Hne Hsig Hd Hf -> ->
         | k es ep sig Hk Hlt' Hf -> ->].
  - destruct (hrs_lt_irrefl _ Hlt).
  - destruct (hrs_lt_irrefl _ Hlt).
  - destruct Hf as [(m & Hm & Hes & Hep) Hlen Hmin Hsig].
    destruct (cr_sign_share C (sb ++ t) (cc_share cfg) es (cc_pub cfg) ep) as [sig2|] eqn:E2;
      [|destruct (Htot _ _ _ _ _ E2)].
    destruct (nonce_reuse C cfg st sb _ _ t sig2 es Hs Hlt Ht ep eq_refl) as
      (st2 & Hs2 & sig1 & H1 & H2); [eauto|done|].
    simpl in H1. injection H1 as <-.
    exists st2, (SignResp (Some ep) (Some sig2) true), ep, sig, sig2.
    split; [done|]. do 4 (split; [done|]).
    eapply extract_spec; [done|apply Hc| |].
    + apply (Heq _ _ _ _ _ _ Hsig).
    + apply (Heq _ _ _ _ _ _ E2).
Qed.

(** a peer that supplies the only part of a key the cosigner has not dealt for knows the nonce
    share, and so the key share *)
Lemma one_peer_attack L sc ch st sb k m st1 r1 es :
  prime L -> share_equation C L sc ch ->
  sign C cfg st sb = (st1, Val r1) -> hrs_lt (ss_hrs (cs_lss st)) (ss_hrs (cs_lss st1)) ->
  unpack_hrst sb = Val k -> cs_meta st !! k = Some m ->
  cr_add_scalars C (map pm_share (used_parts (peers_of st m))) = Some es ->
  (forall R, ch R (cc_pub cfg) sb mod L <> 0) ->
  exists R s, sr_eph r1 = Some R /\ sr_sig r1 = Some s /\
    extract L (sc s) (sc es) (ch R (cc_pub cfg) sb) 0 = sc (cc_share cfg) mod L.
Proof.
  intros Hp Heq Hs Hlt Hk Hm Hes Hc. pose proof (sign_spec _ _ _ _ _ _ Hs) as Hcase. simpl in Hcase.
  destruct Hcase as [k' Hk' He Hsb Hsig -> -> | k' last es' ep sig Hk' He Hsb Hne Hsig Hd Hf -> ->
         | k' es' ep sig Hk' Hlt' Hf -> ->].
  - destruct (hrs_lt_irrefl _ Hlt).
  - destruct (hrs_lt_irrefl _ Hlt).
  - assert (k' = k) as -> by congruence.
    destruct Hf as [(m' & Hm' & Hes' & Hep) Hlen Hmin Hsig].
    assert (m' = m) as -> by congruence. assert (es' = es) as -> by congruence.
    exists ep, sig. split; [done|]. split; [done|].
    eapply (extract_spec L _ _ (sc es)); [done| | |].
    + rewrite Z.sub_0_r. apply Hc.
    + apply (Heq _ _ _ _ _ _ Hsig).
    + f_equal. lia.
Qed.

Lemma used_parts_empty n : used_parts (replicate n empty_peer_meta) = [].
Proof.
  induction n as [|n IH]; [done|]. unfold used_parts in *. simpl replicate.
  rewrite filter_cons, decide_False; [done|]. intros H. apply H. done.
Qed.
Lemma used_parts_single n i x e :
  x <> [] -> (i < n)%nat -> used_parts (<[i := PM x e]> (replicate n empty_peer_meta)) = [PM x e].
Proof.
  intros Hx. revert i. induction n as [|n IH]; intros i Hi; [lia|]. destruct i as [|i]; simpl.
  - unfold used_parts at 1. rewrite filter_cons, decide_True by done.
    f_equal. apply used_parts_empty.
  - unfold used_parts in *. rewrite filter_cons, decide_False by (intros H; apply H; done).
    apply IH. lia.
Qed.

(** end to end: the peer stores one part and asks for a signature *)
Lemma lone_peer_attack L sc ch st sb k p rnd pk sig x es R :
  prime L -> share_equation C L sc ch -> (forall m x k A R, cr_sign_share C m x k A R <> None) ->
  unpack_hrst sb = Val k -> hrs_lt (ss_hrs (cs_lss st)) (ht_hrs k) ->
  cs_meta st !! k = None -> cs_meta st !! zero_key k = None ->
  pt_sig p = Some sig -> cc_peers cfg !! pt_source p = Some pk ->
  cr_rsa_verify C pk (Payload (pt_source p) (pt_eph p) (pt_enc p)) sig = true ->
  1 <= pt_source p <= cc_total cfg ->
  cr_decrypt C (cc_rsa cfg) (pt_enc p) = Some x -> x <> [] ->
  cr_add_scalars C [x] = Some es -> length es = 32%nat -> cr_sc_minimal C es = true ->
  cr_add_elements C [pt_eph p] = Some R -> (ch R (cc_pub cfg) sb) mod L <> 0 ->
  exists st1 st2 s,
    cstep C cfg st (OpSet k p (Some rnd)) = Some (st1, ObsSetOk) /\
    cstep C cfg st1 (OpSign sb) = Some (st2, ObsShare sb (SignResp (Some R) (Some s) true)) /\
    extract L (sc s) (sc es) (ch R (cc_pub cfg) sb) 0 = sc (cc_share cfg) mod L.
Proof.
  intros Hp Heq Htot Hk Hlt Hn Hnz Hsig Hpk Hv Hsrc Hdec Hx Hes Hlen Hmin HR Hc.
  destruct rnd as [secret r].
  cbn [cstep]. unfold set_part, check_source. rewrite Hsig, Hpk. unfold part_payload. rewrite Hv.
  unfold ensure_meta, deal_shares. rewrite Hn, Hnz. cbn iota beta. rewrite Hdec.
  set (m := Meta secret _ _).
  match goal with |- context [set_slot ?a ?b ?c ?d] => destruct (set_slot a b c d) as [st1|] eqn:Es end.
  2:{ exfalso. unfold set_slot in Es. destruct (idx_set _ _ _) as [l'|] eqn:Ei; [discriminate|].
      apply idx_set_none in Ei. unfold peers_of in Ei. simpl in Ei. rewrite lookup_insert in Ei.
      simpl in Ei. rewrite replicate_length in Ei. lia. }
  exists st1. unfold set_slot in Es.
  destruct (idx_set _ _ _) as [l'|] eqn:Ei; [|discriminate]. injection Es as <-.
  apply idx_set_spec in Ei as [Hi ->]. unfold peers_of in *. cbn in Hi |- *.
  rewrite lookup_insert in Hi |- *. cbn [default] in *. unfold default, id in Hi. rewrite replicate_length in Hi.
  unfold sign. rewrite Hk. cbn [cs_lss with_heap with_meta].
  pose proof (check_hrs_spec (cs_lss st) (ht_hrs k)) as (T & _). rewrite (proj2 T) by done.
  unfold sign_fresh. cbn [cs_meta with_heap with_meta]. rewrite lookup_insert.
  unfold peers_of. cbn [cs_heap with_heap m_ref]. rewrite lookup_insert.
  cbn [default]. unfold default, id. rewrite used_parts_single by (done || lia). cbn [map pm_share pm_eph].
  rewrite Hes, HR, bool_decide_true by done. cbn [negb]. rewrite Hmin. cbn [negb].
  destruct (cr_sign_share C sb (cc_share cfg) es (cc_pub cfg) R) as [s|] eqn:E2;
      [|destruct (Htot _ _ _ _ _ E2)].
  cbn [cs_lss with_heap with_meta].
  match goal with |- context [save ?l ?x] => destruct (save l x) as [l2 e] eqn:Esave end.
  assert (e = None) as ->.
  { match type of Esave with save ?l ?x = _ => pose proof (save_ok_iff l x) as Hi' end.
    rewrite Esave in Hi'. simpl in Hi'. apply Hi'. done. }
  eexists _, s. split; [done|]. split; [reflexivity|].
  eapply (extract_spec L _ _ (sc es)); [done| | |].
  - rewrite Z.sub_0_r. apply Hc.
  - apply (Heq _ _ _ _ _ _ E2).
  - f_equal. lia.
Qed.
End Attack.

(** RSA correctness, as far as the protocol relies on it; [pub] maps a private to its public key *)
Definition rsa_correct (C : Crypto) (pub : bytes -> bytes) : Prop :=
  (forall sk m r s, cr_rsa_sign C sk m r = Some s -> cr_rsa_verify C (pub sk) m s = true) /\
  (forall sk m r c, cr_encrypt C (pub sk) m r = Some c -> cr_decrypt C sk c = Some m).

(** C10: a part issued for [k1] is stored for any other key [k2] *)
Lemma replay_accepted C pub cfgA cfgB sA k1 rnd sA' p :
  rsa_correct C pub ->
  get_part C cfgA sA k1 (cc_id cfgB) rnd = (sA', Val p) ->
  cc_peers cfgB !! cc_id cfgA = Some (pub (cc_rsa cfgA)) ->
  cc_peers cfgA !! cc_id cfgB = Some (pub (cc_rsa cfgB)) ->
  1 <= cc_id cfgA <= cc_total cfgB ->
  forall sB k2 rnd', cs_meta sB !! k2 = None -> cs_meta sB !! zero_key k2 = None ->
  exists sB', set_part C cfgB sB k2 p (Some rnd') = (sB', Val tt).
Proof.
  intros [Hsv Hed] Hg HpA HpB Hid sB k2 [secret r] Hn Hnz.
  apply get_part_own_slot in Hg as (m & _ & (Hsrc & Hdst & Heph & Hp) & _).
  destruct Hp as (pk & share & r0 & Hpk & _ & Hsh & Henc & r1 & sig & Hsig & Hsign).
  assert (pk = pub (cc_rsa cfgB)) as -> by congruence.
  unfold set_part, check_source. rewrite Hsig, Hsrc, HpA. unfold part_payload.
  rewrite Hsrc, (Hsv _ _ _ _ Hsign). unfold ensure_meta, deal_shares. rewrite Hn, Hnz.
  cbn iota beta. rewrite (Hed _ _ _ _ Henc).
  match goal with |- context [set_slot ?a ?b ?c ?d] => destruct (set_slot a b c d) as [st1|] eqn:Es end.
  - eauto.
  - exfalso. unfold set_slot in Es. destruct (idx_set _ _ _) as [l'|] eqn:Ei; [discriminate|].
    apply idx_set_none in Ei. unfold peers_of in Ei. simpl in Ei. rewrite lookup_insert in Ei.
    simpl in Ei. rewrite replicate_length in Ei. lia.
Qed.
