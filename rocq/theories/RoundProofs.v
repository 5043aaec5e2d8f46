(** One honest round of the cosigners. *)
From Verif Require Import GoBase Wire Canonical SignState Spec SignStateProofs Crypto LocalCosigner
  Poly PolyProofs Scheme RoundSpec.

(** ** Slices indexed by share ID *)
Lemma seqZ_idx {A} (f : Z -> A) n j : 1 <= j <= n -> idx (map f (seqZ 1 n)) (j - 1) = Some (f j).
Proof.
  intros H. unfold idx. destruct (Z.ltb_spec (j - 1) 0); [lia|].
  change (map f (seqZ 1 n)) with (f <$> seqZ 1 n). rewrite list_lookup_fmap.
  assert (E : seqZ 1 n !! Z.to_nat (j - 1) = Some j) by (apply lookup_seqZ; lia). by rewrite E.
Qed.
Lemma seqZ_idx_set {A} (f : Z -> A) n j x : 1 <= j <= n ->
  idx_set (map f (seqZ 1 n)) (j - 1) x =
  Some (map (fun q => if decide (q = j) then x else f q) (seqZ 1 n)).
Proof.
  intros H. unfold idx_set. rewrite seqZ_idx by done. f_equal. apply list_eq. intros m.
  change (map (fun q => if decide (q = j) then x else f q) (seqZ 1 n))
    with ((fun q => if decide (q = j) then x else f q) <$> seqZ 1 n).
  rewrite list_lookup_fmap. destruct (decide (m = Z.to_nat (j - 1))) as [->|Hm].
  - rewrite list_lookup_insert by (rewrite map_length, seqZ_length; lia).
    assert (E : seqZ 1 n !! Z.to_nat (j - 1) = Some j) by (apply lookup_seqZ; lia).
    rewrite E. simpl. by rewrite decide_True.
  - rewrite list_lookup_insert_ne by done.
    change (map f (seqZ 1 n)) with (f <$> seqZ 1 n). rewrite list_lookup_fmap.
    destruct (seqZ 1 n !! m) as [q|] eqn:E; [|done]. apply lookup_seqZ in E as [-> E].
    simpl. rewrite decide_False by lia. done.
Qed.
Lemma seqZ_const {A} (x : A) n : 0 <= n -> replicate (Z.to_nat n) x = map (fun _ => x) (seqZ 1 n).
Proof.
  intros H. apply list_eq. intros m. change (map (fun _ : Z => x) (seqZ 1 n)) with ((fun _ => x) <$> seqZ 1 n).
  rewrite list_lookup_fmap. destruct (decide (m < Z.to_nat n)%nat).
  - rewrite lookup_replicate_2 by done.
    assert (E : seqZ 1 n !! m = Some (1 + Z.of_nat m)) by (apply lookup_seqZ; lia). by rewrite E.
  - assert (E0 : replicate (Z.to_nat n) x !! m = None) by (apply lookup_ge_None; rewrite replicate_length; lia).
    rewrite E0. assert (E : seqZ 1 n !! m = None) by (apply lookup_ge_None; rewrite seqZ_length; lia). by rewrite E.
Qed.
(** the participants in increasing order *)
Definition sorted (P : list Z) (n : Z) : list Z := filter (fun i => i ∈ P) (seqZ 1 n).
Lemma sorted_in P n i : (forall i, i ∈ P -> 1 <= i <= n) -> i ∈ sorted P n <-> i ∈ P.
Proof.
  intros H. unfold sorted. rewrite elem_of_list_filter. split; [by intros [? _]|].
  intros Hi. split; [done|]. apply elem_of_seqZ. pose proof (H i Hi). lia.
Qed.
Lemma sorted_nodup P n : NoDup (sorted P n).
Proof. apply list.NoDup_filter, NoDup_seqZ. Qed.
Lemma sorted_perm P n : NoDup P -> (forall i, i ∈ P -> 1 <= i <= n) -> Permutation (sorted P n) P.
Proof. intros Hn H. apply NoDup_Permutation; [apply sorted_nodup|done|]. intros i. by apply sorted_in. Qed.

Section Round.
Context (C : Crypto) (R : reading) (HS : threshold_scheme C R).
Context (a : list (rd_f R)) (sk : Z -> bytes) (n t : Z) (A : bytes) (k : hrst).
Context (Hn : 1 <= n <= rd_max R) (Ht : 1 <= t).

(** slot contents of cosigner [i] when the parts of the cosigners in [Q] have arrived *)
Definition slot (own : Z -> bytes) (eph : Z -> bytes) (Q : list Z) (j : Z) : peer_meta :=
  if decide (j ∈ Q) then PM (own j) (eph j) else empty_peer_meta.

(** ** The answers to GetEphemeralSecretParts *)

(** a part that cosigner [j] will accept from [i] *)
Definition good_part (i j : Z) (eph share : bytes) (p : part) : Prop :=
  pt_source p = i /\ pt_dest p = j /\ pt_eph p = eph /\ cr_decrypt C (sk j) (pt_enc p) = Some share /\
  exists sig, pt_sig p = Some sig /\
    forall pk, rsa_pair C R (sk i) pk -> cr_rsa_verify C pk (part_payload p) sig = true.

(** metadata [m] for [k]: dealt shares [dealt], and parts of the cosigners in [Q] *)
Definition holds_at (st : cos_state) (m : meta) (i : Z) (dealt own eph : Z -> bytes) (Q : list Z) : Prop :=
  cs_meta st !! k = Some m /\ m_dealt m = map dealt (seqZ 1 n) /\ cr_base C (m_secret m) = eph i /\
  peers_of st m = map (slot own eph Q) (seqZ 1 n).

Lemma holds_ext st m i dealt own eph Q Q' : (forall j, j ∈ Q <-> j ∈ Q') ->
  holds_at st m i dealt own eph Q -> holds_at st m i dealt own eph Q'.
Proof.
  intros E (H1 & H2 & H3 & H4). repeat split; try done. rewrite H4. apply map_ext. intros j.
  unfold slot. destruct (decide (j ∈ Q)) as [H|H], (decide (j ∈ Q')) as [H'|H']; [done| | |done];
    exfalso; [apply H'|apply H]; by apply E.
Qed.
Lemma set_slot_ok st m i dealt own eph Q j : holds_at st m i dealt own eph Q -> 1 <= j <= n ->
  exists st', set_slot st m (j - 1) (PM (own j) (eph j)) = Some st' /\
    holds_at st' m i dealt own eph (j :: Q) /\ cs_lss st' = cs_lss st.
Proof.
  intros (H1 & H2 & H3 & H4) Hj. unfold set_slot. rewrite H4, seqZ_idx_set by done.
  eexists. split; [reflexivity|]. split; [|done]. repeat split; try done.
  unfold peers_of. simpl. rewrite lookup_insert. simpl. apply map_ext. intros q. unfold slot.
  destruct (decide (q = j)) as [->|Hq].
  - rewrite decide_True by left. done.
  - destruct (decide (q ∈ Q)), (decide (q ∈ j :: Q)) as [H|H]; try done; exfalso.
    + apply H. by right.
    + by apply elem_of_cons in H as [H|H].
Qed.

(** the first request deals *)
Lemma ensure_deals cfg st i s r : member C R a sk n t A i cfg -> 1 <= i <= n -> cs_meta st !! k = None ->
  rd_is_scalar R s ->
  exists st1 m p dealt, ensure_meta C cfg st k k (Some (s, r)) = (st1, Val m) /\ cs_lss st1 = cs_lss st /\
    (length p <= Z.to_nat t)%nat /\ rd_is_point R (cr_base C s) /\
    rd_point R (cr_base C s) = mmul (peval (rd_f R) p (f0 (rd_f R))) (rd_base R) /\
    (forall j, 1 <= j <= n -> rd_is_scalar R (dealt j) /\
       rd_scalar R (dealt j) = peval (rd_f R) p (rd_id R j)) /\
    forall own eph, eph i = cr_base C s -> holds_at st1 m i dealt own eph [].
Proof.
  intros (_ & _ & _ & _ & _ & Htot & Hthr & _) Hi Hm Hs.
  destruct (sch_deal C R HS s r t n Hs Ht ltac:(lia)) as (p & Hp & H0 & Hlen & Hv).
  destruct (sch_base C R HS s Hs) as [Hpt Hb].
  unfold ensure_meta, deal_shares. rewrite Hm, Htot, Hthr.
  set (m := Meta s (cr_deal C s r t n) (cs_next st)).
  exists (with_meta (CosState (cs_lss st) (<[k:=m]> (cs_meta st))
     (<[cs_next st:=replicate (Z.to_nat n) empty_peer_meta]> (cs_heap st)) (S (cs_next st)))
     (<[k:=m]> (<[k:=m]> (cs_meta st)))).
  exists m, p, (fun j => match idx (cr_deal C s r t n) (j - 1) with Some b => b | None => [] end).
  split; [reflexivity|]. split; [done|]. split; [done|]. split; [done|].
  split; [by rewrite H0|]. split.
  - intros j Hj. unfold idx. destruct (Z.ltb_spec (j - 1) 0); [lia|].
    destruct (lookup_lt_is_Some_2 (cr_deal C s r t n) (Z.to_nat (j - 1))) as [b Hb']; [lia|].
    rewrite Hb'. apply Hv in Hb'. by replace (Z.of_nat (Z.to_nat (j - 1)) + 1) with j in Hb' by lia.
  - intros own eph He. repeat split.
    + simpl. by rewrite lookup_insert.
    + simpl. apply list_eq. intros q.
      match goal with |- _ = map ?f ?l !! _ => change (map f l) with (f <$> l) end.
      rewrite list_lookup_fmap. destruct (decide (q < Z.to_nat n)%nat).
      * assert (E : seqZ 1 n !! q = Some (1 + Z.of_nat q)) by (apply lookup_seqZ; lia). rewrite E.
        simpl. unfold idx. destruct (Z.ltb_spec (1 + Z.of_nat q - 1) 0); [lia|].
        replace (Z.to_nat (1 + Z.of_nat q - 1)) with q by lia.
        destruct (lookup_lt_is_Some_2 (cr_deal C s r t n) q) as [b Hb']; [lia|]. by rewrite Hb'.
      * assert (E : seqZ 1 n !! q = None) by (apply lookup_ge_None; rewrite seqZ_length; lia). rewrite E.
        apply lookup_ge_None. lia.
    + by rewrite He.
    + unfold peers_of. simpl. rewrite lookup_insert. simpl. rewrite seqZ_const by lia. apply map_ext.
      intros j. unfold slot. rewrite decide_False; [done|]. apply not_elem_of_nil.
Qed.

(** one answer *)
Lemma get_part_ok cfg st st1 m i dealt own eph Q j rnd :
  member C R a sk n t A i cfg -> 1 <= i <= n -> 1 <= j <= n -> own i = dealt i ->
  rd_is_scalar R (dealt j) ->
  ensure_meta C cfg st k k (gr_deal rnd) = (st1, Val m) -> holds_at st1 m i dealt own eph Q ->
  exists st' p, get_part C cfg st k j rnd = (st', Val p) /\ good_part i j (eph i) (dealt j) p /\
    holds_at st' m i dealt own eph (i :: Q) /\ cs_lss st' = cs_lss st1.
Proof.
  intros (Hid & _ & _ & _ & Hrsa & _ & _ & Hpk) Hi Hj Hown Hsc He Hh.
  unfold get_part. rewrite He, Hid. pose proof Hh as (_ & Hd & Hb & _).
  rewrite Hd, Hb, seqZ_idx by done.
  destruct (set_slot_ok st1 m i dealt own eph Q i Hh Hi) as (st2 & Hset & Hh2 & Hl2).
  rewrite Hown in Hset. rewrite Hset. destruct (Hpk j Hj) as (pkj & Hl & Hpair). rewrite Hl.
  rewrite seqZ_idx by done.
  destruct (rsa_encrypts _ _ _ _ Hpair (dealt j) (gr_enc rnd) Hsc) as (c & Hc & Hdec). rewrite Hc.
  destruct (Hpk i Hi) as (pki & _ & Hpairi). rewrite Hrsa.
  destruct (rsa_signs _ _ _ _ Hpairi (Payload i (eph i) c) (gr_sig rnd)) as (sig & Hsig & _). rewrite Hsig.
  exists st2, (Part i j (eph i) c (Some sig)). split; [done|]. split; [|done].
  repeat split; try done. exists sig. split; [done|]. intros pk Hp.
  destruct (rsa_signs _ _ _ _ Hp (Payload i (eph i) c) (gr_sig rnd)) as (sig' & Hsig' & Hver).
  rewrite Hsig in Hsig'. injection Hsig' as ->. done.
Qed.
Lemma ensure_have cfg st m i dealt own eph Q rnd :
  holds_at st m i dealt own eph Q -> ensure_meta C cfg st k k rnd = (st, Val m).
Proof. intros (H & _). unfold ensure_meta. by rewrite H. Qed.

(** all answers, once there is metadata *)
Lemma get_parts_have cfg ids st m i dealt own eph Q :
  member C R a sk n t A i cfg -> 1 <= i <= n -> own i = dealt i ->
  (forall j, 1 <= j <= n -> rd_is_scalar R (dealt j)) ->
  (forall x, x ∈ ids -> 1 <= fst x <= n) -> holds_at st m i dealt own eph (i :: Q) ->
  exists st' ps, get_parts C cfg st k ids = (st', Val ps) /\
    Forall2 (fun j p => good_part i j (eph i) (dealt j) p) (filter (fun j => j <> i) (map fst ids)) ps /\
    holds_at st' m i dealt own eph (i :: Q) /\ cs_lss st' = cs_lss st.
Proof.
  intros Hmem Hi Hown Hd. revert st. induction ids as [|[j rnd] ids IH]; intros st Hin Hh; simpl.
  { exists st, []. split; [done|]. split; [constructor|done]. }
  pose proof Hmem as (Hid & _). rewrite Hid.
  assert (Hin' : forall x, x ∈ ids -> 1 <= fst x <= n) by (intros x Hx; apply Hin; by right).
  destruct (Z.eqb_spec j i) as [->|Hne].
  - rewrite filter_cons_False by (intros Hx; done). by apply IH.
  - rewrite filter_cons_True by done.
    assert (Hj : 1 <= j <= n) by (apply (Hin (j, rnd)); left).
    destruct (get_part_ok cfg st st m i dealt own eph (i :: Q) j rnd) as (st1 & p & Hg & Hp & Hh1 & Hl1);
      [done|done|done|done|by apply Hd|by eapply ensure_have|done|].
    rewrite Hg. apply (holds_ext _ _ _ _ _ _ _ (i :: Q)) in Hh1.
    2:{ intros q. rewrite !elem_of_cons. tauto. }
    destruct (IH st1 Hin' Hh1) as (st2 & ps & Hg2 & Hps & Hh2 & Hl2). rewrite Hg2.
    exists st2, (p :: ps). split; [done|]. split; [by constructor|]. split; [done|congruence].
Qed.

(** all answers from the start *)
Lemma get_parts_new cfg ids st i : member C R a sk n t A i cfg -> 1 <= i <= n -> 2 <= n ->
  cs_meta st !! k = None -> asks_all R n ids ->
  exists st' ps m p E dealt, get_parts C cfg st k ids = (st', Val ps) /\
    (length p <= Z.to_nat t)%nat /\ rd_is_point R E /\
    rd_point R E = mmul (peval (rd_f R) p (f0 (rd_f R))) (rd_base R) /\
    (forall j, 1 <= j <= n -> rd_is_scalar R (dealt j) /\
       rd_scalar R (dealt j) = peval (rd_f R) p (rd_id R j)) /\
    Forall2 (fun j p => good_part i j E (dealt j) p) (filter (fun j => j <> i) (map fst ids)) ps /\
    cs_lss st' = cs_lss st /\
    forall own eph, own i = dealt i -> eph i = E -> holds_at st' m i dealt own eph [i].
Proof.
  intros Hmem Hi Hn2 Hr [Hperm Hrnd].
  assert (Hin : forall x, x ∈ ids -> 1 <= fst x <= n).
  { intros x Hx. assert (H : fst x ∈ seqZ 1 n).
    { rewrite <- Hperm. apply elem_of_list_fmap. by exists x. }
    apply elem_of_seqZ in H. lia. }
  assert (Hex : exists j, j ∈ map fst ids /\ j <> i).
  { exists (if decide (i = 1) then 2 else 1). split; [|destruct (decide (i = 1)); lia].
    rewrite Hperm. apply elem_of_seqZ. destruct (decide (i = 1)); lia. }
  clear Hperm. induction ids as [|[j rnd] ids IH].
  { destruct Hex as (j & Hj & _). by apply not_elem_of_nil in Hj. }
  pose proof Hmem as (Hid & _). simpl. rewrite Hid. destruct (Z.eqb_spec j i) as [->|Hne].
  - rewrite filter_cons_False by (intros Hx; done). apply IH.
    + intros x Hx. apply Hrnd. by right.
    + intros x Hx. apply Hin. by right.
    + destruct Hex as (j & Hj & Hji). simpl in Hj. apply elem_of_cons in Hj as [->|Hj]; [done|by exists j].
  - destruct (Hrnd (j, rnd)) as (s & r & Hdeal & Hs); [left|]. simpl in Hdeal.
    destruct (ensure_deals cfg st i s r Hmem Hi Hr Hs)
      as (st1 & m & p & dealt & He & Hl1 & Hp & Hpt & Hpb & Hd & Hh). rewrite <- Hdeal in He.
    assert (Hj : 1 <= j <= n) by (apply (Hin (j, rnd)); left).
    (* one fixed [own] and [eph] determine the execution *)
    set (own := fun _ : Z => dealt i). set (eph := fun _ : Z => cr_base C s).
    destruct (get_part_ok cfg st st1 m i dealt own eph [] j rnd) as (st2 & pt & Hg & Hgp & Hh2 & Hl2);
      [done|done|done|done|by apply Hd|done|by apply Hh|].
    rewrite Hg.
    destruct (get_parts_have cfg ids st2 m i dealt own eph []) as (st3 & ps & Hg3 & Hps & Hh3 & Hl3);
      [done|done|done|intros q Hq; by apply Hd|intros x Hx; apply Hin; by right|done|].
    rewrite Hg3. exists st3, (pt :: ps), m, p, (cr_base C s), dealt. split; [done|].
    rewrite filter_cons_True by done.
    split; [done|]. split; [done|]. split; [done|]. split; [done|]. split; [by constructor|].
    split; [congruence|]. intros own' eph' Ho He'. destruct Hh3 as (K1 & K2 & K3 & K4).
    repeat split; try done; [by rewrite He'|]. rewrite K4. apply map_ext. intros q. unfold slot.
    destruct (decide (q ∈ [i])) as [Hq|]; [|done]. apply elem_of_list_singleton in Hq as ->.
    by rewrite Ho, He'.
Qed.

(** what an earlier dealing left *)
Lemma only_dealt_holds st i : 1 <= i <= n -> only_dealt C R n t i st k ->
  exists m p E dealt, (length p <= Z.to_nat t)%nat /\ rd_is_point R E /\
    rd_point R E = mmul (peval (rd_f R) p (f0 (rd_f R))) (rd_base R) /\
    (forall j, 1 <= j <= n -> rd_is_scalar R (dealt j) /\
       rd_scalar R (dealt j) = peval (rd_f R) p (rd_id R j)) /\
    forall own eph, own i = dealt i -> eph i = E -> holds_at st m i dealt own eph [i].
Proof.
  intros Hi (s & r & ref & ow & Hm & Hs & How & Hheap).
  destruct (sch_deal C R HS s r t n Hs Ht ltac:(lia)) as (p & Hp & H0 & Hlen & Hv).
  destruct (sch_base C R HS s Hs) as [Hpt Hb].
  set (dealt := fun j => match idx (cr_deal C s r t n) (j - 1) with Some b => b | None => [] end).
  exists (Meta s (cr_deal C s r t n) ref), p, (cr_base C s), dealt.
  split; [done|]. split; [done|]. split; [by rewrite H0|]. split.
  - intros j Hj. unfold dealt, idx. destruct (Z.ltb_spec (j - 1) 0); [lia|].
    destruct (lookup_lt_is_Some_2 (cr_deal C s r t n) (Z.to_nat (j - 1))) as [b Hb']; [lia|].
    rewrite Hb'. apply Hv in Hb'. by replace (Z.of_nat (Z.to_nat (j - 1)) + 1) with j in Hb' by lia.
  - intros own eph Ho He. repeat split.
    + done.
    + simpl. apply list_eq. intros q.
      match goal with |- _ = map ?f ?l !! _ => change (map f l) with (f <$> l) end.
      rewrite list_lookup_fmap. destruct (decide (q < Z.to_nat n)%nat).
      * assert (E : seqZ 1 n !! q = Some (1 + Z.of_nat q)) by (apply lookup_seqZ; lia). rewrite E.
        simpl. unfold dealt, idx. destruct (Z.ltb_spec (1 + Z.of_nat q - 1) 0); [lia|].
        replace (Z.to_nat (1 + Z.of_nat q - 1)) with q by lia.
        destruct (lookup_lt_is_Some_2 (cr_deal C s r t n) q) as [b Hb']; [lia|]. by rewrite Hb'.
      * assert (E : seqZ 1 n !! q = None) by (apply lookup_ge_None; rewrite seqZ_length; lia). rewrite E.
        apply lookup_ge_None. lia.
    + by rewrite He.
    + unfold peers_of. simpl. rewrite Hheap. simpl.
      assert (Hown : ow = dealt i).
      { unfold dealt, idx. destruct (Z.ltb_spec (i - 1) 0); [lia|]. by rewrite How. }
      pose proof (seqZ_idx_set (fun _ => empty_peer_meta) n i (PM ow (cr_base C s)) Hi) as E.
      rewrite <- seqZ_const in E by lia. unfold idx_set in E. destruct (idx _ _); [|done]. injection E as ->.
      apply map_ext. intros j. unfold slot. destruct (decide (j = i)) as [-> |Hne].
      * rewrite decide_True by left. by rewrite Ho, He, Hown.
      * rewrite decide_False; [done|]. intros K. apply elem_of_list_singleton in K. done.
Qed.
Lemma get_parts_ok cfg ids st i : member C R a sk n t A i cfg -> 1 <= i <= n -> 2 <= n ->
  ready C R n t i st k -> asks_all R n ids ->
  exists st' ps m p E dealt, get_parts C cfg st k ids = (st', Val ps) /\
    (length p <= Z.to_nat t)%nat /\ rd_is_point R E /\
    rd_point R E = mmul (peval (rd_f R) p (f0 (rd_f R))) (rd_base R) /\
    (forall j, 1 <= j <= n -> rd_is_scalar R (dealt j) /\
       rd_scalar R (dealt j) = peval (rd_f R) p (rd_id R j)) /\
    Forall2 (fun j p => good_part i j E (dealt j) p) (filter (fun j => j <> i) (map fst ids)) ps /\
    cs_lss st' = cs_lss st /\
    forall own eph, own i = dealt i -> eph i = E -> holds_at st' m i dealt own eph [i].
Proof.
  intros Hmem Hi Hn2 [[Hnone|Hod] _] Hask; [by apply get_parts_new|].
  destruct (only_dealt_holds st i Hi Hod) as (m & p & E & dealt & Hp & HE & HEv & Hd & Hh).
  set (own := fun _ : Z => dealt i). set (eph := fun _ : Z => E).
  destruct (get_parts_have cfg ids st m i dealt own eph []) as (st3 & ps & Hg3 & Hps & Hh3 & Hl3);
    [done|done|done|intros q Hq; by apply Hd| |by apply Hh|].
  { destruct Hask as [Hperm _]. intros x Hx. assert (H : fst x ∈ seqZ 1 n).
    { rewrite <- Hperm. apply elem_of_list_fmap. by exists x. }
    apply elem_of_seqZ in H. lia. }
  exists st3, ps, m, p, E, dealt. split; [done|]. do 4 (split; [done|]). split; [exact Hps|]. split; [done|].
  intros own' eph' Ho He'. destruct Hh3 as (K1 & K2 & K3 & K4).
  repeat split; try done; [by rewrite He'|]. rewrite K4. apply map_ext. intros q. unfold slot.
  destruct (decide (q ∈ [i])) as [Hq|]; [|done]. apply elem_of_list_singleton in Hq as ->.
  by rewrite Ho, He'.
Qed.

(** ** Receiving the parts of the others *)
Lemma set_part_ok cfg st m i dealt own eph Q j p rnd :
  member C R a sk n t A i cfg -> 1 <= j <= n -> holds_at st m i dealt own eph Q ->
  good_part j i (eph j) (own j) p ->
  exists st', set_part C cfg st k p rnd = (st', Val tt) /\ holds_at st' m i dealt own eph (j :: Q) /\
    cs_lss st' = cs_lss st.
Proof.
  intros (Hid & _ & _ & _ & Hrsa & _ & _ & Hpk) Hj Hh (Hsrc & _ & Heph & Hdec & sig & Hsig & Hver).
  unfold set_part, check_source. rewrite Hsig, Hsrc. destruct (Hpk j Hj) as (pkj & Hl & Hpair).
  rewrite Hl, (Hver _ Hpair). unfold ensure_meta. pose proof Hh as (Hm & _). rewrite Hm.
  rewrite Hrsa, Hdec, Heph.
  destruct (set_slot_ok st m i dealt own eph Q j Hh Hj) as (st' & Hset & Hh' & Hl'). rewrite Hset. eauto.
Qed.
Lemma set_parts_ok cfg st m i dealt own eph Q js ps :
  member C R a sk n t A i cfg -> (forall j, j ∈ js -> 1 <= j <= n) -> holds_at st m i dealt own eph Q ->
  Forall2 (fun j x => good_part j i (eph j) (own j) (fst x)) js ps ->
  exists st', set_parts C cfg st k ps = (st', Val tt) /\
    holds_at st' m i dealt own eph (rev js ++ Q) /\ cs_lss st' = cs_lss st.
Proof.
  intros Hmem. revert ps st Q. induction js as [|j js IH]; intros ps st Q Hin Hh H.
  - apply Forall2_nil_inv_l in H as ->. simpl. eauto.
  - apply Forall2_cons_inv_l in H as (x & ps' & Hx & H & ->). destruct x as [p rnd]. simpl in *.
    destruct (set_part_ok cfg st m i dealt own eph Q j p rnd) as (st1 & Hs & Hh1 & Hl1);
      [done|apply Hin; left|done|done|].
    rewrite Hs. destruct (IH ps' st1 (j :: Q)) as (st2 & Hs2 & Hh2 & Hl2);
      [intros q Hq; apply Hin; by right|done|done|].
    exists st2. split; [done|]. split; [|congruence]. rewrite <- app_assoc. done.
Qed.

(** ** Signing *)
Lemma sign_ok cfg st m i dealt own eph P sb :
  member C R a sk n t A i cfg -> rd_is_point R A -> holds_at st m i dealt own eph P ->
  (forall j, j ∈ P -> 1 <= j <= n /\ rd_is_scalar R (own j) /\ rd_is_point R (eph j)) ->
  hrs_lt (ss_hrs (cs_lss st)) (ht_hrs k) -> unpack_hrst sb = Val k ->
  exists st' E sig, sign C cfg st sb = (st', Val (SignResp (Some E) (Some sig) true)) /\
    cr_add_elements C (map eph (sorted P n)) = Some E /\ rd_is_point R E /\
    rd_point R E = msum (map (fun j => rd_point R (eph j)) (sorted P n)) /\ rd_is_scalar R sig /\
    rd_scalar R sig = fadd (rd_f R) (fsum (rd_f R) (map (fun j => rd_scalar R (own j)) (sorted P n)))
                        (fmul (rd_f R) (rd_challenge R E A sb) (peval (rd_f R) a (rd_id R i))).
Proof.
  intros (_ & Hsh & Hshv & Hpub & _) HA Hh HP Hlt Hu. pose proof Hh as (Hm & _ & _ & Hpeers).
  assert (Hused : used_parts (peers_of st m) = map (fun j => PM (own j) (eph j)) (sorted P n)).
  { rewrite Hpeers. unfold sorted. generalize (seqZ 1 n). intros l. unfold used_parts.
    induction l as [|j l IH]; [done|]. cbn [map]. destruct (decide (j ∈ P)) as [Hj|Hj].
    - rewrite (filter_cons_True (fun i => i ∈ P)) by done. cbn [map]. rewrite <- IH.
      assert (Es : slot own eph P j = PM (own j) (eph j)) by (unfold slot; by rewrite decide_True).
      rewrite filter_cons_True; [by rewrite Es|]. rewrite Es. simpl. intros E.
      destruct (HP j Hj) as (_ & Hs & _). apply (sch_scalar_len C R HS) in Hs. by rewrite E in Hs.
    - rewrite (filter_cons_False (fun i => i ∈ P)) by done. rewrite <- IH.
      assert (Es : slot own eph P j = empty_peer_meta) by (unfold slot; by rewrite decide_False).
      rewrite filter_cons_False; [done|]. rewrite Es. simpl. tauto. }
  assert (HPs : forall j, j ∈ sorted P n -> rd_is_scalar R (own j) /\ rd_is_point R (eph j)).
  { intros j Hj. apply sorted_in in Hj; [by apply HP|]. intros q Hq. by apply HP. }
  destruct (sch_add_scalars C R HS (map own (sorted P n))) as (es & Hes & Hess & Hmin & Hesv).
  { apply List.Forall_forall. intros b Hb. apply elem_of_list_In, elem_of_list_fmap in Hb as (j & -> & Hj).
    by apply HPs. }
  destruct (sch_add_points C R HS (map eph (sorted P n))) as (E & HE & HEp & HEv).
  { apply List.Forall_forall. intros b Hb. apply elem_of_list_In, elem_of_list_fmap in Hb as (j & -> & Hj).
    by apply HPs. }
  destruct (sch_sign C R HS sb (cc_share cfg) es A E Hsh Hess HA HEp) as (sig & Hsig & Hsigs & Hsigv).
  unfold sign. rewrite Hu.
  assert (Hck : check_hrs (cs_lss st) (ht_hrs k) = Val false).
  { by apply check_hrs_spec. }
  rewrite Hck. unfold sign_fresh. rewrite Hm, Hused, !map_map. cbn [pm_share pm_eph].
  change (map (fun x => own x) (sorted P n)) with (map own (sorted P n)).
  change (map (fun x => eph x) (sorted P n)) with (map eph (sorted P n)).
  rewrite Hes, HE, Hpub.
  rewrite bool_decide_eq_true_2 by (by apply (sch_scalar_len C R HS)). rewrite Hmin. cbn [negb].
  rewrite Hsig.
  set (l1 := SS _ _ _ _ _). assert (Hsv : (save l1 (SSC (ht_hrs k) (Some sig) (Some sb))).2 = None).
  { by apply save_ok_iff. }
  destruct (save l1 _) as [l2 err]. simpl in Hsv. subst err.
  eexists _, E, sig. split; [reflexivity|]. split; [done|]. split; [done|].
  split; [by rewrite HEv, map_map|]. split; [done|].
  rewrite Hsigv, Hesv, Hshv, map_map. done.
Qed.
End Round.
