(** Proofs about key creation; everything put together. *)
From Verif Require Import GoBase Wire Canonical CanonicalApi SignState Spec SignStateProofs Crypto LocalCosigner
  Poly PolyProofs Scheme RoundSpec RoundProofs RoundProofs2 RoundProofs3 RoundProofs4 Validator ValidatorProofs
  Config ConfigSpec ConfigProofs ConfigProofs2 KeyShares KeySharesSpec.
Local Open Scope Z_scope.

Lemma seq_lookup_nth n i : (i < n)%nat -> List.seq 0 n !! i = Some i.
Proof. intros H. apply lookup_seq. lia. Qed.

Section Create.
Context (C : Crypto) (expand : bytes -> bytes) (rnd : bytes) (gens : nat -> option (bytes * bytes)).

Lemma rsa_keys_ok num ks : make_rsa_keys gens num = Some ks ->
  length ks = num /\ forall i k, ks !! i = Some k -> gens i = Some k.
Proof.
  unfold make_rsa_keys. intros H. apply mapM_Some in H. split.
  - rewrite <- (Forall2_length _ _ _ H). apply seq_length.
  - intros i k Hk. destruct (Forall2_lookup_r _ _ _ _ _ H Hk) as (j & Hj & Hg).
    apply lookup_seq in Hj as [-> _]. done.
Qed.
Lemma rsa_keys_some num : (forall i, (i < num)%nat -> is_Some (gens i)) -> is_Some (make_rsa_keys gens num).
Proof.
  intros H. apply mapM_is_Some. apply Forall_forall. intros i Hi. apply H. apply in_seq in Hi. lia.
Qed.

(** what a successful call returns *)
Lemma create_inv pv t n ks : create_shares C expand rnd gens pv t n = Val ks ->
  exists sk, pv_priv pv = Some sk /\ (32 <= length sk)%nat /\
  let shares := cr_deal C (expand (take 32 sk)) rnd (u8 t) (u8 n) in
  length ks = length shares /\
  forall i k, ks !! i = Some k ->
    ck_id k = Z.of_nat i + 1 /\ ck_pub k = slice_of (pv_pub pv) /\ shares !! i = Some (ck_share k) /\
    gens i = Some (ck_rsa k, ck_rsa_pub k) /\ length (ck_keys k) = length ks /\
    forall j k', ks !! j = Some k' -> ck_keys k !! j = Some (ck_rsa_pub k').
Proof.
  unfold create_shares. intros H. destruct (pv_priv pv) as [sk|]; [|done]. exists sk. split; [done|].
  destruct (Nat.ltb_spec (length sk) 32); [done|]. split; [done|].
  set (shares := cr_deal _ _ _ _ _) in *. destruct (make_rsa_keys gens (length shares)) as [rs|] eqn:Er; [|done].
  injection H as <-. apply rsa_keys_ok in Er as [Hl Hg].
  rewrite imap_length, zip_with_length, Hl, Nat.min_id. split; [done|].
  assert (Hlk : forall i k, imap (fun idx '(share, (rsa, rsa_pub)) =>
      CKey (Z.of_nat idx + 1) share (slice_of (pv_pub pv)) rsa rsa_pub (map snd rs)) (zip shares rs) !! i = Some k ->
    exists s r p, shares !! i = Some s /\ rs !! i = Some (r, p) /\
      k = CKey (Z.of_nat i + 1) s (slice_of (pv_pub pv)) r p (map snd rs)).
  { intros i k Hk. rewrite list_lookup_imap in Hk. apply fmap_Some in Hk as ([s [r p]] & Hz & ->).
    apply lookup_zip_with_Some in Hz as (x & y & [= <- <-] & H1 & H2). eauto 10. }
  intros i k Hk. apply Hlk in Hk as (s & r & p & Hs & Hr & ->). simpl.
  split_and!; try done.
  - by apply Hg.
  - by rewrite map_length.
  - intros j k' Hk'. apply Hlk in Hk' as (s' & r' & p' & Hs' & Hr' & ->). simpl.
    change (map snd rs) with (snd <$> rs). rewrite list_lookup_fmap, Hr'. done.
Qed.
Lemma create_some pv sk t n : pv_priv pv = Some sk -> (32 <= length sk)%nat ->
  (forall i, is_Some (gens i)) -> exists ks, create_shares C expand rnd gens pv t n = Val ks.
Proof.
  intros Hp Hl Hg. unfold create_shares. rewrite Hp. destruct (Nat.ltb_spec (length sk) 32); [lia|].
  destruct (rsa_keys_some (length (cr_deal C (expand (take 32 sk)) rnd (u8 t) (u8 n)))) as [ks Hk]; [auto|].
  rewrite Hk. eauto.
Qed.

Lemma u8_small z : 0 <= z < 256 -> u8 z = z.
Proof. intros H. unfold u8. apply Z.mod_small. done. Qed.

Lemma create_key_set pv t n ks : deals C -> create_shares C expand rnd gens pv t n = Val ks -> 0 <= n <= 255 ->
  key_set (slice_of (pv_pub pv)) n ks.
Proof.
  intros HC H Hn. apply create_inv in H as (sk & _ & _ & Hl & Hk).
  rewrite HC, u8_small in Hl by lia. split; [lia|]. intros i k Hi.
  destruct (Hk i k Hi) as (H1 & H2 & _ & _ & H5 & H6). split_and!; try done. lia.
Qed.

(** any [t mod 256] keys give the secret back *)
Lemma create_reconstruct R pv sk t n ks : threshold_scheme C R -> pv_priv pv = Some sk ->
  rd_is_scalar R (expand (take 32 sk)) -> 1 <= t mod 256 -> 0 <= n <= 255 -> n <= rd_max R ->
  create_shares C expand rnd gens pv t n = Val ks ->
  forall sel, sel ⊆ ks -> NoDup (map ck_id sel) -> t mod 256 <= Z.of_nat (length sel) ->
  exists b, cr_combine C n (map ck_id sel) (map ck_share sel) = Some b /\ rd_is_scalar R b /\
    rd_scalar R b = rd_scalar R (expand (take 32 sk)).
Proof.
  intros HS Hp Hsc Ht Hn Hmax H sel Hsub Hnd Hlen.
  apply create_inv in H as (sk' & Hp' & _ & Hl & Hk). rewrite Hp in Hp'. injection Hp' as <-.
  rewrite (u8_small n) in * by lia. change (u8 t) with (t mod 256) in *.
  destruct (sch_deal _ _ HS (expand (take 32 sk)) rnd (t mod 256) n Hsc ltac:(lia) ltac:(lia)) as (p & Hpl & Hp0 & Hdl & Hdv).
  assert (Hin : forall k, k ∈ sel -> 1 <= ck_id k <= n /\ rd_is_scalar R (ck_share k) /\
    rd_scalar R (ck_share k) = peval (rd_f R) p (rd_id R (ck_id k))).
  { intros k Hin. apply Hsub in Hin. apply elem_of_list_lookup in Hin as [i Hi].
    pose proof (lookup_lt_Some _ _ _ Hi) as Hlt. destruct (Hk i k Hi) as (-> & _ & Hs & _).
    destruct (Hdv i _ Hs) as [K1 K2]. split_and!; try done; lia. }
  destruct (sch_combine _ _ HS n (map ck_id sel) (map ck_share sel)) as (b & Hb & Hbs & _ & Hbv).
  - lia.
  - done.
  - intros i Hi. apply elem_of_list_fmap in Hi as (k & -> & Hk'). by apply Hin.
  - by rewrite !map_length.
  - apply List.Forall_forall. intros s Hs%elem_of_list_In. apply elem_of_list_fmap in Hs as (k & -> & Hk').
    by apply Hin.
  - exists b. split; [done|]. split; [done|]. rewrite Hbv, <- Hp0.
    rewrite <- (interpolate_eval (rd_f R) (sch_field _ _ HS) p (map (rd_id R) (map ck_id sel))).
    + f_equal. rewrite !map_map. apply map_ext_in. intros k Hk'. apply elem_of_list_In in Hk'. by apply Hin.
    + apply (NoDup_fmap_2_strong (rd_id R)); [|done]. intros i j Hi Hj Heq.
      apply elem_of_list_fmap in Hi as (k & -> & Hki). apply elem_of_list_fmap in Hj as (k' & -> & Hkj).
      apply (sch_id_inj _ _ HS); [..|done]; [apply Hin in Hki|apply Hin in Hkj]; lia.
    + rewrite !map_length. lia.
Qed.

(** ** The command *)
Lemma write_ok hp wr ks l : write_shares hp wr ks = (l, None) -> l = map (fun k => (ck_id k, k)) ks.
Proof.
  revert l. induction ks as [|k ks IH]; intros l H; simpl in H; [by injection H as <-|].
  destruct (hp && wr (ck_id k)); [|done]. destruct (write_shares hp wr ks) as [l' e] eqn:E.
  injection H as <- ->. simpl. by rewrite (IH l').
Qed.
Lemma write_all hp wr ks : hp = true -> (forall i, wr i = true) ->
  write_shares hp wr ks = (map (fun k => (ck_id k, k)) ks, None).
Proof.
  intros -> Hw. induction ks as [|k ks IH]; [done|]. cbn [write_shares map]. rewrite Hw. simpl. by rewrite IH.
Qed.
Lemma cmd_ok wr file args l : deals C ->
  create_cmd C expand rnd gens wr file args = Val (l, None) ->
  exists f ta na t n pv ks, args = [f; ta; na] /\ decimal ta t /\ decimal na n /\
    in_int64 t /\ in_int64 n /\ file = Some (Some pv) /\
    create_shares C expand rnd gens pv t n = Val ks /\
    map snd l = ks /\ map fst l = seqZ 1 (n mod 256).
Proof.
  intros HC H. unfold create_cmd in H. destruct args as [|f [|ta [|na [|]]]]; try done.
  destruct file as [pv|]; [|done]. destruct (go_atoi ta) as [t|] eqn:Et; [|done].
  destruct (go_atoi na) as [n|] eqn:En; [|done]. destruct pv as [pv|]; [|done].
  destruct (create_shares C expand rnd gens pv t n) as [ks| |] eqn:Ec; [|done|done].
  injection H as H. apply write_ok in H. subst l.
  apply atoi_iff in Et as [Et1 Et2]. apply atoi_iff in En as [En1 En2].
  exists f, ta, na, t, n, pv, ks. split_and!; try done.
  - rewrite map_map. simpl. by rewrite map_id.
  - rewrite map_map. simpl. pose proof Ec as Hi. apply create_inv in Hi as (sk & _ & _ & Hl & Hk). rewrite HC in Hl.
    apply list_eq. intros i. change (map (fun x => ck_id x) ks) with (ck_id <$> ks). rewrite list_lookup_fmap.
    destruct (ks !! i) as [k|] eqn:Ei.
    + destruct (Hk i k Ei) as (Hid & _). simpl. rewrite Hid. symmetry. apply lookup_seqZ.
      pose proof (lookup_lt_Some _ _ _ Ei). unfold u8 in Hl. change (2 ^ 8) with 256 in Hl. split; lia.
    + simpl. symmetry. apply lookup_ge_None. apply lookup_ge_None in Ei. rewrite seqZ_length.
      unfold u8 in Hl. change (2 ^ 8) with 256 in Hl. lia.
Qed.
End Create.

(** ** Starting the cosigners *)
Lemma peer_keys_lookup keys l m m' j : peer_keys keys l m = Some m' ->
  m' !! j = if decide (j ∈ map pe_id l) then idx keys (j - 1) else m !! j.
Proof.
  revert m. induction l as [|p l IH]; intros m H; simpl in H.
  - injection H as <-. by rewrite decide_False by apply not_elem_of_nil.
  - destruct (_ || _); [done|]. destruct (idx keys (pe_id p - 1)) as [pk|] eqn:Ei; [|done].
    rewrite (IH _ H). cbn [map]. destruct (decide (j ∈ map pe_id l)) as [K|K].
    + rewrite decide_True by (by right). done.
    + destruct (decide (j = pe_id p)) as [->|Hne].
      * rewrite decide_True by left. by rewrite lookup_insert.
      * rewrite decide_False by (intros [?|?]%elem_of_cons; done). by rewrite lookup_insert_ne by congruence.
Qed.

Section Start.
Context (C : Crypto) (R : reading) (HS : threshold_scheme C R) (expand : bytes -> bytes) (rnd : bytes)
  (gens : nat -> option (bytes * bytes)) (L : Lib).
Context (pub sk0 : bytes) (t n : Z) (ks : list cosigner_key).
Context (Hn : 2 <= n <= rd_max R) (Hn' : n <= 255) (Ht : 1 <= t <= n) (Hg : rsa_works C R gens).
Context (Hkp : key_pair R (expand (take 32 sk0)) pub).
Context (Hc : create_shares C expand rnd gens (PVKey (Some pub) (Some sk0)) t n = Val ks).

Lemma runs_val i c r : runs_as L ks n t i c r -> 1 <= i <= n ->
  all_ids (ru_val r) n /\ vc_threshold (ru_val r) = t /\ vc_pub (ru_val r) = pub /\ vc_id (ru_val r) = i.
Proof.
  intros (s & k & Hs & Hth & Hperm & Hk & Hst) Hi. unfold start_cosigner in Hst.
  destruct (validate_cosigner L c); [done|]. rewrite Hs in Hst. unfold running_of in Hst.
  destruct (peer_keys _ _ _) as [m|]; [|done]. injection Hst as <-. cbn [ru_val vc_threshold vc_pub vc_id].
  apply create_inv in Hc as (sk & _ & _ & _ & Hks). destruct (Hks _ _ Hk) as (Hid & Hpub & _).
  assert (Hid' : ck_id k = i) by lia. unfold all_ids. cbn [vc_id vc_peers]. rewrite Hid'. done.
Qed.
Lemma runs_member : exists a sk, (length a <= Z.to_nat t)%nat /\
  rd_point R pub = mmul (peval (rd_f R) a (f0 (rd_f R))) (rd_base R) /\
  forall i c r, runs_as L ks n t i c r -> 1 <= i <= n -> member C R a sk n t pub i (ru_cos r).
Proof.
  pose proof Hc as Hc'. apply create_inv in Hc' as (sk & [= <-] & _ & Hl & Hks). rewrite !u8_small in * by lia.
  destruct Hkp as (Hsc & _ & Hpt).
  destruct (sch_deal _ _ HS (expand (take 32 sk0)) rnd t n Hsc ltac:(lia) ltac:(lia)) as (a & Hal & Ha0 & Hdl & Hdv).
  set (skf := fun j => match ks !! Z.to_nat (j - 1) with Some k => ck_rsa k | None => [] end).
  exists a, skf. split; [done|]. split; [by rewrite Ha0|].
  intros i c r (s & k & Hs & Hth & Hperm & Hk & Hst) Hi. unfold start_cosigner in Hst.
  destruct (validate_cosigner L c); [done|]. rewrite Hs in Hst. unfold running_of in Hst.
  destruct (peer_keys _ _ _) as [m|] eqn:Em; [|done]. injection Hst as <-. cbn [ru_cos].
  destruct (Hks _ _ Hk) as (Hid & Hpub & Hsh & Hgen & Hkl & Hkk).
  assert (Hid' : ck_id k = i) by lia.
  destruct (Hdv _ _ Hsh) as [Hss Hsv].
  assert (Hlen : Z.of_nat (length (co_peers s)) + 1 = n).
  { apply Permutation_length in Hperm. rewrite seqZ_length in Hperm. simpl in Hperm. rewrite map_length in Hperm. lia. }
  unfold member. cbn [cc_id cc_share cc_pub cc_rsa cc_total cc_threshold cc_peers].
  split; [done|]. split; [done|]. split; [by rewrite Hsv; f_equal; f_equal; lia|]. split; [done|].
  split; [unfold skf; by rewrite Hk|]. split; [rewrite Hlen; apply u8_small; lia|].
  split; [rewrite Hth; apply u8_small; lia|].
  intros j Hj. destruct (lookup_lt_is_Some_2 ks (Z.to_nat (j - 1))) as [kj Hkj]; [lia|].
  destruct (Hks _ _ Hkj) as (Hidj & _ & _ & Hgj & _). exists (ck_rsa_pub kj). split.
  - rewrite (peer_keys_lookup _ _ _ _ j Em). destruct (decide (j ∈ map pe_id (co_peers s))) as [K|K].
    + unfold idx. destruct (Z.ltb_spec (j - 1) 0); [lia|]. by apply Hkk.
    + assert (j = i) as ->.
      { assert (K' : j ∈ i :: map pe_id (co_peers s)) by (rewrite Hperm; apply elem_of_seqZ; lia).
        apply elem_of_cons in K' as [K'|K']; done. }
      rewrite Hid', lookup_singleton. rewrite Hk in Hkj. by injection Hkj as <-.
  - unfold skf. rewrite Hkj. by eapply Hg.
Qed.
End Start.

Lemma signable_key chain b : signable chain b -> unpack_hrst (b_sb b) = Val (b_key b).
Proof.
  destruct 1 as [chain v b Hr Hns Hrp Hb|chain p b Hr Hns Hb].
  - unfold vote_block in Hb. destruct (vote_type_to_step (v_type v)) as [s|] eqn:Es; [|done].
    destruct (vote_sign_bytes chain v) as [sb| |] eqn:Eb; [|done|done]. injection Hb as <-.
    unfold b_key. cbn [b_sb b_hrs b_ts]. rewrite unix_nano_exact by done. rewrite <- (app_nil_r sb).
    eapply unpack_vote_api; eauto. by apply step_of_type_spec.
  - unfold proposal_block in Hb. destruct (proposal_sign_bytes chain p) as [sb| |] eqn:Eb; [|done|done].
    injection Hb as <-. unfold b_key. cbn [b_sb b_hrs b_ts]. rewrite unix_nano_exact by done.
    rewrite <- (app_nil_r sb). by apply (unpack_proposal_api chain).
Qed.

(** the whole way *)
Lemma end_to_end C R expand rnd gens L pub sk0 t n ks chain b (c : Z -> config) (r : Z -> running)
    i0 tid v ws (st : Z -> cos_state) (order : Z -> list (Z * get_rnd)) emitted :
  threshold_scheme C R -> 2 <= n <= rd_max R -> n <= 255 -> 1 <= t <= n -> rsa_works C R gens ->
  key_pair R (expand (take 32 sk0)) pub ->
  create_shares C expand rnd gens (PVKey (Some pub) (Some sk0)) t n = Val ks ->
  (forall i, 1 <= i <= n -> runs_as L ks n t i (c i) (r i)) ->
  1 <= i0 <= n -> signable chain b ->
  let vcfg := ru_val (r i0) in
  let P := map (idw vcfg) (ws ++ [0%nat]) in
  quorum vcfg ws -> vs_threads v !! tid = None ->
  hrs_lt (ss_hrs (vs_init v)) (b_hrs b) -> hrs_lt (ss_hrs (vs_lss v)) (b_hrs b) ->
  (forall i, i ∈ P -> ready C R n t i (st i) (b_key b) /\ asks_all R n (order i)) ->
  exists st1 ps,
    (forall i, i ∈ P -> get_parts C (ru_cos (r i)) (st i) (b_key b) (order i) = (st1 i, Val (ps i))) /\
    forall sd sel, sd_peers sd = ws -> fair vcfg sd ps ->
    (forall w, w ∈ sd_all sd -> map fst (sel (idw vcfg w)) = parts_for vcfg (sd_order sd w) (idw vcfg w)) ->
    exists E st2 sig, (forall i, i ∈ P ->
      set_and_sign C (ru_cos (r i)) (st1 i) (b_key b) (sel i) (b_sb b) =
        (st2 i, Val (SignResp (Some E) (Some (sig i)) true))) /\
    exists s l v', vrun C vcfg v l v' /\ map fst l = honest_ops vcfg tid b sd ps sig E emitted /\
      (VEmit tid emitted, OReturn tid b (VR (Some (E ++ s)) (b_ts b) None) true) ∈ l /\
      cr_verify C pub (b_sb b) (E ++ s) = true /\
      (forall op w k x m, (op, OAsk tid w k x m) ∈ l -> w ∈ sd_all sd /\ k = b_key b /\ m = b_sb b /\
         x = map fst (sel (idw vcfg w))) /\
      ss_hrs (vs_lss v') = b_hrs b.
Proof.
  intros HS Hn Hn' Ht Hg Hkp Hc Hruns Hi0 Hsig vcfg P Hq Hnone Hi Hl Hall.
  destruct (runs_member C R HS expand rnd gens L pub sk0 t n ks Hn Hn' Ht Hg Hkp Hc) as (a & sk & Hal & Hpt & Hmem).
  destruct (runs_val C expand rnd gens L pub sk0 t n ks Hc i0 (c i0) (r i0) (Hruns i0 Hi0) Hi0) as (Hids & Hvt & Hvp & Hvi).
  fold vcfg in Hids, Hvt, Hvp, Hvi.
  assert (HP : forall i, i ∈ P -> 1 <= i <= n).
  { intros i Hin. apply elem_of_list_fmap in Hin as (w & -> & Hw). destruct Hq as (_ & _ & Hws & _).
    assert (His : is_Some (id_of vcfg w)).
    { apply elem_of_app in Hw as [Hw|Hw]; [by apply Hws|]. apply elem_of_list_singleton in Hw as ->. by eexists. }
    destruct His as [j Hj]. unfold idw. rewrite Hj. by eapply id_range. }
  destruct (cluster_round C R HS vcfg n a sk Hn Hn' ltac:(lia) ltac:(rewrite Hvt; done)
    ltac:(rewrite Hvp; apply Hkp) ltac:(rewrite Hvp; done) tid v b ws (fun i => ru_cos (r i)) st order emitted
    Hids Hq Hnone Hi Hl (signable_key _ _ Hsig)) as (st1 & ps & H1 & H2).
  { intros i Hin. destruct (Hall i Hin). rewrite Hvt, Hvp. split_and!; try done. eapply Hmem; eauto. }
  exists st1, ps. split; [intros i Hin; by destruct (H1 i Hin)|].
  intros sd sel Hsd Hf Hsel. destruct (H2 sd sel Hsd Hf Hsel) as (E & st2 & sig & Hs & s & lg & v' & K).
  rewrite Hvp in K. eauto 10.
Qed.

(** a cosigner without peers never deals, and so never signs *)
Lemma lone_never_signs C cfg st k order sb : unseen st k -> unpack_hrst sb = Val k ->
  (forall x, x ∈ order -> fst x = cc_id cfg) ->
  get_parts C cfg st k order = (st, Val []) /\
  set_and_sign C cfg st k [] sb = (st, Fail ENoMeta).
Proof.
  intros [Hm Hlt] Hu Ho. split.
  - induction order as [|[i x] order IH]; [done|]. cbn [get_parts].
    assert (Hi : i = cc_id cfg) by (apply (Ho (i, x)); left). rewrite Hi, Z.eqb_refl. apply IH. intros y Hy. apply Ho. by right.
  - unfold set_and_sign. cbn [set_parts]. unfold sign. rewrite Hu.
    assert (Hc : check_hrs (cs_lss st) (ht_hrs k) = Val false) by (by apply check_hrs_spec).
    rewrite Hc. unfold sign_fresh. rewrite Hm. done.
Qed.

Lemma hiding (F : field_ops) : is_field F -> forall (xs ys : list F) (s : F),
  NoDup xs -> f0 F ∉ xs -> length ys = length xs ->
  exists p, (length p = S (length xs) /\ peval F p (f0 F) = s /\
      forall k x y, xs !! k = Some x -> ys !! k = Some y -> peval F p x = y) /\
    forall q, length q = S (length xs) -> peval F q (f0 F) = s ->
      (forall k x y, xs !! k = Some x -> ys !! k = Some y -> peval F q x = y) -> q = p.
Proof.
  intros HF xs ys s Hnd H0 Hl.
  destruct (interpolate_exists F HF (f0 F :: xs) (s :: ys)) as (p & Hp & Hv & Hu).
  - by apply list.NoDup_cons.
  - simpl. by rewrite Hl.
  - exists p. split; [split; [done|split]|].
    + by apply (Hv 0%nat).
    + intros k x y Hx Hy. by apply (Hv (S k)).
    + intros q Hq Hq0 Hqv. apply Hu; [done|]. intros [|k] x y Hx Hy.
      * injection Hx as <-. injection Hy as <-. done.
      * by eapply Hqv.
Qed.
Lemma hiding_ids C R : threshold_scheme C R -> forall ids,
  NoDup ids -> (forall i, i ∈ ids -> 1 <= i <= rd_max R) ->
  NoDup (map (rd_id R) ids) /\ f0 (rd_f R) ∉ map (rd_id R) ids.
Proof.
  intros HS ids Hnd Hr. split.
  - apply (NoDup_fmap_2_strong (rd_id R)); [|done]. intros i j Hi Hj. apply (sch_id_inj _ _ HS); auto.
  - intros (i & Hi & Hin)%elem_of_list_fmap. by apply (sch_id _ _ HS i (Hr i Hin)).
Qed.

Lemma usable C expand rnd gens R f ta na t n pub sk :
  threshold_scheme C R -> deals C -> rd_is_scalar R (expand (take 32 sk)) -> (32 <= length sk)%nat ->
  (forall i, is_Some (gens i)) -> decimal ta t -> decimal na n -> 1 <= t <= n -> n <= 255 -> n <= rd_max R ->
  exists ks, create_cmd C expand rnd gens (fun _ => true) (Some (Some (PVKey (Some pub) (Some sk)))) [f; ta; na]
      = Val (map (fun k => (ck_id k, k)) ks, None) /\
    key_set pub n ks /\
    (exists p, (length p <= Z.to_nat t)%nat /\
      peval (rd_f R) p (f0 (rd_f R)) = rd_scalar R (expand (take 32 sk)) /\
      forall k, k ∈ ks -> rd_scalar R (ck_share k) = peval (rd_f R) p (rd_id R (ck_id k))) /\
    forall sel, sel ⊆ ks -> NoDup (map ck_id sel) -> t <= Z.of_nat (length sel) ->
      exists b, cr_combine C n (map ck_id sel) (map ck_share sel) = Some b /\
        rd_scalar R b = rd_scalar R (expand (take 32 sk)).
Proof.
  intros HS HC Hsc Hlen Hg Hta Hna Ht Hn Hmax.
  destruct (create_some C expand rnd gens (PVKey (Some pub) (Some sk)) sk t n) as [ks Hks]; [done|done|done|].
  exists ks. split; [|split; [|split]].
  - unfold create_cmd.
    assert (Hta' : go_atoi ta = Some t).
    { apply atoi_iff. split; [done|]. unfold in_int64. change (2 ^ 63) with 9223372036854775808. lia. }
    assert (Hna' : go_atoi na = Some n).
    { apply atoi_iff. split; [done|]. unfold in_int64. change (2 ^ 63) with 9223372036854775808. lia. }
    rewrite Hta', Hna', Hks. by rewrite write_all.
  - apply (create_key_set _ _ _ _ _ _ _ _ HC Hks). lia.
  - apply create_inv in Hks as (sk' & [= <-] & _ & Hl & Hk). rewrite !u8_small in * by lia.
    destruct (sch_deal _ _ HS (expand (take 32 sk)) rnd t n Hsc ltac:(lia) ltac:(lia)) as (p & Hpl & Hp0 & Hdl & Hdv).
    exists p. split; [done|]. split; [done|]. intros k (i & Hi)%elem_of_list_lookup.
    destruct (Hk i k Hi) as (-> & _ & Hs & _). by destruct (Hdv i _ Hs).
  - intros sel Hsub Hnd Hs. rewrite <- (Z.mod_small t 256) in Hs by lia.
    destruct (create_reconstruct C expand rnd gens R (PVKey (Some pub) (Some sk)) sk t n ks HS eq_refl Hsc
      ltac:(rewrite Z.mod_small; lia) ltac:(lia) Hmax Hks sel Hsub Hnd Hs) as (b & Hb & _ & Hv). eauto.
Qed.
