(** Proofs for the positive parts of C15 and C61. *)
From Verif Require Import GoBase Canonical SignState Spec SignStateProofs Crypto LocalCosigner CosignerSpec
  CosignerProofs CosignerProofs2 NonceSpec.

Section Nonce.
Context (C : Crypto) (cfg : cos_config).
Notation cstep := (cstep C cfg).
Notation crun := (crun C cfg).
Notation em_case := (em_case C cfg).

(** what one step does to the metadata, the heap and the counter *)
Inductive mstep (st : cos_state) (op : cop) (o : cobs) (st' : cos_state) : Prop :=
| MSame (Hq : forall sb r, o = ObsShare sb r -> sr_fresh r = false) (Hm : cs_meta st' = cs_meta st) (Hh : cs_heap st' = cs_heap st) (Hn : cs_next st' = cs_next st)
| MPrune k (Hop : exists sb r, o = ObsShare sb r /\ sr_fresh r = true /\ bytes_for sb k)
    (Hm : forall k', cs_meta st' !! k' = if decide (hrs_lt (ht_hrs k') k) then None else cs_meta st !! k')
    (Hh : cs_heap st' = cs_heap st) (Hn : cs_next st' = cs_next st)
| MEnsure k kd rnd m (Hkeys : keys_asked op = [k; kd])
    (Hop : exists p, op = OpSet k p rnd) (Hem : em_case st k kd rnd st' m)
| MGet k id rnd st1 m own (Hop : op = OpGet k id rnd) (Hem : em_case st k k (gr_deal rnd) st1 m)
    (Hown : idx (m_dealt m) (cc_id cfg - 1) = Some own)
    (Hs : set_slot st1 m (cc_id cfg - 1) (PM own (cr_base C (m_secret m))) = Some st')
    (Ho : forall p, o = ObsPart p -> honest_part C cfg m id p)
| MSet k p rnd st1 m x (Hop : op = OpSet k p rnd) (Hem : em_case st k (zero_key k) rnd st1 m) (Ho : o = ObsSetOk)
    (Hs : set_slot st1 m (pt_source p - 1) x = Some st').

Lemma cstep_mstep st op st' o : cstep st op = Some (st', o) -> mstep st op o st'.
Proof.
  destruct op as [k id rnd|k p rnd|sb|c]; intros Hs; simpl in Hs.
  - destruct (get_part C cfg st k id rnd) as [s o'] eqn:E. apply get_part_spec in E.
    destruct o' as [p|e|]; [..|discriminate]; injection Hs as <- <-.
    + destruct E as (st1 & m & own & H1 & H2 & H3 & H4). eapply MGet; eauto. by intros p' [= ->].
    + destruct e; try (destruct E as (st1 & m & own & H1 & H2 & H3 & H4); eapply MGet; eauto; discriminate).
      destruct E as [-> _]. by apply MSame.
  - destruct (set_part C cfg st k p rnd) as [s o'] eqn:E. apply set_part_spec in E.
    destruct o' as [u|e|]; [..|discriminate]; injection Hs as <- <-.
    + destruct E as (_ & st1 & m & sh & H1 & _ & H3). eapply MSet; eauto.
    + destruct E as [-> |[m H]]; [by apply MSame|]. eapply MEnsure; eauto; done.
  - destruct (sign C cfg st sb) as [s o'] eqn:E. apply sign_spec in E.
    destruct o' as [r|e|]; [|injection Hs as <- <-; subst; by apply MSame|discriminate].
    injection Hs as <- <-. pose proof (sign_case_level _ _ _ _ _ _ E) as [Hb _].
    destruct (sign_case_meta _ _ _ _ _ _ _ E Hb) as (H1 & H2 & H3 & H4).
    destruct (sr_fresh r) eqn:Ef; [|rewrite H2 by done; apply MSame; [|done..]; intros ? ? [= _ <-]; done].
    eapply MPrune; eauto.
  - unfold save_lss in Hs. destruct (save (cs_lss st) c) as [l e]. injection Hs as <- <-. by apply MSame.
Qed.

(** *** C15 *)

Lemma em_case_dom st k kd rnd st' m k' m' :
  em_case st k kd rnd st' m -> cs_meta st' !! k' = Some m' -> k' = k \/ k' = kd \/ cs_meta st !! k' = Some m'.
Proof.
  intros [H -> | Hn H -> | sc r Hn Hd Hr Hm ->] Hk'; simpl in Hk'; [auto| |].
  - apply lookup_insert_Some in Hk' as [[-> _]|[_ Hk']]; auto.
  - apply lookup_insert_Some in Hk' as [[-> _]|[_ Hk']]; auto.
    apply lookup_insert_Some in Hk' as [[-> _]|[_ Hk']]; auto.
Qed.

Lemma requested lss l st k m : crun (new_cosigner lss) l st -> cs_meta st !! k = Some m ->
  exists l1 op o l2, l = l1 ++ (op, o) :: l2 /\ k ∈ keys_asked op /\ no_fresh_above (ht_hrs k) l2.
Proof.
  revert st m. induction l as [|[op o] l IH] using rev_ind; intros st m Hr Hm.
  - inversion Hr; subst. simpl in Hm. by rewrite lookup_empty in Hm.
  - apply crun_app in Hr as (st1 & Hr1 & Hr2). inversion Hr2 as [|? ? st2 ? ? ? Hs Hr3]; subst.
    inversion Hr3; subst. clear Hr2 Hr3.
    assert (Hnew : k ∈ keys_asked op -> exists l1 op0 o0 l2, l ++ [(op, o)] = l1 ++ (op0, o0) :: l2 /\
              k ∈ keys_asked op0 /\ no_fresh_above (ht_hrs k) l2).
    { intros Hk. exists l, op, o, []. split; [done|]. split; [done|]. intros ? ? ? ? Hin. inversion Hin. }
    assert (Hold : is_Some (cs_meta st1 !! k) ->
              (forall sb r k', o = ObsShare sb r -> sr_fresh r = true -> bytes_for sb k' -> ~ hrs_lt (ht_hrs k) k') ->
              exists l1 op0 o0 l2, l ++ [(op, o)] = l1 ++ (op0, o0) :: l2 /\
              k ∈ keys_asked op0 /\ no_fresh_above (ht_hrs k) l2).
    { intros [m1 Hm1] Hq. destruct (IH _ _ Hr1 Hm1) as (l1 & op0 & o0 & l2 & -> & Hk & Hf).
      exists l1, op0, o0, (l2 ++ [(op, o)]). split; [by rewrite <- app_assoc|]. split; [done|].
      intros op' sb r k' [Hin|Hin]%elem_of_app Hfr Hb; [by eapply Hf|].
      apply elem_of_list_singleton in Hin. injection Hin as -> <-. eauto. }
    assert (Hns : forall sb r, o = ObsShare sb r -> op = OpSign sb).
    { intros sb r ->. by apply cstep_share in Hs as [-> _]. }
    apply cstep_mstep in Hs. destruct Hs as
      [Hq Hm' _ _|k0 (sb & r & -> & Hf & Hb) Hm' _ _|k0 kd rnd m0 Hkeys [p ->] Hem
      |k0 id rnd s1 m0 own -> Hem Hown Hs Ho|k0 p rnd s1 m0 x -> Hem -> Hs].
    + rewrite Hm' in Hm. apply Hold; [eauto|]. intros sb r k' E Hf. rewrite (Hq _ _ E) in Hf. discriminate.
    + rewrite Hm' in Hm. destruct (decide _) as [|Hd]; [discriminate|]. apply Hold; [eauto|].
      intros sb' r' k' [= <- <-] _ Hb'. by rewrite (bytes_for_fun _ _ _ Hb' Hb).
    + destruct (em_case_dom _ _ _ _ _ _ _ _ Hem Hm) as [-> |[-> |H]].
      * apply Hnew. rewrite Hkeys. set_solver.
      * apply Hnew. rewrite Hkeys. set_solver.
      * apply Hold; [eauto|]. intros sb r k' Ho. by apply Hns in Ho.
    + rewrite (set_slot_meta _ _ _ _ _ Hs) in Hm.
      destruct (em_case_dom _ _ _ _ _ _ _ _ Hem Hm) as [-> |[-> |H]];
        [apply Hnew; set_solver..|]. apply Hold; [eauto|]. intros sb r k' Ho'. by apply Hns in Ho'.
    + rewrite (set_slot_meta _ _ _ _ _ Hs) in Hm.
      destruct (em_case_dom _ _ _ _ _ _ _ _ Hem Hm) as [-> |[-> |H]].
      * apply Hnew. simpl. set_solver.
      * apply Hnew. simpl. unfold zero_key. set_solver.
      * apply Hold; [eauto|]. intros sb r k' Ho'. by apply Hns in Ho'.
Qed.

Lemma requested_size lss l st : crun (new_cosigner lss) l st ->
  (size (cs_meta st) <= size (list_to_set (flat_map (fun x => keys_asked x.1) l) : gset hrst))%nat.
Proof.
  intros Hr. rewrite <- size_dom. apply subseteq_size. intros k Hk. apply elem_of_dom in Hk as [m Hm].
  destruct (requested _ _ _ _ _ Hr Hm) as (l1 & op & o & l2 & -> & Hk & _).
  apply elem_of_list_to_set, elem_of_list_In, in_flat_map. exists (op, o). split; [|by apply elem_of_list_In].
  apply in_app_iff. right. left. done.
Qed.

(** *** C61 *)

(** references are below the counter, and the reference determines the dealing *)
Definition refs_ok (st : cos_state) : Prop :=
  (forall k m, cs_meta st !! k = Some m -> (m_ref m < cs_next st)%nat) /\
  (forall k1 k2 m1 m2, cs_meta st !! k1 = Some m1 -> cs_meta st !! k2 = Some m2 -> m_ref m1 = m_ref m2 -> m1 = m2).

Lemma em_case_refs st k kd rnd st' m : em_case st k kd rnd st' m -> refs_ok st -> refs_ok st'.
Proof.
  intros [H -> | Hn H -> | sc r Hn Hd Hr Hm ->] [S1 S2]; [done| |].
  - split; simpl.
    + intros k' m' [[<- <-]|[_ H']]%lookup_insert_Some; eauto.
    + intros k1 k2 m1 m2 [[<- <-]|[_ H1]]%lookup_insert_Some [[<- <-]|[_ H2]]%lookup_insert_Some E; [done|eauto..].
  - assert (Hin : forall k' m', <[k:=m]> (<[kd:=m]> (cs_meta st)) !! k' = Some m' -> m' = m \/ cs_meta st !! k' = Some m').
    { intros k' m' [[<- <-]|[_ H']]%lookup_insert_Some; [auto|].
      apply lookup_insert_Some in H' as [[<- <-]|[_ H']]; auto. }
    split; simpl.
    + intros k' m' [-> |H']%Hin; [subst m; simpl; lia|]. apply S1 in H'. lia.
    + intros k1 k2 m1 m2 [-> |H1]%Hin [-> |H2]%Hin E; [done|..|eauto].
      * apply S1 in H2. subst m. simpl in E. lia.
      * apply S1 in H1. subst m. simpl in E. lia.
Qed.
Lemma set_slot_refs st m i p st' : set_slot st m i p = Some st' -> refs_ok st -> refs_ok st'.
Proof.
  intros H [H1 H2]. unfold refs_ok. by rewrite (set_slot_meta _ _ _ _ _ H), (set_slot_next _ _ _ _ _ H).
Qed.
Lemma mstep_refs st op o st' : mstep st op o st' -> refs_ok st -> refs_ok st'.
Proof.
  intros [Hq Hm _ Hn|k0 _ Hm _ Hn|k0 kd rnd m0 _ _ Hem|k0 id rnd s1 m0 own _ Hem _ Hs _|k0 p rnd s1 m0 x _ Hem _ Hs] Hr.
  - unfold refs_ok. by rewrite Hm, Hn.
  - destruct Hr as [S1 S2]. unfold refs_ok. rewrite Hn. split.
    + intros k m. rewrite Hm. destruct (decide _); [discriminate|apply S1].
    + intros k1 k2 m1 m2. rewrite !Hm. destruct (decide _); [discriminate|]. destruct (decide _); [discriminate|apply S2].
  - by eapply em_case_refs.
  - eapply set_slot_refs; [done|]. by eapply em_case_refs.
  - eapply set_slot_refs; [done|]. by eapply em_case_refs.
Qed.

(** the own slot of the dealing [m] holds the cosigner's part *)
Definition filled (st : cos_state) (m : meta) (own : bytes) : Prop :=
  peers_of st m !! Z.to_nat (cc_id cfg - 1) = Some (PM own (cr_base C (m_secret m))).

Lemma em_case_filled st k kd rnd st' m k0 m0 own : em_case st k kd rnd st' m -> refs_ok st ->
  cs_meta st !! k0 = Some m0 -> filled st m0 own -> filled st' m0 own.
Proof.
  intros [H -> | Hn H -> | sc r Hn Hd Hr Hm ->] [S1 _] H0 Hf; [done..|].
  unfold filled, peers_of in *. simpl. rewrite lookup_insert_ne; [done|]. apply S1 in H0. lia.
Qed.
Lemma set_slot_filled_other st m i p st' m0 own : set_slot st m i p = Some st' ->
  i <> cc_id cfg - 1 -> 1 <= cc_id cfg -> filled st m0 own -> filled st' m0 own.
Proof.
  intros H Hi Hid Hf. unfold set_slot in H. destruct (idx_set _ _ _) as [l'|] eqn:E; [|discriminate].
  injection H as <-. apply idx_set_spec in E as [Hi' ->]. unfold filled, peers_of in *. simpl.
  destruct (decide (m_ref m = m_ref m0)) as [E|E].
  - rewrite E, lookup_insert. simpl. rewrite list_lookup_insert_ne by lia. done.
  - by rewrite lookup_insert_ne.
Qed.
Lemma set_slot_filled_own st m own st' : set_slot st m (cc_id cfg - 1) (PM own (cr_base C (m_secret m))) = Some st' ->
  filled st' m own.
Proof.
  intros H. unfold set_slot in H. destruct (idx_set _ _ _) as [l'|] eqn:E; [|discriminate].
  injection H as <-. apply idx_set_spec in E as [Hi ->]. unfold filled, peers_of in *. simpl.
  rewrite lookup_insert. simpl. apply list_lookup_insert. lia.
Qed.
Lemma set_slot_filled_diff st m own st' m0 own0 :
  set_slot st m (cc_id cfg - 1) (PM own (cr_base C (m_secret m))) = Some st' -> m_ref m <> m_ref m0 ->
  filled st m0 own0 -> filled st' m0 own0.
Proof.
  intros H Hne Hf. unfold set_slot in H. destruct (idx_set _ _ _) as [l'|] eqn:E; [|discriminate].
  injection H as <-. unfold filled, peers_of in *. simpl. by rewrite lookup_insert_ne.
Qed.

Lemma mstep_filled st op o st' k m own : mstep st op o st' -> refs_ok st -> 1 <= cc_id cfg ->
  (forall k p rnd, (op, o) = (OpSet k p rnd, ObsSetOk) -> pt_source p <> cc_id cfg) ->
  cs_meta st !! k = Some m -> idx (m_dealt m) (cc_id cfg - 1) = Some own -> filled st m own ->
  filled st' m own.
Proof.
  intros Hs Hr Hid Hno Hk Hown Hf.
  destruct Hs as [Hq Hm Hh Hn|k0 _ Hm Hh Hn|k0 kd rnd m0 _ _ Hem|k0 id rnd s1 m0 own0 _ Hem Ho0 Hs _|k0 p rnd s1 m0 x -> Hem -> Hs].
  - unfold filled, peers_of in *. by rewrite Hh.
  - unfold filled, peers_of in *. by rewrite Hh.
  - by eapply em_case_filled.
  - pose proof (em_case_filled _ _ _ _ _ _ _ _ _ Hem Hr Hk Hf) as Hf1.
    pose proof (em_case_keep _ _ _ _ _ _ _ _ _ _ Hem Hk) as Hk1.
    pose proof (em_case_lookup _ _ _ _ _ _ _ _ Hem) as Hk0.
    destruct (decide (m_ref m0 = m_ref m)) as [E|E].
    + destruct (em_case_refs _ _ _ _ _ _ Hem Hr) as [_ S2]. pose proof (S2 _ _ _ _ Hk0 Hk1 E) as ->.
      rewrite Hown in Ho0. injection Ho0 as <-. by eapply set_slot_filled_own.
    + by eapply set_slot_filled_diff.
  - pose proof (em_case_filled _ _ _ _ _ _ _ _ _ Hem Hr Hk Hf) as Hf1.
    eapply set_slot_filled_other; [done| |done|done]. specialize (Hno _ _ _ eq_refl). lia.
Qed.

Lemma crun_refs st l st' : crun st l st' -> refs_ok st -> refs_ok st'.
Proof. induction 1; [done|]. intros. apply IHcrun. eapply mstep_refs; [by eapply cstep_mstep|done]. Qed.
Lemma refs_new lss : refs_ok (new_cosigner lss).
Proof. split; intros; simpl in *; by rewrite lookup_empty in *. Qed.

(** every dealing was made with randomness drawn in the run *)
Definition dealt_in (l : list (cop * cobs)) (m : meta) : Prop :=
  exists r, drawn l (m_secret m) r /\ m_dealt m = cr_deal C (m_secret m) r (cc_threshold cfg) (cc_total cfg).
Lemma drawn_app l1 l2 s r : drawn l1 s r -> drawn (l1 ++ l2) s r.
Proof. intros (op & o & Hin & H). exists op, o. split; [set_solver|done]. Qed.
Lemma em_case_dealt l st k kd rnd st' m k' m' op o : em_case st k kd rnd st' m ->
  (forall k m, cs_meta st !! k = Some m -> dealt_in l m) ->
  (forall s r, rnd = Some (s, r) -> drawn [(op, o)] s r) ->
  cs_meta st' !! k' = Some m' -> dealt_in (l ++ [(op, o)]) m'.
Proof.
  intros Hem HI Hd Hk'.
  assert (Hold : forall m, dealt_in l m -> dealt_in (l ++ [(op, o)]) m).
  { intros m1 (r & H1 & H2). exists r. split; [by apply drawn_app|done]. }
  destruct Hem as [H -> | Hn H -> | sc r Hn Hdn -> Hm ->]; simpl in Hk'.
  - by eapply Hold, HI.
  - apply lookup_insert_Some in Hk' as [[_ <-]|[_ Hk']]; by eapply Hold, HI.
  - assert (Hnew : dealt_in (l ++ [(op, o)]) m).
    { subst m. exists r. split; [|done]. simpl. destruct (Hd _ _ eq_refl) as (op' & o' & Hin & H).
      exists op', o'. split; [set_solver|done]. }
    apply lookup_insert_Some in Hk' as [[_ <-]|[_ Hk']]; [done|].
    apply lookup_insert_Some in Hk' as [[_ <-]|[_ Hk']]; [done|]. by eapply Hold, HI.
Qed.
Lemma crun_dealt lss l st k m : crun (new_cosigner lss) l st -> cs_meta st !! k = Some m -> dealt_in l m.
Proof.
  revert st k m. induction l as [|[op o] l IH] using rev_ind; intros st k m Hr Hm.
  - inversion Hr; subst. simpl in Hm. by rewrite lookup_empty in Hm.
  - apply crun_app in Hr as (st1 & Hr1 & Hr2). inversion Hr2 as [|? ? st2 ? ? ? Hs Hr3]; subst.
    inversion Hr3; subst. clear Hr2 Hr3. specialize (IH st1) as IH'.
    assert (HI : forall k m, cs_meta st1 !! k = Some m -> dealt_in l m) by (intros; by eapply IH').
    assert (Hold : forall m, dealt_in l m -> dealt_in (l ++ [(op, o)]) m).
    { intros m1 (r & H1 & H2). exists r. split; [by apply drawn_app|done]. }
    apply cstep_mstep in Hs. destruct Hs as
      [Hq Hm' _ _|k0 _ Hm' _ _|k0 kd rnd m0 Hkeys [p ->] Hem
      |k0 id rnd s1 m0 own -> Hem Hown Hs Ho|k0 p rnd s1 m0 x -> Hem -> Hs].
    + rewrite Hm' in Hm. by eapply Hold, HI.
    + rewrite Hm' in Hm. destruct (decide _); [discriminate|]. by eapply Hold, HI.
    + eapply em_case_dealt; [exact Hem|exact HI| |exact Hm]. intros s r ->.
      exists (OpSet k0 p (Some (s, r))), o. split; [set_solver|done].
    + rewrite (set_slot_meta _ _ _ _ _ Hs) in Hm.
      eapply em_case_dealt; [exact Hem|exact HI| |exact Hm]. intros s r E.
      exists (OpGet k0 id rnd), o. split; [set_solver|done].
    + rewrite (set_slot_meta _ _ _ _ _ Hs) in Hm.
      eapply em_case_dealt; [exact Hem|exact HI| |exact Hm]. intros s r ->.
      exists (OpSet k0 p (Some (s, r))), ObsSetOk. split; [set_solver|done].
Qed.

(** until a share above [k] is released, the dealing for [k] and the own part in it stay *)
Lemma crun_filled st l st' k m own : crun st l st' -> refs_ok st -> 1 <= cc_id cfg -> no_own_parts cfg l ->
  no_share_above (ht_hrs k) l ->
  cs_meta st !! k = Some m -> idx (m_dealt m) (cc_id cfg - 1) = Some own -> filled st m own ->
  cs_meta st' !! k = Some m /\ filled st' m own.
Proof.
  induction 1 as [st|st op st1 o l st2 Hs Hr IH]; intros Hrf Hid Hno Hq Hk Hown Hf; [done|].
  apply IH; try done.
  - eapply mstep_refs; [by eapply cstep_mstep|done].
  - intros k' p rnd Hin. eapply Hno. by right.
  - intros op' sb r k' Hin. eapply Hq. by right.
  - eapply cstep_meta_stable; [done..|]. intros sb r k' -> Hb. eapply Hq; [left|done].
  - eapply mstep_filled; [by eapply cstep_mstep|done|done| |done|done|done]. intros k' p rnd [= -> ->]. eapply Hno. left.
Qed.

Lemma no_share_above_later st1 l st k : crun st1 l st -> hrs_le (ss_hrs (cs_lss st)) k -> no_share_above k l.
Proof.
  intros Hr Hle op sb r k' Hin Hb Hlt. apply elem_of_list_split in Hin as (l1 & l2 & ->).
  apply crun_app in Hr as (s1 & _ & Hr). inversion Hr as [|? ? s2 ? ? ? Hs Hr2]; subst.
  assert (Hl : k' = ss_hrs (cs_lss s2)).
  { eapply cstep_level; [done|]. destruct Hb as [t Ht]. simpl. by rewrite Ht. }
  apply crun_mono in Hr2. subst k'.
  pose proof (hrs_le_trans _ _ _ Hr2 Hle) as H. by eapply hrs_lt_irrefl, hrs_le_lt_trans.
Qed.

Lemma used_parts_app a b : used_parts (a ++ b) = used_parts a ++ used_parts b.
Proof. unfold used_parts. apply list.filter_app. Qed.

Lemma own_part lss l st k id rnd p sb st' r :
  crun (new_cosigner lss) l st -> no_own_parts cfg l ->
  (OpGet k id rnd, ObsPart p) ∈ l -> unpack_hrst sb = Val k ->
  sign C cfg st sb = (st', Val r) -> sr_fresh r = true ->
  exists secret rd own xs ys es R sig,
    drawn l secret rd /\ pt_eph p = cr_base C secret /\ 1 <= cc_id cfg /\
    cr_deal C secret rd (cc_threshold cfg) (cc_total cfg) !! Z.to_nat (cc_id cfg - 1) = Some own /\
    slots st k = xs ++ PM own (pt_eph p) :: ys /\
    cr_add_scalars C (map pm_share (used_parts xs) ++ (if decide (own = []) then [] else [own]) ++ map pm_share (used_parts ys)) = Some es /\
    cr_sign_share C sb (cc_share cfg) es (cc_pub cfg) R = Some sig /\
    r = SignResp (Some R) (Some sig) true.
Proof.
  intros Hr Hno Hin Hk Hsg Hfr. apply sign_spec in Hsg.
  assert (Hf : exists es ep sig, fresh_share C cfg st sb k es ep sig /\ hrs_le (ss_hrs (cs_lss st)) (ht_hrs k) /\
            r = SignResp (Some ep) (Some sig) true).
  { destruct Hsg as [k0 Hk0 Heq Hsb Hsig -> -> | k0 last es ep sig Hk0 Heq Hsb Hne Hsig Hd Hf -> ->
         | k0 es ep sig Hk0 Hlt Hf -> ->]; [discriminate| |]; rewrite Hk in Hk0; injection Hk0 as <-;
      exists es, ep, sig; (split; [done|]); (split; [|done]); [right; by rewrite Heq|by left]. }
  destruct Hf as (es & ep & sig & [(m & Hm & Hes & Hep) _ _ Hsig] & Hle & ->).
  pose proof (crun_dealt _ _ _ _ _ Hr Hm) as (rd & Hdr & Hde).
  apply elem_of_list_split in Hin as (l1 & l2 & ->).
  pose proof Hr as Hr0. apply crun_app in Hr as (s1 & Hr1 & Hr2). inversion Hr2 as [|? ? s2 ? ? ? Hs Hr3]; subst.
  assert (Hq : no_share_above (ht_hrs k) l2) by by eapply no_share_above_later.
  pose proof (crun_refs _ _ _ Hr1 (refs_new lss)) as Hrf1.
  pose proof (mstep_refs _ _ _ _ (cstep_mstep _ _ _ _ Hs) Hrf1) as Hrf2.
  assert (Hno2 : no_own_parts cfg l2).
  { intros k' q rnd' Hin'. eapply (Hno k' q rnd'). set_solver. }
  simpl in Hs. destruct (get_part C cfg s1 k id rnd) as [s [p'|e|]] eqn:E; [|discriminate..].
  injection Hs as -> ->. apply get_part_spec in E as (sm & m' & own & Hem & Hown & Hslot & Hp).
  assert (Hid : 1 <= cc_id cfg) by (apply idx_spec in Hown; lia).
  pose proof (em_case_lookup _ _ _ _ _ _ _ _ Hem) as Hkm. rewrite <- (set_slot_meta _ _ _ _ _ Hslot) in Hkm.
  destruct (crun_filled _ _ _ _ _ _ Hr3 Hrf2 Hid Hno2 Hq Hkm Hown (set_slot_filled_own _ _ _ _ Hslot)) as [Hkm' Hfl].
  rewrite Hm in Hkm'. injection Hkm' as <-.
  destruct Hp as (_ & _ & Heph & _). apply idx_spec in Hown as [_ Hown].
  unfold filled in Hfl. rewrite <- Heph in Hfl. apply take_drop_middle in Hfl as Hxy. symmetry in Hxy.
  set (xs := take (Z.to_nat (cc_id cfg - 1)) (peers_of st m)) in Hxy.
  set (ys := drop (Datatypes.S (Z.to_nat (cc_id cfg - 1))) (peers_of st m)) in Hxy. clearbody xs ys.
  exists (m_secret m), rd, own, xs, ys, es, ep, sig. split; [done|]. split; [done|]. split; [done|].
  split; [by rewrite <- Hde|]. split; [unfold slots; rewrite Hm; exact Hxy|]. split; [|done].
  rewrite <- Hes, Hxy. f_equal. change (PM own (pt_eph p) :: ys) with ([PM own (pt_eph p)] ++ ys).
  rewrite !used_parts_app, !map_app. f_equal. f_equal. unfold used_parts. rewrite filter_cons. cbn [pm_share].
  destruct (decide (own = [])) as [H|H].
  - rewrite decide_False by tauto. done.
  - rewrite decide_True by done. done.
Qed.
End Nonce.

Lemma own_part_used C cfg lss l st k id rnd p sb st' r :
  (forall s rd x, x ∈ cr_deal C s rd (cc_threshold cfg) (cc_total cfg) -> x <> []) ->
  crun C cfg (new_cosigner lss) l st -> no_own_parts cfg l ->
  (OpGet k id rnd, ObsPart p) ∈ l -> unpack_hrst sb = Val k ->
  sign C cfg st sb = (st', Val r) -> sr_fresh r = true ->
  exists secret rd own xs ys es R sig,
    drawn l secret rd /\ pt_eph p = cr_base C secret /\ 1 <= cc_id cfg /\
    cr_deal C secret rd (cc_threshold cfg) (cc_total cfg) !! Z.to_nat (cc_id cfg - 1) = Some own /\
    cr_add_scalars C (xs ++ own :: ys) = Some es /\
    cr_sign_share C sb (cc_share cfg) es (cc_pub cfg) R = Some sig /\
    r = SignResp (Some R) (Some sig) true.
Proof.
  intros Hne Hr Hno Hin Hk Hs Hf.
  destruct (own_part C cfg lss l st k id rnd p sb st' r Hr Hno Hin Hk Hs Hf)
    as (secret & rd & own & xs & ys & es & R & sig & H1 & H2 & H3 & H4 & _ & H5 & H6 & H7).
  exists secret, rd, own, (map pm_share (used_parts xs)), (map pm_share (used_parts ys)), es, R, sig.
  rewrite decide_False in H5; [done|]. eapply Hne. by eapply elem_of_list_lookup_2.
Qed.
