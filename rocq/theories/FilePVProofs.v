From Verif Require Import GoBase Wire Canonical CanonicalProofs CanonicalApi Spec Privval PrivvalSpec PrivvalProofs FilePV FilePVSpec.
Local Open Scope Z_scope.

Section Proofs.
Context (key : bytes -> option bytes) (chain : bytes).

(** [o] is a signed message at [k] with sign bytes [sb] and signature [sig] *)
Definition signed_at (o : seen) (k : hrs) (sb sig : bytes) : Prop :=
  match o with
  | SawVote v =>
      vote_in_range chain (pv_vote v) /\ vote_sign_bytes chain (pv_vote v) = Val sb /\ pv_sig v = sig /\
      exists s, step_of_type (v_type (pv_vote v)) s /\ k = HRS (v_height (pv_vote v)) (v_round (pv_vote v)) s
  | SawProp p =>
      proposal_in_range chain (pp_prop p) /\ proposal_sign_bytes chain (pp_prop p) = Val sb /\ pp_sig p = sig /\
      k = HRS (p_height (pp_prop p)) (p_round (pp_prop p)) 1
  | _ => False
  end.
Definition is_message (o : seen) : Prop := match o with SawVote _ | SawProp _ => True | _ => False end.

Lemma same_place_message a b : same_place a b -> is_message a /\ is_message b.
Proof. destruct a, b; cbn; tauto. Qed.

Lemma same_place_at a b k sb sig k' sb' sig' :
  same_place a b -> signed_at a k sb sig -> signed_at b k' sb' sig' -> k = k'.
Proof.
  destruct a as [v|p| |], b as [w|q| |]; cbn; try tauto.
  - intros (E1 & E2 & E3) (_ & _ & _ & s & Hs & ->) (_ & _ & _ & s' & Hs' & ->).
    rewrite E1, E2. f_equal. unfold step_of_type in *. lia.
  - intros (E1 & E2) (_ & _ & _ & ->) (_ & _ & _ & ->). congruence.
Qed.
Lemma signed_at_same a b k sb sig :
  same_place a b -> signed_at a k sb sig -> signed_at b k sb sig -> same_signed a b.
Proof.
  destruct a as [v|p| |], b as [w|q| |]; cbn; try tauto.
  - intros _ (R & E & F & _) (R' & E' & F' & _). split; [|congruence].
    apply (vote_sign_bytes_inj _ _ _ _ _ R R' E E').
  - intros _ (R & E & F & _) (R' & E' & F' & _). split; [|congruence].
    apply (proposal_sign_bytes_inj _ _ _ _ _ R R' E E').
Qed.

(** ** the check *)
Lemma pv_check_same l k : pv_check l k = Val true ->
  k = ls_hrs l /\ exists sb sig, ls_sb l = Some sb /\ ls_sig l = Some sig.
Proof.
  unfold pv_check. destruct k as [h r s], (ls_hrs l) as [h' r' s']; cbn [h_height h_round h_step].
  destruct (Z.ltb_spec h h'); [discriminate|]. destruct (Z.eqb_spec h' h); [|discriminate].
  destruct (Z.ltb_spec r r'); [discriminate|]. destruct (Z.eqb_spec r' r); [|discriminate].
  destruct (Z.ltb_spec s s'); [discriminate|]. destruct (Z.eqb_spec s' s); [|discriminate].
  destruct (ls_sb l); [|discriminate]. destruct (ls_sig l); [|discriminate]. intros _.
  split; [congruence|eauto].
Qed.
Lemma pv_check_above l k : pv_check l k = Val false -> above k (ls_hrs l).
Proof.
  unfold pv_check, above. destruct k as [h r s], (ls_hrs l) as [h' r' s']; cbn [h_height h_round h_step].
  destruct (Z.ltb_spec h h'); [discriminate|]. destruct (Z.eqb_spec h' h); [|lia].
  destruct (Z.ltb_spec r r'); [discriminate|]. destruct (Z.eqb_spec r' r); [|lia].
  destruct (Z.ltb_spec s s'); [discriminate|]. destruct (Z.eqb_spec s' s); [|lia].
  destruct (ls_sb l); [|discriminate]. destruct (ls_sig l); discriminate.
Qed.
Lemma above_check l k : above k (ls_hrs l) -> pv_check l k = Val false.
Proof.
  unfold pv_check, above. destruct k as [h r s], (ls_hrs l) as [h' r' s']; cbn [h_height h_round h_step].
  intros H. destruct (Z.ltb_spec h h'); [lia|]. destruct (Z.eqb_spec h' h); [|done].
  destruct (Z.ltb_spec r r'); [lia|]. destruct (Z.eqb_spec r' r); [|done].
  destruct (Z.ltb_spec s s'); [lia|]. destruct (Z.eqb_spec s' s); [lia|done].
Qed.

(** ** the comparison up to timestamp *)
Lemma votes_differ_back c0 sb0 c sb s ts :
  vote_in_range chain c0 -> vote_in_range chain c -> step_of_type (v_type c0) s ->
  vote_sign_bytes chain c0 = Val sb0 -> vote_sign_bytes chain c = Val sb ->
  votes_differ sb0 sb = Val (Some ts) ->
  Vote (v_type c) (v_height c) (v_round c) (v_bid c) ts = c0.
Proof.
  intros R0 R Hs E0 E. unfold votes_differ.
  destruct (decode_vote sb0) as [lv|] eqn:D0; [|discriminate].
  destruct (decode_vote sb) as [nv|] eqn:D; [|discriminate].
  case_bool_decide as Heq; [|discriminate]. intros [= <-].
  assert (only_differ_by_timestamp s sb0 sb = None) as Ho.
  { apply step_of_type_spec in Hs. unfold only_differ_by_timestamp, check_vote_ts. rewrite D0, D.
    rewrite bool_decide_eq_true_2 by done. unfold vote_type_to_step in Hs.
    destruct (v_type c0 =? PrevoteType); [injection Hs as <-; done|].
    destruct (v_type c0 =? PrecommitType); [injection Hs as <-; done|discriminate]. }
  apply (only_differ_votes _ _ _ _ _ _ _ R0 R Hs E0 E) in Ho as (T & H & Ro & B & _).
  destruct (vote_sign_bytes_inv _ _ _ R0 E0) as (c1 & Hc & -> & _ & _ & _ & _ & Ets & _).
  assert (decode_vote (delimited (m_vote c1)) = Some c1) as D1.
  { rewrite <- (app_nil_r (delimited _)). by apply decode_vote_roundtrip. }
  rewrite D1 in D0. injection D0 as ->. destruct c0; cbn in *. congruence.
Qed.
Lemma props_differ_back c0 sb0 c sb ts :
  proposal_in_range chain c0 -> proposal_in_range chain c ->
  proposal_sign_bytes chain c0 = Val sb0 -> proposal_sign_bytes chain c = Val sb ->
  props_differ sb0 sb = Val (Some ts) ->
  Proposal (p_height c) (p_round c) (p_pol c) (p_bid c) ts = c0.
Proof.
  intros R0 R E0 E. unfold props_differ.
  destruct (decode_proposal sb0) as [lv|] eqn:D0; [|discriminate].
  destruct (decode_proposal sb) as [nv|] eqn:D; [|discriminate].
  case_bool_decide as Heq; [|discriminate]. intros [= <-].
  assert (only_differ_by_timestamp 1 sb0 sb = None) as Ho.
  { unfold only_differ_by_timestamp, check_proposal_ts. cbn [Z.eqb stepPropose]. rewrite D0, D.
    rewrite bool_decide_eq_true_2 by done. done. }
  apply (only_differ_proposals _ _ _ _ _ _ R0 R E0 E) in Ho as (H & Ro & P & B & _).
  destruct (proposal_sign_bytes_inv _ _ _ R0 E0) as (c1 & Hc & -> & _ & _ & _ & _ & _ & Ets & _).
  assert (decode_proposal (delimited (m_proposal c1)) = Some c1) as D1.
  { rewrite <- (app_nil_r (delimited _)). by apply decode_proposal_roundtrip. }
  rewrite D1 in D0. injection D0 as ->. destruct c0; cbn in *. congruence.
Qed.

(** ** one request *)
Definition state_ok (l : lss) : Prop :=
  forall sb, ls_sb l = Some sb -> exists o sig,
    signed_at o (ls_hrs l) sb sig /\ ls_sig l = Some sig /\ key sb = Some sig.

Definition result_ok {A} (l : lss) (saw : A -> seen) (r : pv_result A) : Prop :=
  match r with
  | PvOld a => exists sb sig, ls_sb l = Some sb /\ ls_sig l = Some sig /\ key sb = Some sig /\
                 signed_at (saw a) (ls_hrs l) sb sig
  | PvNew a l' => above (ls_hrs l') (ls_hrs l) /\ exists sb sig,
                 ls_sb l' = Some sb /\ ls_sig l' = Some sig /\ key sb = Some sig /\
                 signed_at (saw a) (ls_hrs l') sb sig
  | _ => True
  end.

Lemma sign_vote_ok l v : state_ok l -> event_ok chain (AskVote v Written) ->
  result_ok l SawVote (sign_vote key chain l v).
Proof.
  intros Hl Hv. destruct v as [v|]; [|exact I]. cbn in Hv. unfold sign_vote.
  destruct (vote_type_to_step (v_type (pv_vote v))) as [s|] eqn:Es; [|exact I].
  apply step_of_type_spec in Es as Hs.
  destruct (pv_check l _) as [[]| |] eqn:Ec; try exact I;
    destruct (vote_sign_bytes chain (pv_vote v)) as [sb| |] eqn:Eb; try exact I.
  - apply pv_check_same in Ec as (Ek & sb0 & sig & E1 & E2).
    destruct (Hl _ E1) as (o & sig' & Ho & E2' & Hk). rewrite E2 in E2'. injection E2' as <-.
    rewrite E1, E2. cbn [slice_of].
    destruct (bytes_equal sb sb0) eqn:Eq.
    + apply bytes_equal_spec in Eq as ->. exists sb0, sig. repeat (split; [done|]).
      cbn. destruct v as [[] ? ? ?]; cbn in *. repeat (split; [done|]). exists s. done.
    + destruct (votes_differ sb0 sb) as [[ts|]| |] eqn:Ed; try exact I.
      exists sb0, sig. repeat (split; [done|]).
      destruct o as [w|q| |]; cbn in Ho; try done.
      * destruct Ho as (R0 & E0 & _ & s0 & Hs0 & Ek0).
        cbn. rewrite (votes_differ_back _ _ _ _ _ _ R0 Hv Hs0 E0 Eb Ed).
        repeat (split; [done|]). eauto.
      * exfalso. destruct Ho as (_ & _ & _ & Ek0). rewrite <- Ek in Ek0. injection Ek0 as _ _ ->.
        unfold step_of_type in Hs. lia.
  - apply pv_check_above in Ec. destruct (key sb) as [sig|] eqn:Ek; [|exact I].
    split; [done|]. exists sb, sig. repeat (split; [done|]). cbn.
    destruct v as [[] ? ? ?]; cbn in *. repeat (split; [done|]). exists s. done.
Qed.
Lemma sign_prop_ok l p : state_ok l -> event_ok chain (AskProp p Written) ->
  result_ok l SawProp (sign_prop key chain l p).
Proof.
  intros Hl Hv. destruct p as [v|]; [|exact I]. cbn in Hv. unfold sign_prop.
  destruct (pv_check l _) as [[]| |] eqn:Ec; try exact I;
    destruct (proposal_sign_bytes chain (pp_prop v)) as [sb| |] eqn:Eb; try exact I.
  - apply pv_check_same in Ec as (Ek & sb0 & sig & E1 & E2).
    destruct (Hl _ E1) as (o & sig' & Ho & E2' & Hk). rewrite E2 in E2'. injection E2' as <-.
    rewrite E1, E2. cbn [slice_of].
    destruct (bytes_equal sb sb0) eqn:Eq.
    + apply bytes_equal_spec in Eq as ->. exists sb0, sig. repeat (split; [done|]).
      cbn. destruct v as [? [] ?]; cbn in *. repeat (split; [done|]). done.
    + destruct (props_differ sb0 sb) as [[ts|]| |] eqn:Ed; try exact I.
      exists sb0, sig. repeat (split; [done|]).
      destruct o as [w|q| |]; cbn in Ho; try done.
      * exfalso. destruct Ho as (_ & _ & _ & s0 & Hs0 & Ek0). rewrite <- Ek in Ek0.
        injection Ek0 as _ _ Hx. unfold step_of_type in Hs0. unfold stepPropose in Hx. lia.
      * destruct Ho as (R0 & E0 & _ & Ek0).
        cbn. rewrite (props_differ_back _ _ _ _ _ R0 Hv E0 Eb Ed). done.
  - apply pv_check_above in Ec. destruct (key sb) as [sig|] eqn:Ek; [|exact I].
    split; [done|]. exists sb, sig. repeat (split; [done|]). cbn.
    destruct v as [? [] ?]; cbn in *. repeat (split; [done|]). done.
Qed.

(** ** runs *)

(** [l] is at or above every message in [os] *)
Definition covers (l : lss) (os : list seen) : Prop :=
  state_ok l /\ no_double_sign os /\
  forall o, o ∈ os -> is_message o -> exists k sb sig,
    signed_at o k sb sig /\ key sb = Some sig /\
    (above (ls_hrs l) k \/ k = ls_hrs l /\ ls_sb l = Some sb /\ ls_sig l = Some sig).

Lemma above_trans a b c : above a b -> above b c -> above a c.
Proof. unfold above. lia. Qed.
Lemma above_irrefl a : ~ above a a.
Proof. unfold above. lia. Qed.

Lemma covers_nothing l os o : ~ is_message o -> covers l os -> covers l (os ++ [o]).
Proof.
  intros Ho (H1 & H2 & H3). split; [done|]. split.
  - intros a b Ha Hb Hab. destruct (same_place_message _ _ Hab).
    rewrite !elem_of_app, !elem_of_list_singleton in *.
    destruct Ha as [Ha|Ha]; [|by rewrite <- Ha in Ho]. destruct Hb as [Hb|Hb]; [|by rewrite <- Hb in Ho]. eauto.
  - intros a Ha Hm. rewrite elem_of_app, elem_of_list_singleton in Ha.
    destruct Ha as [Ha|Ha]; [eauto|by rewrite <- Ha in Ho].
Qed.

Lemma covers_move l l' os :
  covers l os -> state_ok l' -> above (ls_hrs l') (ls_hrs l) -> covers l' os.
Proof.
  intros (H1 & H2 & H3) Hs Ha. split; [done|]. split; [done|].
  intros o Ho Hm. destruct (H3 o Ho Hm) as (k & sb & sig & Hat & Hk & Hc). exists k, sb, sig.
  split; [done|]. split; [done|]. left. destruct Hc as [Hc|(-> & _)]; [by eapply above_trans|done].
Qed.

Lemma covers_add l os o sb sig :
  covers l os -> ls_sb l = Some sb -> ls_sig l = Some sig -> key sb = Some sig ->
  signed_at o (ls_hrs l) sb sig -> covers l (os ++ [o]).
Proof.
  intros (H1 & H2 & H3) Esb Esig Ek Ho. split; [done|].
  assert (forall a, a ∈ os -> same_place a o -> same_signed a o) as Hnew.
  { intros a Ha Hp. destruct (same_place_message _ _ Hp) as [Hm _].
    destruct (H3 a Ha Hm) as (k & sb' & sig' & Hat & _ & Hc).
    pose proof (same_place_at _ _ _ _ _ _ _ _ Hp Hat Ho) as ->.
    destruct Hc as [Hc|(_ & E1 & E2)]; [by apply above_irrefl in Hc|].
    rewrite Esb in E1. rewrite Esig in E2. injection E1 as <-. injection E2 as <-.
    by eapply signed_at_same. }
  split.
  - intros a b Ha Hb Hab. rewrite !elem_of_app, !elem_of_list_singleton in *.
    destruct Ha as [Ha| ->], Hb as [Hb| ->]; eauto.
    + assert (same_place b o) as Hp by (destruct o, b; cbn in *; intuition congruence).
      pose proof (Hnew b Hb Hp). destruct o, b; cbn in *; intuition congruence.
    + destruct o; cbn in *; done.
  - intros a Ha Hm. rewrite elem_of_app, elem_of_list_singleton in Ha.
    destruct Ha as [Ha| ->]; [eauto|]. exists (ls_hrs l), sb, sig. split; [done|]. split; [done|]. by right.
Qed.

Lemma state_ok_result {A} l (saw : A -> seen) a l' : result_ok l saw (PvNew a l') -> state_ok l'.
Proof.
  intros (_ & sb & sig & E1 & E2 & Hk & Hat) sb' E. rewrite E1 in E. injection E as <-. eauto.
Qed.

(** after a request: the state in memory if the process still runs, and that on disk *)
Lemma finish_ok {A} w (saw : A -> seen) r wr l os :
  wo_mem w = Some l -> covers l os -> result_ok l saw r ->
  let '(w', o) := finish w saw r wr in
  (forall l', wo_mem w' = Some l' -> covers l' (os ++ [o])) /\
  (wo_file w' = wo_file w /\ covers l (os ++ [o]) /\ (wo_mem w' = None \/ wo_mem w' = Some l) \/
   exists l', wo_file w' = Some l' /\ covers l' (os ++ [o]) /\ (wo_mem w' = None \/ wo_mem w' = Some l')).
Proof.
  intros Hm Hc Hr. unfold finish. destruct r as [a|a l'|e|].
  - destruct Hr as (sb & sig & E1 & E2 & Hk & Hat).
    assert (covers l (os ++ [saw a])) by (by eapply covers_add). split; [|left; auto].
    intros l' E. rewrite Hm in E. injection E as <-. done.
  - pose proof (state_ok_result _ _ _ _ Hr) as Hl'. destruct Hr as (Ha & sb & sig & E1 & E2 & Hk & Hat).
    pose proof (covers_move _ _ _ Hc Hl' Ha) as Hc'.
    destruct wr.
    + assert (covers l' (os ++ [saw a])) by (by eapply covers_add).
      split; [|right; exists l'; auto]. intros l1 [= <-]. done.
    + split; [discriminate|]. left. split; [done|]. split; [|auto]. apply covers_nothing; [by intros []|done].
    + split; [discriminate|]. right. exists l'. split; [done|]. split; [|auto]. apply covers_nothing; [by intros []|done].
  - assert (covers l (os ++ [SawError e])) by (apply covers_nothing; [by intros []|done]).
    split; [|left; auto]. intros l' E. rewrite Hm in E. injection E as <-. done.
  - split; [discriminate|]. left. split; [done|]. split; [|auto]. apply covers_nothing; [by intros []|done].
Qed.

Lemma covers_zero os : Forall (fun o => ~ is_message o) os -> covers lss_zero os.
Proof.
  intros H. rewrite stdpp.list.Forall_forall in H. split; [|split].
  - intros sb E. discriminate.
  - intros a b Ha _ Hp. destruct (same_place_message _ _ Hp) as [Hm _]. destruct (H a Ha Hm).
  - intros o Ho Hm. destruct (H o Ho Hm).
Qed.

Lemma covers_end l os : covers l os -> no_double_sign os /\ Forall (signed_by key chain) os.
Proof.
  intros (_ & H2 & H3). split; [done|]. apply stdpp.list.Forall_forall. intros o Ho.
  destruct o as [v|p| |]; try exact I.
  - destruct (H3 _ Ho I) as (k & sb & sig & (_ & E & <- & _) & Hk & _). exists sb. auto.
  - destruct (H3 _ Ho I) as (k & sb & sig & (_ & E & <- & _) & Hk & _). exists sb. auto.
Qed.

Section Life.
Context (reload : bool).
Notation step := (pv_step key chain reload).
Notation run := (pv_run key chain reload).

(** one life: no start in between; the process may be gone *)
Lemma life_run es w os :
  (exists l, covers l os /\ (wo_mem w = None \/ wo_mem w = Some l)) ->
  Forall (event_ok chain) es -> Forall not_start es ->
  exists l, covers l (os ++ snd (run w es)).
Proof.
  revert w os. induction es as [|e es IH]; intros w os (l & Hc & Hm) He Hn.
  - exists l. cbn. by rewrite app_nil_r.
  - inversion_clear He as [|? ? He1 He2]. inversion_clear Hn as [|? ? Hn1 Hn2].
    cbn [pv_run]. destruct (step w e) as [w1 o] eqn:Es.
    destruct (run w1 es) as [w2 os'] eqn:Er. cbn [snd].
    enough (exists l1, covers l1 (os ++ [o]) /\ (wo_mem w1 = None \/ wo_mem w1 = Some l1)) as H1.
    { destruct (IH w1 (os ++ [o]) H1 He2 Hn2) as [l2 H2]. rewrite Er in H2. cbn in H2.
      rewrite <- app_assoc in H2. eauto. }
    destruct e as [| |v wr|p wr]; cbn in Es; [done| | |].
    + injection Es as <- <-. exists l. split; [|by left]. apply covers_nothing; [by intros []|done].
    + destruct (wo_mem w) as [l0|] eqn:Em.
      * destruct Hm as [Hm|[= ->]]; [done|].
        pose proof (finish_ok w SawVote (sign_vote key chain l v) wr l os Em Hc
                      (sign_vote_ok _ _ (proj1 Hc) He1)) as Hf.
        rewrite Es in Hf. destruct Hf as [_ [(_ & H1 & H2)|(l' & _ & H1 & H2)]]; eauto.
      * injection Es as <- <-. exists l. split; [|by left]. apply covers_nothing; [by intros []|done].
    + destruct (wo_mem w) as [l0|] eqn:Em.
      * destruct Hm as [Hm|[= ->]]; [done|].
        pose proof (finish_ok w SawProp (sign_prop key chain l p) wr l os Em Hc
                      (sign_prop_ok _ _ (proj1 Hc) He1)) as Hf.
        rewrite Es in Hf. destruct Hf as [_ [(_ & H1 & H2)|(l' & _ & H1 & H2)]]; eauto.
      * injection Es as <- <-. exists l. split; [|by left]. apply covers_nothing; [by intros []|done].
Qed.
End Life.

(** ** one life of the process as it is *)
Lemma one_life f m es :
  Forall (event_ok chain) es -> Forall not_start es ->
  let os := snd (pv_run key chain false (World f m) (Start :: es)) in
  no_double_sign os /\ Forall (signed_by key chain) os.
Proof.
  intros He Hn os. subst os. cbn [pv_run pv_step started wo_file].
  destruct (pv_run key chain false (World f (Some lss_zero)) es) as [w' os'] eqn:Er.
  assert (covers lss_zero [SawNothing]) as Hc by (apply covers_zero; repeat constructor; tauto).
  destruct (life_run false es (World f (Some lss_zero)) [SawNothing]) as [l Hl];
    [exists lss_zero; cbn; auto|done|done|].
  rewrite Er in Hl. cbn in Hl. cbn [snd]. by eapply covers_end.
Qed.

(** every signature of every history, restarts included *)
Lemma result_signed {A} l (saw : A -> seen) r w wr :
  wo_mem w = Some l -> state_ok l -> result_ok l saw r ->
  signed_by key chain (snd (finish w saw r wr)) /\
  (forall l', wo_mem (fst (finish w saw r wr)) = Some l' -> state_ok l').
Proof.
  assert (forall o k sb sig, signed_at o k sb sig -> key sb = Some sig -> signed_by key chain o) as Hs.
  { intros [v|p| |] k sb sig; cbn; try done.
    - intros (_ & E & <- & _) Hk. eauto.
    - intros (_ & E & <- & _) Hk. eauto. }
  intros Hm Hl Hr. unfold finish. destruct r as [a|a l'|e|].
  - destruct Hr as (sb & sig & _ & _ & Hk & Hat). cbn [fst snd].
    split; [by eapply Hs|]. intros l' E. rewrite Hm in E. by injection E as <-.
  - pose proof (state_ok_result _ _ _ _ Hr). destruct Hr as (_ & sb & sig & _ & _ & Hk & Hat).
    destruct wr; cbn [fst snd wo_mem].
    + split; [by eapply Hs|]. by intros ? [= <-].
    + split; [exact I|discriminate].
    + split; [exact I|discriminate].
  - split; [exact I|]. intros l' E. cbn in E. rewrite Hm in E. by injection E as <-.
  - split; [exact I|discriminate].
Qed.
Lemma always_signed es w :
  (forall l, wo_mem w = Some l -> state_ok l) -> Forall (event_ok chain) es ->
  Forall (signed_by key chain) (snd (pv_run key chain false w es)).
Proof.
  revert w. induction es as [|e es IH]; intros w Hw He; [constructor|].
  inversion_clear He as [|? ? He1 He2].
  cbn [pv_run]. destruct (pv_step key chain false w e) as [w1 o] eqn:Es.
  specialize (IH w1). destruct (pv_run key chain false w1 es) as [w2 os'] eqn:Er. cbn [snd] in *.
  enough (signed_by key chain o /\ forall l, wo_mem w1 = Some l -> state_ok l) as [H1 H2].
  { constructor; auto. }
  destruct e as [| |v wr|p wr]; cbn in Es.
  - injection Es as <- <-. split; [exact I|]. intros l [= <-] sb E. discriminate.
  - injection Es as <- <-. split; [exact I|discriminate].
  - destruct (wo_mem w) as [l0|] eqn:Em.
    + pose proof (result_signed l0 SawVote _ w wr Em (Hw _ eq_refl) (sign_vote_ok _ v (Hw _ eq_refl) He1)) as H.
      by rewrite Es in H.
    + injection Es as <- <-. split; [exact I|]. intros l E. rewrite Em in E. done.
  - destruct (wo_mem w) as [l0|] eqn:Em.
    + pose proof (result_signed l0 SawProp _ w wr Em (Hw _ eq_refl) (sign_prop_ok _ p (Hw _ eq_refl) He1)) as H.
      by rewrite Es in H.
    + injection Es as <- <-. split; [exact I|]. intros l E. rewrite Em in E. done.
Qed.

(** ** with the state file read at start *)
Lemma reload_run es w os l :
  wo_file w = Some l -> covers l os -> (wo_mem w = None \/ wo_mem w = Some l) ->
  Forall (event_ok chain) es ->
  exists l', covers l' (os ++ snd (pv_run key chain true w es)).
Proof.
  revert w os l. induction es as [|e es IH]; intros w os l Hf Hc Hm He.
  - exists l. cbn. by rewrite app_nil_r.
  - inversion_clear He as [|? ? He1 He2].
    cbn [pv_run]. destruct (pv_step key chain true w e) as [w1 o] eqn:Es.
    destruct (pv_run key chain true w1 es) as [w2 os'] eqn:Er. cbn [snd].
    enough (exists l1, wo_file w1 = Some l1 /\ covers l1 (os ++ [o]) /\ (wo_mem w1 = None \/ wo_mem w1 = Some l1)) as H1.
    { destruct H1 as (l1 & A & B & D).
      destruct (IH w1 (os ++ [o]) l1 A B D He2) as [l2 H2]. rewrite Er in H2. cbn in H2.
      rewrite <- app_assoc in H2. eauto. }
    assert (covers l (os ++ [SawNothing])) as Hc' by (apply covers_nothing; [by intros []|done]).
    destruct e as [| |v wr|p wr]; cbn in Es.
    + injection Es as <- <-. exists l. cbn. rewrite Hf. auto.
    + injection Es as <- <-. exists l. cbn. auto.
    + destruct (wo_mem w) as [l0|] eqn:Em.
      * destruct Hm as [Hm|[= ->]]; [done|].
        pose proof (finish_ok w SawVote (sign_vote key chain l v) wr l os Em Hc
                      (sign_vote_ok _ _ (proj1 Hc) He1)) as Hfi.
        rewrite Es in Hfi. destruct Hfi as [_ [(H0 & H1 & H2)|(l' & H0 & H1 & H2)]]; [|eauto].
        exists l. rewrite H0. auto.
      * injection Es as <- <-. exists l. auto.
    + destruct (wo_mem w) as [l0|] eqn:Em.
      * destruct Hm as [Hm|[= ->]]; [done|].
        pose proof (finish_ok w SawProp (sign_prop key chain l p) wr l os Em Hc
                      (sign_prop_ok _ _ (proj1 Hc) He1)) as Hfi.
        rewrite Es in Hfi. destruct Hfi as [_ [(H0 & H1 & H2)|(l' & H0 & H1 & H2)]]; [|eauto].
        exists l. rewrite H0. auto.
      * injection Es as <- <-. exists l. auto.
Qed.

Lemma reload_safe es :
  Forall (event_ok chain) es ->
  let os := snd (pv_run key chain true (World (Some lss_zero) None) es) in
  no_double_sign os /\ Forall (signed_by key chain) os.
Proof.
  intros He os. destruct (reload_run es (World (Some lss_zero) None) [] lss_zero) as [l Hl]; auto.
  { apply covers_zero. constructor. }
  by eapply covers_end.
Qed.

(** ** answers *)
Lemma sign_vote_keeps l v a :
  (sign_vote key chain l (Some v) = PvOld a \/ exists l', sign_vote key chain l (Some v) = PvNew a l') ->
  keeps_vote v a.
Proof.
  unfold sign_vote. destruct (vote_type_to_step _); [|intros [?|[??]]; discriminate].
  destruct (pv_check _ _) as [[]| |]; try (intros [?|[??]]; discriminate);
    destruct (vote_sign_bytes _ _); try (intros [?|[??]]; discriminate).
  - destruct (bytes_equal _ _).
    + intros [[= <-]|[??]]; [|discriminate]. repeat split.
    + destruct (votes_differ _ _) as [[ts|]| |]; intros [Ha|[??]]; try discriminate.
      injection Ha as <-. repeat split.
  - destruct (key _); intros [Ha|[l' Ha]]; try discriminate. injection Ha as <- <-. repeat split.
Qed.
Lemma sign_prop_keeps l p a :
  (sign_prop key chain l (Some p) = PvOld a \/ exists l', sign_prop key chain l (Some p) = PvNew a l') ->
  keeps_prop p a.
Proof.
  unfold sign_prop.
  destruct (pv_check _ _) as [[]| |]; try (intros [?|[??]]; discriminate);
    destruct (proposal_sign_bytes _ _); try (intros [?|[??]]; discriminate).
  - destruct (bytes_equal _ _).
    + intros [[= <-]|[??]]; [|discriminate]. repeat split.
    + destruct (props_differ _ _) as [[ts|]| |]; intros [Ha|[??]]; try discriminate.
      injection Ha as <-. repeat split.
  - destruct (key _); intros [Ha|[l' Ha]]; try discriminate. injection Ha as <- <-. repeat split.
Qed.
Lemma finish_message {A} w (saw : A -> seen) r wr a : (forall x y, saw x = saw y -> x = y) ->
  (forall x e, saw x <> SawError e) -> (forall x, saw x <> SawNothing) ->
  snd (finish w saw r wr) = saw a -> r = PvOld a \/ exists l', r = PvNew a l'.
Proof.
  intros Hi H1 H2. destruct r as [x|x l'|e|]; cbn.
  - intros E. left. f_equal. auto.
  - destruct wr; cbn; intros E.
    + right. exists l'. f_equal. auto.
    + by destruct (H2 a).
    + by destruct (H2 a).
  - intros E. by destruct (H1 a e).
  - intros E. by destruct (H2 a).
Qed.
Lemma vote_answer reload w v wr a :
  snd (pv_step key chain reload w (AskVote (Some v) wr)) = SawVote a -> keeps_vote v a.
Proof.
  cbn. destruct (wo_mem w) as [l|]; [|discriminate]. intros E.
  apply finish_message in E; [|congruence|done|done]. by eapply sign_vote_keeps.
Qed.
Lemma prop_answer reload w p wr a :
  snd (pv_step key chain reload w (AskProp (Some p) wr)) = SawProp a -> keeps_prop p a.
Proof.
  cbn. destruct (wo_mem w) as [l|]; [|discriminate]. intros E.
  apply finish_message in E; [|congruence|done|done]. by eapply sign_prop_keeps.
Qed.

(** above the state every well-formed vote is signed, and the state on disk is that of the vote *)
Lemma vote_fresh reload f l v s sb sig :
  step_of_type (v_type (pv_vote v)) s ->
  above (HRS (v_height (pv_vote v)) (v_round (pv_vote v)) s) (ls_hrs l) ->
  vote_sign_bytes chain (pv_vote v) = Val sb -> key sb = Some sig ->
  let l' := LSS (HRS (v_height (pv_vote v)) (v_round (pv_vote v)) s) (Some sig) (Some sb) in
  pv_step key chain reload (World f (Some l)) (AskVote (Some v) Written) =
  (World (Some l') (Some l'), SawVote (PVote (pv_vote v) (pv_addr v) (pv_index v) sig)).
Proof.
  intros Hs Ha Hb Hk. cbn. unfold sign_vote. apply step_of_type_spec in Hs. rewrite Hs.
  rewrite above_check by done. rewrite Hb, Hk. cbn. unfold set_vote. by destruct v as [[] ? ? ?].
Qed.
Lemma prop_fresh reload f l p sb sig :
  above (HRS (p_height (pp_prop p)) (p_round (pp_prop p)) 1) (ls_hrs l) ->
  proposal_sign_bytes chain (pp_prop p) = Val sb -> key sb = Some sig ->
  let l' := LSS (HRS (p_height (pp_prop p)) (p_round (pp_prop p)) 1) (Some sig) (Some sb) in
  pv_step key chain reload (World f (Some l)) (AskProp (Some p) Written) =
  (World (Some l') (Some l'), SawProp (PProp (pp_type p) (pp_prop p) sig)).
Proof.
  intros Ha Hb Hk. cbn. unfold sign_prop.
  change stepPropose with 1. rewrite above_check by done. rewrite Hb, Hk. cbn. unfold set_prop.
  by destruct p as [? [] ?].
Qed.
End Proofs.

(** ** Requests read from a connection *)
Lemma wire_events chain es : Z.of_nat (length chain) < 2 ^ 62 ->
  Forall from_wire es -> Forall (event_ok chain) es.
Proof.
  intros Hc. apply Forall_impl. intros [| |[v|] w|[p|] w]; cbn; try done.
  - intros (l & c & r & E). apply read_msg_ok in E. cbn in E.
    destruct E as (H1 & H2 & H3 & H4 & _). done.
  - intros (l & c & r & E). apply read_msg_ok in E. cbn in E.
    destruct E as (_ & H2 & H3 & H4 & H5 & _). done.
Qed.
Lemma one_life_wire key chain f m es : Z.of_nat (length chain) < 2 ^ 62 ->
  Forall from_wire es -> Forall not_start es ->
  let os := snd (pv_run key chain false (World f m) (Start :: es)) in
  no_double_sign os /\ Forall (signed_by key chain) os.
Proof. intros Hc He. apply one_life. by apply wire_events. Qed.
Lemma always_signed_wire key chain f es : Z.of_nat (length chain) < 2 ^ 62 -> Forall from_wire es ->
  Forall (signed_by key chain) (snd (pv_run key chain false (World f None) es)).
Proof. intros Hc He. apply always_signed; [discriminate|]. by apply wire_events. Qed.
Lemma reload_wire key chain es : Z.of_nat (length chain) < 2 ^ 62 -> Forall from_wire es ->
  let os := snd (pv_run key chain true (World (Some lss_zero) None) es) in
  no_double_sign os /\ Forall (signed_by key chain) os.
Proof. intros Hc He. apply reload_safe. by apply wire_events. Qed.

(** ** Witness: a restart *)
Definition w_key (b : bytes) : option bytes := Some (x01 :: b).
Definition w_chain : bytes := [x63].
Definition w_vote (b : byte) : pvote :=
  PVote (Vote 1 7 0 (BID (replicate 32 b) (PSH 1 (replicate 32 b))) (Time 1000 0)) [] 0 [].
Definition w_later : pvote :=
  PVote (Vote 1 7 0 (BID (replicate 32 x41) (PSH 1 (replicate 32 x41))) (Time 2000 0)) [x05] 9 [].
Definition w_hist : list event :=
  [Start; AskVote (Some (w_vote x41)) Written; AskVote (Some (w_vote x42)) Written; Stop; Start;
   AskVote (Some (w_vote x42)) Written].

Lemma w_vote_read b w : b = x41 \/ b = x42 -> from_wire (AskVote (Some (w_vote b)) w).
Proof.
  intros Hb. exists (default [] (write_msg (SignVoteRequest (Some (w_vote b)) w_chain))), w_chain, [].
  destruct Hb as [-> | ->]; vm_compute; reflexivity.
Qed.
Lemma w_hist_wire : Forall from_wire w_hist.
Proof. repeat (constructor; [first [exact I|apply w_vote_read; tauto]|]). constructor. Qed.

Lemma restart_double_sign :
  Forall from_wire w_hist /\
  let os := snd (pv_run w_key w_chain false (World None None) w_hist) in
  ~ no_double_sign os /\
  (exists v w, SawVote v ∈ os /\ SawVote w ∈ os /\
     v_type (pv_vote v) = v_type (pv_vote w) /\
     v_height (pv_vote v) = v_height (pv_vote w) /\ v_round (pv_vote v) = v_round (pv_vote w) /\
     v_bid (pv_vote v) <> v_bid (pv_vote w)) /\ Forall (signed_by w_key w_chain) os.
Proof.
  split; [apply w_hist_wire|]. intros os.
  assert (exists a b c, os = [SawNothing; SawVote a; c; SawNothing; SawNothing; SawVote b] /\
    pv_vote a = pv_vote (w_vote x41) /\ pv_vote b = pv_vote (w_vote x42)) as (a & b & c & E & Ea & Eb).
  { eexists _, _, _. split; [vm_compute; reflexivity|]. split; vm_compute; reflexivity. }
  assert (v_bid (pv_vote a) <> v_bid (pv_vote b)) as Hne by (rewrite Ea, Eb; discriminate).
  assert (SawVote a ∈ os) as Ha by (rewrite E; repeat first [apply elem_of_list_here|apply elem_of_list_further]).
  assert (SawVote b ∈ os) as Hb by (rewrite E; repeat first [apply elem_of_list_here|apply elem_of_list_further]).
  split; [|split].
  - intros H. destruct (H _ _ Ha Hb) as [Hv _]; [cbn; rewrite Ea, Eb; done|].
    apply Hne. by rewrite Hv.
  - exists a, b. split; [exact Ha|]. split; [exact Hb|]. rewrite Ea, Eb. repeat (split; [done|]).
    rewrite <- Ea, <- Eb. exact Hne.
  - apply always_signed_wire; [cbn; lia|apply w_hist_wire].
Qed.

(** the same requests without the restart: the second vote is refused, one that differs by its
    timestamp gets the first vote's timestamp and signature *)
Example one_life_history :
  exists a b, snd (pv_run w_key w_chain false (World None None)
      [Start; AskVote (Some (w_vote x41)) Written; AskVote (Some (w_vote x42)) Written;
       AskVote (Some w_later) Written]) =
    [SawNothing; SawVote a; SawError PvConflict; SawVote b] /\
  pv_vote b = pv_vote (w_vote x41) /\ pv_sig a = pv_sig b /\ pv_index b = 9.
Proof. eexists _, _. split; [vm_compute; reflexivity|]. split; [|split]; vm_compute; reflexivity. Qed.
(** and with the file read at start *)
Example reload_history :
  exists a, snd (pv_run w_key w_chain true (World (Some lss_zero) None) w_hist) =
    [SawNothing; SawVote a; SawError PvConflict; SawNothing; SawNothing; SawError PvConflict].
Proof. eexists. vm_compute. reflexivity. Qed.
