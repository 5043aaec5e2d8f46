(** Lemmas about SignState.v *)
From Verif Require Import GoBase Wire Canonical SignState Spec.

Lemma hrs_eq a b :
  h_height a = h_height b -> h_round a = h_round b -> h_step a = h_step b -> a = b.
Proof. destruct a, b; simpl; intros -> -> ->; reflexivity. Qed.

Lemma hrs_trichotomy a b : hrs_lt a b \/ a = b \/ hrs_lt b a.
Proof.
  unfold hrs_lt.
  destruct (Z.lt_trichotomy (h_height a) (h_height b)) as [|[|]]; try lia.
  destruct (Z.lt_trichotomy (h_round a) (h_round b)) as [|[|]]; try lia.
  destruct (Z.lt_trichotomy (h_step a) (h_step b)) as [|[|]]; try lia.
  right; left. apply hrs_eq; assumption.
Qed.

Lemma hrs_lt_irrefl a : ~ hrs_lt a a.
Proof. unfold hrs_lt. lia. Qed.
Lemma hrs_lt_trans a b c : hrs_lt a b -> hrs_lt b c -> hrs_lt a c.
Proof. unfold hrs_lt. lia. Qed.
Lemma hrs_le_refl a : hrs_le a a.
Proof. right; reflexivity. Qed.
Lemma hrs_le_trans a b c : hrs_le a b -> hrs_le b c -> hrs_le a c.
Proof.
  intros [H| ->] [H'| <-]; unfold hrs_le; eauto using hrs_lt_trans.
Qed.
Lemma hrs_lt_le_trans a b c : hrs_lt a b -> hrs_le b c -> hrs_lt a c.
Proof. intros H [H'| <-]; eauto using hrs_lt_trans. Qed.
Lemma hrs_le_lt_trans a b c : hrs_le a b -> hrs_lt b c -> hrs_lt a c.
Proof. intros [H| ->] H'; eauto using hrs_lt_trans. Qed.
Lemma hrs_not_lt a b : ~ hrs_lt a b <-> hrs_le b a.
Proof.
  split.
  - intros H. destruct (hrs_trichotomy a b) as [|[ ->|]]; [contradiction|right; done|left; done].
  - intros [H| ->] H'; [eapply hrs_lt_irrefl, hrs_lt_trans; eauto | eapply hrs_lt_irrefl; eauto].
Qed.
Lemma hrs_le_antisym a b : hrs_le a b -> hrs_le b a -> a = b.
Proof.
  intros [H| ->] H'; [|done]. exfalso. eapply hrs_lt_irrefl, hrs_lt_le_trans; eauto.
Qed.
Lemma hrs_le_height a b : hrs_le a b -> h_height a <= h_height b.
Proof. intros [H| ->]; [unfold hrs_lt in H|]; lia. Qed.

(** what each result of GetErrorIfLessOrEqual says *)
Lemma error_spec s k :
  match error_if_less_or_equal s k with
  | None => hrs_lt (ss_hrs s) k
  | Some SameHRS => k = ss_hrs s
  | Some HeightRegression => h_height k < h_height (ss_hrs s)
  | Some RoundRegression =>
      h_height k = h_height (ss_hrs s) /\ h_round k < h_round (ss_hrs s)
  | Some StepRegression =>
      h_height k = h_height (ss_hrs s) /\ h_round k = h_round (ss_hrs s) /\
      h_step k < h_step (ss_hrs s)
  end.
Proof.
  unfold error_if_less_or_equal, hrs_lt.
  destruct (Z.ltb_spec (h_height k) (h_height (ss_hrs s))); [done|].
  destruct (Z.ltb_spec (h_height (ss_hrs s)) (h_height k)); [lia|].
  destruct (Z.ltb_spec (h_round k) (h_round (ss_hrs s))); [lia|].
  destruct (Z.ltb_spec (h_round (ss_hrs s)) (h_round k)); [lia|].
  destruct (Z.ltb_spec (h_step k) (h_step (ss_hrs s))); [lia|].
  destruct (Z.eqb_spec (h_step k) (h_step (ss_hrs s))); [apply hrs_eq; lia|lia].
Qed.

Lemma save_ok_iff s c : (save s c).2 = None <-> hrs_lt (ss_hrs s) (c_hrs c).
Proof.
  unfold save. pose proof (error_spec s (c_hrs c)) as H.
  destruct (error_if_less_or_equal s (c_hrs c)) as [e|] eqn:E; simpl.
  - split; [discriminate|]. intros Hl. exfalso. revert Hl H. unfold hrs_lt.
    destruct e; try lia. intros Hl H. rewrite H in Hl. lia.
  - tauto.
Qed.

Lemma save_same_iff s c : (save s c).2 = Some SameHRS <-> c_hrs c = ss_hrs s.
Proof.
  unfold save. pose proof (error_spec s (c_hrs c)) as H.
  destruct (error_if_less_or_equal s (c_hrs c)) as [e|] eqn:E; simpl.
  - split.
    + intros [= ->]. exact H.
    + intros Hk. rewrite Hk in H. destruct e; try lia. done.
  - split; [discriminate|]. intros Hk. rewrite Hk in H. destruct (hrs_lt_irrefl _ H).
Qed.

Lemma save_regression_iff s c :
  ((save s c).2 = Some HeightRegression <-> h_height (c_hrs c) < h_height (ss_hrs s)) /\
  ((save s c).2 = Some RoundRegression <->
     h_height (c_hrs c) = h_height (ss_hrs s) /\ h_round (c_hrs c) < h_round (ss_hrs s)) /\
  ((save s c).2 = Some StepRegression <->
     h_height (c_hrs c) = h_height (ss_hrs s) /\ h_round (c_hrs c) = h_round (ss_hrs s) /\
     h_step (c_hrs c) < h_step (ss_hrs s)).
Proof.
  unfold save. pose proof (error_spec s (c_hrs c)) as H.
  destruct (error_if_less_or_equal s (c_hrs c)) as [e|] eqn:E; simpl.
  - destruct e; (split; [|split]); (split; [try discriminate; intros _; lia|]); try done;
      try (rewrite H in *; lia); try lia.
  - unfold hrs_lt in H. (split; [|split]); (split; [discriminate|lia]).
Qed.

Lemma save_rejected s c e : (save s c).2 = Some e -> (save s c).1 = s.
Proof. unfold save. destruct error_if_less_or_equal; simpl; [done|discriminate]. Qed.

Lemma save_accepted s c :
  (save s c).2 = None ->
  (save s c).1 = SS (c_hrs c) (ss_eph s) (c_sig c) (c_sb c)
                    (prune_cache (h_height (c_hrs c)) (<[c_hrs c := c]> (ss_cache s))).
Proof. unfold save. destruct error_if_less_or_equal; simpl; [discriminate|done]. Qed.

Lemma save_mono s c : hrs_le (ss_hrs s) (ss_hrs (save s c).1).
Proof.
  destruct ((save s c).2) eqn:E.
  - rewrite (save_rejected _ _ _ E). apply hrs_le_refl.
  - rewrite (save_accepted _ _ E). simpl. left. apply save_ok_iff, E.
Qed.

Lemma run_saves_mono s l : hrs_le (ss_hrs s) (ss_hrs (run_saves s l)).
Proof.
  revert s. induction l as [|c l IH]; intros s; simpl; [apply hrs_le_refl|].
  eapply hrs_le_trans; [apply save_mono|apply IH].
Qed.

Lemma run_saves_app s l l' : run_saves s (l ++ l') = run_saves (run_saves s l) l'.
Proof. revert s. induction l; intros s; simpl; auto. Qed.

Lemma run_saves_max s l : ss_hrs (run_saves s l) = hrs_max (ss_hrs s) (map c_hrs l).
Proof.
  revert s. induction l as [|c l IH]; intros s; simpl; [done|].
  rewrite IH. destruct ((save s c).2) as [e|] eqn:E.
  - rewrite (save_rejected _ _ _ E). rewrite decide_False; [done|].
    intros H. apply save_ok_iff in H. congruence.
  - pose proof (proj1 (save_ok_iff _ _) E) as Hl.
    rewrite decide_True by done. rewrite (save_accepted _ _ E). done.
Qed.

(** *** the cache *)

Lemma prune_lookup h m k :
  prune_cache h m !! k =
  if decide (h_height k < wrap64 (h - blocksToCache)) then None else m !! k.
Proof.
  unfold prune_cache. destruct (decide _) as [Hd|Hd].
  - apply map_filter_lookup_None. right. intros c Hc Hn. exact (Hn Hd).
  - destruct (m !! k) as [c|] eqn:E.
    + apply map_filter_lookup_Some. done.
    + apply map_filter_lookup_None. left. done.
Qed.

(** the records a state started with plus everything accepted since *)
Definition window_low : Z := - 2 ^ 63 + 3.

Definition cache_inv (acc : list consensus) (s : sign_state) : Prop :=
  (forall r, r ∈ acc -> hrs_le (c_hrs r) (ss_hrs s)) /\
  (forall r r', r ∈ acc -> r' ∈ acc -> c_hrs r = c_hrs r' -> r = r') /\
  window_low <= h_height (ss_hrs s) < 2 ^ 63 /\
  forall k r, ss_cache s !! k = Some r <->
    r ∈ acc /\ c_hrs r = k /\ h_height (ss_hrs s) - 3 <= h_height k.

Lemma cache_inv_save acc s c :
  cache_inv acc s -> h_height (c_hrs c) < 2 ^ 63 -> hrs_lt (ss_hrs s) (c_hrs c) ->
  cache_inv (acc ++ [c]) (save s c).1.
Proof.
  intros (Hle & Huniq & Hwin & Hc) Hr Hlt.
  pose proof (proj2 (save_ok_iff _ _) Hlt) as E. rewrite (save_accepted _ _ E).
  pose proof (hrs_le_height _ _ (or_introl Hlt)) as Hh.
  split; [|split; [|split]].
  - intros r. rewrite elem_of_app, elem_of_list_singleton. simpl. intros [Hin| ->].
    + left. eapply hrs_le_lt_trans; eauto.
    + apply hrs_le_refl.
  - intros r r'. rewrite !elem_of_app, !elem_of_list_singleton. intros [Hin| ->] [Hin'| ->] He.
    + eauto.
    + exfalso. eapply hrs_lt_irrefl, hrs_le_lt_trans; [apply (Hle _ Hin)|]. rewrite He. done.
    + exfalso. eapply hrs_lt_irrefl, hrs_le_lt_trans; [apply (Hle _ Hin')|]. rewrite <- He. done.
    + done.
  - simpl. unfold window_low in *. lia.
  - simpl. intros k r. rewrite prune_lookup.
    assert (Hw : wrap64 (h_height (c_hrs c) - blocksToCache) = h_height (c_hrs c) - 3).
    { apply wrap64_small. unfold in_int64, window_low, blocksToCache in *. lia. }
    rewrite Hw. destruct (decide _) as [Hd|Hd].
    + split; [discriminate|]. intros (_ & _ & ?). lia.
    + destruct (decide (k = c_hrs c)) as [ ->|Hk].
      * rewrite lookup_insert. split.
        -- intros [= ->]. rewrite elem_of_app, elem_of_list_singleton. repeat split; [tauto|lia].
        -- intros (Hin & He & _). apply elem_of_app in Hin. rewrite elem_of_list_singleton in Hin.
           destruct Hin as [Hin| ->]; [|done]. exfalso.
           eapply hrs_lt_irrefl, hrs_le_lt_trans; [apply (Hle _ Hin)|]. rewrite He. done.
      * rewrite lookup_insert_ne by done. rewrite Hc, elem_of_app, elem_of_list_singleton.
        split.
        -- intros (Hin & He & Hg). split; [tauto|]. split; [done|lia].
        -- intros ([Hin| ->] & He & Hg); [|congruence]. repeat split; [done|done|lia].
Qed.

Lemma cache_inv_run acc s l :
  cache_inv acc s -> Forall (fun c => h_height (c_hrs c) < 2 ^ 63) l ->
  cache_inv (acc ++ record_highs (ss_hrs s) l) (run_saves s l).
Proof.
  revert acc s. induction l as [|c l IH]; intros acc s Hi Hl; simpl.
  { rewrite app_nil_r. exact Hi. }
  inversion Hl as [|? ? Hc Hl']; subst. clear Hl. rename Hl' into Hl.
  destruct (decide _) as [Hd|Hd].
  - rewrite cons_middle, app_assoc.
    pose proof (cache_inv_save _ _ _ Hi Hc Hd) as Hi'.
    pose proof (proj2 (save_ok_iff _ _) Hd) as E.
    specialize (IH _ _ Hi' Hl). rewrite (save_accepted _ _ E) in IH at 1. exact IH.
  - destruct ((save s c).2) as [e|] eqn:E; [|apply save_ok_iff in E; contradiction].
    rewrite (save_rejected _ _ _ E). apply IH; done.
Qed.

Lemma cache_inv_loaded k eph sg sb :
  window_low <= h_height k < 2 ^ 63 -> cache_inv [SSC k sg sb] (loaded_state k eph sg sb).
Proof.
  intros Hk. unfold cache_inv, loaded_state. simpl.
  split; [|split; [|split]].
  - intros r ->%elem_of_list_singleton. apply hrs_le_refl.
  - intros r r' ->%elem_of_list_singleton ->%elem_of_list_singleton. done.
  - done.
  - intros k' r. rewrite lookup_singleton_Some, elem_of_list_singleton. split.
    + intros [<- <-]. simpl. repeat split; lia.
    + intros (-> & <- & _). done.
Qed.

Lemma cache_inv_zero : cache_inv [] zero_state.
Proof.
  unfold cache_inv, zero_state. simpl. split; [|split; [|split]].
  - intros r Hr. inversion Hr.
  - intros r r' Hr. inversion Hr.
  - unfold window_low. lia.
  - intros k r. rewrite lookup_empty. split; [discriminate|]. intros (Hr & _). inversion Hr.
Qed.

Lemma cache_window_loaded k eph sg sb l q :
  window_low <= h_height k < 2 ^ 63 ->
  Forall (fun c => h_height (c_hrs c) < 2 ^ 63) l ->
  forall r, (get_from_cache (run_saves (loaded_state k eph sg sb) l) q).2 = Some r <->
    r ∈ SSC k sg sb :: record_highs k l /\ c_hrs r = q /\
    h_height (hrs_max k (map c_hrs l)) - 3 <= h_height q.
Proof.
  intros Hk Hl r.
  pose proof (cache_inv_run _ _ _ (cache_inv_loaded k eph sg sb Hk) Hl) as (_ & _ & _ & H).
  unfold get_from_cache. simpl in *. rewrite H, run_saves_max. done.
Qed.

Lemma cache_window_zero l q :
  Forall (fun c => h_height (c_hrs c) < 2 ^ 63) l ->
  forall r, (get_from_cache (run_saves zero_state l) q).2 = Some r <->
    r ∈ record_highs (HRS 0 0 0) l /\ c_hrs r = q /\
    h_height (hrs_max (HRS 0 0 0) (map c_hrs l)) - 3 <= h_height q.
Proof.
  intros Hl r.
  pose proof (cache_inv_run _ _ _ cache_inv_zero Hl) as (_ & _ & _ & H).
  unfold get_from_cache. simpl in *. rewrite H, run_saves_max. done.
Qed.

(** *** CheckHRS *)

Lemma check_hrs_spec s k :
  (check_hrs s k = Val false <-> hrs_lt (ss_hrs s) k) /\
  (check_hrs s k = Val true <-> k = ss_hrs s /\ is_Some (ss_sb s) /\ is_Some (ss_sig s)) /\
  (check_hrs s k = Panic <-> k = ss_hrs s /\ is_Some (ss_sb s) /\ ss_sig s = None) /\
  (check_hrs s k = Fail ChkNoSignBytes <-> k = ss_hrs s /\ ss_sb s = None) /\
  (check_hrs s k = Fail ChkHeight <-> h_height k < h_height (ss_hrs s)) /\
  (check_hrs s k = Fail ChkRound <->
     h_height k = h_height (ss_hrs s) /\ h_round k < h_round (ss_hrs s)) /\
  (check_hrs s k = Fail ChkStep <->
     h_height k = h_height (ss_hrs s) /\ h_round k = h_round (ss_hrs s) /\
     h_step k < h_step (ss_hrs s)).
Proof.
  unfold check_hrs, hrs_lt.
  assert (Hk : k = ss_hrs s <->
    h_height k = h_height (ss_hrs s) /\ h_round k = h_round (ss_hrs s) /\
    h_step k = h_step (ss_hrs s)).
  { split; [intros ->; done|]. intros (?&?&?). apply hrs_eq; done. }
  rewrite !Hk. clear Hk.
  destruct (Z.ltb_spec (h_height k) (h_height (ss_hrs s))).
  { repeat split; try discriminate; try done; try lia; intros; exfalso; lia. }
  destruct (Z.eqb_spec (h_height (ss_hrs s)) (h_height k)).
  2:{ repeat split; try discriminate; try done; try lia; intros; exfalso; lia. }
  destruct (Z.ltb_spec (h_round k) (h_round (ss_hrs s))).
  { repeat split; try discriminate; try done; try lia; intros; exfalso; lia. }
  destruct (Z.eqb_spec (h_round (ss_hrs s)) (h_round k)).
  2:{ repeat split; try discriminate; try done; try lia; intros; exfalso; lia. }
  destruct (Z.ltb_spec (h_step k) (h_step (ss_hrs s))).
  { repeat split; try discriminate; try done; try lia; intros; exfalso; lia. }
  destruct (Z.eqb_spec (h_step (ss_hrs s)) (h_step k)).
  2:{ repeat split; try discriminate; try done; try lia; intros; exfalso; lia. }
  assert (Hn : forall A, ~ is_Some (@None A)) by (intros A [? ?]; discriminate).
  destruct (ss_sb s), (ss_sig s); repeat split; try discriminate; try done; try lia;
    intros; exfalso; try lia; try (eapply Hn; intuition eauto); try (intuition congruence).
Qed.

Lemma save_accepted_fields s c : (save s c).2 = None ->
  hrs_lt (ss_hrs s) (ss_hrs (save s c).1) /\
  ss_hrs (save s c).1 = c_hrs c /\ ss_sig (save s c).1 = c_sig c /\
  ss_sb (save s c).1 = c_sb c /\ ss_eph (save s c).1 = ss_eph s.
Proof.
  intros E. rewrite (save_accepted _ _ E). simpl. repeat split. apply save_ok_iff, E.
Qed.

Lemma cache_underflow : exists s c,
  h_height (c_hrs c) = - 2 ^ 63 + 2 /\ h_height (ss_hrs s) = - 2 ^ 63 /\
  (save s c).2 = None /\ (get_from_cache (save s c).1 (c_hrs c)).2 = None.
Proof.
  exists (loaded_state (HRS (- 2 ^ 63) 0 0) None None None), (SSC (HRS (- 2 ^ 63 + 2) 0 1) None None).
  repeat split; vm_compute; reflexivity.
Qed.
