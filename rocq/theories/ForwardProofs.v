(** Handing requests on: proofs. *)
From Coq Require Import Sorting.Sorted.
From Verif Require Import GoBase Forward ForwardSpec.
Local Open Scope Z_scope.

(** a known leader led in that term; who led in a term has not heard of another leader of an earlier one since *)
Definition rinv (s : rstate) : Prop :=
  (forall h b t, rn_lead (node s h) = Some (b, t) -> ra_led s !! t = Some b /\ t <= rn_term (node s h)) /\
  (forall t b, ra_led s !! t = Some b -> t <= rn_term (node s b) /\
     forall c t', rn_lead (node s b) = Some (c, t') -> t <= t' /\ (t' = t -> c = b)) /\
  (forall h, rn_role (node s h) = Leader -> exists t, rn_lead (node s h) = Some (h, t)).

Lemma node_put s h n h' : node (put s h n) h' = if decide (h' = h) then n else node s h'.
Proof.
  unfold node, put. cbn. destruct (decide (h' = h)) as [-> |Hn]; [by rewrite lookup_insert|by rewrite lookup_insert_ne].
Qed.

Lemma inv_init : rinv ra_init.
Proof. split; [|split]; intros *; unfold node; cbn; rewrite ?lookup_empty; cbn; discriminate. Qed.

(** replacing one node, the leaders staying as they are *)
Lemma inv_put s h n : rinv s -> rn_term (node s h) <= rn_term n ->
  (forall b t, rn_lead n = Some (b, t) -> rn_lead (node s h) = Some (b, t) \/
     ra_led s !! t = Some b /\ b <> h /\ rn_term (node s h) <= t /\ t <= rn_term n) ->
  (rn_role n = Leader -> exists t, rn_lead n = Some (h, t)) ->
  rinv (put s h n).
Proof.
  intros (I1 & I2 & I3) Ht Hl Hr. split; [|split].
  - intros h' b t. rewrite node_put. cbn [put ra_led]. destruct (decide _) as [-> |_]; [|apply I1]. intros H.
    destruct (Hl _ _ H) as [H'|(? & ? & ? & ?)]; [|done]. apply I1 in H' as [? ?]. split; [done|lia].
  - intros t b. cbn [put ra_led]. rewrite node_put. intros H. destruct (I2 _ _ H) as [H1 H2]. destruct (decide (b = h)) as [-> |_]; [|done].
    split; [lia|]. intros c t' Hc. destruct (Hl _ _ Hc) as [Hc'|(Hd & Hne & Hle & _)]; [by apply H2|]. split; [lia|]. intros ->.
    congruence.
  - intros h'. rewrite node_put. destruct (decide _) as [-> |_]; [exact Hr|apply I3].
Qed.

Lemma inv_step s e s' : rinv s -> rstep s e = Some s' -> rinv s'.
Proof.
  intros I H. destruct e as [h t|h|h|h|h|h t|h]; cbn [rstep] in H.
  - destruct (Z.ltb_spec (rn_term (node s h)) t); [|discriminate]. injection H as <-. apply inv_put; cbn; [done|lia|auto|discriminate].
  - case_bool_decide; [discriminate|]. injection H as <-. apply inv_put; cbn; [done|lia|discriminate|discriminate].
  - destruct (bool_decide _) eqn:E1; [|discriminate]. cbn [andb] in H. destruct (bool_decide (ra_led s !! _ = None)) eqn:E2; [|discriminate].
    apply bool_decide_eq_true in E1, E2. injection H as <-. destruct I as (I1 & I2 & I3).
    assert (En : forall h', node (RState (<[h := RNode Leader (rn_term (node s h)) (Some (h, rn_term (node s h)))]> (ra_node s))
       (<[rn_term (node s h) := h]> (ra_led s))) h' =
       if decide (h' = h) then RNode Leader (rn_term (node s h)) (Some (h, rn_term (node s h))) else node s h').
    { intros h'. apply (node_put s h). }
    split; [|split].
    + intros h' b t. rewrite En. cbn [ra_led]. destruct (decide _) as [-> |_]; cbn [rn_lead rn_term].
      * intros [= <- <-]. rewrite lookup_insert. split; [done|lia].
      * intros Hl. apply I1 in Hl as [Hl ?]. rewrite lookup_insert_ne by congruence. done.
    + intros t b. cbn [ra_led]. rewrite En. intros Hl. apply lookup_insert_Some in Hl as [[<- <-]|[Hne Hl]].
      * rewrite decide_True by done. cbn. split; [lia|]. intros c t' [= <- <-]. split; [lia|done].
      * destruct (I2 _ _ Hl) as [H1 H2]. destruct (decide (b = h)) as [-> |_]; [|done]. cbn. split; [lia|].
        intros c t' [= <- <-]. split; [lia|done].
    + intros h'. rewrite En. destruct (decide _) as [-> |_]; [cbn; eauto|apply I3].
  - case_bool_decide; [|discriminate]. injection H as <-. apply inv_put; cbn; [done|lia|auto|discriminate].
  - case_bool_decide as Er; [discriminate|]. injection H as <-. apply inv_put; cbn; [done|lia|discriminate|]. intros ?. by destruct Er.
  - destruct (ra_led s !! t) as [b|] eqn:El; [|discriminate]. case_bool_decide as Eb; [discriminate|]. cbn [orb] in H.
    destruct (Z.ltb_spec t (rn_term (node s h))); [discriminate|]. injection H as <-. apply inv_put; cbn; [done|lia| |discriminate].
    intros b' t' [= <- <-]. right. split; [done|]. split; [done|]. lia.
  - injection H as <-. apply inv_put; cbn; [done|lia|discriminate|discriminate].
Qed.
Lemma inv_runs es : forall s s', rinv s -> rruns s es = Some s' -> rinv s'.
Proof.
  induction es as [|e es IH]; intros s s' I H; cbn in H; [by injection H as <-|].
  destruct (rstep s e) eqn:E; [|discriminate]. eapply IH; [by eapply inv_step|exact H].
Qed.
Lemma inv_reachable s : reachable s -> rinv s.
Proof. intros [es H]. eapply inv_runs; [exact inv_init|exact H]. Qed.
Lemma led_step s e s' t b : rstep s e = Some s' -> ra_led s !! t = Some b -> ra_led s' !! t = Some b.
Proof.
  intros H Hl. destruct e; cbn [rstep] in H; try (repeat case_match; simplify_eq; done).
  destruct (bool_decide _); [|discriminate]. cbn [andb] in H. destruct (bool_decide (_ = None)) eqn:E; [|discriminate].
  apply bool_decide_eq_true in E. injection H as <-. cbn. rewrite lookup_insert_ne by congruence. done.
Qed.

Lemma handles_hand n b t : handles n = DHand b t <-> rn_role n <> Leader /\ rn_lead n = Some (b, t).
Proof.
  unfold handles. case_bool_decide as E; [split; [discriminate|tauto]|]. destruct (rn_lead n) as [[c u]|]; [|split; [discriminate|intros [_ ?]; discriminate]].
  split; [intros [= -> ->]; done|intros [_ [= -> ->]]; done].
Qed.

(** later hops are of later terms, or of the same term to the same host *)
Definition later (x y : hop) : Prop := hop_term x < hop_term y \/ hop_term x = hop_term y /\ hop_to x = hop_to y.
Lemma travels_inv s h l s' h' : rinv s -> travels s h l s' h' ->
  rinv s' /\ (forall x, x ∈ l -> ra_led s' !! hop_term x = Some (hop_to x)) /\
  (forall x, list.last l = Some x -> hop_to x = h') /\ (l = [] -> h' = h) /\ StronglySorted later l.
Proof.
  intros I H. induction H as [|l s1 h1 e s2 H IH Hs|l s1 h1 b t H IH Hh].
  - split; [done|]. split; [intros x Hx; by apply not_elem_of_nil in Hx|]. split; [done|]. split; [done|constructor].
  - destruct IH as (I1 & H1 & H2 & H3 & H4). split; [by eapply inv_step|]. split; [intros x Hx; eapply led_step; [exact Hs|by apply H1]|]. done.
  - destruct IH as (I1 & H1 & H2 & H3 & H4). apply handles_hand in Hh as [Hr Hl]. split; [done|].
    destruct (proj1 I1 _ _ _ Hl) as [Hled _]. split.
    { intros x Hx. apply elem_of_app in Hx as [Hx|Hx]; [by apply H1|]. apply elem_of_list_singleton in Hx as ->. done. }
    split; [intros x; rewrite last_snoc; intros [= <-]; done|]. split; [intros E; by apply app_eq_nil in E as [_ ?]|].
    assert (Hlast : forall x, list.last l = Some x -> later x (h1, b, t)).
    { intros x Hx. pose proof (H2 _ Hx) as Hto. apply last_Some_elem_of, H1 in Hx. rewrite Hto in Hx.
      destruct (proj1 (proj2 I1) _ _ Hx) as [_ Hx2]. destruct (Hx2 _ _ Hl) as [Hle Heq]. unfold later, hop_term, hop_to in *. cbn in *.
      destruct (decide (x.2 = t)) as [E|E]; [right; split; [done|]; rewrite Hto; symmetry; by apply Heq|left; lia]. }
    clear -H4 Hlast. induction H4 as [|x l Hs IH Hf]; [repeat constructor|]. cbn [app]. constructor.
    + apply IH. intros y Hy. apply Hlast. destruct l; [discriminate|]. by rewrite last_cons_cons.
    + apply list.Forall_app. split; [done|]. constructor; [|constructor]. destruct l as [|y l] using rev_ind.
      * by apply Hlast.
      * clear IHl. assert (Hy : later y (h1, b, t)). { apply Hlast. rewrite app_comm_cons, last_snoc. done. }
        apply list.Forall_app in Hf as [_ Hf]. inversion_clear Hf as [|? ? Hxy _]. unfold later in *. cbn in *. 
        destruct Hxy as [?|[? ?]], Hy as [?|[? ?]]; [left; lia|left; lia|left; lia|right; split; congruence].
Qed.

Lemma sorted_lookup l i j x y : StronglySorted later l -> (i < j)%nat -> l !! i = Some x -> l !! j = Some y -> later x y.
Proof.
  intros H. revert i j. induction H as [|z l Hs IH Hf]; intros i j Hij Hx Hy; [by rewrite lookup_nil in Hx|].
  destruct j as [|j]; [lia|]. cbn in Hy. destruct i as [|i].
  - injection Hx as <-. rewrite list.Forall_forall in Hf. apply Hf. by eapply elem_of_list_lookup_2.
  - cbn in Hx. eapply IH; [|done|done]. lia.
Qed.

Lemma hops_terms s h l s' h' i j x y : reachable s -> travels s h l s' h' -> (i < j)%nat -> l !! i = Some x -> l !! j = Some y ->
  hop_term x <= hop_term y /\ (hop_term x = hop_term y -> hop_to x = hop_to y) /\
  (hop_to y = hop_from x -> hop_to x <> hop_from x -> hop_term x < hop_term y).
Proof.
  intros Hr H Hij Hx Hy. destruct (travels_inv _ _ _ _ _ (inv_reachable _ Hr) H) as (_ & _ & _ & _ & Hs).
  pose proof (sorted_lookup _ _ _ _ _ Hs Hij Hx Hy) as [Hl|[He Ht]].
  - split; [lia|]. split; [lia|]. done.
  - split; [lia|]. split; [done|]. intros H1 H2. congruence.
Qed.

(** one hop for every term in which somebody led *)
Lemma travels_hosts s h l s' h' : reachable s -> travels s h l s' h' ->
  forall x, x ∈ l -> ra_led s' !! hop_term x = Some (hop_to x).
Proof. intros Hr H. by destruct (travels_inv _ _ _ _ _ (inv_reachable _ Hr) H) as (_ & ? & _). Qed.

Lemma size_of_terms (m : gmap Z Z) (l : list Z) : NoDup l -> (forall t, t ∈ l -> is_Some (m !! t)) -> (length l <= size m)%nat.
Proof.
  intros Hn Hl. rewrite <- size_dom, <- (size_list_to_set (C:=gset Z)) by done. apply subseteq_size. intros t Ht.
  apply elem_of_list_to_set in Ht. by apply elem_of_dom, Hl.
Qed.
Lemma hops_bounded s h l s' h' : reachable s -> travels s h l s' h' -> forall x0, list.head l = Some x0 ->
  (length (remove_dups (map (fun x => (hop_to x, hop_term x)) l)) <=
   size (filter (fun p => (hop_term x0 <= fst p)%Z) (ra_led s')))%nat.
Proof.
  intros Hr H x0 Hx0. pose proof (travels_hosts _ _ _ _ _ Hr H) as Hled.
  set (d := remove_dups (map (fun x => (hop_to x, hop_term x)) l)).
  assert (Hd : forall p, p ∈ d -> exists x, x ∈ l /\ p = (hop_to x, hop_term x)).
  { intros p Hp. apply elem_of_remove_dups, elem_of_list_fmap in Hp as (x & -> & Hx). eauto. }
  rewrite <- (map_length snd d). apply size_of_terms.
  - pose proof (NoDup_remove_dups (map (fun x => (hop_to x, hop_term x)) l) : NoDup d) as Hn.
    apply NoDup_fmap_2_strong; [|done]. intros p q Hp Hq E. destruct (Hd _ Hp) as (x & Hx & ->). destruct (Hd _ Hq) as (y & Hy & ->).
    cbn in E. apply Hled in Hx, Hy. rewrite E in Hx. congruence.
  - intros t Ht. apply elem_of_list_fmap in Ht as (p & -> & Hp). destruct (Hd _ Hp) as (x & Hx & ->). cbn [snd].
    exists (hop_to x). apply map_filter_lookup_Some. split; [by apply Hled|]. cbn [fst]. destruct l as [|z l]; [done|]. injection Hx0 as ->.
    apply elem_of_list_lookup in Hx as [i Hi]. destruct i as [|i]; [cbn in Hi; injection Hi as ->; lia|].
    by destruct (hops_terms _ _ _ _ _ 0 (S i) x0 x Hr H ltac:(lia) eq_refl Hi).
Qed.


(** once a host has stopped leading a term it never leads it again *)
Definition led_before (s : rstate) (b t : Z) : Prop :=
  ra_led s !! t = Some b /\ ~ (rn_role (node s b) = Leader /\ rn_lead (node s b) = Some (b, t)).
Lemma led_before_step s e s' b t : rstep s e = Some s' -> led_before s b t -> led_before s' b t.
Proof.
  intros H [Hl Hn]. split; [by eapply led_step|]. intros [Hr Hd].
  destruct e as [h u|h|h|h|h|h u|h]; cbn [rstep] in H.
  - destruct (_ <? _); [|discriminate]. injection H as <-. rewrite node_put in *. destruct (decide _) as [-> |_]; [discriminate|tauto].
  - case_bool_decide; [discriminate|]. injection H as <-. rewrite node_put in *. destruct (decide _) as [-> |_]; [discriminate|tauto].
  - destruct (bool_decide _); [|discriminate]. cbn [andb] in H. destruct (bool_decide (_ = None)) eqn:E; [|discriminate].
    apply bool_decide_eq_true in E. injection H as <-.
    unfold node in *. cbn [ra_node] in *. destruct (decide (b = h)) as [-> |Hne].
    + rewrite lookup_insert in *. cbn in *. injection Hd as Hd. rewrite Hd in E. congruence.
    + rewrite lookup_insert_ne in * by done. tauto.
  - case_bool_decide; [|discriminate]. injection H as <-. rewrite node_put in *. destruct (decide _) as [-> |_]; [discriminate|tauto].
  - case_bool_decide; [discriminate|]. injection H as <-. rewrite node_put in *. destruct (decide _) as [-> |_]; [discriminate|tauto].
  - destruct (ra_led s !! u); [|discriminate]. destruct (_ || _); [discriminate|]. injection H as <-.
    rewrite node_put in *. destruct (decide _) as [-> |_]; [discriminate|tauto].
  - injection H as <-. rewrite node_put in *. destruct (decide _) as [-> |_]; [discriminate|tauto].
Qed.
Lemma settled s h l s' h' b t : reachable s -> travels s h l s' h' ->
  rn_role (node s' b) = Leader -> rn_lead (node s' b) = Some (b, t) ->
  forall i x, l !! i = Some x -> hop_term x = t -> hop_to x = b /\ i = (length l - 1)%nat /\ h' = b /\ handles (node s' b) = DSign.
Proof.
  intros Hr H Hb Hl i x Hi Ht.
  assert (Hsign : handles (node s' b) = DSign) by (unfold handles; by rewrite bool_decide_eq_true_2).
  pose proof (travels_hosts _ _ _ _ _ Hr H) as Hled.
  assert (Hto : hop_to x = b).
  { pose proof (Hled x ltac:(by eapply elem_of_list_lookup_2)) as Hx. rewrite Ht in Hx.
    destruct (travels_inv _ _ _ _ _ (inv_reachable _ Hr) H) as (I & _). apply (proj1 I) in Hl as [Hl _]. congruence. }
  split; [done|].
  enough (Hend : i = (length l - 1)%nat).
  { split; [done|]. split; [|done]. destruct (travels_inv _ _ _ _ _ (inv_reachable _ Hr) H) as (_ & _ & Hlast & _).
    rewrite <- Hto. symmetry. apply Hlast. rewrite last_lookup. rewrite <- Hi, Hend. f_equal. lia. }
  (* otherwise b, not leading, has handed it on *)
  assert (Hlate : (i < length l - 1)%nat -> led_before s' b t).
  { clear Hb Hl Hsign Hled. induction H as [|l s1 h1 e s2 H IH Hs|l s1 h1 c u H IH Hh].
    - intros Hlt. cbn in Hlt. lia.
    - intros Hlt. eapply led_before_step; [exact Hs|]. by apply IH.
    - intros Hlt. rewrite app_length in Hlt. cbn in Hlt. rewrite lookup_app_l in Hi by lia.
      destruct (decide (i < length l - 1)%nat) as [Hc|Hc]; [by apply IH|].
      destruct (travels_inv _ _ _ _ _ (inv_reachable _ Hr) H) as (I & Hx & Hlast & _).
      assert (Hh1 : b = h1). { rewrite <- Hto. apply Hlast. rewrite last_lookup, <- Hi. f_equal. lia. }
      subst h1. apply handles_hand in Hh as [Hh _]. split; [|tauto]. rewrite <- Hto at 1. rewrite <- Ht. apply Hx. by eapply elem_of_list_lookup_2. }
  pose proof (lookup_lt_Some _ _ _ Hi). destruct (decide (i < length l - 1)%nat) as [Hc|Hc]; [|lia].
  destruct (Hlate Hc) as [_ Hno]. tauto.
Qed.

(** ** refutations *)
Definition run_of (es : list revent) : rstate := default ra_init (rruns ra_init es).
(** a host that has just stopped leading *)
Definition stopping : rstate := run_of [RCand 1; RWin 1; RStep 1].
Lemma stopping_reachable : reachable stopping.
Proof. exists [RCand 1; RWin 1; RStep 1]. vm_compute. reflexivity. Qed.
Lemma stopping_loop n : travels stopping 1 (repeat (1, 1, 1) n) stopping 1.
Proof.
  induction n as [|n IH]; [constructor|]. replace (repeat (1, 1, 1) (S n)) with (repeat (1, 1, 1) n ++ [(1, 1, 1)]).
  - apply tr_hop; [done|]. vm_compute. reflexivity.
  - change [(1, 1, 1)] with (repeat (1, 1, 1) 1). rewrite <- repeat_app. f_equal. lia.
Qed.
(** 1 still takes 2 for the leader, 2 knows of 3 *)
Definition stale_events : list revent :=
  [RCand 2; RWin 2; RHear 1 1; RStep 2; RLost 2; RVote 3 1; RCand 3; RWin 3; RHear 2 2].
Definition stale : rstate := run_of stale_events.
Lemma stale_reachable : reachable stale.
Proof. exists stale_events. vm_compute. reflexivity. Qed.
Lemma stale_travel : travels stale 1 [(1, 2, 1); (2, 3, 2)] stale 3 /\ handles (node stale 3) = DSign.
Proof.
  split; [|vm_compute; reflexivity]. apply (tr_hop stale 1 [(1, 2, 1)] stale 2 3 2); [|vm_compute; reflexivity].
  apply (tr_hop stale 1 [] stale 1 2 1); [constructor|vm_compute; reflexivity].
Qed.

(** ** waiting for a leader *)
Lemma find_iff n : forall view i b k, find_leader n view i = Some (b, k) <->
  (i <= k < i + n)%nat /\ view k = Some b /\ forall j, (i <= j < k)%nat -> view j = None.
Proof.
  induction n as [|n IH]; intros view i b k; cbn [find_leader]; [split; [discriminate|lia]|].
  destruct (view i) as [c|] eqn:E.
  - split.
    + intros [= -> ->]. split; [lia|]. split; [done|]. intros j Hj. lia.
    + intros (Hk & Hv & Hj). destruct (decide (k = i)) as [-> |Hne]; [congruence|]. rewrite Hj in E by lia. discriminate.
  - rewrite IH. split.
    + intros (Hk & Hv & Hj). split; [lia|]. split; [done|]. intros j Hj'. destruct (decide (j = i)) as [-> |Hne]; [done|]. apply Hj. lia.
    + intros (Hk & Hv & Hj). destruct (decide (k = i)) as [-> |Hne]; [congruence|]. split; [lia|]. split; [done|]. intros j Hj'. apply Hj. lia.
Qed.
Lemma client_iff view b k : leader_client view = Some (b, k) <->
  (k < 30)%nat /\ view k = Some b /\ forall j, (j < k)%nat -> view j = None.
Proof.
  unfold leader_client. rewrite find_iff. split; intros (Hk & Hv & Hj); (split; [lia|]); (split; [done|]); intros j Hj'; apply Hj; lia.
Qed.
