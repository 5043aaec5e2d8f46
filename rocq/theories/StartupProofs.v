(** Starting processes: proofs. *)
From Coq Require Import Strings.String.
From Verif Require Import GoBase Canonical SignState Json JsonProofs Utf8 Raft RaftSpec Disk Config ConfigSpec
  Startup StartupSpec.
Local Open Scope Z_scope.

(** ** Membership *)

Lemma print_int_inj a b : print_int a = print_int b -> a = b.
Proof. intros H. pose proof (parse_print_int a) as E. rewrite H, parse_print_int in E. by injection E. Qed.
Lemma print_int_ne a : print_int a <> [].
Proof. intros H. pose proof (parse_print_int a) as E. rewrite H in E. discriminate E. Qed.

Lemma boot_ids host i l ps : map fst (boot_servers host i l ps) = map print_int (i :: map pe_id ps).
Proof. unfold boot_servers. cbn. rewrite !map_map. reflexivity. Qed.
Lemma boot_addrs host i l ps : map snd (boot_servers host i l ps) = host l :: map (fun p => host (pe_addr p)) ps.
Proof. unfold boot_servers. cbn. rewrite !map_map. reflexivity. Qed.

Lemma NoDup_map_inj {A B} (f : A -> B) l : (forall a b, f a = f b -> a = b) -> NoDup l -> NoDup (map f l).
Proof. intros Hf H. assert (Inj eq eq f) by (intros a b; apply Hf). exact (NoDup_fmap_2 f l H). Qed.

Lemma told_apart_valid host s k : told_apart host s k ->
  valid_config (boot_servers host (ck_id k) (co_listen s) (co_peers s)) = true.
Proof.
  intros (H1 & H2 & H3). unfold valid_config. rewrite boot_ids, boot_addrs.
  rewrite !andb_true_iff, !bool_decide_eq_true. split; [split; [split|]|done].
  - apply NoDup_map_inj; [apply print_int_inj|exact H1].
  - exact H2.
  - apply forallb_forall. intros x Hx. apply elem_of_list_In in Hx.
    rewrite andb_true_iff, !bool_decide_eq_true. split.
    + assert (E : fst x ∈ map fst (boot_servers host (ck_id k) (co_listen s) (co_peers s)))
        by (by apply (elem_of_list_fmap_1 fst)).
      rewrite boot_ids in E. apply elem_of_list_fmap in E as (z & -> & _). apply print_int_ne.
    + assert (E : snd x ∈ map snd (boot_servers host (ck_id k) (co_listen s) (co_peers s)))
        by (by apply (elem_of_list_fmap_1 snd)).
      rewrite boot_addrs in E. intros Ex. by rewrite Ex in E.
Qed.

Lemma boot_named host s k x : x ∈ boot_servers host (ck_id k) (co_listen s) (co_peers s) <-> named host s k x.
Proof.
  unfold boot_servers, named. rewrite elem_of_cons, elem_of_list_fmap. split; (intros [H|(p & H1 & H2)]; [by left|right; exists p; done]).
Qed.

Lemma first_boot host s k : told_apart host s k ->
  exists c, boot_node host None s k = Some c /\ NoDup c /\ (length c = S (length (co_peers s))) /\
    forall x, x ∈ c <-> named host s k x.
Proof.
  intros H. exists (boot_servers host (ck_id k) (co_listen s) (co_peers s)).
  unfold boot_node, bootstrap. rewrite told_apart_valid by done. split; [done|]. split; [|split].
  - destruct H as (H & _ & _). apply (NoDup_fmap_1 fst). change (fst <$> ?l) with (map fst l).
    rewrite boot_ids. apply NoDup_map_inj; [apply print_int_inj|exact H].
  - unfold boot_servers. cbn. by rewrite map_length.
  - intros x. apply boot_named.
Qed.

(** nodes that do not tell their servers apart run with no membership at all *)
Lemma boot_refused host s k : ~ told_apart host s k -> boot_node host None s k = None.
Proof.
  intros H. unfold boot_node, bootstrap.
  destruct (valid_config _) eqn:E; [|done]. exfalso. apply H. clear H.
  unfold valid_config in E. rewrite boot_ids, boot_addrs, !andb_true_iff, !bool_decide_eq_true in E.
  destruct E as [[[H1 H2] H3] _]. split; [|split; [done|]].
  - apply (NoDup_fmap_1 print_int). exact H1.
  - intros Hin. rewrite <- boot_addrs with (i := ck_id k) in Hin.
    apply elem_of_list_fmap in Hin as (x & Hx & Hin). rewrite forallb_forall in H3.
    apply elem_of_list_In in Hin. specialize (H3 x Hin). rewrite andb_true_iff, !bool_decide_eq_true in H3. by destruct H3.
Qed.

Lemma plan_servers host ids url i s k : NoDup ids -> i ∈ ids -> follows host ids url i s k ->
  boot_servers host (ck_id k) (co_listen s) (co_peers s) ≡ₚ map (fun j => (print_int j, host (url j))) ids.
Proof.
  intros Hn Hi (-> & Hl & Hp). unfold boot_servers. rewrite Hl.
  rewrite (Permutation_map (fun p => (print_int (pe_id p), host (pe_addr p))) Hp), map_map. cbn [pe_id pe_addr].
  change (map (fun j => (print_int j, host (url j))) (i :: filter (fun j => j <> i) ids)
    ≡ₚ map (fun j => (print_int j, host (url j))) ids).
  apply Permutation_map. apply NoDup_Permutation; [|done|].
  - apply list.NoDup_cons. split; [|by apply list.NoDup_filter]. rewrite elem_of_list_filter. tauto.
  - intros x. rewrite elem_of_cons, elem_of_list_filter. split.
    + intros [-> |[_ H]]; done.
    + intros H. destruct (decide (x = i)); [by left|by right].
Qed.

Lemma plan_told_apart host ids url i s k : good_plan host ids url -> i ∈ ids -> follows host ids url i s k ->
  told_apart host s k.
Proof.
  intros (Hn & Ha & He) Hi Hf. pose proof (plan_servers host ids url i s k Hn Hi Hf) as P.
  split; [|split].
  - apply (NoDup_fmap_1 print_int). change (print_int <$> ?l) with (map print_int l).
    rewrite <- (boot_ids host _ (co_listen s)), (Permutation_map fst P), map_map. cbn [fst].
    apply NoDup_map_inj; [apply print_int_inj|done].
  - rewrite <- (boot_addrs host (ck_id k)), (Permutation_map snd P), map_map. exact Ha.
  - rewrite <- (boot_addrs host (ck_id k)), (Permutation_map snd P), map_map. cbn [snd].
    intros Hin. apply elem_of_list_fmap in Hin as (j & Hj & Hin). by apply (He j).
Qed.

Lemma plan_agree host ids url i j si sj ki kj : good_plan host ids url -> i ∈ ids -> j ∈ ids ->
  follows host ids url i si ki -> follows host ids url j sj kj ->
  exists ci cj, boot_node host None si ki = Some ci /\ boot_node host None sj kj = Some cj /\
    ci ≡ₚ cj /\ (length ci = length ids) /\
    forall qi qj, majority ci qi -> majority cj qj -> exists x, x ∈ qi /\ x ∈ qj.
Proof.
  intros Hg Hi Hj Fi Fj.
  assert (Ei : boot_node host None si ki = Some (boot_servers host (ck_id ki) (co_listen si) (co_peers si))).
  { unfold boot_node, bootstrap. by rewrite (told_apart_valid _ _ _ (plan_told_apart _ _ _ _ _ _ Hg Hi Fi)). }
  assert (Ej : boot_node host None sj kj = Some (boot_servers host (ck_id kj) (co_listen sj) (co_peers sj))).
  { unfold boot_node, bootstrap. by rewrite (told_apart_valid _ _ _ (plan_told_apart _ _ _ _ _ _ Hg Hj Fj)). }
  pose proof (plan_servers host ids url i si ki (proj1 Hg) Hi Fi) as Pi.
  pose proof (plan_servers host ids url j sj kj (proj1 Hg) Hj Fj) as Pj.
  eexists _, _. split; [exact Ei|]. split; [exact Ej|].
  split; [by rewrite Pi, Pj|]. split; [by rewrite Pi, map_length|].
  revert Pi Pj. generalize (boot_servers host (ck_id ki) (co_listen si) (co_peers si)) as ci.
  generalize (boot_servers host (ck_id kj) (co_listen sj) (co_peers sj)) as cj.
  intros cj ci Pi Pj qi qj [Hi1 Hi2] [Hj1 Hj2].
  destruct (set_choose_or_empty (qi ∩ qj)) as [[x Hx]|Hno].
  { exists x. set_solver. }
  exfalso.
  assert (Hd : qi ## qj) by set_solver.
  assert (Hsub : qi ∪ qj ⊆ list_to_set (map fst ci)).
  { intros x Hx. rewrite elem_of_list_to_set. apply elem_of_union in Hx as [Hx|Hx]; [by apply Hi1|].
    apply Hj1 in Hx. rewrite Pi. by rewrite Pj in Hx. }
  apply subseteq_size in Hsub. rewrite size_union in Hsub by done.
  assert (Hle : (size (list_to_set (map fst ci) : gset bytes) <= length ci)%nat).
  { clear. induction ci as [|x l IH]; [done|]. cbn [map list_to_set length].
    rewrite size_union_alt. rewrite size_singleton.
    etrans; [apply Nat.add_le_mono_l, subseteq_size, subseteq_difference_l; reflexivity|]. cbn. lia. }
  assert (length ci = length cj) by (by rewrite Pi, Pj). lia.
Qed.

(** once a node has a membership, its configuration no longer matters *)
Lemma later_boot host c s k : boot_node host (Some c) s k = Some c.
Proof. done. Qed.

(** ** Order of events *)

Lemma needs_event e : needs_validator e = true <-> lss_event e.
Proof.
  unfold needs_validator, lss_event, event_of. destruct (decode_command e) as [c|]; [|split; [done|by intros (? & ?)]].
  destruct (bool_decide (cm_op c = lit "set")) eqn:E1; destruct (bool_decide (cm_key c = lss_key)) eqn:E2.
  1: { apply bool_decide_eq_true in E1, E2. rewrite bool_decide_eq_true_2 by done.
       destruct (decode_lss _); split; intros; eauto; try done. by destruct H. }
  all: rewrite bool_decide_eq_false_2; [split; [done|by intros (? & ?)]|].
  all: rewrite ?bool_decide_eq_true, ?bool_decide_eq_false in *; tauto.
Qed.

Local Instance boot_op_eq_dec : EqDecision boot_op.
Proof. solve_decision. Defined.

Lemma boot_run_app b l1 l2 : boot_run b (l1 ++ l2) =
  match boot_run b l1 with Val b' => boot_run b' l2 | Fail e => Fail e | Panic => Panic end.
Proof.
  revert b. induction l1 as [|op l1 IH]; intros b; [done|]. cbn. destruct (boot_step b op); [apply IH|done|done].
Qed.

Lemma boot_step_set b op b' : boot_step b op = Val b' ->
  bt_set b' = bt_set b || bool_decide (op = BtSet).
Proof.
  destruct op; cbn; intros H.
  - destruct (bt_set b); [done|]. injection H as <-. done.
  - destruct (bt_open b); [done|]. injection H as <-. cbn. by rewrite orb_false_r.
  - destruct (bt_open b), (bt_serve b); try done. injection H as <-. cbn. by rewrite orb_false_r.
  - destruct (bt_open b); [|done]. destruct (_ && _); [done|]. injection H as <-. cbn. by rewrite orb_false_r.
  - destruct (bt_serve b) as [[]|]; try done. injection H as <-. by rewrite orb_false_r.
Qed.

Lemma boot_run_set b l b' : boot_run b l = Val b' ->
  bt_set b' = true <-> bt_set b = true \/ BtSet ∈ l.
Proof.
  revert b. induction l as [|op l IH]; intros b H; cbn in H.
  - injection H as <-. rewrite elem_of_nil. tauto.
  - destruct (boot_step b op) as [b1| |] eqn:E; [|done|done].
    rewrite (IH _ H), (boot_step_set _ _ _ E), orb_true_iff, bool_decide_eq_true, elem_of_cons. split; intros; intuition.
Qed.

(** the captured validator: nil iff it was captured before it was set *)
Lemma boot_serve_inv b l b' : boot_run b l = Val b' -> bt_serve b = None -> bt_set b = false ->
  match bt_serve b' with
  | None => BtServe ∉ l
  | Some v => exists l1 l2, l = l1 ++ BtServe :: l2 /\ (v = true <-> BtSet ∈ l1)
  end.
Proof.
  intros H Hs Hf. revert b' H. induction l as [|op l IH] using rev_ind; intros b' H.
  - cbn in H. injection H as <-. rewrite Hs. apply not_elem_of_nil.
  - rewrite boot_run_app in H. destruct (boot_run b l) as [b1| |] eqn:E; [|done|done].
    specialize (IH _ eq_refl). cbn in H. destruct (boot_step b1 op) as [b2| |] eqn:E2; [|done|done].
    injection H as <-.
    assert (Hkeep : op <> BtServe -> bt_serve b2 = bt_serve b1).
    { intros Hne. destruct op; cbn in E2; try done.
      - destruct (bt_set b1); [done|]. by injection E2 as <-.
      - destruct (bt_open b1); [done|]. by injection E2 as <-.
      - destruct (bt_open b1); [|done]. destruct (_ && _); [done|]. by injection E2 as <-.
      - destruct (bt_serve b1) as [[]|] eqn:E3; try done. injection E2 as <-. done. }
    destruct op.
    3: { cbn in E2. destruct (bt_open b1) eqn:Eo; [|done]. destruct (bt_serve b1) eqn:Es; [done|].
         injection E2 as <-. cbn. exists l, []. split; [done|].
         rewrite (boot_run_set _ _ _ E), Hf. intuition discriminate. }
    all: rewrite Hkeep by done; destruct (bt_serve b1) as [v|];
      [destruct IH as (l1 & l2 & -> & Hv); exists l1; eexists; split; [by rewrite <- app_assoc|done]|].
    all: rewrite elem_of_app, elem_of_list_singleton; intros [?|?]; done.
Qed.

Lemma crash_causes f l : boot_run (boot0 f) l = Panic <->
  exists l1 op l2 b, l = l1 ++ op :: l2 /\ boot_run (boot0 f) l1 = Val b /\
    ((exists e, op = BtApply e /\ bt_open b = true /\ lss_event e /\ BtSet ∉ l1) \/
     (op = BtSignBlock /\ exists k1 k2, l1 = k1 ++ BtServe :: k2 /\ BtSet ∉ k1)).
Proof.
  split.
  - intros H. assert (Hex : exists l1 op l2 b, l = l1 ++ op :: l2 /\ boot_run (boot0 f) l1 = Val b /\ boot_step b op = Panic).
    { revert H. generalize (boot0 f). induction l as [|op l IH]; intros b H; [done|]. cbn in H.
      destruct (boot_step b op) as [b1| |] eqn:E; [|done|].
      - destruct (IH _ H) as (l1 & op' & l2 & b2 & -> & H1 & H2).
        exists (op :: l1), op', l2, b2. split; [done|]. cbn. by rewrite E.
      - exists [], op, l, b. done. }
    destruct Hex as (l1 & op & l2 & b & -> & H1 & H2). exists l1, op, l2, b. split; [done|]. split; [done|].
    destruct op; cbn in H2.
    + by destruct (bt_set b).
    + by destruct (bt_open b).
    + by destruct (bt_open b), (bt_serve b).
    + left. destruct (bt_open b) eqn:Eo; [|done]. destruct (needs_validator entry) eqn:En; [|done].
      destruct (bt_set b) eqn:Es; [done|]. exists entry. split; [done|]. split; [done|].
      split; [by apply needs_event|]. intros Hin.
      assert (bt_set b = true) by (apply (boot_run_set _ _ _ H1); by right). congruence.
    + right. split; [done|]. pose proof (boot_serve_inv _ _ _ H1 eq_refl eq_refl) as Hi.
      destruct (bt_serve b) as [[]|]; try done. destruct Hi as (k1 & k2 & -> & Hv). exists k1, k2.
      split; [done|]. intros Hin. apply Hv in Hin. done.
  - intros (l1 & op & l2 & b & -> & H1 & H). rewrite boot_run_app, H1. cbn.
    assert (E : boot_step b op = Panic); [|by rewrite E].
    destruct H as [(e & -> & Ho & He & Hn)|[-> (k1 & k2 & -> & Hn)]]; cbn.
    + rewrite Ho, (proj2 (needs_event e) He). destruct (bt_set b) eqn:Es; [|done].
      apply (boot_run_set _ _ _ H1) in Es as [Es|Es]; done.
    + pose proof (boot_serve_inv _ _ _ H1 eq_refl eq_refl) as Hi.
      rewrite boot_run_app in H1. destruct (boot_run (boot0 f) k1) as [b1| |] eqn:Ek1; [|done|done].
      cbn in H1. destruct (bt_open b1) eqn:Eo; [|done]. destruct (bt_serve b1) eqn:Es1; [done|].
      assert (Hs1 : bt_set b1 = false).
      { destruct (bt_set b1) eqn:E; [|done]. apply (boot_run_set _ _ _ Ek1) in E as [E|E]; done. }
      rewrite Hs1 in H1.
      assert (Hk : forall k2 b1 b, bt_serve b1 = Some false -> boot_run b1 k2 = Val b -> bt_serve b = Some false).
      { clear. induction k2 as [|op k2 IH]; intros b1 b Hs H; cbn in H; [by injection H as <-|].
        destruct (boot_step b1 op) as [b2| |] eqn:E; [|done|done]. refine (IH b2 b _ H).
        destruct op; cbn in E; rewrite ?Hs in E.
        - destruct (bt_set b1); [done|]. by injection E as <-.
        - destruct (bt_open b1); [done|]. by injection E as <-.
        - destruct (bt_open b1); done.
        - destruct (bt_open b1); [|done]. destruct (_ && _); [done|]. by injection E as <-.
        - done. }
      assert (E : bt_serve b = Some false) by (refine (Hk _ _ _ _ H1); reflexivity). by rewrite E.
Qed.

(** what the main goroutine does first cannot crash, and the entries are applied as they should be *)
Lemma set_first f l : no_crash (boot_run (boot0 f) (BtSet :: l)).
Proof.
  intros H. apply crash_causes in H as (l1 & op & l2 & b & E & H1 & H).
  destruct H as [(e & -> & Ho & He & Hn)|[-> (k1 & k2 & -> & Hn)]].
  - destruct l1 as [|op l1]; [discriminate E|]. injection E as <- _. apply Hn, elem_of_list_here.
  - destruct k1 as [|op k1]; cbn in E; [discriminate E|]. injection E as <- _. apply Hn, elem_of_list_here.
Qed.

Lemma applies b l b' : boot_run b l = Val b' -> bt_fsm b' = apply_all (applied l) (bt_fsm b).
Proof.
  revert b. induction l as [|op l IH]; intros b H; cbn in H; [by injection H as <-|].
  destruct (boot_step b op) as [b1| |] eqn:E; [|done|done]. rewrite (IH _ H).
  destruct op; cbn in E |- *.
  - destruct (bt_set b); [done|]. by injection E as <-.
  - destruct (bt_open b); [done|]. by injection E as <-.
  - destruct (bt_open b), (bt_serve b); try done. by injection E as <-.
  - destruct (bt_open b); [|done]. destruct (_ && _); [done|]. by injection E as <-.
  - destruct (bt_serve b) as [[]|]; try done. by injection E as <-.
Qed.

(** ** The running check *)

Lemma is_prefix_iff p l : is_prefix p l = true <-> exists b, l = p ++ b.
Proof.
  revert l. induction p as [|x p IH]; intros l; cbn.
  - split; [by exists l|done].
  - destruct l as [|y l]; [split; [done|by intros (? & ?)]|].
    rewrite andb_true_iff, bool_decide_eq_true, IH. split.
    + intros [-> (b & ->)]. by exists b.
    + intros (b & [= -> ->]). eauto.
Qed.
Lemma contains_iff p l : contains p l = true <-> occurs p l.
Proof.
  induction l as [|y l IH]; cbn; rewrite orb_true_iff, is_prefix_iff.
  - split.
    + intros [(b & E)|]; [|done]. exists [], b. done.
    + intros (a & b & E). left. destruct a; [|done]. by exists b.
  - split.
    + intros [(b & E)|H]; [by exists [], b|]. apply IH in H as (a & b & ->). by exists (y :: a), b.
    + intros (a & b & E). destruct a as [|z a]; [left; by exists b|]. right. apply IH.
      injection E as <- ->. by exists a, b.
Qed.

Lemma ancestors_sound n table pid a : a ∈ ancestors n table pid -> ancestor table a pid.
Proof.
  revert pid. induction n as [|n IH]; intros pid H; cbn in H; [by apply elem_of_nil in H|].
  destruct (List.find _ table) as [p|] eqn:E; [|by apply elem_of_nil in H].
  apply find_some in E as [Hin Hp]. apply Z.eqb_eq in Hp. subst pid. apply elem_of_list_In in Hin.
  apply elem_of_cons in H as [-> |H]; [by constructor|]. eapply anc_trans; [done|by apply IH].
Qed.

Lemma is_running_iff bsd table self : is_running bsd table self = true <->
  exists p, p ∈ table /\ occurs (lit "horcrux") (pc_name p) /\ pc_pid p <> self /\
    ~ (bsd = true /\ pc_pid p ∈ ancestors (length table) table self).
Proof.
  unfold is_running. destruct (pgrep bsd table self (lit "horcrux")) as [|p l] eqn:E.
  - split; [done|]. intros (p & Hin & Hc & Hs & Ha). exfalso.
    assert (H : p ∈ pgrep bsd table self (lit "horcrux")).
    { unfold pgrep. apply elem_of_list_filter. split; [|done]. split; [by apply contains_iff|done]. }
    rewrite E in H. by apply elem_of_nil in H.
  - split; [intros _|done]. exists p.
    assert (H : p ∈ pgrep bsd table self (lit "horcrux")) by (rewrite E; apply elem_of_list_here).
    unfold pgrep in H. apply elem_of_list_filter in H as [(H1 & H2 & H3) H4].
    split; [done|]. split; [by apply contains_iff|]. done.
Qed.

Lemma refused_when_seen bsd table self p hf pv share arg :
  p ∈ table -> occurs (lit "horcrux") (pc_name p) -> pc_pid p <> self ->
  (bsd = true -> ~ ancestor table (pc_pid p) self) ->
  state_set_cmd bsd table self hf pv share arg = inl SeRunning.
Proof.
  intros H1 H2 H3 H4. unfold state_set_cmd.
  assert (E : is_running bsd table self = true).
  { apply is_running_iff. exists p. split; [done|]. split; [done|]. split; [done|].
    intros [Hb Ha]. apply (H4 Hb). by eapply ancestors_sound. }
  rewrite E. done.
Qed.

Lemma unseen_allowed bsd table self hf pv share arg :
  (forall p, p ∈ table -> occurs (lit "horcrux") (pc_name p) -> pc_pid p = self \/
     (bsd = true /\ pc_pid p ∈ ancestors (length table) table self)) ->
  state_set_cmd bsd table self hf pv share arg = state_set false hf pv share arg.
Proof.
  intros H. unfold state_set_cmd. destruct (is_running bsd table self) eqn:E; [|done].
  apply is_running_iff in E as (p & H1 & H2 & H3 & H4). exfalso.
  destruct (H p H1 H2) as [?|?]; done.
Qed.
