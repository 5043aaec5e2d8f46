(** Timed runs of the threshold validator (toy cryptography). *)
From Verif Require Import GoBase Wire Canonical SignState Spec CanonicalApi Crypto LocalCosigner
  CosignerSpec Cluster Toy CosignerWitness Validator ValidatorSpec ValidatorProofs ValidatorWitness TimedSpec.
Local Open Scope Z_scope.

Definition pacedb (x y : tevent) : bool :=
  (at_time x <=? at_time y) &&
  match action x, action y with
  | VPoll t, VPoll t' => negb (t =? t')%nat || (at_time x + 10 <=? at_time y)
  | VGo t, VTimeout t' | VOwn t _, VTimeout t' => negb (t =? t')%nat || (at_time x + 4000 <=? at_time y)
  | _, _ => true
  end.
Fixpoint timedb (l : list tevent) : bool :=
  match l with [] => true | x :: l' => forallb (pacedb x) l' && timedb l' end.
Lemma pacedb_ok x y : pacedb x y = true -> paced x y.
Proof.
  unfold pacedb, paced. intros H. apply andb_true_iff in H as [H1 H2]. apply Z.leb_le in H1.
  split; [done|]. split.
  - intros t Ex Ey. rewrite Ex, Ey, Nat.eqb_refl in H2. simpl in H2. by apply Z.leb_le in H2.
  - intros t Ey [Ex|[ps Ex]]; rewrite Ex, Ey, Nat.eqb_refl in H2; simpl in H2; by apply Z.leb_le in H2.
Qed.
Lemma timedb_ok l : timedb l = true -> timed l.
Proof.
  induction l as [|x l IH]; simpl; intros H; [constructor|]. apply andb_true_iff in H as [H1 H2].
  constructor; [|by apply IH]. rewrite forallb_forall in H1. apply List.Forall_forall. intros y Hy.
  by apply pacedb_ok, H1.
Qed.

Definition clock (times : list Z) (l : list (vop * vobs)) : list tevent :=
  zip_with (fun tau x => (tau, x.1, x.2)) times l.
Lemma untimed_clock times l : length times = length l -> untimed (clock times l) = l.
Proof.
  revert times. induction l as [|[op o] l IH]; intros [|tau times] H; try done.
  simpl in *. f_equal. apply IH. lia.
Qed.

(** call 8 asks again for the block that call 7 is about to sign *)
Definition twin_start : list vop := take 2 e2e ++ [VCall 8 (eblock 11 x0a 1) RLeader; VInit 8].
(** the shares take two seconds *)
Definition slow_ops : list vop := twin_start ++ replicate 100 (VPoll 8) ++ drop 2 e2e.
Definition slow_times : list Z :=
  [0; 0; 0; 0] ++ map (fun i => 10 * Z.of_nat i) (seq 0 100) ++
  [1000; 1000; 1010; 1010; 1010; 1010; 2000; 2000; 2010; 2010; 2020].
Definition slow_log : list tevent := clock slow_times (v_log v0 slow_ops).
(** the shares take 300 ms *)
Definition quick_ops : list vop := twin_start ++ replicate 30 (VPoll 8) ++ drop 2 e2e ++ [VPoll 8].
Definition quick_times : list Z :=
  [0; 0; 0; 0] ++ map (fun i => 10 * Z.of_nat i) (seq 0 30) ++
  [290; 290; 290; 290; 290; 290; 295; 295; 297; 297; 297; 300].
Definition quick_log : list tevent := clock quick_times (v_log v0 quick_ops).

(** who is asked for what *)
Definition callsb (h : Z) (l : list vop) : bool :=
  forallb (fun op => match op with
    | VCall _ b _ => h_height (b_hrs b) <=? h + 3
    | VLss _ => false
    | _ => true end) l.
Lemma callsb_ok h k l : callsb h (ops_of l) = true -> near h l /\ no_event k l.
Proof.
  unfold callsb. rewrite forallb_forall. intros H. split; [split|].
  - intros t b r Hin. apply elem_of_list_In, H in Hin. by apply Z.leb_le in Hin.
  - intros c Hin. apply elem_of_list_In, H in Hin. done.
  - intros c Hin. apply elem_of_list_In, H in Hin. done.
Qed.

(** everything about a run, computed once *)
Definition summary (times : list Z) (ops : list vop) (at_ : list nat) :
    option (bool * bool * list (option tevent)) :=
  match vrun_ops toy vcfg v0 ops with
  | Some (_, l) =>
      if (length times =? length l)%nat then
        let tl := clock times l in
        Some (timedb tl, callsb 11 (ops_of l), map (fun i => tl !! i) at_)
      else None
  | None => None
  end.
Lemma summary_ok times ops at_ es :
  summary times ops at_ = Some (true, true, es) ->
  let l := clock times (v_log v0 ops) in
  vrun toy vcfg v0 (untimed l) (v_after v0 ops) /\ timed l /\
  (forall k, near 11 (untimed l) /\ no_event k (untimed l)) /\
  map (fun i => l !! i) at_ = es.
Proof.
  unfold summary. intros H. simpl.
  pose proof (v_run v0 ops) as Hr. unfold v_log in *.
  destruct (vrun_ops toy vcfg v0 ops) as [[s l]|]; [|discriminate H].
  destruct (length times =? length l)%nat eqn:El; [|discriminate H].
  apply Nat.eqb_eq in El. injection H as H1 H2 H3. rewrite untimed_clock by exact El.
  split; [apply Hr; discriminate|]. split; [by apply timedb_ok|]. split; [|exact H3].
  intros k. by apply callsb_ok.
Qed.

Lemma slow_summary : summary slow_times slow_ops [1; 3; 103; 114]%nat = Some (true, true,
  [Some (0, VInit 7, OStart 7 (eblock 11 x0a 1)); Some (0, VInit 8, OTau);
   Some (990, VPoll 8, OReturn 8 (eblock 11 x0a 1) (VR None (Time 1600000000 1) (Some EvWaitTimeout)) false);
   Some (2020, VEmit 7 true, OReturn 7 (eblock 11 x0a 1) (VR (Some e2e_sig) (Time 1600000000 1) None) true)]).
Proof. vm_compute. reflexivity. Qed.
Lemma quick_summary : summary quick_times quick_ops [1; 3; 44; 45]%nat = Some (true, true,
  [Some (0, VInit 7, OStart 7 (eblock 11 x0a 1)); Some (0, VInit 8, OTau);
   Some (297, VEmit 7 true, OReturn 7 (eblock 11 x0a 1) (VR (Some e2e_sig) (Time 1600000000 1) None) true);
   Some (300, VPoll 8, OReturn 8 (eblock 11 x0a 1) (VR (Some e2e_sig) (Time 1600000000 1) None) false)]).
Proof. vm_compute. reflexivity. Qed.
Lemma lss10_sound : cache_sound lss10.
Proof.
  intros k c H. assert (E : map_to_list (ss_cache lss10) = [(HRS 10 0 0, SSC (HRS 10 0 0) None None)]) by (vm_compute; reflexivity).
  apply elem_of_map_to_list in H. rewrite E in H. apply elem_of_list_singleton in H. injection H as -> ->.
  split; [done|right; done].
Qed.

Lemma slow_repeat :
  exists l st t1 t2 b sig tau1 taus tau2 tau op1,
    vrun toy vcfg v0 (untimed l) st /\ timed l /\ t1 <> t2 /\
    no_event (b_hrs b) (untimed l) /\ near (h_height (b_hrs b)) (untimed l) /\
    (tau1, VInit t1, OStart t1 b) ∈ l /\ (taus, op1, OReturn t1 b (VR (Some sig) (b_ts b) None) true) ∈ l /\
    taus <= tau1 + 2500 /\
    (tau2, VInit t2, OTau) ∈ l /\
    (tau, VPoll t2, OReturn t2 b (VR None (b_ts b) (Some EvWaitTimeout)) false) ∈ l.
Proof.
  destruct (summary_ok _ _ _ _ slow_summary) as (Hr & Ht & Hn & Hl).
  set (l := clock slow_times (v_log v0 slow_ops)) in *. clearbody l.
  destruct (Hn (HRS 11 0 3)) as [Hnear Hev]. cbn [map] in Hl. injection Hl as L1 L3 L103 L114.
  exists l, (v_after v0 slow_ops), 7%nat, 8%nat, (eblock 11 x0a 1), e2e_sig, 0, 2020, 0, 990, (VEmit 7 true).
  split; [exact Hr|]. split; [exact Ht|]. split; [discriminate|]. split; [exact Hev|]. split; [exact Hnear|].
  split; [exact (elem_of_list_lookup_2 _ _ _ L1)|]. split; [exact (elem_of_list_lookup_2 _ _ _ L114)|].
  split; [lia|]. split; [exact (elem_of_list_lookup_2 _ _ _ L3)|exact (elem_of_list_lookup_2 _ _ _ L103)].
Qed.
Lemma quick_repeat :
  exists l st t1 t2 b sig tau1 taus tau2 tau op1,
    cache_sound lss10 /\ vrun toy vcfg (new_validator lss10) (untimed l) st /\ timed l /\ t1 <> t2 /\
    no_event (b_hrs b) (untimed l) /\ near (h_height (b_hrs b)) (untimed l) /\
    0 <= h_height (b_hrs b) /\ h_height (b_hrs b) + 3 < 2 ^ 63 /\
    (tau1, VInit t1, OStart t1 b) ∈ l /\ (taus, op1, OReturn t1 b (VR (Some sig) (b_ts b) None) true) ∈ l /\
    (tau2, VInit t2, OTau) ∈ l /\ (tau, VPoll t2, OReturn t2 b (VR (Some sig) (b_ts b) None) false) ∈ l /\
    same_request b b /\ taus < tau2 + 990.
Proof.
  destruct (summary_ok _ _ _ _ quick_summary) as (Hr & Ht & Hn & Hl).
  set (l := clock quick_times (v_log v0 quick_ops)) in *. clearbody l.
  destruct (Hn (HRS 11 0 3)) as [Hnear Hev]. cbn [map] in Hl. injection Hl as L1 L3 L44 L45.
  exists l, (v_after v0 quick_ops), 7%nat, 8%nat, (eblock 11 x0a 1), e2e_sig, 0, 297, 0, 300, (VEmit 7 true).
  split; [exact lss10_sound|].
  split; [exact Hr|]. split; [exact Ht|]. split; [discriminate|]. split; [exact Hev|]. split; [exact Hnear|].
  split; [vm_compute; discriminate|]. split; [vm_compute; reflexivity|].
  split; [exact (elem_of_list_lookup_2 _ _ _ L1)|]. split; [exact (elem_of_list_lookup_2 _ _ _ L44)|].
  split; [exact (elem_of_list_lookup_2 _ _ _ L3)|]. split; [exact (elem_of_list_lookup_2 _ _ _ L45)|].
  split; [split; [reflexivity|left; reflexivity]|lia].
Qed.
