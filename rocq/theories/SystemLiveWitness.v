(** A cluster and requests that meet the hypotheses of C73. *)
From Verif Require Import GoBase Canonical SignState Spec Crypto LocalCosigner Poly Scheme RoundSpec Validator
  Config ConfigSpec KeyShares KeySharesSpec Toy ToyScheme CanonicalApi CosignerWitness ValidatorWitness ConfigWitness ThresholdWitness
  Disk RaftSpec System SystemSpec SystemLiveSpec.
Local Open Scope Z_scope.

Definition kw : sysconf := SysConf (fun i => ru_val (ThresholdWitness.wrun i)) (fun i => ru_cos (ThresholdWitness.wrun i)).
Definition host0 : host :=
  Host (new_validator zero_state) None [] (CNode (new_cosigner zero_state) None []) 0.
Definition sysw : system := System (<[1 := host0]> (<[2 := host0]> {[3 := host0]})) [] [].
Lemma kw_deployed : deployed toy toy_reading (toy_enc 77) 2 3 kw.
Proof.
  exists wexpand, wcoef, wgens, wlib, wsecret, (wkeys 2 3), wconf, ThresholdWitness.wrun.
  split; [exact wrsa|]. split; [exact wkey_pair|]. split; [apply wkeys_ok|].
  intros i Hi. split; [by apply wruns|done].
Qed.
Lemma sysw_hosts i : is_Some (sy_hosts sysw !! i) <-> 1 <= i <= 3.
Proof.
  unfold sysw. simpl. destruct (decide (i = 1)) as [-> |]; [rewrite lookup_insert; split; [lia|eauto]|]. rewrite lookup_insert_ne by done.
  destruct (decide (i = 2)) as [-> |]; [rewrite lookup_insert; split; [lia|eauto]|]. rewrite lookup_insert_ne by done.
  destruct (decide (i = 3)) as [-> |]; [rewrite lookup_singleton; split; [lia|eauto]|]. rewrite lookup_singleton_ne by done.
  split; [by intros [? ?]|lia].
Qed.
Lemma sysw_host i m : sy_hosts sysw !! i = Some m -> m = host0.
Proof. unfold sysw. simpl. rewrite !lookup_insert_Some, lookup_singleton_Some. naive_solver. Qed.
Lemma sysw_below : all_below (HRS 0 0 0) sysw.
Proof.
  split; [intros e c He; by apply not_elem_of_nil in He|]. intros i m Hm. apply sysw_host in Hm as ->. simpl.
  split; [by right|]. split; [by right|]. split; [by right|]. intros k [x Hx]. rewrite lookup_empty in Hx. done.
Qed.

(** precommits at heights 20 and 21, led by different hosts with different quorums *)
Definition wjobs : list job :=
  [Job (eblock 20 xaa 7) 1 [2%nat] (fun _ => worder) [2%nat; 0%nat] [0%nat; 2%nat] (fun _ => [2%nat; 0%nat]);
   Job (eblock 21 xab 9) 2 [1%nat] (fun _ => worder) [0%nat; 1%nat] [0%nat; 1%nat] (fun _ => [0%nat; 1%nat])].
Lemma wjobs_ok : Forall (job_ok toy_reading 3 kw) wjobs.
Proof.
  assert (Hsg : forall h x n, (h = 20 /\ x = xaa /\ n = 7) \/ (h = 21 /\ x = xab /\ n = 9) -> signable irishub (eblock h x n)).
  { intros h x n Hc. apply SgVote with (v := wvote h x n); destruct Hc as [(-> & -> & ->)|(-> & -> & ->)];
      first [unfold vote_in_range; vm_compute; repeat split; try discriminate; lia
            |unfold in_int64; vm_compute; split; [discriminate|reflexivity]
            |intros (H & _); vm_compute in H; discriminate
            |vm_compute; reflexivity]. }
  assert (Hq : forall i w, (i = 1 /\ w = 2%nat) \/ (i = 2 /\ w = 1%nat) -> quorum (sc_val kw i) [w]).
  { intros i w Hc. split; [apply NoDup_singleton|]. split; [destruct Hc as [[_ ->]|[_ ->]]; set_solver|].
    split; [|destruct Hc as [[-> _]|[-> _]]; vm_compute; reflexivity].
    intros w' Hw. apply elem_of_list_singleton in Hw as ->. destruct Hc as [[-> ->]|[-> ->]]; eexists; vm_compute; reflexivity. }
  assert (Hp : forall a b : nat, Permutation [a; b] [b; a]) by (intros; apply perm_swap).
  apply List.Forall_cons; [|apply List.Forall_cons; [|apply List.Forall_nil]].
  - split; [exists irishub; apply Hsg; auto|]. split; [simpl; lia|]. split; [apply Hq; auto|].
    split; [intros; exact wasks|]. split; [reflexivity|]. split; [apply Hp|]. intros; reflexivity.
  - split; [exists irishub; apply Hsg; auto|]. split; [simpl; lia|]. split; [apply Hq; auto|].
    split; [intros; exact wasks|]. split; [apply Hp|]. split; [apply Hp|]. intros; apply Hp.
Qed.
Lemma wjobs_rising : rising (HRS 0 0 0) wjobs.
Proof. simpl. repeat split; left; vm_compute; reflexivity. Qed.
Lemma wjobs_participants : map (participants kw) wjobs = [[3; 1]; [1; 2]].
Proof. vm_compute. reflexivity. Qed.
