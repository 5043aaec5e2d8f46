(** C34: the cluster never equivocates. *)
From Verif Require Import GoBase Canonical SignState Spec Crypto LocalCosigner CosignerSpec
  Cluster ClusterProofs Toy CosignerWitness.

(** With more than (n + f)/2 shares required, where f cosigners may misbehave arbitrarily, no two
    conflicting messages for the same height/round/step can both collect enough shares. [f = 0]
    is C34 as stated (threshold above n/2). *)
Theorem C34_no_equivocation : forall C cl faulty t q1 q2 a b k,
  correct C cl faulty ->
  (2 * t > size cl + size faulty)%nat -> (t <= size q1)%nat -> (t <= size q2)%nat ->
  signed_by cl faulty q1 a -> signed_by cl faulty q2 b -> bytes_for a k -> bytes_for b k ->
  same_message_but_time a b.
Proof. exact cluster_safe. Qed.
Print Assumptions C34_no_equivocation.

(** ** Non-vacuity, and necessity of the bound *)

Definition ops_for (b : byte) : list cop := [OpGet (wkey 11 1) 2 (wrnd x21); OpSign (wsb 11 b 1)].
Definition node_for (cfg : cos_config) (b : byte) : node :=
  match run_ops toy cfg wst0 (ops_for b) with
  | Some (st, l) => Node cfg wst0 l st
  | None => Node cfg wst0 [] wst0
  end.
Definition wcfg3 : cos_config := CosConfig 3 (toy_enc 13) (toy_enc 77) [x03] 3 2 wpeers.

Lemma node_for_runs cfg b : runs_horcrux toy (node_for cfg b).
Proof.
  unfold runs_horcrux, node_for. destruct (run_ops toy cfg wst0 (ops_for b)) as [[st l]|] eqn:E; simpl.
  - eapply run_ops_crun, E.
  - constructor.
Qed.

Definition share_at1 (nd : node) : sign_resp :=
  match nd_log nd !! 1%nat with Some (_, ObsShare _ r) => r | _ => SignResp None None false end.

(** three correct cosigners, two of which signed [a]; the third signed a conflicting [b] *)
Definition split_cluster : cluster :=
  {[1 := node_for wcfg1 x0a; 2 := node_for wcfg2 x0a; 3 := node_for wcfg3 x0b]}.
Example ex_cluster :
  correct toy split_cluster ∅ /\ size split_cluster = 3%nat /\
  signed_by split_cluster ∅ {[1; 2]} (wsb 11 x0a 1) /\
  signed_by split_cluster ∅ {[3]} (wsb 11 x0b 1) /\
  bytes_for (wsb 11 x0a 1) (HRS 11 0 3) /\ bytes_for (wsb 11 x0b 1) (HRS 11 0 3) /\
  ~ same_message_but_time (wsb 11 x0a 1) (wsb 11 x0b 1).
Proof.
  split.
  { intros i nd H _. unfold split_cluster in H.
    apply lookup_insert_Some in H as [[_ <-]|[_ H]]; [apply node_for_runs|].
    apply lookup_insert_Some in H as [[_ <-]|[_ H]]; [apply node_for_runs|].
    apply lookup_singleton_Some in H as [_ <-]. apply node_for_runs. }
  split; [vm_compute; reflexivity|].
  split.
  { intros i Hi. assert (i = 1 \/ i = 2) as [-> | ->] by set_solver.
    - exists (node_for wcfg1 x0a). split; [reflexivity|]. intros _.
      exists (OpSign (wsb 11 x0a 1)), (share_at1 (node_for wcfg1 x0a)).
      apply elem_of_list_lookup. exists 1%nat. vm_compute. reflexivity.
    - exists (node_for wcfg2 x0a). split; [reflexivity|]. intros _.
      exists (OpSign (wsb 11 x0a 1)), (share_at1 (node_for wcfg2 x0a)).
      apply elem_of_list_lookup. exists 1%nat. vm_compute. reflexivity. }
  split.
  { intros i Hi. assert (i = 3) as -> by set_solver.
    exists (node_for wcfg3 x0b). split; [reflexivity|]. intros _.
    exists (OpSign (wsb 11 x0b 1)), (share_at1 (node_for wcfg3 x0b)).
    apply elem_of_list_lookup. exists 1%nat. vm_compute. reflexivity. }
  split; [exists 1600000000000000001; vm_compute; reflexivity|].
  split; [exists 1600000000000000001; vm_compute; reflexivity|].
  intros [(p & q & Hp & _)|(_ & _ & v & w & Hv & Hw & Hs)].
  - vm_compute in Hp. discriminate.
  - destruct Hs as (_ & _ & _ & Hs & _).
    assert (Hneq : option_map cv_bid (decode_vote (wsb 11 x0a 1)) <>
                   option_map cv_bid (decode_vote (wsb 11 x0b 1))) by (vm_compute; discriminate).
    apply Hneq. rewrite Hv, Hw. simpl. congruence.
Qed.

(** the bound cannot be weakened: with 2t = n + 1 and one faulty cosigner (or 2t = n and none) the
    same history gives both messages enough shares *)
Theorem C34_bound_is_tight : exists cl faulty t q1 q2 a b k,
  correct toy cl faulty /\ (2 * t = size cl + size faulty)%nat /\
  (t <= size q1)%nat /\ (t <= size q2)%nat /\
  signed_by cl faulty q1 a /\ signed_by cl faulty q2 b /\ bytes_for a k /\ bytes_for b k /\
  ~ same_message_but_time a b.
Proof.
  destruct ex_cluster as (Hc & Hsz & H1 & H2 & Hk1 & Hk2 & Hne).
  exists split_cluster, {[2]}, 2%nat, {[1; 2]}, {[2; 3]}, (wsb 11 x0a 1), (wsb 11 x0b 1), (HRS 11 0 3).
  split. { intros i nd H _. eapply Hc; [exact H|set_solver]. }
  split; [vm_compute; reflexivity|]. split; [vm_compute; lia|]. split; [vm_compute; lia|].
  split. { intros i Hi. destruct (H1 i Hi) as (nd & E & Hr). exists nd. split; [done|].
           intros _. apply Hr. set_solver. }
  split. { intros i Hi. assert (i = 2 \/ i = 3) as [-> | ->] by set_solver.
           - exists (node_for wcfg2 x0a). split; [reflexivity|]. intros Hf. destruct Hf. by apply elem_of_singleton.
           - destruct (H2 3) as (nd & E & Hr); [set_solver|]. exists nd. split; [done|].
             intros _. apply Hr, not_elem_of_empty. }
  done.
Qed.
Print Assumptions C34_bound_is_tight.
