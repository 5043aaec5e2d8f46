(** C15 and C61: what holds of the cosigner's metadata and of its own nonce. *)
From Verif Require Import GoBase Canonical SignState Spec Crypto LocalCosigner CosignerSpec NonceSpec NonceProofs
  Toy CosignerWitness.

(** C15, what holds: an entry is only there because of a request for its key, after which no new share
    above it was released *)
Theorem C15_only_requested_partial : forall C cfg lss l st k m,
  crun C cfg (new_cosigner lss) l st -> cs_meta st !! k = Some m ->
  exists l1 op o l2, l = l1 ++ (op, o) :: l2 /\ k ∈ keys_asked op /\ no_fresh_above (ht_hrs k) l2.
Proof. exact requested. Qed.
(** so there are at most as many entries as keys asked for *)
Theorem C15_size_partial : forall C cfg lss l st,
  crun C cfg (new_cosigner lss) l st ->
  (size (cs_meta st) <= size (list_to_set (flat_map (fun x => keys_asked (fst x)) l) : gset hrst))%nat.
Proof. exact requested_size. Qed.

(** C61, what holds: if the cosigner handed out a part for the key before it signs, and did not store a
    part claiming to be its own, its share's nonce is a sum in which its own part of that dealing
    occurs, dealt with randomness it drew itself *)
Theorem C61_own_part_partial : forall C cfg lss l st k id rnd p sb st' r,
  (forall s rd x, x ∈ cr_deal C s rd (cc_threshold cfg) (cc_total cfg) -> x <> []) ->
  crun C cfg (new_cosigner lss) l st -> no_own_parts cfg l ->
  (OpGet k id rnd, ObsPart p) ∈ l -> unpack_hrst sb = Val k ->
  sign C cfg st sb = (st', Val r) -> sr_fresh r = true ->
  exists secret rd own xs ys es R sig,
    drawn l secret rd /\ pt_eph p = cr_base C secret /\ 1 <= cc_id cfg /\
    cr_deal C secret rd (cc_threshold cfg) (cc_total cfg) !! Z.to_nat (cc_id cfg - 1) = Some own /\
    cr_add_scalars C (xs ++ own :: ys) = Some es /\
    cr_sign_share C sb (cc_share cfg) es (cc_pub cfg) R = Some sig /\
    r = SignResp (Some R) (Some sig) true.
Proof. exact own_part_used. Qed.

Print Assumptions C15_only_requested_partial.
Print Assumptions C15_size_partial.
Print Assumptions C61_own_part_partial.

(** the honest run of CosignerWitness.v up to the first share *)
Example ex_run : crun toy wcfg1 wst0 (wtrace (take 2 honest_ops)) (wafter (take 2 honest_ops)) /\
  size (cs_meta (wafter (take 2 honest_ops))) = 1%nat.
Proof. split; [apply wrun; vm_compute; discriminate|vm_compute; reflexivity]. Qed.
Example ex_own_part : exists p st' r,
  no_own_parts wcfg1 (wtrace (take 2 honest_ops)) /\
  (OpGet (wkey 11 1) 2 (wrnd x21), ObsPart p) ∈ wtrace (take 2 honest_ops) /\
  unpack_hrst (wsb 11 x0a 1) = Val (wkey 11 1) /\
  sign toy wcfg1 (wafter (take 2 honest_ops)) (wsb 11 x0a 1) = (st', Val r) /\ sr_fresh r = true.
Proof.
  set (p := match wtrace (take 2 honest_ops) !! 0%nat with Some (_, ObsPart p) => p | _ => Part 0 0 [] [] None end).
  set (s := sign toy wcfg1 (wafter (take 2 honest_ops)) (wsb 11 x0a 1)).
  exists p, s.1, (match s.2 with Val r => r | _ => SignResp None None false end).
  assert (Hl : wtrace (take 2 honest_ops) =
    [(OpGet (wkey 11 1) 2 (wrnd x21), ObsPart p);
     (OpSet (wkey 11 1) (wpart (wkey 11 1) x31) None, ObsSetOk)]) by (vm_compute; reflexivity).
  split. { intros k q rnd Hin. rewrite Hl in Hin. apply elem_of_cons in Hin as [Hin|Hin]; [discriminate|].
    apply elem_of_list_singleton in Hin. injection Hin as -> -> ->. vm_compute. discriminate. }
  split. { rewrite Hl. left. }
  split. { vm_compute. reflexivity. }
  split; vm_compute; reflexivity.
Qed.
Example ex_deal_not_empty : forall s rd x, x ∈ cr_deal toy s rd (cc_threshold wcfg1) (cc_total wcfg1) -> x <> [].
Proof.
  intros s rd x Hx. apply elem_of_list_In in Hx. simpl in Hx. destruct Hx as [<-|[<-|[<-|[]]]]; discriminate.
Qed.
