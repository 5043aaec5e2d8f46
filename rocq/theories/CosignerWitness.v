(** Concrete cosigners (toy cryptography), runs and witnesses. *)
From Coq Require Import Znumtheory.
From Verif Require Import GoBase Wire Canonical SignState Spec CanonicalApi Crypto LocalCosigner
  CosignerSpec Toy.

(** executes a list of operations *)
Fixpoint run_ops (C : Crypto) (cfg : cos_config) (st : cos_state) (ops : list cop)
  : option (cos_state * list (cop * cobs)) :=
  match ops with
  | [] => Some (st, [])
  | op :: ops' =>
      match cstep C cfg st op with
      | None => None
      | Some (st1, o) =>
          match run_ops C cfg st1 ops' with
          | None => None
          | Some (st2, l) => Some (st2, (op, o) :: l)
          end
      end
  end.

Lemma run_ops_crun C cfg st ops st' l : run_ops C cfg st ops = Some (st', l) -> crun C cfg st l st'.
Proof.
  revert st l. induction ops as [|op ops IH]; intros st l H; simpl in H.
  - injection H as <- <-. constructor.
  - destruct (cstep C cfg st op) as [[st1 o]|] eqn:E; [|discriminate].
    destruct (run_ops C cfg st1 ops) as [[st2 l2]|] eqn:E2; [|discriminate].
    injection H as <- <-. econstructor; eauto.
Qed.

(** cosigner 1 and cosigner 2 of a 2-of-3 cluster *)
Definition wpeers : gmap Z bytes := {[1 := [x01]; 2 := [x02]; 3 := [x03]]}.
Definition wcfg1 : cos_config := CosConfig 1 (toy_enc 5) (toy_enc 77) [x01] 3 2 wpeers.
Definition wcfg2 : cos_config := CosConfig 2 (toy_enc 9) (toy_enc 77) [x02] 3 2 wpeers.

Definition wbid (b : byte) : block_id := BID (hash32 b) (PSH 1 (hash32 xcc)).
Definition wvote (h : Z) (b : byte) (ns : Z) : vote := Vote 2 h 0 (wbid b) (Time 1600000000 ns).
Definition wsb (h : Z) (b : byte) (ns : Z) : bytes :=
  match vote_sign_bytes irishub (wvote h b ns) with Val x => x | _ => [] end.
Definition wkey (h ns : Z) : hrst := HRST (HRS h 0 3) (1600000000000000000 + ns).
Definition wrnd (b : byte) : get_rnd := GetRnd (Some (replicate 32 b, replicate 32 x07)) [] [].

Definition wst0 : cos_state := new_cosigner (loaded_state (HRS 10 0 0) None None None).

(** the part peer 2 issues for key [k] to cosigner 1 *)
Definition wpart (k : hrst) (b : byte) : part :=
  match get_part toy wcfg2 wst0 k 1 (wrnd b) with (_, Val p) => p | _ => Part 0 0 [] [] None end.

Definition wafter (ops : list cop) : cos_state :=
  match run_ops toy wcfg1 wst0 ops with Some (st, _) => st | None => wst0 end.
Definition wtrace (ops : list cop) : list (cop * cobs) :=
  match run_ops toy wcfg1 wst0 ops with Some (_, l) => l | None => [] end.

Lemma wrun ops : run_ops toy wcfg1 wst0 ops <> None ->
  crun toy wcfg1 wst0 (wtrace ops) (wafter ops).
Proof.
  intros H. unfold wtrace, wafter. destruct (run_ops toy wcfg1 wst0 ops) as [[st l]|] eqn:E; [|done].
  eapply run_ops_crun, E.
Qed.

(** an ordinary run: two heights, the second one also re-signed with another timestamp *)
Definition honest_ops : list cop :=
  [OpGet (wkey 11 1) 2 (wrnd x21); OpSet (wkey 11 1) (wpart (wkey 11 1) x31) None;
   OpSign (wsb 11 x0a 1);
   OpGet (wkey 12 1) 2 (wrnd x22); OpSet (wkey 12 1) (wpart (wkey 12 1) x32) None;
   OpSign (wsb 12 x0b 1);
   OpGet (wkey 12 2) 2 (wrnd x23); OpSet (wkey 12 2) (wpart (wkey 12 2) x33) None;
   OpSign (wsb 12 x0b 2);
   OpSign (wsb 12 x0c 3)].

Definition is_share (o : cobs) : bool := match o with ObsShare _ _ => true | _ => false end.
Definition is_diff (o : cobs) : bool := match o with ObsErr (EDiffer _) => true | _ => false end.

Lemma honest_run :
  crun toy wcfg1 wst0 (wtrace honest_ops) (wafter honest_ops) /\
  map (fun x => is_share (snd x)) (wtrace honest_ops)
    = [false; false; true; false; false; true; false; false; true; false] /\
  (exists e, wtrace honest_ops !! 9%nat = Some (OpSign (wsb 12 x0c 3), ObsErr (EDiffer e))).
Proof.
  split; [apply wrun; vm_compute; discriminate|].
  split; [vm_compute; reflexivity|]. eexists. vm_compute. reflexivity.
Qed.

Lemma wsb_canonical h b ns :
  0 <= h < 2 ^ 40 -> 0 <= ns < 10 ^ 9 -> wsb h b ns <> [] ->
  canonical_bytes (wsb h b ns) /\ unpack_hrst (wsb h b ns) = Val (wkey h ns).
Proof.
  intros Hh Hns Hne. unfold wsb in *.
  destruct (vote_sign_bytes irishub (wvote h b ns)) as [x|e|] eqn:E; [|done|done].
  assert (Hr : vote_in_range irishub (wvote h b ns)).
  { unfold vote_in_range, in_int32, in_int64. simpl. lia. }
  assert (Hst : step_of_type (v_type (wvote h b ns)) 3) by (right; done).
  assert (Hn : in_int64 (nanos_of (v_ts (wvote h b ns)))).
  { unfold in_int64, nanos_of. simpl. lia. }
  assert (Hu : unpack_hrst x = Val (wkey h ns)).
  { pose proof (unpack_vote_api irishub (wvote h b ns) x 3 [] Hr Hst E Hn) as U.
    rewrite app_nil_r in U. rewrite U; [|intros (_ & U' & _); discriminate]. reflexivity. }
  split; [|done]. eapply CBVote; eauto.
Qed.

(** C07: re-signing with another timestamp makes a retry return a mixed pair *)
Definition mixed_ops : list cop :=
  [OpGet (wkey 11 2) 2 (wrnd x22); OpSign (wsb 11 x0a 2)].
Lemma mixed_retry : exists st sb st1 r1 l st2 r2,
  sign toy wcfg1 st sb = (st1, Val r1) /\ ss_sb (cs_lss st1) = Some sb /\
  crun toy wcfg1 st1 l st2 /\ ss_sb (cs_lss st2) = Some sb /\
  ss_hrs (cs_lss st2) = ss_hrs (cs_lss st1) /\
  sign toy wcfg1 st2 sb = (st2, Val r2) /\
  sr_sig r2 = sr_sig r1 /\ sr_eph r2 <> sr_eph r1.
Proof.
  set (st := wafter [OpGet (wkey 11 1) 2 (wrnd x21)]).
  set (s1 := sign toy wcfg1 st (wsb 11 x0a 1)).
  set (st1 := fst s1).
  destruct (run_ops toy wcfg1 st1 mixed_ops) as [[st2 l]|] eqn:E;
    [|vm_compute in E; discriminate].
  exists st, (wsb 11 x0a 1), st1.
  destruct (snd s1) as [r1|e|] eqn:E1; [|vm_compute in E1; discriminate..].
  exists r1, l, st2.
  assert (Hst2 : st2 = match run_ops toy wcfg1 st1 mixed_ops with Some (s, _) => s | None => st1 end)
    by (rewrite E; done).
  assert (Hr1 : r1 = match snd s1 with Val r => r | _ => SignResp None None false end)
    by (rewrite E1; done).
  exists (match snd (sign toy wcfg1 st2 (wsb 11 x0a 1)) with Val r => r | _ => SignResp None None false end).
  split. { rewrite <- E1. unfold st1, s1. destruct (sign toy wcfg1 st (wsb 11 x0a 1)); done. }
  split. { vm_compute. reflexivity. }
  split. { eapply run_ops_crun; eauto. }
  split. { rewrite Hst2. vm_compute. reflexivity. }
  split. { rewrite Hst2. vm_compute. reflexivity. }
  split. { rewrite Hst2. vm_compute. reflexivity. }
  split. { rewrite Hst2, Hr1. vm_compute. reflexivity. }
  rewrite Hst2, Hr1. vm_compute. discriminate.
Qed.

(** C08: two different canonical byte strings, keys differing in the timestamp, same nonce *)
Definition alias_ops : list cop :=
  [OpGet (zero_key (wkey 11 1)) 2 (wrnd x21);
   OpSet (wkey 11 1) (wpart (wkey 11 1) x31) None; OpSign (wsb 11 x0a 1);
   OpSet (wkey 11 2) (wpart (wkey 11 1) x31) None; OpSign (wsb 11 x0a 2)].

Lemma alias_nonce : exists l st a b ra rb,
  crun toy wcfg1 wst0 l st /\ (OpSign a, ObsShare a ra) ∈ l /\ (OpSign b, ObsShare b rb) ∈ l /\
  a <> b /\ canonical_bytes a /\ canonical_bytes b /\
  sr_fresh ra = true /\ sr_fresh rb = true /\
  sr_eph ra = sr_eph rb /\ sr_sig ra <> sr_sig rb /\
  (exists p own, (OpGet (zero_key (wkey 11 1)) 2 (wrnd x21), ObsPart p) ∈ l /\
     slots (wafter alias_ops) (wkey 11 2) !! 0%nat = Some own /\ pm_share own <> [] /\
     pm_eph own = pt_eph p).
Proof.
  exists (wtrace alias_ops), (wafter alias_ops), (wsb 11 x0a 1), (wsb 11 x0a 2).
  exists (match wtrace alias_ops !! 2%nat with Some (_, ObsShare _ r) => r | _ => SignResp None None false end).
  exists (match wtrace alias_ops !! 4%nat with Some (_, ObsShare _ r) => r | _ => SignResp None None false end).
  split. { apply wrun. vm_compute. discriminate. }
  split. { apply elem_of_list_lookup. exists 2%nat. vm_compute. reflexivity. }
  split. { apply elem_of_list_lookup. exists 4%nat. vm_compute. reflexivity. }
  split. { vm_compute. discriminate. }
  split. { apply wsb_canonical; [lia|lia|vm_compute; discriminate]. }
  split. { apply wsb_canonical; [lia|lia|vm_compute; discriminate]. }
  split. { vm_compute. reflexivity. }
  split. { vm_compute. reflexivity. }
  split. { vm_compute. reflexivity. }
  split. { vm_compute. discriminate. }
  exists (match wtrace alias_ops !! 0%nat with Some (_, ObsPart p) => p | _ => wpart (wkey 11 1) x31 end).
  exists (default empty_peer_meta (slots (wafter alias_ops) (wkey 11 2) !! 0%nat)).
  split. { apply elem_of_list_lookup. exists 0%nat. vm_compute. reflexivity. }
  split. { vm_compute. reflexivity. }
  split. { vm_compute. discriminate. }
  vm_compute. reflexivity.
Qed.

(** C08/C09: appended bytes, run from scratch *)
Definition append_ops : list cop :=
  [OpGet (wkey 11 1) 2 (wrnd x21); OpSign (wsb 11 x0a 1); OpSign (wsb 11 x0a 1 ++ [x00])].

Lemma toy_prime : prime toy_q.
Proof.
  apply prime_intro; [unfold toy_q; lia|]. intros n Hn. unfold toy_q in *.
  apply Zgcd_1_rel_prime.
  assert (H : forallb (fun i => Z.gcd (Z.of_nat i) 251 =? 1) (seq 1 250) = true)
    by (vm_compute; reflexivity).
  rewrite forallb_forall in H. specialize (H (Z.to_nat n)). rewrite Z2Nat.id in H by lia.
  apply Z.eqb_eq, H. apply in_seq. lia.
Qed.

Lemma toy_dec_enc z : toy_dec (toy_enc z) = z mod toy_q.
Proof.
  unfold toy_dec, toy_enc. rewrite bz_zb. apply Z.mod_small.
  pose proof (Z.mod_pos_bound z toy_q). unfold toy_q in *. lia.
Qed.

Lemma toy_share_equation : share_equation toy toy_q toy_dec toy_ch.
Proof.
  intros m x k A R s [= <-]. rewrite toy_dec_enc. apply Z.mod_mod. unfold toy_q. lia.
Qed.

Lemma append_extracts : exists l st s1 s2 r1 r2 R,
  crun toy wcfg1 wst0 l st /\
  (OpSign (wsb 11 x0a 1), ObsShare (wsb 11 x0a 1) r1) ∈ l /\
  (OpSign (wsb 11 x0a 1 ++ [x00]), ObsShare (wsb 11 x0a 1 ++ [x00]) r2) ∈ l /\
  sr_sig r1 = Some s1 /\ sr_sig r2 = Some s2 /\ sr_eph r1 = Some R /\ sr_eph r2 = Some R /\
  extract toy_q (toy_dec s1) (toy_dec s2) (toy_ch R (cc_pub wcfg1) (wsb 11 x0a 1))
    (toy_ch R (cc_pub wcfg1) (wsb 11 x0a 1 ++ [x00])) = toy_dec (cc_share wcfg1).
Proof.
  exists (wtrace append_ops), (wafter append_ops).
  set (r1 := match wtrace append_ops !! 1%nat with Some (_, ObsShare _ r) => r | _ => SignResp None None false end).
  set (r2 := match wtrace append_ops !! 2%nat with Some (_, ObsShare _ r) => r | _ => SignResp None None false end).
  exists (default [] (sr_sig r1)), (default [] (sr_sig r2)), r1, r2, (default [] (sr_eph r1)).
  split. { apply wrun. vm_compute. discriminate. }
  split. { apply elem_of_list_lookup. exists 1%nat. vm_compute. reflexivity. }
  split. { apply elem_of_list_lookup. exists 2%nat. vm_compute. reflexivity. }
  split. { vm_compute. reflexivity. }
  split. { vm_compute. reflexivity. }
  split. { vm_compute. reflexivity. }
  split. { vm_compute. reflexivity. }
  vm_compute. reflexivity.
Qed.

(** C10: a part issued for one key is accepted for another *)
Lemma toy_replay : exists st p stB,
  get_part toy wcfg2 wst0 (wkey 11 1) 1 (wrnd x31) = (st, Val p) /\
  set_part toy wcfg1 wst0 (wkey 99 7) p (Some (replicate 32 x11, replicate 32 x07)) = (stB, Val tt) /\
  slots stB (wkey 99 7) <> [].
Proof.
  exists (fst (get_part toy wcfg2 wst0 (wkey 11 1) 1 (wrnd x31))), (wpart (wkey 11 1) x31).
  exists (fst (set_part toy wcfg1 wst0 (wkey 99 7) (wpart (wkey 11 1) x31)
     (Some (replicate 32 x11, replicate 32 x07)))).
  split. { vm_compute. reflexivity. }
  split. { vm_compute. reflexivity. }
  vm_compute. discriminate.
Qed.

(** C12: with a signature in between, one GetEphemeralSecretParts call deals two secrets *)
Definition interleaved_ops : list cop :=
  [OpGet (wkey 12 1) 2 (wrnd x22); OpGet (wkey 11 1) 2 (wrnd x21); OpSign (wsb 12 x0a 1);
   OpGet (wkey 11 1) 3 (wrnd x29)].
Lemma interleaved_parts : exists l st p q,
  crun toy wcfg1 wst0 l st /\
  (OpGet (wkey 11 1) 2 (wrnd x21), ObsPart p) ∈ l /\
  (OpGet (wkey 11 1) 3 (wrnd x29), ObsPart q) ∈ l /\ pt_eph p <> pt_eph q.
Proof.
  exists (wtrace interleaved_ops), (wafter interleaved_ops).
  set (f := fun n => match wtrace interleaved_ops !! n with Some (_, ObsPart p) => p | _ => Part 0 0 [] [] None end).
  exists (f 1%nat), (f 3%nat).
  split. { apply wrun. vm_compute. discriminate. }
  split. { apply elem_of_list_lookup. exists 1%nat. vm_compute. reflexivity. }
  split. { apply elem_of_list_lookup. exists 3%nat. vm_compute. reflexivity. }
  vm_compute. discriminate.
Qed.

(** C14: parts below the signed level are still provided *)
Lemma parts_below_level : exists l st p,
  crun toy wcfg1 wst0 (l ++ [(OpGet (wkey 11 1) 3 (wrnd x29), ObsPart p)]) st /\
  released l (wsb 12 x0a 1) /\ bytes_for (wsb 12 x0a 1) (HRS 12 0 3) /\
  hrs_lt (ht_hrs (wkey 11 1)) (HRS 12 0 3).
Proof.
  exists (take 3 (wtrace interleaved_ops)), (wafter interleaved_ops).
  exists (match wtrace interleaved_ops !! 3%nat with Some (_, ObsPart p) => p | _ => Part 0 0 [] [] None end).
  split.
  { match goal with |- crun _ _ _ ?l _ => replace l with (wtrace interleaved_ops) by (vm_compute; reflexivity) end.
    apply wrun. vm_compute. discriminate. }
  split.
  { exists (OpSign (wsb 12 x0a 1)).
    exists (match wtrace interleaved_ops !! 2%nat with Some (_, ObsShare _ r) => r | _ => SignResp None None false end).
    apply elem_of_list_lookup. exists 2%nat. vm_compute. reflexivity. }
  split. { exists (1600000000000000001). vm_compute. reflexivity. }
  left. simpl. lia.
Qed.

(** C16: storing a part for one timestamp changes the nonce of another *)
Lemma alias_slots : exists st k1 k2 p st',
  (exists l, crun toy wcfg1 wst0 l st) /\ k1 <> k2 /\
  cstep toy wcfg1 st (OpSet k1 p None) = Some (st', ObsSetOk) /\
  map pm_share (used_parts (slots st k2)) <> [] /\
  cr_add_scalars toy (map pm_share (used_parts (slots st' k2))) <>
  cr_add_scalars toy (map pm_share (used_parts (slots st k2))).
Proof.
  set (ops := [OpSet (wkey 11 1) (wpart (wkey 11 1) x31) (Some (replicate 32 x11, replicate 32 x07))]).
  exists (wafter ops), (wkey 11 2), (wkey 11 1), (wpart (wkey 11 2) x44).
  exists (fst (set_part toy wcfg1 (wafter ops) (wkey 11 2) (wpart (wkey 11 2) x44) None)).
  split. { exists (wtrace ops). apply wrun. vm_compute. discriminate. }
  split. { vm_compute. discriminate. }
  split. { vm_compute. reflexivity. }
  split. { vm_compute. discriminate. }
  vm_compute. discriminate.
Qed.

(** C09: canonical requests only. After height 11 was signed at one timestamp, peer 2 has the same
    vote signed at another one, replaces its own part and has it signed again. *)
Definition replace_ops : list cop :=
  [OpGet (wkey 11 1) 2 (wrnd x21); OpSet (wkey 11 1) (wpart (wkey 11 1) x31) None; OpSign (wsb 11 x0a 1);
   OpGet (wkey 11 2) 2 (wrnd x22); OpSet (wkey 11 2) (wpart (wkey 11 2) x32) None; OpSign (wsb 11 x0a 2);
   OpSet (wkey 11 2) (wpart (wkey 11 2) x33) None; OpSign (wsb 11 x0a 2)].
(** the nonce share in a part for cosigner 1 *)
Definition wplain (p : part) : Z := toy_dec (default [] (cr_decrypt toy (cc_rsa wcfg1) (pt_enc p))).
Lemma replace_extracts : exists l st p1 p2 s1 s2 r1 r2 R1 R2,
  crun toy wcfg1 wst0 l st /\
  (forall op o, (op, o) ∈ l -> match op with OpSign sb => canonical_bytes sb | _ => True end) /\
  l !! 4%nat = Some (OpSet (wkey 11 2) p1 None, ObsSetOk) /\ pt_source p1 = 2 /\
  l !! 5%nat = Some (OpSign (wsb 11 x0a 2), ObsShare (wsb 11 x0a 2) r1) /\
  l !! 6%nat = Some (OpSet (wkey 11 2) p2 None, ObsSetOk) /\ pt_source p2 = 2 /\
  l !! 7%nat = Some (OpSign (wsb 11 x0a 2), ObsShare (wsb 11 x0a 2) r2) /\
  sr_sig r1 = Some s1 /\ sr_sig r2 = Some s2 /\ sr_eph r1 = Some R1 /\ sr_eph r2 = Some R2 /\
  extract toy_q (toy_dec s1 - wplain p1) (toy_dec s2 - wplain p2)
    (toy_ch R1 (cc_pub wcfg1) (wsb 11 x0a 2)) (toy_ch R2 (cc_pub wcfg1) (wsb 11 x0a 2)) = toy_dec (cc_share wcfg1).
Proof.
  exists (wtrace replace_ops), (wafter replace_ops), (wpart (wkey 11 2) x32), (wpart (wkey 11 2) x33).
  set (r1 := match wtrace replace_ops !! 5%nat with Some (_, ObsShare _ r) => r | _ => SignResp None None false end).
  set (r2 := match wtrace replace_ops !! 7%nat with Some (_, ObsShare _ r) => r | _ => SignResp None None false end).
  exists (default [] (sr_sig r1)), (default [] (sr_sig r2)), r1, r2, (default [] (sr_eph r1)), (default [] (sr_eph r2)).
  split. { apply wrun. vm_compute. discriminate. }
  split. { intros op o Hin. assert (In op (map fst (wtrace replace_ops))) as Hm.
    { apply elem_of_list_In in Hin. apply (in_map fst) in Hin. exact Hin. }
    assert (Hops : map fst (wtrace replace_ops) = replace_ops) by (vm_compute; reflexivity).
    rewrite Hops in Hm. clear -Hm. unfold replace_ops in Hm.
    assert (N1 : wsb 11 x0a 1 <> []) by (vm_compute; discriminate).
    assert (N2 : wsb 11 x0a 2 <> []) by (vm_compute; discriminate).
    destruct (wsb_canonical 11 x0a 1 ltac:(lia) ltac:(lia) N1) as [C1 _].
    destruct (wsb_canonical 11 x0a 2 ltac:(lia) ltac:(lia) N2) as [C2 _].
    repeat (destruct Hm as [<-|Hm]; [assumption || exact I|]). destruct Hm. }
  split. { vm_compute. reflexivity. }
  split. { vm_compute. reflexivity. }
  split. { vm_compute. reflexivity. }
  split. { vm_compute. reflexivity. }
  split. { vm_compute. reflexivity. }
  split. { vm_compute. reflexivity. }
  split. { vm_compute. reflexivity. }
  split. { vm_compute. reflexivity. }
  split. { vm_compute. reflexivity. }
  split. { vm_compute. reflexivity. }
  vm_compute. reflexivity.
Qed.
