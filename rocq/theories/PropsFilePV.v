(** C57: the single signer (cmd/horcrux/cmd/signer.go) *)
From Verif Require Import GoBase Canonical Spec Privval FilePV FilePVSpec FilePVProofs FilePVAnswers.
Local Open Scope Z_scope.

(** C57 within one life of the process: whatever the nodes send, and whichever writes of the state
    file fail, no two votes (and no two proposals) for one height, round and step are handed out that
    differ in anything that is signed, and every signature handed out is one of the message it comes
    with. What is missing is the restart. *)
Theorem C57_one_life_partial : forall key chain f m es,
  Z.of_nat (length chain) < 2 ^ 62 -> Forall from_wire es -> Forall not_start es ->
  let os := snd (pv_run key chain false (World f m) (Start :: es)) in
  no_double_sign os /\ Forall (signed_by key chain) os.
Proof. exact one_life_wire. Qed.
Print Assumptions C57_one_life_partial.

(** C57 is false across a restart: signer.go:78 starts with an empty state whatever the state file
    holds, and two votes for different blocks in one round are signed *)
Theorem C57_restart_refuted : exists key chain es,
  Forall from_wire es /\
  let os := snd (pv_run key chain false (World None None) es) in
  ~ no_double_sign os /\
  (exists v w, SawVote v ∈ os /\ SawVote w ∈ os /\
     v_type (pv_vote v) = v_type (pv_vote w) /\
     v_height (pv_vote v) = v_height (pv_vote w) /\ v_round (pv_vote v) = v_round (pv_vote w) /\
     v_bid (pv_vote v) <> v_bid (pv_vote w)) /\ Forall (signed_by key chain) os.
Proof. exact (ex_intro _ w_key (ex_intro _ w_chain (ex_intro _ w_hist restart_double_sign))). Qed.
Print Assumptions C57_restart_refuted.

(** signatures are right in every history *)
Theorem C57_signatures : forall key chain f es,
  Z.of_nat (length chain) < 2 ^ 62 -> Forall from_wire es ->
  Forall (signed_by key chain) (snd (pv_run key chain false (World f None) es)).
Proof. exact always_signed_wire. Qed.
Print Assumptions C57_signatures.

(** the cause: with LoadFilePV, in the comment of signer.go:76, the property holds for every history,
    crashes and failing writes included *)
Theorem C57_reload_partial : forall key chain es,
  Z.of_nat (length chain) < 2 ^ 62 -> Forall from_wire es ->
  let os := snd (pv_run key chain true (World (Some lss_zero) None) es) in
  no_double_sign os /\ Forall (signed_by key chain) os.
Proof. exact reload_wire. Qed.
Print Assumptions C57_reload_partial.

(** the answer keeps everything of the request but timestamp and signature *)
Theorem C57_vote_answer : forall key chain reload w v wr a,
  snd (pv_step key chain reload w (AskVote (Some v) wr)) = SawVote a -> keeps_vote v a.
Proof. exact vote_answer. Qed.
Print Assumptions C57_vote_answer.
Theorem C57_proposal_answer : forall key chain reload w p wr a,
  snd (pv_step key chain reload w (AskProp (Some p) wr)) = SawProp a -> keeps_prop p a.
Proof. exact prop_answer. Qed.
Print Assumptions C57_proposal_answer.

(** above the last height, round and step a vote is signed as it is, and the state on disk and in
    memory becomes that of the vote *)
Theorem C57_vote_fresh : forall key chain reload f l v s sb sig,
  step_of_type (v_type (pv_vote v)) s ->
  above (HRS (v_height (pv_vote v)) (v_round (pv_vote v)) s) (ls_hrs l) ->
  vote_sign_bytes chain (pv_vote v) = Val sb -> key sb = Some sig ->
  let l' := LSS (HRS (v_height (pv_vote v)) (v_round (pv_vote v)) s) (Some sig) (Some sb) in
  pv_step key chain reload (World f (Some l)) (AskVote (Some v) Written) =
  (World (Some l') (Some l'), SawVote (PVote (pv_vote v) (pv_addr v) (pv_index v) sig)).
Proof. exact vote_fresh. Qed.
Print Assumptions C57_vote_fresh.
Theorem C57_proposal_fresh : forall key chain reload f l p sb sig,
  above (HRS (p_height (pp_prop p)) (p_round (pp_prop p)) 1) (ls_hrs l) ->
  proposal_sign_bytes chain (pp_prop p) = Val sb -> key sb = Some sig ->
  let l' := LSS (HRS (p_height (pp_prop p)) (p_round (pp_prop p)) 1) (Some sig) (Some sb) in
  pv_step key chain reload (World f (Some l)) (AskProp (Some p) Written) =
  (World (Some l') (Some l'), SawProp (PProp (pp_type p) (pp_prop p) sig)).
Proof. exact prop_fresh. Qed.
Print Assumptions C57_proposal_fresh.

(** asked again at the height, round and type of the vote signed last: the same block gets the vote
    signed last, its timestamp included; another block gets an error. Nothing changes and the process
    goes on *)
Theorem C57_vote_again : forall key chain reload f v0 s sb0 sig v sb wr,
  vote_in_range chain v0 -> vote_in_range chain (pv_vote v) -> step_of_type (v_type v0) s ->
  vote_sign_bytes chain v0 = Val sb0 -> vote_sign_bytes chain (pv_vote v) = Val sb ->
  v_type (pv_vote v) = v_type v0 -> v_height (pv_vote v) = v_height v0 -> v_round (pv_vote v) = v_round v0 ->
  let w := World f (Some (LSS (HRS (v_height v0) (v_round v0) s) (Some sig) (Some sb0))) in
  (v_bid (pv_vote v) = v_bid v0 ->
     pv_step key chain reload w (AskVote (Some v) wr) = (w, SawVote (PVote v0 (pv_addr v) (pv_index v) sig))) /\
  (v_bid (pv_vote v) <> v_bid v0 ->
     pv_step key chain reload w (AskVote (Some v) wr) = (w, SawError PvConflict)).
Proof. exact vote_again. Qed.
Print Assumptions C57_vote_again.
Theorem C57_proposal_again : forall key chain reload f p0 sb0 sig p sb wr,
  proposal_in_range chain p0 -> proposal_in_range chain (pp_prop p) ->
  proposal_sign_bytes chain p0 = Val sb0 -> proposal_sign_bytes chain (pp_prop p) = Val sb ->
  p_height (pp_prop p) = p_height p0 -> p_round (pp_prop p) = p_round p0 ->
  let w := World f (Some (LSS (HRS (p_height p0) (p_round p0) 1) (Some sig) (Some sb0))) in
  (p_bid (pp_prop p) = p_bid p0 /\ p_pol (pp_prop p) = p_pol p0 ->
     pv_step key chain reload w (AskProp (Some p) wr) = (w, SawProp (PProp (pp_type p) p0 sig))) /\
  (p_bid (pp_prop p) <> p_bid p0 \/ p_pol (pp_prop p) <> p_pol p0 ->
     pv_step key chain reload w (AskProp (Some p) wr) = (w, SawError PvConflict)).
Proof. exact proposal_again. Qed.
Print Assumptions C57_proposal_again.

(** below the last height, round and step: an error, and nothing changes *)
Theorem C57_vote_below : forall key chain reload f l v s wr,
  step_of_type (v_type (pv_vote v)) s ->
  above (ls_hrs l) (HRS (v_height (pv_vote v)) (v_round (pv_vote v)) s) ->
  let w := World f (Some l) in
  exists e, pv_step key chain reload w (AskVote (Some v) wr) = (w, SawError e) /\
    (e = PvHeight \/ e = PvRound \/ e = PvStep).
Proof. exact vote_below. Qed.
Print Assumptions C57_vote_below.
Theorem C57_proposal_below : forall key chain reload f l p wr,
  above (ls_hrs l) (HRS (p_height (pp_prop p)) (p_round (pp_prop p)) 1) ->
  let w := World f (Some l) in
  exists e, pv_step key chain reload w (AskProp (Some p) wr) = (w, SawError e) /\
    (e = PvHeight \/ e = PvRound \/ e = PvStep).
Proof. exact proposal_below. Qed.
Print Assumptions C57_proposal_below.

(** the first request after a start is signed, whatever was signed before *)
Theorem C57_vote_first : forall key chain f m v s sb sig,
  step_of_type (v_type (pv_vote v)) s -> 0 <= v_height (pv_vote v) -> 0 <= v_round (pv_vote v) ->
  vote_sign_bytes chain (pv_vote v) = Val sb -> key sb = Some sig ->
  snd (pv_run key chain false (World f m) [Start; AskVote (Some v) Written]) =
  [SawNothing; SawVote (PVote (pv_vote v) (pv_addr v) (pv_index v) sig)].
Proof. exact vote_first. Qed.
Print Assumptions C57_vote_first.
Theorem C57_proposal_first : forall key chain f m p sb sig,
  0 <= p_height (pp_prop p) -> 0 <= p_round (pp_prop p) ->
  proposal_sign_bytes chain (pp_prop p) = Val sb -> key sb = Some sig ->
  snd (pv_run key chain false (World f m) [Start; AskProp (Some p) Written]) =
  [SawNothing; SawProp (PProp (pp_type p) (pp_prop p) sig)].
Proof. exact proposal_first. Qed.
Print Assumptions C57_proposal_first.

(** the hypotheses of [C57_vote_again], with the same block and with another *)
Example C57_example_again : exists sb0 sb1 sb2,
  step_of_type (v_type (pv_vote (w_vote x41))) 2 /\
  vote_sign_bytes w_chain (pv_vote (w_vote x41)) = Val sb0 /\
  vote_sign_bytes w_chain (pv_vote w_later) = Val sb1 /\ v_bid (pv_vote w_later) = v_bid (pv_vote (w_vote x41)) /\
  v_ts (pv_vote w_later) <> v_ts (pv_vote (w_vote x41)) /\
  vote_sign_bytes w_chain (pv_vote (w_vote x42)) = Val sb2 /\ v_bid (pv_vote (w_vote x42)) <> v_bid (pv_vote (w_vote x41)).
Proof.
  eexists _, _, _. split; [left; done|]. split; [vm_compute; reflexivity|]. split; [vm_compute; reflexivity|].
  split; [done|]. split; [discriminate|]. split; [vm_compute; reflexivity|discriminate].
Qed.
