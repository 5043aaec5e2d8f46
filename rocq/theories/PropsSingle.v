(** C87: chain nodes of a single signer never read a double vote. *)
From Verif Require Import GoBase Wire Canonical Spec Validator Privval RemoteSigner PrivvalSpec ConnLoop FilePV FilePVSpec FilePVProofs
  SocketSpec Single SingleSpec SingleProofs SingleWitness.
Local Open Scope Z_scope.

(** in one life of the process, whatever the state file holds, with any number of chain nodes, any
    requests, any failing connections, any failing writes of the state file; lives before and after it
    too. Not across lives *)
Theorem C87_one_life_partial : forall key pub text chain f h S k,
  Z.of_nat (length chain) < 2 ^ 62 ->
  single_run key pub text chain false (not_started f) h S -> all_fit h ->
  (forall v, got_vote h k v -> vote_signed key chain v) /\
  (forall p, got_proposal h k p -> proposal_signed key chain p) /\
  (forall v w, got_vote h k v -> got_vote h k w -> one_vote v w) /\
  (forall p q, got_proposal h k p -> got_proposal h k q -> one_proposal p q).
Proof. exact one_life_read. Qed.
Print Assumptions C87_one_life_partial.

(** with a restart between the requests, chain nodes read evidence of a double vote *)
Theorem C87_restart_refuted : exists key pub text chain h S v w,
  Z.of_nat (length chain) < 2 ^ 62 /\ single_run key pub text chain false (not_started None) h S /\ all_fit h /\
  got_vote h 1 v /\ got_vote h 2 w /\ double_vote (pv_vote v) (pv_vote w).
Proof. exact restart_read. Qed.
Print Assumptions C87_restart_refuted.

(** with LoadFilePV, in the comment of signer.go:76, across all lives *)
Theorem C87_reload_partial : forall key pub text chain h S k k',
  Z.of_nat (length chain) < 2 ^ 62 ->
  single_run key pub text chain true (not_started (Some lss_zero)) h S -> all_fit h ->
  (forall v, got_vote h k v -> vote_signed key chain v) /\
  (forall p, got_proposal h k p -> proposal_signed key chain p) /\
  (forall v w, got_vote h k v -> got_vote h k' w -> one_vote v w) /\
  (forall p q, got_proposal h k p -> got_proposal h k' q -> one_proposal p q).
Proof. exact reload_read. Qed.
Print Assumptions C87_reload_partial.

(** a request above the last signed height, round and step is answered with the vote signed as it is;
    the state file holds it, the other signers have not moved, and the signer goes on with the
    connection *)
Theorem C87_vote_answered : forall key pub text chain reload S0 h S i st c l bs v ch s sb sig,
  single_run key pub text chain reload S0 h S ->
  si_loops S !! i = Some st -> l_pc st = PRead c -> wo_mem (si_world S) = Some l ->
  read_msg bs = Some (SignVoteRequest (Some v) ch, []) ->
  step_of_type (v_type (pv_vote v)) s ->
  above (HRS (v_height (pv_vote v)) (v_round (pv_vote v)) s) (ls_hrs l) ->
  vote_sign_bytes chain (pv_vote v) = Val sb -> key sb = Some sig ->
  let m := SignedVoteResponse (PVote (pv_vote v) (pv_addr v) (pv_index v) sig) None in
  let l' := LSS (HRS (v_height (pv_vote v)) (v_round (pv_vote v)) s) (Some sig) (Some sb) in
  Z.of_nat (length (m_message m)) <= max_msg_size ->
  exists h' S', single_run key pub text chain reload S0 (h ++ h') S' /\
    si_world S' = World (Some l') (Some l') /\ si_life S' = si_life S /\
    (forall j, j <> i -> si_loops S' !! j = si_loops S !! j) /\
    (exists st', si_loops S' !! i = Some st' /\ l_pc st' = PTop /\ l_conn st' = Some c) /\
    exists out, h' = tag (si_life S) i
        [OIn c bs (SignVoteRequest (Some v) ch); OAsk c (SignVoteRequest (Some v) ch) m; OOut c out] /\
      read_msg out = Some (m, []).
Proof. exact vote_answered. Qed.
Print Assumptions C87_vote_answered.
Theorem C87_proposal_answered : forall key pub text chain reload S0 h S i st c l bs p ch sb sig,
  single_run key pub text chain reload S0 h S ->
  si_loops S !! i = Some st -> l_pc st = PRead c -> wo_mem (si_world S) = Some l ->
  read_msg bs = Some (SignProposalRequest (Some p) ch, []) ->
  above (HRS (p_height (pp_prop p)) (p_round (pp_prop p)) 1) (ls_hrs l) ->
  proposal_sign_bytes chain (pp_prop p) = Val sb -> key sb = Some sig ->
  let m := SignedProposalResponse (PProp (pp_type p) (pp_prop p) sig) None in
  let l' := LSS (HRS (p_height (pp_prop p)) (p_round (pp_prop p)) 1) (Some sig) (Some sb) in
  Z.of_nat (length (m_message m)) <= max_msg_size ->
  exists h' S', single_run key pub text chain reload S0 (h ++ h') S' /\
    si_world S' = World (Some l') (Some l') /\ si_life S' = si_life S /\
    (forall j, j <> i -> si_loops S' !! j = si_loops S !! j) /\
    (exists st', si_loops S' !! i = Some st' /\ l_pc st' = PTop /\ l_conn st' = Some c) /\
    exists out, h' = tag (si_life S) i
        [OIn c bs (SignProposalRequest (Some p) ch); OAsk c (SignProposalRequest (Some p) ch) m; OOut c out] /\
      read_msg out = Some (m, []).
Proof. exact proposal_answered. Qed.
Print Assumptions C87_proposal_answered.

(** two chain nodes in one life: the second asks for another block and reads an error, then for the
    block of the first at a later time and reads the vote of the first *)
Example C87_example_two : forall reload, exists h S v w,
  single_run w_key PkNone w_text w_chain reload (not_started (Some lss_zero)) h S /\ all_fit h /\
  got_vote h 1 v /\ got_vote h 1 w /\ pv_vote v = pv_vote (w_vote x41) /\ pv_vote w = pv_vote (w_vote x41) /\
  pv_sig v = pv_sig w /\ pv_vote w_later <> pv_vote (w_vote x41) /\
  exists e, read_from h 1 1 0 (SignedVoteResponse empty_pvote (Some e)).
Proof. exact two_read. Qed.
(** the hypotheses of [C87_vote_answered] *)
Example C87_example_waiting : exists h S st,
  single_run w_key PkNone w_text w_chain false (not_started None) h S /\
  si_loops S !! 0%nat = Some st /\ l_pc st = PRead 0 /\ wo_mem (si_world S) = Some lss_zero /\
  read_msg (w_req (w_vote x41)) = Some (SignVoteRequest (Some (w_vote x41)) w_chain, []) /\
  above (HRS 7 0 2) (ls_hrs lss_zero) /\
  exists sb sig, vote_sign_bytes w_chain (pv_vote (w_vote x41)) = Val sb /\ w_key sb = Some sig.
Proof. exact waiting. Qed.
