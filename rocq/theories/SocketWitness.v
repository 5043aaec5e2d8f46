(** Votes read from sockets (toy cryptography, 2-of-3 cluster). *)
From Verif Require Import GoBase Wire WireProofs Canonical CanonicalProofs CanonicalApi SignState Spec Crypto LocalCosigner
  CosignerSpec Toy CosignerWitness Validator ValidatorSpec ValidatorWitness Privval RemoteSigner PrivvalSpec PrivvalProofs
  ConnLoop ConnLoopSpec Disk DiskSpec System SystemSpec SystemProofs SystemWitness FailoverSpec FailoverWitness
  SystemLossWitness SocketSpec SocketProofs.
Local Open Scope Z_scope.

(** a validator that has the signature [sig] of [b] only *)
Definition one_answer (b : block) (sig : bytes) (chain : bytes) (b' : block) : vresult :=
  if bool_decide (b' = b) then VR (Some sig) (b_ts b) None else VR None (b_ts b') (Some EvInvalid).
Definition one_signer (pub : bytes) (b : block) (sig : bytes) : signer := tv_signer pub (one_answer b sig) (fun _ => []).

(** every signature a host hands out for a vote can be read by a chain node *)
Lemma can_read C K faulty S0 h S i chain pub v b sig :
  srun C K faulty S0 h S -> handed_out h i b sig -> vote_block chain v = Val b -> sig <> [] ->
  pvote_ok (PVote v [] 0 []) -> fits_msg (SignVoteRequest (Some (PVote v [] 0 [])) chain) ->
  fits_msg (SignedVoteResponse (PVote v [] 0 sig) None) -> vote_read chain pub h i (PVote v [] 0 sig).
Proof.
  intros Hr Hh Hb Hsig Hok Hs1 Hs2. split; [|exact Hsig].
  set (req := SignVoteRequest (Some (PVote v [] 0 [])) chain) in *.
  set (res := SignedVoteResponse (PVote v [] 0 sig) None) in *.
  assert (Ets : b_ts b = v_ts v).
  { revert Hb. unfold vote_block. destruct (vote_type_to_step _); [|discriminate].
    destruct (vote_sign_bytes chain v); [|discriminate..]. by intros [= <-]. }
  assert (Hq : handle_request (one_signer pub b sig) chain req = Val res).
  { unfold req. cbn [handle_request]. unfold handle_vote, one_signer. cbn [tv_signer sg_vote tv_vote]. cbn [pv_vote].
    rewrite Hb. unfold one_answer. rewrite bool_decide_eq_true_2 by done. cbn.
    unfold res. rewrite Ets. by destruct v. }
  assert (Hrd : read_msg (delimited (m_message req)) = Some (req, [])).
  { rewrite <- (app_nil_r (delimited _)). apply read_write; [exact Hok|exact Hs1]. }
  assert (Hwr : write_msg res = Some (delimited (m_message res))).
  { unfold write_msg. assert (marshallable res = true) as ->; [|done]. destruct Hok as (_ & _ & _ & _ & H & _). exact H. }
  exists [LStep; LDial true; LSecret true; LStep; LRead (delimited (m_message req)); LHandle (one_signer pub b sig); LWrite].
  eexists _, [OOpen 0; OIn 0 (delimited (m_message req)) req; OAsk 0 req res; OOut 0 (delimited (m_message res))],
    0%nat, [res], [].
  split.
  { cbn [lrun lstep l_pc l0 at_top l_running l_conn go l_next at_recheck]. rewrite Hrd.
    cbn [lrun lstep l_pc go l_running l_next]. rewrite Hq. cbn [lrun lstep l_pc go l_running l_next]. rewrite Hwr. reflexivity. }
  split.
  { repeat (constructor; [try done|]); [|constructor]. exists (one_answer b sig), (fun _ => []). split; [done|].
    intros ch b'. unfold one_answer. destruct (bool_decide_reflect (b' = b)) as [->|]; [|discriminate]. intros _.
    destruct Hh as (op & t & ts & f & Hin).
    pose proof (return_stamp _ _ _ _ _ _ Hr _ _ _ _ _ _ Hin) as Hst. cbn in Hst. subst ts. eauto. }
  split.
  { intros c rq rs H.
    apply elem_of_cons in H as [H|H]; [discriminate H|]. apply elem_of_cons in H as [H|H]; [discriminate H|].
    apply elem_of_cons in H as [H|H].
    - injection H as _ _ ->. unfold fits_msg, max_msg_size in Hs2. change (2 ^ 63) with 9223372036854775808. lia.
    - apply elem_of_list_singleton in H. discriminate H. }
  split.
  { cbn [received]. change (Nat.eqb 0 0) with true. cbv iota. econstructor; [|constructor]. apply read_write; [|exact Hs2].
    split; [exact Hok|done]. }
  apply elem_of_list_singleton. reflexivity.
Qed.

(** ** Two votes without a crash *)

(** a precommit for nil at the Unix epoch *)
Definition nil_vote : vote := Vote 2 11 0 empty_bid epoch.
Definition nil_block : block :=
  match vote_block irishub nil_vote with Val b => b | _ => Block (HRS 0 0 0) [] epoch end.
(** the height, round and step the cosigners take it for *)
Definition nil_read : block := Block (HRS 11 0 1) [] epoch.
(** Someone has the cosigners of hosts 1 and 2 make and exchange parts for that; then host 1 leads and
    signs the vote with host 2. Host 3, which has heard of nothing, leads and signs a precommit for a
    block with host 2. Nobody crashes. *)
Definition epoch_life : list (history -> event) :=
  ask_parts nil_read 2 x25 ++ ask_parts nil_read 1 x26 ++
  [fun h => ECos 2 (OpSet (b_key nil_read) (last_part h 1 2 (Part 0 0 [] [] None)) None);
   fun h => ECos 1 (OpSet (b_key nil_read) (last_part h 2 1 (Part 0 0 [] [] None)) None)] ++
  whole_round nil_block 1 2 1 7 x21 x22 ++ [fun _ => EVal 1 (VSave 7); fun _ => EVal 1 (VEmit 7 false)] ++
  whole_round fbB 3 2 2 8 x23 x24 ++ [fun _ => EVal 3 (VSave 8); fun _ => EVal 3 (VEmit 8 false)].
Definition epoch_run : option (history * system) := dexec kconf [] sys0 epoch_life.
Definition small_b (m : message) : bool := Z.of_nat (length (m_message m)) <=? max_msg_size.
Lemma epoch_ok : match epoch_run with
  | Some (h, _) => match released_in h with
      | [(i1, b1, s1); (i2, b2, s2)] => bool_decide (i1 = 1 /\ b1 = nil_block /\ i2 = 3 /\ b2 = fbB) &&
          cr_verify toy (toy_enc 1) (b_sb nil_block) s1 && cr_verify toy (toy_enc 1) (b_sb fbB) s2 &&
          bool_decide (s1 <> [] /\ s2 <> []) &&
          small_b (SignedVoteResponse (PVote nil_vote [] 0 s1) None) && small_b (SignedVoteResponse (PVote (wvote 11 x0b 1) [] 0 s2) None)
      | _ => false end && bool_decide (restarted h = ∅)
  | None => false
  end = true.
Proof. vm_compute. reflexivity. Qed.

Lemma small_spec m : small_b m = true -> fits_msg m.
Proof. apply Z.leb_le. Qed.
Lemma not_restarted h : restarted h = ∅ -> forall i n o, (ERestart i n, o) ∉ h.
Proof.
  intros H i n o Hin. assert (Hi : i ∈ restarted h); [|rewrite H in Hi; by apply elem_of_empty in Hi].
  unfold restarted. apply elem_of_list_to_set, elem_of_list_omap. exists (ERestart i n, o). done.
Qed.
Definition sock (v : vote) (sig : bytes) : pvote := PVote v [] 0 sig.
Lemma epoch_facts : exists h S s1 s2, srun toy kconf ∅ sys0 h S /\ (forall i n o, (ERestart i n, o) ∉ h) /\
  vote_read irishub (toy_enc 1) h 1 (sock nil_vote s1) /\ vote_read irishub (toy_enc 1) h 3 (sock (wvote 11 x0b 1) s2) /\
  cr_verify toy (toy_enc 1) (b_sb nil_block) s1 = true /\ cr_verify toy (toy_enc 1) (b_sb fbB) s2 = true.
Proof.
  pose proof epoch_ok as H. destruct epoch_run as [[h S]|] eqn:E; [|discriminate H]. unfold epoch_run in E.
  apply andb_true_iff in H as [H Hc]. apply bool_decide_eq_true in Hc.
  destruct (released_in h) as [|[[i1 b1] s1] [|[[i2 b2] s2] [|]]] eqn:Er; try discriminate H.
  do 5 (apply andb_true_iff in H as [H ?H']). apply bool_decide_eq_true in H as (-> & -> & -> & ->).
  apply bool_decide_eq_true in H'1 as [N1 N2]. apply small_spec in H', H'0.
  assert (Hr : srun toy kconf ∅ sys0 h S) by (eapply dexec_srun; [constructor|exact E]).
  exists h, S, s1, s2. split; [exact Hr|]. split; [by apply not_restarted|].
  split.
  { eapply can_read; [exact Hr|apply released_spec; rewrite Er; left|vm_compute; reflexivity|exact N1| | |exact H'0].
    - unfold pvote_ok, in_int32, in_int64, bid_in_range. cbn. repeat split; try (vm_compute; congruence).
    - apply small_spec. vm_compute. reflexivity. }
  split.
  { eapply can_read; [exact Hr|apply released_spec; rewrite Er; right; left|vm_compute; reflexivity|exact N2| | |exact H'].
    - unfold pvote_ok, in_int32, in_int64, bid_in_range. cbn. repeat split; try (vm_compute; congruence).
    - apply small_spec. vm_compute. reflexivity. }
  split; [exact H'3|exact H'2].
Qed.

(** ** Votes read after a crash *)

Lemma crash_small : match one_crash_run with
  | Some (h, _) => match released_in h with
      | [(_, _, s1); (_, _, s2)] => bool_decide (s1 <> [] /\ s2 <> []) &&
          small_b (SignedVoteResponse (PVote (wvote 11 x0a 1) [] 0 s1) None) && small_b (SignedVoteResponse (PVote (wvote 11 x0b 1) [] 0 s2) None)
      | _ => false end
  | None => false
  end = true.
Proof. vm_compute. reflexivity. Qed.
Lemma crash_votes : exists h S s1 s2, srun toy kconf ∅ sys0 h S /\ restarted h = {[2]} /\
  vote_read irishub (toy_enc 1) h 1 (sock (wvote 11 x0a 1) s1) /\ vote_read irishub (toy_enc 1) h 3 (sock (wvote 11 x0b 1) s2) /\
  cr_verify toy (toy_enc 1) (b_sb fb) s1 = true /\ cr_verify toy (toy_enc 1) (b_sb fbB) s2 = true.
Proof.
  pose proof one_crash_ok as H. pose proof crash_small as Hs.
  destruct one_crash_run as [[h S]|] eqn:E; [|discriminate H]. unfold one_crash_run in E.
  apply andb_true_iff in H as [H Hc]. apply bool_decide_eq_true in Hc.
  destruct (released_in h) as [|[[i1 b1] s1] [|[[i2 b2] s2] [|]]] eqn:Er; try discriminate H.
  apply andb_true_iff in H as [H V2]. apply andb_true_iff in H as [H V1]. apply bool_decide_eq_true in H as (-> & -> & -> & ->).
  do 2 (apply andb_true_iff in Hs as [Hs ?H']). apply bool_decide_eq_true in Hs as [N1 N2]. apply small_spec in H', H'0.
  assert (Hr : srun toy kconf ∅ sys0 h S) by (eapply dexec_srun; [constructor|exact E]).
  exists h, S, s1, s2. split; [exact Hr|]. split; [exact Hc|].
  split.
  { eapply can_read; [exact Hr|apply released_spec; rewrite Er; left|vm_compute; reflexivity|exact N1| | |exact H'0].
    - unfold pvote_ok, in_int32, in_int64, bid_in_range. cbn. repeat split; try (vm_compute; congruence).
    - apply small_spec. vm_compute. reflexivity. }
  split.
  { eapply can_read; [exact Hr|apply released_spec; rewrite Er; right; left|vm_compute; reflexivity|exact N2| | |exact H'].
    - unfold pvote_ok, in_int32, in_int64, bid_in_range. cbn. repeat split; try (vm_compute; congruence).
    - apply small_spec. vm_compute. reflexivity. }
  split; [exact V1|exact V2].
Qed.

(** ** A history without such things *)

Lemma life_released : bool_decide ((1, fb, fsig) ∈ released_in life_hist /\ (3, fb, fsig) ∈ released_in life_hist) &&
  small_b (SignedVoteResponse (PVote (wvote 11 x0a 1) [] 0 fsig) None) && bool_decide (fsig <> []) = true.
Proof. vm_compute. reflexivity. Qed.
Lemma life_votes :
  vote_read irishub (toy_enc 1) life_hist 1 (sock (wvote 11 x0a 1) fsig) /\
  vote_read irishub (toy_enc 1) life_hist 3 (sock (wvote 11 x0a 1) fsig).
Proof.
  pose proof life_released as H. apply andb_true_iff in H as [H N]. apply andb_true_iff in H as [H Hs].
  apply bool_decide_eq_true in H as [H1 H3], N. apply small_spec in Hs. destruct life_facts as (Hr & _).
  split.
  - eapply can_read; [exact Hr|apply released_spec; exact H1|vm_compute; reflexivity|exact N| | |exact Hs].
    + unfold pvote_ok, in_int32, in_int64, bid_in_range. cbn. repeat split; try (vm_compute; congruence).
    + apply small_spec. vm_compute. reflexivity.
  - eapply can_read; [exact Hr|apply released_spec; exact H3|vm_compute; reflexivity|exact N| | |exact Hs].
    + unfold pvote_ok, in_int32, in_int64, bid_in_range. cbn. repeat split; try (vm_compute; congruence).
    + apply small_spec. vm_compute. reflexivity.
Qed.
