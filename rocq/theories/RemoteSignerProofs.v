(** The remote signer. *)
From Coq Require Import ZifyBool ZifyNat.
From Verif Require Import GoBase Wire WireProofs Canonical CanonicalProofs CanonicalApi SignState Spec Crypto Validator
  ValidatorSpec ValidatorProofs ValidatorProofs3 Privval RemoteSigner PrivvalSpec PrivvalProofs.
Local Open Scope Z_scope.

(** ** Reading makes progress *)

Lemma read_uvarint_shorter f l v r : read_uvarint_go f l = Some (v, r) -> (length r < length l)%nat.
Proof.
  revert l v r. induction f as [|f IH]; intros [|b l] v r; cbn [read_uvarint_go]; try discriminate.
  destruct (bz b <? 128).
  - destruct (_ && _); [discriminate|]. intros [= _ <-]. cbn. lia.
  - destruct (read_uvarint_go f l) as [[v' r']|] eqn:E; [|discriminate]. intros [= _ <-]. apply IH in E. cbn. lia.
Qed.
Lemma read_msg_shorter l m r : read_msg l = Some (m, r) -> (length r < length l)%nat.
Proof.
  unfold read_msg, read_delimited, read_uvarint. destruct (read_uvarint_go 10 l) as [[n r1]|] eqn:E; [|discriminate].
  apply read_uvarint_shorter in E. destruct (_ || _); [discriminate|].
  destruct (unmarshal _ _ _); [|discriminate]. intros [= _ <-]. rewrite drop_length. lia.
Qed.

(** ** One connection *)

Section Serve.
  Context (ss : nat -> signer) (chain : bytes).

  Definition next_panics n rest : Prop := exists m r, read_msg rest = Some (m, r) /\ forall v, handle_request (ss n) chain m <> Val v.
  Definition next_unwritable n rest : Prop :=
    exists m r v, read_msg rest = Some (m, r) /\ handle_request (ss n) chain m = Val v /\ marshallable v = false.

  Lemma serve_loop_any fuel n input : (length input < fuel)%nat ->
    exists reqs rest outs, reads input reqs rest /\ answered ss chain n reqs outs /\
      fst (serve_loop fuel n ss chain input) = stream outs /\
      match snd (serve_loop fuel n ss chain input) with
      | EndRead => read_msg rest = None
      | EndPanic => next_panics (n + length reqs) rest
      | EndWrite => next_unwritable (n + length reqs) rest
      end.
  Proof.
    revert n input. induction fuel as [|f IH]; intros n input Hf; [lia|]. cbn [serve_loop].
    destruct (read_msg input) as [[req rest]|] eqn:Er.
    2:{ exists [], input, []. split; [constructor|]. split; [done|]. split; [done|]. exact Er. }
    destruct (handle_request (ss n) chain req) as [res|e|] eqn:Eh.
    2,3: exists [], input, []; split; [constructor|]; split; [done|]; split; [done|]; exists req, rest;
      cbn [length]; rewrite Nat.add_0_r; split; [done|]; intros v; rewrite Eh; discriminate.
    unfold write_msg. destruct (marshallable res) eqn:Em.
    - destruct (IH (S n) rest) as (reqs & rest' & outs & H1 & H2 & H3 & H4).
      { apply read_msg_shorter in Er. lia. }
      destruct (serve_loop f (S n) ss chain rest) as [o e]. cbn [fst snd] in *. subst o.
      exists (req :: reqs), rest', (res :: outs). split; [by econstructor|]. split; [done|]. split; [done|].
      cbn [length]. by rewrite Nat.add_succ_r.
    - exists [], input, []. split; [constructor|]. split; [done|]. split; [done|]. exists req, rest, res.
      cbn [length]. by rewrite Nat.add_0_r.
  Qed.
  Lemma serve_any input :
    exists reqs rest outs, reads input reqs rest /\ answered ss chain 0 reqs outs /\
      fst (serve ss chain input) = stream outs /\
      match snd (serve ss chain input) with
      | EndRead => read_msg rest = None
      | EndPanic => next_panics (length reqs) rest
      | EndWrite => next_unwritable (length reqs) rest
      end.
  Proof. apply serve_loop_any. lia. Qed.

  Lemma serve_loop_stream fuel n reqs outs rest :
    (length (stream reqs ++ rest) < fuel)%nat ->
    Forall (fun m => message_ok m /\ Z.of_nat (length (m_message m)) <= max_msg_size) reqs ->
    answered ss chain n reqs outs -> Forall (fun m => marshallable m = true) outs ->
    read_msg rest = None ->
    serve_loop fuel n ss chain (stream reqs ++ rest) = (stream outs, EndRead).
  Proof.
    intros Hf H. revert fuel n outs Hf. induction H as [|m reqs [Hok Hl] H IH]; intros fuel n outs Hf Ha Hm Hr.
    - destruct outs; [|done]. destruct fuel as [|f]; [done|]. cbn [serve_loop stream flat_map app]. by rewrite Hr.
    - destruct outs as [|o outs]; [done|]. destruct Ha as [Hh Ha]. apply List.Forall_cons_iff in Hm as [Hm Hms].
      destruct fuel as [|f]; [lia|]. cbn [serve_loop]. unfold stream in Hf |- *. cbn [flat_map] in *.
      pose proof (read_write m (flat_map (fun m => delimited (m_message m)) reqs ++ rest) Hok Hl) as Er.
      rewrite <- app_assoc in *. rewrite Er, Hh. unfold write_msg. rewrite Hm. fold (stream reqs). fold (stream reqs) in Hf, Er.
      rewrite (IH f (S n) outs); [done| |done..].
      apply read_msg_shorter in Er. lia.
  Qed.
End Serve.

(** ** The threshold validator behind it *)

Lemma hash_ok_spec h : hash_ok h = true <-> hash_size_ok h.
Proof.
  unfold hash_ok, hash_size_ok. rewrite orb_true_iff, !bool_decide_eq_true. done.
Qed.
Lemma bid_ok_spec b : bid_ok b = true <-> bid_sizes_ok b.
Proof. unfold bid_ok, bid_sizes_ok. by rewrite andb_true_iff, !hash_ok_spec. Qed.
Lemma vote_type_spec ty : is_Some (vote_type_to_step ty) <-> ty = 1 \/ ty = 2.
Proof.
  unfold vote_type_to_step. split.
  - intros [s H]. repeat match type of H with context [?a =? ?b] => destruct (Z.eqb_spec a b) end; simplify_eq/=; eauto.
  - intros [-> | ->]; eexists; reflexivity.
Qed.
Lemma vote_block_iff chain v : time_valid (v_ts v) = true ->
  (is_Some (vote_type_to_step (v_type v)) /\ bid_sizes_ok (v_bid v) -> exists b, vote_block chain v = Val b) /\
  (~ (is_Some (vote_type_to_step (v_type v)) /\ bid_sizes_ok (v_bid v)) -> vote_block chain v = Panic).
Proof.
  intros Ht. unfold vote_block, vote_sign_bytes, canonicalize_vote, canonicalize_bid. rewrite <- bid_ok_spec. split.
  - intros [[s ->] ->]. cbn [cv_ts]. rewrite Ht. eauto.
  - intros H. destruct (vote_type_to_step (v_type v)); [|done]. destruct (bid_ok (v_bid v)); [|done].
    exfalso. apply H. split; [by eexists|done].
Qed.
Lemma proposal_block_iff chain p : time_valid (p_ts p) = true ->
  (bid_sizes_ok (p_bid p) -> exists b, proposal_block chain p = Val b) /\
  (~ bid_sizes_ok (p_bid p) -> proposal_block chain p = Panic).
Proof.
  intros Ht. unfold proposal_block, proposal_sign_bytes, canonicalize_proposal, canonicalize_bid.
  rewrite <- bid_ok_spec. split.
  - intros ->. cbn [cp_ts]. rewrite Ht. eauto.
  - intros H. by destruct (bid_ok (p_bid p)).
Qed.

Lemma matching s chain req res : is_request req = true -> handle_request s chain req = Val res -> answers req res.
Proof.
  destruct req; try discriminate; intros _; cbn.
  - unfold handle_pub_key. destruct (sg_pub s); intros [= <-]; done.
  - unfold handle_vote. destruct (sg_vote _ _ _); intros [= <-]; done.
  - unfold handle_proposal. destruct (sg_prop _ _ _); intros [= <-]; done.
  - by intros [= <-].
Qed.
Lemma failure_told s chain req text : failed_with s chain req text -> handle_request s chain req = Val (refusal_of req text).
Proof.
  destruct req; try done; cbn; intros H; unfold handle_pub_key, handle_vote, handle_proposal; by rewrite H.
Qed.
Lemma answered_matching ss chain n reqs outs : answered ss chain n reqs outs -> Forall (fun m => is_request m = true) reqs ->
  all_answer reqs outs.
Proof.
  intros Ha H. revert n outs Ha. induction H as [|m reqs Hm H IH]; intros n [|o outs]; cbn [answered all_answer]; try done.
  intros [H1 H2]. split; [by eapply matching|by eapply IH].
Qed.

Section Threshold.
  Context (pub : bytes) (answer : bytes -> block -> vresult) (text : verr -> bytes) (chain : bytes).
  Let s := tv_signer pub answer text.

  Lemma tv_never_fails req e : handle_request s chain req <> Fail e.
  Proof.
    destruct req; cbn; try discriminate.
    - unfold handle_vote. destruct (sg_vote _ _ _); discriminate.
    - unfold handle_proposal. destruct (sg_prop _ _ _); discriminate.
  Qed.
  Lemma tv_panics_iff req : message_ok req -> handle_request s chain req = Panic <-> ~ signable req.
  Proof.
    destruct req as [|c|k e|v c|v e|p c|p e| |]; cbn; intros Hok; try (split; [discriminate|intros H; by destruct H]).
    - unfold handle_vote. cbn. unfold tv_vote. destruct v as [v|].
      2:{ split; [|done]. intros _ (v' & ? & _). discriminate. }
      destruct Hok as (_ & _ & _ & _ & Ht & _).
      destruct (vote_block_iff chain (pv_vote v) Ht) as [H1 H2]. split.
      + intros Hp (v' & [= <-] & Hty & Hb). rewrite <- vote_type_spec in Hty. destruct (H1 (conj Hty Hb)) as [b E]. rewrite E in Hp.
        cbn in Hp. destruct (r_err _); discriminate.
      + intros Hn. rewrite H2; [done|]. intros [Hty Hb]. apply Hn. exists v. split; [done|]. split; [by apply vote_type_spec|done].
    - unfold handle_proposal. cbn. unfold tv_prop. destruct p as [p|].
      2:{ split; [|done]. intros _ (v' & ? & _). discriminate. }
      destruct Hok as (_ & _ & _ & _ & _ & Ht).
      destruct (proposal_block_iff chain (pp_prop p) Ht) as [H1 H2]. split.
      + intros Hp (p' & [= <-] & Hb). destruct (H1 Hb) as [b E]. rewrite E in Hp.
        cbn in Hp. destruct (r_err _); discriminate.
      + intros Hn. rewrite H2; [done|]. intros Hb. apply Hn. exists p. by split.
  Qed.

  (** the response to a vote request *)
  Lemma tv_vote_response v c res : handle_request s chain (SignVoteRequest (Some v) c) = Val res ->
    exists b sb, vote_sign_bytes chain (pv_vote v) = Val sb /\
      b = Block (HRS (v_height (pv_vote v)) (v_round (pv_vote v)) (if v_type (pv_vote v) =? 1 then 2 else 3)) sb (v_ts (pv_vote v)) /\
      let r := answer chain b in
      match r_err r with
      | Some e => res = SignedVoteResponse empty_pvote (Some (RSError 0 (text e)))
      | None => exists v', res = SignedVoteResponse v' None /\
          pv_addr v' = pv_addr v /\ pv_index v' = pv_index v /\ pv_sig v' = slice_of (r_sig r) /\
          pv_vote v' = Vote (v_type (pv_vote v)) (v_height (pv_vote v)) (v_round (pv_vote v)) (v_bid (pv_vote v)) (r_stamp r)
      end.
  Proof.
    cbn. unfold handle_vote. cbn. unfold vote_block.
    destruct (vote_type_to_step (v_type (pv_vote v))) as [stp|] eqn:Es; [|discriminate].
    destruct (vote_sign_bytes chain (pv_vote v)) as [sb| |] eqn:Eb; [|discriminate..]. intros H.
    eexists _, sb. split; [done|]. split; [reflexivity|].
    assert (stp = (if v_type (pv_vote v) =? 1 then 2 else 3)) as <-.
    { unfold vote_type_to_step in Es.
      repeat match type of Es with context [?a =? ?b] => destruct (Z.eqb_spec a b) end;
        repeat match goal with |- context [?a =? ?b] => destruct (Z.eqb_spec a b) end; simplify_eq/=; done. }
    cbn in H |- *. destruct (r_err _) as [e|]; injection H as <-; [done|]. eexists. split; [done|]. done.
  Qed.
  Lemma tv_prop_response p c res : handle_request s chain (SignProposalRequest (Some p) c) = Val res ->
    exists b sb, proposal_sign_bytes chain (pp_prop p) = Val sb /\
      b = Block (HRS (p_height (pp_prop p)) (p_round (pp_prop p)) 1) sb (p_ts (pp_prop p)) /\
      let r := answer chain b in
      match r_err r with
      | Some e => res = SignedProposalResponse empty_pprop (Some (RSError 0 (text e)))
      | None => exists p', res = SignedProposalResponse p' None /\
          pp_type p' = pp_type p /\ pp_sig p' = slice_of (r_sig r) /\
          pp_prop p' = Proposal (p_height (pp_prop p)) (p_round (pp_prop p)) (p_pol (pp_prop p)) (p_bid (pp_prop p)) (r_stamp r)
      end.
  Proof.
    cbn. unfold handle_proposal. cbn. unfold proposal_block.
    destruct (proposal_sign_bytes chain (pp_prop p)) as [sb| |] eqn:Eb; [|discriminate..]. intros H.
    eexists _, sb. split; [done|]. split; [reflexivity|].
    cbn in H |- *. destruct (r_err _) as [e|]; injection H as <-; [done|]. eexists. split; [done|]. done.
  Qed.
  Lemma tv_marshallable req res : message_ok req ->
    (forall b, time_valid (b_ts b) = true -> time_valid (r_stamp (answer chain b)) = true) ->
    handle_request s chain req = Val res -> marshallable res = true.
  Proof.
    intros Hok Hts H. destruct req as [|c|k e|v c|v e|p c|p e| |]; try (injection H as <-; done).
    - destruct v as [v|]; [|discriminate]. destruct (tv_vote_response _ _ _ H) as (b & sb & _ & Hb & Hr).
      cbv zeta in Hr. destruct (r_err _) as [e|]; [by subst res|].
      destruct Hr as (v' & -> & _ & _ & _ & Hv). cbn. rewrite Hv. cbn. apply Hts. subst b. cbn. apply Hok.
    - destruct p as [p|]; [|discriminate]. destruct (tv_prop_response _ _ _ H) as (b & sb & _ & Hb & Hr).
      cbv zeta in Hr. destruct (r_err _) as [e|]; [by subst res|].
      destruct Hr as (v' & -> & _ & _ & Hv). cbn. rewrite Hv. cbn. apply Hts. subst b. cbn. apply Hok.
  Qed.
End Threshold.

(** every request in any input, until one that cannot be signed *)
Lemma tv_serve_any pub answer text chain input :
  (forall n b, time_valid (b_ts b) = true -> time_valid (r_stamp (answer n chain b)) = true) ->
  let ss := fun n => tv_signer pub (answer n) text in
  exists reqs rest outs, reads input reqs rest /\ answered ss chain 0 reqs outs /\ Forall signable reqs /\
    fst (serve ss chain input) = stream outs /\
    ((snd (serve ss chain input) = EndRead /\ read_msg rest = None) \/
     (snd (serve ss chain input) = EndPanic /\ exists m r, read_msg rest = Some (m, r) /\ ~ signable m)).
Proof.
  intros Hts ss. destruct (serve_any ss chain input) as (reqs & rest & outs & H1 & H2 & H3 & H4).
  exists reqs, rest, outs. split; [done|]. split; [done|]. split.
  { assert (Hok : Forall message_ok reqs).
    { clear -H1. induction H1; constructor; [by eapply read_msg_ok|done]. }
    clear -H2 Hok. revert H2. generalize 0%nat. revert outs.
    induction Hok as [|m reqs Hm Hok IH]; intros outs n Ha; [constructor|]. destruct outs as [|o outs]; [done|].
    destruct Ha as [Ha1 Ha2]. constructor; [|by eapply IH].
    destruct m as [|c|k e|v c|v e|p c|p e| |]; try done.
    - destruct v as [v|]; [|discriminate]. destruct (tv_vote_response _ _ _ _ _ _ _ Ha1) as (b & sb & E & _).
      eexists. split; [done|].
      unfold ss in Ha1. cbn in Ha1. unfold handle_vote in Ha1. cbn in Ha1.
      destruct (vote_block chain (pv_vote v)) as [b'| |] eqn:Ev; [|discriminate..].
      destruct Hm as (_ & _ & _ & _ & Ht & _). destruct (vote_block_iff chain (pv_vote v) Ht) as [_ Hp].
      split.
      + apply vote_type_spec. unfold vote_block in Ev. destruct (vote_type_to_step _); [by eexists|discriminate].
      + apply bid_ok_spec. unfold vote_sign_bytes, canonicalize_vote, canonicalize_bid in E.
        by destruct (bid_ok (v_bid (pv_vote v))).
    - destruct p as [p|]; [|discriminate]. destruct (tv_prop_response _ _ _ _ _ _ _ Ha1) as (b & sb & E & _).
      eexists. split; [done|]. apply bid_ok_spec.
      unfold proposal_sign_bytes, canonicalize_proposal, canonicalize_bid in E. by destruct (bid_ok (p_bid (pp_prop p))). }
  split; [done|]. destruct (snd (serve ss chain input)); [left; by split| |right; split; [done|]].
  - destruct H4 as (m & r & v & E1 & E2 & E3). exfalso.
    rewrite (tv_marshallable _ _ _ _ _ _ (read_msg_ok _ _ _ E1) (Hts _) E2) in E3. discriminate.
  - destruct H4 as (m & r & E1 & E2). exists m, r. split; [done|].
    eapply tv_panics_iff; [by eapply read_msg_ok|]. unfold ss in E2.
    destruct (handle_request _ _ _) as [a|e|] eqn:E; [by destruct (E2 a)|by apply tv_never_fails in E|exact E].
Qed.

(** a stream of requests that can be signed is answered one by one *)
Lemma tv_serve_stream pub answer text chain reqs :
  (forall n b, time_valid (b_ts b) = true -> time_valid (r_stamp (answer n chain b)) = true) ->
  let ss := fun n => tv_signer pub (answer n) text in
  Forall (fun m => message_ok m /\ Z.of_nat (length (m_message m)) <= max_msg_size) reqs ->
  Forall signable reqs ->
  exists outs, serve ss chain (stream reqs) = (stream outs, EndRead) /\ answered ss chain 0 reqs outs /\
    Forall (fun m => marshallable m = true) outs.
Proof.
  intros Hts ss Hok Hsig.
  assert (H : forall n, exists outs, answered ss chain n reqs outs /\ Forall (fun m => marshallable m = true) outs).
  { clear -Hts Hok Hsig. induction Hok as [|m reqs [Hm _] Hok IH]; intros n; [exists []; by split|].
    apply List.Forall_cons_iff in Hsig as [Hs Hss].
    destruct (IH Hss (S n)) as (outs & Ho & Hmo).
    destruct (handle_request (ss n) chain m) as [o|e|] eqn:E.
    - exists (o :: outs). split; [by split|]. constructor; [|done].
      exact (tv_marshallable _ _ _ _ _ _ Hm (Hts n) E).
    - exfalso. exact (tv_never_fails _ _ _ _ _ _ E).
    - exfalso. by apply (tv_panics_iff _ _ _ _ _ Hm) in E. }
  destruct (H 0%nat) as (outs & Ho & Hmo). exists outs. split; [|done].
  unfold serve. rewrite <- (app_nil_r (stream reqs)). apply serve_loop_stream; try done. lia.
Qed.

(** what the validator returns *)
Lemma returned_stamp C cfg st0 l st t b r f : idle st0 -> vrun C cfg st0 l st -> returned l t b r f ->
  r_stamp r = b_ts b.
Proof.
  intros Hi Hr [op Hin].
  destruct (return_case _ _ _ _ _ _ _ _ _ _ Hi Hr Hin) as (l1 & st1 & st2 & l2 & _ & _ & _ & _ & Hc).
  destruct Hc as [(_ & -> & _)|(pc & st' & _ & _ & Ht & _)]; [done|]. inversion Ht; subst; try done.
  unfold proxy_result. destruct ans as [[d|x]|sg]; simpl; try done. destruct (_ && _); done.
Qed.

Lemma ok_marshallable m : message_ok m -> marshallable m = true.
Proof.
  destruct m as [| | |[v|] c|v e|[p|] c|p e| |]; try done; cbn.
  - by intros (_ & _ & _ & _ & ? & _).
  - by intros [(_ & _ & _ & _ & ? & _) _].
  - by intros (_ & _ & _ & _ & _ & ?).
  - by intros [(_ & _ & _ & _ & _ & ?) _].
Qed.

(** the whole way of a vote *)
Lemma vote_through_validator C cfg st0 l st t chain v c res pub text answer f :
  idle st0 -> vrun C cfg st0 l st ->
  (forall b, vote_block chain (pv_vote v) = Val b -> returned l t b (answer chain b) f) ->
  handle_request (tv_signer pub answer text) chain (SignVoteRequest (Some v) c) = Val res ->
  (exists e, res = SignedVoteResponse empty_pvote (Some (RSError 0 (text e)))) \/
  exists v' sb, res = SignedVoteResponse v' None /\ resigned_vote v (pv_sig v') v' /\
    vote_sign_bytes chain (pv_vote v) = Val sb /\ (f = true -> cr_verify C (vc_pub cfg) sb (pv_sig v') = true).
Proof.
  intros Hi Hr Ha H. destruct (tv_vote_response _ _ _ _ _ _ _ H) as (b & sb & Hsb & Hb & Hres). cbv zeta in Hres.
  assert (Eb : vote_block chain (pv_vote v) = Val b).
  { cbn in H. unfold handle_vote in H. cbn in H. unfold vote_block in *. rewrite Hsb in *.
    destruct (vote_type_to_step (v_type (pv_vote v))) as [stp|] eqn:Es; [|discriminate].
    subst b. do 3 f_equal. unfold vote_type_to_step in Es.
      repeat match type of Es with context [?a =? ?b] => destruct (Z.eqb_spec a b) end;
        repeat match goal with |- context [?a =? ?b] => destruct (Z.eqb_spec a b) end; simplify_eq/=; done. }
  specialize (Ha b Eb). destruct (r_err (answer chain b)) as [e|] eqn:Ee; [left; by exists e|]. right.
  destruct Hres as (v' & -> & H1 & H2 & H3 & H4). exists v', sb. split; [done|].
  rewrite (returned_stamp _ _ _ _ _ _ _ _ _ Hi Hr Ha) in H4. split; [|split; [done|]].
  - split; [|by split]. rewrite H4. subst b. cbn. by destruct (pv_vote v).
  - intros ->. destruct (fresh_verified _ _ _ _ _ _ _ _ Hi Hr Ha) as (sig & Er & Hv & _).
    rewrite H3, Er. cbn. subst b. exact Hv.
Qed.
Lemma proposal_through_validator C cfg st0 l st t chain p c res pub text answer f :
  idle st0 -> vrun C cfg st0 l st ->
  (forall b, proposal_block chain (pp_prop p) = Val b -> returned l t b (answer chain b) f) ->
  handle_request (tv_signer pub answer text) chain (SignProposalRequest (Some p) c) = Val res ->
  (exists e, res = SignedProposalResponse empty_pprop (Some (RSError 0 (text e)))) \/
  exists p' sb, res = SignedProposalResponse p' None /\ resigned_prop p (pp_sig p') p' /\
    proposal_sign_bytes chain (pp_prop p) = Val sb /\ (f = true -> cr_verify C (vc_pub cfg) sb (pp_sig p') = true).
Proof.
  intros Hi Hr Ha H. destruct (tv_prop_response _ _ _ _ _ _ _ H) as (b & sb & Hsb & Hb & Hres). cbv zeta in Hres.
  assert (Eb : proposal_block chain (pp_prop p) = Val b).
  { unfold proposal_block. rewrite Hsb. by subst b. }
  specialize (Ha b Eb). destruct (r_err (answer chain b)) as [e|] eqn:Ee; [left; by exists e|]. right.
  destruct Hres as (v' & -> & H1 & H2 & H3). exists v', sb. split; [done|].
  rewrite (returned_stamp _ _ _ _ _ _ _ _ _ Hi Hr Ha) in H3. split; [|split; [done|]].
  - split; [done|]. split; [|done]. rewrite H3. subst b. cbn. by destruct (pp_prop p).
  - intros ->. destruct (fresh_verified _ _ _ _ _ _ _ _ Hi Hr Ha) as (sig & Er & Hv & _).
    rewrite H2, Er. cbn. subst b. exact Hv.
Qed.
