(** What FilePV answers to every request: proofs. *)
From Verif Require Import GoBase Wire Canonical CanonicalProofs CanonicalApi Spec Privval PrivvalSpec PrivvalProofs FilePV FilePVSpec FilePVProofs.
Local Open Scope Z_scope.

Lemma canon_bid_eq (a b : block_id) :
  (if bool_decide (a = empty_bid) then None else Some a) = (if bool_decide (b = empty_bid) then None else Some b) -> a = b.
Proof. repeat case_bool_decide; congruence. Qed.

Section Answers.
Context (key : bytes -> option bytes) (chain : bytes).

Lemma votes_differ_val c0 sb0 c sb :
  vote_in_range chain c0 -> vote_in_range chain c ->
  vote_sign_bytes chain c0 = Val sb0 -> vote_sign_bytes chain c = Val sb ->
  v_type c = v_type c0 -> v_height c = v_height c0 -> v_round c = v_round c0 ->
  votes_differ sb0 sb = Val (if bool_decide (v_bid c = v_bid c0) then Some (v_ts c0) else None).
Proof.
  intros R0 R E0 E ET EH ER.
  destruct (vote_sign_bytes_inv _ _ _ R0 E0) as (a & Ha & -> & A1 & A2 & A3 & A4 & A5 & A6).
  destruct (vote_sign_bytes_inv _ _ _ R E) as (b & Hb & -> & B1 & B2 & B3 & B4 & B5 & B6).
  pose proof (decode_vote_roundtrip a [] Ha) as D. rewrite app_nil_r in D.
  pose proof (decode_vote_roundtrip b [] Hb) as D'. rewrite app_nil_r in D'.
  unfold votes_differ. rewrite D, D', A5. f_equal. clear D D' Ha Hb E E0 R R0.
  rewrite (bool_decide_ext (set_vote_ts b (v_ts c0) = a) (v_bid c = v_bid c0)); [done|].
  destruct a, b. unfold set_vote_ts. cbn in *. split.
  - intros [=]. apply canon_bid_eq. rewrite <- A4, <- B4. done.
  - intros Hx. rewrite Hx, <- A4 in B4. congruence.
Qed.
Lemma props_differ_val c0 sb0 c sb :
  proposal_in_range chain c0 -> proposal_in_range chain c ->
  proposal_sign_bytes chain c0 = Val sb0 -> proposal_sign_bytes chain c = Val sb ->
  p_height c = p_height c0 -> p_round c = p_round c0 ->
  props_differ sb0 sb = Val (if bool_decide (p_bid c = p_bid c0 /\ p_pol c = p_pol c0) then Some (p_ts c0) else None).
Proof.
  intros R0 R E0 E EH ER.
  destruct (proposal_sign_bytes_inv _ _ _ R0 E0) as (a & Ha & -> & A1 & A2 & A3 & A4 & A5 & A6 & A7).
  destruct (proposal_sign_bytes_inv _ _ _ R E) as (b & Hb & -> & B1 & B2 & B3 & B4 & B5 & B6 & B7).
  pose proof (decode_proposal_roundtrip a [] Ha) as D. rewrite app_nil_r in D.
  pose proof (decode_proposal_roundtrip b [] Hb) as D'. rewrite app_nil_r in D'.
  unfold props_differ. rewrite D, D', A6. f_equal. clear D D' Ha Hb E E0 R R0.
  rewrite (bool_decide_ext (set_proposal_ts b (p_ts c0) = a) (p_bid c = p_bid c0 /\ p_pol c = p_pol c0)); [done|].
  destruct a, b. unfold set_proposal_ts. cbn in *. split.
  - intros [=]. split; [|congruence]. apply canon_bid_eq. rewrite <- A5, <- B5. done.
  - intros [Hx Hy]. rewrite Hx, <- A5 in B5. congruence.
Qed.

Lemma check_last k sb sig : pv_check (LSS k (Some sig) (Some sb)) k = Val true.
Proof. unfold pv_check. cbn. by rewrite !Z.ltb_irrefl, !Z.eqb_refl. Qed.
Lemma bytes_equal_iff a b : bytes_equal a b = bool_decide (a = b).
Proof. unfold bytes_equal. by repeat case_bool_decide. Qed.

(** the vote signed last is asked for again, or another one in its place *)
Lemma vote_again reload f v0 s sb0 sig v sb wr :
  vote_in_range chain v0 -> vote_in_range chain (pv_vote v) -> step_of_type (v_type v0) s ->
  vote_sign_bytes chain v0 = Val sb0 -> vote_sign_bytes chain (pv_vote v) = Val sb ->
  v_type (pv_vote v) = v_type v0 -> v_height (pv_vote v) = v_height v0 -> v_round (pv_vote v) = v_round v0 ->
  let w := World f (Some (LSS (HRS (v_height v0) (v_round v0) s) (Some sig) (Some sb0))) in
  (v_bid (pv_vote v) = v_bid v0 ->
     pv_step key chain reload w (AskVote (Some v) wr) = (w, SawVote (PVote v0 (pv_addr v) (pv_index v) sig))) /\
  (v_bid (pv_vote v) <> v_bid v0 ->
     pv_step key chain reload w (AskVote (Some v) wr) = (w, SawError PvConflict)).
Proof.
  intros R0 R Hs E0 E ET EH ER w. apply step_of_type_spec in Hs.
  assert (Hstep : pv_step key chain reload w (AskVote (Some v) wr) =
    finish w SawVote (if bool_decide (sb = sb0) then PvOld (set_vote v (v_ts (pv_vote v)) sig)
      else if bool_decide (v_bid (pv_vote v) = v_bid v0) then PvOld (set_vote v (v_ts v0) sig) else PvErr PvConflict) wr).
  { unfold w. cbn [pv_step wo_mem]. unfold sign_vote. rewrite ET, Hs, EH, ER, check_last, E. cbn [ls_sb ls_sig slice_of].
    rewrite bytes_equal_iff. case_bool_decide; [done|]. rewrite (votes_differ_val _ _ _ _ R0 R E0 E ET EH ER).
    by case_bool_decide. }
  rewrite Hstep. clear Hstep. destruct v as [[ty h r b t] ad ix sg]. destruct v0 as [ty0 h0 r0 b0 t0]. cbn in *. subst ty0 h0 r0.
  case_bool_decide as H1.
  - subst sb0. destruct (vote_sign_bytes_inj _ _ _ _ _ R0 R E0 E) as [[= -> ->] _]. split; [done|done].
  - split; intros Hb; case_bool_decide as H2; try done. cbn. subst b0. done.
Qed.
Lemma proposal_again reload f p0 sb0 sig p sb wr :
  proposal_in_range chain p0 -> proposal_in_range chain (pp_prop p) ->
  proposal_sign_bytes chain p0 = Val sb0 -> proposal_sign_bytes chain (pp_prop p) = Val sb ->
  p_height (pp_prop p) = p_height p0 -> p_round (pp_prop p) = p_round p0 ->
  let w := World f (Some (LSS (HRS (p_height p0) (p_round p0) 1) (Some sig) (Some sb0))) in
  (p_bid (pp_prop p) = p_bid p0 /\ p_pol (pp_prop p) = p_pol p0 ->
     pv_step key chain reload w (AskProp (Some p) wr) = (w, SawProp (PProp (pp_type p) p0 sig))) /\
  (p_bid (pp_prop p) <> p_bid p0 \/ p_pol (pp_prop p) <> p_pol p0 ->
     pv_step key chain reload w (AskProp (Some p) wr) = (w, SawError PvConflict)).
Proof.
  intros R0 R E0 E EH ER w.
  assert (Hstep : pv_step key chain reload w (AskProp (Some p) wr) =
    finish w SawProp (if bool_decide (sb = sb0) then PvOld (set_prop p (p_ts (pp_prop p)) sig)
      else if bool_decide (p_bid (pp_prop p) = p_bid p0 /\ p_pol (pp_prop p) = p_pol p0)
           then PvOld (set_prop p (p_ts p0) sig) else PvErr PvConflict) wr).
  { unfold w. cbn [pv_step wo_mem]. unfold sign_prop. change stepPropose with 1. rewrite EH, ER, check_last, E. cbn [ls_sb ls_sig slice_of].
    rewrite bytes_equal_iff. case_bool_decide; [done|]. rewrite (props_differ_val _ _ _ _ R0 R E0 E EH ER).
    by case_bool_decide. }
  rewrite Hstep. clear Hstep. destruct p as [ty [h r po b t] sg]. destruct p0 as [h0 r0 po0 b0 t0]. cbn in *. subst h0 r0.
  case_bool_decide as H1.
  - subst sb0. destruct (proposal_sign_bytes_inj _ _ _ _ _ R0 R E0 E) as [[= -> -> ->] _]. split; [done|intros [?|?]; done].
  - split; intros Hb; case_bool_decide as H2; try done; [|tauto]. destruct H2 as [-> ->]. done.
Qed.

(** below the last height, round and step *)
Lemma check_below l k : above (ls_hrs l) k -> exists e, pv_check l k = Fail e /\
  (e = PvHeight \/ e = PvRound \/ e = PvStep).
Proof.
  unfold pv_check, above. destruct k as [h r s], (ls_hrs l) as [h' r' s']; cbn [h_height h_round h_step]. intros H.
  destruct (Z.ltb_spec h h'); [eauto|]. destruct (Z.eqb_spec h' h); [|lia].
  destruct (Z.ltb_spec r r'); [eauto|]. destruct (Z.eqb_spec r' r); [|lia].
  destruct (Z.ltb_spec s s'); [eauto|lia].
Qed.
Lemma vote_below reload f l v s wr :
  step_of_type (v_type (pv_vote v)) s ->
  above (ls_hrs l) (HRS (v_height (pv_vote v)) (v_round (pv_vote v)) s) ->
  let w := World f (Some l) in
  exists e, pv_step key chain reload w (AskVote (Some v) wr) = (w, SawError e) /\ (e = PvHeight \/ e = PvRound \/ e = PvStep).
Proof.
  intros Hs Ha w. destruct (check_below _ _ Ha) as (e & He & Hk). exists e. split; [|done].
  unfold w. cbn [pv_step wo_mem]. unfold sign_vote. apply step_of_type_spec in Hs. by rewrite Hs, He.
Qed.
Lemma proposal_below reload f l p wr :
  above (ls_hrs l) (HRS (p_height (pp_prop p)) (p_round (pp_prop p)) 1) ->
  let w := World f (Some l) in
  exists e, pv_step key chain reload w (AskProp (Some p) wr) = (w, SawError e) /\ (e = PvHeight \/ e = PvRound \/ e = PvStep).
Proof.
  intros Ha w. destruct (check_below _ _ Ha) as (e & He & Hk). exists e. split; [|done].
  unfold w. cbn [pv_step wo_mem]. unfold sign_prop. change stepPropose with 1. by rewrite He.
Qed.

(** the first request after a start *)
Lemma vote_first f m v s sb sig : step_of_type (v_type (pv_vote v)) s -> 0 <= v_height (pv_vote v) -> 0 <= v_round (pv_vote v) ->
  vote_sign_bytes chain (pv_vote v) = Val sb -> key sb = Some sig ->
  snd (pv_run key chain false (World f m) [Start; AskVote (Some v) Written]) =
  [SawNothing; SawVote (PVote (pv_vote v) (pv_addr v) (pv_index v) sig)].
Proof.
  intros Hs Hh Hr Hb Hk. cbn [pv_run]. change (pv_step key chain false (World f m) Start) with (World f (Some lss_zero), SawNothing).
  cbv beta iota. rewrite (vote_fresh key chain false f lss_zero v s sb sig Hs); [done| |done|done].
  unfold above. cbn. unfold step_of_type in Hs. lia.
Qed.
Lemma proposal_first f m p sb sig : 0 <= p_height (pp_prop p) -> 0 <= p_round (pp_prop p) ->
  proposal_sign_bytes chain (pp_prop p) = Val sb -> key sb = Some sig ->
  snd (pv_run key chain false (World f m) [Start; AskProp (Some p) Written]) =
  [SawNothing; SawProp (PProp (pp_type p) (pp_prop p) sig)].
Proof.
  intros Hh Hr Hb Hk. cbn [pv_run]. change (pv_step key chain false (World f m) Start) with (World f (Some lss_zero), SawNothing).
  cbv beta iota. rewrite (prop_fresh key chain false f lss_zero p sb sig); [done| |done|done].
  unfold above. cbn. lia.
Qed.
End Answers.
