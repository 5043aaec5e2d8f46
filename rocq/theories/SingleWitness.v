(** What chain nodes read from a single signer: progress, and runs. *)
From Verif Require Import GoBase Wire Canonical CanonicalProofs CanonicalApi Spec Validator Privval RemoteSigner PrivvalSpec PrivvalProofs
  RemoteSignerProofs ConnLoop ConnLoopSpec ConnLoopProofs FilePV FilePVSpec FilePVProofs SocketSpec SocketProofs Single SingleSpec SingleProofs.
Local Open Scope Z_scope.

(** ** Progress *)
Section Progress.
Context (key : bytes -> option bytes) (pub : pubkey) (text : pv_error -> bytes) (chain : bytes) (reload : bool).
Notation srun := (single_run key pub text chain reload).

(** reading a request that FilePV answers with [m], asking it, writing the answer *)
Lemma three_steps S0 h S i st c l bs req m w' :
  srun S0 h S -> si_loops S !! i = Some st -> l_pc st = PRead c -> wo_mem (si_world S) = Some l ->
  read_msg bs = Some (req, []) ->
  handle_request (fpv_signer key pub text l Written) chain req = Val m ->
  pv_effect key chain reload (si_world S) req Written = w' -> wo_mem w' <> None ->
  message_ok m -> marshallable m = true -> Z.of_nat (length (m_message m)) <= max_msg_size ->
  exists h' S', srun S0 (h ++ h') S' /\ si_world S' = w' /\ si_life S' = si_life S /\
    (forall j, j <> i -> si_loops S' !! j = si_loops S !! j) /\
    (exists st', si_loops S' !! i = Some st' /\ l_pc st' = PTop /\ l_conn st' = Some c) /\
    exists out, h' = tag (si_life S) i [OIn c bs req; OAsk c req m; OOut c out] /\ read_msg out = Some (m, []).
Proof.
  intros Hr Hi Hp Hm Hb Hh Hw Hn Hok Hmar Hlen. destruct S as [w loops k]. cbn [si_world si_loops si_life] in *.
  pose proof (lookup_lt_Some _ _ _ Hi) as Hlt.
  assert (H1 : sg_step key pub text chain reload (Single w loops k) (GLoop i (LRead bs)) =
    Some (Single w (<[i := go st (PHandle c req) (Some c)]> loops) k, tag k i [OIn c bs req])).
  { cbn [sg_step si_loops]. rewrite Hi. unfold lstep. rewrite Hp, Hb. done. }
  set (L1 := <[i := go st (PHandle c req) (Some c)]> loops) in *.
  assert (Hi1 : L1 !! i = Some (go st (PHandle c req) (Some c))) by (by apply list_lookup_insert).
  assert (H2 : sg_step key pub text chain reload (Single w L1 k) (GAsk i Written) =
    Some (Single w' (<[i := go st (PWrite c m) (Some c)]> L1) k, tag k i [OAsk c req m])).
  { cbn [sg_step si_loops si_world si_life]. rewrite Hi1, Hm. unfold lstep. cbn [l_pc go]. rewrite Hh, Hw.
    destruct (wo_mem w'); done. }
  set (L2 := <[i := go st (PWrite c m) (Some c)]> L1) in *.
  assert (Hi2 : L2 !! i = Some (go st (PWrite c m) (Some c))) by (apply list_lookup_insert; unfold L1; by rewrite insert_length).
  assert (H3 : sg_step key pub text chain reload (Single w' L2 k) (GLoop i LWrite) =
    Some (Single w' (<[i := go st PTop (Some c)]> L2) k, tag k i [OOut c (delimited (m_message m))])).
  { cbn [sg_step si_loops]. rewrite Hi2. unfold lstep, write_msg. cbn [l_pc go]. rewrite Hmar. done. }
  eexists (tag k i [OIn c bs req] ++ tag k i [OAsk c req m] ++ tag k i [OOut c (delimited (m_message m))]), _.
  split.
  { rewrite !app_assoc. eapply sr_step; [|exact H3]. eapply sr_step; [|exact H2]. eapply sr_step; [|exact H1]. exact Hr. }
  split; [done|]. split; [done|]. cbn [si_loops]. split.
  { intros j Hj. unfold L2, L1. by rewrite !list_lookup_insert_ne by done. }
  split.
  { eexists. split; [apply list_lookup_insert; unfold L2, L1; by rewrite !insert_length|]. done. }
  exists (delimited (m_message m)). split; [done|].
  rewrite <- (app_nil_r (delimited _)). by apply read_write.
Qed.

Lemma vote_answered S0 h S i st c l bs v ch s sb sig :
  srun S0 h S -> si_loops S !! i = Some st -> l_pc st = PRead c -> wo_mem (si_world S) = Some l ->
  read_msg bs = Some (SignVoteRequest (Some v) ch, []) ->
  step_of_type (v_type (pv_vote v)) s ->
  above (HRS (v_height (pv_vote v)) (v_round (pv_vote v)) s) (ls_hrs l) ->
  vote_sign_bytes chain (pv_vote v) = Val sb -> key sb = Some sig ->
  let m := SignedVoteResponse (PVote (pv_vote v) (pv_addr v) (pv_index v) sig) None in
  let l' := LSS (HRS (v_height (pv_vote v)) (v_round (pv_vote v)) s) (Some sig) (Some sb) in
  Z.of_nat (length (m_message m)) <= max_msg_size ->
  exists h' S', srun S0 (h ++ h') S' /\ si_world S' = World (Some l') (Some l') /\ si_life S' = si_life S /\
    (forall j, j <> i -> si_loops S' !! j = si_loops S !! j) /\
    (exists st', si_loops S' !! i = Some st' /\ l_pc st' = PTop /\ l_conn st' = Some c) /\
    exists out, h' = tag (si_life S) i [OIn c bs (SignVoteRequest (Some v) ch); OAsk c (SignVoteRequest (Some v) ch) m; OOut c out] /\
      read_msg out = Some (m, []).
Proof.
  intros Hr Hi Hp Hm Hb Hs Ha Hsb Hk m l' Hlen.
  destruct (si_world S) as [f mem] eqn:Ew. cbn in Hm. subst mem.
  pose proof (vote_fresh key chain reload f l v s sb sig Hs Ha Hsb Hk) as Hf. cbn [pv_step] in Hf. unfold finish in Hf.
  pose proof (read_msg_ok _ _ _ Hb) as Hok. cbn in Hok.
  assert (Ht : time_valid (v_ts (pv_vote v)) = true) by (eapply vote_time; exact Hsb).
  apply (three_steps S0 h S i st c l bs (SignVoteRequest (Some v) ch) m); try done.
  - by rewrite Ew.
  - unfold handle_request, handle_vote, fpv_signer. cbn [sg_vote]. unfold m. revert Hf. cbn [wo_mem].
    destruct (sign_vote key chain l (Some v)) as [a|a l1|e|]; cbn; intros Hf; try discriminate Hf.
    + assert (a = PVote (pv_vote v) (pv_addr v) (pv_index v) sig) as -> by congruence. done.
    + assert (a = PVote (pv_vote v) (pv_addr v) (pv_index v) sig) as -> by congruence. done.
  - rewrite Ew. cbn [pv_effect]. pose proof (vote_fresh key chain reload f l v s sb sig Hs Ha Hsb Hk) as Hf'. cbn zeta in Hf'. rewrite Hf'. reflexivity.
Qed.
Lemma proposal_answered S0 h S i st c l bs p ch sb sig :
  srun S0 h S -> si_loops S !! i = Some st -> l_pc st = PRead c -> wo_mem (si_world S) = Some l ->
  read_msg bs = Some (SignProposalRequest (Some p) ch, []) ->
  above (HRS (p_height (pp_prop p)) (p_round (pp_prop p)) 1) (ls_hrs l) ->
  proposal_sign_bytes chain (pp_prop p) = Val sb -> key sb = Some sig ->
  let m := SignedProposalResponse (PProp (pp_type p) (pp_prop p) sig) None in
  let l' := LSS (HRS (p_height (pp_prop p)) (p_round (pp_prop p)) 1) (Some sig) (Some sb) in
  Z.of_nat (length (m_message m)) <= max_msg_size ->
  exists h' S', srun S0 (h ++ h') S' /\ si_world S' = World (Some l') (Some l') /\ si_life S' = si_life S /\
    (forall j, j <> i -> si_loops S' !! j = si_loops S !! j) /\
    (exists st', si_loops S' !! i = Some st' /\ l_pc st' = PTop /\ l_conn st' = Some c) /\
    exists out, h' = tag (si_life S) i [OIn c bs (SignProposalRequest (Some p) ch); OAsk c (SignProposalRequest (Some p) ch) m; OOut c out] /\
      read_msg out = Some (m, []).
Proof.
  intros Hr Hi Hp Hm Hb Ha Hsb Hk m l' Hlen.
  destruct (si_world S) as [f mem] eqn:Ew. cbn in Hm. subst mem.
  pose proof (prop_fresh key chain reload f l p sb sig Ha Hsb Hk) as Hf. cbn [pv_step] in Hf. unfold finish in Hf.
  pose proof (read_msg_ok _ _ _ Hb) as Hok. cbn in Hok.
  assert (Ht : time_valid (p_ts (pp_prop p)) = true) by (eapply prop_time; exact Hsb).
  apply (three_steps S0 h S i st c l bs (SignProposalRequest (Some p) ch) m); try done.
  - by rewrite Ew.
  - unfold handle_request, handle_proposal, fpv_signer. cbn [sg_prop]. unfold m. revert Hf. cbn [wo_mem].
    destruct (sign_prop key chain l (Some p)) as [a|a l1|e|]; cbn; intros Hf; try discriminate Hf.
    + assert (a = PProp (pp_type p) (pp_prop p) sig) as -> by congruence. done.
    + assert (a = PProp (pp_type p) (pp_prop p) sig) as -> by congruence. done.
  - rewrite Ew. cbn [pv_effect]. pose proof (prop_fresh key chain reload f l p sb sig Ha Hsb Hk) as Hf'. cbn zeta in Hf'. rewrite Hf'. reflexivity.
Qed.
End Progress.

(** ** Runs *)
Fixpoint do_labels key pub text chain reload (S : single) (ls : list slabel) : option (single * list sobs) :=
  match ls with
  | [] => Some (S, [])
  | l :: ls' =>
      match sg_step key pub text chain reload S l with
      | Some (S1, o) =>
          match do_labels key pub text chain reload S1 ls' with Some (S2, o') => Some (S2, o ++ o') | None => None end
      | None => None
      end
  end.
Lemma do_run key pub text chain reload S0 ls : forall h S S' o, single_run key pub text chain reload S0 h S ->
  do_labels key pub text chain reload S ls = Some (S', o) -> single_run key pub text chain reload S0 (h ++ o) S'.
Proof.
  induction ls as [|l ls IH]; intros h S S' o Hr H.
  - injection H as <- <-. by rewrite app_nil_r.
  - cbn [do_labels] in H. destruct (sg_step _ _ _ _ _ S l) as [[S1 o1]|] eqn:E; [|discriminate].
    destruct (do_labels _ _ _ _ _ S1 ls) as [[S2 o2]|] eqn:E2; [|discriminate]. injection H as <- <-.
    rewrite app_assoc. eapply IH; [|exact E2]. by eapply sr_step.
Qed.

(** no answer of the run is long *)
Definition short (x : sobs) : bool :=
  match snd x with OAsk _ _ res => Z.of_nat (length (m_message res)) <? 1000 | _ => true end.
Lemma short_fit h : forallb short h = true -> all_fit h.
Proof.
  intros H k i c req res Hin. rewrite forallb_forall in H.
  assert (List.In (k, i, OAsk c req res) h) as Hh.
  { clear H. induction h as [|[[k' i'] o] h IH]; [by apply elem_of_nil in Hin|]. cbn [of_signer] in Hin.
    destruct (Nat.eqb_spec k' k) as [->|]; cbn in Hin; [|right; by apply IH].
    destruct (Nat.eqb_spec i' i) as [->|]; cbn in Hin; [|right; by apply IH].
    apply elem_of_cons in Hin as [<-|Hin]; [by left|right; by apply IH]. }
  apply H in Hh. cbn in Hh. apply Z.ltb_lt in Hh. change (2 ^ 63) with 9223372036854775808. lia.
Qed.

Definition w_text (e : pv_error) : bytes := [x65].
Definition w_req (v : pvote) : bytes := default [] (write_msg (SignVoteRequest (Some v) w_chain)).
Definition open_conn (i : nat) : list slabel :=
  [GLoop i LStep; GLoop i (LDial true); GLoop i (LSecret true); GLoop i LStep].
Definition ask (i : nat) (v : pvote) : list slabel := [GLoop i (LRead (w_req v)); GAsk i Written; GLoop i LWrite].
(** a restart between two requests *)
Definition w_restart : list slabel :=
  [GStart 1] ++ open_conn 0 ++ ask 0 (w_vote x41) ++ [GKill; GStart 1] ++ open_conn 0 ++ ask 0 (w_vote x42).
(** two chain nodes: the second asks for another block and gets an error, then for the block of the
    first at a later time and gets the vote of the first *)
Definition w_two : list slabel :=
  [GStart 2] ++ open_conn 0 ++ open_conn 1 ++ ask 0 (w_vote x41) ++ ask 1 (w_vote x42) ++
  [GLoop 1 LStep; GLoop 1 LStep] ++ ask 1 w_later.
Notation run_of reload f ls := (do_labels w_key PkNone w_text w_chain reload (not_started f) ls).

Lemma read_one h k i c m : read_msg (received c (of_signer k i h)) = Some (m, []) -> read_from h k i c m.
Proof.
  intros H. exists [m], []. split; [|by apply elem_of_list_singleton]. econstructor; [exact H|constructor].
Qed.
Lemma read_two h k i c m m' r : read_msg (received c (of_signer k i h)) = Some (m, r) -> read_msg r = Some (m', []) ->
  read_from h k i c m /\ read_from h k i c m'.
Proof.
  intros H H'. split; (exists [m; m'], []; split; [econstructor; [exact H|econstructor; [exact H'|constructor]]|]).
  - apply elem_of_cons. by left.
  - apply elem_of_cons. right. by apply elem_of_list_singleton.
Qed.

Definition restart_summary (r : option (single * list sobs)) : Prop :=
  match r with
  | Some (_, h) => forallb short h = true /\
      match read_msg (received 0 (of_signer 1 0 h)), read_msg (received 0 (of_signer 2 0 h)) with
      | Some (SignedVoteResponse a None, []), Some (SignedVoteResponse b None, []) =>
          pv_vote a = pv_vote (w_vote x41) /\ pv_vote b = pv_vote (w_vote x42)
      | _, _ => False
      end
  | None => False
  end.
Lemma restart_ok : restart_summary (run_of false None w_restart).
Proof. vm_compute. repeat split. Qed.
Lemma restart_facts r : restart_summary r -> exists S h a b, r = Some (S, h) /\ all_fit h /\ got_vote h 1 a /\ got_vote h 2 b /\
  pv_vote a = pv_vote (w_vote x41) /\ pv_vote b = pv_vote (w_vote x42).
Proof.
  intros H. destruct r as [[S h]|]; [|exfalso; exact H]. destruct H as [Hs H].
  destruct (read_msg (received 0 (of_signer 1 0 h))) as [[m1 r1]|] eqn:E1; [|exfalso; exact H].
  destruct m1 as [| | | |v1 [e1|]| | | |], r1 as [|b1 r1]; try (exfalso; exact H).
  destruct (read_msg (received 0 (of_signer 2 0 h))) as [[m2 r2]|] eqn:E2; [|exfalso; exact H].
  destruct m2 as [| | | |v2 [e2|]| | | |], r2 as [|b2 r2]; try (exfalso; exact H).
  destruct H as [Ha Hb].
  eexists S, h, _, _. split; [reflexivity|]. split; [by apply short_fit|].
  split; [exists 0%nat, 0%nat; by apply read_one|]. split; [exists 0%nat, 0%nat; by apply read_one|]. split; [exact Ha|exact Hb].
Qed.
Lemma restart_read : exists key pub text chain h S v w,
  Z.of_nat (length chain) < 2 ^ 62 /\ single_run key pub text chain false (not_started None) h S /\ all_fit h /\
  got_vote h 1 v /\ got_vote h 2 w /\ double_vote (pv_vote v) (pv_vote w).
Proof.
  destruct (restart_facts _ restart_ok) as (S & h & a & b & E & Hf & Ha & Hb & Va & Vb).
  exists w_key, PkNone, w_text, w_chain, h, S, a, b. split; [done|].
  split; [exact (do_run _ _ _ _ _ _ _ [] _ _ _ (sr_nil _ _ _ _ _ _) E)|]. split; [exact Hf|]. split; [exact Ha|]. split; [exact Hb|].
  rewrite Va, Vb. repeat split. discriminate.
Qed.

Definition two_summary (r : option (single * list sobs)) : Prop :=
  match r with
  | Some (_, h) => forallb short h = true /\
      match read_msg (received 0 (of_signer 1 0 h)), read_msg (received 0 (of_signer 1 1 h)) with
      | Some (SignedVoteResponse a None, []), Some (SignedVoteResponse e (Some _), r) =>
          match read_msg r with
          | Some (SignedVoteResponse b None, []) =>
              pv_vote a = pv_vote (w_vote x41) /\ pv_vote b = pv_vote (w_vote x41) /\ pv_sig a = pv_sig b /\ e = empty_pvote
          | _ => False
          end
      | _, _ => False
      end
  | None => False
  end.
Lemma two_ok reload : two_summary (run_of reload (Some lss_zero) w_two).
Proof. destruct reload; vm_compute; repeat split. Qed.
Lemma two_facts r : two_summary r -> exists S h a b, r = Some (S, h) /\ all_fit h /\ got_vote h 1 a /\ got_vote h 1 b /\
  pv_vote a = pv_vote (w_vote x41) /\ pv_vote b = pv_vote (w_vote x41) /\ pv_sig a = pv_sig b /\
  exists e, read_from h 1 1 0 (SignedVoteResponse empty_pvote (Some e)).
Proof.
  intros H. destruct r as [[S h]|]; [|exfalso; exact H]. destruct H as [Hs H].
  destruct (read_msg (received 0 (of_signer 1 0 h))) as [[m1 r1]|] eqn:E1; [|exfalso; exact H].
  destruct m1 as [| | | |v1 [e1|]| | | |], r1 as [|b1 r1]; try (exfalso; exact H).
  destruct (read_msg (received 0 (of_signer 1 1 h))) as [[m2 r]|] eqn:E2; [|exfalso; exact H].
  destruct m2 as [| | | |v2 [e2|]| | | |]; try (exfalso; exact H).
  destruct (read_msg r) as [[m3 r3]|] eqn:E3; [|exfalso; exact H].
  destruct m3 as [| | | |v3 [e3|]| | | |], r3 as [|b3 r3]; try (exfalso; exact H).
  destruct H as (Ha & Hb & Hc & ->).
  destruct (read_two _ _ _ _ _ _ _ E2 E3) as [R1 R2].
  eexists S, h, _, _. split; [reflexivity|]. split; [by apply short_fit|].
  split; [exists 0%nat, 0%nat; by apply read_one|]. split; [exists 1%nat, 0%nat; exact R2|].
  split; [exact Ha|]. split; [exact Hb|]. split; [exact Hc|]. eauto.
Qed.
Lemma two_read reload : exists h S v w,
  single_run w_key PkNone w_text w_chain reload (not_started (Some lss_zero)) h S /\ all_fit h /\
  got_vote h 1 v /\ got_vote h 1 w /\ pv_vote v = pv_vote (w_vote x41) /\ pv_vote w = pv_vote (w_vote x41) /\
  pv_sig v = pv_sig w /\ pv_vote w_later <> pv_vote (w_vote x41) /\
  exists e, read_from h 1 1 0 (SignedVoteResponse empty_pvote (Some e)).
Proof.
  destruct (two_facts _ (two_ok reload)) as (S & h & a & b & E & Hf & Ha & Hb & Va & Vb & Hs & He).
  exists h, S, a, b. split; [exact (do_run _ _ _ _ _ _ _ [] _ _ _ (sr_nil _ _ _ _ _ _) E)|].
  split; [exact Hf|]. split; [exact Ha|]. split; [exact Hb|]. split; [exact Va|]. split; [exact Vb|]. split; [exact Hs|].
  split; [discriminate|exact He].
Qed.

(** a signer waiting for a request *)
Lemma waiting : exists h S st, single_run w_key PkNone w_text w_chain false (not_started None) h S /\
  si_loops S !! 0%nat = Some st /\ l_pc st = PRead 0 /\ wo_mem (si_world S) = Some lss_zero /\
  read_msg (w_req (w_vote x41)) = Some (SignVoteRequest (Some (w_vote x41)) w_chain, []) /\
  above (HRS 7 0 2) (ls_hrs lss_zero) /\
  exists sb sig, vote_sign_bytes w_chain (pv_vote (w_vote x41)) = Val sb /\ w_key sb = Some sig.
Proof.
  assert (match run_of false None ([GStart 1] ++ open_conn 0) with
          | Some (S1, _) => match si_loops S1 !! 0%nat with Some st => l_pc st = PRead 0 /\ wo_mem (si_world S1) = Some lss_zero | None => False end
          | None => False end) as H by (vm_compute; repeat split).
  destruct (run_of false None ([GStart 1] ++ open_conn 0)) as [[S h]|] eqn:E; [|exfalso; exact H].
  destruct (si_loops S !! 0%nat) as [st|] eqn:El; [|exfalso; exact H]. destruct H as [H1 H2].
  exists h, S, st. split; [exact (do_run _ _ _ _ _ _ _ [] _ _ _ (sr_nil _ _ _ _ _ _) E)|]. split; [exact El|]. split; [exact H1|].
  split; [exact H2|]. split; [by vm_compute|]. split; [left; cbn; lia|]. eexists _, _. split; [vm_compute; reflexivity|reflexivity].
Qed.
