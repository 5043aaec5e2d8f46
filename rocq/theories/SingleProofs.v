(** What chain nodes read from a single signer: proofs. *)
From Verif Require Import GoBase Wire Canonical CanonicalProofs CanonicalApi Spec Validator Privval RemoteSigner PrivvalSpec PrivvalProofs
  RemoteSignerProofs ConnLoop ConnLoopSpec ConnLoopProofs FilePV FilePVSpec FilePVProofs SocketSpec SocketProofs Single SingleSpec.
Local Open Scope nat_scope.

Lemma of_signer_app k i a b : of_signer k i (a ++ b) = of_signer k i a ++ of_signer k i b.
Proof.
  induction a as [|[[k' i'] o] a IH]; [done|]. cbn [app of_signer]. destruct (_ && _); [|done]. by rewrite IH.
Qed.
Lemma of_signer_tag k i o : of_signer k i (tag k i o) = o.
Proof. unfold tag. induction o as [|x o IH]; [done|]. cbn [map of_signer]. by rewrite !Nat.eqb_refl, IH. Qed.
Lemma of_signer_other k i k' i' o : (k', i') <> (k, i) -> of_signer k i (tag k' i' o) = [].
Proof.
  intros H. unfold tag. induction o as [|x o IH]; [done|]. cbn [map of_signer]. rewrite IH.
  destruct (Nat.eqb_spec k' k) as [->|]; [|done]. destruct (Nat.eqb_spec i' i) as [->|]; done.
Qed.
Lemma lrun_app chain st ls st1 o1 l : lrun chain st ls = Some (st1, o1) ->
  lrun chain st (ls ++ [l]) = match lstep chain st1 l with Some (st2, o2) => Some (st2, o1 ++ o2) | None => None end.
Proof.
  revert st st1 o1. induction ls as [|x ls IH]; intros st st1 o1 H.
  - injection H as <- <-. cbn [app lrun]. destruct (lstep chain st l) as [[st2 o2]|]; [|done]. by rewrite app_nil_r.
  - cbn [app lrun] in *. destruct (lstep chain st x) as [[sa oa]|]; [|done].
    destruct (lrun chain sa ls) as [[sb ob]|] eqn:E; [|done]. injection H as <- <-.
    rewrite (IH _ _ _ E). destruct (lstep chain sb l) as [[sc oc]|]; [|done]. by rewrite app_assoc.
Qed.
Lemma pv_run_snoc key chain reload w es e :
  pv_run key chain reload w (es ++ [e]) =
  (fst (pv_step key chain reload (fst (pv_run key chain reload w es)) e),
   snd (pv_run key chain reload w es) ++ [snd (pv_step key chain reload (fst (pv_run key chain reload w es)) e)]).
Proof.
  revert w. induction es as [|x es IH]; intros w; cbn [app pv_run fst snd].
  - by destruct (pv_step key chain reload w e).
  - destruct (pv_step key chain reload w x) as [w1 o]. rewrite IH.
    destruct (pv_run key chain reload w1 es) as [w2 os]. done.
Qed.

(** a signer that gives the answer to one request, whatever it is asked *)
Definition only (s : signer) (chain : bytes) (req : message) : signer :=
  Signer (sg_pub s)
    (fun _ _ => match req with SignVoteRequest v _ => sg_vote s chain v | _ => Fail [] end)
    (fun _ _ => match req with SignProposalRequest p _ => sg_prop s chain p | _ => Fail [] end).
Lemma lstep_only chain st c req s : l_pc st = PHandle c req ->
  lstep chain st (LHandle (only s chain req)) = lstep chain st (LHandle s).
Proof. intros H. unfold lstep. rewrite H. by destruct req. Qed.
(** what it answers was handed out by FilePV *)
Definition asks (os : list seen) (s : signer) : Prop :=
  (forall ch v a, sg_vote s ch v = Val a -> SawVote a ∈ os /\ pvote_ok a) /\
  (forall ch p a, sg_prop s ch p = Val a -> SawProp a ∈ os /\ pprop_ok a) /\
  (forall k, sg_pub s = Val k -> True).
Lemma asks_mono os os' s : (forall o, o ∈ os -> o ∈ os') -> asks os s -> asks os' s.
Proof.
  intros H (H1 & H2 & H3). split; [|split; [|done]].
  - intros ch v a Ha. apply H1 in Ha as [Ha ?]. split; [by apply H|done].
  - intros ch v a Ha. apply H2 in Ha as [Ha ?]. split; [by apply H|done].
Qed.
Lemma validators_mono os os' ls : (forall o, o ∈ os -> o ∈ os') -> validators (asks os) ls -> validators (asks os') ls.
Proof.
  intros H. unfold validators. induction 1 as [|l ls Hl _ IH]; constructor; [|done].
  destruct l; try done. by eapply asks_mono.
Qed.
Lemma asks_message_ok os chain req res bs : read_msg bs = Some (req, []) -> may_answer (asks os) chain req res -> message_ok res.
Proof.
  intros _ (s & (H1 & H2 & _) & H). unfold handle_request in H.
  destruct req as [|c|k e|v c|v e|p c|p e| |]; try (by injection H as <-).
  - unfold handle_pub_key in H. destruct (sg_pub s); [injection H as <-|injection H as <-|discriminate]; done.
  - unfold handle_vote in H. destruct (sg_vote s chain v) as [a|t|] eqn:E; [|injection H as <-|done].
    + injection H as <-. apply H1 in E as [_ E]. split; [exact E|exact I].
    + split; [apply empty_pvote_ok|]. cbn. done.
  - unfold handle_proposal in H. destruct (sg_prop s chain p) as [a|t|] eqn:E; [|injection H as <-|done].
    + injection H as <-. apply H2 in E as [_ E]. split; [exact E|exact I].
    + split; [apply empty_pprop_ok|]. cbn. done.
Qed.

Section Proofs.
Context (key : bytes -> option bytes) (pub : pubkey) (text : pv_error -> bytes) (chain : bytes) (reload : bool) (f0 : option lss).
Notation run := (pv_run key chain reload).
Notation step := (pv_step key chain reload).
Context (Hsig : forall es, Forall from_wire es -> Forall (signed_by key chain) (snd (run (World f0 None) es))).

Lemma vote_time v sb : vote_sign_bytes chain v = Val sb -> time_valid (v_ts v) = true.
Proof.
  unfold vote_sign_bytes, canonicalize_vote. destruct (canonicalize_bid (v_bid v)); try discriminate.
  cbn. by destruct (time_valid (v_ts v)).
Qed.
Lemma prop_time v sb : proposal_sign_bytes chain v = Val sb -> time_valid (p_ts v) = true.
Proof.
  unfold proposal_sign_bytes, canonicalize_proposal. destruct (canonicalize_bid (p_bid v)); try discriminate.
  cbn. by destruct (time_valid (p_ts v)).
Qed.

(** one life: FilePV was started and then asked [es] *)
Definition life (os_all : list seen) (k : nat) (h : list sobs) (w : world) (loops : list lstate) : Prop :=
  exists f m es os, Forall from_wire es /\ Forall not_start es /\ run (World f m) (Start :: es) = (w, os) /\
    (forall o, o ∈ os -> o ∈ os_all) /\
    forall i, exists ls st, lrun chain l0 ls = Some (st, of_signer k i h) /\ validators (asks os) ls /\
      forall st', loops !! i = Some st' -> st' = st /\ forall c req, l_pc st' = PHandle c req -> exists bs, read_msg bs = Some (req, []).
Definition inv (h : list sobs) (S : single) : Prop :=
  exists es os, run (World f0 None) es = (si_world S, os) /\ Forall from_wire es /\
    (forall k, 0 < k < si_life S -> exists w, life os k h w []) /\
    (if decide (si_life S = 0) then si_loops S = [] else life os (si_life S) h (si_world S) (si_loops S)) /\
    (forall k i, si_life S < k \/ k = 0 -> of_signer k i h = []).

Lemma life_mono os os' k h h' w loops loops' :
  (forall o, o ∈ os -> o ∈ os') -> (forall i, of_signer k i h' = of_signer k i h) ->
  (forall i st, loops' !! i = Some st -> loops !! i = Some st) ->
  life os k h w loops -> life os' k h' w loops'.
Proof.
  intros Ho Hh Hl (f & m & es & osk & H1 & H2 & H3 & H4 & H5). exists f, m, es, osk.
  split; [done|]. split; [done|]. split; [done|]. split; [auto|]. intros i. destruct (H5 i) as (ls & st & E1 & E2 & E3).
  exists ls, st. rewrite Hh. split; [done|]. split; [done|]. intros st' Hs. by apply E3, Hl.
Qed.

Lemma outcome_saw_vote w l v wr a : wo_mem w = Some l -> pv_outcome text (sign_vote key chain l v) wr = Val a ->
  snd (step w (AskVote v wr)) = SawVote a.
Proof.
  intros Hm. cbn [pv_step]. rewrite Hm. unfold pv_outcome, finish.
  destruct (sign_vote key chain l v); [|destruct wr|..]; try done; by intros [= ->].
Qed.
Lemma outcome_saw_prop w l v wr a : wo_mem w = Some l -> pv_outcome text (sign_prop key chain l v) wr = Val a ->
  snd (step w (AskProp v wr)) = SawProp a.
Proof.
  intros Hm. cbn [pv_step]. rewrite Hm. unfold pv_outcome, finish.
  destruct (sign_prop key chain l v); [|destruct wr|..]; try done; by intros [= ->].
Qed.

(** the event of a request, if it is one to FilePV *)
Definition asked (req : message) (wr : written) : option event :=
  match req with
  | SignVoteRequest v _ => Some (AskVote v wr)
  | SignProposalRequest p _ => Some (AskProp p wr)
  | _ => None
  end.
Lemma effect_asked w req wr : pv_effect key chain reload w req wr =
  match asked req wr with Some e => fst (step w e) | None => w end.
Proof. by destruct req. Qed.
Lemma asked_ok req wr e bs : asked req wr = Some e -> read_msg bs = Some (req, []) -> from_wire e /\ not_start e.
Proof. destruct req; try done; intros [= <-] H; (split; [|done]); cbn; eauto. Qed.

(** the answer to a request was handed out and is a message that can be sent *)
Lemma asks_now w l req wr bs os : wo_mem w = Some l -> read_msg bs = Some (req, []) ->
  (forall e, asked req wr = Some e -> snd (step w e) ∈ os /\ signed_by key chain (snd (step w e))) ->
  asks os (only (fpv_signer key pub text l wr) chain req).
Proof.
  intros Hm Hr He. apply read_msg_ok in Hr. split; [|split; [|done]].
  - intros ch v0 a. destruct req as [|c|k e|v c|v e|p c|p e| |]; try discriminate. cbn. intros Ha.
    pose proof (outcome_saw_vote _ _ _ _ _ Hm Ha) as Hs. destruct (He _ eq_refl) as [H1 H2]. rewrite Hs in H1, H2.
    split; [exact H1|]. destruct H2 as (sb & H2 & _). apply vote_time in H2.
    destruct v as [v|]; [|cbn in Ha; discriminate]. cbn in Hr. destruct (vote_answer key chain reload w v wr a Hs) as (K1 & K2 & K3 & K4 & K5 & K6).
    unfold pvote_ok in *. rewrite K1, K2, K3, K4, K6. tauto.
  - intros ch v0 a. destruct req as [|c|k e|v c|v e|p c|p e| |]; try discriminate. cbn. intros Ha.
    pose proof (outcome_saw_prop _ _ _ _ _ Hm Ha) as Hs. destruct (He _ eq_refl) as [H1 H2]. rewrite Hs in H1, H2.
    split; [exact H1|]. destruct H2 as (sb & H2 & _). apply prop_time in H2.
    destruct p as [p|]; [|cbn in Ha; discriminate]. cbn in Hr. destruct (prop_answer key chain reload w p wr a Hs) as (K1 & K2 & K3 & K4 & K5).
    unfold pprop_ok in *. rewrite K1, K2, K3, K4, K5. tauto.
Qed.

Lemma life_step os_all os_all' k h w loops loops' i st l st' c req lw wr bs o e :
  life os_all k h w loops -> (forall x, x ∈ os_all -> x ∈ os_all') ->
  wo_mem w = Some lw -> read_msg bs = Some (req, []) -> asked req wr = Some e ->
  snd (step w e) ∈ os_all' -> signed_by key chain (snd (step w e)) ->
  loops !! i = Some st -> l_pc st = PHandle c req -> l = LHandle (only (fpv_signer key pub text lw wr) chain req) ->
  lstep chain st l = Some (st', o) ->
  (forall c req, l_pc st' = PHandle c req -> exists bs, read_msg bs = Some (req, [])) ->
  (forall j x, loops' !! j = Some x -> (j = i /\ x = st') \/ (j <> i /\ loops !! j = Some x)) ->
  life os_all' k (h ++ tag k i o) (fst (step w e)) loops'.
Proof.
  intros (f & m & es & os & H1 & H2 & H3 & H4 & H5) Ho Hm Hr He Hin Hsg Hi Hpc -> Hs Hp Hl.
  destruct (asked_ok _ _ _ _ He Hr) as [He1 He2].
  assert (Hmono : forall x, x ∈ os -> x ∈ os ++ [snd (step w e)]) by (intros x Hx; apply elem_of_app; by left).
  exists f, m, (es ++ [e]), (os ++ [snd (step w e)]).
  split; [apply list.Forall_app; split; [done|by constructor]|]. split; [apply list.Forall_app; split; [done|by constructor]|].
  split; [rewrite app_comm_cons, pv_run_snoc, H3; done|].
  split. { intros x Hx. apply elem_of_app in Hx as [Hx|Hx]; [by apply Ho, H4|]. by apply elem_of_list_singleton in Hx as ->. }
  intros j. destruct (H5 j) as (ls & st0 & E1 & E2 & E3). rewrite of_signer_app. destruct (decide (j = i)) as [->|Hj].
  - destruct (E3 _ Hi) as [<- _]. eexists (ls ++ [_]), st'. rewrite of_signer_tag. split; [by rewrite (lrun_app _ _ _ _ _ _ E1), Hs|].
    split. { unfold validators in *. apply list.Forall_app. split; [by apply (validators_mono os)|]. constructor; [|constructor].
      eapply asks_now; [exact Hm|exact Hr|]. intros e' He'. rewrite He in He'. injection He' as <-. split; [|done].
      apply elem_of_app. right. by apply elem_of_list_singleton. }
    intros x Hx. destruct (Hl _ _ Hx) as [[_ ->]|[? _]]; [|done]. split; [done|exact Hp].
  - exists ls, st0. rewrite of_signer_other by congruence. rewrite app_nil_r. split; [done|]. split; [by apply (validators_mono os)|].
    intros x Hx. destruct (Hl _ _ Hx) as [[? _]|[_ Hx']]; [done|]. by apply E3.
Qed.
Lemma life_stop os_all os_all' k h w loops : life os_all k h w loops -> (forall x, x ∈ os_all -> x ∈ os_all') ->
  SawNothing ∈ os_all' -> life os_all' k h (fst (step w Stop)) [].
Proof.
  intros (f & m & es & os & H1 & H2 & H3 & H4 & H5) Ho Hin.
  exists f, m, (es ++ [Stop]), (os ++ [SawNothing]).
  split; [apply list.Forall_app; split; [done|by constructor]|]. split; [apply list.Forall_app; split; [done|by constructor]|].
  split; [rewrite app_comm_cons, pv_run_snoc, H3; done|].
  split. { intros x Hx. apply elem_of_app in Hx as [Hx|Hx]; [by apply Ho, H4|]. by apply elem_of_list_singleton in Hx as ->. }
  intros i. destruct (H5 i) as (ls & st & E1 & E2 & E3). exists ls, st. split; [done|].
  split; [|intros st' Hs; by rewrite lookup_nil in Hs]. eapply validators_mono; [|exact E2]. intros x Hx. apply elem_of_app. by left.
Qed.
(** signer [i] moves without FilePV *)
Lemma life_move os_all k h w loops loops' i st l st' o :
  life os_all k h w loops -> loops !! i = Some st -> lstep chain st l = Some (st', o) ->
  (match l with LHandle s => forall os, asks os s | _ => True end) ->
  (forall c req, l_pc st' = PHandle c req -> exists bs, read_msg bs = Some (req, [])) ->
  (forall j x, loops' !! j = Some x -> (j = i /\ x = st') \/ (j <> i /\ loops !! j = Some x)) ->
  life os_all k (h ++ tag k i o) w loops'.
Proof.
  intros (f & m & es & os & H1 & H2 & H3 & H4 & H5) Hi Hs Ha Hp Hl. exists f, m, es, os.
  split; [done|]. split; [done|]. split; [done|]. split; [done|]. intros j. destruct (H5 j) as (ls & st0 & E1 & E2 & E3).
  rewrite of_signer_app. destruct (decide (j = i)) as [->|Hj].
  - destruct (E3 _ Hi) as [<- _]. exists (ls ++ [l]), st'. rewrite of_signer_tag. split; [by rewrite (lrun_app _ _ _ _ _ _ E1), Hs|].
    split. { unfold validators in *. apply list.Forall_app. split; [done|]. constructor; [|constructor]. by destruct l. }
    intros x Hx. destruct (Hl _ _ Hx) as [[_ ->]|[? _]]; [|done]. split; [done|exact Hp].
  - exists ls, st0. rewrite of_signer_other by congruence. rewrite app_nil_r. split; [done|]. split; [done|].
    intros x Hx. destruct (Hl _ _ Hx) as [[? _]|[_ Hx']]; [done|]. by apply E3.
Qed.

Lemma handle_pc st l st' o c req : lstep chain st l = Some (st', o) -> l_pc st' = PHandle c req ->
  (l_pc st = PHandle c req) \/ exists bs, read_msg bs = Some (req, []).
Proof.
  unfold lstep, go, at_top, at_recheck. intros H Hp.
  destruct l as [| |[]|[]|bs| |s| |k]; destruct (l_pc st) eqn:E; try discriminate H; repeat case_match; try discriminate H;
    injection H as <- <-; cbn [l_pc] in Hp; try discriminate Hp; try (left; congruence).
  injection Hp as <- <-. subst. right. eauto.
Qed.

Lemma inv_step h S lab S' o : inv h S -> sg_step key pub text chain reload S lab = Some (S', o) -> inv (h ++ o) S'.
Proof.
  intros (es & os & Hrun & Hw & Hpast & Hcur & Hfut) Hs. destruct S as [w loops k]. cbn [si_world si_loops si_life] in *.
  destruct lab as [n| |i l|i wr]; cbn [sg_step si_world si_loops si_life] in Hs.
  - (* start *)
    destruct (wo_mem w) eqn:Em; [discriminate|]. injection Hs as <- <-. rewrite app_nil_r.
    exists (es ++ [Start]), (os ++ [SawNothing]). cbn [si_world si_loops si_life].
    split; [rewrite pv_run_snoc, Hrun; done|]. split; [apply list.Forall_app; split; [done|by constructor]|].
    assert (Hmono : forall x, x ∈ os -> x ∈ os ++ [SawNothing]) by (intros x Hx; apply elem_of_app; by left).
    split; [|split].
    + intros j Hj. destruct (decide (j < k)) as [Hlt|Hge].
      * destruct (Hpast j ltac:(lia)) as [w0 Hl]. exists w0. eapply life_mono; [exact Hmono|done| |exact Hl]. done.
      * assert (j = k) as -> by lia. destruct (decide (k = 0)) as [?|Hk]; [lia|].
        exists w. eapply life_mono; [exact Hmono|done| |exact Hcur]. intros i st Hi. by rewrite lookup_nil in Hi.
    + rewrite decide_False by lia. exists (wo_file w), (wo_mem w), [], [SawNothing]. split; [constructor|]. split; [constructor|].
      split; [by destruct w|]. split. { intros x Hx. apply elem_of_app. by right. }
      intros i. exists [], l0. rewrite Hfut by lia. split; [done|]. split; [constructor|].
      intros st' Hst. match type of Hst with (match ?x with _ => _ end) !! _ = _ => destruct x end; [|by rewrite lookup_nil in Hst].
      apply lookup_replicate in Hst as [-> _]. done.
    + intros j i Hj. apply Hfut. lia.
  - (* kill *)
    injection Hs as <- <-. rewrite app_nil_r. exists (es ++ [Stop]), (os ++ [SawNothing]). cbn [si_world si_loops si_life].
    split; [rewrite pv_run_snoc, Hrun; done|]. split; [apply list.Forall_app; split; [done|by constructor]|].
    assert (Hmono : forall x, x ∈ os -> x ∈ os ++ [SawNothing]) by (intros x Hx; apply elem_of_app; by left).
    split; [|split; [|done]].
    + intros j Hj. destruct (Hpast j Hj) as [w0 Hl]. exists w0. eapply life_mono; [exact Hmono|done| |exact Hl]. done.
    + destruct (decide (k = 0)); [done|]. eapply life_stop; [exact Hcur|exact Hmono|].
      apply elem_of_app. right. by apply elem_of_list_singleton.
  - (* a signer *)
    assert (exists st st' o0, loops !! i = Some st /\ lstep chain st l = Some (st', o0) /\ (forall s, l <> LHandle s) /\
      S' = Single w (<[i := st']> loops) k /\ o = tag k i o0) as (st & st' & o0 & Hi & Hl & Hnh & -> & ->).
    { destruct (loops !! i) as [st|]; [|by destruct l]. destruct (lstep chain st l) as [[st' o0]|] eqn:El; [|by destruct l].
      destruct l; try discriminate Hs; injection Hs as <- <-; exists st, st', o0; (split; [reflexivity|split; [exact El|split; [intros s H; discriminate H|split; reflexivity]]]). }
    exists es, os. cbn [si_world si_loops si_life]. split; [done|]. split; [done|].
    destruct (decide (k = 0)) as [->|Hk]; [by rewrite Hcur, lookup_nil in Hi|].
    split; [|split].
    + intros j Hj. destruct (Hpast j Hj) as [w0 Hx]. exists w0. eapply life_mono; [done| |done|exact Hx].
      intros i'. rewrite of_signer_app, of_signer_other by (intros [= ? ?]; lia). by rewrite app_nil_r.
    + pose proof Hcur as (? & ? & ? & ? & _ & _ & _ & _ & Hall). destruct (Hall i) as (? & ? & _ & _ & E3).
      eapply life_move; [exact Hcur|exact Hi|exact Hl| | |].
      * destruct l; try exact I. exfalso. by eapply Hnh.
      * intros c req Hp. destruct (handle_pc _ _ _ _ _ _ Hl Hp) as [Hp'|?]; [|done]. apply (E3 _ Hi) in Hp'. done.
      * intros j y Hx. destruct (decide (j = i)) as [->|Hne].
        -- left. rewrite list_lookup_insert in Hx by (by eapply lookup_lt_Some). injection Hx as <-. done.
        -- right. by rewrite list_lookup_insert_ne in Hx by done.
    + intros j i' Hj. rewrite of_signer_app, Hfut, of_signer_other; [done|intros [= ? ?]; lia|done].
  - (* a question to FilePV *)
    destruct (loops !! i) as [st|] eqn:Hi; [|discriminate]. destruct (wo_mem w) as [lw|] eqn:Em; [|discriminate].
    destruct (l_pc st) as [| | | | |c req| | |] eqn:Ep; try discriminate.
    destruct (lstep chain st (LHandle _)) as [[st' o0]|] eqn:Hl; [|discriminate]. injection Hs as <- <-.
    destruct (decide (k = 0)) as [->|Hk]; [by rewrite Hcur, lookup_nil in Hi|].
    pose proof Hcur as (? & ? & ? & ? & _ & _ & _ & _ & Hall). destruct (Hall i) as (? & ? & _ & _ & E3).
    destruct (E3 _ Hi) as [_ Hrd]. destruct (Hrd _ _ Ep) as [bs Hbs]. clear Hall E3 Hrd.
    set (w' := pv_effect key chain reload w req wr). set (loops' := match wo_mem w' with Some _ => _ | None => _ end).
    assert (Hloops : forall j x, loops' !! j = Some x -> (j = i /\ x = st') \/ (j <> i /\ loops !! j = Some x)).
    { intros j y Hx. unfold loops' in Hx. destruct (wo_mem w'); [|by rewrite lookup_nil in Hx].
      destruct (decide (j = i)) as [->|Hne].
      - left. rewrite list_lookup_insert in Hx by (by eapply lookup_lt_Some). injection Hx as <-. done.
      - right. by rewrite list_lookup_insert_ne in Hx by done. }
    assert (Hpc : forall c req, l_pc st' = PHandle c req -> exists bs, read_msg bs = Some (req, [])).
    { intros c' req' Hp. destruct (handle_pc _ _ _ _ _ _ Hl Hp) as [Hp'|?]; [|done]. rewrite Ep in Hp'. injection Hp' as <- <-. eauto. }
    rewrite <- (lstep_only _ _ _ _ _ Ep) in Hl.
    assert (Hpast' : forall os', (forall x, x ∈ os -> x ∈ os') -> forall j, 0 < j < k -> exists w, life os' j (h ++ tag k i o0) w []).
    { intros os' Hm j Hj. destruct (Hpast j Hj) as [w0 Hx]. exists w0. eapply life_mono; [exact Hm| |done|exact Hx].
      intros i'. rewrite of_signer_app, of_signer_other by (intros [= ? ?]; lia). by rewrite app_nil_r. }
    assert (Hfut' : forall j i', k < j \/ j = 0 -> of_signer j i' (h ++ tag k i o0) = []).
    { intros j i' Hj. rewrite of_signer_app, Hfut, of_signer_other; [done|intros [= ? ?]; lia|done]. }
    unfold inv. cbn [si_world si_loops si_life].
    pose proof (effect_asked w req wr) as Ew. fold w' in Ew. destruct (asked req wr) as [e|] eqn:Ea.
    + destruct (asked_ok _ _ _ _ Ea Hbs) as [He1 He2].
      exists (es ++ [e]), (os ++ [snd (step w e)]).
      assert (Hrun' : run (World f0 None) (es ++ [e]) = (w', os ++ [snd (step w e)])) by (rewrite pv_run_snoc, Hrun, Ew; done).
      assert (Hw' : Forall from_wire (es ++ [e])) by (apply list.Forall_app; split; [done|by constructor]).
      assert (Hmono : forall y, y ∈ os -> y ∈ os ++ [snd (step w e)]) by (intros y Hx; apply elem_of_app; by left).
      split; [done|]. split; [done|]. split; [by apply Hpast'|]. split; [|done].
      rewrite decide_False by done. rewrite Ew. eapply life_step; [exact Hcur|exact Hmono|exact Em|exact Hbs|exact Ea| | |exact Hi|exact Ep|reflexivity|exact Hl|exact Hpc|exact Hloops].
      * apply elem_of_app. right. by apply elem_of_list_singleton.
      * apply Hsig in Hw'. rewrite Hrun' in Hw'. cbn [snd] in Hw'. apply list.Forall_app in Hw' as [_ Hw']. by inversion Hw'.
    + exists es, os. rewrite Ew. split; [done|]. split; [done|]. split; [by apply Hpast'|]. split; [|done].
      rewrite decide_False by done. eapply life_move with (loops := loops); [exact Hcur|exact Hi|exact Hl| |exact Hpc|exact Hloops].
      intros os1. eapply asks_now; [exact Em|exact Hbs|]. intros e He. by rewrite Ea in He.
Qed.

Lemma inv_start : inv [] (not_started f0).
Proof. exists [], []. split; [done|]. split; [constructor|]. split; [cbn; lia|]. split; [done|]. done. Qed.
Lemma inv_run h S : single_run key pub text chain reload (not_started f0) h S -> inv h S.
Proof. induction 1 as [|h S lab S' o _ IH Hs]; [apply inv_start|by eapply inv_step]. Qed.

(** what an answer is made of *)
Lemma answer_vote os req v : may_answer (asks os) chain req (SignedVoteResponse v None) -> SawVote v ∈ os.
Proof.
  intros (s & (H1 & H2 & _) & H). unfold handle_request in H.
  destruct req as [|c|k e|a c|a e|p c|p e| |]; try discriminate H.
  - unfold handle_pub_key in H. by destruct (sg_pub s).
  - unfold handle_vote in H. destruct (sg_vote s chain a) as [b|t|] eqn:E; try discriminate H.
    injection H as <-. by apply H1 in E as [E _].
  - unfold handle_proposal in H. by destruct (sg_prop s chain p).
Qed.
Lemma answer_prop os req v : may_answer (asks os) chain req (SignedProposalResponse v None) -> SawProp v ∈ os.
Proof.
  intros (s & (H1 & H2 & _) & H). unfold handle_request in H.
  destruct req as [|c|k e|a c|a e|p c|p e| |]; try discriminate H.
  - unfold handle_pub_key in H. by destruct (sg_pub s).
  - unfold handle_vote in H. by destruct (sg_vote s chain a).
  - unfold handle_proposal in H. destruct (sg_prop s chain p) as [b|t|] eqn:E; try discriminate H.
    injection H as <-. by apply H2 in E as [E _].
Qed.

(** everything read in one life was handed out in that life *)
Lemma life_reads os_all k h w loops : life os_all k h w loops -> all_fit h ->
  exists f mm es, Forall from_wire es /\ Forall not_start es /\
    (forall o, o ∈ snd (run (World f mm) (Start :: es)) -> o ∈ os_all) /\
    forall i c m, read_from h k i c m -> exists req, may_answer (asks (snd (run (World f mm) (Start :: es)))) chain req m.
Proof.
  intros (f & mm & es & os & H1 & H2 & H3 & H4 & H5) Hfit.
  exists f, mm, es. rewrite H3. split; [done|]. split; [done|]. split; [done|].
  intros i c m (ms & rest & Hr & Hm). destruct (H5 i) as (ls & st & E1 & E2 & _).
  destruct (node_reads _ _ _ _ _ _ _ _ _ E1 E2 (Hfit _ _) (fun req res bs => asks_message_ok _ _ _ _ _) Hr Hm) as (req & bs & _ & Ha).
  eauto.
Qed.
Lemma silent_reads h k i c m : of_signer k i h = [] -> ~ read_from h k i c m.
Proof.
  intros E (ms & rest & Hr & Hm). rewrite E in Hr.
  destruct (node_reads chain (fun _ => False) [] l0 [] c ms rest m eq_refl) as (req & bs & _ & s & [] & _).
  - constructor.
  - intros ??? Hx. by apply elem_of_nil in Hx.
  - intros req res bs _ (s & [] & _).
  - exact Hr.
  - exact Hm.
Qed.
Lemma lives h S : single_run key pub text chain reload (not_started f0) h S -> all_fit h ->
  exists es, Forall from_wire es /\
    forall k, exists f mm esk, Forall from_wire esk /\ Forall not_start esk /\
      (forall v, got_vote h k v -> SawVote v ∈ snd (run (World f mm) (Start :: esk)) /\ SawVote v ∈ snd (run (World f0 None) es)) /\
      (forall p, got_proposal h k p -> SawProp p ∈ snd (run (World f mm) (Start :: esk)) /\ SawProp p ∈ snd (run (World f0 None) es)).
Proof.
  intros Hr Hfit. apply inv_run in Hr as (es & os & Hrun & Hw & Hpast & Hcur & Hfut).
  exists es. split; [done|]. rewrite Hrun. cbn [snd]. intros k.
  destruct (decide (0 < k < si_life S \/ (k = si_life S /\ k <> 0))) as [Hk|Hk].
  - assert (exists w loops, life os k h w loops) as (w & loops & Hl).
    { destruct Hk as [Hk|[-> Hk]]; [destruct (Hpast _ Hk) as [w Hl]; eauto|]. rewrite decide_False in Hcur by done. eauto. }
    destruct (life_reads _ _ _ _ _ Hl Hfit) as (f & mm & esk & H1 & H2 & H3 & H4). exists f, mm, esk.
    split; [done|]. split; [done|]. split.
    + intros v (i & c & Hv). destruct (H4 _ _ _ Hv) as [req Ha]. apply answer_vote in Ha. split; [done|by apply H3].
    + intros v (i & c & Hv). destruct (H4 _ _ _ Hv) as [req Ha]. apply answer_prop in Ha. split; [done|by apply H3].
  - exists None, None, []. split; [constructor|]. split; [constructor|].
    split; intros v (i & c & Hv); exfalso; revert Hv; apply silent_reads, Hfut; lia.
Qed.
End Proofs.

Local Open Scope Z_scope.
Lemma one_life_read key pub text chain f h S k : Z.of_nat (length chain) < 2 ^ 62 ->
  single_run key pub text chain false (not_started f) h S -> all_fit h ->
  (forall v, got_vote h k v -> vote_signed key chain v) /\
  (forall p, got_proposal h k p -> proposal_signed key chain p) /\
  (forall v w, got_vote h k v -> got_vote h k w -> one_vote v w) /\
  (forall p q, got_proposal h k p -> got_proposal h k q -> one_proposal p q).
Proof.
  intros Hc Hr Hfit. pose proof (fun es => always_signed_wire key chain f es Hc) as Hsig.
  destruct (lives _ _ _ _ _ _ Hsig _ _ Hr Hfit) as (? & _ & H). destruct (H k) as (fk & mm & esk & H1 & H2 & Hv & Hp).
  destruct (one_life_wire key chain fk mm esk Hc H1 H2) as [Hno Hsg]. rewrite list.Forall_forall in Hsg.
  split; [|split; [|split]].
  - intros v Hg. apply Hv in Hg as [Hg _]. exact (Hsg _ Hg).
  - intros p Hg. apply Hp in Hg as [Hg _]. exact (Hsg _ Hg).
  - intros v w Hg1 Hg2 E1 E2 E3. apply Hv in Hg1 as [Hg1 _], Hg2 as [Hg2 _]. exact (Hno _ _ Hg1 Hg2 (conj E2 (conj E3 E1))).
  - intros v w Hg1 Hg2 E1 E2. apply Hp in Hg1 as [Hg1 _], Hg2 as [Hg2 _]. exact (Hno _ _ Hg1 Hg2 (conj E1 E2)).
Qed.
Lemma reload_read key pub text chain h S k k' : Z.of_nat (length chain) < 2 ^ 62 ->
  single_run key pub text chain true (not_started (Some lss_zero)) h S -> all_fit h ->
  (forall v, got_vote h k v -> vote_signed key chain v) /\
  (forall p, got_proposal h k p -> proposal_signed key chain p) /\
  (forall v w, got_vote h k v -> got_vote h k' w -> one_vote v w) /\
  (forall p q, got_proposal h k p -> got_proposal h k' q -> one_proposal p q).
Proof.
  intros Hc Hr Hfit. pose proof (fun es He => proj2 (reload_wire key chain es Hc He)) as Hsig.
  destruct (lives _ _ _ _ _ _ Hsig _ _ Hr Hfit) as (es & He & H).
  destruct (H k) as (? & ? & ? & _ & _ & Hv & Hp). destruct (H k') as (? & ? & ? & _ & _ & Hv' & Hp').
  destruct (reload_wire key chain es Hc He) as [Hno Hsg]. rewrite list.Forall_forall in Hsg.
  split; [|split; [|split]].
  - intros v Hg. apply Hv in Hg as [_ Hg]. exact (Hsg _ Hg).
  - intros p Hg. apply Hp in Hg as [_ Hg]. exact (Hsg _ Hg).
  - intros v w Hg1 Hg2 E1 E2 E3. apply Hv in Hg1 as [_ Hg1]. apply Hv' in Hg2 as [_ Hg2]. exact (Hno _ _ Hg1 Hg2 (conj E2 (conj E3 E1))).
  - intros v w Hg1 Hg2 E1 E2. apply Hp in Hg1 as [_ Hg1]. apply Hp' in Hg2 as [_ Hg2]. exact (Hno _ _ Hg1 Hg2 (conj E1 E2)).
Qed.
