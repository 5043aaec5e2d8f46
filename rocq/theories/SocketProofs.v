(** What chain nodes read. *)
From Verif Require Import GoBase Wire WireProofs Canonical CanonicalProofs CanonicalApi SignState Spec Crypto Validator ValidatorSpec
  ValidatorProofs Privval RemoteSigner PrivvalSpec PrivvalProofs RemoteSignerProofs ConnLoop ConnLoopSpec ConnLoopProofs
  LocalCosigner Disk DiskSpec System SystemSpec SystemProofs SocketSpec.
Local Open Scope Z_scope.

(** ** Bytes on a connection *)

Lemma received_app c a b : received c (a ++ b) = received c a ++ received c b.
Proof.
  induction a as [|o a IH]; [done|]. destruct o; cbn [app received]; try exact IH.
  destruct (Nat.eqb _ _); [|exact IH]. by rewrite IH, app_assoc.
Qed.
Lemma received_talk c tr : received c (talk tr) = received c tr.
Proof.
  unfold talk. induction tr as [|o tr IH]; [done|]. destruct o; cbn [List.filter is_talk received]; try exact IH.
  by rewrite IH.
Qed.
Lemma talk_elem o tr : o ∈ talk tr -> o ∈ tr.
Proof.
  unfold talk. rewrite !elem_of_list_In. intros H. apply filter_In in H. tauto.
Qed.
Lemma received_other c tr : (forall c' bs, OOut c' bs ∈ tr -> c' <> c) -> received c tr = [].
Proof.
  induction tr as [|o tr IH]; intros H; [done|].
  assert (Hr : received c tr = []) by (apply IH; intros c' bs Hc; apply (H c' bs); by apply elem_of_list_further).
  destruct o; cbn [received]; try exact Hr. destruct (Nat.eqb_spec c0 c) as [->|]; [|exact Hr].
  exfalso. apply (H c bs); [apply elem_of_list_here|done].
Qed.

Section Sent.
Context (A : message -> message -> Prop).
(** complete answers, then perhaps the beginning of one; [G] holds of all of them *)
Definition sent (G : message -> Prop) (l : bytes) : Prop :=
  exists outs tail, l = stream outs ++ tail /\ Forall G outs /\
    (tail = [] \/ exists x rest, G x /\ delimited (m_message x) = tail ++ rest).
(** answered in [tr] *)
Definition good (tr : list lobs) (m : message) : Prop :=
  exists c req bs, OAsk c req m ∈ tr /\ A req m /\ read_msg bs = Some (req, []).

Lemma good_mono tr tr' m : (forall o, o ∈ tr -> o ∈ tr') -> good tr m -> good tr' m.
Proof. intros H (c & req & bs & H1 & H2). exists c, req, bs. split; [by apply H|done]. Qed.
Lemma sent_mono (G G' : message -> Prop) l : (forall m, G m -> G' m) -> sent G l -> sent G' l.
Proof.
  intros H (outs & tail & -> & Ho & Ht). exists outs, tail. split; [done|]. split.
  - induction Ho; constructor; auto.
  - destruct Ht as [?|(x & rest & Hx & E)]; [by left|]. right. eauto.
Qed.

Lemma write_delimited m w : write_msg m = Some w -> w = delimited (m_message m).
Proof. unfold write_msg. destruct (marshallable m); [|discriminate]. by intros [= <-]. Qed.

Lemma shown_received n xs : Forall (exchange_ok A) xs ->
  received n (concat (map (shown n) xs)) = stream (map x_res xs) /\
  (forall x, x ∈ xs -> good (concat (map (shown n) xs)) (x_res x)).
Proof.
  induction 1 as [|x xs (Hr & Ha & Hw) H IH]; [split; [done|intros x Hx; by apply elem_of_nil in Hx]|].
  destruct IH as [IH1 IH2]. apply write_delimited in Hw. cbn [map concat]. split.
  - rewrite received_app. rewrite IH1. unfold shown at 1. cbn [received]. rewrite Nat.eqb_refl, Hw, app_nil_r. done.
  - intros y Hy. apply elem_of_cons in Hy as [-> |Hy].
    + exists n, (x_req x), (x_in x). split; [|done]. apply elem_of_app. left.
      apply elem_of_list_further, elem_of_list_here.
    + apply IH2 in Hy. revert Hy. apply good_mono. intros o Ho. apply elem_of_app. by right.
Qed.
Lemma shown_outs n xs c bs : OOut c bs ∈ concat (map (shown n) xs) -> c = n.
Proof.
  induction xs as [|x xs IH]; cbn [map concat]; [intros H; by apply elem_of_nil in H|].
  intros H. apply elem_of_app in H as [H|H]; [|by apply IH].
  unfold shown in H. repeat (apply elem_of_cons in H as [H|H]; [by first [discriminate H|injection H]|]).
  by apply elem_of_nil in H.
Qed.
Lemma sent_exchanges n xs : Forall (exchange_ok A) xs -> forall e, e = [] \/ e = [OClose n] ->
  sent (good (concat (map (shown n) xs) ++ e)) (received n (concat (map (shown n) xs) ++ e)).
Proof.
  intros H e He. destruct (shown_received n xs H) as [H1 H2]. rewrite received_app, H1.
  exists (map x_res xs), (received n e). split; [done|].
  split; [|by left; destruct He as [-> | ->]].
  apply list.Forall_forall. intros m Hm. apply elem_of_list_fmap in Hm as (x & -> & Hx).
  apply H2 in Hx. revert Hx. apply good_mono. intros o Ho. apply elem_of_app. by left.
Qed.

Lemma session_received n s : session A n s ->
  sent (good s) (received n s) /\ (forall c bs, OOut c bs ∈ s -> c = n).
Proof.
  intros [|xs e Hxs He].
  { split; [exists [], []; split; [done|]; split; [constructor|by left]|].
    intros c bs H. apply elem_of_list_singleton in H. discriminate. }
  destruct He as [|bs req res out Hr Ha Hw Hn].
  - split.
    + cbn [received]. eapply sent_mono; [|apply (sent_exchanges n xs Hxs [OClose n]); by right].
      intros m. apply good_mono. intros o Ho. by apply elem_of_list_further.
    + intros c bs H. apply elem_of_cons in H as [?|H]; [discriminate|]. apply elem_of_app in H as [H|H].
      * by eapply shown_outs.
      * apply elem_of_list_singleton in H. discriminate.
  - split.
    + destruct (shown_received n xs Hxs) as [H1 H2]. cbn [received]. rewrite received_app, H1.
      cbn [received]. rewrite Nat.eqb_refl, app_nil_r. exists (map x_res xs), out. split; [done|]. split.
      * apply list.Forall_forall. intros m Hm. apply elem_of_list_fmap in Hm as (x & -> & Hx).
        apply H2 in Hx. revert Hx. apply good_mono. intros o Ho. apply elem_of_list_further, elem_of_app. by left.
      * destruct (write_msg res) as [w|] eqn:Ew; [|left; by apply Hn].
        right. destruct (Hw _ eq_refl) as [rest E]. exists res, rest.
        split; [|by rewrite <- E; symmetry; apply write_delimited].
        exists n, req, bs. split; [|done]. apply elem_of_list_further, elem_of_app. right.
        apply elem_of_list_further, elem_of_list_here.
    + intros c bs' H. apply elem_of_cons in H as [?|H]; [discriminate|]. apply elem_of_app in H as [H|H].
      * by eapply shown_outs.
      * repeat (apply elem_of_cons in H as [H|H]; [by first [discriminate H|injection H]|]). by apply elem_of_nil in H.
Qed.
Lemma sent_nil G : sent G [].
Proof. exists [], []. split; [done|]. split; [constructor|by left]. Qed.
Lemma sessions_received n tr : sessions A n tr ->
  (forall c, sent (good tr) (received c tr)) /\ (forall c bs, OOut c bs ∈ tr -> (c < n)%nat).
Proof.
  induction 1 as [|n tr s H [IH1 IH2] Hs].
  { split; [intros; apply sent_nil|]. intros c bs Hc. by apply elem_of_nil in Hc. }
  apply session_received in Hs as [S1 S2]. split.
  - intros c. rewrite received_app. destruct (decide (c = n)) as [->|Hne].
    + rewrite (received_other n tr); [|intros c' bs Hc; apply IH2 in Hc; lia].
      eapply sent_mono; [|exact S1]. intros m. apply good_mono. intros o Ho. apply elem_of_app. by right.
    + rewrite (received_other c s); [|intros c' bs Hc; apply S2 in Hc; lia]. rewrite app_nil_r.
      eapply sent_mono; [|apply IH1]. intros m. apply good_mono. intros o Ho. apply elem_of_app. by left.
  - intros c bs Hc. apply elem_of_app in Hc as [Hc|Hc]; [apply IH2 in Hc; lia|apply S2 in Hc; lia].
Qed.

(** what is read of it *)
Lemma read_first m r m' r' : message_ok m -> Z.of_nat (length (m_message m)) < 2 ^ 63 ->
  read_msg (delimited (m_message m) ++ r) = Some (m', r') -> m' = m /\ r' = r.
Proof.
  intros Hok Hs. destruct (Z_le_dec (Z.of_nat (length (m_message m))) max_msg_size) as [Hl|Hl].
  - rewrite read_write by done. by intros [= <- <-].
  - rewrite read_long; [discriminate|lia|exact Hs].
Qed.
Lemma reads_sent G l ms rest : sent G l ->
  (forall m, G m -> message_ok m /\ Z.of_nat (length (m_message m)) < 2 ^ 63) ->
  reads l ms rest -> Forall G ms.
Proof.
  intros Hl HG H. induction H as [l|l m l1 ms l2 Hm H IH]; [constructor|].
  destruct Hl as (outs & tail & -> & Ho & Ht). destruct Ho as [|o outs Hg Ho].
  - cbn [stream flat_map app] in *. destruct Ht as [-> |(x & r & Hx & E)]; [discriminate|].
    destruct (HG _ Hx) as [H1 H2]. apply (read_msg_app _ _ _ r) in Hm. rewrite <- E in Hm.
    rewrite <- (app_nil_r (delimited _)) in Hm. apply read_first in Hm as [-> Hnil]; [|done..].
    apply app_nil in Hnil as [-> ->]. constructor; [done|]. apply IH, sent_nil.
  - unfold stream in Hm. cbn [flat_map] in Hm. rewrite <- app_assoc in Hm. destruct (HG _ Hg) as [H1 H2].
    apply read_first in Hm as [-> ->]; [|done..]. constructor; [done|]. apply IH. exists outs, tail. done.
Qed.
End Sent.

(** everything read from a connection was an answer of the validator *)
Lemma node_reads chain P ls st tr c ms rest m :
  lrun chain l0 ls = Some (st, tr) -> validators P ls -> answers_fit tr ->
  (forall req res bs, read_msg bs = Some (req, []) -> may_answer P chain req res -> message_ok res) ->
  reads (received c tr) ms rest -> m ∈ ms ->
  exists req bs, read_msg bs = Some (req, []) /\ may_answer P chain req m.
Proof.
  intros Hr Hv Hfit Hok Hrd Hm.
  destruct (conversation _ _ _ _ _ Hr Hv) as (n & dn & cur & Et & Hs & Hcur).
  set (A := may_answer P chain) in *.
  assert (Hsent : sent (good A (talk tr)) (received c (talk tr))).
  { destruct (sessions_received A _ _ Hs) as [S1 S2]. rewrite Et, received_app.
    assert (Hdone : sent (good A (dn ++ cur)) (received c dn)).
    { eapply sent_mono; [|apply S1]. intros x. apply good_mono. intros o Ho. apply elem_of_app. by left. }
    destruct Hcur as [-> |(xs & rs & Hxs & Hu & ->)]; [change (received c []) with (@nil byte); rewrite (app_nil_r (received c dn)); exact Hdone|].
    assert (Ho : received c rs = []).
    { destruct Hu as [-> |[(? & ? & -> & _)|(? & ? & ? & -> & _)]]; done. }
    cbn [received]. rewrite received_app, Ho, app_nil_r.
    destruct (decide (c = n)) as [->|Hne].
    - rewrite (received_other n dn); [|intros c' bs Hc; apply S2 in Hc; lia].
      eapply sent_mono; [|pose proof (sent_exchanges A n xs Hxs [] (or_introl eq_refl)) as X; rewrite app_nil_r in X; exact X].
      intros x. apply good_mono. intros o Hx. apply elem_of_app. right. apply elem_of_list_further, elem_of_app. by left.
    - rewrite (received_other c (concat _)); [rewrite app_nil_r; exact Hdone|].
      intros c' bs Hc. apply shown_outs in Hc. lia. }
  rewrite received_talk in Hsent.
  assert (HG : forall x, good A (talk tr) x -> message_ok x /\ Z.of_nat (length (m_message x)) < 2 ^ 63).
  { intros x (c' & req & bs & H1 & H2 & H3). split; [by eapply Hok|]. eapply Hfit. by apply talk_elem. }
  pose proof (reads_sent A (good A (talk tr)) _ _ _ Hsent HG Hrd) as Hall.
  rewrite list.Forall_forall in Hall. destruct (Hall _ Hm) as (c' & req & bs & H1 & H2 & H3). eauto.
Qed.

(** ** The answers of a host *)

Lemma return_stamp C K faulty S0 h S : srun C K faulty S0 h S ->
  forall i op t b r f, (EVal i op, SVal (OReturn t b r f)) ∈ h -> r_stamp r = b_ts b.
Proof.
  induction 1 as [|h S e S' o Hr IH Hs]; intros i op t b r f Hin; [by apply elem_of_nil in Hin|].
  apply elem_of_app in Hin as [Hin|Hin]; [by eapply IH|]. apply elem_of_list_singleton in Hin.
  injection Hin as <- <-. unfold sstep in Hs. destruct (sy_hosts S !! i) as [n|]; [|discriminate].
  destruct (possible _ _ _ _ _ _ _); [|discriminate].
  destruct (vstep C (sc_val K i) (ho_val n) op) eqn:Ev; try discriminate.
  injection Hs as _ ->. apply vstep_case in Ev. inversion Ev as [| | |? ? ? ? ? ? ? Ht Hb Hst]; subst; [done|].
  inversion Hst; subst; try done.
  destruct ans as [[]|]; cbn; try done.
  all: repeat case_match; done.
Qed.

Section Host.
Context (C : Crypto) (K : sysconf) (faulty : gset Z) (S0 S : system) (h : history) (Hrun : srun C K faulty S0 h S).
Context (chain pub : bytes) (Hchain : Z.of_nat (length chain) < 2 ^ 62).

Lemma answer_ok i req res bs : read_msg bs = Some (req, []) -> may_answer (asks_host h i pub) chain req res -> message_ok res.
Proof.
  intros Hr (s & (answer & text & -> & Ha) & Hq). apply read_msg_ok in Hr.
  destruct req as [|c|k e|v c|v e|p c|p e| |]; try (by injection Hq as <-).
  - destruct v as [v|]; [|discriminate Hq].
    destruct (tv_vote_response _ _ _ _ _ _ _ Hq) as (b & sb & Hb & Eb & Hres).
    cbv zeta in Hres. destruct (r_err (answer chain b)) as [e|] eqn:Ee.
    + subst res. split; [apply empty_pvote_ok|]. cbn. done.
    + destruct Hres as (v' & -> & H1 & H2 & H3 & H4). destruct (Ha _ _ Ee) as (op & t & f & Hin).
      apply (return_stamp _ _ _ _ _ _ Hrun) in Hin. split; [|done].
      cbn [message_ok opt_ok] in Hr. unfold pvote_ok in *. rewrite H4, H2, Hin, Eb. exact Hr.
  - destruct p as [p|]; [|discriminate Hq].
    destruct (tv_prop_response _ _ _ _ _ _ _ Hq) as (b & sb & Hb & Eb & Hres).
    cbv zeta in Hres. destruct (r_err (answer chain b)) as [e|] eqn:Ee.
    + subst res. split; [apply empty_pprop_ok|]. cbn. done.
    + destruct Hres as (p' & -> & H1 & H2 & H3). destruct (Ha _ _ Ee) as (op & t & f & Hin).
      apply (return_stamp _ _ _ _ _ _ Hrun) in Hin. split; [|done].
      cbn [message_ok opt_ok] in Hr. unfold pprop_ok in *. rewrite H3, H1, Hin, Eb. exact Hr.
Qed.
Lemma node_answer i m : node_read chain pub h i m ->
  exists req bs, read_msg bs = Some (req, []) /\ may_answer (asks_host h i pub) chain req m.
Proof.
  intros (ls & st & tr & c & ms & rest & H1 & H2 & H3 & H4 & H5).
  eapply node_reads; [exact H1|exact H2|exact H3|apply answer_ok|exact H4|exact H5].
Qed.

Lemma read_vote i v : vote_read chain pub h i v ->
  exists sb, vote_in_range chain (pv_vote v) /\
    step_of_type (v_type (pv_vote v)) (if v_type (pv_vote v) =? 1 then 2 else 3) /\
    vote_sign_bytes chain (pv_vote v) = Val sb /\
    handed_out h i (Block (HRS (v_height (pv_vote v)) (v_round (pv_vote v)) (if v_type (pv_vote v) =? 1 then 2 else 3))
                     sb (v_ts (pv_vote v))) (pv_sig v).
Proof.
  intros [Hn Hsig]. apply node_answer in Hn as (req & bs & Hr & s & (answer & text & -> & Ha) & Hq).
  apply read_msg_ok in Hr.
  destruct req as [|c|k e|v0 c|v0 e|p c|p e| |]; try discriminate Hq.
  2:{ destruct p as [p|]; [|discriminate Hq]. destruct (tv_prop_response _ _ _ _ _ _ _ Hq) as (b & sb & _ & _ & Hres).
      cbv zeta in Hres. destruct (r_err (answer chain b)); [discriminate|]. by destruct Hres as (? & ? & _). }
  destruct v0 as [v0|]; [|discriminate Hq].
  destruct (vote_type_to_step (v_type (pv_vote v0))) as [stp|] eqn:Es.
  2:{ exfalso. revert Hq. cbn. unfold handle_vote. cbn. unfold vote_block. rewrite Es. done. }
  destruct (tv_vote_response _ _ _ _ _ _ _ Hq) as (b & sb & Hb & Eb & Hres).
  cbv zeta in Hres. destruct (r_err (answer chain b)) as [e|] eqn:Ee; [discriminate|].
  destruct Hres as (v' & [= <-] & H1 & H2 & H3 & H4). destruct (Ha _ _ Ee) as (op & t & f & Hin).
  pose proof (return_stamp _ _ _ _ _ _ Hrun _ _ _ _ _ _ Hin) as Hst.
  assert (Ev : pv_vote v = pv_vote v0).
  { rewrite H4, Hst, Eb. by destruct (pv_vote v0). }
  exists sb. rewrite Ev.
  split. { destruct Hr as (? & ? & ? & ? & _). done. }
  split. { unfold vote_type_to_step, PrevoteType, PrecommitType in Es. unfold step_of_type.
    destruct (Z.eqb_spec (v_type (pv_vote v0)) 1); [by left|].
    destruct (Z.eqb_spec (v_type (pv_vote v0)) 2); [by right|discriminate]. }
  split; [done|]. rewrite <- Eb. destruct (answer chain b) as [[sig|] ts er]; cbn in *; [|by rewrite H3 in Hsig].
  subst er. rewrite H3. exists op, t, ts, f. exact Hin.
Qed.
Lemma read_proposal i p : proposal_read chain pub h i p ->
  exists sb, proposal_in_range chain (pp_prop p) /\ proposal_sign_bytes chain (pp_prop p) = Val sb /\
    handed_out h i (Block (HRS (p_height (pp_prop p)) (p_round (pp_prop p)) 1) sb (p_ts (pp_prop p))) (pp_sig p).
Proof.
  intros [Hn Hsig]. apply node_answer in Hn as (req & bs & Hr & s & (answer & text & -> & Ha) & Hq).
  apply read_msg_ok in Hr.
  destruct req as [|c|k e|v0 c|v0 e|p0 c|p0 e| |]; try discriminate Hq.
  { destruct v0 as [v0|]; [|discriminate Hq]. destruct (tv_vote_response _ _ _ _ _ _ _ Hq) as (b & sb & _ & _ & Hres).
    cbv zeta in Hres. destruct (r_err (answer chain b)); [discriminate|]. by destruct Hres as (? & ? & _). }
  destruct p0 as [p0|]; [|discriminate Hq].
  destruct (tv_prop_response _ _ _ _ _ _ _ Hq) as (b & sb & Hb & Eb & Hres).
  cbv zeta in Hres. destruct (r_err (answer chain b)) as [e|] eqn:Ee; [discriminate|].
  destruct Hres as (v' & [= <-] & H1 & H2 & H4). destruct (Ha _ _ Ee) as (op & t & f & Hin).
  pose proof (return_stamp _ _ _ _ _ _ Hrun _ _ _ _ _ _ Hin) as Hst.
  assert (Ev : pp_prop p = pp_prop p0).
  { rewrite H4, Hst, Eb. by destruct (pp_prop p0). }
  exists sb. rewrite Ev.
  split. { destruct Hr as (_ & ? & ? & ? & ? & _). done. }
  split; [done|]. rewrite <- Eb. destruct (answer chain b) as [[sig|] ts er]; cbn in *; [|by rewrite H2 in Hsig].
  subst er. rewrite H2. exists op, t, ts, f. exact Hin.
Qed.
Lemma read_pub_key i k e : node_read chain pub h i (PubKeyResponse k e) -> k = PkEd25519 pub /\ e = None.
Proof.
  intros Hn. apply node_answer in Hn as (req & bs & Hr & s & (answer & text & -> & Ha) & Hq).
  destruct req as [|c|k' e'|v0 c|v0 e'|p0 c|p0 e'| |]; try discriminate Hq.
  - by injection Hq as <- <-.
  - destruct v0 as [v0|]; [|discriminate Hq]. destruct (tv_vote_response _ _ _ _ _ _ _ Hq) as (b & sb & _ & _ & Hres).
    cbv zeta in Hres. destruct (r_err (answer chain b)); [discriminate|]. by destruct Hres as (? & ? & _).
  - destruct p0 as [p0|]; [|discriminate Hq]. destruct (tv_prop_response _ _ _ _ _ _ _ Hq) as (b & sb & _ & _ & Hres).
    cbv zeta in Hres. destruct (r_err (answer chain b)); [discriminate|]. by destruct Hres as (? & ? & _).
Qed.
End Host.

(** ** Bytes of votes *)

Lemma vote_level chain v b s : vote_in_range chain v -> step_of_type (v_type v) s -> vote_sign_bytes chain v = Val b ->
  ~ reads_as_proposal chain v ->
  bytes_for b (HRS (v_height v) (v_round v) s) /\ decode_proposal b = None /\
  exists c, decode_vote b = Some c /\ cv_bid c = (if bool_decide (v_bid v = empty_bid) then None else Some (v_bid v)).
Proof.
  intros Hr Hs Hb Hm.
  destruct (vote_sign_bytes_inv _ _ _ Hr Hb) as (c & Hc & -> & Ety & Ehe & Ero & Ebi & Ets & Ech).
  assert (Hd : decode_proposal (delimited (m_vote c)) = None).
  { rewrite <- (app_nil_r (delimited _)).
    destruct (decide (cv_bid c = None /\ cv_ts c = epoch)) as [[Hb0 Ht0]|Hne].
    - unfold decode_proposal. rewrite unmarshal_delimited_delimited by apply Hc.
      rewrite proposal_of_epoch_vote by done.
      assert (Hz : v_bid v = empty_bid).
      { rewrite Hb0 in Ebi. destruct (bool_decide_reflect (v_bid v = empty_bid)); congruence. }
      assert (Hcond : ~ (chain = [] \/ um_timestamp chain <> None)).
      { intros H. apply Hm. split; [done|]. split; [congruence|done]. }
      rewrite Ech. destruct chain as [|x chain]; [exfalso; apply Hcond; auto|].
      destruct (um_timestamp (x :: chain)) eqn:E; [exfalso; apply Hcond; right; discriminate|done].
    - apply decode_proposal_of_vote; [done|]. destruct (cv_bid c) as [x|]; [left; discriminate|].
      right. intros E. apply Hne. done. }
  pose proof (decode_vote_roundtrip c [] Hc) as Hv. rewrite app_nil_r in Hv.
  apply step_of_type_spec in Hs. rewrite <- Ety in Hs. split; [|split; [exact Hd|exists c; done]].
  exists (unix_nano (cv_ts c)). unfold unpack_hrst. rewrite Hd, Hv, Hs, Ehe, Ero. done.
Qed.
Lemma same_bytes_same_block chain v a w b s : vote_in_range chain v -> vote_in_range chain w ->
  step_of_type (v_type v) s -> step_of_type (v_type w) s ->
  vote_sign_bytes chain v = Val a -> vote_sign_bytes chain w = Val b ->
  ~ reads_as_proposal chain v -> ~ reads_as_proposal chain w -> same_message_but_time a b -> v_bid v = v_bid w.
Proof.
  intros R1 R2 T1 T2 B1 B2 M1 M2.
  destruct (vote_level _ _ _ _ R1 T1 B1 M1) as (_ & D1 & c1 & V1 & E1).
  destruct (vote_level _ _ _ _ R2 T2 B2 M2) as (_ & D2 & c2 & V2 & E2).
  intros [(p & q & Hp & _)|(_ & _ & x & y & Hx & Hy & _ & _ & _ & Hb & _)]; [congruence|].
  rewrite V1 in Hx. rewrite V2 in Hy. injection Hx as <-. injection Hy as <-. rewrite E1, E2 in Hb.
  destruct (bool_decide_reflect (v_bid v = empty_bid)), (bool_decide_reflect (v_bid w = empty_bid)); congruence.
Qed.

(** ** The cluster *)

Section Cluster.
Context (C : Crypto) (K : sysconf) (faulty lossy : gset Z) (S0 S : system) (t : Z) (pub : bytes) (h : history).
Context (Hset : set_up K S0 t pub) (Hfirst : first_start S0) (Hrun : srun C K faulty S0 h S).
Context (Hfiles : files_true C K faulty S0 h).
Context (chain : bytes) (Hchain : Z.of_nat (length chain) < 2 ^ 62).

Lemma vote_verifies i v : vote_read chain pub h i v ->
  exists sb, vote_sign_bytes chain (pv_vote v) = Val sb /\ cr_verify C pub sb (pv_sig v) = true /\ supported S0 t faulty h sb.
Proof.
  intros Hv. destruct (read_vote _ _ _ _ _ _ Hrun _ _ Hchain _ _ Hv) as (sb & R & T & B & G).
  destruct (cluster_signatures _ _ _ _ _ _ _ _ Hset Hfirst Hrun Hfiles _ _ _ G) as (m & V & Q & E).
  cbn [b_hrs h_step b_sb] in E. rewrite E in *.
  - exists sb. done.
  - destruct (v_type (pv_vote v) =? 1); discriminate.
  - destruct (v_type (pv_vote v) =? 1); discriminate.
Qed.
Lemma no_double_vote i1 v1 i2 v2 : shares_kept C K faulty S0 lossy h ->
  2 * t > Z.of_nat (size (sy_hosts S0) + size (faulty ∪ lossy)) ->
  vote_read chain pub h i1 v1 -> vote_read chain pub h i2 v2 ->
  ~ reads_as_proposal chain (pv_vote v1) -> ~ reads_as_proposal chain (pv_vote v2) ->
  ~ double_vote (pv_vote v1) (pv_vote v2).
Proof.
  intros Hk Ht H1 H2 M1 M2 (Ety & Ehe & Ero & Ebi).
  destruct (read_vote _ _ _ _ _ _ Hrun _ _ Hchain _ _ H1) as (sb1 & R1 & T1 & B1 & _).
  destruct (read_vote _ _ _ _ _ _ Hrun _ _ Hchain _ _ H2) as (sb2 & R2 & T2 & B2 & _).
  destruct (vote_verifies _ _ H1) as (sb1' & B1' & _ & Q1). rewrite B1 in B1'. injection B1' as <-.
  destruct (vote_verifies _ _ H2) as (sb2' & B2' & _ & Q2). rewrite B2 in B2'. injection B2' as <-.
  rewrite <- Ety in T2. destruct (vote_level _ _ _ _ R1 T1 B1 M1) as (L1 & _).
  rewrite Ety in T2 at 1. destruct (vote_level _ _ _ _ R2 T2 B2 M2) as (L2 & _).
  rewrite <- Ehe, <- Ero in L2.
  apply Ebi. eapply same_bytes_same_block; [exact R1|exact R2|exact T1|exact T2|exact B1|exact B2|exact M1|exact M2|].
  eapply cluster_agree; [exact Hrun|exact Hk|exact Ht|exact Q1|exact Q2|exact L1|exact L2].
Qed.
End Cluster.
