(** A cosigner whose asynchronous writes always finish before the next operation is safe across
    crashes. *)
From Verif Require Import GoBase Wire Canonical SignState Spec SignStateProofs Crypto LocalCosigner CosignerSpec
  CosignerProofs CosignerProofs2 Json Disk DiskSpec DiskProofs.

(** ** Decoded keys have the values their Go types allow *)

Lemma unmarshal_loop_inv {M} (P : M -> Prop) h fuel m l m' :
  (forall fn wt a r a' r', P a -> h fn wt a r = FOk a' r' -> P a') ->
  P m -> unmarshal_loop fuel h m l = Some m' -> P m'.
Proof.
  intros Hh. revert m l. induction fuel as [|f IH]; intros m l Hm H; destruct l as [|b l].
  - injection H as <-. done.
  - discriminate.
  - injection H as <-. done.
  - cbn [unmarshal_loop] in H. destruct (varint_dec 10 (b :: l)) as [[w r]|]; [|discriminate].
    destruct (_ =? 4); [discriminate|]. destruct (_ <=? 0); [discriminate|].
    destruct (h _ _ m r) as [| |m1 r1] eqn:E.
    + destruct (skip_field (b :: l)); [|discriminate]. eapply IH; eauto.
    + discriminate.
    + eapply IH; [|exact H]. eapply Hh; eauto.
Qed.

Lemma on_varint_ok {M} wt r (g : Z -> M) m r' : on_varint wt r g = FOk m r' -> exists v, m = g v.
Proof.
  unfold on_varint. destruct (wt =? 0); [|discriminate].
  destruct (varint_dec 10 r) as [[v x]|]; [|discriminate]. intros [= <- _]. eauto.
Qed.
Lemma on_fixed64_ok {M} wt r (g : Z -> M) m r' : on_fixed64 wt r g = FOk m r' -> exists v, m = g v.
Proof.
  unfold on_fixed64. destruct (wt =? 1); [|discriminate].
  destruct (le_dec 8 r) as [[v x]|]; [|discriminate]. intros [= <- _]. eauto.
Qed.
Lemma on_bytes_ok {M} wt r (g : bytes -> option M) m r' :
  on_bytes wt r g = FOk m r' -> exists p, g p = Some m.
Proof.
  unfold on_bytes. destruct (wt =? 2); [|discriminate].
  destruct (len_dec r) as [[p x]|]; [|discriminate].
  destruct (g p) eqn:E; [|discriminate]. intros [= <- _]. eauto.
Qed.

Definition vote_ok (v : canonical_vote) := in_int64 (cv_height v) /\ in_int64 (cv_round v).
Definition prop_ok (v : canonical_proposal) := in_int64 (cp_height v) /\ in_int64 (cp_round v).

Lemma h_vote_ok fn wt a r a' r' : vote_ok a -> h_vote fn wt a r = FOk a' r' -> vote_ok a'.
Proof.
  destruct a as [ty he ro bi ts ch]. intros [H1 H2] H. unfold h_vote in H. simpl in H1, H2.
  repeat (destruct fn as [|fn|fn]; try discriminate; try destruct fn as [fn|fn|]; try discriminate).
  all: try (apply on_varint_ok in H as [v ->]; split; simpl; try done; apply wrap64_range).
  all: try (apply on_fixed64_ok in H as [v ->]; split; simpl; try done; apply wrap64_range).
  all: apply on_bytes_ok in H as [p H]; try destruct (um_bid bi p); try destruct (um_timestamp p);
    try discriminate; injection H as <-; done.
Qed.
Lemma h_proposal_ok fn wt a r a' r' : prop_ok a -> h_proposal fn wt a r = FOk a' r' -> prop_ok a'.
Proof.
  destruct a as [ty he ro po bi ts ch]. intros [H1 H2] H. unfold h_proposal in H. simpl in H1, H2.
  repeat (destruct fn as [|fn|fn]; try discriminate; try destruct fn as [fn|fn|]; try discriminate).
  all: try (apply on_varint_ok in H as [v ->]; split; simpl; try done; apply wrap64_range).
  all: try (apply on_fixed64_ok in H as [v ->]; split; simpl; try done; apply wrap64_range).
  all: apply on_bytes_ok in H as [p H]; try destruct (um_bid bi p); try destruct (um_timestamp p);
    try discriminate; injection H as <-; done.
Qed.

Lemma unpack_range sb k : unpack_hrst sb = Val k -> hrs_in_range (ht_hrs k).
Proof.
  assert (H0 : in_int64 0) by (unfold in_int64; lia).
  unfold unpack_hrst. destruct (decode_proposal sb) as [p|] eqn:Ep.
  - intros [= <-]. unfold decode_proposal, unmarshal_delimited in Ep.
    destruct (read_delimited _ sb) as [[pl ?]|]; [|discriminate].
    apply (unmarshal_loop_inv prop_ok) in Ep as [E1 E2]; [|exact h_proposal_ok|split; exact H0].
    repeat split; simpl; try apply E1; try apply E2; unfold in_int8, stepPropose; lia.
  - destruct (decode_vote sb) as [v|] eqn:Ev; [|discriminate].
    unfold decode_vote, unmarshal_delimited in Ev.
    destruct (read_delimited _ sb) as [[pl ?]|]; [|discriminate].
    apply (unmarshal_loop_inv vote_ok) in Ev as [E1 E2]; [|exact h_vote_ok|split; exact H0].
    unfold vote_type_to_step. destruct (cv_type v =? PrevoteType).
    + intros [= <-]. repeat split; simpl; try apply E1; try apply E2; unfold in_int8, stepPrevote; lia.
    + destruct (cv_type v =? PrecommitType); [|discriminate].
      intros [= <-]. repeat split; simpl; try apply E1; try apply E2; unfold in_int8, stepPrecommit; lia.
Qed.

(** ** One step of the cosigner *)

Lemma save_changes s c l e : save s c = (l, e) ->
  (l = s /\ e <> None) \/ (ss_hrs l = c_hrs c /\ ss_hrs s <> c_hrs c /\ e = None).
Proof.
  unfold save. destruct (error_if_less_or_equal s (c_hrs c)) as [x|] eqn:E; intros [= <- <-].
  - left. done.
  - right. split; [done|]. split; [|done]. intros H. unfold error_if_less_or_equal in E.
    rewrite H, !Z.ltb_irrefl, Z.eqb_refl in E. discriminate.
Qed.

Lemma cstep_lss_change C cfg st op st' o :
  cstep C cfg st op = Some (st', o) ->
  hrs_in_range (ss_hrs (cs_lss st)) ->
  (forall c, op = OpLSS c -> hrs_in_range (c_hrs c)) ->
  hrs_in_range (ss_hrs (cs_lss st')) /\
  (ss_hrs (cs_lss st') = ss_hrs (cs_lss st) -> agree (cs_lss st') (cs_lss st)).
Proof.
  intros H Hr Hc. destruct op as [k id rnd|k p rnd|sb|c]; simpl in H.
  - pose proof (get_part_lss C cfg st k id rnd) as E.
    destruct (get_part C cfg st k id rnd) as [s [p|e|]]; simpl in *; try discriminate;
      injection H as <- <-; rewrite E; done.
  - pose proof (set_part_lss C cfg st k p rnd) as E.
    destruct (set_part C cfg st k p rnd) as [s [u|e|]]; simpl in *; try discriminate;
      injection H as <- <-; rewrite E; done.
  - destruct (sign C cfg st sb) as [s o'] eqn:E. apply sign_spec in E.
    destruct o' as [r|e|]; [|injection H as <- <-; subst s; done|discriminate].
    injection H as <- <-. destruct E; subst s.
    + done.
    + simpl. split; [done|]. intros _. split; done.
    + simpl. destruct (save _ _) as [l e] eqn:Es. apply save_changes in Es as [[-> He]|(E1 & E2 & _)].
      * simpl. split; [done|]. intros _. split; done.
      * simpl in *. rewrite E1. split; [eapply unpack_range; eauto|]. congruence.
  - unfold save_lss in H. destruct (save (cs_lss st) c) as [l e] eqn:Es. injection H as <- <-.
    apply save_changes in Es as [[-> He]|(E1 & E2 & _)]; simpl.
    + split; [done|]. intros _. split; done.
    + rewrite E1. split; [apply Hc; done|]. congruence.
Qed.

(** ** Runs *)

Definition cn_inv (n : cnode) : Prop :=
  hrs_in_range (ss_hrs (cs_lss (cn_cos n))) /\
  (exists s, load (cn_file n) = Some s) /\
  match cn_ws n with
  | [] => exists s, load (cn_file n) = Some s /\ agree s (cs_lss (cn_cos n))
  | [w] => reads w (cs_lss (cn_cos n))
  | _ => False
  end.

Lemma cn_settled_inv n : cn_settled n -> cn_inv n.
Proof.
  intros (Hw & s & Hl & Ha). split; [|split].
  - apply load_range in Hl. destruct Ha as [<- _]. exact Hl.
  - eauto.
  - rewrite Hw. eauto.
Qed.

Lemma cn_inv_step C cfg n op n1 l :
  cn_inv n -> cnstep C cfg n op = Some (n1, l) ->
  match op with COp _ | CRestart => cn_ws n = [] | _ => True end ->
  (forall c, op = COp (OpLSS c) -> hrs_in_range (c_hrs c)) ->
  cn_inv n1.
Proof.
  intros (Hr & (sf & Hf) & Hw) Hs Hq Hc. destruct op as [o|i|i|]; simpl in Hs.
  - destruct (cstep C cfg (cn_cos n) o) as [[st ob]|] eqn:E; [|discriminate].
    injection Hs as <- <-. rewrite Hq in *.
    apply cstep_lss_change in E as [E1 E2]; [|done|intros c ->; apply Hc; done].
    split; [exact E1|]. split; [eauto|]. simpl.
    destruct (bool_decide _) eqn:Eb.
    + apply bool_decide_eq_true in Eb. destruct Hw as (s & Hs & Ha). exists s. split; [done|].
      eapply agree_trans; [exact Ha|]. apply agree_sym, E2, Eb.
    + apply reads_new.
  - destruct (cn_ws n) as [|w ws]; [discriminate|]. destruct ws as [|? ?]; [|done].
    destruct i as [|i]; [|discriminate]. simpl in Hs.
    destruct (read_field (cs_lss (cn_cos n)) w) as [w'|] eqn:E; [|discriminate].
    injection Hs as <- <-. split; [done|]. split; [eauto|]. simpl.
    eapply reads_step; eauto. apply agree_refl.
  - destruct (cn_ws n) as [|w ws]; [discriminate|]. destruct ws as [|? ?]; [|done].
    destruct i as [|i]; [|discriminate]. cbn [lookup list_lookup] in Hs.
    destruct (bool_decide (w_pc w = 6%nat)) eqn:E; [|discriminate].
    apply bool_decide_eq_true in E. injection Hs as <- <-.
    destruct (reads_done w _ E Hw Hr) as (s & Hl & Ha).
    split; [done|]. split; [eexists; exact Hl|]. cbn [delete list_delete cn_ws].
    exists s. split; [exact Hl|exact Ha].
  - destruct (load (cn_file n)) as [s|] eqn:E; [|discriminate]. injection Hs as <- <-.
    split; [apply load_range in E; exact E|]. split; [eauto|]. simpl. exists s. split; [exact E|].
    apply agree_refl.
Qed.

Lemma cn_inv_run C cfg n ops l n' :
  cnrun C cfg n ops l n' -> cn_inv n -> saves_awaited C cfg n ops -> events_in_range ops -> cn_inv n'.
Proof.
  induction 1 as [n|n op n1 l1 ops l n2 Hs Hr IH]; intros Hi Hq Hc; [done|].
  apply IH.
  - eapply cn_inv_step; [exact Hi|exact Hs| |].
    + eapply (Hq [] op ops []); [done|constructor].
    + intros c ->. apply Hc. left.
  - intros o1 o o2 la na -> Hrun. eapply (Hq (op :: o1) o o2 (l1 ++ la)); [done|].
    econstructor; eauto.
  - intros c H. apply Hc. right. exact H.
Qed.

Lemma awaited_restarts C cfg n ops :
  cn_settled n -> saves_awaited C cfg n ops -> events_in_range ops -> restarts_saved C cfg n ops.
Proof.
  intros Hset Hq Hc o1 o2 l1 n1 s -> Hr Hl. right.
  assert (Hi : cn_inv n1).
  { eapply cn_inv_run; [exact Hr|apply cn_settled_inv, Hset| |].
    - intros a op b la na -> Hrun. eapply (Hq a op (b ++ CRestart :: o2) la); [|exact Hrun].
      rewrite <- app_assoc. done.
    - intros c H. apply Hc. apply elem_of_app. left. exact H. }
  destruct Hi as (_ & _ & Hw). rewrite (Hq o1 CRestart o2 l1 n1 eq_refl Hr) in Hw.
  destruct Hw as (s' & Hl' & Ha & _ & Hb). rewrite Hl in Hl'. injection Hl' as <-. done.
Qed.

Lemma awaited_no_conflict C cfg n ops l n' a b k :
  cnrun C cfg n ops l n' -> cn_settled n -> saves_awaited C cfg n ops -> events_in_range ops ->
  released l a -> released l b -> bytes_for a k -> bytes_for b k -> same_message_but_time a b.
Proof. intros. eapply restart_no_conflict; eauto using awaited_restarts. Qed.
