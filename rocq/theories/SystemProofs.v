(** Safety of a whole cluster. *)
From Verif Require Import GoBase Wire Canonical SignState Spec SignStateProofs Crypto LocalCosigner
  CosignerSpec CosignerProofs Cluster ClusterProofs Validator ValidatorSpec ValidatorProofs ValidatorProofs2
  ValidatorProofs3 ValidatorProofs4 Json Disk DiskSpec DiskProofs Raft RaftSpec RaftProofs System SystemSpec.
Local Open Scope Z_scope.

(** ** One validator *)
Section V.
(** [strict]: signatures are known to be for the bytes they are recorded with *)
Context (C : Crypto) (cfg : vconf) (cl : cluster) (faulty : gset Z) (strict : bool).

(** a recorded signature is one for some bytes with a quorum behind them *)
Definition rec_good (c : consensus) : Prop := forall sig, c_sig c = Some sig ->
  exists m, cr_verify C (vc_pub cfg) m sig = true /\ quorum_for cfg cl faulty m /\
    (strict = true -> m = slice_of (c_sb c)).
Definition state_good (s : sign_state) : Prop :=
  records rec_good s /\ rec_good (SSC (ss_hrs s) (ss_sig s) (ss_sb s)).

Lemma save_fields s c : (save s c).1 = s \/
  (ss_hrs (save s c).1 = c_hrs c /\ ss_sig (save s c).1 = c_sig c /\ ss_sb (save s c).1 = c_sb c).
Proof.
  destruct ((save s c).2) eqn:E.
  - left. by rewrite (save_rejected _ _ _ E).
  - right. by rewrite (save_accepted _ _ E).
Qed.

Lemma save_good s c : state_good s -> rec_good c -> state_good (save s c).1.
Proof.
  intros [H1 H2] Hc. split.
  - intros k c' Hk. apply save_cache in Hk as [Hk|(-> & -> & _)]; [by apply H1|done].
  - destruct (save_fields s c) as [-> |(-> & -> & ->)]; [done|]. by destruct c.
Qed.

Lemma state_good_run st0 l st : idle st0 -> vrun C cfg st0 l st ->
  NoDup (vc_id cfg :: vc_peers cfg) -> cluster_backed cfg cl faulty l ->
  state_good (vs_lss st0) -> (forall c, VLss c ∈ ops_of l -> rec_good c) -> state_good (vs_lss st).
Proof.
  intros Hi Hr Hnd. revert l st Hr.
  apply (vrun_rev_ind C cfg st0 (fun l st => _ -> _ -> _ -> state_good (vs_lss st))); [done|].
  intros l st op st1 o Hr IH Hs Hb H0 He.
  assert (IH' : state_good (vs_lss st)).
  { apply IH; [eapply cluster_backed_prefix; eauto|done|]. intros c Hc. apply He. by apply elem_ops_snoc. }
  destruct (threads_inv_run C cfg st0 l st Hi Hr) as [Hinv _].
  apply vstep_case in Hs. destruct Hs as [t b r pc Hl Hrr|t b Hl|c a|t b pc op st' pc' o Hop Hl Ht]; try done; simpl.
  - apply save_good; [done|]. apply He, elem_ops_last.
  - pose proof (Hinv _ _ _ Hl) as Hpi.
    destruct (tstep_lss _ _ _ _ _ _ _ _ _ _ Ht) as [-> |(sig & -> & -> & -> & Hle & ->)]; [done|].
    apply save_good; [done|]. intros s [= <-]. cbn [c_sb slice_of]. simpl in Hpi. exists (b_sb b). split; [apply Hpi|].
    split; [|done]. eapply group_quorum; [done|apply Hpi|eapply cluster_backed_prefix; eauto|apply Hpi].
Qed.

Definition sig_good (b : block) (sig : bytes) : Prop :=
  exists m, cr_verify C (vc_pub cfg) m sig = true /\ quorum_for cfg cl faulty m /\
    (strict = true -> h_step (b_hrs b) <> stepPropose -> m = b_sb b).

(** one more step: what it returns and what it has ready to emit *)
Lemma return_good st0 l st op st' t b sig ts f : idle st0 -> vrun C cfg st0 l st ->
  NoDup (vc_id cfg :: vc_peers cfg) -> cluster_backed cfg cl faulty l ->
  state_good (vs_lss st0) -> (forall c, VLss c ∈ ops_of l -> rec_good c) ->
  vstep C cfg st op = VOk st' (OReturn t b (VR (Some sig) ts None) f) -> (forall ans, op <> VProxy t ans) ->
  sig_good b sig.
Proof.
  intros Hi Hr Hnd Hb H0 He Hs Hnp.
  pose proof (state_good_run _ _ _ Hi Hr Hnd Hb H0 He) as [Hg _].
  destruct (threads_inv_run C cfg st0 l st Hi Hr) as [Hinv _].
  assert (Hex : get_existing (vs_lss st) b = Val (Some sig) -> sig_good b sig).
  { intros Hx. apply get_existing_val in Hx as (c & Hc & [[Hs' Hsig]|(_ & _ & ? & _)]); [|done].
    apply Hg in Hc as [_ Hc]. destruct (Hc sig) as (m & Hv & Hq & Hm); [done|]. exists m.
    split; [done|]. split; [done|]. intros Hst Hp. rewrite (Hm Hst). by destruct Hs' as [?|<-]. }
  apply vstep_case in Hs. inversion Hs as [| | |t' b' pc op' st1 pc' o Hop Hl Ht]; subst.
  pose proof (Hinv _ _ _ Hl) as Hpi.
  inversion Ht; subst; auto.
  - by destruct (Hnp ans).
  - exists (b_sb b). simpl in Hpi. split; [apply Hpi|]. split; [|done].
    eapply group_quorum; [done|apply Hpi|done|apply Hpi].
Qed.

Lemma saved_good st0 l st t b sig : idle st0 -> vrun C cfg st0 l st ->
  NoDup (vc_id cfg :: vc_peers cfg) -> cluster_backed cfg cl faulty l ->
  vs_threads st !! t = Some (Thread b (PcSaved sig)) -> rec_good (SSC (b_hrs b) (Some sig) (Some (b_sb b))).
Proof.
  intros Hi Hr Hnd Hb Hl. destruct (threads_inv_run C cfg st0 l st Hi Hr) as [Hinv _].
  pose proof (Hinv _ _ _ Hl) as Hpi. simpl in Hpi. intros s [= <-]. cbn [c_sb slice_of]. exists (b_sb b). split; [apply Hpi|].
  split; [|done]. eapply group_quorum; [done|apply Hpi|done|apply Hpi].
Qed.

(** the block of a call never changes *)
Lemma thread_keeps st op st1 o t b pc : vstep C cfg st op = VOk st1 o ->
  vs_threads st !! t = Some (Thread b pc) -> exists pc', vs_threads st1 !! t = Some (Thread b pc').
Proof.
  intros Hs Hl. apply vstep_case in Hs. destruct Hs as [t' b' r pc' Hn Hrr|t' b' Hn|c a|t' b' pc0 op st' pc' o Hop Hl' Ht]; simpl.
  - destruct (decide (t' = t)) as [-> |]; [congruence|]. rewrite lookup_insert_ne by done. eauto.
  - destruct (decide (t' = t)) as [-> |]; [congruence|]. rewrite lookup_insert_ne by done. eauto.
  - eauto.
  - rewrite (tstep_threads _ _ _ _ _ _ _ _ _ _ Ht). destruct (decide (t' = t)) as [-> |].
    + rewrite lookup_insert. assert (b' = b) as -> by congruence. eauto.
    + rewrite lookup_insert_ne by done. eauto.
Qed.
Lemma thread_new st op st1 o t b pc : vstep C cfg st op = VOk st1 o ->
  vs_threads st1 !! t = Some (Thread b pc) ->
  (exists pc', vs_threads st !! t = Some (Thread b pc')) \/ exists r, op = VCall t b r.
Proof.
  intros Hs Hl. apply vstep_case in Hs. destruct Hs as [t' b' r pc' Hn Hrr|t' b' Hn|c a|t' b' pc0 op st' pc' o Hop Hl' Ht]; simpl in Hl.
  - apply lookup_insert_Some in Hl as [[-> [= <- <-]]|[_ Hl]]; eauto.
  - apply lookup_insert_Some in Hl as [[-> [= <- <-]]|[_ Hl]]; eauto.
  - eauto.
  - rewrite (tstep_threads _ _ _ _ _ _ _ _ _ _ Ht) in Hl.
    apply lookup_insert_Some in Hl as [[-> [= <- <-]]|[_ Hl]]; eauto.
Qed.
End V.

(** ** Cosigners with their files *)
Lemma cnrun_snoc C cfg n ops l n1 op n2 l1 : cnrun C cfg n ops l n1 -> cnstep C cfg n1 op = Some (n2, l1) ->
  cnrun C cfg n (ops ++ [op]) (l ++ l1) n2.
Proof.
  induction 1 as [n|n op' n' l' ops l n3 Hs Hr IH]; intros H; simpl.
  - rewrite <- (app_nil_r l1). econstructor; [done|constructor].
  - rewrite <- app_assoc. econstructor; eauto.
Qed.
Lemma cnrun_fun C cfg n ops l n1 l' n1' : cnrun C cfg n ops l n1 -> cnrun C cfg n ops l' n1' -> n1 = n1' /\ l = l'.
Proof.
  intros H. revert l' n1'. induction H as [n|n op n1 l1 ops l n2 Hs Hr IH]; intros l' n1' H'; inversion H' as [|? ? n3 l3 ? l4 ? Hs' Hr']; subst; [done|].
  rewrite Hs in Hs'. injection Hs' as <- <-. destruct (IH _ _ Hr') as [-> ->]. done.
Qed.
Lemma restarts_saved_snoc C cfg n ops l n1 op : restarts_saved C cfg n ops -> cnrun C cfg n ops l n1 ->
  (op = CRestart -> forall s, load (cn_file n1) = Some s -> not_behind s (cs_lss (cn_cos n1))) ->
  restarts_saved C cfg n (ops ++ [op]).
Proof.
  intros H Hr Hop o1 o2 l1 n' s E Hr1 Hl. destruct o2 as [|x o2 _] using rev_ind.
  - apply app_inj_tail in E as [-> ->]. destruct (cnrun_fun _ _ _ _ _ _ _ _ Hr Hr1) as [-> _].
    apply Hop; done.
  - rewrite app_comm_cons, app_assoc in E. apply app_inj_tail in E as [-> ->]. eapply H; eauto.
Qed.

(** ** The cluster *)
Section S.
Context (C : Crypto) (K : sysconf) (faulty : gset Z) (S0 : system) (t : Z) (pub : bytes).
Hypothesis Hset : set_up K S0 t pub.
Hypothesis Hfirst : first_start S0.
Notation srun := (srun C K faulty S0).
Notation sstep := (sstep C K faulty).

Lemma srun_fun h S S' : srun h S -> srun h S' -> S = S'.
Proof.
  intros H. revert S'. induction H as [|h S e S1 o Hr IH Hs]; intros S' H'.
  - inversion H' as [|? ? ? ? ? ? ? E]; [done|]. by destruct h.
  - inversion H' as [E|h' S2 e' S3 o' Hr' Hs' E]; [by destruct h|]. apply app_inj_tail in E as [-> [= -> ->]].
    rewrite <- (IH _ Hr') in Hs'. congruence.
Qed.
Lemma srun_app_inv h1 h2 S : srun (h1 ++ h2) S -> exists S1, srun h1 S1.
Proof.
  revert S. induction h2 as [|x h2 IH] using rev_ind; intros S H.
  - rewrite app_nil_r in H. eauto.
  - rewrite app_assoc in H. inversion H as [E|h' S2 e' S3 o' Hr' Hs' E]; [by destruct (h1 ++ h2)|].
    apply app_inj_tail in E as [-> _]. eauto.
Qed.

(** the final history; all support is counted in it *)
Context (hF : history) (strict : bool) (lossy : gset Z).
Definition clog (i : Z) : list (cop * cobs) :=
  omap (fun x => match x with
    | (ECos j op, SCos o) => if decide (j = i) then Some (op, o) else None | _ => None end) hF.
Definition cl : cluster :=
  map_imap (fun i n => Some (Node (sc_cos K i) (cn_cos (ho_cos n)) (clog i) (cn_cos (ho_cos n)))) (sy_hosts S0).

Lemma cl_lookup i nd : cl !! i = Some nd -> is_Some (sy_hosts S0 !! i) /\ nd_log nd = clog i.
Proof.
  unfold cl, cluster. rewrite map_lookup_imap. destruct (sy_hosts S0 !! i) as [n|]; simpl; [|done].
  intros [= <-]. split; [eauto|done].
Qed.
Lemma cl_some i : is_Some (sy_hosts S0 !! i) -> exists nd, cl !! i = Some nd /\ nd_log nd = clog i.
Proof. intros [n Hn]. unfold cl, cluster. rewrite map_lookup_imap, Hn. simpl. eauto. Qed.
Lemma released_gave i m : released (clog i) m <-> gave hF i m.
Proof.
  unfold clog. split.
  - intros (op & r & H). apply elem_of_list_omap in H as ([e o] & H1 & H2).
    destruct e; try discriminate. destruct o; try discriminate. case_decide; [|discriminate].
    simplify_eq. exists op, r. done.
  - intros (op & r & H). exists op, r. apply elem_of_list_omap. eexists. split; [exact H|]. simpl. by rewrite decide_True.
Qed.

Notation qgood := (quorum_for (VConf t pub 0 []) cl faulty).
Lemma supported_iff m : qgood m <-> supported S0 t faulty hF m.
Proof.
  split; intros (q & Hq & H); exists q; (split; [done|]); intros j Hj.
  - destruct (H j Hj) as (nd & Hn & Hx). destruct (cl_lookup _ _ Hn) as [? E]. split; [done|].
    intros Hf. apply released_gave. rewrite <- E. auto.
  - destruct (H j Hj) as (Hn & Hx). destruct (cl_some _ Hn) as (nd & Hnd & E). exists nd. split; [done|].
    intros Hf. rewrite E. apply released_gave. auto.
Qed.

(** what holds of the process on host [i] *)
Record val_inv (i : Z) (v : vstate) : Prop := ValInv {
  vi_ex : exists st0 l, idle st0 /\ vrun C (sc_val K i) st0 l v /\
    state_good C (sc_val K i) cl faulty strict (vs_lss st0) /\
    (forall c, VLss c ∈ ops_of l -> rec_good C (sc_val K i) cl faulty strict c) /\
    (forall tt w r, VSig tt w (Some r) ∈ ops_of l -> exists b pc, vs_threads v !! tt = Some (Thread b pc) /\
       forall j, id_of (sc_val K i) w = Some j -> j ∉ faulty -> gave hF j (b_sb b)) /\
    (forall op tt w k ps sb, (op, OAsk tt w k ps sb) ∈ l -> exists b pc,
       vs_threads v !! tt = Some (Thread b pc) /\ sb = b_sb b);
  vi_fit : forall tt b pc, vs_threads v !! tt = Some (Thread b pc) -> hrs_fits (b_hrs b) = true }.

Record cos_inv (h : history) (i : Z) (n : host) : Prop := CosInv {
  ci_ex : exists n0 ops l, sy_hosts S0 !! i = Some n0 /\
    cnrun C (sc_cos K i) (ho_cos n0) ops l (ho_cos n) /\ (i ∉ lossy -> restarts_saved C (sc_cos K i) (ho_cos n0) ops) /\
    forall m, gave h i m -> released l m }.

(** signatures in the validator's file and in the goroutines writing it *)
Definition sig_known (sig : bytes) : Prop := exists m, cr_verify C pub m sig = true /\ qgood m.
Record file_inv (n : host) : Prop := FileInv {
  fi_file : forall s sig, load (ho_vfile n) = Some s -> ss_sig s = Some sig -> sig_known sig;
  fi_ws : forall w sig, w ∈ ho_vws n -> fr_sig (w_rec w) = Some sig -> sig_known sig }.

Record sys_inv (h : history) (S : system) : Prop := SysInv {
  si_dom : forall i, is_Some (sy_hosts S !! i) <-> is_Some (sy_hosts S0 !! i);
  si_val : forall i n, sy_hosts S !! i = Some n -> val_inv i (ho_val n);
  si_cos : forall i n, sy_hosts S !! i = Some n -> cos_inv h i n;
  si_file : strict = false -> forall i n, sy_hosts S !! i = Some n -> file_inv n;
  si_gave : forall i m, gave h i m -> is_Some (sy_hosts S !! i);
  si_prop : forall e, e ∈ sy_proposed S \/ e ∈ sy_log S -> exists c, e = emit_entry c /\
    RaftSpec.hrs_in_range (c_hrs c) /\ rec_good C (VConf t pub 0 []) cl faulty strict c;
  si_ret : forall i b sig, handed_out h i b sig -> sig_good C (VConf t pub 0 []) cl faulty strict b sig }.

Lemma setup_good i : is_Some (sy_hosts S0 !! i) ->
  NoDup (vc_id (sc_val K i) :: vc_peers (sc_val K i)) /\
  (forall c, rec_good C (sc_val K i) cl faulty strict c <-> rec_good C (VConf t pub 0 []) cl faulty strict c) /\
  (forall b s, sig_good C (sc_val K i) cl faulty strict b s <-> sig_good C (VConf t pub 0 []) cl faulty strict b s).
Proof.
  intros Hi. destruct (Hset i Hi) as (E1 & E2 & E3 & E4 & _). split; [by rewrite E1|].
  unfold rec_good, sig_good, quorum_for. cbn [vc_threshold vc_pub]. rewrite E2, E3. done.
Qed.
Lemma id_host i w j : is_Some (sy_hosts S0 !! i) -> id_of (sc_val K i) w = Some j -> is_Some (sy_hosts S0 !! j).
Proof.
  intros Hi Hw. destruct (Hset i Hi) as (E1 & _ & _ & _ & E5). destruct w as [|w]; simpl in Hw.
  - injection Hw as <-. by rewrite E1.
  - apply E5. by apply elem_of_list_lookup_2 in Hw.
Qed.

Lemma val_backed i st0 l v : is_Some (sy_hosts S0 !! i) -> vrun C (sc_val K i) st0 l v ->
  (forall tt w r, VSig tt w (Some r) ∈ ops_of l -> exists b pc, vs_threads v !! tt = Some (Thread b pc) /\
     forall j, id_of (sc_val K i) w = Some j -> j ∉ faulty -> gave hF j (b_sb b)) ->
  (forall op tt w k ps sb, (op, OAsk tt w k ps sb) ∈ l -> exists b pc,
     vs_threads v !! tt = Some (Thread b pc) /\ sb = b_sb b) ->
  cluster_backed (sc_val K i) cl faulty l.
Proof.
  intros Hi Hr H1 H2 tt w sb j (sig & eph & Hs & _) (op & k & ps & Ha) Hj.
  destruct (H1 _ _ _ Hs) as (b & pc & Hb & Hg). destruct (H2 _ _ _ _ _ _ Ha) as (b' & pc' & Hb' & ->).
  assert (b' = b) as -> by congruence. destruct (cl_some j) as (nd & Hnd & E); [by eapply id_host|].
  exists nd. split; [done|]. intros Hf. rewrite E. apply released_gave. eauto.
Qed.

Lemma fits_range k : hrs_fits k = true -> RaftSpec.hrs_in_range k.
Proof.
  unfold hrs_fits, RaftSpec.hrs_in_range, in_int64. rewrite !andb_true_iff, !Z.leb_le, !Z.ltb_lt.
  intros (((((H1 & H2) & H3) & H4) & H5) & H6).
  change (2^63) with 9223372036854775808 in *. split; [|split]; lia.
Qed.

Lemma share_given_gave h j sb r : share_given h j sb r = true -> gave h j sb.
Proof.
  unfold share_given. rewrite existsb_exists. intros ([e o] & Hin & H).
  destruct e; try discriminate. destruct o as [|[]|]; try discriminate.
  apply bool_decide_eq_true in H as (-> & -> & _). exists op, r0. by apply elem_of_list_In.
Qed.
Lemma answered_handed h b sig : block_answered h b (Some sig) = true ->
  exists j b', handed_out h j b' sig /\ b_hrs b' = b_hrs b /\ b_sb b' = b_sb b.
Proof.
  unfold block_answered. rewrite existsb_exists. intros ([e o] & Hin & H).
  destruct e; try discriminate. destruct o as [[]| |]; try discriminate.
  apply andb_true_iff in H as [H He]. apply bool_decide_eq_true in H as (E1 & E2 & E3).
  destruct r as [rs ts re]. simpl in *. destruct re; [discriminate|].
  assert (rs = Some sig) as ->. { destruct rs as [[|]|]; simpl in E3; congruence. }
  exists i, b0. split; [|done]. exists op, t0, ts, fresh. by apply elem_of_list_In.
Qed.

(** one action of a call *)
Lemma val_step i v op v1 o h S : is_Some (sy_hosts S0 !! i) ->
  val_inv i v -> (forall j m, gave h j m -> gave hF j m) ->
  (forall j b sig, handed_out h j b sig -> sig_good C (VConf t pub 0 []) cl faulty strict b sig) ->
  possible K faulty h S i v op = true ->
  vstep C (sc_val K i) v op = VOk v1 o ->
  val_inv i v1 /\
  (forall tt b sig ts f, o = OReturn tt b (VR (Some sig) ts None) f -> sig_good C (VConf t pub 0 []) cl faulty strict b sig).
Proof.
  intros Hi [(st0 & l & Hid & Hr & Hg & He & Hsig & Hask) Hfit] Hgave Hout Hp Hs.
  destruct (setup_good i Hi) as (Hnd & Hrg & Hsg).
  pose proof (val_backed i st0 l v Hi Hr Hsig Hask) as Hb. split.
  - split.
    + exists st0, (l ++ [(op, o)]). split; [done|]. split; [by eapply vrun_snoc|]. split; [done|]. split.
      { intros c Hc. rewrite ops_snoc in Hc. apply elem_of_app in Hc as [Hc|Hc%elem_of_list_singleton]; [auto|].
        subst op. discriminate Hp. }
      split.
      * intros tt w r Hin. rewrite ops_snoc in Hin. apply elem_of_app in Hin as [Hin|Hin%elem_of_list_singleton].
        -- destruct (Hsig _ _ _ Hin) as (b & pc & Hl & Hx). destruct (thread_keeps _ _ _ _ _ _ _ _ _ Hs Hl) as (pc' & Hl').
           eauto.
        -- subst op. unfold possible in Hp. destruct (id_of (sc_val K i) w) as [j|] eqn:Ej; [|done].
           destruct (vs_threads v !! tt) as [[b pc]|] eqn:El; [|done].
           destruct (thread_keeps _ _ _ _ _ _ _ _ _ Hs El) as (pc' & Hl').
           exists b, pc'. split; [done|]. intros j' [= <-] Hf. apply orb_true_iff in Hp as [Hp|Hp].
           { apply bool_decide_eq_true in Hp. done. }
           eapply Hgave, share_given_gave, Hp.
      * intros op' tt w k ps sb [Hin|[= -> <-]%elem_of_list_singleton]%elem_of_app.
        -- destruct (Hask _ _ _ _ _ _ Hin) as (b & pc & Hl & ->). destruct (thread_keeps _ _ _ _ _ _ _ _ _ Hs Hl) as (pc' & Hl').
           eauto.
        -- apply vstep_case in Hs. inversion Hs as [| | |t' b' pc op' st1 pc' o Hop Hl Ht]; subst.
           inversion Ht; subst. simpl. rewrite lookup_insert. eauto.
    + intros tt b pc Hl. destruct (thread_new _ _ _ _ _ _ _ _ _ Hs Hl) as [[pc' Hl']|[r ->]]; [eauto|done].
  - intros tt b sig ts f ->.
    assert (Hx : (forall ans, op <> VProxy tt ans) \/ exists ans, op = VProxy tt ans).
    { destruct op as [ |t' ans| | | | | | | | | | | | | ]; try (left; done).
      destruct (decide (t' = tt)) as [-> |]; [eauto|]. left. intros ? [= ? ?]. done. }
    destruct Hx as [Hx|[ans ->]]; [apply Hsg; eapply return_good; eauto|].
    apply vstep_case in Hs. inversion Hs as [| | |t' b' pc op' st1 pc' o Hop Hl Ht]; subst.
    inversion Ht; subst. unfold possible in Hp. rewrite Hl in Hp.
    destruct ans as [e|sg].
    + exfalso. match goal with H : proxy_result _ _ = _ |- _ => revert H end. unfold proxy_result. repeat case_match; discriminate.
    + match goal with H : proxy_result _ _ = _ |- _ => injection H as -> _ end.
      apply answered_handed in Hp as (j & b' & Hh & E1 & E2). apply Hout in Hh as (m & H1 & H2 & H3).
      exists m. rewrite <- E1, <- E2. done.
Qed.

Lemma gave_snoc h x j m : gave (h ++ [x]) j m ->
  gave h j m \/ exists op r, x = (ECos j op, SCos (ObsShare m r)).
Proof. intros (op & r & [H|H%elem_of_list_singleton]%elem_of_app); [left; by exists op, r|eauto]. Qed.
Lemma handed_snoc h x i b sig : handed_out (h ++ [x]) i b sig ->
  handed_out h i b sig \/ exists op tt ts f, x = (EVal i op, SVal (OReturn tt b (VR (Some sig) ts None) f)).
Proof.
  intros (op & tt & ts & f & [H|H%elem_of_list_singleton]%elem_of_app); [left; by exists op, tt, ts, f|].
  right. exists op, tt, ts, f. done.
Qed.

(** an event of host [i] *)
Lemma upd_inv h S i n n' e o : sys_inv h S -> sy_hosts S !! i = Some n ->
  val_inv i (ho_val n') -> cos_inv (h ++ [(e, o)]) i n' -> (strict = false -> file_inv n') ->
  (forall j m, gave (h ++ [(e, o)]) j m -> gave h j m \/ j = i) ->
  (forall j b sig, handed_out (h ++ [(e, o)]) j b sig -> handed_out h j b sig \/
     sig_good C (VConf t pub 0 []) cl faulty strict b sig) ->
  sys_inv (h ++ [(e, o)]) (upd S i n').
Proof.
  intros [D1 D2 D3 D7 D4 D5 D6] Hn Hv Hc Hf Hg Hh. split; simpl.
  - intros j. destruct (decide (i = j)) as [<- |].
    + rewrite lookup_insert. split; [intros _; apply D1; eauto|eauto].
    + rewrite lookup_insert_ne by done. apply D1.
  - intros j m [[<- <-]|[? Hm]]%lookup_insert_Some; [done|eauto].
  - intros j m [[<- <-]|[Hne Hm]]%lookup_insert_Some; [done|].
    destruct (D3 _ _ Hm) as [(n0 & ops & l & H1 & H2 & H3 & H4)]. split. exists n0, ops, l.
    do 3 (split; [done|]). intros x Hx. apply Hg in Hx as [Hx| ->]; [auto|done].
  - intros Es j m [[<- <-]|[Hne Hm]]%lookup_insert_Some; [auto|eauto].
  - intros j m Hx. apply Hg in Hx as [Hx| ->].
    + destruct (decide (i = j)) as [<- |]; [rewrite lookup_insert|rewrite lookup_insert_ne by done]; eauto.
    + rewrite lookup_insert. eauto.
  - done.
  - intros j b sig Hx. apply Hh in Hx as [Hx|Hx]; eauto.
Qed.

Lemma cos_step h i n op cn lo x (v : vstate) (f : file) (ws : list writer) (a : nat) :
  cos_inv h i n -> cnstep C (sc_cos K i) (ho_cos n) op = Some (cn, lo) ->
  (op = CRestart -> i ∉ lossy -> forall s, load (cn_file (ho_cos n)) = Some s -> not_behind s (cs_lss (cn_cos (ho_cos n)))) ->
  (forall m, gave (h ++ [x]) i m -> gave h i m \/ released lo m) ->
  cos_inv (h ++ [x]) i (Host v f ws cn a).
Proof.
  intros [(n0 & ops & l & H1 & H2 & H3 & H4)] Hs Hre Hg. split. exists n0, (ops ++ [op]), (l ++ lo).
  split; [done|]. split; [by eapply cnrun_snoc|]. split; [intros Hl; eapply restarts_saved_snoc; eauto|].
  intros m Hm. apply Hg in Hm as [Hm|(o & r & Hm)].
  - apply H4 in Hm as (o & r & Hm). exists o, r. apply elem_of_app. by left.
  - exists o, r. apply elem_of_app. by right.
Qed.
Lemma cos_keep h i n x v f ws a : cos_inv h i n -> (forall m, gave (h ++ [x]) i m -> gave h i m) ->
  cos_inv (h ++ [x]) i (Host v f ws (ho_cos n) a).
Proof.
  intros [(n0 & ops & l & H1 & H2 & H3 & H4)] Hg. split. exists n0, ops, l. do 3 (split; [done|]). auto.
Qed.

(** same hosts, perhaps more entries *)
Lemma log_inv h S S' e o : sys_inv h S -> sy_hosts S' = sy_hosts S ->
  (forall j m, gave (h ++ [(e, o)]) j m -> gave h j m) ->
  (forall j b sig, handed_out (h ++ [(e, o)]) j b sig -> handed_out h j b sig) ->
  (forall x, x ∈ sy_proposed S' \/ x ∈ sy_log S' -> (x ∈ sy_proposed S \/ x ∈ sy_log S) \/
    exists c, x = emit_entry c /\ RaftSpec.hrs_in_range (c_hrs c) /\ rec_good C (VConf t pub 0 []) cl faulty strict c) ->
  sys_inv (h ++ [(e, o)]) S'.
Proof.
  intros [D1 D2 D3 D7 D4 D5 D6] E Hg Hh Hp. split; rewrite ?E; eauto.
  - intros j m Hm. destruct (D3 _ _ Hm) as [(n0 & ops & l & H1 & H2 & H3 & H4)]. split. exists n0, ops, l.
    do 3 (split; [done|]). auto.
  - intros x Hx. apply Hp in Hx as [Hx|Hx]; eauto.
Qed.

Lemma as_sent_good c : rec_good C (VConf t pub 0 []) cl faulty strict c -> rec_good C (VConf t pub 0 []) cl faulty strict (as_sent c).
Proof. intros H sig Hs. simpl in *. apply H. done. Qed.

(** a raft event *)
Lemma lss_step i v v1 o c : is_Some (sy_hosts S0 !! i) -> val_inv i v ->
  rec_good C (VConf t pub 0 []) cl faulty strict c -> vstep C (sc_val K i) v (VLss c) = VOk v1 o -> val_inv i v1.
Proof.
  intros Hi [(st0 & l & Hid & Hr & Hg & He & Hsig & Hask) Hfit] Hc Hs.
  destruct (setup_good i Hi) as (Hnd & Hrg & Hsg).
  split.
  - exists st0, (l ++ [(VLss c, o)]). split; [done|]. split; [by eapply vrun_snoc|]. split; [done|]. split.
    { intros c' Hc'. rewrite ops_snoc in Hc'. apply elem_of_app in Hc' as [Hc'|Hc'%elem_of_list_singleton]; [auto|].
      injection Hc' as ->. by apply Hrg. }
    split.
    + intros tt w r Hin. rewrite ops_snoc in Hin. apply elem_of_app in Hin as [Hin|Hin%elem_of_list_singleton]; [|done].
      destruct (Hsig _ _ _ Hin) as (b & pc & Hl & Hx). destruct (thread_keeps _ _ _ _ _ _ _ _ _ Hs Hl) as (pc' & Hl').
      eauto.
    + intros op' tt w k ps sb [Hin|[= -> <-]%elem_of_list_singleton]%elem_of_app.
      * destruct (Hask _ _ _ _ _ _ Hin) as (b & pc & Hl & ->). destruct (thread_keeps _ _ _ _ _ _ _ _ _ Hs Hl) as (pc' & Hl').
        eauto.
      * apply vstep_case in Hs. inversion Hs; subst. done.
  - intros tt b pc Hl. destruct (thread_new _ _ _ _ _ _ _ _ _ Hs Hl) as [[pc' Hl']|[r ?]]; [eauto|done].
Qed.

(** a started process *)
Lemma fresh_val i s : state_good C (sc_val K i) cl faulty strict s -> val_inv i (new_validator s).
Proof.
  intros Hs. split.
  - exists (new_validator s), []. split; [done|]. split; [constructor|]. split; [done|].
    split; [intros c Hc; by apply elem_of_nil in Hc|]. split; intros *; intros Hx; by apply elem_of_nil in Hx.
  - intros tt b pc H. simpl in H. by rewrite lookup_empty in H.
Qed.
Lemma val_state_good i v : is_Some (sy_hosts S0 !! i) -> val_inv i v -> state_good C (sc_val K i) cl faulty strict (vs_lss v).
Proof.
  intros Hi [(st0 & l & Hid & Hr & Hg & He & Hsig & Hask) _]. destruct (setup_good i Hi) as (Hnd & _ & _).
  eapply state_good_run; eauto. eapply val_backed; eauto.
Qed.
Lemma no_sig_good i s : no_signatures s -> state_good C (sc_val K i) cl faulty strict s.
Proof.
  intros [H1 H2]. split.
  - intros k c Hc. destruct (H2 _ _ Hc) as [E1 E2]. split; [done|]. intros sig. congruence.
  - intros sig. simpl. congruence.
Qed.
Lemma load_cache f s : load f = Some s -> forall k c, ss_cache s !! k = Some c ->
  c = SSC (ss_hrs s) (ss_sig s) (ss_sb s) /\ k = ss_hrs s.
Proof.
  unfold load. destruct f as [x|]; [|done]. destruct (unmarshal_state x) as [r|]; [|done]. intros [= <-] k c.
  unfold loaded_state. cbn [ss_cache ss_hrs ss_sig ss_sb]. by intros [<- <-]%lookup_singleton_Some.
Qed.

(** *** Signatures in files *)
Lemma file_keep n n' : file_inv n -> ho_vfile n' = ho_vfile n -> ho_vws n' = ho_vws n -> file_inv n'.
Proof. intros [H1 H2] E1 E2. split; rewrite ?E1, ?E2; done. Qed.
Lemma file_writers n n' v v' : file_inv n -> ho_vfile n' = ho_vfile n -> ho_vws n' = val_writers v v' (ho_vws n) -> file_inv n'.
Proof.
  intros [H1 H2] E1 E2. split; rewrite ?E1, ?E2; [done|]. unfold val_writers. case_bool_decide; [done|].
  intros w sig [-> |Hw]%elem_of_cons; [done|eauto].
Qed.
Lemma known_sig i s sig : is_Some (sy_hosts S0 !! i) -> state_good C (sc_val K i) cl faulty strict s -> ss_sig s = Some sig -> sig_known sig.
Proof.
  intros Hi [_ H] E. destruct (Hset i Hi) as (_ & E2 & E3 & _). destruct (H sig E) as (m & Hv & Hq & _). exists m.
  rewrite E3 in Hv. split; [done|]. destruct Hq as (q & Hq & Hx). exists q. rewrite E2 in Hq. done.
Qed.
Lemma known_good i s : is_Some (sy_hosts S0 !! i) -> strict = false -> (forall sig, ss_sig s = Some sig -> sig_known sig) ->
  (forall k c, ss_cache s !! k = Some c -> c = SSC (ss_hrs s) (ss_sig s) (ss_sb s) /\ k = ss_hrs s) ->
  state_good C (sc_val K i) cl faulty strict s.
Proof.
  intros Hi Es H Hc. destruct (Hset i Hi) as (_ & E2 & E3 & _).
  assert (G : rec_good C (sc_val K i) cl faulty strict (SSC (ss_hrs s) (ss_sig s) (ss_sb s))).
  { intros sig E. destruct (H sig E) as (m & Hv & q & Hq & Hx). exists m. rewrite E3. split; [done|].
    split; [|rewrite Es; done]. exists q. rewrite E2. done. }
  split; [|done]. intros k c Hk. destruct (Hc _ _ Hk) as [-> ->]. done.
Qed.
Lemma read_sig s w w' sig : read_field s w = Some w' -> fr_sig (w_rec w') = Some sig ->
  fr_sig (w_rec w) = Some sig \/ ss_sig s = Some sig.
Proof.
  unfold read_field. destruct w as [pc f]. destruct pc as [|[|[|[|[|[|]]]]]]; simpl; intros [= <-]; simpl; auto.
Qed.
Lemma file_read i n w w' k : is_Some (sy_hosts S0 !! i) -> val_inv i (ho_val n) -> file_inv n ->
  ho_vws n !! k = Some w -> read_field (vs_lss (ho_val n)) w = Some w' ->
  file_inv (Host (ho_val n) (ho_vfile n) (<[k := w']> (ho_vws n)) (ho_cos n) (ho_applied n)).
Proof.
  intros Hi Hv [H1 H2] Hw Hr. split; simpl; [done|].
  intros x sig Hx Es. apply elem_of_list_lookup in Hx as [j Hj].
  destruct (decide (j = k)) as [-> |].
  - rewrite list_lookup_insert in Hj by (by eapply lookup_lt_Some). injection Hj as <-.
    destruct (read_sig _ _ _ _ Hr Es) as [E|E].
    + eapply H2; [by eapply elem_of_list_lookup_2|done].
    + eapply known_sig; [done|by apply val_state_good|done].
  - rewrite list_lookup_insert_ne in Hj by done. eapply H2; [by eapply elem_of_list_lookup_2|done].
Qed.
Lemma file_rename n w k : file_inv n -> ho_vws n !! k = Some w ->
  file_inv (Host (ho_val n) (Some (marshal_state (w_rec w))) (delete k (ho_vws n)) (ho_cos n) (ho_applied n)).
Proof.
  intros [H1 H2] Hw. split; simpl.
  - intros s sig Hl Es. destruct (unmarshal_state (marshal_state (w_rec w))) as [r|] eqn:Er; [|discriminate Hl].
    injection Hl as <-. eapply H2; [by eapply elem_of_list_lookup_2|]. rewrite <- (unmarshal_sig _ _ Er). exact Es.
  - intros x sig Hx Es. assert (Hi : x ∈ ho_vws n) by (eapply elem_of_submseteq; [exact Hx|apply sublist_submseteq, sublist_delete]). eauto.
Qed.

Hypothesis Hkept : shares_kept C K faulty S0 lossy hF.
Hypothesis Hfiles : if strict then files_true C K faulty S0 hF else first_files S0.

Lemma init_inv : sys_inv [] S0.
Proof.
  destruct Hfirst as (F1 & F2 & F3). split.
  - done.
  - intros i n Hn. destruct (F3 _ _ Hn) as [Hi Hs]. split.
    + exists (ho_val n), []. split; [done|]. split; [constructor|]. split; [by apply no_sig_good|].
      split; [intros c Hc; by apply elem_of_nil in Hc|]. split; intros *; intros Hx; by apply elem_of_nil in Hx.
    + intros tt b pc H. unfold idle in Hi. rewrite Hi in H. by rewrite lookup_empty in H.
  - intros i n Hn. split. exists n, [], []. split; [done|]. split; [constructor|]. split.
    + intros _ o1 o2 l1 n1 s E. by destruct o1.
    + intros m (? & ? & H). by apply elem_of_nil in H.
  - intros Es i n Hn. rewrite Es in Hfiles. destruct (Hfiles i n Hn) as [H1 H2]. split.
    + intros s sig Hl E. rewrite (H2 s Hl) in E. done.
    + intros w sig Hw. rewrite H1 in Hw. by apply elem_of_nil in Hw.
  - intros i m (? & ? & H). by apply elem_of_nil in H.
  - rewrite F1, F2. intros e [H|H]; by apply elem_of_nil in H.
  - intros i b sig (? & ? & ? & ? & H). by apply elem_of_nil in H.
Qed.

Lemma step_inv h S e S' o h2 : hF = h ++ (e, o) :: h2 -> srun h S -> sys_inv h S ->
  (forall h' h'' S1, h = h' ++ h'' -> srun h' S1 -> sys_inv h' S1) ->
  sstep h S e = Some (S', o) -> sys_inv (h ++ [(e, o)]) S'.
Proof.
  intros EF Hr Hinv Hall Hs.
  assert (HgF : forall j m, gave h j m -> gave hF j m).
  { intros j m (op & r & H). exists op, r. rewrite EF. apply elem_of_app. by left. }
  pose proof Hinv as [D1 D2 D3 D7 D4 D5 D6].
  destruct e as [i op|i op|i k|i k|i k|i k|i tt|e|i|i k]; cbv beta iota delta [System.sstep] in Hs.
  - destruct (sy_hosts S !! i) as [n|] eqn:En; [|done].
    destruct (possible K faulty h S i (ho_val n) op) eqn:Ep; [|done].
    destruct (vstep C (sc_val K i) (ho_val n) op) as [| |v vo] eqn:Ev; try done.
    injection Hs as <- <-.
    destruct (val_step i (ho_val n) op v vo h S) as [Hv Hret]; eauto. { apply D1. eauto. }
    eapply upd_inv; eauto.
    + simpl. apply cos_keep; eauto. intros m Hm. apply gave_snoc in Hm as [Hm|(? & ? & ?)]; done.
    + intros Est. by eapply file_writers; eauto.
    + intros j m Hm. apply gave_snoc in Hm as [Hm|(? & ? & ?)]; [by left|done].
    + intros j b sig Hm. apply handed_snoc in Hm as [Hm|(? & ? & ? & ? & [= -> -> ->])]; [by left|right; eauto].
  - destruct (sy_hosts S !! i) as [n|] eqn:En; [|done].
    assert (Hs' : match host_cos C K S i n (COp op) with
                  | Some (S', [(_, o)]) => Some (S', SCos o) | _ => None end = Some (S', o)).
    { destruct op; done. }
    clear Hs. unfold host_cos in Hs'.
    destruct (cnstep C (sc_cos K i) (ho_cos n) (COp op)) as [[cn l]|] eqn:Ec; [|done].
    assert (exists ob, l = [(op, ob)] /\ o = SCos ob /\ S' = upd S i (Host (ho_val n) (ho_vfile n) (ho_vws n) cn (ho_applied n)))
      as (ob & -> & -> & ->).
    { simpl in Ec. destruct (cstep C (sc_cos K i) (cn_cos (ho_cos n)) op) as [[st ob]|]; [|done].
      injection Ec as _ <-. injection Hs' as <- <-. eauto. }
    eapply upd_inv; eauto.
    + simpl. eauto.
    + eapply cos_step; eauto; [done|]. intros m Hm. apply gave_snoc in Hm as [Hm|(op' & r & [= -> ->])]; [by left|].
      right. exists op', r. by apply elem_of_list_singleton.
    + intros Est. by eapply file_keep; eauto.
    + intros j m Hm. apply gave_snoc in Hm as [Hm|(op' & r & [= -> -> ->])]; [by left|by right].
    + intros j b sig Hm. apply handed_snoc in Hm as [Hm|(? & ? & ? & ? & ?)]; [by left|done].
  - destruct (sy_hosts S !! i) as [n|] eqn:En; [|done]. destruct (ho_vws n !! k) as [w|] eqn:Ew; [|done].
    destruct (read_field _ w) as [w'|] eqn:Er; [|done]. injection Hs as <- <-.
    eapply upd_inv; eauto.
    + simpl. eauto.
    + apply cos_keep; eauto. intros m Hm. apply gave_snoc in Hm as [Hm|(? & ? & ?)]; done.
    + intros Est. eapply file_read; eauto. apply D1. eauto.
    + intros j m Hm. apply gave_snoc in Hm as [Hm|(? & ? & ?)]; [by left|done].
    + intros j b sig Hm. apply handed_snoc in Hm as [Hm|(? & ? & ? & ? & ?)]; [by left|done].
  - destruct (sy_hosts S !! i) as [n|] eqn:En; [|done]. destruct (ho_vws n !! k) as [w|] eqn:Ew; [|done].
    case_bool_decide; [|done]. injection Hs as <- <-.
    eapply upd_inv; eauto.
    + simpl. eauto.
    + apply cos_keep; eauto. intros m Hm. apply gave_snoc in Hm as [Hm|(? & ? & ?)]; done.
    + intros Est. eapply file_rename; eauto.
    + intros j m Hm. apply gave_snoc in Hm as [Hm|(? & ? & ?)]; [by left|done].
    + intros j b sig Hm. apply handed_snoc in Hm as [Hm|(? & ? & ? & ? & ?)]; [by left|done].
  - destruct (sy_hosts S !! i) as [n|] eqn:En; [|done]. unfold host_cos in Hs.
    destruct (cnstep C (sc_cos K i) (ho_cos n) (CRead k)) as [[cn l]|] eqn:Ec; [|done]. injection Hs as <- <-.
    eapply upd_inv; eauto.
    + simpl. eauto.
    + eapply cos_step; eauto; [done|]. intros m Hm. apply gave_snoc in Hm as [Hm|(? & ? & ?)]; [by left|done].
    + intros Est. by eapply file_keep; eauto.
    + intros j m Hm. apply gave_snoc in Hm as [Hm|(? & ? & ?)]; [by left|done].
    + intros j b sig Hm. apply handed_snoc in Hm as [Hm|(? & ? & ? & ? & ?)]; [by left|done].
  - destruct (sy_hosts S !! i) as [n|] eqn:En; [|done]. unfold host_cos in Hs.
    destruct (cnstep C (sc_cos K i) (ho_cos n) (CRename k)) as [[cn l]|] eqn:Ec; [|done]. injection Hs as <- <-.
    eapply upd_inv; eauto.
    + simpl. eauto.
    + eapply cos_step; eauto; [done|]. intros m Hm. apply gave_snoc in Hm as [Hm|(? & ? & ?)]; [by left|done].
    + intros Est. by eapply file_keep; eauto.
    + intros j m Hm. apply gave_snoc in Hm as [Hm|(? & ? & ?)]; [by left|done].
    + intros j b sig Hm. apply handed_snoc in Hm as [Hm|(? & ? & ? & ? & ?)]; [by left|done].
  - destruct (sy_hosts S !! i) as [n|] eqn:En; [|done].
    destruct (thread_entry (ho_val n) tt) as [x|] eqn:Ex; [|done]. injection Hs as <- <-.
    unfold thread_entry in Ex. destruct (vs_threads (ho_val n) !! tt) as [[b pc]|] eqn:El; [|done].
    destruct pc; try done. injection Ex as <-.
    assert (Hi : is_Some (sy_hosts S0 !! i)) by (apply D1; eauto).
    destruct (setup_good i Hi) as (Hnd & Hrg & _).
    destruct (D2 _ _ En) as [(st0 & l & Hid & Hrv & Hg & He & Hsig & Hask) Hfit].
    eapply log_inv; eauto.
    + intros j m Hm. apply gave_snoc in Hm as [Hm|(? & ? & ?)]; done.
    + intros j b' s' Hm. apply handed_snoc in Hm as [Hm|(? & ? & ? & ? & ?)]; done.
    + simpl. intros x [[-> |Hx]%elem_of_cons|Hx]; [|eauto|eauto]. right. eexists. split; [done|]. split.
      * simpl. eapply fits_range, Hfit, El.
      * apply Hrg. eapply saved_good; eauto. eapply val_backed; eauto.
  - case_bool_decide as Hin; [|done]. injection Hs as <- <-.
    eapply log_inv; eauto.
    + intros j m Hm. apply gave_snoc in Hm as [Hm|(? & ? & ?)]; done.
    + intros j b' s' Hm. apply handed_snoc in Hm as [Hm|(? & ? & ? & ? & ?)]; done.
    + simpl. intros x [Hx|[Hx| ->%elem_of_list_singleton]%elem_of_app]; eauto.
  - destruct (sy_hosts S !! i) as [n|] eqn:En; [|done].
    destruct (sy_log S !! ho_applied n) as [x|] eqn:El; [|done].
    assert (Hi : is_Some (sy_hosts S0 !! i)) by (apply D1; eauto).
    destruct (event_of x) as [c|] eqn:Ee.
    + destruct (vstep C (sc_val K i) (ho_val n) (VLss c)) as [| |v vo] eqn:Ev; try done.
      destruct (cnstep C (sc_cos K i) (ho_cos n) (COp (OpLSS c))) as [[cn l]|] eqn:Ec; [|done]. injection Hs as <- <-.
      destruct (D5 x) as (c0 & -> & Hrg & Hc0). { right. by eapply elem_of_list_lookup_2. }
      rewrite emit_event in Ee by done. injection Ee as <-.
      eapply upd_inv; eauto.
      * simpl. apply (lss_step i (ho_val n) v vo (as_sent c0) Hi (D2 _ _ En) (as_sent_good _ Hc0) Ev).
      * eapply cos_step; eauto; [done|]. intros m Hm. apply gave_snoc in Hm as [Hm|(? & ? & ?)]; [by left|done].
      * intros Est. by eapply file_writers; eauto.
      * intros j m Hm. apply gave_snoc in Hm as [Hm|(? & ? & ?)]; [by left|done].
      * intros j b sig Hm. apply handed_snoc in Hm as [Hm|(? & ? & ? & ? & ?)]; [by left|done].
    + injection Hs as <- <-. eapply upd_inv; eauto.
      * simpl. eauto.
      * apply cos_keep; eauto. intros m Hm. apply gave_snoc in Hm as [Hm|(? & ? & ?)]; done.
      * intros Est. by eapply file_keep; eauto.
      * intros j m Hm. apply gave_snoc in Hm as [Hm|(? & ? & ?)]; [by left|done].
      * intros j b sig Hm. apply handed_snoc in Hm as [Hm|(? & ? & ? & ? & ?)]; [by left|done].
  - destruct (sy_hosts S !! i) as [n|] eqn:En; [|done].
    assert (Hi : is_Some (sy_hosts S0 !! i)) by (apply D1; eauto).
    case_bool_decide as Hk; [|done].
    destruct (load_or_create (ho_vfile n)) as [s f] eqn:Eload.
    remember (cnstep C (sc_cos K i) (ho_cos n) CRestart) as rs eqn:Ec. symmetry in Ec.
    destruct rs as [[cn l]|]; [|done]. injection Hs as <- <-.
    assert (Hgood : state_good C (sc_val K i) cl faulty strict s).
    { unfold load_or_create in Eload. destruct (load (ho_vfile n)) as [s'|] eqn:El.
      - injection Eload as -> <-. destruct strict eqn:Est.
        + destruct (Hfiles h i k SNone h2 S n EF Hr En s El) as (h' & h'' & S1 & n' & Eh & Hr' & Hn' & (A1 & A2 & A3)).
          pose proof (Hall _ _ _ Eh Hr') as [_ D2' _ _ _ _ _].
          pose proof (val_state_good i _ Hi (D2' _ _ Hn')) as [_ G]. rewrite <- A1, <- A2, <- A3 in G. rewrite Est in G.
          split; [|done]. intros k' c Hc. destruct (load_cache _ _ El _ _ Hc) as [-> ->]. done.
        + rewrite <- Est. apply known_good; [done|done| |apply (load_cache _ _ El)].
          intros sig. destruct (D7 eq_refl _ _ En) as [F1 _]. by apply F1.
      - injection Eload as <- <-. apply no_sig_good. split; [done|]. intros k' c Hc. simpl in Hc. by rewrite lookup_empty in Hc. }
    eapply upd_inv; eauto.
    + simpl. by apply fresh_val.
    + eapply cos_step; eauto.
      intros m Hm. apply gave_snoc in Hm as [Hm|(? & ? & ?)]; [by left|done].
    + intros Est. split; simpl.
      * intros s' sig Hl Es. destruct (D7 Est _ _ En) as [F1 _]. unfold load_or_create in Eload.
        destruct (load (ho_vfile n)) as [s1|] eqn:El; injection Eload as <- <-.
        -- rewrite El in Hl. injection Hl as <-. by eapply F1.
        -- exfalso. unfold load in Hl. destruct (unmarshal_state (marshal_state (rec_of zero_state))) as [r|] eqn:Er; [|discriminate Hl].
           injection Hl as <-. apply unmarshal_sig in Er. simpl in Es. rewrite Er in Es. discriminate Es.
      * intros w sig Hw. by apply elem_of_nil in Hw.
    + intros j m Hm. apply gave_snoc in Hm as [Hm|(? & ? & ?)]; [by left|done].
    + intros j b sig Hm. apply handed_snoc in Hm as [Hm|(? & ? & ? & ? & ?)]; [by left|done].
Qed.

Lemma run_inv h h2 : hF = h ++ h2 -> forall h' h'' S, h = h' ++ h'' -> srun h' S -> sys_inv h' S.
Proof.
  revert h2. induction h as [|[e o] h IH] using rev_ind; intros h2 EF h' h'' S E Hr.
  - symmetry in E. apply app_eq_nil in E as [-> ->]. inversion Hr as [|h0 ? ? ? ? ? ? E]; [subst S; apply init_inv|]. by destruct h0.
  - rewrite <- app_assoc in EF. simpl in EF.
    destruct h'' as [|x h'' _] using rev_ind.
    + rewrite app_nil_r in E. subst h'. inversion Hr as [E|h0 S1 e' S2 o' Hr' Hs' E]; [by destruct h|].
      apply app_inj_tail in E as [-> [= -> ->]].
      eapply step_inv; eauto.
      eapply (IH _ EF h []); [by rewrite app_nil_r|done].
    + rewrite app_assoc in E. apply app_inj_tail in E as [-> _]. eapply IH; eauto.
Qed.
End S.

(** ** The theorem *)
Lemma good_kept C K faulty S0 h : restarts_good C K faulty S0 h -> shares_kept C K faulty S0 ∅ h /\ files_true C K faulty S0 h.
Proof.
  intros H. split.
  - intros h1 i k o h2 S n E Hr Hn _. eapply H; eauto.
  - intros h1 i k o h2 S n E Hr Hn. eapply H; eauto.
Qed.
Lemma restarted_lossy C K faulty S0 h : shares_kept C K faulty S0 (restarted h) h.
Proof.
  intros h1 i k o h2 S n E Hr Hn Hl. exfalso. apply Hl, elem_of_list_to_set, elem_of_list_omap.
  exists (ERestart i k, o). split; [|done]. rewrite E. apply elem_of_app. right. left.
Qed.

Lemma cluster_signatures C K faulty S0 t pub h S :
  set_up K S0 t pub -> first_start S0 -> srun C K faulty S0 h S -> files_true C K faulty S0 h ->
  forall i b sig, handed_out h i b sig ->
  exists m, cr_verify C pub m sig = true /\ supported S0 t faulty h m /\
    (h_step (b_hrs b) <> stepPropose -> m = b_sb b).
Proof.
  intros H1 H2 Hr Hf i b sig Hh. pose proof (restarted_lossy C K faulty S0 h) as Hk.
  destruct (run_inv C K faulty S0 t pub H1 H2 h true (restarted h) Hk Hf h [] ltac:(by rewrite app_nil_r) h [] S ltac:(by rewrite app_nil_r) Hr)
    as [_ _ _ _ _ _ D]. destruct (D _ _ _ Hh) as (m & Hv & Hq & Hm).
  exists m. split; [done|]. split; [|auto]. apply (supported_iff K faulty S0 t pub). done.
Qed.
Lemma cluster_any_file C K faulty S0 t pub h S :
  set_up K S0 t pub -> first_start S0 -> first_files S0 -> srun C K faulty S0 h S ->
  forall i b sig, handed_out h i b sig ->
  exists m, cr_verify C pub m sig = true /\ supported S0 t faulty h m.
Proof.
  intros H1 H2 Hf Hr i b sig Hh. pose proof (restarted_lossy C K faulty S0 h) as Hk.
  destruct (run_inv C K faulty S0 t pub H1 H2 h false (restarted h) Hk Hf h [] ltac:(by rewrite app_nil_r) h [] S ltac:(by rewrite app_nil_r) Hr)
    as [_ _ _ _ _ _ D]. destruct (D _ _ _ Hh) as (m & Hv & Hq & Hm).
  exists m. split; [done|]. apply (supported_iff K faulty S0 t pub). done.
Qed.

(** the cosigners alone, whatever the validators and their files do *)
Lemma step_cos C K faulty h S e S' o : sstep C K faulty h S e = Some (S', o) ->
  (forall i, is_Some (sy_hosts S' !! i) <-> is_Some (sy_hosts S !! i)) /\
  forall i n', sy_hosts S' !! i = Some n' -> exists n, sy_hosts S !! i = Some n /\
    ((ho_cos n' = ho_cos n /\ forall m, gave (h ++ [(e, o)]) i m -> gave h i m) \/
     exists op lo, cnstep C (sc_cos K i) (ho_cos n) op = Some (ho_cos n', lo) /\
       (op = CRestart -> exists k, e = ERestart i k) /\
       forall m, gave (h ++ [(e, o)]) i m -> gave h i m \/ released lo m).
Proof.
  intros Hs.
  assert (Hupd : forall j n x, sy_hosts S !! j = Some n ->
    S' = upd S j x -> (forall i, is_Some (sy_hosts S' !! i) <-> is_Some (sy_hosts S !! i))).
  { intros j n x Hn -> i. simpl. destruct (decide (j = i)) as [<- |].
    - rewrite lookup_insert, Hn. split; eauto.
    - by rewrite lookup_insert_ne. }
  assert (Hno : (forall j op r m, (e, o) <> (ECos j op, SCos (ObsShare m r))) -> forall i m, gave (h ++ [(e, o)]) i m -> gave h i m).
  { intros Hne i m Hm. apply gave_snoc in Hm as [Hm|(op & r & E)]; [done|]. by destruct (Hne i op r m). }
  assert (Hkeep : forall j n x, sy_hosts S !! j = Some n -> S' = upd S j x -> ho_cos x = ho_cos n ->
    (forall j op r m, (e, o) <> (ECos j op, SCos (ObsShare m r))) ->
    forall i n', sy_hosts S' !! i = Some n' -> exists n, sy_hosts S !! i = Some n /\
      ((ho_cos n' = ho_cos n /\ forall m, gave (h ++ [(e, o)]) i m -> gave h i m) \/
       exists op lo, cnstep C (sc_cos K i) (ho_cos n) op = Some (ho_cos n', lo) /\
         (op = CRestart -> exists k, e = ERestart i k) /\
         forall m, gave (h ++ [(e, o)]) i m -> gave h i m \/ released lo m)).
  { intros j n x Hn -> Hx Hne i n'. simpl. intros [[<- <-]|[? Hm]]%lookup_insert_Some.
    - exists n. split; [done|]. left. split; [done|]. by apply Hno.
    - exists n'. split; [done|]. left. split; [done|]. by apply Hno. }
  assert (Hstep : forall j n x op lo, sy_hosts S !! j = Some n -> S' = upd S j x ->
    cnstep C (sc_cos K j) (ho_cos n) op = Some (ho_cos x, lo) -> (op = CRestart -> exists k, e = ERestart j k) ->
    (forall i m, gave (h ++ [(e, o)]) i m -> gave h i m \/ i = j /\ released lo m) ->
    forall i n', sy_hosts S' !! i = Some n' -> exists n, sy_hosts S !! i = Some n /\
      ((ho_cos n' = ho_cos n /\ forall m, gave (h ++ [(e, o)]) i m -> gave h i m) \/
       exists op lo, cnstep C (sc_cos K i) (ho_cos n) op = Some (ho_cos n', lo) /\
         (op = CRestart -> exists k, e = ERestart i k) /\
         forall m, gave (h ++ [(e, o)]) i m -> gave h i m \/ released lo m)).
  { intros j n x op lo Hn -> Hc Hop Hg i n'. simpl. intros [[<- <-]|[? Hm]]%lookup_insert_Some.
    - exists n. split; [done|]. right. exists op, lo. split; [done|]. split; [done|].
      intros m Hm. destruct (Hg _ _ Hm) as [?|[_ ?]]; auto.
    - exists n'. split; [done|]. left. split; [done|]. intros m Hx. destruct (Hg _ _ Hx) as [?|[? _]]; [done|congruence]. }
  destruct e as [i op|i op|i k|i k|i k|i k|i tt|e|i|i k]; cbv beta iota delta [System.sstep] in Hs.
  - destruct (sy_hosts S !! i) as [n|] eqn:En; [|done]. destruct (possible _ _ _ _ _ _ _); [|done].
    destruct (vstep _ _ _ op) as [| |v vo]; try done. injection Hs as <- <-. split; [eauto|].
    eapply Hkeep; [exact En|reflexivity|reflexivity|]. intros; discriminate.
  - destruct (sy_hosts S !! i) as [n|] eqn:En; [|done].
    assert (Hs' : match host_cos C K S i n (COp op) with
                  | Some (S', [(_, o)]) => Some (S', SCos o) | _ => None end = Some (S', o)).
    { destruct op; done. }
    clear Hs. unfold host_cos in Hs'.
    destruct (cnstep C (sc_cos K i) (ho_cos n) (COp op)) as [[cn l]|] eqn:Ec; [|done].
    assert (exists ob, l = [(op, ob)] /\ o = SCos ob /\ S' = upd S i (Host (ho_val n) (ho_vfile n) (ho_vws n) cn (ho_applied n)))
      as (ob & -> & -> & ->).
    { simpl in Ec. destruct (cstep C (sc_cos K i) (cn_cos (ho_cos n)) op) as [[st ob]|]; [|done].
      injection Ec as _ <-. injection Hs' as <- <-. eauto. }
    split; [eauto|]. eapply Hstep; [exact En|reflexivity|exact Ec|done|].
    intros j m Hm. apply gave_snoc in Hm as [Hm|(op' & r & [= -> -> ->])]; [by left|]. right. split; [done|].
    exists op', r. by apply elem_of_list_singleton.
  - destruct (sy_hosts S !! i) as [n|] eqn:En; [|done]. destruct (ho_vws n !! k) as [w|]; [|done].
    destruct (read_field _ w) as [w'|]; [|done]. injection Hs as <- <-. split; [eauto|].
    eapply Hkeep; [exact En|reflexivity|reflexivity|]. intros; discriminate.
  - destruct (sy_hosts S !! i) as [n|] eqn:En; [|done]. destruct (ho_vws n !! k) as [w|]; [|done].
    case_bool_decide; [|done]. injection Hs as <- <-. split; [eauto|].
    eapply Hkeep; [exact En|reflexivity|reflexivity|]. intros; discriminate.
  - destruct (sy_hosts S !! i) as [n|] eqn:En; [|done]. unfold host_cos in Hs.
    destruct (cnstep C (sc_cos K i) (ho_cos n) (CRead k)) as [[cn l]|] eqn:Ec; [|done]. injection Hs as <- <-. split; [eauto|].
    eapply Hstep; [exact En|reflexivity|exact Ec|done|].
    intros j m Hm. apply gave_snoc in Hm as [Hm|(? & ? & ?)]; [by left|done].
  - destruct (sy_hosts S !! i) as [n|] eqn:En; [|done]. unfold host_cos in Hs.
    destruct (cnstep C (sc_cos K i) (ho_cos n) (CRename k)) as [[cn l]|] eqn:Ec; [|done]. injection Hs as <- <-. split; [eauto|].
    eapply Hstep; [exact En|reflexivity|exact Ec|done|].
    intros j m Hm. apply gave_snoc in Hm as [Hm|(? & ? & ?)]; [by left|done].
  - destruct (sy_hosts S !! i) as [n|] eqn:En; [|done].
    destruct (thread_entry (ho_val n) tt) as [x|]; [|done]. injection Hs as <- <-. simpl. split; [done|].
    intros j n' Hn'. exists n'. split; [done|]. left. split; [done|]. apply Hno. intros; discriminate.
  - case_bool_decide; [|done]. injection Hs as <- <-. simpl. split; [done|].
    intros j n' Hn'. exists n'. split; [done|]. left. split; [done|]. apply Hno. intros; discriminate.
  - destruct (sy_hosts S !! i) as [n|] eqn:En; [|done]. destruct (sy_log S !! ho_applied n) as [x|]; [|done].
    destruct (event_of x) as [c|].
    + destruct (vstep C (sc_val K i) (ho_val n) (VLss c)) as [| |v vo]; try done.
      destruct (cnstep C (sc_cos K i) (ho_cos n) (COp (OpLSS c))) as [[cn l]|] eqn:Ec; [|done]. injection Hs as <- <-.
      split; [eauto|]. eapply Hstep; [exact En|reflexivity|exact Ec|done|].
      intros j m Hm. apply gave_snoc in Hm as [Hm|(? & ? & ?)]; [by left|done].
    + injection Hs as <- <-. split; [eauto|]. eapply Hkeep; [exact En|reflexivity|reflexivity|]. intros; discriminate.
  - destruct (sy_hosts S !! i) as [n|] eqn:En; [|done]. case_bool_decide; [|done].
    destruct (load_or_create (ho_vfile n)) as [s f].
    remember (cnstep C (sc_cos K i) (ho_cos n) CRestart) as rs eqn:Ec. symmetry in Ec.
    destruct rs as [[cn l]|]; [|done]. injection Hs as <- <-. split; [eauto|].
    eapply Hstep; [exact En|reflexivity|exact Ec|eauto|].
    intros j m Hm. apply gave_snoc in Hm as [Hm|(? & ? & ?)]; [by left|done].
Qed.
Lemma run_cos C K faulty S0 lossy h S : srun C K faulty S0 h S -> shares_kept C K faulty S0 lossy h ->
  (forall i, is_Some (sy_hosts S !! i) <-> is_Some (sy_hosts S0 !! i)) /\
  forall i n, sy_hosts S !! i = Some n -> cos_inv C K S0 lossy h i n.
Proof.
  induction 1 as [|h S e S' o Hr IH Hs]; intros Hk.
  - split; [done|]. intros i n Hn. split. exists n, [], []. split; [done|]. split; [constructor|]. split.
    + intros _ o1 o2 l1 n1 s E. by destruct o1.
    + intros m (? & ? & H). by apply elem_of_nil in H.
  - destruct IH as [Hd Hc].
    { intros h1 i k o' h2 S1 n E. apply (Hk h1 i k o' (h2 ++ [(e, o)])). by rewrite E, <- app_assoc. }
    destruct (step_cos _ _ _ _ _ _ _ _ Hs) as [Hd' Hn']. split; [intros i; by rewrite Hd'|].
    intros i n' Hx. destruct (Hn' i n' Hx) as (n & Hn & [[E Hg]|(op & lo & E & Hop & Hg)]); specialize (Hc _ _ Hn).
    + destruct n' as [v f ws c a]. simpl in E. subst c. by apply cos_keep.
    + destruct n' as [v f ws c a]. eapply cos_step; [exact Hc|exact E| |exact Hg].
      intros -> Hl. destruct (Hop eq_refl) as [k ->]. eapply Hk; eauto.
Qed.

Lemma cluster_agree C K faulty lossy S0 t h S m1 m2 k :
  srun C K faulty S0 h S -> shares_kept C K faulty S0 lossy h ->
  2 * t > Z.of_nat (size (sy_hosts S0) + size (faulty ∪ lossy)) ->
  supported S0 t faulty h m1 -> supported S0 t faulty h m2 -> bytes_for m1 k -> bytes_for m2 k ->
  same_message_but_time m1 m2.
Proof.
  intros Hr Hk Ht (q1 & Q1 & G1) (q2 & Q2 & G2) K1 K2.
  destruct (run_cos C K faulty S0 lossy h S Hr Hk) as [D1 D3].
  destruct (quorum_intersect (dom (sy_hosts S0)) q1 q2 (faulty ∪ lossy)) as (i & I1 & I2 & I3).
  - intros i Hi. apply elem_of_dom, G1, Hi.
  - intros i Hi. apply elem_of_dom, G2, Hi.
  - rewrite size_dom. lia.
  - apply not_elem_of_union in I3 as [I3 I4].
    destruct (G1 i I1) as [Hi A1]. destruct (G2 i I2) as [_ A2]. apply D1 in Hi as [n Hn].
    destruct (D3 _ _ Hn) as [(n0 & ops & l & E1 & E2 & E3 & E4)].
    eapply restart_no_conflict; [exact E2|exact (E3 I4)|apply E4, A1, I3|apply E4, A2, I3|done|done].
Qed.
