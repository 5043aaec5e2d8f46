(** Histories in which a request is made again (toy cryptography, 2-of-3 cluster). *)
From Verif Require Import GoBase Wire Canonical SignState Spec CanonicalApi Crypto LocalCosigner CosignerSpec Toy
  CosignerWitness Validator ValidatorSpec ValidatorWitness Json Disk DiskSpec DiskWitness Raft RaftSpec
  System SystemSpec SystemProofs SystemWitness FailoverSpec.
Local Open Scope Z_scope.

(** events that depend on what was seen before *)
Fixpoint dexec (K : sysconf) (h : history) (S : system) (l : list (history -> event)) : option (history * system) :=
  match l with
  | [] => Some (h, S)
  | e :: l' => match sstep toy K ∅ h S (e h) with
               | Some (S', o) => dexec K (h ++ [(e h, o)]) S' l'
               | None => None
               end
  end.
Lemma dexec_srun K S0 h S l h' S' : srun toy K ∅ S0 h S -> dexec K h S l = Some (h', S') -> srun toy K ∅ S0 h' S'.
Proof.
  revert h S. induction l as [|e l IH]; intros h S Hr H; simpl in H.
  - by injection H as <- <-.
  - destruct (sstep toy K ∅ h S (e h)) as [[S1 o]|] eqn:E; [|done]. eapply IH; [|exact H]. by econstructor.
Qed.
(** the events that happened *)
Definition events (h : history) : list event := map fst h.

(** the last part cosigner [i] made for [j], and its last share *)
Fixpoint last_part (h : history) (i j : Z) (acc : part) : part :=
  match h with
  | [] => acc
  | (ECos i' _, SCos (ObsPart p)) :: h' => last_part h' i j (if bool_decide (i' = i /\ pt_dest p = j) then p else acc)
  | _ :: h' => last_part h' i j acc
  end.
Fixpoint last_share (h : history) (i : Z) (acc : bytes * bytes) : bytes * bytes :=
  match h with
  | [] => acc
  | (ECos i' _, SCos (ObsShare _ r)) :: h' =>
      last_share h' i (if bool_decide (i' = i) then (slice_of (sr_sig r), slice_of (sr_eph r)) else acc)
  | _ :: h' => last_share h' i acc
  end.
Definition others (i : Z) : list Z := filter (fun j => j <> i) [1; 2; 3].
Definition parts_by (h : history) (i : Z) : list part := map (fun j => last_part h i j (Part 0 0 [] [] None)) (others i).

Section Round.
(** leader [l], participant [w] of its peer list, which is host [p]; call number [t]; the byte [x]
    feeds the dealing of whoever deals *)
Context (b : block) (l p : Z) (w t : nat) (xl xp : byte).
Definition ask_parts (i : Z) (x : byte) : list (history -> event) :=
  map (fun j _ => ECos i (OpGet (b_key b) j (wrnd x))) (others i).
Definition both (h : history) : list (nat * list part) := [(w, parts_by h p); (0%nat, parts_by h l)].
Definition begin_round : list (history -> event) :=
  [fun _ => EVal l (VCall t b RLeader); fun _ => EVal l (VInit t)].
Definition collect_round : list (history -> event) :=
  ask_parts p xp ++ ask_parts l xl ++
  [fun h => EVal l (VParts t w (Some (parts_by h p))); fun h => EVal l (VOwn t (Some (parts_by h l)));
   fun _ => EVal l (VGo t)].
Definition sign_peer : list (history -> event) :=
  [fun h => EVal l (VAsk t w (both h));
   fun h => ECos p (OpSet (b_key b) (last_part h l p (Part 0 0 [] [] None)) None); fun _ => ECos p (OpSign (b_sb b))].
Definition sign_own : list (history -> event) :=
  [fun h => EVal l (VAsk t 0 (both h));
   fun h => ECos l (OpSet (b_key b) (last_part h p l (Part 0 0 [] [] None)) None); fun _ => ECos l (OpSign (b_sb b))].
Definition end_round : list (history -> event) :=
  [fun h => EVal l (VSig t w (Some (last_share h p ([], [])))); fun h => EVal l (VSig t 0 (Some (last_share h l ([], []))));
   fun _ => EVal l (VFinish t)].
Definition whole_round : list (history -> event) :=
  begin_round ++ collect_round ++ sign_peer ++ sign_own ++ end_round.
End Round.

Fixpoint dok (K : sysconf) (h : history) (S : system) (l : list (history -> event)) : bool :=
  match l with
  | [] => true
  | e :: l' => restart_ok S (e h) &&
      match sstep toy K ∅ h S (e h) with Some (S', o) => dok K (h ++ [(e h, o)]) S' l' | None => true end
  end.
Lemma dok_good K S0 h S l h' S' : srun toy K ∅ S0 h S -> restarts_good toy K ∅ S0 h ->
  dexec K h S l = Some (h', S') -> dok K h S l = true -> restarts_good toy K ∅ S0 h'.
Proof.
  revert h S. induction l as [|e l IH]; intros h S Hr Hg H Hok; simpl in H.
  - by injection H as <- <-.
  - cbn [dok] in Hok. apply andb_true_iff in Hok as [Hok1 Hok].
    destruct (sstep toy K ∅ h S (e h)) as [[S1 o]|] eqn:E; [|done].
    eapply IH; [| |exact H|exact Hok]; [by econstructor|].
    eapply (restarts_ok_good toy K ∅ S0 h S [e h]); [exact Hr|exact Hg| |].
    + simpl. rewrite E. reflexivity.
    + simpl. rewrite Hok1, E. done.
Qed.

(** answers of validators, with and without error *)
Definition errors_of (h : history) : list (Z * bytes * option bytes * option verr) :=
  omap (fun x => match x with (EVal i _, SVal (OReturn _ b r _)) => Some (i, b_sb b, r_sig r, r_err r) | _ => None end) h.
Lemma handed_error h i b sig : handed_out h i b sig -> (i, b_sb b, Some sig, None) ∈ errors_of h.
Proof. intros (op & t & ts & f & H). apply elem_of_list_omap. eexists. split; [exact H|]. done. Qed.
Global Instance block_eq_dec : EqDecision block.
Proof. solve_decision. Defined.
Definition refusal_of (x : event * sobs) : option (Z * block) :=
  match x with
  | (EVal i _, SVal (OReturn _ b (VR None _ (Some EvInvalid)) false)) => Some (i, b)
  | _ => None
  end.
Lemma refusal_spec h n i b : h !! n ≫= refusal_of = Some (i, b) -> refused h i b EvInvalid.
Proof.
  intros H. apply bind_Some in H as (x & Hx & H). apply elem_of_list_lookup_2 in Hx. destruct x as [e o].
  unfold refusal_of in H. destruct e; try discriminate H. destruct o as [o| |]; try discriminate H.
  destruct o as [| | |t b' r f|]; try discriminate H. destruct r as [[sig|] ts [er|]]; try discriminate H.
  destruct er; try discriminate H. destruct f; [discriminate H|]. injection H as <- <-. by exists op, t, ts.
Qed.
Definition release_of (x : event * sobs) : option (Z * block * bytes) :=
  match x with
  | (EVal i _, SVal (OReturn _ b (VR (Some s) _ None) _)) => Some (i, b, s)
  | _ => None
  end.
Lemma release_spec h n i b s : h !! n ≫= release_of = Some (i, b, s) -> handed_out h i b s.
Proof.
  intros H. apply bind_Some in H as (x & Hx & H). apply elem_of_list_lookup_2 in Hx. destruct x as [e o].
  unfold release_of in H. destruct e; try discriminate H. destruct o as [o| |]; try discriminate H.
  destruct o as [| | |t b' r f|]; try discriminate H. destruct r as [[sig|] ts [er|]]; try discriminate H.
  injection H as <- <- <-. by exists op, t, ts, f.
Qed.
Definition fine (x : event * sobs) : bool :=
  match x with (ECos _ _, SCos (ObsErr _)) => false | _ => true end.
Lemma fine_spec h : forallb fine h = true -> cosigners_fine h.
Proof.
  intros H i op e Hin. rewrite forallb_forall in H. apply elem_of_list_In in Hin. apply H in Hin. discriminate Hin.
Qed.

(** ** C74 *)

(** Host 1 leads and crashes when host 2 has signed. Host 3 leads next, with host 2; then host 2, with
    host 1; then host 1, with host 3. *)
Definition fb : block := eblock 11 x0a 1.
Definition failover : list (history -> event) :=
  begin_round fb 1 7 ++ collect_round fb 1 2 1 7 x21 x22 ++ sign_peer fb 1 2 1 7 ++
  [fun _ => ERestart 1 0] ++
  whole_round fb 3 2 2 8 x23 x22 ++ whole_round fb 2 1 1 9 x22 x24 ++ whole_round fb 1 3 2 10 x24 x23.
Definition failover_run : option (history * system) := dexec kconf [] sys0 failover.


(** ** C75 *)

(** the call is answered; its event is replicated to all hosts *)
Definition answer_round (b : block) (l : Z) (t : nat) : list (history -> event) :=
  [fun _ => EVal l (VSave t); fun _ => EPropose l t].
Definition last_proposed (S : system) : bytes := match sy_proposed S with e :: _ => e | [] => [] end.
Definition replicate_last (l : Z) (t : nat) (e : bytes) : list (history -> event) :=
  [fun _ => ECommit e; fun _ => EApply 1; fun _ => EApply 2; fun _ => EApply 3; fun _ => EVal l (VEmit t true)].

(** host 1 signs with host 2 and everybody learns the signature *)
Definition signed : list (history -> event) :=
  whole_round fb 1 2 1 7 x21 x22 ++ answer_round fb 1 7 ++ replicate_last 1 7 (entry_of_sig 11 x0a 1).
Definition signed_run : option (history * system) := dexec kconf [] sys0 signed.
Definition signed_hist : history := match signed_run with Some (h, _) => h | None => [] end.
Definition signed_end : system := match signed_run with Some (_, s) => s | None => sys0 end.

(** host 3 becomes leader and is asked for the same vote *)
Definition again_run : option (history * system) :=
  dexec kconf signed_hist signed_end (whole_round fb 3 2 2 8 x23 x22).

(** the same vote with another timestamp, then this again with host 3 *)
Definition fb2 : block := eblock 11 x0a 2.
Definition resign : list (history -> event) :=
  [fun _ => EVal 1 (VCall 8 fb2 RLeader); fun _ => EVal 1 (VInit 8); fun _ => EVal 1 (VPoll 8)] ++
  collect_round fb2 1 2 1 8 x21 x22 ++ sign_peer fb2 1 2 1 8 ++ sign_own fb2 1 2 1 8 ++ end_round 1 2 1 8 ++
  [fun _ => EVal 1 (VSave 8); fun _ => EVal 1 (VEmit 8 false)].
Definition resigned_run : option (history * system) := dexec kconf signed_hist signed_end resign.
Definition resigned_hist : history := match resigned_run with Some (h, _) => h | None => [] end.
Definition resigned_end : system := match resigned_run with Some (_, s) => s | None => sys0 end.
Definition resign3 : list (history -> event) :=
  [fun _ => EVal 1 (VCall 9 fb2 RLeader); fun _ => EVal 1 (VInit 9); fun _ => EVal 1 (VPoll 9)] ++
  collect_round fb2 1 3 2 9 x21 x23 ++ sign_peer fb2 1 3 2 9 ++ sign_own fb2 1 3 2 9 ++ end_round 1 3 2 9.
Definition stamp_run : option (history * system) := dexec kconf resigned_hist resigned_end resign3.

(** ** What happened *)
Lemma crash_free h : crashes h = [] -> restarts_good toy kconf ∅ sys0 h.
Proof.
  intros H h1 i k o h2 S n ->. unfold crashes in H. rewrite omap_app in H.
  apply app_eq_nil in H as [_ H]. discriminate H.
Qed.
Lemma failover_ok : match failover_run with
  | Some (h, _) => bool_decide (h !! 30%nat ≫= refusal_of = Some (3, fb)) && bool_decide (h !! 48%nat ≫= refusal_of = Some (2, fb)) &&
      bool_decide (h !! 66%nat ≫= refusal_of = Some (1, fb)) && forallb fine h && bool_decide (crashes h = [1]) &&
      forallb (fun x => match x with (_, _, Some _, _) => false | _ => true end) (errors_of h) && dok kconf [] sys0 failover
  | None => false
  end = true.
Proof. vm_compute. reflexivity. Qed.
Lemma failover_facts : exists h S, srun toy kconf ∅ sys0 h S /\ restarts_good toy kconf ∅ sys0 h /\ crashes h = [1] /\
  cosigners_fine h /\ (forall i, 1 <= i <= 3 -> refused h i fb EvInvalid) /\ forall i b sig, ~ handed_out h i b sig.
Proof.
  pose proof failover_ok as H. destruct failover_run as [[h S]|] eqn:E; [|done].
  do 6 (apply andb_true_iff in H as [H ?H']). unfold failover_run in E. exists h, S.
  split; [eapply dexec_srun; [constructor|exact E]|].
  split; [eapply dok_good; [constructor| |exact E|exact H']; intros h1 i k o h2 S' n Eh; by destruct h1|].
  split; [eapply bool_decide_eq_true; exact H'1|]. split; [apply fine_spec; exact H'2|]. split.
  - intros i Hi. assert (Hc : i = 3 \/ i = 2 \/ i = 1) by lia.
    destruct Hc as [-> |[-> | ->]]; eapply refusal_spec; eapply bool_decide_eq_true; [exact H|exact H'4|exact H'3].
  - intros i b sig Hh. apply handed_error in Hh. rewrite forallb_forall in H'0. apply elem_of_list_In in Hh.
    apply H'0 in Hh. discriminate Hh.
Qed.

Definition fsig : bytes := sig_of 11 x0a 1.
(** the record of a host, if it is the signature [sig] of [b] *)
Definition recorded_b (S : system) (i : Z) (b : block) (sig : bytes) : bool :=
  match sy_hosts S !! i with
  | Some m => match ss_cache (vs_lss (ho_val m)) !! b_hrs b with
              | Some c => bool_decide (c_sig c = Some sig /\ c_sb c = Some (b_sb b))
              | None => false
              end
  | None => true
  end.
Lemma recorded_b_spec S i b sig : recorded_b S i b sig = true -> forall m, sy_hosts S !! i = Some m -> recorded_as (ho_val m) b sig.
Proof.
  unfold recorded_b. intros H m Hm. rewrite Hm in H. destruct (ss_cache _ !! _) as [c|] eqn:E; [|done].
  apply bool_decide_eq_true in H as [H1 H2]. by exists c.
Qed.
Lemma signed_ok : match signed_run with
  | Some (h, s1) => bool_decide (h !! 24%nat ≫= release_of = Some (1, fb, fsig)) && forallb fine h && bool_decide (crashes h = []) &&
      cr_verify toy (toy_enc 1) (b_sb fb) fsig && recorded_b s1 1 fb fsig && recorded_b s1 2 fb fsig && recorded_b s1 3 fb fsig &&
      bool_decide (dom (sy_hosts s1) = {[1; 2; 3]})
  | None => false
  end = true.
Proof. vm_compute. reflexivity. Qed.
Lemma signed_facts : srun toy kconf ∅ sys0 signed_hist signed_end /\ handed_out signed_hist 1 fb fsig /\
  cr_verify toy (toy_enc 1) (b_sb fb) fsig = true /\
  forall i m, sy_hosts signed_end !! i = Some m -> recorded_as (ho_val m) fb fsig.
Proof.
  pose proof signed_ok as H. unfold signed_hist, signed_end. destruct signed_run as [[h S]|] eqn:E; [|done].
  do 7 (apply andb_true_iff in H as [H ?H']). unfold signed_run in E.
  split; [eapply dexec_srun; [constructor|exact E]|].
  split; [eapply release_spec; eapply bool_decide_eq_true; exact H|]. split; [exact H'3|].
  intros i m Hm. apply bool_decide_eq_true in H'. assert (Hi : i ∈ dom (sy_hosts S)) by (by apply elem_of_dom_2 in Hm).
  rewrite H' in Hi. eapply recorded_b_spec; [|exact Hm]. rewrite !elem_of_union, !elem_of_singleton in Hi.
  destruct Hi as [[-> | ->]| ->]; [exact H'2|exact H'1|exact H'0].
Qed.

Lemma signed_one_ok : match signed_run with
  | Some (_, s1) => match sy_hosts s1 !! 1 with
                    | Some m => bool_decide (ss_hrs (vs_init (ho_val m)) = b_hrs fb)
                    | None => false
                    end
  | None => false
  end = true.
Proof. vm_compute. reflexivity. Qed.
Lemma signed_one : exists m,
  srun toy kconf ∅ sys0 signed_hist signed_end /\ sy_hosts signed_end !! 1 = Some m /\ hrs_fits (b_hrs fb) = true /\
  recorded_as (ho_val m) fb fsig /\ ss_hrs (vs_init (ho_val m)) = b_hrs fb.
Proof.
  destruct signed_facts as (H1 & _ & _ & H2). pose proof signed_one_ok as H. revert H1 H2. unfold signed_hist, signed_end.
  destruct signed_run as [[h s1]|]; [|done]. destruct (sy_hosts s1 !! 1) as [m|] eqn:E; [|done]. intros H1 H2.
  exists m. split; [exact H1|]. split; [done|]. split; [done|]. split; [by apply (H2 1)|]. eapply bool_decide_eq_true. exact H.
Qed.

Lemma dexec_ext K h S l h' S' : dexec K h S l = Some (h', S') -> exists h2, h' = h ++ h2.
Proof.
  revert h S. induction l as [|e l IH]; intros h S H; simpl in H.
  - injection H as <- <-. exists []. by rewrite app_nil_r.
  - destruct (sstep toy K ∅ h S (e h)) as [[S1 o]|]; [|done]. apply IH in H as [h2 ->]. rewrite <- app_assoc. eauto.
Qed.
Lemma again_ok : match again_run with
  | Some (h, _) => bool_decide (drop (length signed_hist) h !! 17%nat ≫= refusal_of = Some (3, fb)) &&
      forallb fine h && bool_decide (crashes h = [])
  | None => false
  end = true.
Proof. vm_compute. reflexivity. Qed.
Lemma again_facts : exists h2 S, srun toy kconf ∅ sys0 (signed_hist ++ h2) S /\ crashes (signed_hist ++ h2) = [] /\
  cosigners_fine (signed_hist ++ h2) /\ refused h2 3 fb EvInvalid.
Proof.
  pose proof again_ok as H. destruct again_run as [[h S]|] eqn:E; [|done].
  do 2 (apply andb_true_iff in H as [H ?H']). unfold again_run in E.
  destruct (dexec_ext _ _ _ _ _ _ E) as [h2 ->]. rewrite drop_app in H. exists h2, S.
  split; [eapply dexec_srun; [apply signed_facts|exact E]|]. split; [eapply bool_decide_eq_true; exact H'|].
  split; [apply fine_spec; exact H'0|]. eapply refusal_spec. eapply bool_decide_eq_true. exact H.
Qed.

Definition fsig2 : bytes := match resigned_hist !! 45%nat ≫= release_of with Some (_, s) => s | None => [] end.
Lemma resigned_ok : match resigned_run with
  | Some (h, _) => bool_decide (h !! 45%nat ≫= release_of = Some (1, fb2, fsig2)) && cr_verify toy (toy_enc 1) (b_sb fb2) fsig2
  | None => false
  end = true.
Proof. vm_compute. reflexivity. Qed.
Lemma resigned_facts : srun toy kconf ∅ sys0 resigned_hist resigned_end /\ handed_out resigned_hist 1 fb2 fsig2 /\
  cr_verify toy (toy_enc 1) (b_sb fb2) fsig2 = true.
Proof.
  pose proof resigned_ok as H. unfold resigned_end. unfold resigned_hist at 1 2. destruct resigned_run as [[h S]|] eqn:E; [|done].
  apply andb_true_iff in H as [H H']. unfold resigned_run in E.
  split; [eapply dexec_srun; [apply signed_facts|exact E]|]. split; [|exact H'].
  eapply release_spec. eapply bool_decide_eq_true. exact H.
Qed.
Lemma stamp_ok : match stamp_run with
  | Some (h, _) => bool_decide (drop (length resigned_hist) h !! 18%nat ≫= refusal_of = Some (1, fb2)) &&
      forallb fine h && bool_decide (crashes h = [])
  | None => false
  end = true.
Proof. vm_compute. reflexivity. Qed.
Lemma stamp_facts : exists h2 S, srun toy kconf ∅ sys0 (resigned_hist ++ h2) S /\ crashes (resigned_hist ++ h2) = [] /\
  cosigners_fine (resigned_hist ++ h2) /\ refused h2 1 fb2 EvInvalid.
Proof.
  pose proof stamp_ok as H. destruct stamp_run as [[h S]|] eqn:E; [|done].
  do 2 (apply andb_true_iff in H as [H ?H']). unfold stamp_run in E.
  destruct (dexec_ext _ _ _ _ _ _ E) as [h2 ->]. rewrite drop_app in H. exists h2, S.
  split; [eapply dexec_srun; [apply resigned_facts|exact E]|]. split; [eapply bool_decide_eq_true; exact H'|].
  split; [apply fine_spec; exact H'0|]. eapply refusal_spec. eapply bool_decide_eq_true. exact H.
Qed.

(** ** An earlier attempt that came no further than collecting *)
From Verif Require Import Poly Scheme RoundSpec ToyScheme ThresholdWitness SystemLiveSpec SystemLiveWitness.
(** host 2 leads, asks cosigners 1 and 3 for parts and crashes *)
Definition wjob : job :=
  Job (eblock 20 xaa 7) 1 [2%nat] (fun _ => worder) [2%nat; 0%nat] [0%nat; 2%nat] (fun _ => [2%nat; 0%nat]).
Definition early : list event :=
  [EVal 2 (VCall 5 (eblock 20 xaa 7) RLeader); EVal 2 (VInit 5);
   ECos 1 (OpGet (b_key (eblock 20 xaa 7)) 2 (wrnd x21)); ECos 3 (OpGet (b_key (eblock 20 xaa 7)) 2 (wrnd x23));
   ECos 3 (OpGet (b_key (eblock 20 xaa 7)) 1 (wrnd x23)); EVal 2 (VParts 5 1 None)].
Definition early_run : option (history * system) := sexec toy kw ∅ [] sysw early.
Definition early_hist : history := match early_run with Some (h, _) => h | None => [] end.
Definition early_end : system := match early_run with Some (_, s) => s | None => sysw end.
Lemma early_ok : match early_run with Some (h, _) => bool_decide (length h = 6%nat) | None => false end = true.
Proof. vm_compute. reflexivity. Qed.
Lemma sexec_events C K faulty l : forall h S h' S', sexec C K faulty h S l = Some (h', S') -> map fst h' = map fst h ++ l.
Proof.
  induction l as [|e l IH]; intros h S h' S' H; simpl in H.
  - injection H as <- <-. by rewrite app_nil_r.
  - destruct (sstep C K faulty h S e) as [[S1 o]|]; [|done]. apply IH in H. rewrite H, map_app, <- app_assoc. done.
Qed.
Lemma early_facts : srun toy kw ∅ sysw early_hist early_end /\ map fst early_hist = early.
Proof.
  pose proof early_ok as H. unfold early_hist, early_end. destruct early_run as [[h S]|] eqn:E; [|done]. unfold early_run in E.
  split; [eapply sexec_srun; [constructor|exact E]|]. apply sexec_events in E. exact E.
Qed.
Lemma wrnd_scalar x : exists s r, gr_deal (wrnd x) = Some (s, r) /\ rd_is_scalar toy_reading s.
Proof. do 2 eexists. split; [reflexivity|]. done. Qed.
Lemma early_only : only_collected toy_reading kw wjob early_hist.
Proof.
  intros e o Hin. assert (He : e ∈ early).
  { rewrite <- (proj2 early_facts). apply elem_of_list_fmap. by exists (e, o). }
  unfold early in He.
  repeat (apply elem_of_cons in He as [-> |He]; [first [intros _; split; [reflexivity|exact (wrnd_scalar _)]|simpl; lia]|]).
  by apply not_elem_of_nil in He.
Qed.
Lemma sysw_new : is_new toy toy_reading 2 3 kw sysw wjob.
Proof.
  split.
  - intros m Hm. apply sysw_host in Hm as ->. split; left; vm_compute; reflexivity.
  - intros i m _ Hm. apply sysw_host in Hm as ->. split; [by left|]. left. vm_compute. reflexivity.
Qed.
