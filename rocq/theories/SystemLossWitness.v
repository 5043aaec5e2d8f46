(** Histories in which hosts lose the state of their cosigner (toy cryptography). *)
From Verif Require Import GoBase Wire Canonical SignState Spec CanonicalApi Crypto LocalCosigner CosignerSpec Toy
  CosignerWitness Validator ValidatorSpec ValidatorWitness Json Disk DiskSpec DiskWitness Raft RaftSpec
  System SystemSpec SystemProofs SystemWitness FailoverSpec FailoverWitness.
Local Open Scope Z_scope.

Lemma sys0_files : first_files sys0.
Proof.
  intros i n Hn. apply sys0_hosts in Hn as [-> _]. split; [done|]. intros s Hs.
  assert (E : ss_sig <$> load (ho_vfile host0) = Some None) by (vm_compute; reflexivity).
  rewrite Hs in E. injection E as E. exact E.
Qed.

(** Host 1 signs a precommit with host 2; host 2 crashes before its file is written; host 3, which has
    heard of nothing, leads and signs a conflicting precommit with host 2 *)
Definition fbB : block := eblock 11 x0b 1.
Definition one_crash : list (history -> event) :=
  whole_round fb 1 2 1 7 x21 x22 ++ [fun _ => EVal 1 (VSave 7); fun _ => EVal 1 (VEmit 7 false); fun _ => ERestart 2 0] ++
  whole_round fbB 3 2 2 8 x23 x24 ++ [fun _ => EVal 3 (VSave 8); fun _ => EVal 3 (VEmit 8 false)].
Definition one_crash_run : option (history * system) := dexec kconf [] sys0 one_crash.
Definition released_in (h : history) : list (Z * block * bytes) := omap release_of h.
Lemma released_spec h i b s : (i, b, s) ∈ released_in h -> handed_out h i b s.
Proof.
  unfold released_in. intros H. apply elem_of_list_omap in H as (x & Hx & H).
  apply elem_of_list_lookup in Hx as [n Hn]. apply (release_spec h n). apply bind_Some. exists x. split; [exact Hn|exact H].
Qed.
Lemma one_crash_ok : match one_crash_run with
  | Some (h, _) => match released_in h with
      | [(i1, b1, s1); (i2, b2, s2)] => bool_decide (i1 = 1 /\ b1 = fb /\ i2 = 3 /\ b2 = fbB) &&
          cr_verify toy (toy_enc 1) (b_sb fb) s1 && cr_verify toy (toy_enc 1) (b_sb fbB) s2
      | _ => false end && bool_decide (restarted h = {[2]})
  | None => false
  end = true.
Proof. vm_compute. reflexivity. Qed.

Lemma one_crash_facts : exists h S s1 s2, srun toy kconf ∅ sys0 h S /\ restarted h = {[2]} /\
  handed_out h 1 fb s1 /\ handed_out h 3 fbB s2 /\
  cr_verify toy (toy_enc 1) (b_sb fb) s1 = true /\ cr_verify toy (toy_enc 1) (b_sb fbB) s2 = true.
Proof.
  pose proof one_crash_ok as H. destruct one_crash_run as [[h S]|] eqn:E; [|discriminate H]. unfold one_crash_run in E.
  apply andb_true_iff in H as [H Hc]. apply bool_decide_eq_true in Hc.
  destruct (released_in h) as [|[[i1 b1] s1] [|[[i2 b2] s2] [|]]] eqn:Er; try discriminate H.
  apply andb_true_iff in H as [H V2]. apply andb_true_iff in H as [H V1]. apply bool_decide_eq_true in H as (-> & -> & -> & ->).
  exists h, S, s1, s2. split; [eapply dexec_srun; [constructor|exact E]|]. split; [exact Hc|].
  split; [apply released_spec; rewrite Er; left|]. split; [apply released_spec; rewrite Er; right; left|].
  split; [exact V1|exact V2].
Qed.

(** a cluster of two hosts, both needed *)
Definition kconf2 : sysconf := SysConf
  (fun i => VConf 2 (toy_enc 1) i (filter (fun j => j <> i) [1; 2])) (fun i => ecfg i [zb i]).
Definition sys2 : system := System {[1 := host0; 2 := host0]} [] [].
Lemma sys2_hosts i n : sy_hosts sys2 !! i = Some n -> n = host0 /\ (i = 1 \/ i = 2).
Proof.
  simpl. rewrite !lookup_insert_Some. intros [[<- <-]|[_ H]]; [auto|].
  apply lookup_singleton_Some in H as [<- <-]. auto.
Qed.
Lemma sys2_set_up : set_up kconf2 sys2 2 (toy_enc 1).
Proof.
  intros i [n Hn]. apply sys2_hosts in Hn as [_ Hi]. do 3 (split; [done|]).
  assert (E : vc_peers (sc_val kconf2 i) = filter (fun j => j <> i) [1; 2]) by done.
  split.
  - rewrite E. apply list.NoDup_cons. split; [intros [? _]%elem_of_list_filter; done|].
    apply list.NoDup_filter. apply (bool_decide_unpack (NoDup [1; 2])). vm_compute. done.
  - intros p Hp. rewrite E in Hp. apply elem_of_list_filter in Hp as [_ Hp].
    repeat (apply elem_of_cons in Hp as [-> |Hp]; [eexists; vm_compute; reflexivity|]). by apply elem_of_nil in Hp.
Qed.
Lemma sys2_first : first_start sys2.
Proof.
  split; [done|]. split; [done|]. intros i n Hn. apply sys2_hosts in Hn as [-> _]. split; [done|]. split; [done|].
  intros k c H. simpl in H. apply lookup_singleton_Some in H as [<- <-]. done.
Qed.
Lemma sys2_files : first_files sys2.
Proof. intros i n Hn. apply sys2_hosts in Hn as [-> _]. apply (sys0_files 1). reflexivity. Qed.

(** both sign; host 2 loses its state and signs a conflicting vote for a caller, but no signature of
    host 1 can be had for it *)
Definition one_lost : list (history -> event) :=
  whole_round fb 1 2 1 7 x21 x22 ++ [fun _ => EVal 1 (VSave 7); fun _ => EVal 1 (VEmit 7 false); fun _ => ERestart 2 0] ++
  begin_round fbB 2 8 ++ collect_round fbB 2 1 1 8 x23 x24 ++ sign_own fbB 2 1 1 8.
Definition one_lost_run : option (history * system) := dexec kconf2 [] sys2 one_lost.
Definition signed_share (x : event * sobs) : option (Z * bytes) :=
  match x with (ECos i _, SCos (ObsShare m _)) => Some (i, m) | _ => None end.
Lemma one_lost_ok : match one_lost_run with
  | Some (h, _) => bool_decide (restarted h = {[2]}) && match released_in h with [(i1, b1, _)] => bool_decide (i1 = 1 /\ b1 = fb) | _ => false end &&
      bool_decide (omap signed_share h = [(2, b_sb fb); (1, b_sb fb); (2, b_sb fbB)])
  | None => false end = true.
Proof. vm_compute. reflexivity. Qed.
Lemma one_lost_facts : exists h S sig, srun toy kconf2 ∅ sys2 h S /\ restarted h = {[2]} /\
  handed_out h 1 fb sig /\ gave h 2 (b_sb fb) /\ gave h 2 (b_sb fbB).
Proof.
  pose proof one_lost_ok as H. destruct one_lost_run as [[h S]|] eqn:E; [|discriminate H]. unfold one_lost_run in E.
  apply andb_true_iff in H as [H Hg]. apply andb_true_iff in H as [Hc H]. apply bool_decide_eq_true in Hc, Hg.
  destruct (released_in h) as [|[[i1 b1] s1] [|]] eqn:Er; try discriminate H.
  apply bool_decide_eq_true in H as [-> ->].
  assert (G : forall m, (2, m) ∈ omap signed_share h -> gave h 2 m).
  { intros m Hm. apply elem_of_list_omap in Hm as ([e o] & Hx & Hm). destruct e as [| i op| | | | | | | |]; try discriminate Hm.
    destruct o as [|[]|]; try discriminate Hm. injection Hm as -> ->. eexists _, _. exact Hx. }
  exists h, S, s1. split; [eapply dexec_srun; [constructor|exact E]|]. split; [exact Hc|].
  split; [apply released_spec; rewrite Er; left|]. split; apply G; rewrite Hg; [left|right; right; left].
Qed.
