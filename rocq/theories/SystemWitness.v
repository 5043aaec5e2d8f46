(** Concrete histories of a 2-of-3 cluster (toy cryptography). *)
From Verif Require Import GoBase Wire Canonical SignState Spec CanonicalApi Crypto LocalCosigner CosignerSpec Toy
  CosignerWitness Validator ValidatorSpec ValidatorWitness Json Disk DiskSpec DiskWitness Raft RaftSpec
  System SystemSpec SystemProofs.
Local Open Scope Z_scope.

Lemma sexec_srun C K faulty S0 h S l h' S' : srun C K faulty S0 h S ->
  sexec C K faulty h S l = Some (h', S') -> srun C K faulty S0 h' S'.
Proof.
  revert h S. induction l as [|e l IH]; intros h S Hr H; simpl in H.
  - by injection H as <- <-.
  - destruct (sstep C K faulty h S e) as [[S1 o]|] eqn:E; [|done]. eapply IH; [|exact H]. by econstructor.
Qed.

(** at every restart both files agree with the memory *)
Definition agree_b (a b : sign_state) : bool :=
  bool_decide (ss_hrs a = ss_hrs b /\ ss_sig a = ss_sig b /\ ss_sb a = ss_sb b).
Definition restart_ok (S : system) (e : event) : bool :=
  match e with
  | ERestart i _ =>
      match sy_hosts S !! i with
      | Some n =>
          match load (cn_file (ho_cos n)) with Some s => agree_b s (cs_lss (cn_cos (ho_cos n))) | None => true end &&
          match load (ho_vfile n) with Some s => agree_b s (vs_lss (ho_val n)) | None => true end
      | None => true
      end
  | _ => true
  end.
Fixpoint restarts_ok (C : Crypto) (K : sysconf) (faulty : gset Z) (h : history) (S : system) (l : list event) : bool :=
  match l with
  | [] => true
  | e :: l' => restart_ok S e &&
      match sstep C K faulty h S e with
      | Some (S', o) => restarts_ok C K faulty (h ++ [(e, o)]) S' l'
      | None => true
      end
  end.
Lemma restarts_ok_good C K faulty S0 h S l h' S' : srun C K faulty S0 h S -> restarts_good C K faulty S0 h ->
  sexec C K faulty h S l = Some (h', S') -> restarts_ok C K faulty h S l = true -> restarts_good C K faulty S0 h'.
Proof.
  revert h S. induction l as [|e l IH]; intros h S Hr Hg H Hok; simpl in H.
  - by injection H as <- <-.
  - cbn [restarts_ok] in Hok. apply andb_true_iff in Hok as [Hok1 Hok].
    destruct (sstep C K faulty h S e) as [[S1 o]|] eqn:E; [|done].
    eapply IH; [| |exact H|exact Hok]; [by econstructor|].
    intros h1 i k o' h2 S2 n Eh Hr2 Hn. destruct h2 as [|x h2 _] using rev_ind.
    + apply app_inj_tail in Eh as [-> [= -> ->]].
      rewrite <- (srun_fun _ _ _ _ _ _ _ Hr Hr2) in Hn. cbn [restart_ok] in Hok1. rewrite Hn in Hok1.
      apply andb_true_iff in Hok1 as [O1 O2]. split.
      * intros s Hs. rewrite Hs in O1. apply bool_decide_eq_true in O1 as (A1 & _ & A3). right. done.
      * intros s Hs. rewrite Hs in O2. apply bool_decide_eq_true in O2. exists h1, [], S, n.
        split; [by rewrite app_nil_r|]. done.
    + rewrite app_comm_cons, app_assoc in Eh. apply app_inj_tail in Eh as [-> _]. eapply Hg; eauto.
Qed.

(** hosts 1, 2, 3 *)
Definition kconf : sysconf := SysConf
  (fun i => VConf 2 (toy_enc 1) i (filter (fun j => j <> i) [1; 2; 3]))
  (fun i => ecfg i [zb i]).
Definition host0 : host := Host (new_validator lss10) (Some (marshal_state (rec_of lss10))) [] cn0 0.
Definition sys0 : system := System {[1 := host0; 2 := host0; 3 := host0]} [] [].

Lemma sys0_hosts i n : sy_hosts sys0 !! i = Some n -> n = host0 /\ (i = 1 \/ i = 2 \/ i = 3).
Proof.
  simpl. rewrite !lookup_insert_Some. intros [[<- <-]|[_ [[<- <-]|[_ H]]]]; [auto..|].
  apply lookup_singleton_Some in H as [<- <-]. auto.
Qed.
Lemma sys0_set_up : set_up kconf sys0 2 (toy_enc 1).
Proof.
  intros i [n Hn]. apply sys0_hosts in Hn as [_ Hi]. do 3 (split; [done|]).
  assert (E : vc_peers (sc_val kconf i) = filter (fun j => j <> i) [1; 2; 3]) by done.
  split.
  - rewrite E. apply list.NoDup_cons. split; [intros [? _]%elem_of_list_filter; done|].
    apply list.NoDup_filter. apply (bool_decide_unpack (NoDup [1; 2; 3])). vm_compute. done.
  - intros p Hp. rewrite E in Hp. apply elem_of_list_filter in Hp as [_ Hp].
    repeat (apply elem_of_cons in Hp as [-> |Hp]; [eexists; vm_compute; reflexivity|]). by apply elem_of_nil in Hp.
Qed.
Lemma sys0_first : first_start sys0.
Proof.
  split; [done|]. split; [done|]. intros i n Hn. apply sys0_hosts in Hn as [-> _]. split; [done|]. split; [done|].
  intros k c H. simpl in H. apply lookup_singleton_Some in H as [<- <-]. done.
Qed.
Lemma sys0_size : size (sy_hosts sys0) = 3%nat. Proof. reflexivity. Qed.

(** host 1 leads a signing of the precommit [x] at height [h] with host 2, ending before Emit *)
Definition sign_events (h : Z) (x : byte) (ns : Z) (t : nat) : list event :=
  map (ECos 1) (get1 h x ns) ++ map (ECos 2) (get2 h x ns) ++
  map (EVal 1) (collect_ops h x ns t) ++
  map (EVal 1) [VAsk t 0 (order12 h x ns); VAsk t 1 (rev (order12 h x ns))] ++
  map (ECos 2) (drop 2 (ops2 h x ns)) ++ map (ECos 1) (drop 2 (ops1 h x ns)) ++
  map (EVal 1) [VSig t 1 (Some (share_at (c_log ecfg2 (ops2 h x ns)) 3));
                VSig t 0 (Some (share_at (c_log ecfg1 (ops1 h x ns)) 3)); VFinish t; VSave t].
Definition sig_of (h : Z) (x : byte) (ns : Z) : bytes :=
  match last_return (v_log v0 (e2e_ops h x ns 7)) with Some (VR (Some s) _ _) => s | _ => [] end.
Definition entry_of_sig (h : Z) (x : byte) (ns : Z) : bytes :=
  emit_entry (SSC (HRS h 0 3) (Some (sig_of h x ns)) (Some (wsb h x ns))).
(** all files are written *)
Definition write_val (i : Z) : list event := replicate 6 (EVRead i 0) ++ [EVRename i 0].
Definition write_cos (i : Z) : list event := replicate 6 (ECRead i 0) ++ [ECRename i 0].

(** A full life: signing, replication, the same request at host 2 answered through host 1, files
    written, all hosts restarted, the log replayed, another request at host 3 as the new leader
    served from its record, a conflicting one refused *)
Definition life : list event :=
  sign_events 11 x0a 1 7 ++
  [EPropose 1 7; ECommit (entry_of_sig 11 x0a 1); EApply 1; EApply 2; EApply 3; EVal 1 (VEmit 7 true);
   EVal 2 (VCall 5 (eblock 11 x0a 1) RFollower); EVal 2 (VProxy 5 (inr (Some (sig_of 11 x0a 1))))] ++
  write_val 1 ++ write_val 2 ++ write_val 3 ++ write_cos 1 ++ write_cos 2 ++ write_cos 3 ++
  [ERestart 1 0; ERestart 2 1; ERestart 3 0; EApply 3;
   EVal 3 (VCall 1 (eblock 11 x0a 1) RLeader); EVal 3 (VInit 1); EVal 3 (VPoll 1);
   EVal 3 (VCall 2 (eblock 11 x0b 1) RLeader); EVal 3 (VInit 2); EVal 3 (VPoll 2)].
Definition life_run : option (history * system) := sexec toy kconf ∅ [] sys0 life.
Definition life_hist : history := match life_run with Some (h, _) => h | None => [] end.
Definition life_end : system := match life_run with Some (_, s) => s | None => sys0 end.
Definition returns (h : history) : list (Z * vresult) :=
  omap (fun x => match x with (EVal i _, SVal (OReturn _ _ r _)) => Some (i, r) | _ => None end) h.

Lemma life_ok : match life_run with
  | Some (h, _) => bool_decide (map (fun x => (fst x, r_sig (snd x))) (returns h) =
      [(1, Some (sig_of 11 x0a 1)); (2, Some (sig_of 11 x0a 1)); (3, Some (sig_of 11 x0a 1)); (3, None)])
  | None => false
  end && restarts_ok toy kconf ∅ [] sys0 life && bool_decide (length (sig_of 11 x0a 1) = 64%nat) = true.
Proof. vm_compute. reflexivity. Qed.

Lemma life_facts : srun toy kconf ∅ sys0 life_hist life_end /\ restarts_good toy kconf ∅ sys0 life_hist /\
  map (fun x => (fst x, r_sig (snd x))) (returns life_hist) =
    [(1, Some (sig_of 11 x0a 1)); (2, Some (sig_of 11 x0a 1)); (3, Some (sig_of 11 x0a 1)); (3, None)].
Proof.
  pose proof life_ok as H. unfold life_hist, life_end.
  destruct life_run as [[h S]|] eqn:E; [|done]. apply andb_true_iff in H as [H _]. apply andb_true_iff in H as [H1 H2].
  apply bool_decide_eq_true in H1. unfold life_run in E. split; [|split; [|done]].
  - eapply sexec_srun; [constructor|exact E].
  - eapply restarts_ok_good; [constructor| |exact E|exact H2].
    intros h1 i k o h2 S' n Eh. by destruct h1.
Qed.

(** hosts 1 and 2 lose their memory before their files are written *)
Definition crash : list event :=
  sign_events 11 x0a 1 7 ++ [EVal 1 (VEmit 7 false); ERestart 1 0; ERestart 2 0] ++
  sign_events 11 x0b 1 8 ++ [EVal 1 (VEmit 8 false)].
Definition crash_run : option (history * system) := sexec toy kconf ∅ [] sys0 crash.
Definition crash_hist : history := match crash_run with Some (h, _) => h | None => [] end.
Definition crash_end : system := match crash_run with Some (_, s) => s | None => sys0 end.
(** a successful answer: host, sign bytes, step, signature *)
Definition ret_of (x : event * sobs) : option (Z * bytes * Z * bytes) :=
  match x with
  | (EVal i _, SVal (OReturn _ b (VR (Some s) _ None) _)) => Some (i, b_sb b, h_step (b_hrs b), s)
  | _ => None
  end.
Lemma ret_of_spec h n x i m st s : h !! n = Some x -> ret_of x = Some (i, m, st, s) ->
  exists b, handed_out h i b s /\ b_sb b = m /\ h_step (b_hrs b) = st.
Proof.
  intros Hn H. apply elem_of_list_lookup_2 in Hn. destruct x as [e o]. unfold ret_of in H.
  destruct e; try discriminate H. destruct o as [o| |]; try discriminate H. destruct o as [| | |t b r f|]; try discriminate H.
  destruct r as [[sig|] ts [er|]]; try discriminate H. injection H as -> <- <- ->.
  exists b. split; [|done]. exists op, t, ts, f. done.
Qed.
Definition crash_sig1 : bytes := match crash_hist !! 20%nat ≫= ret_of with Some (_, s) => s | None => [] end.
Definition crash_sig2 : bytes := match crash_hist !! 43%nat ≫= ret_of with Some (_, s) => s | None => [] end.
Lemma crash_ok : match crash_run with
  | Some (h, _) => bool_decide (length h = 44%nat /\
       h !! 20%nat ≫= ret_of = Some (1, wsb 11 x0a 1, 3, crash_sig1) /\
       h !! 43%nat ≫= ret_of = Some (1, wsb 11 x0b 1, 3, crash_sig2)) &&
     cr_verify toy (toy_enc 1) (wsb 11 x0a 1) crash_sig1 && cr_verify toy (toy_enc 1) (wsb 11 x0b 1) crash_sig2
  | None => false
  end = true.
Proof. vm_compute. reflexivity. Qed.

Lemma crash_facts : exists b1 s1 b2 s2, srun toy kconf ∅ sys0 crash_hist crash_end /\
  handed_out crash_hist 1 b1 s1 /\ handed_out crash_hist 1 b2 s2 /\
  b_sb b1 = wsb 11 x0a 1 /\ b_sb b2 = wsb 11 x0b 1 /\
  h_step (b_hrs b1) = 3 /\ h_step (b_hrs b2) = 3 /\
  cr_verify toy (toy_enc 1) (b_sb b1) s1 = true /\ cr_verify toy (toy_enc 1) (b_sb b2) s2 = true.
Proof.
  pose proof crash_ok as H.
  assert (G : exists h S, crash_run = Some (h, S)) by (destruct crash_run as [[h S]|]; [eauto|done]).
  destruct G as (h & S & E). rewrite E in H.
  apply andb_true_iff in H as [H V2]. apply andb_true_iff in H as [H V1].
  apply bool_decide_eq_true in H as (_ & H1 & H2).
  apply bind_Some in H1 as (x1 & X1 & H1). apply bind_Some in H2 as (x2 & X2 & H2).
  destruct (ret_of_spec _ _ _ _ _ _ _ X1 H1) as (b1 & G1 & B1 & P1).
  destruct (ret_of_spec _ _ _ _ _ _ _ X2 H2) as (b2 & G2 & B2 & P2).
  exists b1, crash_sig1, b2, crash_sig2. rewrite B1, B2.
  assert (Eh : crash_hist = h) by (unfold crash_hist; rewrite E; reflexivity).
  assert (Es : crash_end = S) by (unfold crash_end; rewrite E; reflexivity).
  rewrite Eh, Es. split; [eapply sexec_srun; [constructor|exact E]|].
  split; [exact G1|]. split; [exact G2|]. split; [reflexivity|]. split; [reflexivity|].
  split; [exact P1|]. split; [exact P2|]. split; [exact V1|exact V2].
Qed.
