(** A concrete plan and machines. *)
From Coq Require Import Strings.String.
From Verif Require Import GoBase Wire Canonical CanonicalApi SignState Spec Crypto Toy LocalCosigner Json Poly Scheme ToyScheme
  Disk Validator ValidatorWitness CosignerWitness Config ConfigSpec ConfigWitness KeyFile KeyFileSpec KeyShares KeySharesSpec
  KeySharesProofs ThresholdWitness System SystemSpec SystemLiveSpec SystemLiveWitness Startup StartupSpec Machine MachineSpec MachineProofs.
Local Open Scope list_scope.
Local Open Scope Z_scope.

(** RSA key texts: the private key as pairs (1, byte) up to a 0, then the public key *)
Fixpoint sk_parse (b : bytes) : option (bytes * bytes) :=
  match b with
  | x01 :: c :: b' => match sk_parse b' with Some (s, p) => Some (c :: s, p) | None => None end
  | x00 :: b' => Some ([], b')
  | _ => None
  end.
Fixpoint sk_text (s p : bytes) : bytes := match s with [] => x00 :: p | c :: s' => x01 :: c :: sk_text s' p end.
Definition wkl : KeyLib (bytes * bytes) bytes :=
  KLib sk_parse (fun k => sk_text (fst k) (snd k)) Some id (fun _ => None).
Lemma wkl_codec : codec wkl.
Proof.
  split; [|done]. intros [s p]. cbn. induction s as [|c s IH]; [done|]. cbn [sk_text sk_parse]. by rewrite IH.
Qed.

Definition wurl (i : Z) : bytes := if i =? 1 then lit "tcp://a:2222" else if i =? 2 then lit "tcp://b:2222" else lit "tcp://c:2222".
Definition wplan : plan :=
  Plan 3 2 irishub wurl (fun i => filter (fun j => j <> i) (seqZ 1 3)) (fun i => if i =? 1 then Some (lit "tcp://n:1234") else None)
    (fun _ => lit "1500ms") (fun i => if i =? 3 then lit "/mnt/h" else []) (fun i => if i =? 2 then lit "/keys/s2.json" else []).
Definition wdflt : bytes := lit "/home/v/.horcrux".
Definition wempty : machine := Machine ∅ ∅ ∅ ∅.

Lemma wplan_ok : plan_ok wlib wplan.
Proof.
  split; [simpl; lia|]. split; [simpl; lia|]. split; [vm_compute; discriminate|].
  intros i Hi. cbn [pl_n wplan] in Hi. assert (Hc : i = 1 \/ i = 2 \/ i = 3) by lia.
  assert (Hplain : plain (wurl i)).
  { split; destruct Hc as [-> |[-> | ->]]; apply (bool_decide_unpack _); vm_compute; reflexivity. }
  assert (Hu : lib_url wlib (wurl i) = true) by (destruct Hc as [-> |[-> | ->]]; vm_compute; reflexivity).
  split.
  { cbn [pl_peers wplan pl_n]. destruct Hc as [-> |[-> | ->]].
    - vm_compute. reflexivity.
    - change (Permutation [2; 1; 3] [1; 2; 3]). constructor.
    - change (Permutation [3; 1; 2] [1; 2; 3]). apply (Permutation_app_comm [3] [1; 2]). }
  split; [exact Hplain|]. split; [destruct Hc as [-> |[-> | ->]]; vm_compute; discriminate|]. split; [exact Hu|].
  split; [exists (lit "node-1"); split; [done|vm_compute; discriminate]|]. split; [vm_compute; reflexivity|].
  intros a Ha n Hn. cbn [pl_nodes wplan] in Ha. destruct (i =? 1); [|discriminate]. injection Ha as <-.
  vm_compute in Hn. injection Hn as <-. vm_compute. reflexivity.
Qed.
Lemma wfresh i : fresh wdflt wplan i wempty.
Proof. repeat split. Qed.
Definition whost (u : bytes) : bytes := drop 6 u.
Lemma wgood : good_plan whost (seqZ 1 3) wurl.
Proof.
  split; [apply NoDup_seqZ|]. split; [apply (bool_decide_unpack _); vm_compute; reflexivity|].
  intros i Hi. apply elem_of_seqZ in Hi. assert (Hc : i = 1 \/ i = 2 \/ i = 3) by lia.
  destruct Hc as [-> |[-> | ->]]; vm_compute; discriminate.
Qed.

(** the files, the machines and the processes *)
Definition wfiles : list (Z * Config.cosigner_key) := map (fun k => (Config.ck_id k, k)) (wkeys 2 3).
Lemma wfiles_ok : wcmd "2" "3" = Val (wfiles, None).
Proof.
  unfold wcmd, wargs, create_cmd. change (go_atoi (lit "2")) with (Some 2). change (go_atoi (lit "3")) with (Some 3). cbv iota beta.
  rewrite wkeys_ok. rewrite write_all; [reflexivity|reflexivity|done].
Qed.
Definition wkey (i : Z) : Config.cosigner_key := match wkeys 2 3 !! Z.to_nat (i - 1) with Some k => k | None => Config.CKey 0 [] [] [] [] [] end.
Definition wtext (i : Z) : bytes := match marshal_key wkl (file_key (wkey i)) with Some t => t | None => [] end.
Definition wmachine (i : Z) : machine :=
  match init_cmd wlib wdflt wempty (pl_flag wplan i) false irishub (pl_nodes wplan i) (Some (plan_flags wplan i)) (pl_key wplan i) with
  | Val m => put_key m (match pl_key wplan i with [] => home_of wdflt (pl_flag wplan i) ++ lit "/share.json" | p => p end) (wtext i)
  | _ => wempty
  end.
Definition wstart (i : Z) : running * host :=
  match start_cmd wlib wkl wdflt (wmachine i) (pl_flag wplan i) with
  | Val (r, h, _) => (r, h)
  | _ => (ThresholdWitness.wrun i, host0)
  end.

Lemma wtext_ok i : 1 <= i <= 3 -> share_text wkl wfiles i (wtext i).
Proof.
  intros Hi. exists (wkey i). split; [|reflexivity]. unfold wfiles, wkey.
  assert (Hc : i = 1 \/ i = 2 \/ i = 3) by lia.
  destruct (wkeys 2 3 !! Z.to_nat (i - 1)) as [k|] eqn:E.
  - apply elem_of_list_fmap. exists k. split; [|by eapply elem_of_list_lookup_2]. f_equal.
    destruct Hc as [-> |[-> | ->]]; vm_compute in E; injection E as <-; reflexivity.
  - exfalso. destruct Hc as [-> |[-> | ->]]; vm_compute in E; discriminate.
Qed.
Lemma wstarted i : 1 <= i <= 3 -> started wlib wkl wdflt wplan wfiles i (fst (wstart i)) (snd (wstart i)).
Proof.
  intros Hi. exists (wtext i), wempty, (wmachine i).
  assert (Hin : installs wlib wdflt wplan i (wtext i) wempty (wmachine i)).
  { destruct (init_fresh wlib wdflt wplan wplan_ok i wempty Hi (wfresh i)) as (m1 & Hm1 & _).
    exists m1. split; [exact Hm1|]. unfold wmachine. cbn [pl_chain wplan] in Hm1 |- *. by rewrite Hm1. }
  destruct (wtext_ok i Hi) as (k & Hk & Ht).
  destruct zero_loaded as (s0 & Hs0 & _).
  assert (Hset : key_set (toy_enc 77) 3 (wkeys 2 3)).
  { apply (create_key_set _ _ _ _ _ _ _ _ toy_deals (wkeys_ok 2 3)). lia. }
  destruct (set_key wexpand wgens wlib wplan wplan_ok (toy_enc 77) [] eq_refl (wkeys 2 3) i k Hset Hk) as (_ & _ & _ & Hlen & Hok).
  pose proof (start_installed wlib wkl wdflt wplan wkl_codec wplan_ok i k (wtext i) wempty (wmachine i) s0 Hi (wfresh i) Hok Ht Hin Hs0) as Hst.
  destruct (plan_runs wlib wplan wplan_ok i k Hi Hlen) as [r Hr]. rewrite Hr in Hst. destruct Hst as [m' Hst]. exists m'.
  split; [by apply wtext_ok|]. split; [apply wfresh|]. split; [exact Hin|]. unfold wstart. rewrite Hst. reflexivity.
Qed.
Definition wk : sysconf := SysConf (fun i => ru_val (fst (wstart i))) (fun i => ru_cos (fst (wstart i))).
Lemma wk_kw i : 1 <= i <= 3 -> sc_val wk i = sc_val kw i.
Proof.
  intros Hi. assert (Hc : i = 1 \/ i = 2 \/ i = 3) by lia. destruct Hc as [-> |[-> | ->]]; vm_compute; reflexivity.
Qed.
Lemma wk_jobs : Forall (job_ok toy_reading 3 wk) wjobs.
Proof.
  eapply List.Forall_impl; [|exact wjobs_ok]. intros j (H1 & H2 & H3). unfold job_ok, participants in *. rewrite wk_kw by done. done.
Qed.

(** ** A copied home directory *)
(** host 1 was set up in /mnt/old; then the directory was copied to ~/.horcrux *)
Definition old_dir : bytes := lit "/mnt/old".
Definition old_machine : machine :=
  match init_cmd wlib wdflt wempty old_dir false irishub None (Some (plan_flags wplan 1)) [] with
  | Val m => put_key m (old_dir ++ lit "/share.json") (wtext 1)
  | _ => wempty
  end.
Definition copied : machine :=
  let m := old_machine in
  Machine ({[wdflt]} ∪ ma_dirs m)
    (match ma_yaml m !! old_dir with Some y => <[wdflt := y]> (ma_yaml m) | None => ma_yaml m end)
    (match ma_state m !! (old_dir, pv_path irishub), ma_state m !! (old_dir, share_path irishub) with
     | Some a, Some b => <[(wdflt, pv_path irishub) := a]> (<[(wdflt, share_path irishub) := b]> (ma_state m))
     | _, _ => ma_state m end)
    (<[wdflt ++ lit "/share.json" := wtext 1]> (ma_key m)).
Lemma copied_start : exists m' r h m'',
  state_set_cmd wdflt copied [] false (lit "100") true true = Val m' /\
  start_cmd wlib wkl wdflt m' [] = Val (r, h, m'') /\
  ss_hrs (cs_lss (cn_cos (ho_cos h))) = HRS 0 0 0.
Proof.
  assert (H : match state_set_cmd wdflt copied [] false (lit "100") true true with
     | Val m' => match start_cmd wlib wkl wdflt m' [] with
        | Val (r, h, m'') => ss_hrs (cs_lss (cn_cos (ho_cos h))) = HRS 0 0 0 | _ => False end | _ => False end)
    by (vm_compute; reflexivity).
  destruct (state_set_cmd wdflt copied [] false (lit "100") true true) as [m'| |]; [|destruct H|destruct H]. exists m'.
  destruct (start_cmd wlib wkl wdflt m' []) as [[[r h] m'']| |]; [|destruct H|destruct H].
  exists r, h, m''. split; [reflexivity|]. split; [reflexivity|exact H].
Qed.
Lemma copied_used : used_share wdflt copied [] = used_share wdflt copied old_dir /\ home_of wdflt [] <> home_of wdflt old_dir /\
  is_Some (used_share wdflt copied []).
Proof.
  split; [vm_compute; reflexivity|]. split; [vm_compute; discriminate|].
  assert (H : match used_share wdflt copied [] with Some _ => True | None => False end) by (vm_compute; exact I).
  destruct (used_share wdflt copied []); [by eexists|done].
Qed.

(** ** Lowered watermarks *)
Definition state_text (h : Z) : bytes := marshal_state (FR h 0 0 None None None).
(** states of two chains; the configuration is for the first *)
Definition two_chains : machine :=
  let m := wmachine 1 in
  Machine (ma_dirs m) (ma_yaml m)
    (<[(wdflt, share_path (lit "hub-2")) := state_text 200]> (<[(wdflt, pv_path (lit "hub-2")) := state_text 200]>
       (<[(wdflt, share_path irishub) := state_text 100]> (ma_state m)))) (ma_key m).
Lemma two_chains_lowered :
  mark_at two_chains (wdflt, share_path (lit "hub-2")) = Some (HRS 200 0 0) /\
  snd (chain_cmd wdflt two_chains [] (lit "hub-2")) = Val tt /\
  mark_at (after_command wlib wdflt two_chains [] (CChain (lit "hub-2"))) (wdflt, share_path (lit "hub-2")) = Some (HRS 100 0 0).
Proof. split; [vm_compute; reflexivity|]. split; vm_compute; reflexivity. Qed.

(** the share state at height 100 was cut short *)
Definition damaged : machine :=
  put_state (wmachine 1) (wdflt, share_path irishub) (Some (take 20 (state_text 100))).
Definition reinit : command := CInit true irishub (pl_nodes wplan 1) (Some (plan_flags wplan 1)) [].
Lemma damaged_reset : start_cmd wlib wkl wdflt damaged [] = Panic /\
  exists r h m', start_cmd wlib wkl wdflt (after_command wlib wdflt damaged [] reinit) [] = Val (r, h, m') /\
    ss_hrs (cs_lss (cn_cos (ho_cos h))) = HRS 0 0 0.
Proof.
  split; [vm_compute; reflexivity|].
  assert (H : match start_cmd wlib wkl wdflt (after_command wlib wdflt damaged [] reinit) [] with
        | Val (r, h, m'') => ss_hrs (cs_lss (cn_cos (ho_cos h))) = HRS 0 0 0 | _ => False end)
    by (vm_compute; reflexivity).
  destruct (start_cmd wlib wkl wdflt (after_command wlib wdflt damaged [] reinit) []) as [[[r h] m']| |]; [|destruct H|destruct H].
  exists r, h, m'. split; [reflexivity|exact H].
Qed.
