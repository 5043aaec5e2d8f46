(** C79: setting up a cluster; C80: which directory; C81: crashes; C82: watermarks and commands *)
From Coq Require Import Strings.String.
From Verif Require Import GoBase Canonical SignState Spec Crypto LocalCosigner Toy ToyScheme Poly Scheme RoundSpec Json Disk
  Validator Config ConfigSpec ConfigWitness KeyFile KeyFileSpec KeyShares KeySharesSpec ThresholdWitness
  System SystemSpec SystemProofs SystemLiveSpec SystemLive SystemLiveWitness Startup StartupSpec Machine MachineSpec
  MachineProofs MachineProofs2 MachineWitness PropsSystem PropsSystemLive.
Local Open Scope list_scope.
Local Open Scope Z_scope.

(** ** C79 *)

(** every command succeeds: create-shares writes one file per host, and on any machine without a
    configuration config init succeeds and, once the file is in place, so does cosigner start *)
Theorem C79_commands : forall C expand rnd gens L KL dflt P pub sk f ta na,
  deals C -> codec KL -> plan_ok L P -> length pub = 32%nat -> decimal ta (pl_t P) -> decimal na (pl_n P) ->
  (32 <= length sk)%nat -> (forall i, is_Some (gens i)) ->
  exists l, create_cmd C expand rnd gens (fun _ => true) (Some (Some (PVKey (Some pub) (Some sk)))) [f; ta; na] = Val (l, None) /\
    map fst l = seqZ 1 (pl_n P) /\
    forall i, 1 <= i <= pl_n P -> exists text, share_text KL l i text /\
      forall m0, fresh dflt P i m0 -> exists m, installs L dflt P i text m0 m /\
        exists r h m', start_cmd L KL dflt m (pl_flag P i) = Val (r, h, m').
Proof.
  intros C expand rnd gens L KL dflt P pub sk f ta na HC HK HP Hp Hta Hna.
  exact (commands_succeed C HC expand rnd gens L KL dflt P HK HP pub sk f ta na Hp Hta Hna).
Qed.
(** what runs then is the cluster of C72 and C73: the shares of one key, each host with its own ID
    and all others as peers, no signatures, nothing above (0, 0, 0) *)
Theorem C79_cluster : forall C R expand rnd gens L KL dflt P pub sk f ta na wr l r h,
  deals C -> codec KL -> plan_ok L P -> length pub = 32%nat -> decimal ta (pl_t P) -> decimal na (pl_n P) ->
  rsa_works C R gens -> key_pair R (expand (take 32 sk)) pub ->
  create_cmd C expand rnd gens wr (Some (Some (PVKey (Some pub) (Some sk)))) [f; ta; na] = Val (l, None) ->
  (forall i, 1 <= i <= pl_n P -> started L KL dflt P l i (r i) (h i)) ->
  let K := SysConf (fun i => ru_val (r i)) (fun i => ru_cos (r i)) in
  deployed C R pub (pl_t P) (pl_n P) K /\ set_up K (cluster P h) (pl_t P) pub /\ first_start (cluster P h) /\
  applied_ok (cluster P h) /\ all_below (HRS 0 0 0) (cluster P h) /\
  (forall i, is_Some (sy_hosts (cluster P h) !! i) <-> 1 <= i <= pl_n P).
Proof.
  intros C R expand rnd gens L KL dflt P pub sk f ta na wr l r h HC HK HP Hp Hta Hna Hg Hkp Hcmd Hst.
  exact (cluster_facts C R HC expand rnd gens L KL dflt P HK HP pub sk f ta na Hp Hta Hna Hg Hkp wr l Hcmd r h Hst).
Qed.
(** and one raft cluster of all hosts, if the addresses differ *)
Theorem C79_raft : forall C expand rnd gens L dflt P pub sk f ta na wr l hostname i j,
  deals C -> plan_ok L P -> length pub = 32%nat -> decimal ta (pl_t P) -> decimal na (pl_n P) ->
  create_cmd C expand rnd gens wr (Some (Some (PVKey (Some pub) (Some sk)))) [f; ta; na] = Val (l, None) ->
  good_plan hostname (seqZ 1 (pl_n P)) (pl_url P) -> 1 <= i <= pl_n P -> 1 <= j <= pl_n P ->
  forall ki kj, (i, ki) ∈ l -> (j, kj) ∈ l ->
  forall ti mi0 mi tj mj0 mj, fresh dflt P i mi0 -> installs L dflt P i ti mi0 mi ->
    fresh dflt P j mj0 -> installs L dflt P j tj mj0 mj ->
  exists yi yj si sj ci cj, config_at dflt mi (pl_flag P i) = Some yi /\ config_at dflt mj (pl_flag P j) = Some yj /\
    cf_cosigner (ya_cfg yi) = Some si /\ cf_cosigner (ya_cfg yj) = Some sj /\
    boot_node hostname None si ki = Some ci /\ boot_node hostname None sj kj = Some cj /\
    ci ≡ₚ cj /\ Z.of_nat (length ci) = pl_n P.
Proof.
  intros C expand rnd gens L dflt P pub sk f ta na wr l hostname i j HC HP Hp Hta Hna Hcmd.
  eapply cluster_raft; eauto.
Qed.
(** so it signs whatever rising requests it gets *)
Theorem C79_signs : forall C R expand rnd gens L KL dflt P pub sk f ta na wr l r h js,
  threshold_scheme C R -> pl_n P <= rd_max R ->
  deals C -> codec KL -> plan_ok L P -> length pub = 32%nat -> decimal ta (pl_t P) -> decimal na (pl_n P) ->
  rsa_works C R gens -> key_pair R (expand (take 32 sk)) pub ->
  create_cmd C expand rnd gens wr (Some (Some (PVKey (Some pub) (Some sk)))) [f; ta; na] = Val (l, None) ->
  (forall i, 1 <= i <= pl_n P -> started L KL dflt P l i (r i) (h i)) ->
  let K := SysConf (fun i => ru_val (r i)) (fun i => ru_cos (r i)) in
  Forall (job_ok R (pl_n P) K) js -> rising (HRS 0 0 0) js ->
  exists h' S', srun C K ∅ (cluster P h) h' S' /\ Forall (answered C pub h' S') js /\
    (forall i k o, (ERestart i k, o) ∉ h').
Proof.
  intros C R expand rnd gens L KL dflt P pub sk f ta na wr l r h js HS Hmax HC HK HP Hp Hta Hna Hg Hkp Hcmd Hst K Hj Hr.
  destruct (C79_cluster C R expand rnd gens L KL dflt P pub sk f ta na wr l r h HC HK HP Hp Hta Hna Hg Hkp Hcmd Hst)
    as (Hd & _ & _ & Ha & Hb & Hh). destruct HP as (Hn & Ht & _).
  destruct (C73_keeps_signing C R pub (pl_t P) (pl_n P) K ∅ (cluster P h) js [] (cluster P h) (HRS 0 0 0) HS)
    as (h' & S' & H1 & H2 & H3 & _); [lia|lia|lia|exact Hd|exact Ha|exact Hh|constructor|exact Hj|exact Hb|exact Hr|].
  exists h', S'. split; [exact H1|]. split; [exact H2|exact H3].
Qed.
(** and with a threshold above half of the hosts it never signs two conflicting votes, even if some
    cosigners are faulty, as long as no host restarts (what restarts can do: C72) *)
Theorem C79_safe : forall C R expand rnd gens L KL dflt P pub sk f ta na wr l r h faulty hist S i1 b1 s1 i2 b2 s2 k,
  deals C -> codec KL -> plan_ok L P -> length pub = 32%nat -> decimal ta (pl_t P) -> decimal na (pl_n P) ->
  rsa_works C R gens -> key_pair R (expand (take 32 sk)) pub ->
  create_cmd C expand rnd gens wr (Some (Some (PVKey (Some pub) (Some sk)))) [f; ta; na] = Val (l, None) ->
  (forall i, 1 <= i <= pl_n P -> started L KL dflt P l i (r i) (h i)) ->
  let K := SysConf (fun i => ru_val (r i)) (fun i => ru_cos (r i)) in
  2 * pl_t P > pl_n P + Z.of_nat (size faulty) ->
  srun C K faulty (cluster P h) hist S -> (forall i n o, (ERestart i n, o) ∉ hist) ->
  handed_out hist i1 b1 s1 -> handed_out hist i2 b2 s2 ->
  h_step (b_hrs b1) <> stepPropose -> h_step (b_hrs b2) <> stepPropose ->
  bytes_for (b_sb b1) k -> bytes_for (b_sb b2) k -> same_message_but_time (b_sb b1) (b_sb b2).
Proof.
  intros C R expand rnd gens L KL dflt P pub sk f ta na wr l r h faulty hist S i1 b1 s1 i2 b2 s2 k
    HC HK HP Hp Hta Hna Hg Hkp Hcmd Hst K Hq Hrun Hre.
  destruct (C79_cluster C R expand rnd gens L KL dflt P pub sk f ta na wr l r h HC HK HP Hp Hta Hna Hg Hkp Hcmd Hst)
    as (_ & Hsu & Hfs & _).
  refine (C72_no_restart_partial C K faulty (cluster P h) (pl_t P) pub hist S i1 b1 s1 i2 b2 s2 k Hsu Hfs Hrun Hre _).
  rewrite Nat2Z.inj_add, (cluster_size L KL dflt P HP pub Hp l r h Hst). lia.
Qed.
(** with restarts, whatever they do to the files: every signature handed out is for bytes a threshold of
    the hosts signed, and they do not conflict if few enough hosts are faulty or restart *)
Theorem C79_restarts : forall C R expand rnd gens L KL dflt P pub sk f ta na wr l r h faulty hist S,
  deals C -> codec KL -> plan_ok L P -> length pub = 32%nat -> decimal ta (pl_t P) -> decimal na (pl_n P) ->
  rsa_works C R gens -> key_pair R (expand (take 32 sk)) pub ->
  create_cmd C expand rnd gens wr (Some (Some (PVKey (Some pub) (Some sk)))) [f; ta; na] = Val (l, None) ->
  (forall i, 1 <= i <= pl_n P -> started L KL dflt P l i (r i) (h i)) ->
  let K := SysConf (fun i => ru_val (r i)) (fun i => ru_cos (r i)) in
  srun C K faulty (cluster P h) hist S ->
  (forall i b sig, handed_out hist i b sig ->
    exists m, cr_verify C pub m sig = true /\ supported (cluster P h) (pl_t P) faulty hist m) /\
  (2 * pl_t P > pl_n P + Z.of_nat (size (faulty ∪ restarted hist)) ->
   forall m1 m2 k, supported (cluster P h) (pl_t P) faulty hist m1 -> supported (cluster P h) (pl_t P) faulty hist m2 ->
     bytes_for m1 k -> bytes_for m2 k -> same_message_but_time m1 m2).
Proof.
  intros C R expand rnd gens L KL dflt P pub sk f ta na wr l r h faulty hist S HC HK HP Hp Hta Hna Hg Hkp Hcmd Hst K Hrun.
  destruct (C79_cluster C R expand rnd gens L KL dflt P pub sk f ta na wr l r h HC HK HP Hp Hta Hna Hg Hkp Hcmd Hst)
    as (_ & Hsu & Hfs & _).
  split.
  - refine (C72_signatures C K faulty (cluster P h) (pl_t P) pub hist S Hsu Hfs _ Hrun).
    eapply cluster_files; [exact HC|exact HK|exact HP|exact Hp|exact Hta|exact Hna|exact Hcmd|exact Hst].
  - intros Hq m1 m2 k. refine (C72_agree_partial C K faulty (restarted hist) (cluster P h) (pl_t P) hist S m1 m2 k Hrun _ _).
    + apply restarted_lossy.
    + rewrite Nat2Z.inj_add, (cluster_size L KL dflt P HP pub Hp l r h Hst). lia.
Qed.
(** a 2-of-3 plan with different directories, key files and flags on the hosts *)
Example C79_example :
  deals toy /\ threshold_scheme toy toy_reading /\ codec wkl /\ plan_ok wlib wplan /\ length (toy_enc 77) = 32%nat /\
  decimal (lit "2") (pl_t wplan) /\ decimal (lit "3") (pl_n wplan) /\
  rsa_works toy toy_reading wgens /\ key_pair toy_reading (wexpand (take 32 wsecret)) (toy_enc 77) /\
  wcmd "2" "3" = Val (wfiles, None) /\ good_plan whost (seqZ 1 3) wurl /\ 2 * 2 > 3 /\ 3 <= rd_max toy_reading /\
  (forall i, 1 <= i <= 3 -> started wlib wkl wdflt wplan wfiles i (fst (wstart i)) (snd (wstart i))) /\
  Forall (job_ok toy_reading 3 wk) wjobs /\ rising (HRS 0 0 0) wjobs.
Proof.
  split; [exact toy_deals|]. split; [exact toy_scheme|]. split; [exact wkl_codec|]. split; [exact wplan_ok|]. split; [reflexivity|].
  split; [apply ConfigProofs.atoi_iff; vm_compute; reflexivity|]. split; [apply ConfigProofs.atoi_iff; vm_compute; reflexivity|].
  split; [exact wrsa|]. split; [exact wkey_pair|]. split; [exact wfiles_ok|]. split; [exact wgood|]. split; [lia|]. split; [vm_compute; discriminate|].
  split; [exact wstarted|]. split; [exact wk_jobs|exact wjobs_rising].
Qed.

(** ** C80 *)

(** C80: the state that commands change is the one the signer uses. False for a home directory that was copied
    or moved: home-dir in config.yaml names the old place. `state set 100` succeeds, and the signer
    started the same way still starts at height 0; and two signers started from the two directories
    use one state file. *)
Theorem C80_copied_refuted :
  (exists L KL dflt m m' r h m'', state_set_cmd dflt m [] false (lit "100") true true = Val m' /\
     start_cmd L KL dflt m' [] = Val (r, h, m'') /\ ss_hrs (cs_lss (cn_cos (ho_cos h))) = HRS 0 0 0) /\
  exists dflt m f1 f2, used_share dflt m f1 = used_share dflt m f2 /\ home_of dflt f1 <> home_of dflt f2 /\
    is_Some (used_share dflt m f1).
Proof.
  split.
  - destruct copied_start as (m' & r & h & m'' & H). exists wlib, wkl, wdflt, copied, m', r, h, m''. exact H.
  - exists wdflt, copied, [], old_dir. exact copied_used.
Qed.
(** C80 if home-dir in config.yaml names the directory it is in: a start with the same --home has
    at least the height given to `state set` (whose writes finished), *)
Theorem C80_state_set_partial : forall L KL dflt m flag arg z m' r h m'',
  at_home dflt m flag -> decimal arg z ->
  state_set_cmd dflt m flag false arg true true = Val m' -> start_cmd L KL dflt m' flag = Val (r, h, m'') ->
  hrs_le (HRS z 0 0) (ss_hrs (vs_lss (ho_val h))) /\ hrs_le (HRS z 0 0) (ss_hrs (cs_lss (cn_cos (ho_cos h)))).
Proof. exact set_then_start. Qed.
(** and after `chain-id set` it has the share state it would have had before *)
Theorem C80_chain_partial : forall L KL dflt m flag new m' y r h m'',
  at_home dflt m flag -> config_at dflt m flag = Some y ->
  chain_cmd dflt m flag new = (m', Val tt) -> start_cmd L KL dflt m' flag = Val (r, h, m'') ->
  load (ma_state m !! share_file y) = Some (cs_lss (cn_cos (ho_cos h))).
Proof. exact chain_then_start. Qed.
(** `state show` shows what the next start continues from, and it can be shown if the home directory is
    the default one and the files are there *)
Theorem C80_show_partial : forall L KL dflt m flag r h m', at_home dflt m flag -> start_cmd L KL dflt m flag = Val (r, h, m') ->
  (forall pv sh, state_show_cmd dflt m flag = Val (pv, sh) -> vs_lss (ho_val h) = pv /\ cs_lss (cn_cos (ho_cos h)) = sh) /\
  (no_such_home m flag -> (exists y pv, config_at dflt m flag = Some y /\ load (ma_state m !! pv_file y) = Some pv) ->
   state_show_cmd dflt m flag = Val (vs_lss (ho_val h), cs_lss (cn_cos (ho_cos h)))).
Proof.
  intros L KL dflt m flag r h m' Hh Hst. split; [intros pv sh Hs; by eapply show_then_start|].
  intros Hn (y & pv & Hy & Hp). by eapply start_then_show.
Qed.
(** no command changes this: only copying, moving or editing config.yaml by hand does *)
Theorem C80_commands : forall L dflt m flag c,
  (forall d y, ma_yaml m !! d = Some (Some y) -> ya_home y = d) ->
  forall d y, ma_yaml (after_command L dflt m flag c) !! d = Some (Some y) -> ya_home y = d.
Proof. exact home_command. Qed.
(** the commands for nodes, peers and shares write the configuration that the next start with this flag
    reads; key file and state files used stay the same, and nothing else on the machine changes *)
Theorem C80_edit : forall L dflt m flag cmd m', edit_cmd L dflt m flag cmd = Val m' ->
  exists y y', config_at dflt m flag = Some y /\ config_at dflt m' flag = Some y' /\
    run_cmd L (ya_cfg y) cmd = Val (ya_cfg y') /\
    key_path y' = key_path y /\ pv_file y' = pv_file y /\ share_file y' = share_file y /\
    (forall f, home_of dflt f <> home_of dflt flag -> config_at dflt m' f = config_at dflt m f) /\
    ma_dirs m' = ma_dirs m /\ ma_state m' = ma_state m /\ ma_key m' = ma_key m.
Proof. exact edit_effect. Qed.
Example C80_example_edit :
  match edit_cmd wlib wdflt (wmachine 1) [] (NodesAdd (lit "tcp://node:1234")) with Val _ => True | _ => False end.
Proof. vm_compute. exact I. Qed.
Example C80_example : exists m' r h m'',
  at_home wdflt (wmachine 1) [] /\ state_set_cmd wdflt (wmachine 1) [] false (lit "100") true true = Val m' /\
  start_cmd wlib wkl wdflt m' [] = Val (r, h, m'') /\ ss_hrs (cs_lss (cn_cos (ho_cos h))) = HRS 100 0 0.
Proof.
  assert (H : match state_set_cmd wdflt (wmachine 1) [] false (lit "100") true true with
     | Val m' => match start_cmd wlib wkl wdflt m' [] with
        | Val (r, h, m'') => ss_hrs (cs_lss (cn_cos (ho_cos h))) = HRS 100 0 0 | _ => False end | _ => False end)
    by (vm_compute; reflexivity).
  assert (Hh : at_home wdflt (wmachine 1) []).
  { assert (Hy : match config_at wdflt (wmachine 1) [] with Some y => ya_home y = home_of wdflt [] | None => True end) by (vm_compute; reflexivity).
    intros y E. rewrite E in Hy. exact Hy. }
  destruct (state_set_cmd wdflt (wmachine 1) [] false (lit "100") true true) as [m'| |]; [|destruct H|destruct H]. exists m'.
  destruct (start_cmd wlib wkl wdflt m' []) as [[[r h] m'']| |]; [|destruct H|destruct H].
  exists r, h, m''. split; [exact Hh|]. split; [reflexivity|]. split; [reflexivity|exact H].
Qed.

Example C80_example_show : exists m' pv, state_set_cmd wdflt (wmachine 1) [] false (lit "100") true true = Val m' /\
  no_such_home m' [] /\ (exists sh, state_show_cmd wdflt m' [] = Val (pv, sh)) /\ ss_hrs pv = HRS 100 0 0.
Proof.
  assert (H : match state_set_cmd wdflt (wmachine 1) [] false (lit "100") true true with
     | Val m' => match state_show_cmd wdflt m' [] with Val (pv, sh) => ss_hrs pv = HRS 100 0 0 | _ => False end | _ => False end)
    by (vm_compute; reflexivity).
  destruct (state_set_cmd wdflt (wmachine 1) [] false (lit "100") true true) as [m'| |]; [|destruct H|destruct H]. exists m'.
  destruct (state_show_cmd wdflt m' []) as [[pv sh]| |]; [|destruct H|destruct H]. exists pv.
  split; [reflexivity|]. split; [left; reflexivity|]. split; [exists sh; reflexivity|exact H].
Qed.

(** ** C81 *)

(** C81: commands end with an error message rather than a crash. False: without a (readable)
    config.yaml most of them dereference a nil pointer, and so do commands about peers in the
    configuration of a single signer *)
Theorem C81_no_config_refuted : exists L KL dflt m flag c,
  crashes L dflt m flag c = true /\ start_cmd L KL dflt m flag = Panic.
Proof. exists wlib, wkl, wdflt, wempty, [], (CChain (lit "hub-2")). split; vm_compute; reflexivity. Qed.
(** exactly when *)
Theorem C81_exact_partial : forall L dflt m flag c, crashes L dflt m flag c = true <->
  match c with
  | CInit _ _ _ _ _ => False
  | CEdit cmd => args_ok L cmd /\ (config_at dflt m flag = None \/
      exists y, config_at dflt m flag = Some y /\ cf_cosigner (ya_cfg y) = None /\ for_cosigners cmd)
  | CChain _ => config_at dflt m flag = None
  | CStateSet running _ _ _ => running = false /\ no_such_home m flag /\ config_at dflt m flag = None
  | CStateShow => no_such_home m flag /\ config_at dflt m flag = None
  end.
Proof. exact crash_iff. Qed.
(** a crash changes nothing on disk *)
Theorem C81_harmless : forall L dflt m flag c, crashes L dflt m flag c = true -> after_command L dflt m flag c = m.
Proof. exact crash_nothing. Qed.
(** on a machine set up for a cosigner none of them crashes *)
Example C81_example : forall c, crashes wlib wdflt (wmachine 1) [] c = false.
Proof.
  intros c. destruct (crashes wlib wdflt (wmachine 1) [] c) eqn:E; [|reflexivity]. exfalso.
  assert (Hy : match config_at wdflt (wmachine 1) [] with
    | Some y => match cf_cosigner (ya_cfg y) with Some _ => True | None => False end | None => False end) by (vm_compute; exact I).
  apply crash_iff in E. destruct (config_at wdflt (wmachine 1) []) as [y|] eqn:Ec; [|exact Hy].
  destruct c as [? ? ? ? ?|cmd|?|? ? ? ?|]; [exact E| |discriminate E|destruct E as (_ & _ & E); discriminate E|destruct E as (_ & E); discriminate E].
  destruct E as (_ & [E|(y' & E & Hn & _)]); [discriminate E|]. injection E as <-. rewrite Hn in Hy. exact Hy.
Qed.

(** ** C82 *)

(** C82: no command lowers a recorded watermark. False: `chain-id set` overwrites the state of another
    chain that is there; and where the state of the share cannot be read, so that the signer refuses
    to start, `config init -o` replaces it and the signer starts at (0, 0, 0) *)
Theorem C82_lowered_refuted :
  (exists L dflt m flag new p, mark_at m p = Some (HRS 200 0 0) /\ snd (chain_cmd dflt m flag new) = Val tt /\
     mark_at (after_command L dflt m flag (CChain new)) p = Some (HRS 100 0 0)) /\
  exists L KL dflt m flag c, start_cmd L KL dflt m flag = Panic /\
    exists r h m', start_cmd L KL dflt (after_command L dflt m flag c) flag = Val (r, h, m') /\
      ss_hrs (cs_lss (cn_cos (ho_cos h))) = HRS 0 0 0.
Proof.
  split.
  - exists wlib, wdflt, two_chains, [], (lit "hub-2"), (wdflt, share_path (lit "hub-2")). exact two_chains_lowered.
  - exists wlib, wkl, wdflt, damaged, [], reinit. exact damaged_reset.
Qed.
(** C82 for readable states and all commands but `chain-id set`: in no directory is a watermark
    lower afterwards, whatever the command and its arguments, whether it succeeds or fails *)
Theorem C82_commands_partial : forall L dflt m flag c p,
  ~ is_chain c -> not_lowered m (after_command L dflt m flag c) p.
Proof. exact command_keeps. Qed.
Theorem C82_start : forall L KL dflt m flag r h m' p, start_cmd L KL dflt m flag = Val (r, h, m') -> not_lowered m m' p.
Proof. exact start_keeps. Qed.
(** `chain-id set`: the states of the old chain are now those of the new one and gone under the old
    name, config.yaml has the new ID and is otherwise as before, other files are untouched *)
Theorem C82_chain_partial : forall dflt m flag new m' y, config_at dflt m flag = Some y -> chain_cmd dflt m flag new = (m', Val tt) ->
  let d := home_of dflt flag in let old := cf_chain (ya_cfg y) in
  ma_state m' !! (d, share_path new) = ma_state m !! (d, share_path old) /\
  ma_state m' !! (d, pv_path new) = ma_state m !! (d, pv_path old) /\
  (new <> old -> ma_state m' !! (d, share_path old) = None /\ ma_state m' !! (d, pv_path old) = None) /\
  (forall p, p ∉ [(d, share_path old); (d, pv_path old); (d, share_path new); (d, pv_path new)] ->
     ma_state m' !! p = ma_state m !! p) /\
  (exists y', config_at dflt m' flag = Some y' /\ cf_chain (ya_cfg y') = new /\ ya_home y' = ya_home y /\ ya_key y' = ya_key y /\
     cf_cosigner (ya_cfg y') = cf_cosigner (ya_cfg y) /\ cf_nodes (ya_cfg y') = cf_nodes (ya_cfg y)) /\
  (forall d', d' <> d -> ma_yaml m' !! d' = ma_yaml m !! d') /\ ma_key m' = ma_key m.
Proof. exact chain_moves. Qed.
Example C82_example : mark_at (after_command wlib wdflt two_chains [] (CStateSet false (lit "150") true true)) (wdflt, share_path CanonicalApi.irishub)
  = Some (HRS 150 0 0) /\ mark_at two_chains (wdflt, share_path CanonicalApi.irishub) = Some (HRS 100 0 0).
Proof. split; vm_compute; reflexivity. Qed.

Print Assumptions C79_commands.
Print Assumptions C79_cluster.
Print Assumptions C79_raft.
Print Assumptions C79_signs.
Print Assumptions C79_safe.
Print Assumptions C79_restarts.
Print Assumptions C80_copied_refuted.
Print Assumptions C80_state_set_partial.
Print Assumptions C80_chain_partial.
Print Assumptions C80_show_partial.
Print Assumptions C80_commands.
Print Assumptions C80_edit.
Print Assumptions C81_no_config_refuted.
Print Assumptions C81_exact_partial.
Print Assumptions C81_harmless.
Print Assumptions C82_lowered_refuted.
Print Assumptions C82_commands_partial.
Print Assumptions C82_start.
Print Assumptions C82_chain_partial.
