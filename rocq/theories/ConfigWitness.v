(** Concrete configurations and files. *)
From Coq Require Import Strings.String.
From Verif Require Import GoBase Wire Canonical SignState Spec Crypto LocalCosigner CosignerSpec Json
  Utf8 Disk Toy CosignerWitness Validator ValidatorWitness Config ConfigSpec ConfigProofs ConfigProofs2.
Local Open Scope list_scope.
Local Open Scope Z_scope.

(** url.Parse refuses control characters; the rest is not needed *)
Definition wlib : Lib := {|
  lib_url s := forallb (fun b => (32 <=? bz b) && negb (bz b =? 127)) s;
  lib_duration s := bytes_equal s (lit "1500ms");
  lib_host s := Some (lit "node-1") |}.

Definition peers23 : list cpeer := [CPeer 2 (lit "tcp://b:2222"); CPeer 3 (lit "tcp://c:2222")].
Definition flags (t : Z) : init_flags :=
  InitFlags (lit "tcp://b:2222|2,tcp://c:2222|3") t (lit "tcp://a:2222") (lit "1500ms").
Definition cfg_of (chain : bytes) (t n : Z) (peers : list cpeer) : config :=
  Config chain (Some (CosSection t n (lit "tcp://a:2222") peers (lit "1500ms"))) [lit "tcp://n:1234"].

(** any threshold up to 3 passes for two peers *)
Lemma init_any_threshold t : t <= 3 ->
  config_init wlib (lit "chain") (Some (lit "tcp://n:1234")) (Some (flags t))
  = inr (cfg_of (lit "chain") t 3 peers23).
Proof.
  intros Ht. unfold config_init.
  assert (E1 : init_nodes wlib (Some (lit "tcp://n:1234")) = inr [lit "tcp://n:1234"])
    by (vm_compute; reflexivity). rewrite E1.
  assert (E2 : peers_from_flag (if_peers (flags t)) = inr peers23) by (vm_compute; reflexivity).
  rewrite E2. cbn [if_listen flags].
  destruct (lit "tcp://a:2222") as [|x r] eqn:El; [vm_compute in El; discriminate|]. rewrite <- El.
  assert (E3 : negb (lib_url wlib (lit "tcp://a:2222")) = false) by (vm_compute; reflexivity).
  rewrite E3. cbn [lib_host wlib].
  assert (E4 : bytes_equal (lit "node-1") localhost_any = false) by (vm_compute; reflexivity).
  rewrite E4. cbn [if_threshold flags if_timeout]. cbv zeta.
  change (Config (lit "chain")
    (Some (CosSection t (Z.of_nat (length peers23) + 1) (lit "tcp://a:2222") peers23 (lit "1500ms")))
    [lit "tcp://n:1234"]) with (cfg_of (lit "chain") t 3 peers23).
  assert (E5 : validate_cosigner wlib (cfg_of (lit "chain") t 3 peers23) = None).
  { unfold validate_cosigner, cfg_of. cbn [cf_chain cf_cosigner co_peers co_threshold].
    destruct (lit "chain") eqn:Ec; [vm_compute in Ec; discriminate|].
    assert (Et : (Z.of_nat (length peers23) + 1 <? t) = false) by (apply Z.ltb_ge; simpl; lia).
    rewrite Et. vm_compute. reflexivity. }
  rewrite E5. reflexivity.
Qed.

(** C48: removing a peer below the threshold *)
Lemma remove_below_threshold :
  accepted wlib (cfg_of (lit "chain") 3 3 peers23) /\
  run_cmd wlib (cfg_of (lit "chain") 3 3 peers23) (PeersRemove (lit "2"))
    = Val (cfg_of (lit "chain") 3 3 [CPeer 3 (lit "tcp://c:2222")]) /\
  ~ accepted wlib (cfg_of (lit "chain") 3 3 [CPeer 3 (lit "tcp://c:2222")]).
Proof.
  split; [vm_compute; reflexivity|]. split; [vm_compute; reflexivity|].
  unfold accepted. vm_compute. discriminate.
Qed.

(** C52: shares 5, peers 4 and 5, local ID 1: accepted, but only three slots *)
Definition wide : config :=
  cfg_of (lit "chain") 2 5 [CPeer 4 (lit "tcp://d:2222"); CPeer 5 (lit "tcp://e:2222")].
Definition wide_key : cosigner_key :=
  CKey 1 (toy_enc 5) (toy_enc 77) [x01] [x01] [[x01]; [x02]; [x03]; [x04]; [x05]].
Definition wide_run : running :=
  match start_cosigner wlib wide wide_key with
  | Some r => r | None => Running wcfg1 vcfg end.
(** a part authenticated by cosigner 4 *)
Definition part4 : part :=
  let p := Payload 4 (toy_enc 9) ([x01] ++ toy_enc 8) in
  Part 4 1 (pl_eph p) (pl_enc p) (Some (toy_mac [x04] p)).
Definition wide_ops : list vop :=
  [VCall 7 (eblock 11 x0a 1) RLeader; VInit 7; VParts 7 1 (Some []); VOwn 7 (Some []); VGo 7;
   VAsk 7 1 [(1%nat, []); (0%nat, [])]].
Lemma wide_panics :
  accepted wlib wide /\ start_cosigner wlib wide wide_key = Some wide_run /\
  cstep toy (ru_cos wide_run) wst0 (OpSet (wkey 11 1) part4 (Some (toy_enc 3, toy_enc 4))) = None /\
  exists st l, vrun toy (ru_val wide_run) v0 l st /\
    vstep toy (ru_val wide_run) st (VSig 7 1 (Some (toy_enc 1, toy_enc 2))) = VCrash.
Proof.
  split; [vm_compute; reflexivity|].
  split. { unfold wide_run. destruct (start_cosigner wlib wide wide_key) eqn:E; [done|].
           vm_compute in E. discriminate. }
  split; [vm_compute; reflexivity|].
  assert (E : exists st l, vrun_ops toy (ru_val wide_run) v0 wide_ops = Some (st, l) /\
     vstep toy (ru_val wide_run) st (VSig 7 1 (Some (toy_enc 1, toy_enc 2))) = VCrash).
  { destruct (vrun_ops toy (ru_val wide_run) v0 wide_ops) as [[st l]|] eqn:E;
      [|vm_compute in E; discriminate].
    exists st, l. split; [done|].
    assert (H : match vrun_ops toy (ru_val wide_run) v0 wide_ops with
      | Some (s, _) => vstep toy (ru_val wide_run) s (VSig 7 1 (Some (toy_enc 1, toy_enc 2)))
      | None => VNo end = VCrash) by (vm_compute; reflexivity).
    rewrite E in H. done. }
  destruct E as (st & l & E & H). exists st, l. split; [by eapply vrun_ops_vrun|done].
Qed.

Lemma toy_deals : deals toy.
Proof. intros s r t n. simpl. unfold toy_deal. rewrite map_length. apply seq_length. Qed.

(** the ordinary 2-of-3 configuration meets the condition *)
Definition key1 : cosigner_key := CKey 1 (toy_enc 5) (toy_enc 77) [x01] [x01] [[x01]; [x02]; [x03]].
Lemma narrow_ok :
  accepted wlib (cfg_of (lit "chain") 2 3 peers23) /\
  one_per_share (cfg_of (lit "chain") 2 3 peers23) key1 /\
  exists r, start_cosigner wlib (cfg_of (lit "chain") 2 3 peers23) key1 = Some r.
Proof.
  split; [vm_compute; reflexivity|].
  split. { eexists. split; [reflexivity|]. simpl. lia. }
  destruct (start_cosigner wlib (cfg_of (lit "chain") 2 3 peers23) key1) eqn:E; [eauto|].
  vm_compute in E. discriminate.
Qed.

(** C51, C63: two chains with state files in one home directory *)
Definition file_at (h : Z) : bytes := marshal_state (FR h 0 3 None None None).
Definition two_chains : home :=
  Home (Some (cfg_of (lit "a") 2 3 peers23))
    {[pv_path (lit "a") := file_at 5; share_path (lit "a") := file_at 5;
      pv_path (lit "b") := file_at 100; share_path (lit "b") := file_at 100]}.
Definition moved (h : home) (old new : bytes) : home :=
  match rename (pv_path old) (pv_path new) h with
  | None => h
  | Some h1 => match rename (share_path old) (share_path new) h1 with
               | None => h
               | Some h2 => Home (Some (cfg_of new 2 3 peers23)) (hm_files h2)
               end
  end.
Lemma moved_set_chain h old new : hm_config h = Some (cfg_of old 2 3 peers23) ->
  (forall h1, rename (pv_path old) (pv_path new) h = Some h1 ->
     rename (share_path old) (share_path new) h1 <> None) ->
  rename (pv_path old) (pv_path new) h <> None ->
  set_chain (cfg_of old 2 3 peers23) new h (moved h old new).
Proof.
  intros Hc H2 H1. unfold moved.
  destruct (rename (pv_path old) (pv_path new) h) as [h1|] eqn:E1; [|done].
  destruct (rename (share_path old) (share_path new) h1) as [h2|] eqn:E2; [|by apply H2 in E2].
  apply (sc_done (cfg_of old 2 3 peers23) new h h1 h2); done.
Qed.
Lemma overwritten_watermark :
  set_chain (cfg_of (lit "a") 2 3 peers23) (lit "b") two_chains (moved two_chains (lit "a") (lit "b")) /\
  watermark (hm_files two_chains !! share_path (lit "b")) = Some (HRS 100 0 3) /\
  watermark (hm_files (moved two_chains (lit "a") (lit "b")) !! share_path (lit "b")) = Some (HRS 5 0 3) /\
  start_share wlib (moved two_chains (lit "a") (lit "b")) <> None.
Proof.
  split.
  { apply moved_set_chain; [done|..].
    - intros h1 H Hn. unfold rename in Hn. destruct (hm_files h1 !! share_path (lit "a")) eqn:E; [done|].
      apply (rename_lookup _ _ _ _ (share_path (lit "a"))) in H as (_ & _ & H).
      rewrite H in E. vm_compute in E. discriminate.
    - vm_compute. discriminate. }
  split; [vm_compute; reflexivity|]. split; [vm_compute; reflexivity|].
  vm_compute. discriminate.
Qed.

(** C60: the files before and after *)
Definition f5 : file := Some (file_at 5).
Lemma state_set_runs :
  match state_set false HomeDefault f5 f5 (lit "9") with
  | inr (Some j1, Some j2) => watermark (Some j1) = Some (HRS 9 0 0) /\ j2 = j1
  | _ => False
  end.
Proof. vm_compute. split; reflexivity. Qed.
Lemma state_set_lost : exists j1 j2,
  state_set false HomeDefault f5 f5 (lit "9") = inr (j1, j2) /\
  watermark (after_write f5 j1 false) = Some (HRS 5 0 3) /\
  watermark (after_write f5 j2 false) = Some (HRS 5 0 3).
Proof.
  pose proof state_set_runs as H.
  destruct (state_set false HomeDefault f5 f5 (lit "9")) as [|[[j1|] [j2|]]]; try done.
  exists (Some j1), (Some j2). split; [done|]. split; vm_compute; reflexivity.
Qed.
