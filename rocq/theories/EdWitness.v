(** A cluster of three with real Ed25519 and RSA keys, for the theorems of PropsEd.v. *)
From Coq Require Import Strings.String.
From Verif Require Import GoBase Wire Canonical CanonicalApi SignState Spec Crypto Toy LocalCosigner Json Poly Scheme
  RoundSpec Disk Validator ValidatorWitness CosignerWitness Config ConfigSpec ConfigProofs ConfigWitness KeyFile KeyFileSpec KeyFileProofs KeyShares KeySharesSpec
  KeySharesProofs ThresholdWitness System SystemSpec SystemLiveSpec SystemLiveWitness Startup StartupSpec Machine MachineSpec MachineProofs
  MachineWitness Rsa RsaSpec Ed25519 EdBytes EdScheme EdSpec EdSpecProofs.
Local Open Scope list_scope.
Local Open Scope Z_scope.
Local Opaque ed_p ed_l ed_d ed_i ed_bx ed_by.

Lemma ed_deals H C Hr text : deals (with_rsa (with_ed H C) Hr text).
Proof. intros s r t n. cbn [cr_deal with_rsa with_ed]. unfold ed_deal. by rewrite map_length, seq_length. Qed.
Lemma ed_base_length s : length (ed_base s) = 32%nat.
Proof. unfold ed_base, ge_bytes. apply le_enc_length. Qed.

Section Cluster.
Context (C : Crypto) (HC : deals C) (expand : bytes -> bytes) (rnd : bytes) (gens : nat -> option (bytes * bytes)).
Context (Hgens : forall i, is_Some (gens i)) (pub sk : bytes) (Hpub : length pub = 32%nat) (Hsk : (32 <= length sk)%nat).
(** the plan [wplan] works with any keys *)
Lemma any_cluster : exists l r h,
  create_cmd C expand rnd gens (fun _ => true) (Some (Some (PVKey (Some pub) (Some sk)))) [lit "k.json"; lit "2"; lit "3"] = Val (l, None) /\
  (forall i, 1 <= i <= 3 -> started wlib wkl wdflt wplan l i (r i) (h i)) /\
  forall i, 1 <= i <= 3 -> ru_val (r i) = VConf 2 pub i (filter (fun j => j <> i) (seqZ 1 3)).
Proof.
  destruct (create_some C expand rnd gens (PVKey (Some pub) (Some sk)) sk 2 3) as [ks Hks]; [done|done|done|].
  set (l := map (fun k => (Config.ck_id k, k)) ks).
  assert (Hcmd : create_cmd C expand rnd gens (fun _ => true) (Some (Some (PVKey (Some pub) (Some sk)))) [lit "k.json"; lit "2"; lit "3"] = Val (l, None)).
  { unfold create_cmd. change (go_atoi (lit "2")) with (Some 2). change (go_atoi (lit "3")) with (Some 3). cbv iota beta.
    rewrite Hks. by rewrite write_all. }
  assert (Hset : key_set pub 3 ks) by (apply (create_key_set _ _ _ _ _ _ _ _ HC Hks); lia).
  assert (Hone : forall i, 1 <= i <= 3 -> exists r h, started wlib wkl wdflt wplan l i r h /\
    ru_val r = VConf 2 pub i (filter (fun j => j <> i) (seqZ 1 3))).
  { intros i Hi. destruct (lookup_lt_is_Some_2 ks (Z.to_nat (i - 1))) as [k Hk]; [destruct Hset; lia|].
    assert (Hid : Config.ck_id k = i) by (destruct Hset as [_ Hks']; destruct (Hks' _ _ Hk) as (-> & _); lia).
    assert (Hin : (i, k) ∈ l).
    { apply elem_of_list_fmap. exists k. rewrite Hid. split; [done|]. by eapply elem_of_list_lookup_2. }
    destruct (set_key expand gens wlib wplan wplan_ok pub sk Hpub ks i k Hset Hin) as (_ & _ & Hp & Hlen & Hok).
    destruct (key_round_trip wkl (file_key k) wkl_codec Hok) as (text & Htext & _).
    destruct (init_fresh wlib wdflt wplan wplan_ok i wempty Hi (wfresh i)) as (m1 & Hm1 & _).
    destruct zero_loaded as (s0 & Hs0 & _).
    epose proof (start_installed wlib wkl wdflt wplan wkl_codec wplan_ok i k text wempty _ s0 Hi (wfresh i) Hok Htext (ex_intro _ m1 (conj Hm1 eq_refl)) Hs0) as Hst.
    destruct (plan_runs wlib wplan wplan_ok i k Hi Hlen) as [r Hr]. rewrite Hr in Hst. destruct Hst as [m' Hst].
    exists r, (host_of s0). split.
    - exists text, wempty. eexists. exists m'. split; [exists k; split; [done|exact Htext]|]. split; [apply wfresh|].
      split; [|exact Hst]. exists m1. split; [exact Hm1|reflexivity].
    - unfold running_of in Hr. destruct (peer_keys _ _ _); [|discriminate]. injection Hr as <-. cbn [ru_val]. rewrite Hp, Hid. f_equal.
      assert (Hc : i = 1 \/ i = 2 \/ i = 3) by lia. destruct Hc as [-> |[-> | ->]]; reflexivity. }
  destruct (Hone 1 ltac:(lia)) as (r1 & h1 & S1 & V1). destruct (Hone 2 ltac:(lia)) as (r2 & h2 & S2 & V2).
  destruct (Hone 3 ltac:(lia)) as (r3 & h3 & S3 & V3).
  exists l, (fun i => if i =? 1 then r1 else if i =? 2 then r2 else r3), (fun i => if i =? 1 then h1 else if i =? 2 then h2 else h3).
  split; [exact Hcmd|].
  split; intros i Hi; (assert (Hc : i = 1 \/ i = 2 \/ i = 3) by lia); destruct Hc as [-> |[-> | ->]]; cbn [Z.eqb Pos.eqb]; assumption.
Qed.
End Cluster.
Lemma any_jobs pub R (K : sysconf) : (forall b, length b = 32%nat -> rd_is_scalar R b) ->
  (forall i, 1 <= i <= 3 -> sc_val K i = VConf 2 pub i (filter (fun j => j <> i) (seqZ 1 3))) -> Forall (job_ok R 3 K) wjobs.
Proof.
  intros HR HK. assert (Hasks : asks_all R 3 worder).
  { destruct wasks as [H1 H2]. split; [exact H1|]. intros x Hx. destruct (H2 x Hx) as (s & r & Hd & Hs). exists s, r. split; [exact Hd|]. by apply HR. }
  eapply List.Forall_impl; [|exact wjobs_ok]. intros j (H1 & H2 & H3 & H4 & H5). split; [exact H1|]. split; [exact H2|].
  assert (Hq : quorum (sc_val K (jb_leader j)) (jb_peers j)).
  { rewrite HK by exact H2. assert (Hk : sc_val kw (jb_leader j) = VConf 2 (toy_enc 77) (jb_leader j) (filter (fun k => k <> jb_leader j) (seqZ 1 3))).
    { assert (Hc : jb_leader j = 1 \/ jb_leader j = 2 \/ jb_leader j = 3) by lia. destruct Hc as [-> |[-> | ->]]; reflexivity. }
    rewrite Hk in H3. exact H3. }
  split; [exact Hq|]. split; [|exact H5]. intros i Hi.
  destruct (H4 i) as [Ha Hb].
  { unfold participants in *. rewrite HK in Hi by exact H2.
    assert (Hk : sc_val kw (jb_leader j) = VConf 2 (toy_enc 77) (jb_leader j) (filter (fun k => k <> jb_leader j) (seqZ 1 3))).
    { assert (Hc : jb_leader j = 1 \/ jb_leader j = 2 \/ jb_leader j = 3) by lia. destruct Hc as [-> |[-> | ->]]; reflexivity. }
    rewrite Hk. exact Hi. }
  split; [exact Ha|]. intros x Hx. destruct (Hb x Hx) as (s & r & Hd & Hs). exists s, r. split; [exact Hd|]. by apply HR.
Qed.
