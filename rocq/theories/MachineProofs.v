(** Proofs about commands on machines. *)
From Coq Require Import Strings.String.
From Verif Require Import GoBase Canonical SignState Spec Crypto LocalCosigner Json Disk DiskSpec DiskProofs Validator
  Config ConfigSpec ConfigProofs ConfigProofs2 Privval KeyFile KeyFileSpec KeyFileProofs KeyShares KeySharesSpec KeySharesProofs
  Scheme RoundSpec Raft RaftSpec System SystemSpec SystemProofs SystemLiveSpec SystemLive Startup StartupSpec StartupProofs Machine MachineSpec.
Local Open Scope Z_scope.

(** ** Setting up *)

Definition text0 : bytes := marshal_state (rec_of zero_state).
Lemma zero_loaded : exists s, load (Some text0) = Some s /\ ss_hrs s = HRS 0 0 0 /\ no_signatures s.
Proof.
  destruct (load_after_save zero_state) as (s & Hs & H1 & H2 & H3 & H4 & H5).
  { split; [|split]; simpl; unfold in_int64, in_int8; lia. }
  exists s. split; [exact Hs|]. split; [exact H1|]. split; [exact H3|].
  intros k c. rewrite H5. destruct (decide _) as [-> |]; [|discriminate]. intros [= <-]. done.
Qed.
Definition host_of (s : sign_state) : host :=
  Host (new_validator s) (Some text0) [] (CNode (new_cosigner s) (Some text0) []) 0.

Lemma key_file_key k : key_of_file (file_key k) = k.
Proof. by destruct k. Qed.

Lemma peer_keys_some keys l m : (forall p, p ∈ l -> 1 <= pe_id p <= Z.of_nat (length keys)) -> is_Some (peer_keys keys l m).
Proof.
  revert m. induction l as [|p l IH]; intros m H; [by eexists|]. simpl.
  assert (Hp := H p ltac:(by left)).
  destruct (_ || _) eqn:E; [apply orb_true_iff in E as [E|E]; apply Z.ltb_lt in E; lia|].
  unfold idx. destruct (pe_id p - 1 <? 0) eqn:E2; [apply Z.ltb_lt in E2; lia|].
  destruct (lookup_lt_is_Some_2 keys (Z.to_nat (pe_id p - 1))) as [pk Hpk]; [lia|]. rewrite Hpk. apply IH.
  intros q Hq. apply H. by right.
Qed.

Section Plan.
Context (L : Lib) (KL : KeyLib (bytes * bytes) bytes) (dflt : bytes) (P : plan).
Context (HL : codec KL) (HP : plan_ok L P).

Definition plan_peers (i : Z) : list cpeer := map (fun j => CPeer j (pl_url P j)) (pl_peers P i).
Definition plan_section (i : Z) : cosigner_section :=
  CosSection (pl_t P) (Z.of_nat (length (plan_peers i)) + 1) (pl_url P i) (plan_peers i) (pl_timeout P i).
Definition plan_nodes (i : Z) : list bytes := match pl_nodes P i with None => [] | Some a => split ","%byte a end.
Definition plan_config (i : Z) : config := Config (pl_chain P) (Some (plan_section i)) (plan_nodes i).

Lemma plan_ids i : map pe_id (plan_peers i) = pl_peers P i.
Proof. unfold plan_peers. rewrite map_map. simpl. apply map_id. Qed.
Lemma plan_len i : 1 <= i <= pl_n P -> Z.of_nat (length (plan_peers i)) + 1 = pl_n P.
Proof.
  intros Hi. destruct HP as (Hn & _ & _ & H). destruct (H i Hi) as (Hp & _).
  apply Permutation_length in Hp. rewrite seqZ_length in Hp. simpl in Hp. unfold plan_peers. rewrite map_length. lia.
Qed.
Lemma plan_range i j : 1 <= i <= pl_n P -> j ∈ pl_peers P i -> 1 <= j <= pl_n P.
Proof.
  intros Hi Hj. destruct HP as (Hn & _ & _ & H). destruct (H i Hi) as (Hp & _).
  assert (Hx : j ∈ seqZ 1 (pl_n P)) by (rewrite <- Hp; by right). apply elem_of_seqZ in Hx. lia.
Qed.
Lemma plan_nodup i : 1 <= i <= pl_n P -> NoDup (i :: pl_peers P i).
Proof.
  intros Hi. destruct HP as (Hn & _ & _ & H). destruct (H i Hi) as (Hp & _). rewrite Hp. apply NoDup_seqZ.
Qed.
Lemma plan_nodes_ok i : 1 <= i <= pl_n P -> init_nodes L (pl_nodes P i) = inr (plan_nodes i) /\ validate_nodes L (plan_nodes i) = None.
Proof.
  intros Hi. destruct HP as (Hn & _ & _ & H). destruct (H i Hi) as (_ & _ & _ & _ & _ & _ & Ha).
  unfold plan_nodes. destruct (pl_nodes P i) as [a|]; [|done]. simpl. unfold nodes_from_arg.
  assert (E : validate_nodes L (split ","%byte a) = None) by (apply nodes_iff, Ha; done). by rewrite E.
Qed.
Lemma plan_accepted i : 1 <= i <= pl_n P -> validate_cosigner L (plan_config i) = None.
Proof.
  intros Hi. pose proof (plan_len i Hi) as Hl. pose proof (plan_nodup i Hi) as Hd. destruct (plan_nodes_ok i Hi) as [_ Hno].
  pose proof (fun j => plan_range i j Hi) as Hr.
  destruct HP as (Hn & Ht & Hc & H). destruct (H i Hi) as (Hp & Hpl & Hne & Hu & Hh & Hdu & _).
  apply accepted_iff. split.
  - split; [done|]. split; [by apply nodes_iff|]. exists (plan_section i). split; [done|]. split; [done|]. split; [done|].
    cbn [plan_section co_peers co_shares]. rewrite plan_ids. apply list.NoDup_cons in Hd as [_ Hd]. split; [done|].
    split; [|lia]. intros p Hpp. rewrite Hl. apply Hr. rewrite <- plan_ids. by apply elem_of_list_fmap_1.
  - exists (plan_section i). split; [done|]. cbn [plan_section co_peers co_threshold]. lia.
Qed.
Lemma plan_init i : 1 <= i <= pl_n P -> config_init L (pl_chain P) (pl_nodes P i) (Some (plan_flags P i)) = inr (plan_config i).
Proof.
  intros Hi. pose proof (plan_accepted i Hi) as Hacc. pose proof (plan_len i Hi) as Hl. destruct (plan_nodes_ok i Hi) as [Hno _].
  pose proof (fun j => plan_range i j Hi) as Hr.
  destruct HP as (Hn & Ht & Hc & H). destruct (H i Hi) as (Hp & Hpl & Hne & Hu & (ho & Hh & Hz) & Hdu & _).
  unfold config_init. rewrite Hno. cbn [plan_flags if_peers if_listen if_threshold if_timeout].
  assert (Epeers : peers_from_flag (render (plan_peers i)) = inr (plan_peers i)).
  { apply parse_render.
    - intros E. rewrite E in Hl. simpl in Hl. lia.
    - intros p Hpp. apply elem_of_list_fmap in Hpp as (j & -> & Hj). apply Hr in Hj. simpl.
      destruct (H j Hj) as (_ & Hx & _). split; [exact Hx|]. unfold in_int64. change (2 ^ 63) with 9223372036854775808. lia. }
  fold (plan_peers i). rewrite Epeers. destruct (pl_url P i) as [|b u] eqn:Eu; [done|].
  rewrite Hu, Hh. cbn [negb].
  assert (Ez : bytes_equal ho localhost_any = false).
  { unfold bytes_equal. apply bool_decide_eq_false. intros ->. apply Hz. reflexivity. }
  rewrite Ez. cbv zeta. unfold plan_config, plan_section in Hacc |- *. rewrite Eu in Hacc |- *. by rewrite Hacc.
Qed.

Definition plan_yaml (i : Z) : yaml := Yaml (home_of dflt (pl_flag P i)) (pl_key P i) (plan_config i).

Lemma init_fresh i m0 : 1 <= i <= pl_n P -> fresh dflt P i m0 ->
  exists m1, init_cmd L dflt m0 (pl_flag P i) false (pl_chain P) (pl_nodes P i) (Some (plan_flags P i)) (pl_key P i) = Val m1 /\
    ma_yaml m1 !! home_of dflt (pl_flag P i) = Some (Some (plan_yaml i)) /\
    ma_state m1 !! pv_file (plan_yaml i) = Some text0 /\ ma_state m1 !! share_file (plan_yaml i) = Some text0.
Proof.
  intros Hi (Hy & Hpv & Hsh). eexists. unfold init_cmd. destruct (plan_nodes_ok i Hi) as [-> _].
  rewrite bool_decide_eq_false_2 by (rewrite Hy; by intros [? ?]). cbn [andb]. rewrite plan_init by done.
  split; [reflexivity|]. fold (plan_yaml i).
  set (m1 := put_yaml _ _ _). cbn [put_state ma_yaml ma_state].
  assert (Hpv1 : ma_state m1 !! pv_file (plan_yaml i) = None) by exact Hpv.
  assert (Hsh1 : ma_state m1 !! share_file (plan_yaml i) = None) by exact Hsh.
  rewrite Hpv1. change (snd (load_or_create None)) with (Some text0).
  assert (Hne : pv_file (plan_yaml i) <> share_file (plan_yaml i)).
  { intros [= E]. revert E. unfold plan_yaml. cbn [ya_cfg]. apply pv_share_ne. }
  cbn [ma_state put_state]. rewrite lookup_insert_ne by done. rewrite Hsh1. change (snd (load_or_create None)) with (Some text0).
  split; [apply lookup_insert|]. rewrite lookup_insert_ne by done. split; [apply lookup_insert|]. apply lookup_insert.
Qed.

Lemma start_installed i k text m0 m s0 : 1 <= i <= pl_n P -> fresh dflt P i m0 ->
  key_ok (file_key k) -> marshal_key KL (file_key k) = Some text ->
  installs L dflt P i text m0 m -> load (Some text0) = Some s0 ->
  match running_of (plan_section i) k with
  | Some r => exists m', start_cmd L KL dflt m (pl_flag P i) = Val (r, host_of s0, m')
  | None => start_cmd L KL dflt m (pl_flag P i) = Fail EFatal
  end.
Proof.
  intros Hi Hf Hk Htext (m1 & Hm1 & ->) Hs0. destruct (init_fresh i m0 Hi Hf) as (m1' & Hm1' & Hy & Hpv & Hsh).
  rewrite Hm1 in Hm1'. injection Hm1' as <-.
  assert (Hload : load_key KL (Some text) = Val (file_key k)).
  { destruct (key_round_trip KL (file_key k) HL Hk) as (t & Ht & Hl). rewrite Htext in Ht. by injection Ht as <-. }
  assert (E : start_cmd L KL dflt (put_key m1 (key_path (plan_yaml i)) text) (pl_flag P i) =
    match running_of (plan_section i) k with
    | Some r => Val (r, host_of s0, put_state (put_key m1 (key_path (plan_yaml i)) text) (pv_file (plan_yaml i)) (Some text0))
    | None => Fail EFatal
    end).
  { unfold start_cmd, config_at. cbn [put_key ma_yaml ma_state ma_key]. rewrite Hy.
    change (ya_cfg (plan_yaml i)) with (plan_config i). rewrite plan_accepted by done.
    change (cf_cosigner (plan_config i)) with (Some (plan_section i)). cbv iota beta.
    rewrite lookup_insert, Hload, Hpv, Hsh. unfold load_or_create. rewrite Hs0, key_file_key.
    destruct (running_of (plan_section i) k); reflexivity. }
  assert (Ep : match pl_key P i with [] => home_of dflt (pl_flag P i) ++ lit "/share.json" | p => p end = key_path (plan_yaml i)).
  { unfold key_path, plan_yaml. cbn [ya_key ya_home]. by destruct (pl_key P i). }
  rewrite <- Ep in E. destruct (running_of (plan_section i) k); [eexists|]; exact E.
Qed.

Lemma plan_runs i k : 1 <= i <= pl_n P -> Z.of_nat (length (Config.ck_keys k)) = pl_n P ->
  is_Some (running_of (plan_section i) k).
Proof.
  intros Hi Hk. unfold running_of.
  destruct (peer_keys_some (Config.ck_keys k) (co_peers (plan_section i)) {[Config.ck_id k := Config.ck_rsa_pub k]}) as [x Hx].
  - intros p Hp. rewrite Hk. apply (plan_range i); [done|]. rewrite <- plan_ids. by apply elem_of_list_fmap_1.
  - rewrite Hx. by eexists.
Qed.
Lemma plan_written i text m0 m : 1 <= i <= pl_n P -> fresh dflt P i m0 -> installs L dflt P i text m0 m ->
  config_at dflt m (pl_flag P i) = Some (plan_yaml i).
Proof.
  intros Hi Hf (m1 & Hm1 & ->). destruct (init_fresh i m0 Hi Hf) as (m1' & Hm1' & Hy & _).
  rewrite Hm1 in Hm1'. injection Hm1' as <-. unfold config_at. cbn [put_key ma_yaml]. by rewrite Hy.
Qed.
Lemma plan_follows host i k : 1 <= i <= pl_n P -> Config.ck_id k = i ->
  follows host (seqZ 1 (pl_n P)) (pl_url P) i (plan_section i) k.
Proof.
  intros Hi Hk. split; [done|]. split; [done|]. cbn [plan_section co_peers]. unfold plan_peers.
  apply Permutation_map. pose proof (plan_nodup i Hi) as Hd. apply list.NoDup_cons in Hd as [Hni _].
  destruct HP as (_ & _ & _ & H). destruct (H i Hi) as (Hp & _). rewrite <- Hp.
  rewrite filter_cons_False by (intros Hx; by apply Hx). clear -Hni. induction (pl_peers P i) as [|j l IH]; [done|].
  apply not_elem_of_cons in Hni as [Hne Hni]. rewrite filter_cons_True by congruence. by constructor; apply IH.
Qed.
End Plan.

(** ** The cluster *)

Section Cluster.
Context (C : Crypto) (R : reading) (HC : deals C) (expand : bytes -> bytes) (rnd : bytes) (gens : nat -> option (bytes * bytes)).
Context (L : Lib) (KL : KeyLib (bytes * bytes) bytes) (dflt : bytes) (P : plan) (HL : codec KL) (HP : plan_ok L P).
Context (pub sk f ta na : bytes) (Hpub : length pub = 32%nat) (Hta : decimal ta (pl_t P)) (Hna : decimal na (pl_n P)).
Let args := [f; ta; na].
Let key := Some (Some (PVKey (Some pub) (Some sk))).

Lemma decimal_unique s z1 z2 : in_int64 z1 -> in_int64 z2 -> decimal s z1 -> decimal s z2 -> z1 = z2.
Proof.
  intros I1 I2 H1 H2. assert (E1 : go_atoi s = Some z1) by (by apply atoi_iff).
  assert (E2 : go_atoi s = Some z2) by (by apply atoi_iff). congruence.
Qed.

Lemma created wr l : create_cmd C expand rnd gens wr key args = Val (l, None) ->
  exists ks, create_shares C expand rnd gens (PVKey (Some pub) (Some sk)) (pl_t P) (pl_n P) = Val ks /\
    l = map (fun k => (Config.ck_id k, k)) ks /\ key_set pub (pl_n P) ks.
Proof.
  intros H. destruct HP as (Hn & Ht & _).
  assert (Ht' : go_atoi ta = Some (pl_t P)).
  { apply atoi_iff. split; [done|]. unfold in_int64. change (2 ^ 63) with 9223372036854775808. lia. }
  assert (Hn' : go_atoi na = Some (pl_n P)).
  { apply atoi_iff. split; [done|]. unfold in_int64. change (2 ^ 63) with 9223372036854775808. lia. }
  unfold create_cmd, args, key in H. rewrite Ht', Hn' in H.
  destruct (create_shares C expand rnd gens _ (pl_t P) (pl_n P)) as [ks| |] eqn:E; [|discriminate|discriminate].
  injection H as H. apply write_ok in H. exists ks. split; [done|]. split; [done|].
  apply (create_key_set _ _ _ _ _ _ _ _ HC E). lia.
Qed.

Lemma set_key ks i k : key_set pub (pl_n P) ks -> (i, k) ∈ map (fun k => (Config.ck_id k, k)) ks ->
  ks !! Z.to_nat (i - 1) = Some k /\ Config.ck_id k = i /\ Config.ck_pub k = pub /\
  Z.of_nat (length (Config.ck_keys k)) = pl_n P /\ key_ok (file_key k).
Proof.
  intros [Hl Hk] Hin. apply elem_of_list_fmap in Hin as (k' & [= -> <-] & Hin).
  apply elem_of_list_lookup in Hin as (x & Hx). pose proof (lookup_lt_Some _ _ _ Hx) as Hlt.
  destruct (Hk x k Hx) as (Hid & Hp & Hlen & _). split; [rewrite Hid; replace (Z.to_nat (_ - 1)) with x by lia; done|].
  split; [done|]. split; [done|]. split; [done|]. split; cbn; [by rewrite Hp|]. rewrite Hid. destruct HP as (Hn & _).
  unfold in_int64. change (2 ^ 63) with 9223372036854775808. lia.
Qed.

Lemma share_texts ks i : key_set pub (pl_n P) ks -> 1 <= i <= pl_n P ->
  exists text, share_text KL (map (fun k => (Config.ck_id k, k)) ks) i text.
Proof.
  intros Hks Hi. destruct (lookup_lt_is_Some_2 ks (Z.to_nat (i - 1))) as [k Hk]; [destruct Hks; lia|].
  assert (Hin : (i, k) ∈ map (fun k => (Config.ck_id k, k)) ks).
  { apply elem_of_list_fmap. exists k. split; [|by eapply elem_of_list_lookup_2].
    destruct Hks as [_ Hks]. destruct (Hks _ _ Hk) as (-> & _). f_equal. lia. }
  destruct (set_key ks i k Hks Hin) as (_ & _ & _ & _ & Hok).
  destruct (key_round_trip KL (file_key k) HL Hok) as (t & Ht & _). exists t, k. done.
Qed.

(** every command succeeds *)
Lemma commands_succeed : (32 <= length sk)%nat -> (forall i, is_Some (gens i)) ->
  exists l, create_cmd C expand rnd gens (fun _ => true) key args = Val (l, None) /\
    map fst l = seqZ 1 (pl_n P) /\
    forall i, 1 <= i <= pl_n P -> exists text, share_text KL l i text /\
      forall m0, fresh dflt P i m0 -> exists m, installs L dflt P i text m0 m /\
        exists r h m', start_cmd L KL dflt m (pl_flag P i) = Val (r, h, m').
Proof.
  intros Hsk Hg. destruct HP as (Hn & Ht & _).
  assert (Ht' : go_atoi ta = Some (pl_t P)).
  { apply atoi_iff. split; [done|]. unfold in_int64. change (2 ^ 63) with 9223372036854775808. lia. }
  assert (Hn' : go_atoi na = Some (pl_n P)).
  { apply atoi_iff. split; [done|]. unfold in_int64. change (2 ^ 63) with 9223372036854775808. lia. }
  destruct (create_some C expand rnd gens (PVKey (Some pub) (Some sk)) sk (pl_t P) (pl_n P)) as [ks Hks]; [done|done|done|].
  assert (Hcmd : create_cmd C expand rnd gens (fun _ => true) key args = Val (map (fun k => (Config.ck_id k, k)) ks, None)).
  { unfold create_cmd, args, key. rewrite Ht', Hn', Hks. by rewrite write_all. }
  eexists. split; [exact Hcmd|].
  destruct (cmd_ok _ _ _ _ _ _ _ _ HC Hcmd) as (f' & ta' & na' & t' & n' & pv & ks' & E & Hd1 & Hd2 & I1 & I2 & _ & _ & _ & Hids).
  injection E as <- <- <-. assert (n' = pl_n P) as ->.
  { apply (decimal_unique na); [done| |done|done]. unfold in_int64. change (2 ^ 63) with 9223372036854775808. lia. }
  rewrite Z.mod_small in Hids by lia. split; [exact Hids|].
  pose proof (create_key_set _ _ _ _ _ _ _ _ HC Hks ltac:(lia)) as Hset. cbn [slice_of pv_pub] in Hset.
  intros i Hi. destruct (share_texts ks i Hset Hi) as (text & k & Hin & Htext). exists text. split; [by exists k|].
  intros m0 Hf. destruct (init_fresh L dflt P HP i m0 Hi Hf) as (m1 & Hm1 & _).
  eexists. split; [exists m1; split; [exact Hm1|reflexivity]|].
  destruct (set_key ks i k Hset Hin) as (_ & _ & _ & Hlen & Hok). destruct zero_loaded as (s0 & Hs0 & _).
  epose proof (start_installed L KL dflt P HL HP i k text m0 _ s0 Hi Hf Hok Htext (ex_intro _ m1 (conj Hm1 eq_refl)) Hs0) as Hst.
  destruct (plan_runs L P HP i k Hi Hlen) as [r Hr]. rewrite Hr in Hst. destruct Hst as [m' Hst]. exists r, (host_of s0), m'. exact Hst.
Qed.

Context (Hg : rsa_works C R gens) (Hkp : key_pair R (expand (take 32 sk)) pub).
Context (wr : Z -> bool) (l : list (Z * Config.cosigner_key)).
Context (Hcmd : create_cmd C expand rnd gens wr key args = Val (l, None)).
Context (r : Z -> running) (h : Z -> host) (Hst : forall i, 1 <= i <= pl_n P -> started L KL dflt P l i (r i) (h i)).
Let K := SysConf (fun i => ru_val (r i)) (fun i => ru_cos (r i)).
Let S0 := cluster P h.

Lemma started_facts : exists s0 ks, ss_hrs s0 = HRS 0 0 0 /\ no_signatures s0 /\
  create_shares C expand rnd gens (PVKey (Some pub) (Some sk)) (pl_t P) (pl_n P) = Val ks /\
  forall i, 1 <= i <= pl_n P -> h i = host_of s0 /\ runs_as L ks (pl_n P) (pl_t P) i (plan_config P i) (r i) /\
    vc_id (ru_val (r i)) = i /\ vc_threshold (ru_val (r i)) = pl_t P /\ vc_pub (ru_val (r i)) = pub /\
    vc_peers (ru_val (r i)) = pl_peers P i.
Proof.
  destruct (created _ _ Hcmd) as (ks & Hks & El & Hset). destruct zero_loaded as (s0 & Hs0 & H0 & Hns).
  exists s0, ks. split; [done|]. split; [done|]. split; [done|]. intros i Hi.
  destruct (Hst i Hi) as (text & m0 & m & m' & (k & Hin & Htext) & Hf & Hins & Hstart). rewrite El in Hin.
  destruct (set_key ks i k Hset Hin) as (Hlook & Hid & Hpb & Hlen & Hok).
  pose proof (start_installed L KL dflt P HL HP i k text m0 m s0 Hi Hf Hok Htext Hins Hs0) as Hx.
  destruct (running_of (plan_section P i) k) as [r'|] eqn:Er; [|congruence].
  destruct Hx as [m2 Hx]. rewrite Hstart in Hx. injection Hx as -> -> _. split; [done|].
  destruct HP as (Hn & Ht & Hc & H). destruct (H i Hi) as (Hp & _). split.
  - exists (plan_section P i), k. split; [done|]. split; [done|]. cbn [plan_section co_peers]. rewrite plan_ids.
    split; [done|]. split; [done|]. unfold start_cosigner. rewrite (plan_accepted L P HP i Hi). exact Er.
  - unfold running_of in Er. destruct (peer_keys _ _ _); [|discriminate]. injection Er as <-. cbn. rewrite Hid, Hpb, plan_ids. done.
Qed.

Lemma cluster_hosts i x : sy_hosts S0 !! i = Some x <-> 1 <= i <= pl_n P /\ x = h i.
Proof.
  unfold S0, cluster. cbn [sy_hosts]. rewrite <- elem_of_list_to_map.
  - rewrite elem_of_list_fmap. split.
    + intros (j & [= -> ->] & Hj). apply elem_of_seqZ in Hj. split; [lia|done].
    + intros [Hi ->]. exists i. split; [done|]. apply elem_of_seqZ. lia.
  - rewrite <- list_fmap_compose. rewrite (list_fmap_ext _ id) by done. rewrite list_fmap_id. apply NoDup_seqZ.
Qed.
Lemma cluster_some i : is_Some (sy_hosts S0 !! i) <-> 1 <= i <= pl_n P.
Proof.
  split.
  - intros [x Hx]. by apply cluster_hosts in Hx as [? _].
  - intros Hi. exists (h i). by apply cluster_hosts.
Qed.
Lemma cluster_size : Z.of_nat (size (sy_hosts S0)) = pl_n P.
Proof.
  unfold S0, cluster. cbn [sy_hosts]. destruct HP as (Hn & _).
  unfold size, map_size. rewrite map_to_list_to_map; [rewrite map_length, seqZ_length; lia|].
  rewrite <- list_fmap_compose. rewrite (list_fmap_ext _ id) by done. rewrite list_fmap_id. apply NoDup_seqZ.
Qed.

Lemma cluster_facts : deployed C R pub (pl_t P) (pl_n P) K /\ set_up K S0 (pl_t P) pub /\ first_start S0 /\
  applied_ok S0 /\ all_below (HRS 0 0 0) S0 /\ (forall i, is_Some (sy_hosts S0 !! i) <-> 1 <= i <= pl_n P).
Proof.
  destruct started_facts as (s0 & ks & H0 & Hns & Hks & Hall). split; [|split; [|split; [|split; [|split]]]].
  - exists expand, rnd, gens, L, sk, ks, (plan_config P), r. split; [done|]. split; [done|]. split; [done|].
    intros i Hi. destruct (Hall i Hi) as (_ & Hr & _). done.
  - intros i Hi. apply cluster_some in Hi. destruct (Hall i Hi) as (_ & _ & E1 & E2 & E3 & E4). cbn [K sc_val].
    rewrite E4. split; [done|]. split; [done|]. split; [done|]. split; [by apply (plan_nodup L)|].
    intros p Hp. apply cluster_some. by apply (plan_range L P HP i).
  - split; [done|]. split; [done|]. intros i x Hx. apply cluster_hosts in Hx as [Hi ->]. destruct (Hall i Hi) as (-> & _).
    split; [|exact Hns]. done.
  - intros i x Hx. apply cluster_hosts in Hx as [Hi ->]. destruct (Hall i Hi) as (-> & _). simpl. lia.
  - split; [intros e c He; by apply not_elem_of_nil in He|]. intros i x Hx. apply cluster_hosts in Hx as [Hi ->].
    destruct (Hall i Hi) as (-> & _). cbn. rewrite H0. split; [by right|]. split; [by right|]. split; [by right|].
    intros k [y Hy]. rewrite lookup_empty in Hy. done.
  - apply cluster_some.
Qed.

Lemma cluster_files : first_files S0.
Proof.
  destruct started_facts as (s0 & ks & H0 & Hns & Hks & Hall). intros i x Hx. apply cluster_hosts in Hx as [Hi ->].
  destruct (Hall i Hi) as (-> & _). split; [done|]. intros s Hs. cbn [host_of ho_vfile] in Hs.
  destruct zero_loaded as (s1 & Hs1 & _). rewrite Hs1 in Hs. injection Hs as <-. clear -Hs1.
  unfold load in Hs1. destruct (unmarshal_state text0) as [r|] eqn:E; [|discriminate]. injection Hs1 as <-.
  apply unmarshal_sig in E. cbn. exact E.
Qed.

(** the raft cluster *)
Lemma cluster_raft hostname i j : good_plan hostname (seqZ 1 (pl_n P)) (pl_url P) -> 1 <= i <= pl_n P -> 1 <= j <= pl_n P ->
  forall ki kj, (i, ki) ∈ l -> (j, kj) ∈ l ->
  forall ti mi0 mi tj mj0 mj, fresh dflt P i mi0 -> installs L dflt P i ti mi0 mi ->
    fresh dflt P j mj0 -> installs L dflt P j tj mj0 mj ->
  exists yi yj si sj ci cj, config_at dflt mi (pl_flag P i) = Some yi /\ config_at dflt mj (pl_flag P j) = Some yj /\
    cf_cosigner (ya_cfg yi) = Some si /\ cf_cosigner (ya_cfg yj) = Some sj /\
    boot_node hostname None si ki = Some ci /\ boot_node hostname None sj kj = Some cj /\
    ci ≡ₚ cj /\ Z.of_nat (length ci) = pl_n P.
Proof using HC HP Hpub Hta Hna Hcmd.
  clear K S0 Hst h r. intros Hgp Hi Hj ki kj Ii Ij ti mi0 mi tj mj0 mj Fi Si Fj Sj.
  destruct (created _ _ Hcmd) as (ks & _ & El & Hset). rewrite El in Ii, Ij.
  destruct (set_key ks i ki Hset Ii) as (_ & Hidi & _). destruct (set_key ks j kj Hset Ij) as (_ & Hidj & _).
  pose proof (plan_follows L P HP hostname i ki Hi Hidi) as Fo1. pose proof (plan_follows L P HP hostname j kj Hj Hidj) as Fo2.
  destruct (plan_agree hostname (seqZ 1 (pl_n P)) (pl_url P) i j (plan_section P i) (plan_section P j) ki kj Hgp) as (ci & cj & E1 & E2 & Ep & Elen & _); [..|exact Fo1|exact Fo2|].
  - apply elem_of_seqZ. lia.
  - apply elem_of_seqZ. lia.
  - exists (plan_yaml dflt P i), (plan_yaml dflt P j), (plan_section P i), (plan_section P j), ci, cj.
    split; [by eapply plan_written|]. split; [by eapply plan_written|]. split; [done|]. split; [done|]. split; [done|]. split; [done|].
    split; [done|]. rewrite Elen, seqZ_length. destruct HP as (Hn & _). lia.
Qed.
End Cluster.
