(** Concrete key sets and clusters (toy cryptography). *)
From Coq Require Import Strings.String.
From Verif Require Import GoBase Wire Canonical CanonicalApi SignState Spec Crypto Toy LocalCosigner Json
  Poly Scheme ToyScheme RoundSpec CosignerWitness Validator ValidatorWitness Config ConfigSpec ConfigProofs2
  ConfigWitness KeyShares KeySharesSpec KeySharesProofs.
Local Open Scope list_scope.
Local Open Scope Z_scope.

Definition wsecret : bytes := toy_enc 77 ++ replicate 32 xee.
Definition wpv : pv_key := PVKey (Some (toy_enc 77)) (Some wsecret).
Definition wexpand (b : bytes) : bytes := b.
Definition wgens (i : nat) : option (bytes * bytes) := Some ([zb (Z.of_nat i + 1)], [zb (Z.of_nat i + 1)]).
Definition wcoef : bytes := [x05; x09; x11].
Definition wkeys (t n : Z) : list cosigner_key :=
  match create_shares toy wexpand wcoef wgens wpv t n with Val ks => ks | _ => [] end.
Lemma wkeys_ok t n : create_shares toy wexpand wcoef wgens wpv t n = Val (wkeys t n).
Proof.
  unfold wkeys. destruct (create_some toy wexpand wcoef wgens wpv wsecret t n) as [ks H]; [done|vm_compute; lia|..|by rewrite H].
  intros i. eexists. reflexivity.
Qed.
Lemma wkey_pair : key_pair toy_reading (wexpand (take 32 wsecret)) (toy_enc 77).
Proof. split; [done|]. split; [done|]. apply tz_eq. vm_compute. reflexivity. Qed.
Lemma wrsa : rsa_works toy toy_reading wgens.
Proof. intros i sk pk [= <- <-]. apply toy_rsa. Qed.

(** the command line *)
Definition wargs (t n : string) : list bytes := [lit "priv_validator_key.json"; lit t; lit n].
Definition wcmd (t n : string) := create_cmd toy wexpand wcoef wgens (fun _ => true) (Some (Some wpv)) (wargs t n).

Lemma cmd_2_of_3 : exists l, wcmd "2" "3" = Val (l, None) /\ map fst l = [1; 2; 3].
Proof. eexists. split; [vm_compute; reflexivity|vm_compute; reflexivity]. Qed.
(** C53: 256 shares are none, -1 is 255 *)
Lemma cmd_256 : wcmd "2" "256" = Val ([], None).
Proof. vm_compute. reflexivity. Qed.
Lemma cmd_minus : exists l, wcmd "2" "-1" = Val (l, None) /\ length l = 255%nat.
Proof. eexists. split; [vm_compute; reflexivity|vm_compute; reflexivity]. Qed.
(** C67: more needed than made *)
Lemma cmd_3_of_2 : exists l, wcmd "3" "2" = Val (l, None) /\ length l = 2%nat.
Proof. eexists. split; [vm_compute; reflexivity|vm_compute; reflexivity]. Qed.
(** C67: threshold 257 is 1: every file holds the whole key *)
Lemma cmd_257 : exists l, wcmd "257" "300" = Val (l, None) /\ length l = 44%nat /\
  forall k, k ∈ map snd l -> exists b, cr_combine toy 44 [ck_id k] [ck_share k] = Some b /\
    rd_scalar toy_reading b = rd_scalar toy_reading (wexpand (take 32 wsecret)).
Proof.
  assert (H : exists l, wcmd "257" "300" = Val (l, None) /\ length l = 44%nat /\ map snd l = wkeys 257 44).
  { eexists. split; [vm_compute; reflexivity|]. split; vm_compute; reflexivity. }
  destruct H as (l & H1 & H2 & H3). exists l. split; [done|]. split; [done|]. intros k Hk.
  destruct (create_reconstruct toy wexpand wcoef wgens toy_reading wpv wsecret 257 44 (wkeys 257 44) toy_scheme)
    with (sel := [k]) as (b & Hb & _ & Hv).
  - done.
  - done.
  - vm_compute. discriminate.
  - lia.
  - simpl. lia.
  - apply wkeys_ok.
  - rewrite <- H3. intros x Hx. apply elem_of_list_singleton in Hx as ->. done.
  - apply NoDup_singleton.
  - vm_compute. discriminate.
  - exists b. done.
Qed.

(** a 2-of-3 cluster *)
Definition wothers (i : Z) : list cpeer :=
  map (fun j => CPeer j (lit "tcp://x:2222")) (filter (fun j => j <> i) (seqZ 1 3)).
Definition wconf (i : Z) : config :=
  Config irishub (Some (CosSection 2 3 (lit "tcp://a:2222") (wothers i) (lit "1500ms"))) [lit "tcp://n:1234"].
Definition wrun (i : Z) : running :=
  match wkeys 2 3 !! Z.to_nat (i - 1) with
  | Some k => match start_cosigner wlib (wconf i) k with
              | Some r => r
              | None => Running wcfg1 vcfg
              end
  | None => Running wcfg1 vcfg
  end.
Lemma wruns i : 1 <= i <= 3 -> runs_as wlib (wkeys 2 3) 3 2 i (wconf i) (wrun i).
Proof.
  intros Hi. assert (Hc : i = 1 \/ i = 2 \/ i = 3) by lia.
  assert (Hst : forall i k, wkeys 2 3 !! Z.to_nat (i - 1) = Some k ->
    start_cosigner wlib (wconf i) k <> None -> start_cosigner wlib (wconf i) k = Some (wrun i)).
  { intros j k Hk Hn. unfold wrun. rewrite Hk. by destruct (start_cosigner wlib (wconf j) k). }
  assert (Hk : exists k, wkeys 2 3 !! Z.to_nat (i - 1) = Some k /\ start_cosigner wlib (wconf i) k <> None).
  { destruct Hc as [->|[->| ->]]; eexists; (split; [vm_compute; reflexivity|vm_compute; discriminate]). }
  destruct Hk as (k & Hk & Hs). eexists _, k. split; [reflexivity|]. split; [reflexivity|]. split; [|split; [done|by apply Hst]].
  cbn [co_peers]. unfold wothers. rewrite map_map. simpl. rewrite map_id.
  apply NoDup_Permutation; [|apply NoDup_seqZ|].
  - apply list.NoDup_cons. split; [|apply list.NoDup_filter, NoDup_seqZ]. intros [K _]%elem_of_list_filter. done.
  - intros j. rewrite elem_of_cons, elem_of_list_filter, elem_of_seqZ. lia.
Qed.
Lemma wruns_peer : vc_id (ru_val (wrun 1)) = 1 /\ vc_peers (ru_val (wrun 1)) = [2; 3] /\ vc_threshold (ru_val (wrun 1)) = 2.
Proof. vm_compute. done. Qed.
(** cosigner 1 leads, cosigner 3 takes part *)
Lemma wquorum : quorum (ru_val (wrun 1)) [2%nat] /\ map (idw (ru_val (wrun 1))) ([2%nat] ++ [0%nat]) = [3; 1].
Proof.
  destruct wruns_peer as (H1 & H2 & H3). destruct (ru_val (wrun 1)) as [th pb i l]. simpl in *. subst th i l.
  split; [|done]. split; [apply NoDup_singleton|]. split; [set_solver|]. split; [|done].
  intros w Hw. apply elem_of_list_singleton in Hw as ->. by eexists.
Qed.
Lemma wsignable : signable irishub (eblock 20 xaa 7).
Proof.
  apply SgVote with (v := wvote 20 xaa 7).
  - unfold vote_in_range. vm_compute. repeat split; try discriminate; try lia.
  - unfold in_int64. vm_compute. split; [discriminate|reflexivity].
  - intros (H & _). vm_compute in H. discriminate.
  - vm_compute. reflexivity.
Qed.
Lemma wready i : ready toy toy_reading 3 2 i wst0 (b_key (eblock 20 xaa 7)).
Proof. split; [by left|]. vm_compute. by left. Qed.
Definition worder : list (Z * get_rnd) := map (fun j => (j, wrnd x21)) (seqZ 1 3).
Lemma wasks : asks_all toy_reading 3 worder.
Proof.
  split; [unfold worder; rewrite map_map; simpl; done|].
  intros x Hx. apply elem_of_list_fmap in Hx as (j & -> & _). do 2 eexists. split; [reflexivity|done].
Qed.

(** a cluster of one *)
Definition lone_conf : config :=
  Config irishub (Some (CosSection 1 1 (lit "tcp://a:2222") [] (lit "1500ms"))) [lit "tcp://n:1234"].
Definition lone_run : running :=
  match wkeys 1 1 !! 0%nat with
  | Some k => match start_cosigner wlib lone_conf k with Some r => r | None => Running wcfg1 vcfg end
  | None => Running wcfg1 vcfg
  end.
Lemma lone_runs : runs_as wlib (wkeys 1 1) 1 1 1 lone_conf lone_run /\ cc_id (ru_cos lone_run) = 1.
Proof.
  split; [|vm_compute; done].
  destruct (wkeys 1 1 !! 0%nat) as [k|] eqn:Ek; [|vm_compute in Ek; discriminate].
  eexists _, k. split; [reflexivity|]. split; [done|]. split; [done|]. split; [exact Ek|].
  unfold lone_run. rewrite Ek. destruct (start_cosigner wlib lone_conf k) eqn:E; [done|].
  exfalso. vm_compute in Ek. injection Ek as <-. vm_compute in E. discriminate.
Qed.
Lemma lone_refutation : exists L ks c r,
  runs_as L ks 1 1 1 c r /\
  forall C st k order sb, unseen st k -> unpack_hrst sb = Val k -> map fst order = seqZ 1 1 ->
    get_parts C (ru_cos r) st k order = (st, Val []) /\
    set_and_sign C (ru_cos r) st k [] sb = (st, Fail ENoMeta).
Proof.
  exists wlib, (wkeys 1 1), lone_conf, lone_run. destruct lone_runs as [H Hid]. split; [done|].
  intros C st k order sb Hr Hu Ho. apply lone_never_signs; [done|done|]. rewrite Hid. intros x Hx.
  assert (K : fst x ∈ map fst order) by (apply elem_of_list_fmap; eauto). rewrite Ho in K.
  apply elem_of_seqZ in K. lia.
Qed.
