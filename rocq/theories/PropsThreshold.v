(** C53-C56, C66, C67: key creation and threshold signing. *)
From Coq Require Import Strings.String.
From Verif Require Import GoBase Wire Canonical CanonicalApi SignState Spec Crypto Toy LocalCosigner Json
  Poly PolyProofs Scheme ToyScheme RoundSpec RoundProofs2 Validator ValidatorWitness CosignerWitness
  Config ConfigSpec ConfigWitness KeyShares KeySharesSpec KeySharesProofs ThresholdWitness.
Local Open Scope list_scope.
Local Open Scope Z_scope.

(** C53, for 0..255 shares: IDs 1..n, one public key, matching RSA keys *)
Theorem C53_key_set_partial : forall C expand rnd gens pv t n ks,
  deals C -> create_shares C expand rnd gens pv t n = Val ks -> 0 <= n <= 255 ->
  key_set (slice_of (pv_pub pv)) n ks.
Proof. exact create_key_set. Qed.
(** C53: what create-shares has written when it reports success; the number of files is the
    requested number modulo 256 *)
Theorem C53_command_partial : forall C expand rnd gens wr file args l, deals C ->
  create_cmd C expand rnd gens wr file args = Val (l, None) ->
  exists f ta na t n pv ks, args = [f; ta; na] /\ decimal ta t /\ decimal na n /\
    in_int64 t /\ in_int64 n /\ file = Some (Some pv) /\
    create_shares C expand rnd gens pv t n = Val ks /\
    map snd l = ks /\ map fst l = seqZ 1 (n mod 256).
Proof. exact cmd_ok. Qed.
Example C53_example : exists l, wcmd "2" "3" = Val (l, None) /\ map fst l = [1; 2; 3].
Proof. exact cmd_2_of_3. Qed.
(** C53 is false beyond: asked for 256 shares the command writes none and reports success; asked for
    -1 it writes 255 *)
Theorem C53_count_refuted :
  wcmd "2" "256" = Val ([], None) /\ exists l, wcmd "2" "-1" = Val (l, None) /\ length l = 255%nat.
Proof. exact (conj cmd_256 cmd_minus). Qed.

(** C54: interpolation at 0 through any points gives the value at 0 of every polynomial with at
    most as many coefficients, over any field *)
Theorem C54_interpolation : forall (F : field_ops), is_field F -> forall (p xs : list F),
  NoDup xs -> (length p <= length xs)%nat ->
  interpolate F xs (map (peval F p) xs) = peval F p (f0 F).
Proof. exact interpolate_eval. Qed.
(** C54: any [t] (or more) of the created key files determine the private key *)
Theorem C54_reconstruct : forall C expand rnd gens R pv sk t n ks,
  threshold_scheme C R -> pv_priv pv = Some sk -> rd_is_scalar R (expand (take 32 sk)) ->
  1 <= t mod 256 -> 0 <= n <= 255 -> n <= rd_max R ->
  create_shares C expand rnd gens pv t n = Val ks ->
  forall sel, sel ⊆ ks -> NoDup (map ck_id sel) -> t mod 256 <= Z.of_nat (length sel) ->
  exists b, cr_combine C n (map ck_id sel) (map ck_share sel) = Some b /\ rd_is_scalar R b /\
    rd_scalar R b = rd_scalar R (expand (take 32 sk)).
Proof. exact create_reconstruct. Qed.
Example C54_example : threshold_scheme toy toy_reading /\
  create_shares toy wexpand wcoef wgens wpv 2 3 = Val (wkeys 2 3) /\ length (wkeys 2 3) = 3%nat.
Proof. split; [exact toy_scheme|]. split; [apply wkeys_ok|vm_compute; reflexivity]. Qed.

(** C55: whatever [t]-1 shares are and whatever the secret, exactly one polynomial with [t]
    coefficients fits *)
Theorem C55_hiding : forall (F : field_ops), is_field F -> forall (xs ys : list F) (s : F),
  NoDup xs -> f0 F ∉ xs -> length ys = length xs ->
  exists p, (length p = S (length xs) /\ peval F p (f0 F) = s /\
      forall k x y, xs !! k = Some x -> ys !! k = Some y -> peval F p x = y) /\
    forall q, length q = S (length xs) -> peval F q (f0 F) = s ->
      (forall k x y, xs !! k = Some x -> ys !! k = Some y -> peval F q x = y) -> q = p.
Proof. exact hiding. Qed.
(** C55: the share IDs meet the hypotheses in any scheme *)
Theorem C55_ids : forall C R, threshold_scheme C R -> forall ids,
  NoDup ids -> (forall i, i ∈ ids -> 1 <= i <= rd_max R) ->
  NoDup (map (rd_id R) ids) /\ f0 (rd_f R) ∉ map (rd_id R) ids.
Proof. exact hiding_ids. Qed.

(** C56: if [t] cosigners answer the requests for their parts and each then signs with the parts the
    other [t]-1 made for it, the combination of their signatures is valid *)
Theorem C56_signatures_verify : forall C R, threshold_scheme C R -> forall a sk n t A k,
  2 <= n <= rd_max R -> 1 <= t -> (length a <= Z.to_nat t)%nat ->
  rd_is_point R A -> rd_point R A = mmul (peval (rd_f R) a (f0 (rd_f R))) (rd_base R) ->
  forall (cfg : Z -> cos_config) (st : Z -> cos_state) (order : Z -> list (Z * get_rnd)) (P : list Z) sb,
  NoDup P -> Z.of_nat (length P) = t -> (forall i, i ∈ P -> 1 <= i <= n) -> unpack_hrst sb = Val k ->
  (forall i, i ∈ P -> member C R a sk n t A i (cfg i) /\ ready C R n t i (st i) k /\ asks_all R n (order i)) ->
  exists st1 ps, (forall i, i ∈ P -> get_parts C (cfg i) (st i) k (order i) = (st1 i, Val (ps i)) /\
      cs_lss (st1 i) = cs_lss (st i) /\ map pt_dest (ps i) = filter (fun j => j <> i) (map fst (order i)) /\
      Forall (fun p => pt_source p = i) (ps i)) /\
    forall sel, (forall i, i ∈ P -> parts_of_others P ps i (map fst (sel i))) ->
    exists E st2 sig, (forall i, i ∈ P ->
        set_and_sign C (cfg i) (st1 i) k (sel i) sb =
          (st2 i, Val (SignResp (Some E) (Some (sig i)) true)) /\ length (sig i) = 32%nat) /\
      forall ids, Permutation ids P -> exists s, cr_combine C n ids (map sig ids) = Some s /\
        cr_verify C A sb (E ++ s) = true.
Proof. exact round_ok. Qed.

(** C66: from the private key file to a valid signature *)
Theorem C66_signs_partial : forall C R expand rnd gens L pub sk0 t n ks chain b
    (c : Z -> config) (r : Z -> running) i0 tid v ws (st : Z -> cos_state)
    (order : Z -> list (Z * get_rnd)) emitted,
  threshold_scheme C R -> 2 <= n <= rd_max R -> n <= 255 -> 1 <= t <= n -> rsa_works C R gens ->
  key_pair R (expand (take 32 sk0)) pub ->
  create_shares C expand rnd gens (PVKey (Some pub) (Some sk0)) t n = Val ks ->
  (forall i, 1 <= i <= n -> runs_as L ks n t i (c i) (r i)) ->
  1 <= i0 <= n -> signable chain b ->
  let vcfg := ru_val (r i0) in
  let P := map (idw vcfg) (ws ++ [0%nat]) in
  quorum vcfg ws -> vs_threads v !! tid = None ->
  hrs_lt (ss_hrs (vs_init v)) (b_hrs b) -> hrs_lt (ss_hrs (vs_lss v)) (b_hrs b) ->
  (forall i, i ∈ P -> ready C R n t i (st i) (b_key b) /\ asks_all R n (order i)) ->
  exists st1 ps,
    (forall i, i ∈ P -> get_parts C (ru_cos (r i)) (st i) (b_key b) (order i) = (st1 i, Val (ps i))) /\
    forall sd sel, sd_peers sd = ws -> fair vcfg sd ps ->
    (forall w, w ∈ sd_all sd -> map fst (sel (idw vcfg w)) = parts_for vcfg (sd_order sd w) (idw vcfg w)) ->
    exists E st2 sig, (forall i, i ∈ P ->
      set_and_sign C (ru_cos (r i)) (st1 i) (b_key b) (sel i) (b_sb b) =
        (st2 i, Val (SignResp (Some E) (Some (sig i)) true))) /\
    exists s l v', vrun C vcfg v l v' /\ map fst l = RoundSpec.honest_ops vcfg tid b sd ps sig E emitted /\
      (VEmit tid emitted, OReturn tid b (VR (Some (E ++ s)) (b_ts b) None) true) ∈ l /\
      cr_verify C pub (b_sb b) (E ++ s) = true /\
      (forall op w k x m, (op, OAsk tid w k x m) ∈ l -> w ∈ sd_all sd /\ k = b_key b /\ m = b_sb b /\
         x = map fst (sel (idw vcfg w))) /\
      ss_hrs (vs_lss v') = b_hrs b.
Proof. exact end_to_end. Qed.
(** the hypotheses hold for a 2-of-3 cluster whose cosigners 1 (leader) and 3 sign a precommit *)
Example C66_example :
  threshold_scheme toy toy_reading /\ 2 <= 3 <= rd_max toy_reading /\ rsa_works toy toy_reading wgens /\
  key_pair toy_reading (wexpand (take 32 wsecret)) (toy_enc 77) /\
  create_shares toy wexpand wcoef wgens (PVKey (Some (toy_enc 77)) (Some wsecret)) 2 3 = Val (wkeys 2 3) /\
  (forall i, 1 <= i <= 3 -> runs_as wlib (wkeys 2 3) 3 2 i (wconf i) (ThresholdWitness.wrun i)) /\
  signable irishub (eblock 20 xaa 7) /\
  quorum (ru_val (ThresholdWitness.wrun 1)) [2%nat] /\
  map (idw (ru_val (ThresholdWitness.wrun 1))) ([2%nat] ++ [0%nat]) = [3; 1] /\
  hrs_lt (ss_hrs (vs_lss v0)) (b_hrs (eblock 20 xaa 7)) /\
  hrs_lt (ss_hrs (vs_init v0)) (b_hrs (eblock 20 xaa 7)) /\
  (forall i, ready toy toy_reading 3 2 i wst0 (b_key (eblock 20 xaa 7))) /\ asks_all toy_reading 3 worder.
Proof.
  split; [exact toy_scheme|]. split; [simpl; lia|]. split; [exact wrsa|]. split; [exact wkey_pair|].
  split; [apply wkeys_ok|]. split; [exact wruns|]. split; [exact wsignable|]. split; [apply wquorum|].
  split; [apply wquorum|]. split; [by left|]. split; [by left|]. split; [exact wready|exact wasks].
Qed.
(** C66 is false for a cluster of one: the configuration and key are accepted, but the cosigner
    never makes the metadata it needs, so no request ever yields a signature *)
Theorem C66_lone_refuted : exists L ks c r,
  runs_as L ks 1 1 1 c r /\
  forall C st k order sb, unseen st k -> unpack_hrst sb = Val k -> map fst order = seqZ 1 1 ->
    get_parts C (ru_cos r) st k order = (st, Val []) /\
    set_and_sign C (ru_cos r) st k [] sb = (st, Fail ENoMeta).
Proof. exact lone_refutation. Qed.

(** C67 is false: create-shares accepts a threshold larger than the number of shares, and one whose
    low byte is 1, where every single file determines the private key *)
Theorem C67_parameters_refuted :
  (exists l, wcmd "3" "2" = Val (l, None) /\ length l = 2%nat) /\
  (exists l, wcmd "257" "300" = Val (l, None) /\ length l = 44%nat /\
    forall k, k ∈ map snd l -> exists b, cr_combine toy 44 [ck_id k] [ck_share k] = Some b /\
      rd_scalar toy_reading b = rd_scalar toy_reading (wexpand (take 32 wsecret))).
Proof. exact (conj cmd_3_of_2 cmd_257). Qed.
(** C67 for 1 <= t <= n <= 255: the command succeeds (if the private key is usable and the files can
    be written), [n] files result, any [t] of them determine the private key and any fewer do not:
    the polynomial the shares lie on has [t] coefficients, so C55 applies *)
Theorem C67_usable_partial : forall C expand rnd gens R f ta na t n pub sk,
  threshold_scheme C R -> deals C -> rd_is_scalar R (expand (take 32 sk)) -> (32 <= length sk)%nat ->
  (forall i, is_Some (gens i)) -> decimal ta t -> decimal na n -> 1 <= t <= n -> n <= 255 -> n <= rd_max R ->
  exists ks, create_cmd C expand rnd gens (fun _ => true) (Some (Some (PVKey (Some pub) (Some sk)))) [f; ta; na]
      = Val (map (fun k => (ck_id k, k)) ks, None) /\
    key_set pub n ks /\
    (exists p, (length p <= Z.to_nat t)%nat /\
      peval (rd_f R) p (f0 (rd_f R)) = rd_scalar R (expand (take 32 sk)) /\
      forall k, k ∈ ks -> rd_scalar R (ck_share k) = peval (rd_f R) p (rd_id R (ck_id k))) /\
    forall sel, sel ⊆ ks -> NoDup (map ck_id sel) -> t <= Z.of_nat (length sel) ->
      exists b, cr_combine C n (map ck_id sel) (map ck_share sel) = Some b /\
        rd_scalar R b = rd_scalar R (expand (take 32 sk)).
Proof. exact usable. Qed.

Print Assumptions C53_key_set_partial.
Print Assumptions C53_command_partial.
Print Assumptions C53_count_refuted.
Print Assumptions C54_interpolation.
Print Assumptions C54_reconstruct.
Print Assumptions C55_hiding.
Print Assumptions C55_ids.
Print Assumptions C56_signatures_verify.
Print Assumptions C66_signs_partial.
Print Assumptions C66_lone_refuted.
Print Assumptions C67_parameters_refuted.
Print Assumptions C67_usable_partial.
