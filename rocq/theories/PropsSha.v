(** C99: the hash functions themselves, and with them nothing left to assume about cryptography *)
From Coq Require Import Strings.String.
From Verif Require Import GoBase Canonical SignState Spec Crypto Json Validator Config ConfigSpec ConfigProofs ConfigWitness KeyFile KeyFileSpec KeyShares KeySharesSpec
  Disk System SystemSpec SystemLiveSpec SystemLiveWitness Startup StartupSpec Machine MachineSpec MachineProofs MachineWitness Privval Address AddressSpec AddressWitness Rsa RsaSpec
  Ed25519 EdSpec EdScheme EdSpecProofs EdWitness PropsRsa PropsEd PropsAddress Sha ShaSpec ShaProofs ShaWitness.
Local Open Scope list_scope.
Local Open Scope Z_scope.
Local Opaque ed_p ed_l ed_d ed_i ed_bx ed_by sha256 sha512.

(** the functions compute what FIPS 180-4 says, for every message that it gives a digest *)
Theorem C99_sha256 : forall m d, 8 * Z.of_nat (length m) < 2 ^ 64 -> digest fips256 m d <-> d = sha256 m.
Proof. exact sha256_exact. Qed.
Theorem C99_sha512 : forall m d, 8 * Z.of_nat (length m) < 2 ^ 128 -> digest fips512 m d <-> d = sha512 m.
Proof. exact sha512_exact. Qed.
(** C93 with both: every seed has one public key *)
Theorem C99_key : forall seed, 8 * Z.of_nat (length seed) < 2 ^ 128 ->
  rfc_key seed (ed_base (ed_expand sha512 seed)) /\
  forall pub, rfc_key seed pub -> pub = ed_base (ed_expand sha512 seed) /\ length pub = 32%nat.
Proof.
  intros seed Hs. assert (H : (32 <= length (sha512 seed))%nat) by (rewrite sha512_length; lia).
  destruct (C93_key sha512 seed H) as [H1 H2]. split; [by apply rfc_key_iff|]. intros pub Hp.
  apply (rfc_key_iff seed pub Hs) in Hp. destruct (H2 pub Hp) as (E & L & _). by split.
Qed.
(** all the functions that the code calls, none of them a parameter *)
Definition std : Crypto := real sha512 sha256 part_text.
(** a cluster set up with the documented commands answers all rising requests with signatures valid
    under RFC 8032 *)
Theorem C99_signs : forall bits rnd gens L KL dflt P pub sk f ta na wr l r h js,
  usual_size bits -> made_keys bits gens -> rfc_key (take 32 sk) pub ->
  codec KL -> plan_ok L P -> decimal ta (pl_t P) -> decimal na (pl_n P) ->
  create_cmd std (ed_expand sha512) rnd gens wr (Some (Some (PVKey (Some pub) (Some sk)))) [f; ta; na] = Val (l, None) ->
  (forall i, 1 <= i <= pl_n P -> started L KL dflt P l i (r i) (h i)) ->
  let K := SysConf (fun i => ru_val (r i)) (fun i => ru_cos (r i)) in
  Forall (job_ok (ed_reading sha512) (pl_n P) K) js -> rising (HRS 0 0 0) js ->
  exists h' S', srun std K ∅ (cluster P h) h' S' /\
    Forall (fun j => exists sig, handed_out h' (jb_leader j) (jb_block j) sig /\ rfc_valid pub (b_sb (jb_block j)) sig) js /\
    (forall i k o, (ERestart i k, o) ∉ h').
Proof.
  intros bits rnd gens L KL dflt P pub sk f ta na wr l r h js H1 H2 H3 H4 H5 H6 H7 H8 H9 K H10 H11.
  apply (rfc_key_iff _ _ (short_seed sk)) in H3.
  destruct (C93_signs sha512 sha256 part_text bits rnd gens L KL dflt P pub sk f ta na wr l r h js sha256_length H1 H2 H3 H4 H5 H6 H7 H8 H9 H10 H11)
    as (h' & S' & R1 & R2 & R3).
  exists h', S'. split; [exact R1|]. split; [|exact R3]. eapply List.Forall_impl; [|exact R2].
  intros j (sig & Hh & Hv). exists sig. split; [exact Hh|]. by apply rfc_valid_intro.
Qed.
(** and no host of it ever hands out anything else *)
Theorem C99_only_valid : forall bits rnd gens L KL dflt P pub sk f ta na wr l r h faulty hist S,
  usual_size bits -> made_keys bits gens -> rfc_key (take 32 sk) pub ->
  codec KL -> plan_ok L P -> decimal ta (pl_t P) -> decimal na (pl_n P) ->
  create_cmd std (ed_expand sha512) rnd gens wr (Some (Some (PVKey (Some pub) (Some sk)))) [f; ta; na] = Val (l, None) ->
  (forall i, 1 <= i <= pl_n P -> started L KL dflt P l i (r i) (h i)) ->
  let K := SysConf (fun i => ru_val (r i)) (fun i => ru_cos (r i)) in
  srun std K faulty (cluster P h) hist S ->
  forall i b sig, handed_out hist i b sig ->
  exists m, rfc_valid pub m sig /\ supported (cluster P h) (pl_t P) faulty hist m.
Proof.
  intros bits rnd gens L KL dflt P pub sk f ta na wr l r h faulty hist S H1 H2 H3 H4 H5 H6 H7 H8 H9 K H10 i b sig H11.
  apply (rfc_key_iff _ _ (short_seed sk)) in H3.
  destruct (C93_only_valid sha512 sha256 part_text bits rnd gens L KL dflt P pub sk f ta na wr l r h faulty hist S
    sha256_length H1 H2 H3 H4 H5 H6 H7 H8 H9 H10 i b sig H11) as (m & Hv & Hs).
  exists m. split; [by apply rfc_valid_intro|exact Hs].
Qed.
(** the address on the line is the start of the key's SHA-256 *)
Theorem C99_address : forall ripe L KL dflt m flag args line,
  address_cmd sha256 ripe L KL dflt m flag args = Val line ->
  exists y k b d, config_at dflt m flag = Some y /\ load_key KL (ma_key m !! key_path y) = Val k /\ KeyFile.ck_pub k = PkEd25519 b /\
    digest fips256 b d /\ exists h, shown line "HexAddress" h /\ hex_dec h = Some (take 20 d).
Proof.
  intros ripe L KL dflt m flag args line H.
  destruct (C83_line_partial sha256 ripe L KL dflt m flag args line sha256_length H) as (_ & y & k & b & H1 & H2 & H3 & H4 & H5 & _).
  exists y, k, b, (sha256 b). split; [exact H1|]. split; [exact H2|]. split; [exact H3|]. split; [|exact H5].
  apply sha256_exact; [|reflexivity]. rewrite H4. reflexivity.
Qed.

(** ** The hypotheses can be met, and the functions agree with the published test vectors *)
(** FIPS 180-4: "abc"; the seed of RFC 8032, 7.1, test 3 (its key and signature are compared in ShaWitness) *)
Example C99_abc : sha256 (lit "abc") = of_hex "ba7816bf8f01cfea414140de5dae2223b00361a396177a9cb410ff61f20015ad" /\
  sha512 (lit "abc") = of_hex
    "ddaf35a193617abacc417349ae20413112e6fa4e89a97ea20a9eeee64b55d39a2192992a274fc1a836ba3c23a3feebbd454d4423643ce80e2a9ac94fa54ca49f".
Proof. split; vm_compute; reflexivity. Qed.
Example C99_rfc8032 : rfc_key rfc_seed std_pub.
Proof. apply C99_key. reflexivity. Qed.
(** a cluster for that key *)
Example C99_example : usual_size 778 /\ made_keys 778 ex_gens /\ rfc_key (take 32 (rfc_seed ++ std_pub)) std_pub /\
  codec wkl /\ plan_ok wlib wplan /\ decimal (lit "2") (pl_t wplan) /\ decimal (lit "3") (pl_n wplan) /\
  exists l r h,
    create_cmd std (ed_expand sha512) [x01; x02; x03] ex_gens (fun _ => true)
      (Some (Some (PVKey (Some std_pub) (Some (rfc_seed ++ std_pub))))) [lit "k.json"; lit "2"; lit "3"] = Val (l, None) /\
    (forall i, 1 <= i <= pl_n wplan -> started wlib wkl wdflt wplan l i (r i) (h i)) /\
    Forall (job_ok (ed_reading sha512) (pl_n wplan) (SysConf (fun i => ru_val (r i)) (fun i => ru_cos (r i)))) wjobs /\
    rising (HRS 0 0 0) wjobs /\ length wjobs = 2%nat.
Proof.
  split; [exact (proj1 C90_example_key)|].
  split. { intros i sk pk [= <- <-]. exists ex_rsa, ex_p, ex_q. split; [exact (proj2 C90_example_key)|]. split; reflexivity. }
  assert (Et : take 32 (rfc_seed ++ std_pub) = rfc_seed) by (apply take_app_alt; reflexivity).
  split. { rewrite Et. exact C99_rfc8032. }
  split; [exact wkl_codec|]. split; [exact wplan_ok|].
  split; [apply ConfigProofs.atoi_iff; vm_compute; reflexivity|]. split; [apply ConfigProofs.atoi_iff; vm_compute; reflexivity|].
  destruct (any_cluster std (ed_deals _ _ _ _) (ed_expand sha512) [x01; x02; x03] ex_gens
    (fun i => ex_intro _ _ eq_refl) std_pub (rfc_seed ++ std_pub) (ed_base_length _)) as (l & r & h & H1 & H2 & H3).
  { rewrite app_length. apply Nat.le_trans with (length rfc_seed); [apply Nat.leb_le; reflexivity|lia]. }
  exists l, r, h. split; [exact H1|]. split; [exact H2|]. split; [|split; [exact wjobs_rising|reflexivity]].
  apply (any_jobs std_pub); [done|exact H3].
Qed.
(** host 1 of the plan of C83 prints such a line *)
Example C99_address_example : exists line, address_cmd sha256 id wlib wkl wdflt (wmachine 1) [] [lit "cosmos"] = Val line.
Proof. eexists. vm_compute. reflexivity. Qed.

Print Assumptions C99_sha256.
Print Assumptions C99_sha512.
Print Assumptions C99_key.
Print Assumptions C99_signs.
Print Assumptions C99_only_valid.
Print Assumptions C99_address.
