(** C93: with Ed25519 and RSA computed as their standards say, instead of assumed laws *)
From Coq Require Import Strings.String.
From Verif Require Import GoBase Canonical SignState Spec Crypto LocalCosigner CosignerSpec NonceSpec Poly Scheme HidingSpec HidingProofs
  Toy Json Validator Config ConfigSpec ConfigProofs ConfigWitness KeyFile KeyFileSpec KeyShares KeySharesSpec Disk System SystemSpec SystemLiveSpec SystemLiveWitness
  Startup StartupSpec Machine MachineSpec MachineWitness Pkcs1 Rsa RsaSpec RsaProofs Ed25519 EdSpec EdScheme EdSpecProofs EdHiding EdWitness
  PropsMachine PropsRsa.
Local Open Scope list_scope.
Local Open Scope Z_scope.
Local Opaque ed_p ed_l ed_d ed_i ed_bx ed_by.

(** the Crypto record with RSA and Ed25519 filled in; [H] stands for SHA-512, [Hr] for SHA-256 *)
Definition real (H Hr : bytes -> bytes) (text : payload -> bytes) : Crypto := with_rsa (with_ed H toy) Hr text.

(** verification accepts what RFC 8032 accepts, for every key that encodes a point, and a valid signature has such a key *)
Theorem C93_verify : forall H pub m sig A, on_curve A -> encodes A pub ->
  ed_verify H pub m sig = true <-> valid H pub m sig.
Proof. exact verify_exact. Qed.
Theorem C93_verify_key : forall H pub m sig, valid H pub m sig -> exists A, on_curve A /\ encodes A pub.
Proof. exact valid_key. Qed.
(** multiples of the base point *)
Theorem C93_base : forall s n B, is_base B -> little 32 n s -> exists A, times B n A /\ encodes A (ed_base s).
Proof. exact base_exact. Qed.
(** every seed has exactly one public key, of 32 bytes, and it belongs to the scalar create-shares splits *)
Theorem C93_key : forall H seed, (32 <= length (H seed))%nat ->
  public_key H seed (ed_base (ed_expand H seed)) /\
  forall pub, public_key H seed pub -> pub = ed_base (ed_expand H seed) /\ length pub = 32%nat /\
    key_pair (ed_reading H) (ed_expand H seed) pub.
Proof. exact seed_exact. Qed.
(** the laws that C53-C56, C66, C73 and C79 ask for *)
Theorem C93_scheme : forall H Hr text, threshold_scheme (real H Hr text) (ed_reading H).
Proof. intros H Hr text. apply scheme_kept. apply ed_scheme. Qed.
(** RSA keys as create-shares generates them *)
Definition made_keys (bits : Z) (gens : nat -> option (bytes * bytes)) : Prop :=
  forall i sk pk, gens i = Some (sk, pk) -> exists k p q, generated bits k p q /\ sk = sk_text k /\ pk = pk_text (public_of k).
(** the cluster of C79 answers all rising requests, with signatures that RFC 8032 accepts for the
    public key of the seed in the key file *)
Theorem C93_signs : forall H Hr text bits rnd gens L KL dflt P pub sk f ta na wr l r h js,
  hash32 Hr -> usual_size bits -> made_keys bits gens -> public_key H (take 32 sk) pub ->
  codec KL -> plan_ok L P -> decimal ta (pl_t P) -> decimal na (pl_n P) ->
  create_cmd (real H Hr text) (ed_expand H) rnd gens wr (Some (Some (PVKey (Some pub) (Some sk)))) [f; ta; na] = Val (l, None) ->
  (forall i, 1 <= i <= pl_n P -> started L KL dflt P l i (r i) (h i)) ->
  let K := SysConf (fun i => ru_val (r i)) (fun i => ru_cos (r i)) in
  Forall (job_ok (ed_reading H) (pl_n P) K) js -> rising (HRS 0 0 0) js ->
  exists h' S', srun (real H Hr text) K ∅ (cluster P h) h' S' /\
    Forall (fun j => exists sig, handed_out h' (jb_leader j) (jb_block j) sig /\ valid H pub (b_sb (jb_block j)) sig) js /\
    (forall i k o, (ERestart i k, o) ∉ h').
Proof.
  intros H Hr text bits rnd gens L KL dflt P pub sk f ta na wr l r h js HH Hb Hm Hpub HK HP Hta Hna Hcmd Hst K Hj Hris.
  pose proof Hpub as (a & B & A & _ & _ & HB & HA & He).
  assert (HcA : on_curve A) by (by apply (times_curve B a)).
  destruct (C79_signs (real H Hr text) (ed_reading H) (ed_expand H) rnd gens L KL dflt P pub sk f ta na wr l r h js
    (C93_scheme H Hr text)) as (h' & S' & H1 & H2 & H3); try done.
  - destruct HP as (Hn & _). cbn [rd_max ed_reading]. lia.
  - apply ed_deals.
  - by destruct He.
  - intros i s p E. destruct (Hm i s p E) as (k & p' & q' & Hg & -> & ->). by apply (generated_pair _ _ _ _ bits _ p' q').
  - by apply key_of_seed.
  - exists h', S'. split; [exact H1|]. split; [|exact H3].
    eapply List.Forall_impl; [|exact H2]. intros j (sig & Hh & Hv & _). exists sig. split; [exact Hh|].
    by apply (verify_exact H pub _ _ A).
Qed.
(** whatever faulty cosigners do and however often hosts restart, no host hands out anything else, and a
    threshold of cosigners signed the bytes *)
Theorem C93_only_valid : forall H Hr text bits rnd gens L KL dflt P pub sk f ta na wr l r h faulty hist S,
  hash32 Hr -> usual_size bits -> made_keys bits gens -> public_key H (take 32 sk) pub ->
  codec KL -> plan_ok L P -> decimal ta (pl_t P) -> decimal na (pl_n P) ->
  create_cmd (real H Hr text) (ed_expand H) rnd gens wr (Some (Some (PVKey (Some pub) (Some sk)))) [f; ta; na] = Val (l, None) ->
  (forall i, 1 <= i <= pl_n P -> started L KL dflt P l i (r i) (h i)) ->
  let K := SysConf (fun i => ru_val (r i)) (fun i => ru_cos (r i)) in
  srun (real H Hr text) K faulty (cluster P h) hist S ->
  forall i b sig, handed_out hist i b sig ->
  exists m, valid H pub m sig /\ supported (cluster P h) (pl_t P) faulty hist m.
Proof.
  intros H Hr text bits rnd gens L KL dflt P pub sk f ta na wr l r h faulty hist S HH Hb Hm Hpub HK HP Hta Hna Hcmd Hst K Hrun i b sig Hh.
  pose proof Hpub as (a & B & A & _ & _ & HB & HA & He).
  assert (HcA : on_curve A) by (by apply (times_curve B a)).
  destruct (C79_restarts (real H Hr text) (ed_reading H) (ed_expand H) rnd gens L KL dflt P pub sk f ta na wr l r h faulty hist S) as [H1 _]; try done.
  - apply ed_deals.
  - by destruct He.
  - intros j s p E. destruct (Hm j s p E) as (k & p' & q' & Hg & -> & ->). by apply (generated_pair _ _ _ _ bits _ p' q').
  - by apply key_of_seed.
  - destruct (H1 i b sig Hh) as (m & Hv & Hs). exists m. split; [|exact Hs]. by apply (verify_exact H pub _ _ A).
Qed.
(** C09 with the real functions *)
Theorem C93_share_hidden_partial : forall H Hr text bits k p q cfg lss l st P x',
  hash32 Hr -> usual_size bits -> generated bits k p q -> cc_rsa cfg = sk_text k ->
  1 <= cc_id cfg <= cc_total cfg -> cc_total cfg <= 255 ->
  length (cc_share cfg) = 32%nat -> (exists seed, public_key H seed (cc_pub cfg)) ->
  NoDup P -> (forall j, j ∈ P -> 1 <= j <= cc_total cfg) -> cc_id cfg ∉ P -> Z.of_nat (length P) + 2 <= cc_threshold cfg ->
  crun (real H Hr text) cfg (new_cosigner lss) l st ->
  sets_known (real H Hr text) cfg (new_cosigner lss) l -> no_own_parts cfg l ->
  well_formed (real H Hr text) (ed_reading H) cfg l -> one_share_per_key l ->
  length x' = 32%nat ->
  exists l' st', crun (real H Hr text) (with_share cfg x') (new_cosigner lss) l' st' /\ same_view P l l'.
Proof.
  intros H Hr text bits k p q cfg lss l st P x' HH Hb Hg Hrsa Hi Hn Hx [seed Hp] Hnd HP HiP Ht Hr' Hk Hno Hw H1 Hx'.
  apply (share_hidden (real H Hr text) (ed_reading H) cfg lss l st P x'); try done.
  - apply C93_scheme.
  - rewrite Hrsa. by apply (ed_hiding H Hr text toy bits k p q).
  - by apply (key_of_seed H seed).
Qed.

(** ** The hypotheses can be met *)
(** a function of 64 bytes that is easy to compute *)
Definition toy_hash64 (b : bytes) : bytes := toy_hash b ++ toy_hash (x01 :: b).
Definition ex_gens (_ : nat) : option (bytes * bytes) := Some (sk_text ex_rsa, pk_text (public_of ex_rsa)).
Definition ex_seed : bytes := repeat x2a 32.
Definition ex_key : bytes := ed_base (ed_expand toy_hash64 ex_seed).
Example C93_example : hash32 toy_hash /\ usual_size 778 /\ made_keys 778 ex_gens /\ public_key toy_hash64 (take 32 (ex_seed ++ ex_key)) ex_key /\
  codec wkl /\ plan_ok wlib wplan /\ decimal (lit "2") (pl_t wplan) /\ decimal (lit "3") (pl_n wplan) /\
  exists l r h,
    create_cmd (real toy_hash64 toy_hash part_text) (ed_expand toy_hash64) [x01; x02; x03] ex_gens (fun _ => true)
      (Some (Some (PVKey (Some ex_key) (Some (ex_seed ++ ex_key))))) [lit "k.json"; lit "2"; lit "3"] = Val (l, None) /\
    (forall i, 1 <= i <= pl_n wplan -> started wlib wkl wdflt wplan l i (r i) (h i)) /\
    Forall (job_ok (ed_reading toy_hash64) (pl_n wplan) (SysConf (fun i => ru_val (r i)) (fun i => ru_cos (r i)))) wjobs /\
    rising (HRS 0 0 0) wjobs /\ length wjobs = 2%nat.
Proof.
  split; [exact ex_hash|]. split; [exact (proj1 C90_example_key)|].
  split. { intros i sk pk [= <- <-]. exists ex_rsa, ex_p, ex_q. split; [exact (proj2 C90_example_key)|]. split; reflexivity. }
  assert (E64 : forall b, length (toy_hash64 b) = 64%nat) by (intros b; unfold toy_hash64; rewrite app_length, !ex_hash; reflexivity).
  assert (Et : take 32 (ex_seed ++ ex_key) = ex_seed) by (apply take_app_alt; reflexivity).
  split. { rewrite Et. apply C93_key. rewrite E64. apply Nat.leb_le. reflexivity. }
  split; [exact wkl_codec|]. split; [exact wplan_ok|].
  split; [apply ConfigProofs.atoi_iff; vm_compute; reflexivity|]. split; [apply ConfigProofs.atoi_iff; vm_compute; reflexivity|].
  destruct (any_cluster (real toy_hash64 toy_hash part_text) (ed_deals _ _ _ _) (ed_expand toy_hash64) [x01; x02; x03] ex_gens
    (fun i => ex_intro _ _ eq_refl) ex_key (ex_seed ++ ex_key) (ed_base_length _)) as (l & r & h & H1 & H2 & H3).
  { rewrite app_length. apply Nat.le_add_r. }
  exists l, r, h. split; [exact H1|]. split; [exact H2|]. split; [|split; [exact wjobs_rising|reflexivity]].
  apply (any_jobs ex_key); [done|exact H3].
Qed.

Print Assumptions C93_verify.
Print Assumptions C93_verify_key.
Print Assumptions C93_base.
Print Assumptions C93_key.
Print Assumptions C93_scheme.
Print Assumptions C93_signs.
Print Assumptions C93_only_valid.
Print Assumptions C93_share_hidden_partial.
