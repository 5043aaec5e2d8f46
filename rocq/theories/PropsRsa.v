(** C68 and C90: RSA keys and what cosigners do with them (signer/cosigner_key.go, local_cosigner.go) *)
From Coq Require Import Znumtheory Strings.String.
From Verif Require Import GoBase Crypto Json KeyFile KeyFileSpec Pkcs1 Pkcs1Proofs Rsa RsaSpec NumTheory RsaProofs Scheme.
From Verif Require Import Privval.
Local Open Scope Z_scope.

(** C68 with the codecs of the standard library: the key file that create-shares writes is read back, whatever
    the keys are *)
Theorem C68_generated : forall amino bits k, usual_size bits -> (exists p q, generated bits (ck_rsa k) p q) ->
  Forall (fun pub => exists k' p q, generated bits k' p q /\ pub = public_of k') (ck_rsas k) -> key_ok k ->
  exists t, marshal_key (rsa_lib amino) k = Some t /\ load_key (rsa_lib amino) (Some t) = Val k.
Proof. exact file_round_trip. Qed.
Print Assumptions C68_generated.

(** C68: the RSA keys of a file that loads satisfy the equations of RSA. What is missing: that the factors are prime
    and different (C90_composite_refuted). *)
Theorem C68_rsa_partial : forall amino f k, load_key (rsa_lib amino) f = Val k ->
  (2 <= rk_e (ck_rsa k) <= 2 ^ 31 - 1 /\ 0 < rk_d (ck_rsa k) /\ (2 <= length (rk_primes (ck_rsa k)))%nat /\
   Forall (fun p => 1 < p /\ (rk_e (ck_rsa k) * rk_d (ck_rsa k)) mod (p - 1) = 1) (rk_primes (ck_rsa k)) /\
   fold_right Z.mul 1 (rk_primes (ck_rsa k)) = rk_n (ck_rsa k)) /\
  Forall (fun pub => 0 < rp_n pub /\ 0 < rp_e pub <= 2 ^ 31 - 1) (ck_rsas k).
Proof. exact file_loaded. Qed.
Print Assumptions C68_rsa_partial.

(** C90: what is encrypted for a cosigner with its public key, it decrypts with its private key: for every key, hash
    function, message, random bytes and blinding. A message is refused exactly if it is too long. *)
Theorem C90_shares : forall H, hash32 H -> forall k p q draws msg r, rsa_good k p q -> is_Some (blind (rk_n k) draws) ->
  (rsa_size (rk_n k) < Z.of_nat (length msg) + 66 /\ encrypt_oaep H (public_of k) msg r = None) \/
  (Z.of_nat (length msg) + 66 <= rsa_size (rk_n k) /\
   exists c, encrypt_oaep H (public_of k) msg r = Some c /\ Z.of_nat (length c) = rsa_size (rk_n k) /\
             decrypt_oaep H k draws c = Some msg).
Proof. exact oaep_round_trip. Qed.
Print Assumptions C90_shares.

(** C90: what a cosigner signs with its private key, the others accept with its public key *)
Theorem C90_signature : forall H, hash32 H -> forall k p q draws digest r, rsa_good k p q -> is_Some (blind (rk_n k) draws) ->
  length digest = 32%nat -> 2 ^ 265 <= rk_n k ->
  exists sig, sign_pss H k draws digest r = Some sig /\ verify_pss H (public_of k) digest sig = true.
Proof. exact pss_round_trip. Qed.
Print Assumptions C90_signature.

(** C90: a signature that is accepted for two digests shows two inputs, these digests with one salt, that the hash
    function does not tell apart *)
Theorem C90_one_digest : forall H pub d1 d2 sig,
  verify_pss H pub d1 sig = true -> verify_pss H pub d2 sig = true ->
  d1 = d2 \/ exists salt, collide H (pss_input d1 salt) (pss_input d2 salt).
Proof. exact verify_binds. Qed.
Print Assumptions C90_one_digest.

(** C90: no two parts have the same text, so a signature that is accepted for two parts under one key shows a
    collision: between the texts, or between their digests with one salt *)
Theorem C90_text : forall p1 p2, part_text p1 = part_text p2 -> p1 = p2.
Proof. exact part_text_inj. Qed.
Print Assumptions C90_text.
Theorem C90_one_part : forall C H pk p1 p2 sig,
  cr_rsa_verify (with_rsa C H part_text) pk p1 sig = true -> cr_rsa_verify (with_rsa C H part_text) pk p2 sig = true ->
  p1 = p2 \/ collide H (part_text p1) (part_text p2) \/
  exists salt, collide H (pss_input (H (part_text p1)) salt) (pss_input (H (part_text p2)) salt).
Proof. exact signature_binds. Qed.
Print Assumptions C90_one_part.
(** the text of a part, byte for byte *)
Example C90_text_example : part_text (Payload 2 [x01; x02; x03] [xff]) =
  lit "{""SourceID"":""2"",""DestinationID"":""0"",""SourceEphemeralSecretPublicKey"":""AQID"",""EncryptedSharePart"":""/w=="",""SourceSig"":null}".
Proof. reflexivity. Qed.

(** C90: the private operation, with blinding and the Chinese remainder theorem, is the power with the private
    exponent; numbers larger than the modulus are refused *)
Theorem C90_blinding : forall k p q draws c, rsa_good k p q -> is_Some (blind (rk_n k) draws) ->
  raw_decrypt k draws c = if rk_n k <? c then None else Some (c ^ rk_d k mod rk_n k).
Proof. exact raw_decrypt_spec. Qed.
Print Assumptions C90_blinding.

(** C90: the keys that create-shares makes are such keys, and the text of one half in one file fits the text of the
    other half in another: the assumption [rsa_pair] of C53-C56 and C66 holds for them *)
Theorem C90_pair : forall C H text R bits k p q, usual_size bits -> generated bits k p q -> hash32 H ->
  (forall b, rd_is_scalar R b -> length b = 32%nat) ->
  rsa_pair (with_rsa C H text) R (sk_text k) (pk_text (public_of k)).
Proof. exact generated_pair. Qed.
Print Assumptions C90_pair.
Theorem C90_scheme : forall C H text R, threshold_scheme C R -> threshold_scheme (with_rsa C H text) R.
Proof. exact scheme_kept. Qed.
Print Assumptions C90_scheme.

(** ** A key of 800 bits *)
Definition ex_p : Z := 105 * 2 ^ 382 + 1.
Definition ex_q : Z := 117 * 2 ^ 382 + 1.
Definition ex_d : Z := 584426005681263501914867555168686968880509646943017179905694115061356376197806212426528358296448717128767132367725135166497956962014502636281063755613210408521824448138218705991147200504052967324669895318523541938702769136960471498753.
Definition ex_rsa : rsa_key := RsaKey (ex_p * ex_q) 65537 ex_d [ex_p; ex_q].
(** a function of 32 bytes that is easy to compute *)
Definition toy_hash (b : bytes) : bytes := take 32 (rev b ++ repeat x00 32).
Example ex_hash : hash32 toy_hash.
Proof. intros b. unfold toy_hash. rewrite take_length, app_length, repeat_length. apply Nat.min_l. apply Nat.le_add_l. Qed.
Lemma ex_p_prime : prime ex_p. Proof. apply (proth_test_prime 105 382 13). vm_compute. reflexivity. Qed.
Lemma ex_q_prime : prime ex_q. Proof. apply (proth_test_prime 117 382 11). vm_compute. reflexivity. Qed.
Example C90_example_key : usual_size 778 /\ generated 778 ex_rsa ex_p ex_q.
Proof.
  split; [vm_compute; split; discriminate|]. split; [exact ex_p_prime|]. split; [exact ex_q_prime|].
  split; [vm_compute; discriminate|]. split; [vm_compute; split; [discriminate|reflexivity]|].
  split; [vm_compute; split; [discriminate|reflexivity]|]. split; [vm_compute; split; [discriminate|reflexivity]|].
  split; [done|]. split; [done|]. split; [done|]. split; [vm_compute; split; [discriminate|reflexivity]|vm_compute; reflexivity].
Qed.
(** a signature by a key of 312 bits, accepted for the digest that was signed and for no other *)
Definition ex_pub : rsa_pub := RsaPub 6225952902827524802012047833616988869328332933715936782938904461275156857603501683566971130551 3.
Definition ex_sig : bytes := be 39 1262361410314942078685617028514355053641486952973159481567396235469754619910998187236155086880.
Example C90_example_signature :
  verify_pss toy_hash ex_pub (repeat x05 32) ex_sig = true /\ verify_pss toy_hash ex_pub (repeat x06 32) ex_sig = false.
Proof. split; vm_compute; reflexivity. Qed.
Example C68_example_generated : exists k, (exists p q, generated 778 (ck_rsa k) p q) /\
  Forall (fun pub => exists k' p q, generated 778 k' p q /\ pub = public_of k') (ck_rsas k) /\ key_ok k /\ ck_rsas k <> [].
Proof.
  exists (CKey (PkEd25519 (repeat xab 32)) (Some (repeat x07 32)) ex_rsa 2 [public_of ex_rsa; public_of ex_rsa]).
  pose proof (proj2 C90_example_key) as Hg. split; [exists ex_p, ex_q; exact Hg|]. split.
  - repeat constructor; exists ex_rsa, ex_p, ex_q; (split; [exact Hg|reflexivity]).
  - split; [split; vm_compute; [reflexivity|split; congruence]|done].
Qed.

(** C90 full statement: every cosigner whose key file loads can decrypt what is encrypted for it. False: Validate does
    not test whether the factors are prime, and with a composite factor the share comes out wrong *)
Definition round_trip (k : rsa_key) (draws : list Z) (msg r : bytes) : option bytes :=
  match encrypt_oaep toy_hash (public_of k) msg r with Some c => decrypt_oaep toy_hash k draws c | None => None end.
Definition bad_rsa : rsa_key := RsaKey (3 * 2 ^ 790) 257 10439042536883283533411732953007805707470666755814362544394676474521155087171937368778993140347916037611286794612165974068679270585698787136390832827548569655091823180477010875512175696876775968918461160353786478661754423757600855924578661 [3; 2 ^ 790].
Theorem C90_composite_refuted : exists b k msg r, sk_parse b = Some k /\ (length msg = 32)%nat /\
  is_Some (encrypt_oaep toy_hash (public_of k) msg r) /\ round_trip k [1] msg r <> Some msg.
Proof.
  exists (sk_text bad_rsa), bad_rsa, (repeat x40 32), [x01; x02; x03]. split; [vm_compute; reflexivity|]. split; [done|].
  split; [|vm_compute; discriminate].
  assert (E : match encrypt_oaep toy_hash (public_of bad_rsa) (repeat x40 32) [x01; x02; x03] with Some _ => True | None => False end) by (vm_compute; exact I).
  destruct (encrypt_oaep toy_hash (public_of bad_rsa) (repeat x40 32) [x01; x02; x03]); [eauto|done].
Qed.
Print Assumptions C90_composite_refuted.
