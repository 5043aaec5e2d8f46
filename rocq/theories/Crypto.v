(** Cryptographic primitives called by horcrux, as a record of functions.

    /repo anchors: signer/local_cosigner.go:1-17 (imports) and the calls cited at each field.
    The record has no propositional field: whatever a theorem needs to know about a primitive is
    a hypothesis of that theorem. Randomness is an explicit argument. [option] results: [None] is
    an error return for the RSA operations and a panic for the threshold-ed25519 ones.

    RSA payload: the code signs SHA-256 of the JSON of a CosignerEphemeralSecretPart in which only
    SourceID, the ephemeral public key and the encrypted share are set
    (local_cosigner.go:368-384, 404-410); the model passes that triple. *)
From Verif Require Import GoBase.

Record payload := Payload { pl_source : Z; pl_eph : bytes; pl_enc : bytes }.

Record Crypto := {
  (** tsed25519.ScalarMultiplyBase (local_cosigner.go:347) *)
  cr_base : bytes -> bytes;
  (** tsed25519.DealShares(secret, threshold, total) (local_cosigner.go:279) with its randomness *)
  cr_deal : bytes -> bytes -> Z -> Z -> list bytes;
  (** rsa.EncryptOAEP (local_cosigner.go:362), rsa.DecryptOAEP (454) *)
  cr_encrypt : bytes -> bytes -> bytes -> option bytes;
  cr_decrypt : bytes -> bytes -> option bytes;
  (** rsa.SignPSS (local_cosigner.go:381), rsa.VerifyPSS (421) *)
  cr_rsa_sign : bytes -> payload -> bytes -> option bytes;
  cr_rsa_verify : bytes -> payload -> bytes -> bool;
  (** tsed25519.AddScalars, AddElements (local_cosigner.go:205-206) *)
  cr_add_scalars : list bytes -> option bytes;
  cr_add_elements : list bytes -> option bytes;
  (** edwards25519.ScMinimal (local_cosigner.go:216) *)
  cr_sc_minimal : bytes -> bool;
  (** tsed25519.SignWithShare(message, share, ephShare, pubKey, ephPublic) (221-222) *)
  cr_sign_share : bytes -> bytes -> bytes -> bytes -> bytes -> option bytes;
  (** tsed25519.CombineShares(total, ids, shares) (threshold_validator.go:443) *)
  cr_combine : Z -> list Z -> list bytes -> option bytes;
  (** crypto.PubKey.VerifySignature (threshold_validator.go:451) *)
  cr_verify : bytes -> bytes -> bytes -> bool
}.
