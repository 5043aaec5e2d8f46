(** Vocabulary for statements about RSA keys. *)
From Coq Require Import Znumtheory.
From Verif Require Import GoBase KeyFile Pkcs1 Rsa.
Local Open Scope Z_scope.

(** a key as RSA requires: two different primes, their product, and exponents that are inverse to each
    other modulo each prime less 1 *)
Definition rsa_good (k : rsa_key) (p q : Z) : Prop :=
  prime p /\ prime q /\ p <> q /\ rk_primes k = [p; q] /\ rk_n k = p * q /\
  2 <= rk_e k <= 2 ^ 31 - 1 /\ 0 < rk_d k /\ (rk_e k * rk_d k) mod (p - 1) = 1 /\ (rk_e k * rk_d k) mod (q - 1) = 1.
(** a key as rsa.GenerateKey(rand.Reader, bits) makes it for an even number of bits (cosigner_key_shares.go:67-68: 4096) *)
Definition generated (bits : Z) (k : rsa_key) (p q : Z) : Prop :=
  prime p /\ prime q /\ p <> q /\ 2 ^ (bits / 2 - 1) <= p < 2 ^ (bits / 2) /\ 2 ^ (bits / 2 - 1) <= q < 2 ^ (bits / 2) /\
  2 ^ (bits - 1) <= p * q < 2 ^ bits /\
  rk_primes k = [p; q] /\ rk_n k = p * q /\ rk_e k = 65537 /\
  0 <= rk_d k < (p - 1) * (q - 1) /\ (65537 * rk_d k) mod ((p - 1) * (q - 1)) = 1.
(** sizes for which a share fits into a message, up to a million bits *)
Definition usual_size (bits : Z) : Prop := 777 <= bits <= 2 ^ 20.
(** a hash function of 32 bytes *)
Definition hash32 (H : bytes -> bytes) : Prop := forall b, length (H b) = 32%nat.
(** two inputs with the same hash *)
Definition collide (H : bytes -> bytes) (x y : bytes) : Prop := x <> y /\ H x = H y.
(** what RSA-PSS hashes to bind a digest and a salt (RFC 8017, 9.1.1) *)
Definition pss_input (digest salt : bytes) : bytes := repeat x00 8 ++ digest ++ salt.
