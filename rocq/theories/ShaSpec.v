(** SHA-256 and SHA-512 as FIPS 180-4 describes them: bits of words and relations only. *)
From Coq Require Import Znumtheory Sorting.Sorted.
From Verif Require Import GoBase EdSpec.
Local Open Scope Z_scope.

(** what differs between the two (4.1.2, 4.1.3): bits of a word, number of rounds, and the counts of the
    functions sigma0, sigma1 (two rotations and a shift), SIGMA0 and SIGMA1 (three rotations) *)
Record fips := Fips { fi_w : Z; fi_rounds : nat;
  fi_small0 : Z * Z * Z; fi_small1 : Z * Z * Z; fi_big0 : Z * Z * Z; fi_big1 : Z * Z * Z }.
Definition fips256 : fips := Fips 32 64 (7, 18, 3) (17, 19, 10) (2, 13, 22) (6, 11, 25).
Definition fips512 : fips := Fips 64 80 (1, 8, 7) (19, 61, 6) (28, 34, 39) (14, 18, 41).

(** [b] is the number [n] in [k] bytes, most significant first *)
Definition big_endian (k : nat) (n : Z) (b : bytes) : Prop :=
  length b = k /\ 0 <= n < 256 ^ Z.of_nat k /\
  forall i x, b !! i = Some x -> bz x = (n / 256 ^ (Z.of_nat k - 1 - Z.of_nat i)) mod 256.

(** all primes up to some number, in order: the list of a given length is the first primes *)
Definition first_primes (ps : list Z) : Prop :=
  Forall prime ps /\ StronglySorted Z.lt ps /\ forall p q, q ∈ ps -> prime p -> p <= q -> p ∈ ps.

Section Fips.
Context (F : fips).
Definition is_word (x : Z) : Prop := 0 <= x < 2 ^ fi_w F.
(** 3.2: bit [i] of ROTR n x and of SHR n x *)
Definition rot_bit (x n i : Z) : bool := Z.testbit x ((i + n) mod fi_w F).
Definition shift_bit (x n i : Z) : bool := if i + n <? fi_w F then Z.testbit x (i + n) else false.
Definition is_big (c : Z * Z * Z) (x r : Z) : Prop := let '(n1, n2, n3) := c in
  is_word r /\ forall i, 0 <= i < fi_w F ->
    Z.testbit r i = xorb (xorb (rot_bit x n1 i) (rot_bit x n2 i)) (rot_bit x n3 i).
Definition is_small (c : Z * Z * Z) (x r : Z) : Prop := let '(n1, n2, n3) := c in
  is_word r /\ forall i, 0 <= i < fi_w F ->
    Z.testbit r i = xorb (xorb (rot_bit x n1 i) (rot_bit x n2 i)) (shift_bit x n3 i).
(** 4.1: x chooses between y and z; the majority of three *)
Definition is_ch (x y z r : Z) : Prop :=
  is_word r /\ forall i, 0 <= i < fi_w F -> Z.testbit r i = if Z.testbit x i then Z.testbit y i else Z.testbit z i.
Definition is_maj (x y z r : Z) : Prop :=
  is_word r /\ forall i, 0 <= i < fi_w F ->
    Z.testbit r i = if Bool.eqb (Z.testbit x i) (Z.testbit y i) then Z.testbit x i else Z.testbit z i.
(** sums of words are taken modulo 2^w (3.2) *)
Definition adds (r : Z) (l : list Z) : Prop := is_word r /\ (fold_right Z.add 0 l - r) mod 2 ^ fi_w F = 0.

(** 4.2, 5.3: the first bits of the fractional part of the [e]-th root of [p] *)
Definition root_bits (e p k : Z) : Prop :=
  is_word k /\ exists q, 0 <= q /\ q ^ e <= p * 2 ^ (e * fi_w F) < (q + 1) ^ e /\ (q - k) mod 2 ^ fi_w F = 0.
Definition constants (ks : list Z) : Prop :=
  length ks = fi_rounds F /\ exists ps, first_primes ps /\ Forall2 (root_bits 3) ps ks.
Definition initial (hs : list Z) : Prop :=
  length hs = 8%nat /\ exists ps, first_primes ps /\ Forall2 (root_bits 2) ps hs.

(** 5.1: the message, a bit 1, the fewest zeros that fill the last block, the length in bits *)
Definition word_bytes : nat := Z.to_nat (fi_w F / 8).
Definition padded (m b : bytes) : Prop :=
  let fills (z : nat) := Nat.modulo (length m + 1 + z + 2 * word_bytes) (16 * word_bytes) = O in
  exists z n, b = m ++ x80 :: repeat x00 z ++ n /\ big_endian (2 * word_bytes) (8 * Z.of_nat (length m)) n /\
    fills z /\ forall z', (z' < z)%nat -> ~ fills z'.
(** 5.2: words written one after the other *)
Definition in_words (ws : list Z) (b : bytes) : Prop :=
  exists bs, Forall2 (big_endian word_bytes) ws bs /\ b = concat bs.

(** 6.2.2, 6.4.2, step 1: the message schedule *)
Definition schedule (block ws : list Z) : Prop :=
  length ws = fi_rounds F /\ take 16 ws = block /\
  forall t x0 x1 x9 x14 x16, ws !! t = Some x0 -> ws !! (t + 1)%nat = Some x1 -> ws !! (t + 9)%nat = Some x9 ->
    ws !! (t + 14)%nat = Some x14 -> ws !! (t + 16)%nat = Some x16 ->
    exists s0 s1, is_small (fi_small0 F) x1 s0 /\ is_small (fi_small1 F) x14 s1 /\ adds x16 [s1; x9; s0; x0].
(** step 3: one round *)
Inductive one_round (k x : Z) : list Z -> list Z -> Prop :=
| one_round_intro a b c d e f g h s1 ch s0 maj t1 t2 a' e' :
    is_big (fi_big1 F) e s1 -> is_ch e f g ch -> adds t1 [h; s1; ch; k; x] ->
    is_big (fi_big0 F) a s0 -> is_maj a b c maj -> adds t2 [s0; maj] ->
    adds a' [t1; t2] -> adds e' [d; t1] ->
    one_round k x [a; b; c; d; e; f; g; h] [a'; a; b; c; e'; e; f; g].
Inductive rounds : list Z -> list Z -> list Z -> list Z -> Prop :=
| rounds_0 s : rounds [] [] s s
| rounds_next k ks x xs s s' s'' : one_round k x s s' -> rounds ks xs s' s'' -> rounds (k :: ks) (x :: xs) s s''.
(** step 4, and the loop over the blocks *)
Inductive blocks (ks : list Z) : list (list Z) -> list Z -> list Z -> Prop :=
| blocks_0 s : blocks ks [] s s
| blocks_next block bl ws s s' s1 s2 : length block = 16%nat -> schedule block ws -> rounds ks ws s s' ->
    length s1 = length s -> length s = length s' ->
    (forall i x y z, s !! i = Some x -> s' !! i = Some y -> s1 !! i = Some z -> adds z [x; y]) ->
    blocks ks bl s1 s2 -> blocks ks (block :: bl) s s2.

(** the digest of a message *)
Definition digest (m d : bytes) : Prop :=
  exists ks hs b bl s, constants ks /\ initial hs /\ padded m b /\ in_words (concat bl) b /\ blocks ks bl hs s /\ in_words s d.
End Fips.

(** a function that gives the digest of every message that has one *)
Definition is_hash (F : fips) (H : bytes -> bytes) : Prop :=
  forall m, 8 * Z.of_nat (length m) < 2 ^ (2 * fi_w F) -> digest F m (H m).
(** RFC 8032 with SHA-512: public key of a seed, valid signature *)
Definition rfc_key (seed pub : bytes) : Prop := exists H, is_hash fips512 H /\ public_key H seed pub.
Definition rfc_valid (pub m sig : bytes) : Prop := exists H, is_hash fips512 H /\ valid H pub m sig.
