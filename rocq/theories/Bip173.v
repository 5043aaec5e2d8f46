(** BIP 173 (bech32), stated for C83 without the functions of Bech32.v: the checksum is a polynomial over
    the field with 32 elements, the message divided by the generator leaves the remainder 1. *)
From Coq Require Import Strings.String.
From Verif Require Import GoBase Json AddressSpec.
Local Open Scope Z_scope.

(** ** The field: polynomials over {0, 1} modulo x^5 + x^3 + 1, as numbers below 32 *)
Definition times_x (a : Z) : Z := if a <? 16 then 2 * a else Z.lxor (2 * a) 41.
Definition gf_mul (a b : Z) : Z :=
  fold_right Z.lxor 0 (map (fun i => if Z.testbit b (Z.of_nat i) then Nat.iter i times_x a else 0) (seq 0 5)).

(** the generator x^6 + 29 x^5 + 22 x^4 + 20 x^3 + 21 x^2 + 29 x + 18, without its first coefficient *)
Definition generator : list Z := [29; 22; 20; 21; 29; 18].
(** long division: the multiple of the generator that removes the first coefficient is subtracted *)
Inductive remainder : list Z -> list Z -> Prop :=
| rem_done l : length l = 6%nat -> remainder l l
| rem_step c hs rest r : length hs = 6%nat ->
    remainder (zip_with Z.lxor hs (map (gf_mul c) generator) ++ rest) r -> remainder (c :: hs ++ rest) r.

(** ** Texts *)
(** the table of BIP 173, rows 0, +8, +16, +24 *)
Definition bip_table : list byte := lit "qpzry9x8" ++ lit "gf2tvdw0" ++ lit "s3jn54kh" ++ lit "ce6mua7l".
Definition bip_char (v : Z) (c : byte) : Prop := 0 <= v /\ bip_table !! Z.to_nat v = Some c.
(** the low [n] bits, highest first *)
Definition word_bits (n : nat) (z : Z) : list bool := map (fun k => Z.testbit z (Z.of_nat k)) (rev (seq 0 n)).

(** the lower case text [t] is the bech32 of [data] with the human-readable part [hrp] *)
Definition bip173 (hrp data t : bytes) : Prop :=
  hrp <> [] /\ Forall prefix_byte hrp /\
  exists vs cs chars pad, length cs = 6%nat /\ (pad < 5)%nat /\
    t = hrp ++ ["1"%byte] ++ chars /\ Forall2 bip_char (vs ++ cs) chars /\
    flat_map (word_bits 5) vs = flat_map (fun b => word_bits 8 (bz b)) data ++ replicate pad false /\
    remainder (1 :: map (fun b => bz b / 32) hrp ++ [0] ++ map (fun b => bz b mod 32) hrp ++ vs ++ cs) [0; 0; 0; 0; 0; 1].
