(** Go machine integers, byte strings, nil-able slices and call outcomes.

    Modelled Go notions (no file of /repo in particular):
    - [int64], [int], [int32], [int8], [uint8] are integers [Z] kept in range by the
      explicit wrap functions below; a conversion [int8(x)] is [wrap8 x];
    - [byte] is [Coq.Init.Byte.byte], [[]byte] is [list byte];
    - where the code distinguishes a nil slice from an empty one, the model uses
      [option (list byte)] with [None] for nil;
    - a call returns a value, returns an error, or panics. *)
From Coq Require Export ZArith Lia Bool.
From Coq.Strings Require Export Byte.
From Coq Require Import ZifyBool ZifyNat ZifyN Znumtheory.
From stdpp Require Export base tactics list gmap option.
Global Open Scope Z_scope.

(** ** Integers *)

Definition two_complement (bits : Z) (z : Z) : Z :=
  (z + 2 ^ (bits - 1)) mod 2 ^ bits - 2 ^ (bits - 1).

(** Go conversions to signed integer types: int64/int (64-bit platform), int32, int8. *)
Definition wrap64 (z : Z) : Z := two_complement 64 z.
Definition wrap32 (z : Z) : Z := two_complement 32 z.
Definition wrap8 (z : Z) : Z := two_complement 8 z.
(** Go conversions to unsigned integer types. *)
Definition u64 (z : Z) : Z := z mod 2 ^ 64.
Definition u32 (z : Z) : Z := z mod 2 ^ 32.
Definition u8 (z : Z) : Z := z mod 2 ^ 8.

Definition in_int64 (z : Z) : Prop := - 2 ^ 63 <= z < 2 ^ 63.
Definition in_int32 (z : Z) : Prop := - 2 ^ 31 <= z < 2 ^ 31.
Definition in_int8 (z : Z) : Prop := - 2 ^ 7 <= z < 2 ^ 7.

(** ** Bytes *)

Definition bytes := list byte.
(** numeric value of a byte *)
Definition bz (b : byte) : Z := Z.of_N (Byte.to_N b).
(** the byte with value [z mod 256]: Go's [byte(z)] *)
Definition zb (z : Z) : byte :=
  match Byte.of_N (Z.to_N (z mod 256)) with Some b => b | None => x00 end.

Global Instance byte_eq_dec : EqDecision byte := Byte.byte_eq_dec.

(** [bytes.Equal(a, b)] *)
Definition bytes_equal (a b : bytes) : bool := bool_decide (a = b).

(** contents of a nil-able slice: [nil] reads as the empty slice *)
Definition slice_of (o : option bytes) : bytes := match o with Some b => b | None => [] end.

(** ** Outcomes of Go calls *)

Inductive outcome (E A : Type) : Type :=
| Val (a : A)
| Fail (e : E)
| Panic.
Arguments Val {E A} a.
Arguments Fail {E A} e.
Arguments Panic {E A}.

(** ** Elementary facts *)

Lemma bz_range b : 0 <= bz b < 256.
Proof. unfold bz. pose proof (Byte.to_N_bounded b). lia. Qed.

Lemma zb_bz b : zb (bz b) = b.
Proof.
  unfold zb. pose proof (bz_range b) as Hb.
  rewrite Z.mod_small by lia. unfold bz. rewrite N2Z.id, Byte.of_to_N. reflexivity.
Qed.

Lemma bz_zb z : bz (zb z) = z mod 256.
Proof.
  unfold zb. assert (Hz : 0 <= z mod 256 < 256) by (apply Z.mod_pos_bound; lia).
  destruct (Byte.of_N (Z.to_N (z mod 256))) as [b|] eqn:E.
  - apply Byte.to_of_N_iff in E. unfold bz. rewrite E. lia.
  - apply Byte.of_N_None_iff in E. lia.
Qed.

Lemma bz_inj a b : bz a = bz b -> a = b.
Proof. intros H. rewrite <- (zb_bz a), <- (zb_bz b), H. reflexivity. Qed.

Lemma two_complement_small bits z :
  0 < bits -> - 2 ^ (bits - 1) <= z < 2 ^ (bits - 1) -> two_complement bits z = z.
Proof.
  intros Hb Hz. unfold two_complement.
  assert (E : 2 ^ bits = 2 * 2 ^ (bits - 1)).
  { rewrite <- Z.pow_succ_r by lia. f_equal. lia. }
  rewrite Z.mod_small; lia.
Qed.

Lemma two_complement_range bits z :
  0 < bits -> - 2 ^ (bits - 1) <= two_complement bits z < 2 ^ (bits - 1).
Proof.
  intros Hb. unfold two_complement.
  assert (E : 2 ^ bits = 2 * 2 ^ (bits - 1)).
  { rewrite <- Z.pow_succ_r by lia. f_equal. lia. }
  assert (0 < 2 ^ bits) by (apply Z.pow_pos_nonneg; lia).
  pose proof (Z.mod_pos_bound (z + 2 ^ (bits - 1)) (2 ^ bits)). lia.
Qed.

Lemma two_complement_mod bits z :
  0 < bits -> two_complement bits (z mod 2 ^ bits) = two_complement bits z.
Proof.
  intros Hb. unfold two_complement. f_equal.
  rewrite Zplus_mod_idemp_l. reflexivity.
Qed.

Lemma two_complement_cong bits z z' :
  z mod 2 ^ bits = z' mod 2 ^ bits -> two_complement bits z = two_complement bits z'.
Proof.
  intros H. unfold two_complement. f_equal.
  rewrite <- (Zplus_mod_idemp_l z), <- (Zplus_mod_idemp_l z'), H. reflexivity.
Qed.

Lemma wrap64_small z : in_int64 z -> wrap64 z = z.
Proof. intros H. apply two_complement_small; [lia|exact H]. Qed.
Lemma wrap32_small z : in_int32 z -> wrap32 z = z.
Proof. intros H. apply two_complement_small; [lia|exact H]. Qed.
Lemma wrap8_small z : in_int8 z -> wrap8 z = z.
Proof. intros H. apply two_complement_small; [lia|exact H]. Qed.
Lemma wrap64_range z : in_int64 (wrap64 z).
Proof. apply (two_complement_range 64); lia. Qed.
Lemma wrap32_range z : in_int32 (wrap32 z).
Proof. apply (two_complement_range 32); lia. Qed.
Lemma wrap8_range z : in_int8 (wrap8 z).
Proof. apply (two_complement_range 8); lia. Qed.
Lemma wrap64_u64 z : wrap64 (u64 z) = wrap64 z.
Proof. apply (two_complement_mod 64); lia. Qed.
Lemma wrap32_u32 z : wrap32 (u32 z) = wrap32 z.
Proof. apply (two_complement_mod 32); lia. Qed.
Lemma wrap32_u64 z : wrap32 (u64 z) = wrap32 z.
Proof.
  apply (two_complement_cong 32). unfold u64. symmetry. apply Zmod_div_mod; [lia|lia|].
  exists (2 ^ 32). reflexivity.
Qed.
Lemma u32_u64 z : u32 (u64 z) = u32 z.
Proof.
  unfold u32, u64. symmetry. apply Zmod_div_mod; [lia|lia|].
  exists (2 ^ 32). reflexivity.
Qed.

Lemma bytes_equal_spec a b : bytes_equal a b = true <-> a = b.
Proof. unfold bytes_equal. apply bool_decide_eq_true. Qed.
Lemma bytes_equal_refl a : bytes_equal a a = true.
Proof. apply bytes_equal_spec. reflexivity. Qed.
