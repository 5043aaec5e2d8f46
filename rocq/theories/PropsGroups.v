(** Unknown groups in the sign bytes (C92). *)
From Verif Require Import GoBase Wire Canonical RpcFieldsSpec GoFieldsSpec GroupSpec GroupProofs.
Local Open Scope Z_scope.

(** A group with a number beyond the declared fields, nested or not, changes nothing about what is signed. *)
Theorem C92_group : forall fs fs' n g rest rest', Forall field_ok fs -> group n g -> 7 < n ->
  Z.of_nat (length (enc fs ++ g ++ enc fs')) < 2 ^ 63 - 1 ->
  unpack_hrst (delimited (enc fs ++ g ++ enc fs') ++ rest) = unpack_hrst (delimited (enc fs ++ enc fs') ++ rest').
Proof. exact key_group. Qed.
Theorem C92_group_decoded : forall fs fs' n g rest rest', Forall field_ok fs -> group n g -> 7 < n ->
  Z.of_nat (length (enc fs ++ g ++ enc fs')) < 2 ^ 63 - 1 ->
  decode_vote (delimited (enc fs ++ g ++ enc fs') ++ rest) = decode_vote (delimited (enc fs ++ enc fs') ++ rest') /\
  decode_proposal (delimited (enc fs ++ g ++ enc fs') ++ rest) = decode_proposal (delimited (enc fs ++ enc fs') ++ rest').
Proof. exact decode_group. Qed.

(** the premises can hold: a group in a group *)
Example C92_group_example : exists g, group 9 g /\ (0 < length g)%nat.
Proof.
  exists (start_group 9 ++ (start_group 10 ++ [] ++ end_group 10 ++ []) ++ end_group 9). split; [|vm_compute; lia].
  split; [lia|]. exists (start_group 10 ++ [] ++ end_group 10 ++ []). split; [|done]. apply ct_group; [lia|constructor|constructor].
Qed.
