(** Vocabulary for statements about the gRPC messages. *)
From Verif Require Import GoBase Canonical Spec LocalCosigner Validator.
Local Open Scope Z_scope.

(** values of the Go types that the messages can represent: IDs are int32, nanoseconds int64, an empty
    byte field is nil *)
Definition key_ok (k : hrst) : Prop :=
  in_int64 (h_height (ht_hrs k)) /\ in_int64 (h_round (ht_hrs k)) /\ in_int8 (h_step (ht_hrs k)) /\ in_int64 (ht_time k).
Definition part_ok (p : part) : Prop :=
  in_int32 (pt_source p) /\ in_int32 (pt_dest p) /\ pt_sig p <> Some [].
Definition block_ok (b : block) : Prop :=
  in_int64 (h_height (b_hrs b)) /\ in_int64 (h_round (b_hrs b)) /\ in_int8 (h_step (b_hrs b)) /\
  0 <= t_nanos (b_ts b) < 10 ^ 9 /\ in_int64 (nanos_of (b_ts b)).

