(** Groups of the protobuf wire format (wire types 3 and 4), which no message of the code declares. *)
From Verif Require Import GoBase Wire RpcFieldsSpec.
Local Open Scope Z_scope.

Definition start_group (n : Z) : bytes := varint_enc (n * 8 + 3).
Definition end_group (n : Z) : bytes := varint_enc (n * 8 + 4).
(** fields and groups, one after the other *)
Inductive contents : bytes -> Prop :=
| ct_nil : contents []
| ct_field f t : field_ok f -> contents t -> contents (enc_field f ++ t)
| ct_group n t u : 1 <= n < 2 ^ 29 -> contents t -> contents u -> contents (start_group n ++ t ++ end_group n ++ u).
(** one group *)
Definition group (n : Z) (g : bytes) : Prop :=
  1 <= n < 2 ^ 29 /\ exists t, contents t /\ g = start_group n ++ t ++ end_group n.
