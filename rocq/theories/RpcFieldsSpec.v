(** Vocabulary for statements about messages between cosigners as a peer may send them: fields of
    any number, in any order, repeated or missing (protobuf encoding and language specification). *)
From Verif Require Import GoBase Wire Canonical LocalCosigner Validator.
Local Open Scope Z_scope.

(** the value of a field with its wire type: varint (0), 64 bits (1), length and bytes (2), 32 bits (5) *)
Inductive fval := FInt (v : Z) | FFixed64 (v : Z) | FBytes (b : bytes) | FFixed32 (v : Z).
Definition field : Type := Z * fval.
Definition wire_type (v : fval) : Z :=
  match v with FInt _ => 0 | FFixed64 _ => 1 | FBytes _ => 2 | FFixed32 _ => 5 end.
Definition payload (v : fval) : bytes :=
  match v with
  | FInt v => varint_enc v
  | FFixed64 v => le_enc 8 v
  | FBytes b => varint_enc (Z.of_nat (length b)) ++ b
  | FFixed32 v => le_enc 4 v
  end.
Definition enc_field (f : field) : bytes := varint_enc (fst f * 8 + wire_type (snd f)) ++ payload (snd f).
Definition enc (fs : list field) : bytes := flat_map enc_field fs.
Definition field_ok (f : field) : Prop :=
  1 <= fst f < 2 ^ 29 /\
  match snd f with
  | FInt v => 0 <= v < 2 ^ 64
  | FFixed64 v => 0 <= v < 2 ^ 64
  | FBytes b => Z.of_nat (length b) < 2 ^ 63
  | FFixed32 v => 0 <= v < 2 ^ 32
  end.

(** the values given for field [n] with the wire type it is declared with, in order *)
Definition ints (n : Z) (fs : list field) : list Z :=
  omap (fun f => match f with (k, FInt v) => if k =? n then Some v else None | _ => None end) fs.
Definition byte_vals (n : Z) (fs : list field) : list bytes :=
  omap (fun f => match f with (k, FBytes b) => if k =? n then Some b else None | _ => None end) fs.
(** the last one counts; zero and empty are the defaults *)
Definition last_int (n : Z) (fs : list field) : Z := default 0 (list.last (ints n fs)).
Definition last_bytes (n : Z) (fs : list field) : bytes := default [] (list.last (byte_vals n fs)).
(** the low bits, as a signed number *)
Definition signed (bits v : Z) : Z := (v + 2 ^ (bits - 1)) mod 2 ^ bits - 2 ^ (bits - 1).

(** field [n] has messages as values, these in order *)
Definition submessages (n : Z) (fs : list field) (ms : list (list field)) : Prop :=
  byte_vals n fs = map enc ms /\ Forall (Forall field_ok) ms.

(** cosigner_grpc_server.proto: what the fields of each message mean *)
Definition key_meant (fs : list field) : hrst :=
  HRST (HRS (signed 64 (last_int 1 fs)) (signed 64 (last_int 2 fs)) (signed 8 (last_int 3 fs))) (signed 64 (last_int 4 fs)).
Definition part_meant (fs : list field) : part :=
  Part (signed 32 (last_int 1 fs)) (signed 32 (last_int 2 fs)) (last_bytes 3 fs) (last_bytes 4 fs) (list.last (byte_vals 5 fs)).
(** nanoseconds since 1970 *)
Definition instant (n : Z) : time := Time (n / 1000000000) (n mod 1000000000).
Definition block_meant (fs : list field) : block :=
  Block (HRS (signed 64 (last_int 1 fs)) (signed 64 (last_int 2 fs)) (signed 8 (last_int 3 fs)))
    (last_bytes 4 fs) (instant (signed 64 (last_int 5 fs))).
