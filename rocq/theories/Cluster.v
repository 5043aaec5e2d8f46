(** A cluster of cosigners (cmd/horcrux/cmd/cosigner.go:106-260 starts one per host).

    Cosigners do not call each other: every RPC of signer/grpc_server.go that reaches a cosigner
    comes from some leader (signer/threshold_validator.go) or from anyone else who can open a TCP
    connection (the gRPC server has no authentication). The network and all leaders, honest or
    not, are the source of arbitrary operations, so a cluster history is one arbitrary run per
    cosigner. *)
From Verif Require Import GoBase Canonical SignState Spec Crypto LocalCosigner CosignerSpec.

(** what happened at one cosigner *)
Record node := Node {
  nd_cfg : cos_config; nd_start : cos_state; nd_log : list (cop * cobs); nd_end : cos_state }.

(** the cosigner ran horcrux *)
Definition runs_horcrux (C : Crypto) (n : node) : Prop :=
  crun C (nd_cfg n) (nd_start n) (nd_log n) (nd_end n).

(** cluster: share ID to node; [faulty] IDs may do anything *)
Definition cluster := gmap Z node.
Definition correct (C : Crypto) (cl : cluster) (faulty : gset Z) : Prop :=
  forall i nd, cl !! i = Some nd -> i ∉ faulty -> runs_horcrux C nd.

(** the cosigners in [q] provided shares for [sb] (faulty ones always can) *)
Definition signed_by (cl : cluster) (faulty q : gset Z) (sb : bytes) : Prop :=
  forall i, i ∈ q -> exists nd, cl !! i = Some nd /\ (i ∉ faulty -> released (nd_log nd) sb).
