(** Vocabulary for statements about commands on machines (C79-C82). *)
From Coq Require Import Strings.String.
From Verif Require Import GoBase Canonical SignState Spec Crypto LocalCosigner Json Disk Validator Config ConfigSpec
  KeyFile KeyFileSpec KeyShares System Startup StartupSpec Machine.
Local Open Scope Z_scope.

(** ** Setting up a cluster (C79) *)

(** what the operator decides: [pl_n] hosts with threshold [pl_t]; host [i] is reached at [pl_url i]
    and lists its peers in the order [pl_peers i]; --home, --keyfile, --timeout and the chain nodes
    may differ *)
Record plan := Plan {
  pl_n : Z; pl_t : Z; pl_chain : bytes; pl_url : Z -> bytes; pl_peers : Z -> list Z;
  pl_nodes : Z -> option bytes; pl_timeout : Z -> bytes; pl_flag : Z -> bytes; pl_key : Z -> bytes }.

(** a plan that can work: a threshold at most the number of hosts, a chain ID, host and port in every
    address, and everybody else is listed exactly once *)
Definition plan_ok (L : Lib) (P : plan) : Prop :=
  2 <= pl_n P <= 255 /\ 1 <= pl_t P <= pl_n P /\ pl_chain P <> [] /\
  forall i, 1 <= i <= pl_n P ->
    Permutation (i :: pl_peers P i) (seqZ 1 (pl_n P)) /\
    plain (pl_url P i) /\ pl_url P i <> [] /\ lib_url L (pl_url P i) = true /\
    (exists host, lib_host L (pl_url P i) = Some host /\ host <> lit "0.0.0.0") /\
    lib_duration L (pl_timeout P i) = true /\
    forall a, pl_nodes P i = Some a -> last_ok L (split ","%byte a).

(** the flags of `config init --cosigner` on host [i], with peers as in the documentation *)
Definition plan_flags (P : plan) (i : Z) : init_flags :=
  InitFlags (render (map (fun j => CPeer j (pl_url P j)) (pl_peers P i))) (pl_t P) (pl_url P i) (pl_timeout P i).

(** no configuration in the directory and no state of the chain *)
Definition fresh (dflt : bytes) (P : plan) (i : Z) (m : machine) : Prop :=
  let d := home_of dflt (pl_flag P i) in
  ma_yaml m !! d = None /\
  ma_state m !! (d, pl_chain P ++ lit "_priv_validator_state.json") = None /\
  ma_state m !! (d, pl_chain P ++ lit "_share_sign_state.json") = None.

(** the operator runs config init, then copies a key file to the place where it is looked for *)
Definition installs (L : Lib) (dflt : bytes) (P : plan) (i : Z) (text : bytes) (m0 m : machine) : Prop :=
  exists m1, init_cmd L dflt m0 (pl_flag P i) false (pl_chain P) (pl_nodes P i) (Some (plan_flags P i)) (pl_key P i) = Val m1 /\
    m = put_key m1 (match pl_key P i with [] => home_of dflt (pl_flag P i) ++ lit "/share.json" | p => p end) text.

(** the text of private_share_<i>.json among the files written *)
Definition share_text (KL : KeyLib (bytes * bytes) bytes) (l : list (Z * Config.cosigner_key)) (i : Z) (text : bytes) : Prop :=
  exists k, (i, k) ∈ l /\ marshal_key KL (file_key k) = Some text.

(** host [i] of the cluster: set up on some fresh machine and started *)
Definition started (L : Lib) (KL : KeyLib (bytes * bytes) bytes) (dflt : bytes) (P : plan)
    (l : list (Z * Config.cosigner_key)) (i : Z) (r : running) (h : host) : Prop :=
  exists text m0 m m', share_text KL l i text /\ fresh dflt P i m0 /\ installs L dflt P i text m0 m /\
    start_cmd L KL dflt m (pl_flag P i) = Val (r, h, m').

(** the hosts together, before the first event *)
Definition cluster (P : plan) (h : Z -> host) : system :=
  System (list_to_map (map (fun i => (i, h i)) (seqZ 1 (pl_n P)))) [] [].

(** ** Watermarks (C80, C82) *)

Definition mark_at (m : machine) (p : bytes * bytes) : option hrs := watermark (ma_state m !! p).
(** the share state a start with this flag would use *)
Definition used_share (dflt : bytes) (m : machine) (flag : bytes) : option (bytes * bytes) :=
  match config_at dflt m flag with Some y => Some (share_file y) | None => None end.
(** home-dir in config.yaml names the directory it is in *)
Definition at_home (dflt : bytes) (m : machine) (flag : bytes) : Prop :=
  forall y, config_at dflt m flag = Some y -> ya_home y = home_of dflt flag.
(** the file was not readable, or its watermark is not lower afterwards *)
Definition not_lowered (m m' : machine) (p : bytes * bytes) : Prop :=
  forall k, mark_at m p = Some k -> exists k', mark_at m' p = Some k' /\ hrs_le k k'.

(** ** Crashes (C81) *)

(** the argument of an editing command is well formed *)
Definition args_ok (L : Lib) (cmd : config_cmd) : Prop :=
  match cmd with
  | NodesAdd a | NodesRemove a => last_ok L (split ","%byte a)
  | PeersAdd a => exists l, flag_of a l
  | PeersRemove _ => True
  | SetShares a => exists z, decimal a z /\ in_int64 z
  end.
(** it is about the cosigner section *)
Definition for_cosigners (cmd : config_cmd) : Prop :=
  match cmd with PeersAdd _ | PeersRemove _ | SetShares _ => True | _ => False end.
(** --home is absent or names no directory *)
Definition no_such_home (m : machine) (flag : bytes) : Prop := flag = [] \/ flag ∉ ma_dirs m.

Definition is_chain (c : command) : Prop := match c with CChain _ => True | _ => False end.
