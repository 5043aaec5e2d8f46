(** Who listens where and who dials whom: addresses taken from the configuration by the raft store
    (raft_store.go:87-96, 129-135, 165-192), by the gRPC client (remote_cosigner.go:49-62), by the
    command elect (cmd/horcrux/cmd/leader_election.go:23-113) and by the connection to a node
    (remote_signer.go:77-78).

    Not modelled: name resolution, the exchange that follows a connection, gRPC health checks that
    make elect talk to the leader only. *)
From Coq Require Import Strings.String.
From Verif Require Import GoBase Json Url Config.
Local Open Scope Z_scope.

(** the functions of the standard library that config.go asks (config.go:95-107, 205, 213, 630);
    time.ParseDuration stays a parameter *)
Definition go_lib (dur : bytes -> bool) : Lib := {|
  lib_url := fun s => match url_host s with Some _ => true | None => false end;
  lib_duration := dur;
  lib_host := fun s => match url_host s with Some h => option_map fst (split_host_port h) | None => None end |}.

(** raft_store.go:129-135 p2pURLToRaftAddress; remote_cosigner.go:50-57 computes the same *)
Definition raft_address (url : bytes) : bytes := match url_host url with Some h => h | None => url end.

(** the port of net.Listen("tcp", ":port"): digits up to 65535; nothing and 0 mean any free port.
    Simplified: signs and service names ("http") are taken as failing. *)
Definition tcp_port (s : bytes) : option Z :=
  match s with
  | [] => Some 0
  | _ =>
      match parse_digits s with
      | Some d => let z := Z.of_int (Decimal.Pos d) in if z <=? 65535 then Some z else None
      | None => None
      end
  end.
(** raft_store.go:87-96: the port listened on; [None]: the error of init, which the goroutine of
    OnStart (117-123) turns into a panic. A port that is in use fails as well; not modelled. *)
Definition raft_bind (listen : bytes) : option Z :=
  match split_host_port (raft_address listen) with
  | None => None
  | Some (_, port) => tcp_port port
  end.

(** ** elect *)

(** leader_election.go:52-60, 62-72: one address, host and port joined with ':' *)
Definition elect_address (url : bytes) : option bytes :=
  match url_host url with
  | None => None
  | Some h =>
      match split_host_port h with
      | Some (host, port) => Some (host ++ ":"%byte :: port)
      | None => None
      end
  end.
(** strings.Join(l, ",") *)
Fixpoint join_commas (l : list bytes) : bytes :=
  match l with
  | [] => []
  | [x] => x
  | x :: l' => x ++ ","%byte :: join_commas l'
  end.
Definition elect_addresses (s : cosigner_section) : list bytes :=
  omap elect_address (co_listen s :: map pe_addr (co_peers s)).

Inductive elect_error := EeNoConfig | EeNoCosigner | EeNoPeers.
(** leader_election.go:34-77: the line printed, which is the target dialed *)
Definition elect_cmd (c : option config) : elect_error + bytes :=
  match c with
  | None => inl EeNoConfig
  | Some c =>
      match cf_cosigner c with
      | None => inl EeNoCosigner
      | Some s =>
          match co_peers s with
          | [] => inl EeNoPeers
          | _ => inr (lit "multi:///" ++ join_commas (elect_addresses s))
          end
      end
  end.
(** grpc-multi-resolver: what follows "multi:///" is split at commas, each part is dialed *)
Definition multi_targets (line : bytes) : list bytes := split ","%byte (drop 9 line).

(** ** Nodes *)

(** tendermint libs/net ProtocolAndAddress (SplitN(s, "://", 2)), used in remote_signer.go:77 *)
Fixpoint cut_scheme (s : bytes) : option (bytes * bytes) :=
  match s with
  | [] => None
  | c :: r =>
      match s with
      | ":"%byte :: "/"%byte :: "/"%byte :: r' => Some ([], r')
      | _ => match cut_scheme r with Some (a, b) => Some (c :: a, b) | None => None end
      end
  end.
Definition protocol_and_address (s : bytes) : bytes * bytes :=
  match cut_scheme s with Some x => x | None => (lit "tcp", s) end.
(** net.Dial: the stream networks it knows *)
Definition known_network (p : bytes) : bool :=
  bool_decide (p ∈ [lit "tcp"; lit "tcp4"; lit "tcp6"; lit "unix"]).
