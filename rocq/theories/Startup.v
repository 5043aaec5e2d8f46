(** Start of a cosigner process: raft membership (raft_store.go:140-197), the order in which the
    validator becomes known to the raft store (cosigner.go:214-243, raft_store.go:83-127), and the
    check for a running signer (state.go:124-128). *)
From Coq Require Import Strings.String.
From Verif Require Import GoBase Canonical SignState Json Utf8 Raft Disk Config.
Local Open Scope Z_scope.

(** ** Membership *)

(** raft_store.go:179-192: ourselves, then the configured peers. [host] is p2pURLToRaftAddress
    (129-135); the node ID is fmt.Sprint(key.ID) (cosigner.go:217) *)
Definition boot_servers (host : bytes -> bytes) (id : Z) (listen : bytes) (peers : list cpeer)
  : list server :=
  (print_int id, host listen) :: map (fun p => (print_int (pe_id p), host (pe_addr p))) peers.

(** raft_store.go:193 BootstrapCluster, whose error is ignored. hashicorp/raft api.go BootstrapCluster:
    refused if the configuration is not valid or if the stores already hold a state; [old] is the
    membership in the stores. The result is the membership the node runs with. *)
Definition bootstrap (old : option (list server)) (new : list server) : option (list server) :=
  match old with
  | Some c => Some c
  | None => if valid_config new then Some new else None
  end.

(** starting a cosigner with a configuration and a key, given the raft directory *)
Definition boot_node (host : bytes -> bytes) (old : option (list server)) (s : cosigner_section)
    (k : cosigner_key) : option (list server) :=
  bootstrap old (boot_servers host (ck_id k) (co_listen s) (co_peers s)).

(** ** The order of events

    cosigner.go:222 raftStore.Start() starts a goroutine (raft_store.go:118-127) that opens raft
    (97), copies the validator into the gRPC server (102-106) and serves (111). The main goroutine
    goes on to create the validator and to store it (cosigner.go:237). Nothing orders the two. *)
Record boot := Boot {
  bt_fsm : fsm;      (* the store, and the sign states behind validator and cosigner *)
  bt_set : bool;     (* s.thresholdValidator has been assigned *)
  bt_open : bool;    (* raft.NewRaft has returned: entries are applied *)
  bt_serve : option bool (* the gRPC server serves; whether its validator is not nil *) }.
Definition boot0 (f : fsm) : boot := Boot f false false None.

Inductive boot_op :=
| BtSet                    (* cosigner.go:237 *)
| BtOpen                   (* raft_store.go:97 *)
| BtServe                  (* raft_store.go:101-111 *)
| BtApply (entry : bytes)  (* raft applies a committed entry, raft_store.go:294 *)
| BtSignBlock              (* a SignBlock call of another cosigner, grpc_server.go:18-35 *).

(** raft_events.go:28-37 dereferences f.thresholdValidator if the event can be read *)
Definition needs_validator (entry : bytes) : bool :=
  match decode_command entry with
  | Some c =>
      if bool_decide (cm_op c = lit "set") then
        if bool_decide (cm_key c = lss_key) then
          match decode_lss (cm_val c) with Some _ => true | None => false end
        else false
      else false
  | None => false
  end.

(** [Fail]: the event cannot happen now; [Panic]: nil pointer dereference, which ends the process *)
Definition boot_step (b : boot) (op : boot_op) : outcome unit boot :=
  match op with
  | BtSet => if bt_set b then Fail tt else Val (Boot (bt_fsm b) true (bt_open b) (bt_serve b))
  | BtOpen => if bt_open b then Fail tt else Val (Boot (bt_fsm b) (bt_set b) true (bt_serve b))
  | BtServe =>
      match bt_open b, bt_serve b with
      | true, None => Val (Boot (bt_fsm b) (bt_set b) true (Some (bt_set b)))
      | _, _ => Fail tt
      end
  | BtApply e =>
      if bt_open b then
        if needs_validator e && negb (bt_set b) then Panic
        else Val (Boot (apply_entry (bt_fsm b) e) (bt_set b) (bt_open b) (bt_serve b))
      else Fail tt
  | BtSignBlock =>
      match bt_serve b with
      | None => Fail tt
      | Some true => Val b
      | Some false => Panic
      end
  end.

Fixpoint boot_run (b : boot) (l : list boot_op) : outcome unit boot :=
  match l with
  | [] => Val b
  | op :: l' =>
      match boot_step b op with Val b' => boot_run b' l' | Fail e => Fail e | Panic => Panic end
  end.

(** ** Is the signer running? state.go:124-128: ps -ax | pgrep horcrux *)

(** an entry of the process table; the name is the first 15 bytes of the file name of the program *)
Record process := Process { pc_pid : Z; pc_parent : Z; pc_name : bytes }.

Fixpoint is_prefix (p l : bytes) : bool :=
  match p, l with
  | [], _ => true
  | _ :: _, [] => false
  | x :: p', y :: l' => bool_decide (x = y) && is_prefix p' l'
  end.
Fixpoint contains (p l : bytes) : bool :=
  is_prefix p l || match l with [] => false | _ :: l' => contains p l' end.

Fixpoint ancestors (n : nat) (table : list process) (pid : Z) : list Z :=
  match n with
  | O => []
  | S n =>
      match List.find (fun p => pc_pid p =? pid) table with
      | Some p => pc_parent p :: ancestors n table (pc_parent p)
      | None => []
      end
  end.

(** pgrep ignores its input. It never reports itself ([self]); the BSD variant, unlike Linux, leaves
    out its ancestors as well. *)
Definition pgrep (bsd : bool) (table : list process) (self : Z) (pattern : bytes) : list process :=
  filter (fun p => contains pattern (pc_name p) = true /\ pc_pid p <> self /\
                   ~ (bsd = true /\ pc_pid p ∈ ancestors (length table) table self)) table.
(** state.go:124-128: output or no output *)
Definition is_running (bsd : bool) (table : list process) (self : Z) : bool :=
  match pgrep bsd table self (lit "horcrux") with [] => false | _ => true end.

(** state.go:76-121 *)
Definition state_set_cmd (bsd : bool) (table : list process) (self : Z) (hf : home_flag)
    (pv share : file) (arg : bytes) : set_error + (option bytes * option bytes) :=
  state_set (is_running bsd table self) hf pv share arg.
