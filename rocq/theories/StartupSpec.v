(** Vocabulary for statements about starting processes. *)
From Coq Require Import Strings.String.
From Verif Require Import GoBase Canonical SignState Json Utf8 Raft RaftSpec Disk Config ConfigSpec Startup.
Local Open Scope Z_scope.

(** the servers a configuration names: ourselves and every peer *)
Definition named (host : bytes -> bytes) (s : cosigner_section) (k : cosigner_key) (x : server) : Prop :=
  x = (print_int (ck_id k), host (co_listen s)) \/
  exists p, p ∈ co_peers s /\ x = (print_int (pe_id p), host (pe_addr p)).
(** a server and a peer of the configuration are told apart by ID and by address *)
Definition told_apart (host : bytes -> bytes) (s : cosigner_section) (k : cosigner_key) : Prop :=
  NoDup (ck_id k :: map pe_id (co_peers s)) /\
  NoDup (host (co_listen s) :: map (fun p => host (pe_addr p)) (co_peers s)) /\
  [] ∉ host (co_listen s) :: map (fun p => host (pe_addr p)) (co_peers s).

(** a cluster plan: node [i] of [ids] is reached at [url i]. Node [i] follows the plan if it listens
    there and its peers are the other nodes. *)
Definition follows (host : bytes -> bytes) (ids : list Z) (url : Z -> bytes) (i : Z)
    (s : cosigner_section) (k : cosigner_key) : Prop :=
  ck_id k = i /\ host (co_listen s) = host (url i) /\
  co_peers s ≡ₚ map (fun j => CPeer j (url j)) (filter (fun j => j <> i) ids).
Definition good_plan (host : bytes -> bytes) (ids : list Z) (url : Z -> bytes) : Prop :=
  NoDup ids /\ NoDup (map (fun i => host (url i)) ids) /\ forall i, i ∈ ids -> host (url i) <> [].

(** a majority of the servers of a configuration, by ID *)
Definition majority (c : list server) (q : gset bytes) : Prop :=
  (forall x, x ∈ q -> x ∈ map fst c) /\ (length c < 2 * size q)%nat.

(** no nil validator is dereferenced *)
Definition no_crash (o : outcome unit boot) : Prop := o <> Panic.
(** a last-signed-state event that can be read *)
Definition lss_event (e : bytes) : Prop := exists c, event_of e = Some c.

(** the entries applied *)
Definition applied (l : list boot_op) : list bytes :=
  omap (fun op => match op with BtApply e => Some e | _ => None end) l.

(** [p] occurs in [l] *)
Definition occurs (p l : bytes) : Prop := exists a b, l = a ++ p ++ b.
(** [a] is a (transitive) parent of [b] in the table *)
Inductive ancestor (table : list process) : Z -> Z -> Prop :=
| anc_parent p : p ∈ table -> ancestor table (pc_parent p) (pc_pid p)
| anc_trans p a : p ∈ table -> ancestor table a (pc_parent p) -> ancestor table a (pc_pid p).
