(** A whole cluster: every host runs one process (cmd/horcrux/cmd/cosigner.go:106-260) with a
    threshold validator, a local cosigner, their two state files and a raft node; the hosts share
    the raft log. Composes Validator.v, LocalCosigner.v, Disk.v and Raft.v.

    A history is a list of events with what they made visible. Clients call SignBlock
    ([VCall], from the sentries or by gRPC) and every method of every cosigner ([ECos]) at will: the
    gRPC server has no authentication. Of the network it is assumed that the answer a leader gets
    from a correct cosigner is one this cosigner gave for these bytes, and that the answer a
    follower gets from the raft leader is one some node gave to this block; messages may be lost,
    delayed, repeated and exchanged between calls for the same bytes. Of raft it is assumed that the
    log holds only entries that were proposed; entries may get lost, and be committed in any order
    and more than once.

    Simplifications: the two Save calls of handleLSSEvent (raft_events.go:35-36) are one event; a
    process that panicked is restarted by [ERestart]; snapshots restore none of the state here
    (raft_store.go:298-309), they only decide where the replay starts. *)
From Verif Require Import GoBase Wire Canonical SignState Crypto LocalCosigner Validator Json Disk Raft RaftSpec.
Local Open Scope Z_scope.

(** constants of the hosts: cosigner.go:160-190, 204-206 *)
Record sysconf := SysConf { sc_val : Z -> vconf; sc_cos : Z -> cos_config }.

(** one process: the validator, its file and the goroutines writing it (sign_state.go:110-127), the
    cosigner with its file, and how many log entries raft has applied since the process started *)
Record host := Host {
  ho_val : vstate; ho_vfile : file; ho_vws : list writer; ho_cos : cnode; ho_applied : nat }.

(** the hosts by share ID, what was proposed to raft, and the raft log *)
Record system := System { sy_hosts : gmap Z host; sy_proposed : list bytes; sy_log : list bytes }.

Inductive event :=
| EVal (i : Z) (op : vop)        (* an action of a SignBlock call *)
| ECos (i : Z) (op : cop)        (* a method of the cosigner is called *)
| EVRead (i : Z) (n : nat)       (* goroutine n of the validator's file reads a field *)
| EVRename (i : Z) (n : nat)     (* ... and renames its temporary file *)
| ECRead (i : Z) (n : nat)       (* the same for the cosigner's file *)
| ECRename (i : Z) (n : nat)
| EPropose (i : Z) (t : nat)     (* threshold_validator.go:470: Emit hands the event to raft *)
| ECommit (e : bytes)
| EApply (i : Z)                 (* raft applies the next log entry *)
| ERestart (i : Z) (n : nat).    (* crash and start; replay of the log starts at entry n *)

Inductive sobs := SVal (o : vobs) | SCos (o : cobs) | SNone.
Definition history := list (event * sobs).

(** cosigner [j] answered a signing request for [sb] with [resp] (signature, ephemeral key) *)
Definition share_given (h : history) (j : Z) (sb : bytes) (resp : bytes * bytes) : bool :=
  existsb (fun x => match x with
    | (ECos j' _, SCos (ObsShare sb' r)) =>
        bool_decide (j' = j /\ sb' = sb /\ resp = (slice_of (sr_sig r), slice_of (sr_eph r)))
    | _ => false
    end) h.

(** cosigner_grpc_server.go:19-36, threshold_validator.go:299-313: the answer to [b]; an empty
    signature arrives as nil *)
Definition on_wire (sig : option bytes) : option bytes :=
  match sig with Some [] => None | _ => sig end.
Definition block_answered (h : history) (b : block) (sig : option bytes) : bool :=
  existsb (fun x => match x with
    | (EVal _ _, SVal (OReturn _ b' r _)) =>
        bool_decide (b_hrs b' = b_hrs b /\ b_sb b' = b_sb b /\ sig = on_wire (r_sig r)) &&
        match r_err r with None => true | Some _ => false end
    | _ => false
    end) h.

(** int64 height and round, int8 step *)
Definition hrs_fits (k : hrs) : bool :=
  (- 2 ^ 63 <=? h_height k) && (h_height k <? 2 ^ 63) && (- 2 ^ 63 <=? h_round k) && (h_round k <? 2 ^ 63) &&
  (- 128 <=? h_step k) && (h_step k <? 128).

(** threshold_validator.go:455-473: the entry proposed by a call *)
Definition thread_entry (st : vstate) (t : nat) : option bytes :=
  match vs_threads st !! t with
  | Some (Thread b (PcSaved sig)) => Some (emit_entry (SSC (b_hrs b) (Some sig) (Some (b_sb b))))
  | _ => None
  end.

(** the answers other processes can give to a call; [faulty] cosigners answer anything *)
Definition possible (K : sysconf) (faulty : gset Z) (h : history) (S : system) (i : Z) (st : vstate) (op : vop) : bool :=
  match op with
  | VLss _ => false
  | VCall _ b _ => hrs_fits (b_hrs b)
  | VSig t w (Some resp) =>
      match id_of (sc_val K i) w, vs_threads st !! t with
      | Some j, Some (Thread b _) => bool_decide (j ∈ faulty) || share_given h j (b_sb b) resp
      | _, _ => false
      end
  | VProxy t (inr sig) =>
      match vs_threads st !! t with
      | Some (Thread b _) => block_answered h b sig
      | None => false
      end
  | VEmit t true =>
      match thread_entry st t with Some e => bool_decide (e ∈ sy_log S) | None => false end
  | _ => true
  end.

Definition upd (S : system) (i : Z) (n : host) : system :=
  System (<[i := n]> (sy_hosts S)) (sy_proposed S) (sy_log S).

(** a goroutine is started by every accepted Save of the validator's state *)
Definition val_writers (old new : vstate) (ws : list writer) : list writer :=
  if bool_decide (ss_hrs (vs_lss new) = ss_hrs (vs_lss old)) then ws else new_writer :: ws.

Section System.
Context (C : Crypto) (K : sysconf) (faulty : gset Z).

Definition host_cos (S : system) (i : Z) (n : host) (op : cnop) : option (system * list (cop * cobs)) :=
  match cnstep C (sc_cos K i) (ho_cos n) op with
  | Some (c, l) => Some (upd S i (Host (ho_val n) (ho_vfile n) (ho_vws n) c (ho_applied n)), l)
  | None => None
  end.

Definition sstep (h : history) (S : system) (e : event) : option (system * sobs) :=
  match e with
  | EVal i op =>
      match sy_hosts S !! i with
      | None => None
      | Some n =>
          if possible K faulty h S i (ho_val n) op then
            match vstep C (sc_val K i) (ho_val n) op with
            | VOk v o => Some (upd S i (Host v (ho_vfile n) (val_writers (ho_val n) v (ho_vws n))
                                          (ho_cos n) (ho_applied n)), SVal o)
            | _ => None
            end
          else None
      end
  | ECos i op =>
      match sy_hosts S !! i, op with
      (* only the raft handler saves the last signed state from outside *)
      | Some n, OpGet _ _ _ | Some n, OpSet _ _ _ | Some n, OpSign _ =>
          match host_cos S i n (COp op) with
          | Some (S', [(_, o)]) => Some (S', SCos o)
          | _ => None
          end
      | _, _ => None
      end
  | EVRead i k =>
      match sy_hosts S !! i with
      | None => None
      | Some n =>
          match ho_vws n !! k with
          | None => None
          | Some w =>
              match read_field (vs_lss (ho_val n)) w with
              | None => None
              | Some w' => Some (upd S i (Host (ho_val n) (ho_vfile n) (<[k := w']> (ho_vws n)) (ho_cos n) (ho_applied n)), SNone)
              end
          end
      end
  | EVRename i k =>
      match sy_hosts S !! i with
      | None => None
      | Some n =>
          match ho_vws n !! k with
          | Some w =>
              if bool_decide (w_pc w = 6%nat)
              then Some (upd S i (Host (ho_val n) (Some (marshal_state (w_rec w))) (delete k (ho_vws n)) (ho_cos n) (ho_applied n)), SNone)
              else None
          | None => None
          end
      end
  | ECRead i k =>
      match sy_hosts S !! i with
      | None => None
      | Some n => match host_cos S i n (CRead k) with Some (S', _) => Some (S', SNone) | None => None end
      end
  | ECRename i k =>
      match sy_hosts S !! i with
      | None => None
      | Some n => match host_cos S i n (CRename k) with Some (S', _) => Some (S', SNone) | None => None end
      end
  | EPropose i t =>
      match sy_hosts S !! i with
      | None => None
      | Some n =>
          match thread_entry (ho_val n) t with
          | Some e => Some (System (sy_hosts S) (e :: sy_proposed S) (sy_log S), SNone)
          | None => None
          end
      end
  | ECommit e =>
      if bool_decide (e ∈ sy_proposed S) then Some (System (sy_hosts S) (sy_proposed S) (sy_log S ++ [e]), SNone)
      else None
  (* raft_store.go:276-292, raft_events.go:28-37 *)
  | EApply i =>
      match sy_hosts S !! i with
      | None => None
      | Some n =>
          match sy_log S !! ho_applied n with
          | None => None
          | Some e =>
              match event_of e with
              | None => Some (upd S i (Host (ho_val n) (ho_vfile n) (ho_vws n) (ho_cos n) (ho_applied n + 1)%nat), SNone)
              | Some c =>
                  match vstep C (sc_val K i) (ho_val n) (VLss c), cnstep C (sc_cos K i) (ho_cos n) (COp (OpLSS c)) with
                  | VOk v _, Some (cn, _) =>
                      Some (upd S i (Host v (ho_vfile n) (val_writers (ho_val n) v (ho_vws n)) cn (ho_applied n + 1)%nat), SNone)
                  | _, _ => None
                  end
              end
          end
      end
  (* cosigner.go:160-206 *)
  | ERestart i k =>
      match sy_hosts S !! i with
      | None => None
      | Some n =>
          if bool_decide (k <= length (sy_log S))%nat then
            let '(s, f) := load_or_create (ho_vfile n) in
            match cnstep C (sc_cos K i) (ho_cos n) CRestart with
            | Some (cn, _) => Some (upd S i (Host (new_validator s) f [] cn k), SNone)
            | None => None
            end
          else None
      end
  end.

(** histories, oldest event first *)
Inductive srun (S0 : system) : history -> system -> Prop :=
| srun_nil : srun S0 [] S0
| srun_snoc h S e S' o : srun S0 h S -> sstep h S e = Some (S', o) -> srun S0 (h ++ [(e, o)]) S'.

(** run a list of events *)
Fixpoint sexec (h : history) (S : system) (l : list event) : option (history * system) :=
  match l with
  | [] => Some (h, S)
  | e :: l' => match sstep h S e with
               | Some (S', o) => sexec (h ++ [(e, o)]) S' l'
               | None => None
               end
  end.

End System.
