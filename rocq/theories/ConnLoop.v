(** The life of a remote signer: signer/remote_signer.go:57-123 (OnStart, loop), 219-234
    (StartRemoteSigners) and services.go (WaitAndTerminate).

    One signer is a step machine. A label says what the outside does to it: Stop is called, a dial
    or a handshake succeeds or fails, bytes of a message arrive, the validator answers as the given
    [signer]. Stop can come between any two steps. A step tells what can be seen of it.

    Simplifications: logging and sleeping (3 s after a failed attempt) are dropped; a connection is
    a number, given by the dial that opened it; an error of Close, only logged (69, 99), is not
    there; when a write fails, some first bytes of the message have gone out. *)
From Verif Require Import GoBase Wire Canonical Validator Privval RemoteSigner.
Local Open Scope nat_scope.

(** where the loop is; what it holds there *)
Inductive lpc :=
| PTop                      (* remote_signer.go:66 *)
| PDial                     (* 76-78, conn is nil *)
| PSecret (c : nat)         (* 87: netConn is [c] *)
| PRecheck (c : nat)        (* 98 *)
| PRead (c : nat)           (* 105 *)
| PHandle (c : nat) (req : message)   (* 114 *)
| PWrite (c : nat) (res : message)    (* 116 *)
| PEnd                      (* the goroutine has returned *)
| PCrash.                   (* the process has panicked *)

(** [l_conn]: the variable conn; [l_next]: number of the next connection *)
Record lstate := LState { l_pc : lpc; l_running : bool; l_conn : option nat; l_next : nat }.
(** remote_signer.go:57-66: after Start, IsRunning is true *)
Definition l0 : lstate := LState PTop true None 0.

Inductive llabel :=
| LStop                     (* Service.Stop: IsRunning is false from now on *)
| LStep                     (* a step that is up to the signer: 67, 98 *)
| LDial (ok : bool)         (* result of dialer.Dial *)
| LSecret (ok : bool)       (* result of MakeSecretConnection *)
| LRead (bs : bytes)        (* these bytes came, and ReadMsg read a message made of them *)
| LReadErr                  (* ReadMsg fails *)
| LHandle (s : signer)      (* handleRequest with the validator as it is then *)
| LWrite                    (* WriteMsg succeeds *)
| LWriteErr (k : nat).      (* WriteMsg fails after k bytes *)

(** what can be seen: connections opened and closed, what comes in and goes out on them, questions
    to the validator *)
Inductive lobs :=
| OOpen (c : nat) | OClose (c : nat)
| OIn (c : nat) (bs : bytes) (req : message)
| OAsk (c : nat) (req res : message)
| OOut (c : nat) (bs : bytes)
| OStop | OEnd | OCrash.

Definition go (st : lstate) (pc : lpc) (conn : option nat) : lstate :=
  LState pc (l_running st) conn (l_next st).

(** remote_signer.go:67-76 *)
Definition at_top (st : lstate) : lstate * list lobs :=
  if l_running st then
    match l_conn st with
    | None => (go st PDial None, [])
    | Some c => (go st (PRecheck c) (Some c), [])
    end
  else match l_conn st with
       | Some c => (go st PEnd (Some c), [OClose c; OEnd])
       | None => (go st PEnd None, [OEnd])
       end.
(** 97-103 *)
Definition at_recheck (st : lstate) (c : nat) : lstate * list lobs :=
  if l_running st then (go st (PRead c) (Some c), []) else (go st PEnd (Some c), [OClose c; OEnd]).
(** what a failed write has put on the connection; marshalling can fail before the first byte *)
Definition cut (res : message) (k : nat) : bytes :=
  match write_msg res with Some w => take k w | None => [] end.

Section Loop.
Context (chain : bytes).

Definition lstep (st : lstate) (l : llabel) : option (lstate * list lobs) :=
  match l, l_pc st with
  | LStop, PCrash => None
  | LStop, pc => if l_running st then Some (LState pc false (l_conn st) (l_next st), [OStop]) else None
  | LStep, PTop => Some (at_top st)
  | LStep, PRecheck c => Some (at_recheck st c)
  | LDial false, PDial => Some (go st PDial None, [])
  | LDial true, PDial =>
      Some (LState (PSecret (l_next st)) (l_running st) None (S (l_next st)), [OOpen (l_next st)])
  | LSecret false, PSecret c => Some (go st PDial None, [])
  | LSecret true, PSecret c => Some (go st (PRecheck c) (Some c), [])
  | LRead bs, PRead c =>
      match read_msg bs with
      | Some (req, []) => Some (go st (PHandle c req) (Some c), [OIn c bs req])
      | _ => None
      end
  | LReadErr, PRead c => Some (go st PTop None, [OClose c])
  | LHandle s, PHandle c req =>
      match handle_request s chain req with
      | Val res => Some (go st (PWrite c res) (Some c), [OAsk c req res])
      | _ => Some (go st PCrash (Some c), [OCrash])
      end
  | LWrite, PWrite c res =>
      match write_msg res with
      | Some w => Some (go st PTop (Some c), [OOut c w])
      | None => None
      end
  | LWriteErr k, PWrite c res => Some (go st PTop None, [OOut c (cut res k); OClose c])
  | _, _ => None
  end.

(** a run, and what was seen of it *)
Fixpoint lrun (st : lstate) (ls : list llabel) : option (lstate * list lobs) :=
  match ls with
  | [] => Some (st, [])
  | l :: ls' =>
      match lstep st l with
      | None => None
      | Some (st1, o) =>
          match lrun st1 ls' with
          | None => None
          | Some (st2, os) => Some (st2, o ++ os)
          end
      end
  end.
End Loop.

(** ** Stopping all services *)

(** tendermint's BaseService: the flags started and stopped *)
Record svc := Svc { sv_started : bool; sv_stopped : bool }.
(** Start: an error if started already (or stopped) *)
Definition svc_start (s : svc) : option svc :=
  if sv_started s || sv_stopped s then None else Some (Svc true false).
(** Stop: an error if stopped already or not started *)
Definition svc_stop (s : svc) : option svc :=
  if sv_stopped s then None else if sv_started s then Some (Svc true true) else None.

(** remote_signer.go:219-234 StartRemoteSigners: a new service for every node; [None] is the error *)
Fixpoint start_signers {A} (services : list svc) (nodes : list A) : option (list svc) :=
  match nodes with
  | [] => Some services
  | _ :: nodes' =>
      match svc_start (Svc false false) with
      | None => None
      | Some s => start_signers (services ++ [s]) nodes'
      end
  end.

(** services.go:14-21: what the signal handler does; [None] is the panic *)
Fixpoint stop_all (services : list svc) : option (list svc) :=
  match services with
  | [] => Some []
  | s :: l =>
      match svc_stop s with
      | None => None
      | Some s' => match stop_all l with Some l' => Some (s' :: l') | None => None end
      end
  end.
