(** The single signer process: cmd/horcrux/cmd/signer.go:29-104, tendermint's FilePV behind PvGuard
    (FilePV.v) and one remote signer per chain node (ConnLoop.v), all in one process.

    The process is started, runs, and ends by a kill, a crash of the machine or a panic in any of its
    goroutines; then it may be started again. Any number of starts; the state file stays.

    Simplifications: those of FilePV.v and ConnLoop.v. The remote signers take turns in any order; a
    request to FilePV is one step because PvGuard (signer/PvGuard.go:26-37) holds a mutex during it.
    GetPubKey answers with the key of the key file, which is [pub]. *)
From Verif Require Import GoBase Wire Canonical Validator Privval RemoteSigner ConnLoop FilePV.
Local Open Scope nat_scope.

(** [si_loops]: one per chain node, none while no process runs; [si_life]: number of starts so far *)
Record single := Single { si_world : world; si_loops : list lstate; si_life : nat }.

Inductive slabel :=
| GStart (nodes : nat)            (* horcrux signer start *)
| GKill                           (* the process ends *)
| GLoop (i : nat) (l : llabel)    (* signer [i] does anything but ask FilePV *)
| GAsk (i : nat) (wr : written).  (* signer [i] handles the request it has read *)

(** life, signer, what is seen of it *)
Notation sobs := (nat * nat * lobs)%type.

Section Single.
Context (key : bytes -> option bytes) (pub : pubkey) (text : pv_error -> bytes) (chain : bytes).
(** as in FilePV.v: what signer.go:78 does, or what its comment says *)
Context (reload : bool).

(** PvGuard{FilePV} as tm.PrivValidator in the state [l]; a failing save panics *)
Definition pv_outcome {A} (r : pv_result A) (wr : written) : outcome bytes A :=
  match r with
  | PvOld a => Val a
  | PvNew a _ => match wr with Written => Val a | _ => Panic end
  | PvErr e => Fail (text e)
  | PvPanic => Panic
  end.
Definition fpv_signer (l : lss) (wr : written) : signer :=
  Signer (Val pub)
    (fun ch v => pv_outcome (sign_vote key ch l v) wr)
    (fun ch p => pv_outcome (sign_prop key ch l p) wr).
(** what the request does to the state *)
Definition pv_effect (w : world) (req : message) (wr : written) : world :=
  match req with
  | SignVoteRequest v _ => fst (pv_step key chain reload w (AskVote v wr))
  | SignProposalRequest p _ => fst (pv_step key chain reload w (AskProp p wr))
  | _ => w
  end.

Definition tag (k i : nat) (o : list lobs) : list sobs := map (fun x => (k, i, x)) o.
Definition sg_step (S : single) (lab : slabel) : option (single * list sobs) :=
  match lab with
  | GStart n =>
      match wo_mem (si_world S) with
      | Some _ => None
      | None =>
          let w := fst (pv_step key chain reload (si_world S) Start) in
          Some (Single w (match wo_mem w with Some _ => replicate n l0 | None => [] end) (si_life S + 1), [])
      end
  | GKill => Some (Single (fst (pv_step key chain reload (si_world S) Stop)) [] (si_life S), [])
  | GLoop i l =>
      match l, si_loops S !! i with
      | LHandle _, _ => None
      | _, None => None
      | _, Some st =>
          match lstep chain st l with
          | Some (st', o) => Some (Single (si_world S) (<[i := st']> (si_loops S)) (si_life S), tag (si_life S) i o)
          | None => None
          end
      end
  | GAsk i wr =>
      match si_loops S !! i, wo_mem (si_world S) with
      | Some st, Some l =>
          match l_pc st with
          | PHandle c req =>
              match lstep chain st (LHandle (fpv_signer l wr)) with
              | Some (st', o) =>
                  let w' := pv_effect (si_world S) req wr in
                  (* a panic ends the process *)
                  Some (Single w' (match wo_mem w' with Some _ => <[i := st']> (si_loops S) | None => [] end) (si_life S),
                        tag (si_life S) i o)
              | None => None
              end
          | _ => None
          end
      | _, _ => None
      end
  end.

Inductive single_run (S0 : single) : list sobs -> single -> Prop :=
| sr_nil : single_run S0 [] S0
| sr_step h S lab S' o : single_run S0 h S -> sg_step S lab = Some (S', o) -> single_run S0 (h ++ o) S'.
End Single.
(** before the first start; [f] is the state file *)
Definition not_started (f : option lss) : single := Single (World f None) [] 0.
