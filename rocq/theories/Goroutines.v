(** The goroutines that calls of SignBlock start (signer/threshold_validator.go:172-261, 363-422): who waits for whom, and what
    is left when the calls have returned.

    Only the counters, goroutines and the two waits are here; what the cosigners answer is in [Validator]. A remote call
    ends in success or failure (each has a deadline, remote_cosigner.go:30-35); it may do so before or after its caller
    has given up. The select of waitUntilCompleteOrTimeout may take its timer at any moment. *)
From Verif Require Import GoBase.
Local Open Scope Z_scope.

(** where the call is: asking the own cosigner, in the first wait, in the second wait, returned *)
Inductive place := AtOwn | AtParts | AtSigns | Returned.
(** the goroutine of waitUntilCompleteOrTimeout (threshold_validator.go:250-254) *)
Inductive waiter := NotStarted | Waiting | Ended.
(** one call: threshold, place, goroutines of waitForPeerEphemeralShares that run, entries of the map, counter of the
    first wait group, its waiter; goroutines of waitForPeerSetEphemeralSharesAndSign that run, counter, waiter. A counter
    below 0 is a panic of sync.WaitGroup *)
Record call := Call {
  c_t : Z; c_place : place;
  c_asking : Z; c_map : Z; c_count1 : Z; c_wait1 : waiter;
  c_signing : Z; c_count2 : Z; c_wait2 : waiter }.

(** threshold_validator.go:366-379: Add(threshold - 1) and one goroutine for each peer *)
Definition begin_call (t peers : Z) : call := Call t AtOwn peers 0 (t - 1) NotStarted 0 0 NotStarted.

Inductive event :=
| PeerParts (ok : bool)   (* a peer's GetEphemeralSecretParts ends, threshold_validator.go:179-190 *)
| OwnParts (ok : bool)    (* the own cosigner's, lines 381-385 *)
| WaiterEnds1             (* wg.Wait() returns, close(c), lines 252-253 *)
| Complete1 | TimeOut1    (* the select of lines 255-260, called at line 389 *)
| SignEnds                (* SetEphemeralSecretPartsAndSign ends; defer wg.Done(), line 204 *)
| WaiterEnds2             (* as WaiterEnds1, for the second group *)
| Complete2 | TimeOut2.   (* the select, called at line 420 *)

Definition waiting (w : waiter) : bool := match w with Waiting => true | _ => false end.
Definition ended (w : waiter) : bool := match w with Ended => true | _ => false end.

(** one goroutine of a call, or the call itself, goes on (threshold_validator.go:172-261, 381-422) *)
Definition step (c : call) (e : event) : option call :=
  match e with
  | PeerParts ok =>
      if 0 <? c_asking c then
        if ok && (c_map c <? c_t c - 1)
        then Some (Call (c_t c) (c_place c) (c_asking c - 1) (c_map c + 1) (c_count1 c - 1) (c_wait1 c) (c_signing c) (c_count2 c) (c_wait2 c))
        else Some (Call (c_t c) (c_place c) (c_asking c - 1) (c_map c) (c_count1 c) (c_wait1 c) (c_signing c) (c_count2 c) (c_wait2 c))
      else None
  | OwnParts ok =>
      match c_place c with
      | AtOwn => Some (if ok then Call (c_t c) AtParts (c_asking c) (c_map c) (c_count1 c) Waiting (c_signing c) (c_count2 c) (c_wait2 c)
                       else Call (c_t c) Returned (c_asking c) (c_map c) (c_count1 c) (c_wait1 c) (c_signing c) (c_count2 c) (c_wait2 c))
      | _ => None
      end
  | WaiterEnds1 =>
      if waiting (c_wait1 c) && (c_count1 c =? 0)
      then Some (Call (c_t c) (c_place c) (c_asking c) (c_map c) (c_count1 c) Ended (c_signing c) (c_count2 c) (c_wait2 c)) else None
  | Complete1 =>
      match c_place c with
      | AtParts =>
          (* lines 393-416: the own parts enter the map; Add(threshold) and one goroutine for each entry *)
          if ended (c_wait1 c)
          then Some (Call (c_t c) AtSigns (c_asking c) (c_map c + 1) (c_count1 c) (c_wait1 c) (c_map c + 1) (c_t c) Waiting) else None
      | _ => None
      end
  | TimeOut1 =>
      match c_place c with
      | AtParts => Some (Call (c_t c) Returned (c_asking c) (c_map c) (c_count1 c) (c_wait1 c) (c_signing c) (c_count2 c) (c_wait2 c))
      | _ => None
      end
  | SignEnds =>
      if 0 <? c_signing c
      then Some (Call (c_t c) (c_place c) (c_asking c) (c_map c) (c_count1 c) (c_wait1 c) (c_signing c - 1) (c_count2 c - 1) (c_wait2 c)) else None
  | WaiterEnds2 =>
      if waiting (c_wait2 c) && (c_count2 c =? 0)
      then Some (Call (c_t c) (c_place c) (c_asking c) (c_map c) (c_count1 c) (c_wait1 c) (c_signing c) (c_count2 c) Ended) else None
  | Complete2 =>
      match c_place c with
      | AtSigns => if ended (c_wait2 c)
          then Some (Call (c_t c) Returned (c_asking c) (c_map c) (c_count1 c) (c_wait1 c) (c_signing c) (c_count2 c) (c_wait2 c)) else None
      | _ => None
      end
  | TimeOut2 =>
      match c_place c with
      | AtSigns => Some (Call (c_t c) Returned (c_asking c) (c_map c) (c_count1 c) (c_wait1 c) (c_signing c) (c_count2 c) (c_wait2 c))
      | _ => None
      end
  end.

(** a process: the calls begun so far, each running on its own *)
Inductive pstep (t peers : Z) : list call -> option (nat * event) -> list call -> Prop :=
| p_begin l : pstep t peers l None (l ++ [begin_call t peers])
| p_step l i c e c' : l !! i = Some c -> step c e = Some c' -> pstep t peers l (Some (i, e)) (<[i := c']> l).
Inductive prun (t peers : Z) : list call -> list (option (nat * event)) -> list call -> Prop :=
| pr_nil l : prun t peers l [] l
| pr_cons l a l' es l'' : pstep t peers l a l' -> prun t peers l' es l'' -> prun t peers l (a :: es) l''.

(** goroutines that run *)
Definition alive (w : waiter) : Z := if waiting w then 1 else 0.
Definition live (c : call) : Z := c_asking c + c_signing c + alive (c_wait1 c) + alive (c_wait2 c).
Definition goroutines (l : list call) : Z := fold_right (fun c a => live c + a) 0 l.
