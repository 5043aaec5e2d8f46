(** No deadlock (C97): who waits for whom, and that every chain of waiting ends at someone who can go on. *)
From Verif Require Import GoBase Locks.

(** [waits s i a]: goroutine [i], or raft's, waits for [a] *)
Inductive waits (s : proc) : actor -> actor -> Prop :=
| w_lock i m r a : thr s !! i = Some (Acq m :: r) -> owner s m = Some a -> waits s (T i) a
| w_fsm_lock j m r a : fsm s = Some (j, Acq m :: r) -> owner s m = Some a -> waits s Fsm a
| w_raft i r : thr s !! i = Some (Future :: r) -> i ∈ inflight s -> waits s (T i) RaftLib
| w_fsm i r : thr s !! i = Some (Future :: r) -> i ∈ omap fst (queue s) \/ (exists p, fsm s = Some (Some i, p)) -> waits s (T i) Fsm.

(** [goes s a]: [a] can act now, or waits for one who goes *)
Inductive goes (s : proc) : actor -> Prop :=
| goes_now a s' : step s a s' -> goes s a
| goes_wait a b : waits s a b -> goes s b -> goes s a.

(** runs without new requests and entries *)
Inductive drains : proc -> nat -> proc -> Prop :=
| d_nil s : drains s 0 s
| d_step s a s' n s'' : a <> Outside -> step s a s' -> drains s' n s'' -> drains s (S n) s''.
(** everything has been done: all goroutines ended, no entry is left, no mutex held *)
Definition idle (s : proc) : Prop :=
  (forall p, p ∈ thr s -> p = []) /\ inflight s = [] /\ queue s = [] /\ fsm s = None /\ forall m, owner s m = None.

(** ** Data races (C98) *)
(** what [a] does next *)
Definition next (s : proc) (a : actor) : option act :=
  match a with
  | T i => match thr s !! i with Some (x :: _) => Some x | _ => None end
  | Fsm => match fsm s with Some (_, x :: _) => Some x | _ => None end
  | _ => None
  end.
(** two goroutines are at the same place, one of them to write *)
Definition race (s : proc) (x : shared) (a b : actor) (w : bool) : Prop :=
  a <> b /\ next s a = Some (Use x true) /\ next s b = Some (Use x w).
Definition is_fields (x : shared) : bool := match x with Fields _ => true | _ => false end.
