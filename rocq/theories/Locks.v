(** Who holds and who waits for the mutexes of a cosigner process: chain node connections, RPC handlers, goroutines of
    SignBlock, and raft's single goroutine that applies log entries.

    A goroutine is the list of what it still does to mutexes and raft futures; [Work] is anything else that comes to an
    end by itself (computing, a remote call with its deadline, a wait with its timer). *)
From Verif Require Import GoBase.

(** PvGuard.pvMutex (PvGuard.go:15), ThresholdValidator.lastSignStateInitiatedMutex and lastSignStateMutex
    (threshold_validator.go:28-32), LocalCosigner.lastSignStateMutex (local_cosigner.go:102), RaftStore.mu
    (raft_store.go:54), thresholdPeersMutex and shareSignaturesMutex of the i-th call of SignBlock
    (threshold_validator.go:374, 408) *)
Inductive mutex := Guard | Initiated | Lss | Cos | Store | Parts (i : nat) | Sigs (i : nat).
Global Instance mutex_eq : EqDecision mutex.
Proof. solve_decision. Defined.

(** the three sign states: lastSignStateInitiated, lastSignState of the validator, lastSignState of the cosigner *)
Inductive state := SInit | SLss | SCos.
Global Instance state_eq : EqDecision state.
Proof. solve_decision. Defined.
(** what goroutines share: the cache (a Go map) and the other fields of a sign state (sign_state.go:50-59), hrsMeta with
    the slices in it (local_cosigner.go:105), the map of the store (raft_store.go:55). The map and the slice of a call of
    SignBlock are in [Goroutines] *)
Inductive shared := Cache (x : state) | Fields (x : state) | Meta | StoreMap.
Global Instance shared_eq : EqDecision shared.
Proof. solve_decision. Defined.

(** [Use x w]: an access to [x], writing or not; [Submit]: raft.Apply has taken an entry; [Future]: f.Error() returns (raft_store.go:229-230) *)
Inductive act := Acq (m : mutex) | Rel (m : mutex) | Work | Use (x : shared) (w : bool) | Submit | Future.
Definition prog := list act.

(** m.Lock(); defer m.Unlock() *)
Definition locked (m : mutex) (p : prog) : prog := Acq m :: p ++ [Rel m].
(** if lock != nil (sign_state.go:95-98, 113-116, 210-213) *)
Definition under (lock : option mutex) (p : prog) : prog := match lock with Some m => locked m p | None => p end.

(** sign_state.go:94-108 *)
Definition get_from_cache (x : state) (lock : option mutex) : prog := under lock [Use (Fields x) false; Use (Cache x) false].
(** sign_state.go:209-243 *)
Definition less_or_equal (x : state) (lock : option mutex) : prog := under lock [Use (Fields x) false].
(** sign_state.go:110-141: the check gets no lock. If it fails Save returns; to write nevertheless is only more here *)
Definition save (x : state) (lock : option mutex) : prog :=
  under lock (less_or_equal x None ++ [Use (Cache x) true; Use (Fields x) true]).
(** the goroutine that Save starts reads the fields without a lock, sign_state.go:136-138, 144-161 *)
Definition save_file (x : state) : prog := [Use (Fields x) false; Work].

(** threshold_validator.go:77-83 *)
Definition save_lss : prog := save SLss (Some Lss).
Definition save_initiated : prog := save SInit (Some Initiated).
(** local_cosigner.go:111-113 *)
Definition cosigner_save : prog := save SCos (Some Cos).
(** newBeyondBlockError reads lastSignStateInitiated without a lock, threshold_validator.go:151-157 *)
Definition beyond : prog := [Use (Fields SInit) false].
(** getExistingBlockSignature, threshold_validator.go:263-288 *)
Definition existing (later : bool) : prog := get_from_cache SLss (Some Lss) ++ if later then beyond else [].

(** getEphemeralSecretPart, local_cosigner.go:314-392 *)
Definition get_part : prog := locked Cos [Use Meta true; Work].
(** GetEphemeralSecretParts for [k] peers (fewer if one fails), local_cosigner.go:286-311 *)
Definition get_parts (k : nat) : prog := concat (replicate k get_part).
(** setEphemeralSecretPart: the source signature is verified first, local_cosigner.go:396-465 *)
Definition set_part (verified : bool) : prog := Work :: if verified then locked Cos [Use Meta true; Work] else [].
(** sign, local_cosigner.go:158-252: Save with no lock *)
Definition sign (saves : bool) : prog :=
  locked Cos (Use (Fields SCos) false :: if saves then Use Meta false :: Use (Fields SCos) true :: save SCos None ++ [Use Meta true] else []).
(** SetEphemeralSecretPartsAndSign, local_cosigner.go:467-488; an error returns *)
Definition set_parts_and_sign (parts : list bool) (signs : option bool) : prog :=
  concat (map set_part parts) ++ match signs with Some saves => sign saves | None => [] end.

(** Emit, Set: raft_store.go:205-231 *)
Definition emit (leads : bool) : prog := Work :: if leads then [Submit; Future] else [].

(** how a call of SignBlock goes: not initialised; follower; the height/round/step is below or equal to what was begun
    ([n] polls; then signs again or not); or new (threshold_validator.go:290-361) *)
Inductive way := NotReady | Follower | Below (later : bool) | Again (n : nat) (later signs : bool) | Fresh.
(** what follows: parts dealt by the own cosigner and whether all were, first wait in time, second wait in time,
    signature valid, saved, still leader (threshold_validator.go:363-478) *)
Record rest := Rest { r_parts : nat; r_dealt : bool; r_first : bool; r_second : bool; r_valid : bool; r_saved : bool; r_leads : bool }.
(** threshold_validator.go:363-478 *)
Definition sign_rest (i : nat) (r : rest) : prog :=
  Work :: get_parts (r_parts r) ++
  if negb (r_dealt r) then [] else Work ::
  if negb (r_first r) then [] else locked (Parts i) [Work] ++ Work ::
  if negb (r_second r && r_valid r) then [] else save_lss ++
  if negb (r_saved r) then [] else emit (r_leads r).
(** threshold_validator.go:290-478 *)
Definition sign_block (i : nat) (w : way) (r : rest) : prog :=
  match w with
  | NotReady => []
  | Follower => [Work]
  | Below later => save_initiated ++ existing later ++ beyond
  | Again n later signs => save_initiated ++ concat (replicate n (existing false ++ [Work])) ++ existing later ++ if signs then sign_rest i r else []
  | Fresh => save_initiated ++ sign_rest i r
  end.

(** everything a goroutine of the process may run, apart from raft's *)
Inductive goroutine : prog -> Prop :=
| g_pubkey : goroutine (locked Guard [Work])                                       (* PvGuard.go:19-23 *)
| g_guarded i w r : goroutine (locked Guard (sign_block i w r ++ [Work]))          (* PvGuard.go:26-37, threshold_validator.go:93-130 *)
| g_sign_block i w r : goroutine (sign_block i w r)                                (* grpc_server.go: SignBlock, no guard *)
| g_get_parts k : goroutine (get_parts k)                                          (* grpc_server.go: GetEphemeralSecretParts *)
| g_set_parts l s : goroutine (set_parts_and_sign l s)                             (* grpc_server.go: SetEphemeralSecretPartsAndSign *)
| g_peer_parts i (ok : bool) : goroutine (Work :: if ok then locked (Parts i) [Work] else []) (* threshold_validator.go:172-191 *)
| g_peer_sign i (ok : bool) : goroutine (Work :: if ok then locked (Sigs i) [Work] else []) (* threshold_validator.go:193-247, a remote peer *)
| g_own_sign i l s (ok : bool) : goroutine (Work :: set_parts_and_sign l s ++ if ok then locked (Sigs i) [Work] else []) (* the same, own cosigner *)
| g_save_file x : x <> SInit -> goroutine (save_file x)                             (* sign_state.go:136-138; not for filePath none *)
| g_other : goroutine [Work].                                                      (* anything else; RaftStore.Get has no caller *)

(** what raft's goroutine runs: Apply, Snapshot, Restore (raft_store.go:290-362, raft_events.go:28-37) *)
Inductive applied : prog -> Prop :=
| a_lss : applied (Work :: save_lss ++ cosigner_save)
| a_store : applied (Work :: locked Store [Use StoreMap true])
| a_snapshot : applied (locked Store [Use StoreMap false])
| a_restore : applied [Work; Use StoreMap true]                     (* no lock, raft_store.go:326-338 *)
| a_nothing : applied [Work].

(** who acts: a goroutine, raft's goroutine for the state machine, raft itself (commits an entry or gives up), or the
    outside (new requests, entries of other leaders) *)
Inductive actor := T (i : nat) | Fsm | RaftLib | Outside.
Global Instance actor_eq : EqDecision actor.
Proof. solve_decision. Defined.

(** goroutines by number, owners of mutexes, entries taken but not committed (by goroutine), committed entries to be
    applied, the one being applied, goroutines whose future is known *)
Record proc := Proc {
  thr : list prog; owner : mutex -> option actor; inflight : list nat;
  queue : list (option nat * prog); fsm : option (option nat * prog); known : list nat }.
Definition process_start : proc := Proc [] (fun _ => None) [] [] None [].
Definition set_owner (o : mutex -> option actor) (m : mutex) (v : option actor) : mutex -> option actor :=
  fun m' => if decide (m' = m) then v else o m'.

(** sync.Mutex: Lock waits until nobody holds it; Unlock of a mutex nobody holds is fatal (no step), of one another
    goroutine holds releases it *)
Inductive local_step (o : mutex -> option actor) (a : actor) : prog -> (mutex -> option actor) -> prog -> Prop :=
| l_acq m r : o m = None -> local_step o a (Acq m :: r) (set_owner o m (Some a)) r
| l_rel m r : o m <> None -> local_step o a (Rel m :: r) (set_owner o m None) r
| l_work r : local_step o a (Work :: r) o r
| l_use x w r : local_step o a (Use x w :: r) o r.

Inductive step : proc -> actor -> proc -> Prop :=
| s_start p th o fl q f k : goroutine p -> step (Proc th o fl q f k) Outside (Proc (th ++ [p]) o fl q f k)
| s_entry p th o fl q f k : applied p -> step (Proc th o fl q f k) Outside (Proc th o fl (q ++ [(None, p)]) f k)
| s_local i p o' p' th o fl q f k : th !! i = Some p -> local_step o (T i) p o' p' ->
    step (Proc th o fl q f k) (T i) (Proc (<[i := p']> th) o' fl q f k)
| s_submit i r th o fl q f k : th !! i = Some (Submit :: r) ->
    step (Proc th o fl q f k) (T i) (Proc (<[i := r]> th) o (fl ++ [i]) q f k)
| s_future i r th o fl q f k : th !! i = Some (Future :: r) -> i ∈ k ->
    step (Proc th o fl q f k) (T i) (Proc (<[i := r]> th) o fl q f k)
| s_commit i fl1 fl2 p th o q f k : applied p ->
    step (Proc th o (fl1 ++ i :: fl2) q f k) RaftLib (Proc th o (fl1 ++ fl2) (q ++ [(Some i, p)]) f k)
| s_fail i fl1 fl2 th o q f k :
    step (Proc th o (fl1 ++ i :: fl2) q f k) RaftLib (Proc th o (fl1 ++ fl2) q f (i :: k))
| s_take x th o fl q k : step (Proc th o fl (x :: q) None k) Fsm (Proc th o fl q (Some x) k)
| s_apply j p o' p' th o fl q k : local_step o Fsm p o' p' ->
    step (Proc th o fl q (Some (j, p)) k) Fsm (Proc th o' fl q (Some (j, p')) k)
| s_applied j th o fl q k : step (Proc th o fl q (Some (j, [])) k) Fsm
    (Proc th o fl q None (match j with Some i => i :: k | None => k end)).

Inductive reach : proc -> Prop :=
| r_start : reach process_start
| r_step s a s' : reach s -> step s a s' -> reach s'.
