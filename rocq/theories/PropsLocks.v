(** C97: no deadlock of a cosigner process. *)
From Verif Require Import GoBase Locks LockSpec LockProofs.

(** Whatever requests, RPCs and log entries come in and however the goroutines are scheduled: each goroutine that has not
    ended can go on, or waits for one that can, or for one that waits for one that can, and so on. *)
Theorem C97_no_deadlock : forall s i p, reach s -> thr s !! i = Some p -> p <> [] -> goes s (T i).
Proof. exact no_deadlock. Qed.
Print Assumptions C97_no_deadlock.
(** The same for the goroutine that applies log entries. *)
Theorem C97_fsm : forall s, reach s -> queue s <> [] \/ fsm s <> None -> goes s Fsm.
Proof. exact fsm_no_deadlock. Qed.
Print Assumptions C97_fsm.
(** No mutex is released by one who does not hold it. *)
Theorem C97_release : forall s i m r, reach s -> thr s !! i = Some (Rel m :: r) -> owner s m = Some (T i).
Proof. exact holder_releases. Qed.
Print Assumptions C97_release.
(** When nothing new comes in, every schedule ends, and only when all goroutines have ended, every entry has been applied
    and no mutex is held. *)
Theorem C97_done : forall s, reach s -> (exists n, forall k s', drains s k s' -> (k <= n)%nat) /\
  forall k s', drains s k s' -> (forall a s'', a <> Outside -> ~ step s' a s'') -> idle s'.
Proof. exact all_done. Qed.
Print Assumptions C97_done.

(** ** C98: data races *)
(** The full claim, that no goroutine uses a shared map or the fields of a sign state while another one writes them, is
    false: the goroutine that writes the state file reads the fields while the next state is being saved. *)
Theorem C98_race_refuted : exists s x a b w, reach s /\ race s x a b w.
Proof. exact race_exists. Qed.
Print Assumptions C98_race_refuted.
(** All others are excluded: no Go map (caches, nonces, the store) is ever used by two goroutines at once with one of them
    writing (which would end the process), and no two goroutines write fields at once. Missing: reads of fields. *)
Theorem C98_no_race_partial : forall s x a b w, reach s -> race s x a b w -> is_fields x = true /\ w = false.
Proof. exact no_race. Qed.
Print Assumptions C98_no_race_partial.

(** ** Example: a state with a chain of three waits *)
(** 0: a chain node's vote, with the guard, waits for its entry, which raft's goroutine applies; that one waits for
    the mutex of the last signed state, which 2 (another connection's request, handed on by a follower) holds; 1: the
    next request, waits for the guard *)
Definition all_well : rest := Rest 1 true true true true true true.
Example ex_chain : exists s, reach s /\ waits s (T 1) (T 0) /\ waits s (T 0) Fsm /\ waits s Fsm (T 2) /\ exists s', step s (T 2) s'.
Proof.
  pose proof r_start as H. unfold process_start in H.
  eapply (r_step _ Outside) in H; [|apply s_start; exact (g_guarded 0 Fresh all_well)]. cbn [app] in H.
  eapply (r_step _ Outside) in H; [|apply s_start; exact (g_guarded 1 Fresh all_well)]. cbn [app] in H.
  eapply (r_step _ Outside) in H; [|apply s_start; exact (g_sign_block 2 (Below false) all_well)]. cbn [app] in H.
  unfold sign_block, save_initiated, existing, beyond, sign_rest, save_lss, get_from_cache, save, less_or_equal, under, locked, get_parts, get_part, emit, all_well in H.
  cbn in H.
  do 23 go_work 0%nat.
  eapply (r_step _ RaftLib) in H; [|apply (s_commit 0%nat [] []); apply a_lss]. cbn [app] in H.
  do 6 go_work 2%nat.
  do 2 go_fsm.
  eexists. split; [exact H|].
  split; [eapply w_lock; reflexivity|]. split; [eapply w_fsm; [reflexivity|right; eexists; reflexivity]|].
  split; [eapply w_fsm_lock; reflexivity|].
  eexists. eapply s_local; [reflexivity|]. apply l_use.
Qed.
