(** C96: goroutines of SignBlock. *)
From Verif Require Import GoBase Goroutines GoroutineSpec GoroutineProofs.
Local Open Scope Z_scope.

(** No wait group is ever counted below zero (which would panic), whatever peers answer and whenever the timers fire. *)
Theorem C96_no_panic : forall t peers es l c, 0 <= peers -> 1 <= t -> prun t peers [] es l -> c ∈ l ->
  0 <= c_count1 c /\ (0 < c_signing c -> 0 < c_count2 c) /\ 0 <= c_asking c /\ 0 <= c_signing c.
Proof. exact no_panic. Qed.
Print Assumptions C96_no_panic.

(** While goroutines that read the map of parts without its lock run, no late answer writes it. *)
Theorem C96_no_write : forall t peers es l i c e c', 0 <= peers -> 1 <= t -> prun t peers [] es l -> l !! i = Some c ->
  0 < c_signing c -> step c e = Some c' -> c_map c' = c_map c.
Proof. exact no_write. Qed.
Print Assumptions C96_no_write.

(** A call and its goroutines do no more than peers + threshold + 5 things; *)
Theorem C96_ends : forall t peers es l i c, 0 <= peers -> 1 <= t -> prun t peers [] es l -> l !! i = Some c ->
  Z.of_nat (length (of_call i es)) <= peers + t + 5.
Proof. exact ends. Qed.
Print Assumptions C96_ends.
(** and when nothing can go on every call has returned. *)
Theorem C96_returned : forall t peers es l c, 0 <= peers -> 1 <= t -> prun t peers [] es l -> settled l -> c ∈ l -> c_place c = Returned.
Proof. exact returned. Qed.
Print Assumptions C96_returned.

(** The full claim, that no goroutine is left then, is false: after N calls to which no peer answered, N are left. *)
Theorem C96_leak_refuted : forall t n N, 2 <= t -> exists es l, prun t (Z.of_nat n) [] es l /\ length l = N /\ settled l /\ goroutines l = Z.of_nat N.
Proof. exact leak_all. Qed.
Print Assumptions C96_leak_refuted.

(** What is left: one goroutine for each call that began to wait and to which fewer than threshold - 1 peers answered,
    ever; none for all others. Missing: those. *)
Theorem C96_left_partial : forall t peers es l, 0 <= peers -> 1 <= t -> prun t peers [] es l -> settled l ->
  goroutines l = count_short t es (length l).
Proof. exact left_over. Qed.
Print Assumptions C96_left_partial.

(** ** Examples *)
(** two calls, 2 of 3: to the first one peer answers in time and one late, to the second only one, after the timeout *)
Definition two_calls : list (option (nat * event)) :=
  [None; Some (0%nat, OwnParts true); Some (0%nat, PeerParts true); Some (0%nat, WaiterEnds1); None; Some (0%nat, Complete1);
   Some (1%nat, OwnParts true); Some (0%nat, SignEnds); Some (0%nat, PeerParts true); Some (1%nat, PeerParts false);
   Some (0%nat, TimeOut2); Some (0%nat, SignEnds); Some (0%nat, WaiterEnds2); Some (1%nat, TimeOut1); Some (1%nat, PeerParts true); Some (1%nat, WaiterEnds1)].
Definition two_ended : list call :=
  [Call 2 Returned 0 2 0 Ended 0 0 Ended; Call 2 Returned 0 1 0 Ended 0 0 NotStarted].
Ltac steps := repeat (first [apply pr_nil | eapply pr_cons; [first [apply p_begin | eapply p_step; reflexivity]|cbn]]).
Example ex_two : prun 2 2 [] two_calls two_ended /\ settled two_ended /\ count_short 2 two_calls 2 = 0.
Proof.
  split; [unfold two_calls; steps|]. split; [|reflexivity].
  intros i c e. destruct i as [|[|i]]; [| |done]; intros [= <-]; by destruct e as [[]|[]| | | | | | |].
Qed.
(** while the first call's signers run: threshold entries in the map *)
Example ex_signing : exists l, prun 2 2 [] (take 6 two_calls) l /\ exists c, l !! 0%nat = Some c /\ c_signing c = 2 /\ c_map c = 2.
Proof. eexists. split; [unfold two_calls; cbn [take]; steps|]. eexists. done. Qed.
(** and one that is short: a peer fails, the other's answer is not enough for 3 of 3 *)
Definition short_call : list (option (nat * event)) :=
  [None; Some (0%nat, PeerParts true); Some (0%nat, OwnParts true); Some (0%nat, PeerParts false); Some (0%nat, TimeOut1)].
Example ex_short : exists l, prun 3 2 [] short_call l /\ settled l /\ count_short 3 short_call 1 = 1 /\ goroutines l = 1.
Proof.
  eexists. split; [unfold short_call; steps|]. split; [|done].
  intros i c e. destruct i as [|i]; [|done]; intros [= <-]; by destruct e as [[]|[]| | | | | | |].
Qed.
