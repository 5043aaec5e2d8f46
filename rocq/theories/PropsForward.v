(** The way of a request to the leader (C89). *)
From Verif Require Import GoBase Forward ForwardSpec ForwardProofs.
Local Open Scope Z_scope.

(** The claim: a request is handed on at most once. Refuted: a host that has just stopped leading hands
    it on to itself, any number of times; and with old knowledge it goes through several hosts. *)
Theorem C89_once_refuted :
  (exists s h t, reachable s /\ forall n, travels s h (repeat (h, h, t) n) s h) /\
  (exists s l h', reachable s /\ travels s 1 l s h' /\ length l = 2%nat /\ handles (node s h') = DSign /\ h' <> 2).
Proof.
  split.
  - exists stopping, 1, 1. split; [exact stopping_reachable|exact stopping_loop].
  - exists stale, [(1, 2, 1); (2, 3, 2)], 3. destruct stale_travel as [H1 H2].
    split; [exact stale_reachable|]. split; [exact H1|]. split; [done|]. split; [exact H2|done].
Qed.

(** It only goes to later leaders: terms never go down, in one term it stays with one host, and it comes
    back to a host that handed it to another one only if that host has been elected since. *)
Theorem C89_later_partial : forall s h l s' h' i j x y, reachable s -> travels s h l s' h' ->
  (i < j)%nat -> l !! i = Some x -> l !! j = Some y ->
  hop_term x <= hop_term y /\ (hop_term x = hop_term y -> hop_to x = hop_to y) /\
  (hop_to y = hop_from x -> hop_to x <> hop_from x -> hop_term x < hop_term y).
Proof. exact hops_terms. Qed.
(** every host it goes to led in the term of the hop *)
Theorem C89_led : forall s h l s' h', reachable s -> travels s h l s' h' ->
  forall x, x ∈ l -> ra_led s' !! hop_term x = Some (hop_to x).
Proof. exact travels_hosts. Qed.
(** so, repeated hops of a host to itself aside, there is at most one hop for each leader elected from the first one on *)
Theorem C89_bounded_partial : forall s h l s' h', reachable s -> travels s h l s' h' -> forall x0, list.head l = Some x0 ->
  (length (remove_dups (map (fun x => (hop_to x, hop_term x)) l)) <=
   size (filter (fun p => (hop_term x0 <= fst p)%Z) (ra_led s')))%nat.
Proof. exact hops_bounded. Qed.
(** a host that is still leading the term in which it was handed the request has not handed it on *)
Theorem C89_settled_partial : forall s h l s' h' b t, reachable s -> travels s h l s' h' ->
  rn_role (node s' b) = Leader -> rn_lead (node s' b) = Some (b, t) ->
  forall i x, l !! i = Some x -> hop_term x = t -> hop_to x = b /\ i = (length l - 1)%nat /\ h' = b /\ handles (node s' b) = DSign.
Proof. exact settled. Qed.

(** without a known leader: the first one known at one of 30 looks, 100 ms apart, is asked; if there is none the request fails *)
Theorem C89_wait : forall view b k, leader_client view = Some (b, k) <->
  (k < 30)%nat /\ view k = Some b /\ forall j, (j < k)%nat -> view j = None.
Proof. exact client_iff. Qed.

(** 1 asks 2 in term 1; 2 loses to 3 meanwhile, hands the request on, and 3 signs *)
Example C89_example : exists s s', reachable s /\ travels s 1 [(1, 2, 1); (2, 3, 2)] s' 3 /\
  rn_role (node s 2) = Leader /\ rn_role (node s' 3) = Leader /\ rn_lead (node s' 3) = Some (3, 2) /\
  size (ra_led s') = 2%nat.
Proof.
  exists (run_of [RCand 2; RWin 2; RHear 1 1]), (run_of ([RCand 2; RWin 2; RHear 1 1] ++ [RVote 3 1; RCand 3; RWin 3; RHear 2 2])).
  split; [exists [RCand 2; RWin 2; RHear 1 1]; vm_compute; reflexivity|]. split.
  2:{ vm_compute. auto. }
  set (s := run_of [RCand 2; RWin 2; RHear 1 1]).
  assert (H0 : travels s 1 [(1, 2, 1)] s 2) by (apply (tr_hop s 1 [] s 1 2 1); [constructor|vm_compute; reflexivity]).
  assert (G : forall es s1 s2, travels s 1 [(1, 2, 1)] s1 2 -> rruns s1 es = Some s2 -> travels s 1 [(1, 2, 1)] s2 2).
  { induction es as [|e es IH]; intros s1 s2 H E; cbn in E; [by injection E as <-|].
    destruct (rstep s1 e) as [s3|] eqn:Es; [|discriminate]. eapply IH; [|exact E]. eapply tr_time; [exact H|exact Es]. }
  apply (tr_hop s 1 [(1, 2, 1)] _ 2 3 2); [|vm_compute; reflexivity].
  apply (G [RVote 3 1; RCand 3; RWin 3; RHear 2 2] s); [exact H0|vm_compute; reflexivity].
Qed.

Print Assumptions C89_once_refuted.
Print Assumptions C89_later_partial.
Print Assumptions C89_led.
Print Assumptions C89_bounded_partial.
Print Assumptions C89_settled_partial.
Print Assumptions C89_wait.
