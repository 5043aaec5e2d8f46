(** C76, C77, C78: the life of a remote signer (signer/remote_signer.go:57-123, services.go). *)
From Verif Require Import GoBase Wire Canonical CanonicalApi SignState Crypto LocalCosigner CosignerWitness Validator Privval RemoteSigner PrivvalSpec
  ConnLoop ConnLoopSpec ConnLoopProofs.
Local Open Scope nat_scope.

(** C76: whatever happens, what is seen of a signer is one connection after another, on each of them
    request, question to the validator, answer, over and over; the answer goes to the connection the
    request came from, before anything else is read, opened or asked *)
Theorem C76_conversation : forall chain P ls st tr,
  lrun chain l0 ls = Some (st, tr) -> validators P ls ->
  exists n done cur, talk tr = done ++ cur /\ sessions (may_answer P chain) n done /\
    (cur = [] \/ exists xs rest, Forall (exchange_ok (may_answer P chain)) xs /\
       unfinished (may_answer P chain) n rest /\
       cur = OOpen n :: concat (map (shown n) xs) ++ rest).
Proof. intros chain P ls st tr. apply conversation. Qed.
Print Assumptions C76_conversation.
(** the bytes of such a conversation are those of [serve] (C45, C46) *)
Theorem C76_connection_serves : forall P chain xs,
  Forall (exchange_ok (may_answer P chain)) xs ->
  exists ss, (forall i, i < length xs -> P (ss i)) /\
    serve ss chain (concat (map x_in xs)) = (concat (map x_out xs), EndRead).
Proof. exact connection_serves. Qed.
Print Assumptions C76_connection_serves.
(** and it goes on: at any time, however often connections failed before, as long as nothing fails
    from then on (and Stop is not called), any seven steps have an answer among them, and
    after that any five, unless the process panics (C46) *)
Theorem C76_progress : forall chain ls1 ls2 st1 st2 tr1 tr2,
  lrun chain l0 ls1 = Some (st1, tr1) -> OStop ∉ tr1 -> Forall (fun l => helpful l = true) ls2 ->
  lrun chain st1 ls2 = Some (st2, tr2) ->
  length ls2 <= 6 + 5 * count is_out tr2 \/ OCrash ∈ tr1 ++ tr2.
Proof. exact progress. Qed.
Print Assumptions C76_progress.
(** there is always something that can happen *)
Theorem C76_not_stuck : forall chain ls st tr, lrun chain l0 ls = Some (st, tr) ->
  OEnd ∉ tr -> OCrash ∉ tr -> exists l, connects l = true /\ l <> LStop /\ lstep chain st l <> None.
Proof.
  intros chain ls st tr Hr H1 H2. pose proof (end_seen _ _ _ _ Hr) as (E1 & E2 & _).
  apply some_step; [by rewrite E1|by rewrite E2].
Qed.
Print Assumptions C76_not_stuck.

Definition loop_vote : pvote := PVote (Vote 2 11 0 (wbid x0a) (Time 1600000000 1)) (repeat x01 20) 7 [].
Definition loop_signer : signer :=
  tv_signer (repeat x05 32) (fun _ _ => VR (Some (repeat x06 64)) (Time 1600000000 1) None) (fun _ => []).
Definition loop_in (m : message) : bytes := delimited (m_message m).
(** a run: two attempts to connect fail, a ping is answered, a vote is signed but the answer is lost
    after ten bytes, the vote is signed on the next connection *)
Definition loop_run : list llabel :=
  let ask := LRead (loop_in (SignVoteRequest (Some loop_vote) irishub)) in
  [LStep; LDial false; LDial true; LSecret false; LDial true; LSecret true; LStep;
   LRead (loop_in PingRequest); LHandle loop_signer; LWrite; LStep; LStep; ask; LHandle loop_signer; LWriteErr 10;
   LStep; LDial true; LSecret true; LStep; ask; LHandle loop_signer; LWrite].
Definition loop_seen : list lobs :=
  let vote := SignVoteRequest (Some loop_vote) irishub in
  let voted := SignedVoteResponse (PVote (pv_vote loop_vote) (repeat x01 20) 7 (repeat x06 64)) None in
  [OOpen 0; OOpen 1;
   OIn 1 (loop_in PingRequest) PingRequest; OAsk 1 PingRequest PingResponse; OOut 1 (loop_in PingResponse);
   OIn 1 (loop_in vote) vote; OAsk 1 vote voted; OOut 1 (take 10 (loop_in voted)); OClose 1;
   OOpen 2; OIn 2 (loop_in vote) vote; OAsk 2 vote voted; OOut 2 (loop_in voted)].
Example C76_example : exists st, lrun irishub l0 loop_run = Some (st, loop_seen) /\
  validators (fun s => s = loop_signer) loop_run /\ OStop ∉ loop_seen /\ OCrash ∉ loop_seen /\
  exists st1 tr1, lrun irishub l0 (take 15 loop_run) = Some (st1, tr1) /\
    Forall (fun l => helpful l = true) (drop 15 loop_run) /\ length (drop 15 loop_run) = 7 /\
    lrun irishub st1 (drop 15 loop_run) = Some (st, drop 9 loop_seen).
Proof.
  eexists. split; [vm_compute; reflexivity|]. split; [repeat constructor|].
  split; [unfold loop_seen; intros H; repeat (apply elem_of_cons in H as [H|H]; [discriminate H|]); by apply elem_of_nil in H|].
  split; [unfold loop_seen; intros H; repeat (apply elem_of_cons in H as [H|H]; [discriminate H|]); by apply elem_of_nil in H|].
  eexists _, _. split; [vm_compute; reflexivity|]. split; [repeat constructor|]. split; [reflexivity|]. vm_compute. reflexivity.
Qed.

(** C77: Stop. It would be expected that nothing is signed after it; but the signer may be waiting for
    a request then, and answers it *)
Theorem C77_signs_refuted : exists ls1 ls2 st1 st2 tr1 tr2 req v,
  lrun irishub l0 ls1 = Some (st1, tr1) /\ lrun irishub st1 (LStop :: ls2) = Some (st2, tr2) /\
  OIn 0 (loop_in req) req ∈ tr2 /\ OAsk 0 req (SignedVoteResponse v None) ∈ tr2 /\ length (pv_sig v) = 64.
Proof.
  exists [LStep; LDial true; LSecret true; LStep],
    [LRead (loop_in (SignVoteRequest (Some loop_vote) irishub)); LHandle loop_signer; LWrite; LStep].
  eexists _, _, _, _, (SignVoteRequest (Some loop_vote) irishub), _.
  split; [vm_compute; reflexivity|]. split; [vm_compute; reflexivity|].
  split; [apply elem_of_cons; right; apply elem_of_cons; left; vm_compute; reflexivity|].
  split; [do 2 (apply elem_of_cons; right); apply elem_of_cons; left; vm_compute; reflexivity|].
  vm_compute. reflexivity.
Qed.
Print Assumptions C77_signs_refuted.
(** it is one request at most, and on a connection that was open *)
Theorem C77_at_most_one_partial : forall chain ls1 ls2 st1 st2 tr1 tr2,
  lrun chain l0 ls1 = Some (st1, tr1) -> lrun chain st1 (LStop :: ls2) = Some (st2, tr2) ->
  count is_in tr2 <= 1 /\ count is_ask tr2 <= 1 /\
  (forall c bs req, OIn c bs req ∈ tr2 -> OOpen c ∈ tr1) /\
  (forall c req res, OAsk c req res ∈ tr2 -> OOpen c ∈ tr1).
Proof. intros chain. exact (after_stop chain (fun _ => True)). Qed.
Print Assumptions C77_at_most_one_partial.
(** nor does the goroutine end: a signer that cannot connect tries for ever *)
Theorem C77_never_ends_refuted : forall chain, exists ls st tr,
  lrun chain l0 ls = Some (st, tr) /\ OStop ∈ tr /\
  forall n, lrun chain st (repeat (LDial false) n) = Some (st, []).
Proof.
  intros chain. exists [LStep; LStop], (LState PDial false None 0), [OStop]. split; [reflexivity|].
  split; [by apply elem_of_list_singleton|]. induction n as [|n IH]; [done|]. simpl. unfold go. simpl. by rewrite IH.
Qed.
Print Assumptions C77_never_ends_refuted.
(** when no attempt to connect fails, four steps are enough *)
Theorem C77_ends_partial : forall chain ls1 ls2 st tr,
  lrun chain l0 (ls1 ++ LStop :: ls2) = Some (st, tr) -> Forall (fun l => connects l = true) ls2 ->
  length ls2 <= 4 /\
  (OEnd ∈ tr \/ OCrash ∈ tr \/ exists l, connects l = true /\ lstep chain st l <> None).
Proof. intros chain. exact (ends_after_stop chain (fun _ => True)). Qed.
Print Assumptions C77_ends_partial.
(** the services a process starts (a cosigner has one before its remote signers, the raft store) can
    all be stopped, so the handler of the signal does not panic, and Stop reaches all of them *)
Theorem C77_all_stopped : forall (nodes : list bytes) k,
  exists l, start_signers (repeat (Svc true false) k) nodes = Some l /\ length l = k + length nodes /\
    stop_all l = Some (repeat (Svc true true) (k + length nodes)).
Proof.
  intros nodes k. eexists. split; [apply start_signers_spec|]. rewrite <- repeat_app.
  split; [apply repeat_length|apply stop_all_started].
Qed.
Print Assumptions C77_all_stopped.
Example C77_example : exists st tr, lrun irishub l0 (take 12 loop_run ++ LStop :: [LReadErr; LStep]) = Some (st, tr) /\ OEnd ∈ tr.
Proof.
  eexists _, _. split; [vm_compute; reflexivity|]. by repeat (first [apply elem_of_list_here|apply elem_of_list_further]).
Qed.
Example C77_dialing : exists st, lrun irishub l0 [LStep; LDial true; LStop; LSecret true; LStep] =
  Some (st, [OOpen 0; OStop; OClose 0; OEnd]).
Proof. eexists. reflexivity. Qed.

(** C78: the signer does not close a connection it could not make a secret connection of; they add up *)
Theorem C78_left_open_refuted : forall chain n, exists ls st tr,
  lrun chain l0 ls = Some (st, tr) /\ OEnd ∈ tr /\ forall c, left_open tr c <-> c < n.
Proof.
  intros chain n. set (tries := fun m => concat (repeat [LDial true; LSecret false] m)).
  assert (H : forall m k, lrun chain (LState PDial true None k) (tries m) =
    Some (LState PDial true None (k + m), map OOpen (seq k m))).
  { induction m as [|m IH]; intros k; [by rewrite Nat.add_0_r|].
    cbn [tries repeat concat app lrun lstep l_pc l_next l_running]. fold (tries m). unfold go.
    cbn [l_running l_next]. rewrite (IH (S k)). rewrite Nat.add_succ_comm. reflexivity. }
  exists (LStep :: tries n ++ [LDial true; LSecret true; LStop; LStep]),
    (LState PEnd false (Some n) (S n)), (map OOpen (seq 0 n) ++ [OOpen n; OStop; OClose n; OEnd]).
  split.
  { change (lrun chain l0 (LStep :: tries n ++ [LDial true; LSecret true; LStop; LStep])) with
      (match lrun chain (LState PDial true None 0) (tries n ++ [LDial true; LSecret true; LStop; LStep]) with
       | None => None | Some (st2, os) => Some (st2, [] ++ os) end).
    rewrite lrun_app, H. reflexivity. }
  split. { apply elem_of_app. right. by repeat (first [apply elem_of_list_here|apply elem_of_list_further]). }
  intros c. unfold left_open. rewrite !elem_of_app, !elem_of_cons, !elem_of_nil, !elem_of_list_fmap.
  setoid_rewrite elem_of_seq. split.
  - intros [[(y & [= <-] & Hy)|[[= ->]|[?|[?|[?|?]]]]] Hc]; try done; [lia|]. exfalso. apply Hc. right. by right; right; left.
  - intros Hc. split; [left; exists c; split; [done|lia]|].
    intros [(y & ? & _)|[?|[?|[[= ->]|[?|?]]]]]; try done. lia.
Qed.
Print Assumptions C78_left_open_refuted.
(** all others are closed: besides one for each such attempt, one connection at most is open, none
    after the end *)
Theorem C78_exact_partial : forall chain ls st tr, lrun chain l0 ls = Some (st, tr) ->
  exists R, NoDup R /\ (forall c, left_open tr c <-> c ∈ R) /\
    length (List.filter refused ls) <= length R <= length (List.filter refused ls) + 1 /\
    (OEnd ∈ tr -> length R = length (List.filter refused ls)).
Proof. intros chain. exact (connections_left chain (fun _ => True)). Qed.
Print Assumptions C78_exact_partial.
Example C78_example : exists st, lrun irishub l0 loop_run = Some (st, loop_seen) /\
  length (List.filter refused loop_run) = 1 /\ forall c, left_open loop_seen c <-> c = 0 \/ c = 2.
Proof.
  eexists. split; [vm_compute; reflexivity|]. split; [reflexivity|]. intros c. unfold left_open.
  assert (Ho : OOpen c ∈ loop_seen -> c = 0 \/ c = 1 \/ c = 2).
  { intros H. unfold loop_seen in H.
    repeat (apply elem_of_cons in H as [H|H]; [first [discriminate H|injection H as ->; by auto]|]). by apply elem_of_nil in H. }
  assert (Hc : OClose c ∈ loop_seen -> c = 1).
  { intros H. unfold loop_seen in H.
    repeat (apply elem_of_cons in H as [H|H]; [first [discriminate H|injection H as ->; by auto]|]). by apply elem_of_nil in H. }
  split.
  - intros [H1 H2]. destruct (Ho H1) as [-> |[-> | ->]]; [by left| |by right]. exfalso. apply H2. unfold loop_seen.
    do 8 apply elem_of_list_further. apply elem_of_list_here.
  - intros [-> | ->]; (split; [unfold loop_seen; repeat first [apply elem_of_list_here|apply elem_of_list_further]|by intros H; apply Hc in H]).
Qed.
