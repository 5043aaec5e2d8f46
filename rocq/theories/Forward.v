(** Handing requests on to the leader: threshold_validator.go:298-312, raft_events.go:39-77. Every host
    asks its own raft for its state (raft.State) and for the leader it knows (raft.Leader); the request
    is sent to that host, which does the same again (grpc_server.go:19-35). How these two answers change
    is hashicorp/raft v1.3.3 (raft.go, from memory, DESIGN.md section 4), reduced to them: votes, the
    log and messages are not modelled; that a term has at most one leader is what raft guarantees and
    is part of [RWin]. *)
From Verif Require Import GoBase.
Local Open Scope Z_scope.

Inductive role := Follower | Candidate | Leader.
#[global] Instance role_eq_dec : EqDecision role.
Proof. solve_decision. Defined.

(** [rn_lead]: raft.Leader, with the term in which it was set (not kept by raft) *)
Record rnode := RNode { rn_role : role; rn_term : Z; rn_lead : option (Z * Z) }.
(** [ra_led]: the leaders of all terms so far *)
Record rstate := RState { ra_node : gmap Z rnode; ra_led : gmap Z Z }.
Definition node0 : rnode := RNode Follower 0 None.
Definition node (s : rstate) (h : Z) : rnode := default node0 (ra_node s !! h).
Definition put (s : rstate) (h : Z) (n : rnode) : rstate := RState (<[h := n]> (ra_node s)) (ra_led s).
Definition ra_init : rstate := RState ∅ ∅.

Inductive revent :=
| RVote (h t : Z)   (* a vote request or an answer with a later term; the known leader stays *)
| RCand (h : Z)     (* no heartbeat, or TimeoutNow: no known leader, candidate of the next term *)
| RWin (h : Z)      (* a majority of votes *)
| RStep (h : Z)     (* a leader stops leading: State changes first, Leader is cleared afterwards (RLost) *)
| RLost (h : Z)     (* the known leader is cleared *)
| RHear (h t : Z)   (* AppendEntries of the leader of term t *)
| RRestart (h : Z). (* a new process; the term is on disk *)

Definition rstep (s : rstate) (e : revent) : option rstate :=
  match e with
  | RVote h t =>
      let n := node s h in
      if rn_term n <? t then Some (put s h (RNode Follower t (rn_lead n))) else None
  | RCand h =>
      let n := node s h in
      if bool_decide (rn_role n = Leader) then None
      else Some (put s h (RNode Candidate (rn_term n + 1) None))
  | RWin h =>
      let n := node s h in
      if bool_decide (rn_role n = Candidate) && bool_decide (ra_led s !! rn_term n = None)
      then Some (RState (<[h := RNode Leader (rn_term n) (Some (h, rn_term n))]> (ra_node s)) (<[rn_term n := h]> (ra_led s)))
      else None
  | RStep h =>
      let n := node s h in
      if bool_decide (rn_role n = Leader) then Some (put s h (RNode Follower (rn_term n) (rn_lead n))) else None
  | RLost h =>
      let n := node s h in
      if bool_decide (rn_role n = Leader) then None else Some (put s h (RNode (rn_role n) (rn_term n) None))
  | RHear h t =>
      let n := node s h in
      match ra_led s !! t with
      | Some b => if bool_decide (b = h) || (t <? rn_term n) then None else Some (put s h (RNode Follower t (Some (b, t))))
      | None => None
      end
  | RRestart h => let n := node s h in Some (put s h (RNode Follower (rn_term n) None))
  end.
Fixpoint rruns (s : rstate) (es : list revent) : option rstate :=
  match es with [] => Some s | e :: es' => match rstep s e with Some s' => rruns s' es' | None => None end end.

(** What a host does with a request: signs it (it leads), hands it on, or waits for a leader (at most
    3 s, raft_events.go:41-50, then it answers with an error). *)
Inductive deed := DSign | DHand (to term : Z) | DWait.
Definition handles (n : rnode) : deed :=
  if bool_decide (rn_role n = Leader) then DSign
  else match rn_lead n with Some (b, t) => DHand b t | None => DWait end.

(** raft_events.go:39-56 getLeaderGRPCClient: Leader is asked up to 30 times, 100 ms apart; [view i]: the
    answer after i * 100 ms. The result is the address dialed and the number of 100 ms waits before. *)
Fixpoint find_leader (n : nat) (view : nat -> option Z) (i : nat) : option (Z * nat) :=
  match n with
  | O => None
  | S n' => match view i with Some b => Some (b, i) | None => find_leader n' view (S i) end
  end.
Definition leader_client (view : nat -> option Z) : option (Z * nat) := find_leader 30 view 0.
