(** A request that a follower hands on to the leader (C100). *)
From Verif Require Import GoBase Canonical SignState Spec Crypto LocalCosigner CosignerSpec Validator ValidatorSpec Rpc
  TimedSpec Deadline.
Local Open Scope Z_scope.

(** Call [tF] for [b] at the follower (timed run [lF]) is call [tL] at the leader (timed run [lL]): the
    follower sends the request at [dial], the leader's call begins afterwards, [reply] is what the
    leader's call returned and when it is back, and the follower goes on with the result of
    LeaderSignBlock. *)
Definition handed_on (txt : verr -> bytes) (expired chain : bytes) (lF lL : list tevent) (tF tL : nat)
    (b : block) (dial : Z) (reply : option (Z * vresult)) : Prop :=
  (exists tau, (tau, VCall tF b RFollower, OTau) ∈ lF /\ tau <= dial) /\
  (exists tau req b', block_request chain b = Some req /\ block_received req = Some (chain, b') /\
     (tau, VCall tL b' RLeader, OTau) ∈ lL /\ dial <= tau /\
     (forall back r, reply = Some (back, r) -> exists taur op f, (taur, op, OReturn tL b' r f) ∈ lL /\ taur <= back)) /\
  (forall tau ans o, (tau, VProxy tF ans, o) ∈ lF ->
     ans = (leader_sign_block txt expired dial reply).2 /\ (leader_sign_block txt expired dial reply).1 <= tau).

(** neither wait of the call [t] lasts 4 s: from its own parts to the parts of the others, and from
    these to the end *)
Definition within_waits (l : list tevent) (t : nat) (ends : Z) : Prop :=
  exists tau1 tau2 ps o1 o2, (tau1, VOwn t (Some ps), o1) ∈ l /\ (tau2, VGo t, o2) ∈ l /\
    tau2 < tau1 + 4000 /\ ends < tau2 + 4000.
