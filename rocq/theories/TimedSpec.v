(** Runs of a threshold validator with a clock (C86). Times are milliseconds.

    The clock adds to Validator.v what the code says about waiting: a polling call sleeps 10 ms
    between two looks at the cache (threshold_validator.go:341), and the two phases of a signature
    are given up no sooner than 4 s after the wait began (389, 420). How long anything else takes,
    and by how much a sleep is late, is left open. *)
From Verif Require Import GoBase Canonical SignState Spec Crypto LocalCosigner CosignerSpec Validator ValidatorSpec.
Local Open Scope Z_scope.

(** an action, what is seen of it, and its time *)
Notation tevent := (Z * vop * vobs)%type.
Definition at_time (x : tevent) : Z := x.1.1.
Definition action (x : tevent) : vop := x.1.2.
Definition untimed (l : list tevent) : list (vop * vobs) := map (fun x => (x.1.2, x.2)) l.

(** [x] comes before [y] *)
Definition paced (x y : tevent) : Prop :=
  at_time x <= at_time y /\
  (forall t, action x = VPoll t -> action y = VPoll t -> at_time x + 10 <= at_time y) /\
  (forall t, action y = VTimeout t ->
     (action x = VGo t \/ exists ps, action x = VOwn t (Some ps)) -> at_time x + 4000 <= at_time y).
Definition timed (l : list tevent) : Prop := ForallOrdPairs paced l.

(** no request and no event in [l] is more than three heights above [h] *)
Definition near (h : Z) (l : list (vop * vobs)) : Prop :=
  (forall t b r, VCall t b r ∈ ops_of l -> h_height (b_hrs b) <= h + 3) /\
  (forall c, VLss c ∈ ops_of l -> h_height (c_hrs c) <= h + 3).

(** a request that asks for the same signature *)
Definition same_request (b b' : block) : Prop :=
  b_hrs b = b_hrs b' /\ (b_sb b = b_sb b' \/ h_step (b_hrs b) = stepPropose).
