(** C01-C04: the sign state (signer/sign_state.go). *)
From Verif Require Import GoBase Canonical SignState Spec SignStateProofs.

(** C01: the watermark never decreases, over any list of Save calls. *)
Theorem C01_watermark_monotone : forall s l, hrs_le (ss_hrs s) (ss_hrs (run_saves s l)).
Proof. exact run_saves_mono. Qed.

(** C01: it is exactly the maximum of the start and all offered values. *)
Theorem C01_watermark_is_maximum :
  forall s l, ss_hrs (run_saves s l) = hrs_max (ss_hrs s) (map c_hrs l).
Proof. exact run_saves_max. Qed.

(** C01: effect of an accepted Save on the recorded fields; an accepted Save is a strict
    increase to exactly the saved values, and does not touch the ephemeral key. *)
Theorem C01_accepted_save : forall s c, (save s c).2 = None ->
  hrs_lt (ss_hrs s) (ss_hrs (save s c).1) /\
  ss_hrs (save s c).1 = c_hrs c /\ ss_sig (save s c).1 = c_sig c /\
  ss_sb (save s c).1 = c_sb c /\ ss_eph (save s c).1 = ss_eph s.
Proof. exact save_accepted_fields. Qed.

(** C01: a rejected Save leaves the whole state, cache included, untouched. *)
Theorem C01_rejected_save : forall s c e, (save s c).2 = Some e -> (save s c).1 = s.
Proof. exact save_rejected. Qed.

(** C02: acceptance and each error, exactly. *)
Theorem C02_save_accepts_iff_greater :
  forall s c, (save s c).2 = None <-> hrs_lt (ss_hrs s) (c_hrs c).
Proof. exact save_ok_iff. Qed.
Theorem C02_same_hrs_iff_equal :
  forall s c, (save s c).2 = Some SameHRS <-> c_hrs c = ss_hrs s.
Proof. exact save_same_iff. Qed.
Theorem C02_regression_names_first_component : forall s c,
  ((save s c).2 = Some HeightRegression <-> h_height (c_hrs c) < h_height (ss_hrs s)) /\
  ((save s c).2 = Some RoundRegression <->
     h_height (c_hrs c) = h_height (ss_hrs s) /\ h_round (c_hrs c) < h_round (ss_hrs s)) /\
  ((save s c).2 = Some StepRegression <->
     h_height (c_hrs c) = h_height (ss_hrs s) /\ h_round (c_hrs c) = h_round (ss_hrs s) /\
     h_step (c_hrs c) < h_step (ss_hrs s)).
Proof. exact save_regression_iff. Qed.

(** C03: the complete decision table of CheckHRS. *)
Theorem C03_check_hrs_table : forall s k,
  (check_hrs s k = Val false <-> hrs_lt (ss_hrs s) k) /\
  (check_hrs s k = Val true <-> k = ss_hrs s /\ is_Some (ss_sb s) /\ is_Some (ss_sig s)) /\
  (check_hrs s k = Panic <-> k = ss_hrs s /\ is_Some (ss_sb s) /\ ss_sig s = None) /\
  (check_hrs s k = Fail ChkNoSignBytes <-> k = ss_hrs s /\ ss_sb s = None) /\
  (check_hrs s k = Fail ChkHeight <-> h_height k < h_height (ss_hrs s)) /\
  (check_hrs s k = Fail ChkRound <->
     h_height k = h_height (ss_hrs s) /\ h_round k < h_round (ss_hrs s)) /\
  (check_hrs s k = Fail ChkStep <->
     h_height k = h_height (ss_hrs s) /\ h_round k = h_round (ss_hrs s) /\
     h_step k < h_step (ss_hrs s)).
Proof. exact check_hrs_spec. Qed.

(** C04: lookups after any history, from a loaded file and from a fresh state. Heights are
    int64; [window_low] = -2^63 + 3 excludes the underflow of [height - 3]. *)
Theorem C04_cache_window_loaded : forall k eph sg sb l q,
  window_low <= h_height k < 2 ^ 63 ->
  Forall (fun c => h_height (c_hrs c) < 2 ^ 63) l ->
  forall r, (get_from_cache (run_saves (loaded_state k eph sg sb) l) q).2 = Some r <->
    r ∈ SSC k sg sb :: record_highs k l /\ c_hrs r = q /\
    h_height (hrs_max k (map c_hrs l)) - 3 <= h_height q.
Proof. exact cache_window_loaded. Qed.
Theorem C04_cache_window_fresh : forall l q,
  Forall (fun c => h_height (c_hrs c) < 2 ^ 63) l ->
  forall r, (get_from_cache (run_saves zero_state l) q).2 = Some r <->
    r ∈ record_highs (HRS 0 0 0) l /\ c_hrs r = q /\
    h_height (hrs_max (HRS 0 0 0) (map c_hrs l)) - 3 <= h_height q.
Proof. exact cache_window_zero. Qed.

(** C04: why the int64 hypothesis is there. At a height within 3 of the int64 minimum the
    pruning bound wraps around to a huge positive height and the record just saved is itself
    deleted. (Unreachable for real chains: heights are positive.) *)
Theorem C04_underflow_refuted : exists s c,
  h_height (c_hrs c) = - 2 ^ 63 + 2 /\ h_height (ss_hrs s) = - 2 ^ 63 /\
  (save s c).2 = None /\ (get_from_cache (save s c).1 (c_hrs c)).2 = None.
Proof. exact cache_underflow. Qed.

Print Assumptions C01_watermark_monotone.
Print Assumptions C01_watermark_is_maximum.
Print Assumptions C01_accepted_save.
Print Assumptions C01_rejected_save.
Print Assumptions C02_save_accepts_iff_greater.
Print Assumptions C02_same_hrs_iff_equal.
Print Assumptions C02_regression_names_first_component.
Print Assumptions C03_check_hrs_table.
Print Assumptions C04_cache_window_loaded.
Print Assumptions C04_cache_window_fresh.
Print Assumptions C04_underflow_refuted.

(** ** Non-vacuity *)

Example ex_saves :
  let l := [SSC (HRS 10 0 1) (Some [x01]) (Some [x02]); SSC (HRS 9 0 3) None None;
            SSC (HRS 10 0 3) (Some [x03]) (Some [x04]); SSC (HRS 14 0 1) None None;
            SSC (HRS 14 0 1) (Some [x05]) None] in
  ss_hrs (run_saves zero_state l) = HRS 14 0 1 /\
  map c_hrs (record_highs (HRS 0 0 0) l) = [HRS 10 0 1; HRS 10 0 3; HRS 14 0 1] /\
  (* 10 is below 14 - 3 *)
  (get_from_cache (run_saves zero_state l) (HRS 10 0 3)).2 = None /\
  (get_from_cache (run_saves zero_state (take 3 l)) (HRS 10 0 1)).2
    = Some (SSC (HRS 10 0 1) (Some [x01]) (Some [x02])).
Proof. repeat split; vm_compute; reflexivity. Qed.

Example ex_check_hrs :
  let s := SS (HRS 5 1 2) None (Some [x01]) (Some [x02]) ∅ in
  check_hrs s (HRS 5 1 2) = Val true /\ check_hrs s (HRS 5 1 3) = Val false /\
  check_hrs s (HRS 4 9 9) = Fail ChkHeight /\ check_hrs s (HRS 5 0 9) = Fail ChkRound /\
  check_hrs s (HRS 5 1 1) = Fail ChkStep /\
  check_hrs (SS (HRS 5 1 2) None None None ∅) (HRS 5 1 2) = Fail ChkNoSignBytes /\
  check_hrs (SS (HRS 5 1 2) None None (Some []) ∅) (HRS 5 1 2) = Panic.
Proof. repeat split; vm_compute; reflexivity. Qed.
