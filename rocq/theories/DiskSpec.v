(** Vocabulary for statements about state files. *)
From Verif Require Import GoBase Canonical SignState Spec Crypto LocalCosigner Disk.

(** the fields have the values their Go types allow *)
Definition hrs_in_range (k : hrs) : Prop :=
  in_int64 (h_height k) /\ in_int64 (h_round k) /\ in_int8 (h_step k).
Definition ops_in_range (l : list dop) : Prop :=
  forall c, DSave c ∈ l -> hrs_in_range (c_hrs c).

(** same height/round/step, signature and sign bytes *)
Definition agree (a b : sign_state) : Prop :=
  ss_hrs a = ss_hrs b /\ ss_sig a = ss_sig b /\ ss_sb a = ss_sb b.

(** a process that was just started from, or has completely written, its file *)
Definition settled (p : proc) : Prop :=
  pr_todo p = [] /\ pr_ws p = [] /\ exists s, load (pr_file p) = Some s /\ agree s (pr_mem p).

(** in the run, a Save begins only when no write is outstanding *)
Definition sequential (p : proc) (l : list dop) : Prop :=
  forall l1 c l2 p1, l = l1 ++ DSave c :: l2 -> drun p l1 p1 -> pr_ws p1 = [].

(** in the run, no goroutine is in the middle of reading the fields when a Save begins or
    continues, and none reads while a Save is in progress *)
Definition untorn (p : proc) (l : list dop) : Prop :=
  forall l1 op l2 p1, l = l1 ++ op :: l2 -> drun p l1 p1 ->
    match op with
    | DSave _ | DStore => Forall (fun w => w_pc w = 0%nat \/ w_pc w = 6%nat) (pr_ws p1)
    | DRead _ => pr_todo p1 = []
    | _ => True
    end.

(** [m] was the value of the object at some moment when no Save was in progress *)
Definition held (p : proc) (l : list dop) (m : sign_state) : Prop :=
  exists l1 l2 p1, l = l1 ++ l2 /\ drun p l1 p1 /\ pr_todo p1 = [] /\ m = pr_mem p1.

(** at every restart in the run, the state file was at least as advanced as the memory that got
    lost: above it, or with the same height/round/step and sign bytes *)
Definition restarts_saved (C : Crypto) (cfg : cos_config) (n : cnode) (ops : list cnop) : Prop :=
  forall o1 o2 l1 n1 s, ops = o1 ++ CRestart :: o2 -> cnrun C cfg n o1 l1 n1 ->
    load (cn_file n1) = Some s ->
    hrs_lt (ss_hrs (cs_lss (cn_cos n1))) (ss_hrs s) \/
    (ss_hrs s = ss_hrs (cs_lss (cn_cos n1)) /\ ss_sb s = ss_sb (cs_lss (cn_cos n1))).

(** a cosigner just started from, or having completely written, its file *)
Definition cn_settled (n : cnode) : Prop :=
  cn_ws n = [] /\ exists s, load (cn_file n) = Some s /\ agree s (cs_lss (cn_cos n)).

(** in the run, operations and crashes happen only when no write is outstanding *)
Definition saves_awaited (C : Crypto) (cfg : cos_config) (n : cnode) (ops : list cnop) : Prop :=
  forall o1 op o2 l1 n1, ops = o1 ++ op :: o2 -> cnrun C cfg n o1 l1 n1 ->
    match op with COp _ | CRestart => cn_ws n1 = [] | _ => True end.
Definition events_in_range (ops : list cnop) : Prop :=
  forall c, COp (OpLSS c) ∈ ops -> hrs_in_range (c_hrs c).
