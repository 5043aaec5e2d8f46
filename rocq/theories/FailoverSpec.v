(** Vocabulary for requests that are made again after a first attempt (C74, C75). *)
From Verif Require Import GoBase Canonical SignState Spec Crypto LocalCosigner Poly Scheme RoundSpec Validator
  Config KeyShares KeySharesSpec Disk RaftSpec System SystemSpec SystemLiveSpec.
Local Open Scope Z_scope.

(** host [i] answered a SignBlock call for [b] with the error [e] *)
Definition refused (h : history) (i : Z) (b : block) (e : verr) : Prop :=
  exists op t ts, (EVal i op, SVal (OReturn t b (VR None ts (Some e)) false)) ∈ h.

(** every request to a cosigner was answered without error *)
Definition cosigners_fine (h : history) : Prop :=
  forall i op e, (ECos i op, SCos (ObsErr e)) ∉ h.

(** a request for a part for [k], with usable randomness *)
Definition asks_part (R : reading) (k : hrst) (op : cop) : Prop :=
  match op with
  | OpGet k' _ rnd => k' = k /\ exists s r, gr_deal rnd = Some (s, r) /\ rd_is_scalar R s
  | _ => False
  end.

(** Earlier attempts at the request [j], by other leaders, came no further than collecting parts from
    the cosigners that take part in [j]. Other hosts may do anything, crash included. *)
Definition only_collected (R : reading) (K : sysconf) (j : job) (h : history) : Prop :=
  forall e o, (e, o) ∈ h ->
    match e with
    | EVal i _ => i <> jb_leader j
    | ECos i op => i ∈ participants K j -> asks_part R (b_key (jb_block j)) op
    | EApply i | ERestart i _ => i <> jb_leader j /\ i ∉ participants K j
    | _ => True
    end.

(** the validator has recorded [sig] as the signature of [b] *)
Definition recorded_as (v : vstate) (b : block) (sig : bytes) : Prop :=
  exists c, ss_cache (vs_lss v) !! b_hrs b = Some c /\ c_sig c = Some sig /\ c_sb c = Some (b_sb b).

(** the hosts that were restarted, in order *)
Definition crashes (h : history) : list Z :=
  omap (fun x => match x with (ERestart i _, _) => Some i | _ => None end) h.
