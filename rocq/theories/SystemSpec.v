(** Vocabulary for statements about a whole cluster. *)
From Verif Require Import GoBase Canonical SignState Spec Crypto LocalCosigner Validator ValidatorSpec Disk DiskSpec System.
Local Open Scope Z_scope.

(** host [i] answered a SignBlock call for [b] with the signature [sig] and no error *)
Definition handed_out (h : history) (i : Z) (b : block) (sig : bytes) : Prop :=
  exists op t ts f, (EVal i op, SVal (OReturn t b (VR (Some sig) ts None) f)) ∈ h.

(** cosigner [j] gave a signature share for [m] *)
Definition gave (h : history) (j : Z) (m : bytes) : Prop :=
  exists op r, (ECos j op, SCos (ObsShare m r)) ∈ h.

(** at least [t] cosigners gave shares for [m] (faulty ones always can) *)
Definition supported (S : system) (t : Z) (faulty : gset Z) (h : history) (m : bytes) : Prop :=
  exists q : gset Z, t <= Z.of_nat (size q) /\
    forall j, j ∈ q -> is_Some (sy_hosts S !! j) /\ (j ∉ faulty -> gave h j m).

(** what the operator sets up: one host per ID, the same threshold and public key everywhere, and
    the other hosts as peers, each once *)
Definition set_up (K : sysconf) (S : system) (t : Z) (pub : bytes) : Prop :=
  forall i, is_Some (sy_hosts S !! i) ->
    vc_id (sc_val K i) = i /\ vc_threshold (sc_val K i) = t /\ vc_pub (sc_val K i) = pub /\
    NoDup (i :: vc_peers (sc_val K i)) /\ forall p, p ∈ vc_peers (sc_val K i) -> is_Some (sy_hosts S !! p).

(** no signature recorded by the validators yet (the cosigners may have signed before) *)
Definition no_signatures (s : sign_state) : Prop :=
  ss_sig s = None /\ forall k c, ss_cache s !! k = Some c -> c_hrs c = k /\ c_sig c = None.
Definition first_start (S : system) : Prop :=
  sy_proposed S = [] /\ sy_log S = [] /\
  forall i n, sy_hosts S !! i = Some n -> idle (ho_val n) /\ no_signatures (vs_lss (ho_val n)).

(** the state in the file [s] is above the one in memory, or has the same level and sign bytes *)
Definition not_behind (s mem : sign_state) : Prop :=
  hrs_lt (ss_hrs mem) (ss_hrs s) \/ (ss_hrs s = ss_hrs mem /\ ss_sb s = ss_sb mem).

(** at every restart of a host outside [lossy] the cosigner's file was not behind the lost memory
    (C36 is about when this holds) *)
Definition shares_kept (C : Crypto) (K : sysconf) (faulty : gset Z) (S0 : system) (lossy : gset Z) (h : history) : Prop :=
  forall h1 i k o h2 S n, h = h1 ++ (ERestart i k, o) :: h2 -> srun C K faulty S0 h1 S ->
    sy_hosts S !! i = Some n -> i ∉ lossy ->
    forall s, load (cn_file (ho_cos n)) = Some s -> not_behind s (cs_lss (cn_cos (ho_cos n))).
(** at every restart the validator's file held a state the validator once had (C38) *)
Definition files_true (C : Crypto) (K : sysconf) (faulty : gset Z) (S0 : system) (h : history) : Prop :=
  forall h1 i k o h2 S n, h = h1 ++ (ERestart i k, o) :: h2 -> srun C K faulty S0 h1 S ->
    sy_hosts S !! i = Some n ->
    forall s, load (ho_vfile n) = Some s -> exists h' h'' S' n', h1 = h' ++ h'' /\
      srun C K faulty S0 h' S' /\ sy_hosts S' !! i = Some n' /\ agree s (vs_lss (ho_val n')).
(** both, on every host *)
Definition restarts_good (C : Crypto) (K : sysconf) (faulty : gset Z) (S0 : system) (h : history) : Prop :=
  forall h1 i k o h2 S n, h = h1 ++ (ERestart i k, o) :: h2 -> srun C K faulty S0 h1 S ->
    sy_hosts S !! i = Some n ->
    (forall s, load (cn_file (ho_cos n)) = Some s -> not_behind s (cs_lss (cn_cos (ho_cos n)))) /\
    (forall s, load (ho_vfile n) = Some s -> exists h' h'' S' n', h1 = h' ++ h'' /\
       srun C K faulty S0 h' S' /\ sy_hosts S' !! i = Some n' /\ agree s (vs_lss (ho_val n'))).

(** no signature in the validators' files either, and nobody writing them *)
Definition first_files (S : system) : Prop :=
  forall i n, sy_hosts S !! i = Some n -> ho_vws n = [] /\ forall s, load (ho_vfile n) = Some s -> ss_sig s = None.

(** the hosts that restarted *)
Definition restarted (h : history) : gset Z :=
  list_to_set (omap (fun x => match x with (ERestart i _, _) => Some i | _ => None end) h).
