(** C36-C39, C62: state files (signer/sign_state.go:110-160, 245-284). *)
From Coq Require Import Strings.String.
From Verif Require Import GoBase Wire Canonical SignState Spec Crypto LocalCosigner CosignerSpec Toy
  CosignerWitness Json Disk DiskSpec DiskProofs DiskProofs2 DiskWitness.

(** C36 is false: the share is returned before the state reaches the disk, so after a crash in
    between the cosigner signs a conflicting vote for the same height/round/step *)
Theorem C36_crash_refuted : exists n ops l n' a b k,
  cn_settled n /\ cnrun toy wcfg1 n ops l n' /\ released l a /\ released l b /\
  bytes_for a k /\ bytes_for b k /\ ~ same_message_but_time a b.
Proof. exact crash_conflict. Qed.
(** C36 holds for every history, with any number of crashes, in which at each restart the file
    was not behind the lost memory *)
Theorem C36_file_not_behind_partial : forall C cfg n ops l n' a b k,
  cnrun C cfg n ops l n' -> restarts_saved C cfg n ops ->
  released l a -> released l b -> bytes_for a k -> bytes_for b k -> same_message_but_time a b.
Proof. exact restart_no_conflict. Qed.
(** in particular if each write finishes before the next operation or crash *)
Theorem C36_saves_awaited_partial : forall C cfg n ops l n' a b k,
  cnrun C cfg n ops l n' -> cn_settled n -> saves_awaited C cfg n ops -> events_in_range ops ->
  released l a -> released l b -> bytes_for a k -> bytes_for b k -> same_message_but_time a b.
Proof. exact awaited_no_conflict. Qed.
(** a history meeting the hypotheses: sign, write, crash, conflicting vote refused, retry served *)
Example C36_example :
  cn_settled cn0 /\ cnrun toy wcfg1 cn0 safe_ops (cntrace safe_ops) (cnafter safe_ops) /\
  saves_awaited toy wcfg1 cn0 safe_ops /\ events_in_range safe_ops /\
  map (fun x => is_share (snd x)) (cntrace safe_ops) = [false; true; false; false; true] /\
  map (fun x => is_diff (snd x)) (cntrace safe_ops) = [false; false; false; true; false].
Proof. exact safe_run. Qed.

(** C37 is false: the goroutines may rename in the wrong order, and the older state stays *)
Theorem C37_backwards_refuted : exists p l1 p1 l2 p2 s1 s2,
  settled p /\ ops_in_range (l1 ++ l2) /\ drun p l1 p1 /\ drun p1 l2 p2 /\
  load (pr_file p1) = Some s1 /\ load (pr_file p2) = Some s2 /\
  hrs_lt (ss_hrs s2) (ss_hrs s1) /\
  pr_todo p2 = [] /\ pr_ws p2 = [] /\ hrs_lt (ss_hrs s2) (ss_hrs (pr_mem p2)).
Proof. exact file_backwards. Qed.
(** C37 holds if a Save begins only when no write is outstanding (crashes anywhere) *)
Theorem C37_sequential_partial : forall p l1 p1 l2 p2,
  settled p -> drun p l1 p1 -> drun p1 l2 p2 -> sequential p (l1 ++ l2) -> ops_in_range (l1 ++ l2) ->
  (exists s1 s2, load (pr_file p1) = Some s1 /\ load (pr_file p2) = Some s2 /\
     hrs_le (ss_hrs s1) (ss_hrs s2)) /\
  (pr_todo p2 = [] -> pr_ws p2 = [] -> settled p2).
Proof. exact file_monotone. Qed.

(** C38 is false both ways: the marshaller reads the fields one by one without the lock, so one
    file can mix two states; it can be above the memory, or below its own initial contents *)
Theorem C38_above_memory_refuted : exists p l p1 s1,
  settled p /\ ops_in_range l /\ drun p l p1 /\ pr_todo p1 = [] /\
  load (pr_file p1) = Some s1 /\ hrs_lt (ss_hrs (pr_mem p1)) (ss_hrs s1).
Proof. exact file_above_memory. Qed.
Theorem C38_below_start_refuted : exists p s0 l p1 s1,
  settled p /\ load (pr_file p) = Some s0 /\ ops_in_range l /\ drun p l p1 /\
  load (pr_file p1) = Some s1 /\ hrs_lt (ss_hrs s1) (ss_hrs s0).
Proof. exact file_below_start. Qed.
(** C38 holds for schedules where reads do not overlap with Saves, even if renames are reordered:
    the file always holds a record that was in memory as a whole, between the two bounds *)
Theorem C38_untorn_partial : forall p0 s0 l p,
  settled p0 -> load (pr_file p0) = Some s0 -> drun p0 l p -> untorn p0 l -> ops_in_range l ->
  exists sf m, load (pr_file p) = Some sf /\ held p0 l m /\ agree sf m /\
    hrs_le (ss_hrs s0) (ss_hrs sf) /\ (pr_todo p = [] -> hrs_le (ss_hrs sf) (ss_hrs (pr_mem p))).
Proof. exact file_bounds. Qed.
(** a Save whose fields are stored one by one, with reads of goroutines and renames in between, leaves the
    object as the Save of C01 and C02 leaves it *)
Theorem C38_save_whole : forall p c l p',
  pr_todo p = [] -> drun p (DSave c :: l) p' -> pr_todo p' = [] ->
  Forall (fun op => match op with DStore | DRead _ | DRename _ => True | _ => False end) l ->
  pr_mem p' = fst (save (pr_mem p) c).
Proof. exact save_whole. Qed.
(** a run with two Saves and a crash meeting the hypotheses of both *)
Example C37_C38_example :
  settled (dstart k5) /\ ops_in_range good_ops /\
  drun (dstart k5) good_ops (dafter k5 good_ops) /\
  sequential (dstart k5) good_ops /\ untorn (dstart k5) good_ops /\
  file_hrs (dafter k5 good_ops) = Some k7.
Proof. exact good_run. Qed.
Example C38_save_example :
  let l := [DSave (SSC k6 (Some [x01]) (Some [x02]))] ++ replicate 6 DStore ++ [DRead 0] in
  pr_todo (dstart k5) = [] /\ drun (dstart k5) l (dafter k5 l) /\ pr_todo (dafter k5 l) = [] /\
  ss_hrs (pr_mem (dafter k5 l)) = k6.
Proof.
  split; [reflexivity|]. split; [apply dafter_run; vm_compute; discriminate|]. split; vm_compute; reflexivity.
Qed.

(** C39 *)
Theorem C39_load_after_save : forall s, hrs_in_range (ss_hrs s) ->
  exists s', load (Some (marshal_state (rec_of s))) = Some s' /\
    ss_hrs s' = ss_hrs s /\ ss_eph s' = ss_eph s /\ ss_sig s' = ss_sig s /\ ss_sb s' = ss_sb s /\
    (forall k, ss_cache s' !! k =
       if decide (k = ss_hrs s) then Some (SSC (ss_hrs s) (ss_sig s) (ss_sb s)) else None).
Proof. exact load_after_save. Qed.
Theorem C39_load_or_create : forall f,
  (forall s, load f = Some s -> load_or_create f = (s, f)) /\
  (load f = None -> (load_or_create f).1 = zero_state /\
     exists s, load (load_or_create f).2 = Some s /\ agree s zero_state).
Proof. exact load_or_create_spec. Qed.
Example C39_example : marshal_state (FR 5 (-1) 3 None (Some [x01; xff]) (Some [xab])) =
  lit "{" ++ [x0a] ++
  lit "  ""height"": ""5""," ++ [x0a] ++ lit "  ""round"": ""-1""," ++ [x0a] ++
  lit "  ""step"": 3," ++ [x0a] ++ lit "  ""ephemeral_public"": null," ++ [x0a] ++
  lit "  ""signature"": ""Af8=""," ++ [x0a] ++ lit "  ""signbytes"": ""AB""" ++ [x0a] ++ lit "}".
Proof. vm_compute. reflexivity. Qed.

(** C62 is false in two ways: the empty object and null load as the zero state, and
    LoadOrCreateSignState replaces every file it cannot read (for instance every truncated one) by
    the zero state *)
Theorem C62_empty_object_refuted :
  exists s, load (Some (lit "{}")) = Some s /\ ss_hrs s = HRS 0 0 0 /\ ss_sb s = None.
Proof. exact empty_object_loads. Qed.
Theorem C62_truncated_resets_refuted : forall r n, (n < length (marshal_state r))%nat ->
  (load_or_create (Some (take n (marshal_state r)))).1 = zero_state.
Proof. exact truncated_resets. Qed.
(** C62 for the share state: LoadSignState refuses every truncated file *)
Theorem C62_truncated_refused_partial : forall r n, (n < length (marshal_state r))%nat ->
  load (Some (take n (marshal_state r))) = None.
Proof. exact load_cut. Qed.

Print Assumptions C36_crash_refuted.
Print Assumptions C36_file_not_behind_partial.
Print Assumptions C36_saves_awaited_partial.
Print Assumptions C37_backwards_refuted.
Print Assumptions C37_sequential_partial.
Print Assumptions C38_above_memory_refuted.
Print Assumptions C38_below_start_refuted.
Print Assumptions C38_untorn_partial.
Print Assumptions C38_save_whole.
Print Assumptions C39_load_after_save.
Print Assumptions C39_load_or_create.
Print Assumptions C62_empty_object_refuted.
Print Assumptions C62_truncated_resets_refuted.
Print Assumptions C62_truncated_refused_partial.
