(** In-memory sign state: signer/sign_state.go:52-141, 162-242.

    Simplifications: the mutex arguments are dropped, each method is one atomic step (every
    caller in /repo that runs concurrently passes or holds the corresponding mutex; callers that
    do not are modelled at their own granularity); the asynchronous file write started at
    sign_state.go:136-138 is modelled in Disk.v. *)
From Verif Require Import GoBase Wire Canonical.

(** sign_state.go:65-71 SignStateConsensus. [None] is a nil slice. *)
Record consensus := SSC {
  c_hrs : hrs; c_sig : option bytes; c_sb : option bytes }.

(** sign_state.go:73-79 NewSignStateConsensus *)
Definition new_consensus (k : hrs) : consensus := SSC k None None.

(** sign_state.go:53-63 SignState ([filePath] is in Disk.v) *)
Record sign_state := SS {
  ss_hrs : hrs;
  ss_eph : option bytes;
  ss_sig : option bytes;
  ss_sb : option bytes;
  ss_cache : gmap hrs consensus }.

(** [SignState{}] with an empty cache: sign_state.go:279-281 *)
Definition zero_state : sign_state := SS (HRS 0 0 0) None None None ∅.

(** errors of GetErrorIfLessOrEqual, sign_state.go:214-239 *)
Inductive save_error := HeightRegression | RoundRegression | StepRegression | SameHRS.

(** sign_state.go:209-242 GetErrorIfLessOrEqual; [None] is a nil error *)
Definition error_if_less_or_equal (s : sign_state) (k : hrs) : option save_error :=
  if h_height k <? h_height (ss_hrs s) then Some HeightRegression
  else if h_height (ss_hrs s) <? h_height k then None
  else if h_round k <? h_round (ss_hrs s) then Some RoundRegression
  else if h_round (ss_hrs s) <? h_round k then None
  else if h_step k <? h_step (ss_hrs s) then Some StepRegression
  else if h_step k =? h_step (ss_hrs s) then Some SameHRS
  else None.

(** sign_state.go:23 *)
Definition blocksToCache : Z := 3.

(** sign_state.go:125-129: the pruning loop; int64 subtraction wraps *)
Definition prune_cache (h : Z) (m : gmap hrs consensus) : gmap hrs consensus :=
  filter (fun '(k, _) => ~ (h_height k < wrap64 (h - blocksToCache))) m.

(** sign_state.go:110-141 Save: new state and returned error *)
Definition save (s : sign_state) (c : consensus) : sign_state * option save_error :=
  match error_if_less_or_equal s (c_hrs c) with
  | Some e => (s, Some e)
  | None =>
      (SS (c_hrs c) (ss_eph s) (c_sig c) (c_sb c)
          (prune_cache (h_height (c_hrs c)) (<[c_hrs c := c]> (ss_cache s))), None)
  end.

(** sign_state.go:94-108 GetFromCache *)
Definition get_from_cache (s : sign_state) (k : hrs) : hrs * option consensus :=
  (ss_hrs s, ss_cache s !! k).

(** errors of CheckHRS, sign_state.go:169-190 *)
Inductive check_error := ChkHeight | ChkRound | ChkStep | ChkNoSignBytes.

(** sign_state.go:168-195 CheckHRS *)
Definition check_hrs (s : sign_state) (k : hrs) : outcome check_error bool :=
  if h_height k <? h_height (ss_hrs s) then Fail ChkHeight
  else if h_height (ss_hrs s) =? h_height k then
    if h_round k <? h_round (ss_hrs s) then Fail ChkRound
    else if h_round (ss_hrs s) =? h_round k then
      if h_step k <? h_step (ss_hrs s) then Fail ChkStep
      else if h_step (ss_hrs s) =? h_step k then
        match ss_sb s with
        | Some _ => match ss_sig s with None => Panic | Some _ => Val true end
        | None => Fail ChkNoSignBytes
        end
      else Val false
    else Val false
  else Val false.

(** a history of Save calls, oldest first *)
Fixpoint run_saves (s : sign_state) (l : list consensus) : sign_state :=
  match l with [] => s | c :: l' => run_saves (save s c).1 l' end.

(** sign_state.go:256-263: the state and cache LoadSignState builds from the file's fields *)
Definition loaded_state (k : hrs) (eph sig sb : option bytes) : sign_state :=
  SS k eph sig sb {[ k := SSC k sig sb ]}.
