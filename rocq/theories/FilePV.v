(** The single signer: cmd/horcrux/cmd/signer.go:35-104 around tendermint's FilePV.

    FilePV is tendermint v0.34.14 privval/file.go (read from memory, see DESIGN.md section 4);
    signer/PvGuard.go:26-37 runs one request at a time, so that a request is one step here.
    Not modelled: the key file (signing is a function), and the JSON of the state file, which is
    written to a temporary file and renamed: a failing or interrupted write leaves the old or the
    new contents. *)
From Verif Require Import GoBase Wire Canonical Privval.
Local Open Scope Z_scope.

(** FilePVLastSignState without its path *)
Record lss := LSS { ls_hrs : hrs; ls_sig : option bytes; ls_sb : option bytes }.
(** FilePVLastSignState{} *)
Definition lss_zero : lss := LSS (HRS 0 0 0) None None.

Inductive pv_error := PvHeight | PvRound | PvStep | PvNoSignBytes | PvConflict | PvKey.

(** FilePVLastSignState.CheckHRS *)
Definition pv_check (l : lss) (k : hrs) : outcome pv_error bool :=
  let w := ls_hrs l in
  if h_height k <? h_height w then Fail PvHeight
  else if h_height w =? h_height k then
    if h_round k <? h_round w then Fail PvRound
    else if h_round w =? h_round k then
      if h_step k <? h_step w then Fail PvStep
      else if h_step w =? h_step k then
        match ls_sb l with
        | Some _ => match ls_sig l with None => Panic | Some _ => Val true end
        | None => Fail PvNoSignBytes
        end
      else Val false
    else Val false
  else Val false.

(** checkVotesOnlyDifferByTimestamp: [Val] has the last timestamp if they do; undecodable sign
    bytes panic *)
Definition votes_differ (last new : bytes) : outcome unit (option time) :=
  match decode_vote last, decode_vote new with
  | Some lv, Some nv => Val (if bool_decide (set_vote_ts nv (cv_ts lv) = lv) then Some (cv_ts lv) else None)
  | _, _ => Panic
  end.
(** checkProposalsOnlyDifferByTimestamp *)
Definition props_differ (last new : bytes) : outcome unit (option time) :=
  match decode_proposal last, decode_proposal new with
  | Some lp, Some np => Val (if bool_decide (set_proposal_ts np (cp_ts lp) = lp) then Some (cp_ts lp) else None)
  | _, _ => Panic
  end.

(** what a request ends in: an answer taken from the state, a new signature with the state to be
    saved before it is handed out, an error, a panic *)
Inductive pv_result (A : Type) := PvOld (a : A) | PvNew (a : A) (l : lss) | PvErr (e : pv_error) | PvPanic.
Arguments PvOld {A} a. Arguments PvNew {A} a l. Arguments PvErr {A} e. Arguments PvPanic {A}.

Section FilePV.
(** PrivKey.Sign *)
Context (key : bytes -> option bytes).
(** signer.go:46, 88: the chain ID of the configuration *)
Context (chain : bytes).

Definition set_vote (v : pvote) (ts : time) (sig : bytes) : pvote :=
  let c := pv_vote v in
  PVote (Vote (v_type c) (v_height c) (v_round c) (v_bid c) ts) (pv_addr v) (pv_index v) sig.
Definition set_prop (p : pprop) (ts : time) (sig : bytes) : pprop :=
  let c := pp_prop p in
  PProp (pp_type p) (Proposal (p_height c) (p_round c) (p_pol c) (p_bid c) ts) sig.

(** FilePV.signVote; voteToStep panics on other types, a nil pointer is dereferenced *)
Definition sign_vote (l : lss) (v : option pvote) : pv_result pvote :=
  match v with
  | None => PvPanic
  | Some v =>
      let c := pv_vote v in
      match vote_type_to_step (v_type c) with
      | None => PvPanic
      | Some s =>
          let k := HRS (v_height c) (v_round c) s in
          match pv_check l k with
          | Panic => PvPanic
          | Fail e => PvErr e
          | Val same =>
              match vote_sign_bytes chain c with
              | Val sb =>
                  if same : bool then
                    if bytes_equal sb (slice_of (ls_sb l))
                    then PvOld (set_vote v (v_ts c) (slice_of (ls_sig l)))
                    else match votes_differ (slice_of (ls_sb l)) sb with
                         | Val (Some ts) => PvOld (set_vote v ts (slice_of (ls_sig l)))
                         | Val None => PvErr PvConflict
                         | _ => PvPanic
                         end
                  else match key sb with
                       | None => PvErr PvKey
                       | Some sig => PvNew (set_vote v (v_ts c) sig) (LSS k (Some sig) (Some sb))
                       end
              | _ => PvPanic
              end
          end
      end
  end.

(** FilePV.signProposal *)
Definition sign_prop (l : lss) (p : option pprop) : pv_result pprop :=
  match p with
  | None => PvPanic
  | Some p =>
      let c := pp_prop p in
      let k := HRS (p_height c) (p_round c) stepPropose in
      match pv_check l k with
      | Panic => PvPanic
      | Fail e => PvErr e
      | Val same =>
          match proposal_sign_bytes chain c with
          | Val sb =>
              if same : bool then
                if bytes_equal sb (slice_of (ls_sb l))
                then PvOld (set_prop p (p_ts c) (slice_of (ls_sig l)))
                else match props_differ (slice_of (ls_sb l)) sb with
                     | Val (Some ts) => PvOld (set_prop p ts (slice_of (ls_sig l)))
                     | Val None => PvErr PvConflict
                     | _ => PvPanic
                     end
              else match key sb with
                   | None => PvErr PvKey
                   | Some sig => PvNew (set_prop p (p_ts c) sig) (LSS k (Some sig) (Some sb))
                   end
          | _ => PvPanic
          end
      end
  end.

(** ** Process and disk *)

(** the state file, and the state in memory while the process runs *)
Record world := World { wo_file : option lss; wo_mem : option lss }.

(** WriteFileAtomic: done, or failed with the old or the new contents in place (Save panics) *)
Inductive written := Written | FailedOld | FailedNew.
Inductive event := Start | Stop | AskVote (v : option pvote) (w : written) | AskProp (p : option pprop) (w : written).
(** what leaves the process *)
Inductive seen := SawVote (v : pvote) | SawProp (p : pprop) | SawError (e : pv_error) | SawNothing.

(** [reload] false: LoadFilePVEmptyState, which signer.go:78 calls. [reload] true: LoadFilePV, in the
    comment of signer.go:76; it ends the process if the file is missing. *)
Context (reload : bool).
Definition started (f : option lss) : option lss := if reload then f else Some lss_zero.

Definition finish {A} (w : world) (saw : A -> seen) (r : pv_result A) (wr : written) : world * seen :=
  match r with
  | PvOld a => (w, saw a)
  | PvNew a l =>
      match wr with
      | Written => (World (Some l) (Some l), saw a)
      | FailedOld => (World (wo_file w) None, SawNothing)
      | FailedNew => (World (Some l) None, SawNothing)
      end
  | PvErr e => (w, SawError e)
  | PvPanic => (World (wo_file w) None, SawNothing)
  end.

(** nothing happens to requests while no process runs; starting twice is starting anew *)
Definition pv_step (w : world) (e : event) : world * seen :=
  match e with
  | Start => (World (wo_file w) (started (wo_file w)), SawNothing)
  | Stop => (World (wo_file w) None, SawNothing)
  | AskVote v wr => match wo_mem w with None => (w, SawNothing) | Some l => finish w SawVote (sign_vote l v) wr end
  | AskProp p wr => match wo_mem w with None => (w, SawNothing) | Some l => finish w SawProp (sign_prop l p) wr end
  end.
Fixpoint pv_run (w : world) (es : list event) : world * list seen :=
  match es with
  | [] => (w, [])
  | e :: es' => let '(w1, o) := pv_step w e in let '(w2, os) := pv_run w1 es' in (w2, o :: os)
  end.
End FilePV.
