(** Persistence of sign states: signer/sign_state.go:110-160 (Save and save), 245-284 (loading).

    File system: a state file is absent or holds bytes; tempfile.WriteFileAtomic writes and syncs a
    temporary file and renames it over the target, so the contents change in one step (the rename)
    and only there. Write errors (which panic) are not modelled.

    Concurrency: Save changes the fields of the shared object one by one while holding the lock;
    the goroutine it starts calls save(), which reads the same fields one by one (tmJson walks the
    struct by reflection) WITHOUT the lock and later renames. [dstep] interleaves these atomic
    actions arbitrarily; each field access is assumed atomic. *)
From Coq Require Import Strings.String.
From Verif Require Import GoBase Wire Canonical SignState Crypto LocalCosigner Json.
Local Open Scope Z_scope.

(** ** The file format *)

(** the exported fields of SignState, sign_state.go:54-59 *)
Record file_rec := FR {
  fr_h : Z; fr_r : Z; fr_s : Z;
  fr_eph : option bytes; fr_sig : option bytes; fr_sb : option bytes }.
Definition fr_hrs (f : file_rec) : hrs := HRS (fr_h f) (fr_r f) (fr_s f).
Definition rec_of (s : sign_state) : file_rec :=
  FR (h_height (ss_hrs s)) (h_round (ss_hrs s)) (h_step (ss_hrs s)) (ss_eph s) (ss_sig s) (ss_sb s).

(** sign_state.go:152 tmJson.MarshalIndent(signState, "", "  "): int64 as strings, int8 as number,
    []byte as base64 or null, HexBytes as upper case hex; omitempty drops nil slices (libs/json
    tests reflect's IsZero, so an empty non-nil slice is written) *)
Definition marshal_state (f : file_rec) : bytes :=
  object_indent
    ([(lit "height", quote (print_int (fr_h f)));
      (lit "round", quote (print_int (fr_r f)));
      (lit "step", print_int (fr_s f));
      (lit "ephemeral_public", b64_text (fr_eph f))] ++
     match fr_sig f with None => [] | Some b => [(lit "signature", b64_text (Some b))] end ++
     match fr_sb f with None => [] | Some b => [(lit "signbytes", hex_text (Some b))] end).

(** libs/json decoding of one field: a missing or null member leaves the zero value *)
Definition field {A} (m : list (bytes * json)) (name : bytes) (zero : A) (dec : json -> option A)
  : option A :=
  match member name m with
  | None | Some JNull => Some zero
  | Some j => dec j
  end.
(** int64 fields must be strings whose contents are a JSON number *)
Definition int64_string (j : json) : option Z :=
  match j with
  | JStr raw => match parse_json raw with Some j' => int_of_json 64 j' | None => None end
  | _ => None
  end.

(** sign_state.go:252 tmJson.Unmarshal into SignState{} *)
Definition unmarshal_state (text : bytes) : option file_rec :=
  match parse_json text with
  | Some JNull => Some (FR 0 0 0 None None None)
  | Some (JObj m) =>
      match field m (lit "height") 0 int64_string, field m (lit "round") 0 int64_string,
            field m (lit "step") 0 (int_of_json 8),
            field m (lit "ephemeral_public") None bytes_of_json,
            field m (lit "signature") None bytes_of_json,
            field m (lit "signbytes") None (fun j => Some <$> hex_of_json j) with
      | Some h, Some r, Some s, Some e, Some sg, Some sb => Some (FR h r s e sg sb)
      | _, _, _, _, _, _ => None
      end
  | _ => None
  end.

(** ** Loading *)

(** a state file: absent, or its contents *)
Definition file := option bytes.

(** sign_state.go:245-266 LoadSignState *)
Definition load (f : file) : option sign_state :=
  match f with
  | None => None
  | Some text =>
      match unmarshal_state text with
      | None => None
      | Some r => Some (loaded_state (fr_hrs r) (fr_eph r) (fr_sig r) (fr_sb r))
      end
  end.

(** sign_state.go:271-284 LoadOrCreateSignState: the state and the new file contents *)
Definition load_or_create (f : file) : sign_state * file :=
  match load f with
  | Some s => (s, f)
  | None => (zero_state, Some (marshal_state (rec_of zero_state)))
  end.

(** ** Asynchronous saving *)

(** a goroutine running save(): the number of fields read so far and their values *)
Record writer := Writer { w_pc : nat; w_rec : file_rec }.
Definition new_writer : writer := Writer 0 (FR 0 0 0 None None None).

(** sign_state.go:152: the marshaller reads the next field *)
Definition read_field (s : sign_state) (w : writer) : option writer :=
  let f := w_rec w in
  match w_pc w with
  | 0%nat => Some (Writer 1 (FR (h_height (ss_hrs s)) (fr_r f) (fr_s f) (fr_eph f) (fr_sig f) (fr_sb f)))
  | 1%nat => Some (Writer 2 (FR (fr_h f) (h_round (ss_hrs s)) (fr_s f) (fr_eph f) (fr_sig f) (fr_sb f)))
  | 2%nat => Some (Writer 3 (FR (fr_h f) (fr_r f) (h_step (ss_hrs s)) (fr_eph f) (fr_sig f) (fr_sb f)))
  | 3%nat => Some (Writer 4 (FR (fr_h f) (fr_r f) (fr_s f) (ss_eph s) (fr_sig f) (fr_sb f)))
  | 4%nat => Some (Writer 5 (FR (fr_h f) (fr_r f) (fr_s f) (fr_eph f) (ss_sig s) (fr_sb f)))
  | 5%nat => Some (Writer 6 (FR (fr_h f) (fr_r f) (fr_s f) (fr_eph f) (fr_sig f) (ss_sb s)))
  | _ => None
  end.

(** the remaining actions of a Save past its check, sign_state.go:131-138 *)
Inductive store := StHeight (h : Z) | StRound (r : Z) | StStep (s : Z)
  | StSig (o : option bytes) | StSb (o : option bytes) | StGo.
Definition stores (c : consensus) : list store :=
  [StHeight (h_height (c_hrs c)); StRound (h_round (c_hrs c)); StStep (h_step (c_hrs c));
   StSig (c_sig c); StSb (c_sb c); StGo].
Definition do_store (s : sign_state) (x : store) : sign_state :=
  let k := ss_hrs s in
  match x with
  | StHeight h => SS (HRS h (h_round k) (h_step k)) (ss_eph s) (ss_sig s) (ss_sb s) (ss_cache s)
  | StRound r => SS (HRS (h_height k) r (h_step k)) (ss_eph s) (ss_sig s) (ss_sb s) (ss_cache s)
  | StStep p => SS (HRS (h_height k) (h_round k) p) (ss_eph s) (ss_sig s) (ss_sb s) (ss_cache s)
  | StSig o => SS k (ss_eph s) o (ss_sb s) (ss_cache s)
  | StSb o => SS k (ss_eph s) (ss_sig s) o (ss_cache s)
  | StGo => s
  end.

(** a process: the shared object, the rest of the Save in progress (at most one: it holds the
    lock), the file, the goroutines *)
Record proc := Proc { pr_mem : sign_state; pr_todo : list store; pr_file : file; pr_ws : list writer }.

Inductive dop :=
| DSave (c : consensus)      (* lock taken, check done, cache updated: sign_state.go:110-129 *)
| DStore                     (* next action of the Save in progress *)
| DEph (o : option bytes)    (* local_cosigner.go:225 assigns EphemeralPublic under the lock *)
| DRead (i : nat)            (* goroutine i reads its next field *)
| DRename (i : nat)          (* goroutine i has read all fields, writes and renames *)
| DRestart.                  (* crash at any moment, then LoadSignState *)

(** [None]: not possible in this state *)
Definition dstep (p : proc) (op : dop) : option proc :=
  match op with
  | DSave c =>
      match pr_todo p with
      | [] =>
          match error_if_less_or_equal (pr_mem p) (c_hrs c) with
          | Some _ => Some p
          | None =>
              let s := pr_mem p in
              Some (Proc (SS (ss_hrs s) (ss_eph s) (ss_sig s) (ss_sb s)
                            (prune_cache (h_height (c_hrs c)) (<[c_hrs c := c]> (ss_cache s))))
                      (stores c) (pr_file p) (pr_ws p))
          end
      | _ => None
      end
  | DStore =>
      match pr_todo p with
      | [] => None
      | x :: t => Some (Proc (do_store (pr_mem p) x) t (pr_file p)
                          (match x with StGo => new_writer :: pr_ws p | _ => pr_ws p end))
      end
  | DEph o =>
      match pr_todo p with
      | [] => let s := pr_mem p in
              Some (Proc (SS (ss_hrs s) o (ss_sig s) (ss_sb s) (ss_cache s)) [] (pr_file p) (pr_ws p))
      | _ => None
      end
  | DRead i =>
      match pr_ws p !! i with
      | None => None
      | Some w => match read_field (pr_mem p) w with
                  | None => None
                  | Some w' => Some (Proc (pr_mem p) (pr_todo p) (pr_file p) (<[i := w']> (pr_ws p)))
                  end
      end
  | DRename i =>
      match pr_ws p !! i with
      | Some w => if bool_decide (w_pc w = 6%nat)
                  then Some (Proc (pr_mem p) (pr_todo p) (Some (marshal_state (w_rec w)))
                               (delete i (pr_ws p)))
                  else None
      | None => None
      end
  | DRestart =>
      match load (pr_file p) with
      | Some s => Some (Proc s [] (pr_file p) [])
      | None => None
      end
  end.

Inductive drun : proc -> list dop -> proc -> Prop :=
| drun_nil p : drun p [] p
| drun_cons p op p1 l p2 : dstep p op = Some p1 -> drun p1 l p2 -> drun p (op :: l) p2.

(** ** A cosigner with its state file *)

(** Here Save is one action (as in LocalCosigner.v); a new goroutine exists exactly when the step
    performed an accepted Save, that is, when the height/round/step changed. *)
Record cnode := CNode { cn_cos : cos_state; cn_file : file; cn_ws : list writer }.

Inductive cnop := COp (op : cop) | CRead (i : nat) | CRename (i : nat) | CRestart.

(** cosigner.go:169-201: on start the share state is loaded (a failure panics) and the cosigner is
    created with empty metadata *)
Definition cnstep (C : Crypto) (cfg : cos_config) (n : cnode) (op : cnop)
  : option (cnode * list (cop * cobs)) :=
  match op with
  | COp o =>
      match cstep C cfg (cn_cos n) o with
      | None => None
      | Some (st, ob) =>
          let ws := if bool_decide (ss_hrs (cs_lss st) = ss_hrs (cs_lss (cn_cos n)))
                    then cn_ws n else new_writer :: cn_ws n in
          Some (CNode st (cn_file n) ws, [(o, ob)])
      end
  | CRead i =>
      match cn_ws n !! i with
      | None => None
      | Some w => match read_field (cs_lss (cn_cos n)) w with
                  | None => None
                  | Some w' => Some (CNode (cn_cos n) (cn_file n) (<[i := w']> (cn_ws n)), [])
                  end
      end
  | CRename i =>
      match cn_ws n !! i with
      | Some w => if bool_decide (w_pc w = 6%nat)
                  then Some (CNode (cn_cos n) (Some (marshal_state (w_rec w))) (delete i (cn_ws n)), [])
                  else None
      | None => None
      end
  | CRestart =>
      match load (cn_file n) with
      | Some s => Some (CNode (new_cosigner s) (cn_file n) [], [])
      | None => None
      end
  end.

Inductive cnrun (C : Crypto) (cfg : cos_config)
  : cnode -> list cnop -> list (cop * cobs) -> cnode -> Prop :=
| cnrun_nil n : cnrun C cfg n [] [] n
| cnrun_cons n op n1 l1 ops l n2 :
    cnstep C cfg n op = Some (n1, l1) -> cnrun C cfg n1 ops l n2 ->
    cnrun C cfg n (op :: ops) (l1 ++ l) n2.
