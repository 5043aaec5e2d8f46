(** Vocabulary for statements about the replicated store. *)
From Coq Require Import Strings.String.
From Verif Require Import GoBase Canonical SignState Spec Json Utf8 Raft.
Local Open Scope Z_scope.

(** the calls Set and Delete *)
Inductive call := CSet (k v : bytes) | CDelete (k : bytes).
Definition entry_of (c : call) : bytes :=
  match c with CSet k v => set_entry k v | CDelete k => delete_entry k end.
Definition call_key (c : call) : bytes := match c with CSet k _ | CDelete k => k end.
(** the value of [k] after the calls, if it was [v0] before: the last call for [k] decides *)
Fixpoint value_after (l : list call) (k : bytes) (v0 : bytes) : bytes :=
  match l with
  | [] => v0
  | CSet k' v :: l' => value_after l' k (if bool_decide (k' = k) then v else v0)
  | CDelete k' :: l' => value_after l' k (if bool_decide (k' = k) then [] else v0)
  end.

(** an entry that sets [k] to [v]; one that deletes [k] *)
Definition sets (e k v : bytes) : Prop :=
  exists c, decode_command e = Some c /\ cm_op c = lit "set" /\ cm_key c = k /\ cm_val c = v.
Definition deletes (e k : bytes) : Prop :=
  exists c, decode_command e = Some c /\ cm_op c = lit "delete" /\ cm_key c = k.

(** the ways a member name of small letters can be written: case does not matter, and U+212A (KELVIN
    SIGN) stands for k, U+017F (LATIN SMALL LETTER LONG S) for s *)
Definition small_letter (b : byte) : Prop := 97 <= bz b <= 122.
Definition spellings (c : byte) : list bytes :=
  [[c]; [zb (bz c - 32)]] ++ (if bool_decide (c = "k"%byte) then [[xe2; x84; xaa]] else [])
                          ++ (if bool_decide (c = "s"%byte) then [[xc5; xbf]] else []).
Inductive spelt : bytes -> bytes -> Prop :=
| spelt_nil : spelt [] []
| spelt_cons c p f t : p ∈ spellings c -> spelt f t -> spelt (c :: f) (p ++ t).

(** the last-signed-state events in a log *)
Definition event_of (e : bytes) : option consensus :=
  match decode_command e with
  | Some c => if bool_decide (cm_op c = lit "set" /\ cm_key c = lss_key) then decode_lss (cm_val c) else None
  | None => None
  end.
Definition lss_events (l : list bytes) : list consensus := omap event_of l.

(** integers of the Go types *)
Definition hrs_in_range (k : hrs) : Prop :=
  in_int64 (h_height k) /\ in_int64 (h_round k) /\ - 128 <= h_step k < 128.
(** JSON cannot tell nil from empty sign bytes *)
Definition as_sent (c : consensus) : consensus := SSC (c_hrs c) (c_sig c) (Some (slice_of (c_sb c))).

(** well-formed raft configuration: at most one server per ID and per address *)
Definition config_ok (c : list server) : Prop := NoDup (map fst c) /\ NoDup (map snd c).

(** ** Members of a last-signed-state event, in any order and number: the last of each kind counts *)
Inductive lss_item := IHeight (z : Z) | IRound (z : Z) | IStep (z : Z) | ISig (o : option bytes) | IBytes (b : bytes).
Definition item_ok (i : lss_item) : Prop :=
  match i with IHeight z | IRound z => in_int64 z | IStep z => -128 <= z < 128 | _ => True end.
Definition item_text (i : lss_item) : bytes * bytes :=
  match i with
  | IHeight z => (lit "Height", print_int z)
  | IRound z => (lit "Round", print_int z)
  | IStep z => (lit "Step", print_int z)
  | ISig o => (lit "Signature", b64_text o)
  | IBytes b => (lit "SignBytes", hex_text (Some b))
  end.
Definition heights (l : list lss_item) := omap (fun i => match i with IHeight z => Some z | _ => None end) l.
Definition rounds (l : list lss_item) := omap (fun i => match i with IRound z => Some z | _ => None end) l.
Definition steps (l : list lss_item) := omap (fun i => match i with IStep z => Some z | _ => None end) l.
Definition sigs_in (l : list lss_item) := omap (fun i => match i with ISig o => Some o | _ => None end) l.
Definition bytes_in (l : list lss_item) := omap (fun i => match i with IBytes b => Some (Some b) | _ => None end) l.
Definition last_or {A} (a : A) (l : list A) : A := default a (list.last l).
Definition event_meant (l : list lss_item) : consensus :=
  SSC (HRS (last_or 0 (heights l)) (last_or 0 (rounds l)) (last_or 0 (steps l)))
      (last_or None (sigs_in l)) (last_or None (bytes_in l)).
