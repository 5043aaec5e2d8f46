(** A report on two sign states, line by line. *)
From Coq Require Import Strings.String.
From Verif Require Import GoBase Canonical SignState Json ConfigSpec JsonSpec.
Local Open Scope list_scope.

(** a text and its lines, each ended by a line feed *)
Inductive lines : bytes -> list bytes -> Prop :=
| ln_nil : lines [] []
| ln_cons l t ls : x0a ∉ l -> lines t ls -> lines (l ++ x0a :: t) (l :: ls).

(** a line for something that may be missing; [enc v b]: the text v stands for b *)
Inductive maybe_line (label : string) (enc : bytes -> bytes -> Prop) : option bytes -> list bytes -> Prop :=
| ml_none : maybe_line label enc None []
| ml_some v b : enc v b -> maybe_line label enc (Some b) [lit label ++ v].

(** the lines of one state: [decimal] is from ConfigSpec, [base64] and [hex_text_of] from JsonSpec *)
Definition state_lines (s : sign_state) (ls : list bytes) : Prop :=
  exists h r st e g b,
    decimal h (h_height (ss_hrs s)) /\ decimal r (h_round (ss_hrs s)) /\ decimal st (h_step (ss_hrs s)) /\
    maybe_line "  Ephemeral Public Key: " base64 (ss_eph s) e /\
    maybe_line "  Signature: " base64 (ss_sig s) g /\
    maybe_line "  SignBytes: " hex_text_of (ss_sb s) b /\
    ls = [lit "  Height:    " ++ h; lit "  Round:     " ++ r; lit "  Step:      " ++ st] ++ e ++ g ++ b.
Definition report (pv sh : sign_state) (ls : list bytes) : Prop :=
  exists l1 l2, state_lines pv l1 /\ state_lines sh l2 /\
    ls = lit "Private Validator State:" :: l1 ++ lit "Share Sign State:" :: l2.

(** the same values in all that a state file holds *)
Definition same_record (s s' : sign_state) : Prop :=
  ss_hrs s = ss_hrs s' /\ ss_eph s = ss_eph s' /\ ss_sig s = ss_sig s' /\ ss_sb s = ss_sb s'.

(** what a state file says ([state_text] is from JsonSpec) *)
Definition file_says (t : bytes) (s : sign_state) : Prop :=
  exists h r st eph sig sb, state_text t h r st eph sig sb /\
    ss_hrs s = HRS h r st /\ ss_eph s = eph /\ ss_sig s = sig /\ ss_sb s = sb.
