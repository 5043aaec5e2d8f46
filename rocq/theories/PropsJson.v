(** C94: JSON texts mean what RFC 8259 says, and state files what their members say. *)
From Coq Require Import Strings.String.
From Verif Require Import GoBase Wire Canonical SignState Json Disk JsonSpec JsonTextProofs JsonStateProofs.
Local Open Scope Z_scope.

(** the texts that are accepted, and the value each of them has: exactly those of the grammar *)
Theorem C94_json : forall l j, parse_json l = Some j <-> json_text j l.
Proof. exact parse_json_exact. Qed.
(** the bytes a string stands for *)
Theorem C94_string : forall raw s, string_text raw -> unescape raw = Some s <-> chars raw s.
Proof. exact unescape_iff. Qed.
(** the state a file is loaded as, whatever its bytes: exactly the one its members say. All other files are refused *)
Theorem C94_state : forall t s, load (Some t) = Some s <->
  exists h r st eph sig sb, state_text t h r st eph sig sb /\
    ss_hrs s = HRS h r st /\ ss_eph s = eph /\ ss_sig s = sig /\ ss_sb s = sb /\ ss_cache s = {[ HRS h r st := SSC (HRS h r st) sig sb ]}.
Proof. exact state_text_exact. Qed.

(** a file written by hand: other order, blanks, an escape in a name, a repeated and an unknown member *)
Definition by_hand : bytes := lit " {""step"": 2,""height"" :""7"",""round"":""1"",""signature"":""AQI="",
  ""r\u006fund"":"" 3 "", ""extra"":[1, -2.5e-3,{}] , ""signbytes"":""0aFF""} ".
Example C94_by_hand : exists s, load (Some by_hand) = Some s /\ ss_hrs s = HRS 7 3 2 /\
  ss_sig s = Some ["001"; "002"]%byte /\ ss_sb s = Some ["010"; "255"]%byte /\ ss_eph s = None.
Proof. eexists. split; [vm_compute; reflexivity|]. repeat split. Qed.
Example C94_by_hand_text : state_text by_hand 7 3 2 None (Some ["001"; "002"]%byte) (Some ["010"; "255"]%byte).
Proof.
  destruct C94_by_hand as (s & H & E1 & E2 & E3 & E4). apply C94_state in H as (h & r & st & eph & sig & sb & Ht & F1 & F2 & F3 & F4 & _).
  rewrite E1 in F1. injection F1 as <- <- <-. rewrite E4 in F2. rewrite E2 in F3. rewrite E3 in F4. by subst.
Qed.
(** refused: a number too large for the step, a fraction, a height that is a number, a control character, text after the object *)
Example C94_refused : Forall (fun t => load (Some (lit t)) = None)
  ["{""step"":128}"; "{""step"":1.0}"; "{""height"":7}"; "{""height"":""7""} x"; "{""signbytes"":""0""}"; "{""signature"":""AQI""}"; "{,}"; "[]"; ""]%string.
Proof. repeat constructor. Qed.
(** bytes with a line break in the base64, and as an array of numbers *)
Example C94_bytes : Forall (fun t => exists s, load (Some (lit t)) = Some s /\ ss_sig s = Some ["001"; "002"]%byte)
  ["{""signature"":""AQ\r\nI=\n""}"; "{""signature"":[1, 2]}"; "{""signature"":""AAAA"",""signature"":[1,2]}"]%string.
Proof. repeat constructor; eexists; (split; [vm_compute; reflexivity|reflexivity]). Qed.
Example C94_no_bytes : Forall (fun t => load (Some (lit t)) = None)
  ["{""signature"":[256]}"; "{""signature"":[-0]}"; "{""signature"":[1.0]}"; "{""signature"":""AQ I=""}"; "{""signbytes"":[1]}"]%string.
Proof. repeat constructor. Qed.
Example C94_pair : unescape (lit "\ud83d\ude00\n") = Some [xf0; x9f; x98; x80; x0a]%byte.
Proof. reflexivity. Qed.

Print Assumptions C94_json.
Print Assumptions C94_string.
Print Assumptions C94_state.
