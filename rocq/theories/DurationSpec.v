(** Durations as text (C88). *)
From Coq Require Import Strings.String.
From Verif Require Import GoBase Json.
Local Open Scope Z_scope.

Inductive dunit := Dns | Dus | Dus' | Dus'' | Dms | Ds | Dm | Dh.
Definition unit_name (u : dunit) : bytes :=
  match u with
  | Dns => lit "ns" | Dus => lit "us" | Dms => lit "ms" | Ds => lit "s" | Dm => lit "m" | Dh => lit "h"
  | Dus' => [xc2; xb5] ++ lit "s"   (* micro sign *)
  | Dus'' => [xce; xbc] ++ lit "s"  (* Greek mu *)
  end.
Definition nanoseconds (u : dunit) : Z :=
  match u with
  | Dns => 1 | Dus | Dus' | Dus'' => 10 ^ 3 | Dms => 10 ^ 6 | Ds => 10 ^ 9 | Dm => 60 * 10 ^ 9 | Dh => 3600 * 10 ^ 9
  end.
(** decimal digits and their value *)
Definition digits (l : bytes) : Prop := l <> [] /\ Forall (fun c => 48 <= bz c <= 57) l.
Definition decimal (l : bytes) : Z := fold_left (fun n c => 10 * n + (bz c - 48)) l 0.

(** numbers with units, one after the other *)
Definition parts_text (l : list (bytes * dunit)) : bytes := concat (map (fun p => fst p ++ unit_name (snd p)) l).
Definition parts_value (l : list (bytes * dunit)) : Z := fold_right Z.add 0 (map (fun p => decimal (fst p) * nanoseconds (snd p)) l).

(** the text [s] is the duration [d]: what the flag --timeout is documented to take, without fractions *)
Inductive duration_text : bytes -> Z -> Prop :=
| dt_zero sign : sign = [] \/ sign = lit "+" \/ sign = lit "-" -> duration_text (sign ++ lit "0") 0
| dt_pos sign l : sign = [] \/ sign = lit "+" -> l <> [] -> Forall (fun p => digits (fst p)) l -> parts_value l < 2 ^ 63 ->
    duration_text (sign ++ parts_text l) (parts_value l)
| dt_neg l : l <> [] -> Forall (fun p => digits (fst p)) l -> parts_value l <= 2 ^ 63 ->
    duration_text (lit "-" ++ parts_text l) (- parts_value l).
(** the text has no fractions *)
Definition no_dot (s : bytes) : Prop := Forall (fun c => bz c <> 46) s.
