(** What calls of SignBlock may leave behind (C96), said of what happened: which peers answered, and whether the own
    cosigner did. *)
From Verif Require Import GoBase Goroutines.
Local Open Scope Z_scope.

(** events of call [i] *)
Definition of_call (i : nat) (es : list (option (nat * event))) : list event :=
  omap (fun a => match a with Some (j, e) => if bool_decide (j = i) then Some e else None | None => None end) es.
(** a peer has answered; the answers of a call *)
Definition is_ok (e : event) : bool := match e with PeerParts true => true | _ => false end.
Definition oks (es : list event) : Z := Z.of_nat (length (filter (fun e => is_ok e = true) es)).
(** the own cosigner has *)
Definition is_own (e : event) : bool := match e with OwnParts true => true | _ => false end.
(** nothing goes on *)
Definition settled (l : list call) : Prop := forall i c e, l !! i = Some c -> step c e = None.
(** calls that began the first wait and to which fewer than t - 1 peers answered *)
Definition short (t : Z) (es : list event) : bool := existsb is_own es && (oks es <? t - 1).
(** how many of the first [n] calls are so *)
Definition count_short (t : Z) (es : list (option (nat * event))) (n : nat) : Z :=
  Z.of_nat (length (filter (fun i => short t (of_call i es) = true) (seq 0 n))).
