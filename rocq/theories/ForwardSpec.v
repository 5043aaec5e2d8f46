(** The way of a request (C89). *)
From Verif Require Import GoBase Forward.
Local Open Scope Z_scope.

(** from, to, and the term in which the first heard that the second leads *)
Definition hop : Type := Z * Z * Z.
Definition hop_from (x : hop) : Z := fst (fst x).
Definition hop_to (x : hop) : Z := snd (fst x).
Definition hop_term (x : hop) : Z := snd x.

(** a request that came to host [h] in state [s] has been handed on along [l] and is at [h'] in [s'];
    anything may happen in between *)
Inductive travels (s : rstate) (h : Z) : list hop -> rstate -> Z -> Prop :=
| tr_here : travels s h [] s h
| tr_time l s1 h1 e s2 : travels s h l s1 h1 -> rstep s1 e = Some s2 -> travels s h l s2 h1
| tr_hop l s1 h1 b t : travels s h l s1 h1 -> handles (node s1 h1) = DHand b t -> travels s h (l ++ [(h1, b, t)]) s1 b.

Definition reachable (s : rstate) : Prop := exists es, rruns ra_init es = Some s.
