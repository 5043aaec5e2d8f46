(** What is said about a remote signer: in terms of what is seen on its connections. *)
From Verif Require Import GoBase Wire Canonical Validator Privval RemoteSigner ConnLoop.
Local Open Scope nat_scope.

(** a request, the message it came in, its answer, the bytes of the answer *)
Record exchange := Exchange { x_in : bytes; x_req : message; x_res : message; x_out : bytes }.

Section Spec.
(** [A req res]: the validator may answer the request so *)
Context (A : message -> message -> Prop).

Definition exchange_ok (x : exchange) : Prop :=
  read_msg (x_in x) = Some (x_req x, []) /\ A (x_req x) (x_res x) /\ write_msg (x_res x) = Some (x_out x).
Definition shown (c : nat) (x : exchange) : list lobs :=
  [OIn c (x_in x) (x_req x); OAsk c (x_req x) (x_res x); OOut c (x_out x)].

(** the last thing on a connection: closed after complete exchanges, or because an answer could not
    be written *)
Inductive goodbye (c : nat) : list lobs -> Prop :=
| bye_close : goodbye c [OClose c]
| bye_write bs req res out :
    read_msg bs = Some (req, []) -> A req res ->
    (forall w, write_msg res = Some w -> exists rest, w = out ++ rest) ->
    (write_msg res = None -> out = []) ->
    goodbye c [OIn c bs req; OAsk c req res; OOut c out; OClose c].

(** everything on one connection that is over for the signer *)
Inductive session (c : nat) : list lobs -> Prop :=
| ses_refused : session c [OOpen c]           (* no secret connection *)
| ses_talk xs e : Forall exchange_ok xs -> goodbye c e ->
    session c (OOpen c :: concat (map (shown c) xs) ++ e).

(** connections are numbered from 0, one after the other: [sessions n tr] has numbers below n *)
Inductive sessions : nat -> list lobs -> Prop :=
| sess_nil : sessions 0 []
| sess_snoc n tr s : sessions n tr -> session n s -> sessions (S n) (tr ++ s).

(** the last request on a connection that is still in use: none, read, or answered by the validator *)
Definition unfinished (c : nat) (rest : list lobs) : Prop :=
  rest = [] \/ (exists bs req, rest = [OIn c bs req] /\ read_msg bs = Some (req, [])) \/
  (exists bs req res, rest = [OIn c bs req; OAsk c req res] /\ read_msg bs = Some (req, []) /\ A req res).
End Spec.

(** leaving out the calls of Stop, the end of the goroutine and of the process *)
Definition is_talk (o : lobs) : bool :=
  match o with OStop | OEnd | OCrash => false | _ => true end.
Definition talk (tr : list lobs) : list lobs := List.filter is_talk tr.

Definition is_in (o : lobs) : bool := match o with OIn _ _ _ => true | _ => false end.
Definition is_ask (o : lobs) : bool := match o with OAsk _ _ _ => true | _ => false end.
Definition is_out (o : lobs) : bool := match o with OOut _ _ => true | _ => false end.
Definition count (f : lobs -> bool) (tr : list lobs) : nat := length (List.filter f tr).

(** connections opened and not closed by the signer *)
Definition left_open (tr : list lobs) (c : nat) : Prop := OOpen c ∈ tr /\ OClose c ∉ tr.

(** the outside does its part: attempts to connect succeed, messages come, answers are taken; Stop
    is not called *)
Definition helpful (l : llabel) : bool :=
  match l with
  | LStop | LDial false | LSecret false | LReadErr | LWriteErr _ => false
  | _ => true
  end.
(** no attempt to connect fails *)
Definition connects (l : llabel) : bool :=
  match l with LDial false | LSecret false => false | _ => true end.
Definition refused (l : llabel) : bool := match l with LSecret false => true | _ => false end.
(** all answers of the validator during the run are among [P] *)
Definition validators (P : signer -> Prop) (ls : list llabel) : Prop :=
  Forall (fun l => match l with LHandle s => P s | _ => True end) ls.
Definition may_answer (P : signer -> Prop) (chain : bytes) (req res : message) : Prop :=
  exists s, P s /\ handle_request s chain req = Val res.
