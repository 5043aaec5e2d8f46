(** Durations as text and the time-out of raft (C88). *)
From Coq Require Import Strings.String.
From Verif Require Import GoBase Json Config Dial Duration DurationSpec DurationProofs.
Local Open Scope Z_scope.

(** time.ParseDuration on texts without fractions: exactly the documented texts, with their durations *)
Theorem C88_text : forall s d, no_dot s -> parse_duration s = Some d <-> duration_text s d.
Proof. exact text_value. Qed.
(** all texts, fractions included: the result is an int64 *)
Theorem C88_range : forall s d, parse_duration s = Some d -> - 2 ^ 63 <= d < 2 ^ 63.
Proof. exact parse_range. Qed.

(** `config init` keeps the text; of texts without fractions it accepts the documented ones and no others *)
Theorem C88_kept : forall chain nodes f c, config_init (go_lib duration_ok) chain nodes (Some f) = inr c ->
  exists s, cf_cosigner c = Some s /\ co_timeout s = if_timeout f /\ duration_ok (if_timeout f) = true /\
    forall t, config_init (go_lib duration_ok) chain nodes (Some (InitFlags (if_peers f) (if_threshold f) (if_listen f) t)) =
      if duration_ok t then inr (Config (cf_chain c) (Some (CosSection (co_threshold s) (co_shares s) (co_listen s) (co_peers s) t)) (cf_nodes c))
      else inl CeDuration.
Proof. exact init_timeout. Qed.
Theorem C88_accepted : forall chain nodes f c t, config_init (go_lib duration_ok) chain nodes (Some f) = inr c -> no_dot t ->
  (exists c', config_init (go_lib duration_ok) chain nodes (Some (InitFlags (if_peers f) (if_threshold f) (if_listen f) t)) = inr c') <->
  exists d, duration_text t d.
Proof. exact init_timeout_iff. Qed.

(** The claim: with an accepted time-out a proposal that raft never takes is given up. Refuted: zero and
    negative durations are accepted, and with them it is never given up. *)
Theorem C88_refuted :
  (exists chain f c s, config_init (go_lib duration_ok) chain None (Some f) = inr c /\ cf_cosigner c = Some s /\
    co_timeout s = lit "0s" /\ apply_wait (raft_timeout (co_timeout s)) None = None) /\
  (exists chain f c s, config_init (go_lib duration_ok) chain None (Some f) = inr c /\ cf_cosigner c = Some s /\
    co_timeout s = lit "-1500ms" /\ apply_wait (raft_timeout (co_timeout s)) None = None) /\
  (forall s d, duration_text s d -> d <= 0 -> apply_wait (raft_timeout s) None = None).
Proof.
  split; [|split; [|exact wait_forever]].
  - exists (lit "chain"), (InitFlags (lit "tcp://b:2222|2,tcp://c:2222|3") 2 (lit "tcp://a:2222") (lit "0s")).
    eexists _, _. split; [vm_compute; reflexivity|]. split; [reflexivity|]. split; reflexivity.
  - exists (lit "chain"), (InitFlags (lit "tcp://b:2222|2,tcp://c:2222|3") 2 (lit "tcp://a:2222") (lit "-1500ms")).
    eexists _, _. split; [vm_compute; reflexivity|]. split; [reflexivity|]. split; reflexivity.
Qed.
(** With a positive duration: the proposal goes through iff raft takes it by then, as soon as it does;
    otherwise it is given up at that time. *)
Theorem C88_wait_partial : forall s d taken, duration_text s d -> 0 < d ->
  exists t b, apply_wait (raft_timeout s) taken = Some (t, b) /\
    (b = true <-> exists t', taken = Some t' /\ t' <= d /\ t = t') /\ (b = false -> t = d).
Proof. exact wait_bounded. Qed.

Example C88_example_text :
  duration_text (lit "1500ms") 1500000000 /\ duration_text (lit "-1m30s") (-90000000000) /\
  duration_text (lit "+0") 0 /\ (forall d, ~ duration_text (lit "1500") d) /\ (forall d, ~ duration_text (lit "9223372036854775808ns") d) /\
  duration_text (lit "-9223372036854775808ns") (- 2 ^ 63).
Proof.
  assert (N : forall s d, no_dot s -> parse_duration s = Some d -> duration_text s d) by (intros; by apply text_value).
  assert (D : forall s, no_dot s -> parse_duration s = None -> forall d, ~ duration_text s d).
  { intros s Hn Hp d H. apply text_value in H; [congruence|done]. }
  assert (T : forall s, forallb (fun c => negb (bz c =? 46)) s = true -> no_dot s).
  { intros s H. unfold no_dot. apply list.Forall_forall. intros c Hc. apply elem_of_list_In in Hc.
    rewrite forallb_forall in H. specialize (H c Hc). by apply negb_true_iff, Z.eqb_neq in H. }
  split; [apply N; [by apply T|vm_compute; reflexivity]|]. split; [apply N; [by apply T|vm_compute; reflexivity]|].
  split; [apply N; [by apply T|vm_compute; reflexivity]|]. split; [apply D; [by apply T|vm_compute; reflexivity]|].
  split; [apply D; [by apply T|vm_compute; reflexivity]|]. apply N; [by apply T|vm_compute; reflexivity].
Qed.
(** fractions go through float64 *)
Example C88_example_fractions :
  parse_duration (lit "1.5m") = Some 90000000000 /\ parse_duration (lit ".5s") = Some 500000000 /\
  parse_duration (lit "1.s") = Some 1000000000 /\ parse_duration (lit "9007199254.740993ms") = Some 9007199254740993 /\
  parse_duration (lit "0.3333333333333333333h") = Some 1200000000000 /\
  parse_duration (lit "0.830103483285477580700h") = Some 2988372539827 /\ parse_duration (lit ".s") = None.
Proof. repeat (split; [vm_compute; reflexivity|]). vm_compute. reflexivity. Qed.
Example C88_example_wait :
  apply_wait (raft_timeout (lit "1500ms")) (Some 200000000) = Some (200000000, true) /\
  apply_wait (raft_timeout (lit "1500ms")) (Some 2000000000) = Some (1500000000, false) /\
  apply_wait (raft_timeout (lit "1500ms")) None = Some (1500000000, false).
Proof. repeat (split; [vm_compute; reflexivity|]). vm_compute. reflexivity. Qed.

Print Assumptions C88_text.
Print Assumptions C88_range.
Print Assumptions C88_kept.
Print Assumptions C88_accepted.
Print Assumptions C88_refuted.
Print Assumptions C88_wait_partial.
