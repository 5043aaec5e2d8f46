(** Addresses: concrete configurations. *)
From Coq Require Import Strings.String.
From Verif Require Import GoBase Canonical SignState Json Url Raft Disk Config ConfigSpec ConfigProofs Startup StartupSpec StartupProofs
  Machine MachineSpec MachineProofs Dial DialSpec UrlProofs DialProofs.
Local Open Scope Z_scope.

(** time.ParseDuration accepts "1000ms" *)
Definition dur_ok (dur : bytes -> bool) : Prop := dur (lit "1000ms") = true.

Definition dflags (peers listen : string) : init_flags := InitFlags (lit peers) 2 (lit listen) (lit "1000ms").
Definition dsection (peers : list cpeer) (listen : string) : cosigner_section := CosSection 2 3 (lit listen) peers (lit "1000ms").
Definition two (a b : string) : list cpeer := [CPeer 2 (lit a); CPeer 3 (lit b)].

Lemma init_ok dur a b listen : dur_ok dur ->
  peers_from_flag (lit (a ++ "|2," ++ b ++ "|3")%string) = inr (two a b) ->
  lit listen <> [] -> (exists h, lib_host (go_lib dur) (lit listen) = Some h /\ bytes_equal h localhost_any = false) ->
  config_init (go_lib dur) (lit "chain") None (Some (dflags (a ++ "|2," ++ b ++ "|3") listen)) =
    inr (Config (lit "chain") (Some (dsection (two a b) listen)) []).
Proof.
  intros Hd Hp Hl (h & Hh & Hz). unfold config_init. cbn [init_nodes dflags if_peers if_listen if_threshold if_timeout]. rewrite Hp.
  destruct (lit listen) as [|x l] eqn:El; [done|].
  assert (Hu : lib_url (go_lib dur) (x :: l) = true).
  { cbn [go_lib lib_url lib_host] in *. destruct (url_host (x :: l)); done. }
  rewrite Hu, Hh, Hz. cbn [negb]. cbv zeta. unfold dsection. rewrite El.
  unfold validate_cosigner. cbn [cf_chain cf_cosigner co_peers co_threshold co_timeout co_listen co_shares cf_nodes two length].
  rewrite Hu. unfold dur_ok in Hd. cbn [go_lib lib_duration]. rewrite Hd. reflexivity.
Qed.

(** peers without scheme *)
Definition bare : cosigner_section := dsection (two "b:2222" "c:2222") "tcp://a:2222".
Lemma bare_accepted dur : dur_ok dur ->
  config_init (go_lib dur) (lit "chain") None (Some (dflags "b:2222|2,c:2222|3" "tcp://a:2222")) =
    inr (Config (lit "chain") (Some bare) []).
Proof.
  intros Hd. apply (init_ok dur "b:2222" "c:2222"); [done|vm_compute; reflexivity|done|].
  eexists. split; [vm_compute; reflexivity|reflexivity].
Qed.
Lemma bare_alone k : boot_node raft_address None bare k = None.
Proof.
  apply boot_refused. intros (_ & _ & H). apply H.
  change (raft_address (co_listen bare)) with (lit "a:2222"). change (co_peers bare) with (two "b:2222" "c:2222").
  right. left.
Qed.

(** ports nobody can use *)
Definition big : cosigner_section := dsection (two "tcp://b:2222" "tcp://c:2222") "tcp://a:70000".
Definition noport : cosigner_section := dsection (two "tcp://b:2222" "tcp://c:2222") "tcp://a:".
Lemma big_accepted dur : dur_ok dur ->
  config_init (go_lib dur) (lit "chain") None (Some (dflags "tcp://b:2222|2,tcp://c:2222|3" "tcp://a:70000")) =
    inr (Config (lit "chain") (Some big) []).
Proof.
  intros Hd. apply (init_ok dur "tcp://b:2222" "tcp://c:2222"); [done|vm_compute; reflexivity|done|].
  eexists. split; [vm_compute; reflexivity|reflexivity].
Qed.
Lemma noport_accepted dur : dur_ok dur ->
  config_init (go_lib dur) (lit "chain") None (Some (dflags "tcp://b:2222|2,tcp://c:2222|3" "tcp://a:")) =
    inr (Config (lit "chain") (Some noport) []).
Proof.
  intros Hd. apply (init_ok dur "tcp://b:2222" "tcp://c:2222"); [done|vm_compute; reflexivity|done|].
  eexists. split; [vm_compute; reflexivity|reflexivity].
Qed.

(** a listen address without scheme, written into config.yaml by hand *)
Definition edited : config := Config (lit "chain") (Some (dsection (two "tcp://b:2222" "tcp://c:2222") "a:2222")) [].
Lemma edited_accepted dur : dur_ok dur -> validate_cosigner (go_lib dur) edited = None.
Proof.
  intros Hd. unfold validate_cosigner, edited. cbn [cf_chain cf_cosigner dsection co_peers co_threshold co_timeout co_listen co_shares cf_nodes two length].
  unfold dur_ok in Hd. cbn [go_lib lib_duration lib_url]. rewrite Hd. reflexivity.
Qed.

(** addresses of IPv6 hosts, as an operator would plan them *)
Definition dname (i : Z) : bytes := if i =? 1 then lit "fd00::1" else if i =? 2 then lit "fd00::2" else lit "fd00::3".
Definition dport (_ : Z) : bytes := lit "2222".
Definition durl (i : Z) : bytes := lit "tcp://[" ++ dname i ++ lit "]:2222".
Definition dplan : plan :=
  Plan 3 2 (lit "chain") durl (fun i => filter (fun j => j <> i) (seqZ 1 3)) (fun _ => None) (fun _ => lit "1000ms") (fun _ => []) (fun _ => []).
(** and of hosts with names *)
Definition nname (i : Z) : bytes := if i =? 1 then lit "10.168.0.1" else if i =? 2 then lit "cosigner-2.example" else lit "c".
Definition nurl (i : Z) : bytes := lit "tcp://" ++ nname i ++ lit ":2222".
Definition nplan : plan :=
  Plan 3 2 (lit "chain") nurl (fun i => filter (fun j => j <> i) (seqZ 1 3)) (fun _ => Some (lit "tcp://n:1234")) (fun _ => lit "1000ms") (fun _ => []) (fun _ => []).

Lemma over_dec alphabet s : forallb (fun c => bool_decide (c ∈ alphabet)) s = true -> over alphabet s.
Proof. intros H c Hc. rewrite forallb_forall in H. specialize (H c ltac:(by apply elem_of_list_In)). by apply bool_decide_eq_true in H. Qed.
Lemma tcp_scheme : scheme_ok (lit "tcp").
Proof. exists "t"%byte, (lit "cp"). split; [done|]. split; [not_in|]. apply over_dec. vm_compute. reflexivity. Qed.
Lemma port_2222 : port_number (lit "2222") 2222.
Proof.
  split; [done|]. split; [|lia]. apply digits_denote_iff. split; [|vm_compute; reflexivity].
  apply numerals_digits, over_dec. vm_compute. reflexivity.
Qed.
Lemma three i : 1 <= i <= 3 -> i = 1 \/ i = 2 \/ i = 3.
Proof. lia. Qed.
Lemma three_perm i : 1 <= i <= 3 -> Permutation (i :: filter (fun j => j <> i) (seqZ 1 3)) (seqZ 1 3).
Proof.
  intros Hi. apply three in Hi. destruct Hi as [-> |[-> | ->]].
  - vm_compute. reflexivity.
  - change (Permutation [2; 1; 3] [1; 2; 3]). constructor.
  - change (Permutation [3; 1; 2] [1; 2; 3]). apply (Permutation_app_comm [3] [1; 2]).
Qed.
Lemma dplan_rest dur : dur_ok dur -> plan_rest (go_lib dur) dplan.
Proof.
  intros Hd. split; [simpl; lia|]. split; [simpl; lia|]. split; [done|]. intros i Hi. split; [by apply three_perm|]. split; [exact Hd|]. done.
Qed.
Lemma nplan_rest dur : dur_ok dur -> plan_rest (go_lib dur) nplan.
Proof.
  intros Hd. split; [simpl; lia|]. split; [simpl; lia|]. split; [done|]. intros i Hi. split; [by apply three_perm|]. split; [exact Hd|].
  intros a Ha n Hn. cbn [nplan pl_nodes] in Ha. injection Ha as <-. vm_compute in Hn. injection Hn as <-. vm_compute. reflexivity.
Qed.
Lemma durl_v6 i : v6_url (durl i) (dname i) (dport i).
Proof.
  change (durl i) with (lit "tcp" ++ lit "://" ++ "["%byte :: dname i ++ "]"%byte :: ":"%byte :: lit "2222").
  constructor; [apply tcp_scheme| |apply over_dec; vm_compute; reflexivity].
  unfold dname. destruct (i =? 1); [|destruct (i =? 2)]; apply over_dec; vm_compute; reflexivity.
Qed.
Lemma zone_ok : zone_url (lit "tcp://[fe80::1%25eth%2D0]:2222") (lit "fe80::1%eth-0") (lit "2222").
Proof.
  change (lit "tcp://[fe80::1%25eth%2D0]:2222") with
    (lit "tcp" ++ lit "://" ++ "["%byte :: (lit "fe80::1" ++ lit "%25" ++ lit "eth%2D0") ++ "]"%byte :: ":"%byte :: lit "2222").
  change (lit "fe80::1%eth-0") with (lit "fe80::1" ++ "%"%byte :: lit "eth-0").
  constructor; [apply tcp_scheme|apply over_dec; vm_compute; reflexivity| |apply over_dec; vm_compute; reflexivity].
  do 3 (apply zt_plain; [not_in|]).
  apply (zt_escaped "-"%byte "2"%byte "D"%byte 2 13); [not_in|split; [lia|left; reflexivity]|split; [lia|right; reflexivity]|reflexivity|].
  apply zt_plain; [not_in|]. constructor.
Qed.
Lemma nurl_named i : named_url (nurl i) (nname i) (dport i).
Proof.
  change (nurl i) with (lit "tcp" ++ lit "://" ++ nname i ++ ":"%byte :: lit "2222").
  constructor; [apply tcp_scheme| | |apply over_dec; vm_compute; reflexivity]; unfold nname.
  - destruct (i =? 1); [|destruct (i =? 2)]; discriminate.
  - destruct (i =? 1); [|destruct (i =? 2)]; apply over_dec; vm_compute; reflexivity.
Qed.
Lemma dplan_addressed : addressed 3 durl dname dport.
Proof.
  split.
  - intros i Hi. split; [right; left; apply durl_v6|]. split; [|exists 2222; apply port_2222].
    unfold dname. destruct (i =? 1); [|destruct (i =? 2)]; discriminate.
  - intros i j Hi Hj E _. apply three in Hi, Hj. destruct Hi as [-> |[-> | ->]], Hj as [-> |[-> | ->]]; done.
Qed.
Lemma nplan_addressed : addressed 3 nurl nname dport.
Proof.
  split.
  - intros i Hi. split; [left; apply nurl_named|]. split; [|exists 2222; apply port_2222].
    unfold nname. destruct (i =? 1); [|destruct (i =? 2)]; discriminate.
  - intros i j Hi Hj E _. apply three in Hi, Hj. destruct Hi as [-> |[-> | ->]], Hj as [-> |[-> | ->]]; done.
Qed.
(** elect on host 1 prints multi:///fd00::1:2222,... and nothing of it is an address *)
Definition dline : bytes := lit "multi:///fd00::1:2222,fd00::2:2222,fd00::3:2222".
Lemma delect : elect_cmd (Some (plan_config dplan 1)) = inr dline.
Proof. vm_compute. reflexivity. Qed.
Lemma dline_nothing a name port : a ∈ multi_targets dline -> ~ hostport a name port.
Proof.
  intros Ha Hh. apply split_iff in Hh.
  assert (H : forallb (fun a => match split_host_port a with Some _ => false | None => true end) (multi_targets dline) = true)
    by (vm_compute; reflexivity).
  rewrite forallb_forall in H. specialize (H a ltac:(by apply elem_of_list_In)). by rewrite Hh in H.
Qed.

(** a node given as http:// *)
Lemma http_accepted dur : validate_nodes (go_lib dur) [lit "http://n:1234"] = None /\
  protocol_and_address (lit "http://n:1234") = (lit "http", lit "n:1234").
Proof. split; vm_compute; reflexivity. Qed.
