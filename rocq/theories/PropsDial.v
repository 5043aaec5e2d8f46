(** C85: addresses in the configuration *)
From Coq Require Import Strings.String.
From Verif Require Import GoBase Canonical SignState Json Url Raft Disk Config ConfigSpec Startup StartupSpec
  Machine MachineSpec MachineProofs StartupProofs Dial DialSpec UrlProofs DialProofs DialWitness.
Local Open Scope Z_scope.

(** C85 full statement: with a configuration that `config init` accepted, the process listens on the
    port of its listen address, raft knows every host, and elect, raft and cosigners dial name and
    port of every host. False in several ways.

    Peers are not looked at: with --peers b:2222|2,c:2222|3 (no scheme) every host runs with no raft
    membership at all *)
Theorem C85_peers_refuted : forall dur, dur (lit "1000ms") = true -> exists f c s,
  config_init (go_lib dur) (lit "chain") None (Some f) = inr c /\ cf_cosigner c = Some s /\
  if_peers f = lit "b:2222|2,c:2222|3" /\ raft_bind (co_listen s) = Some 2222 /\
  forall k, boot_node raft_address None s k = None.
Proof.
  intros dur Hd. eexists _, _, bare. split; [exact (bare_accepted dur Hd)|]. split; [reflexivity|]. split; [reflexivity|].
  split; [vm_compute; reflexivity|exact bare_alone].
Qed.
(** ports are not looked at: the process panics, or listens on a port of the system's choice *)
Theorem C85_port_refuted : forall dur, dur (lit "1000ms") = true ->
  (exists f c s, config_init (go_lib dur) (lit "chain") None (Some f) = inr c /\ cf_cosigner c = Some s /\ raft_bind (co_listen s) = None) /\
  (exists f c s, config_init (go_lib dur) (lit "chain") None (Some f) = inr c /\ cf_cosigner c = Some s /\ raft_bind (co_listen s) = Some 0).
Proof.
  intros dur Hd. split.
  - eexists _, _, big. split; [exact (big_accepted dur Hd)|]. split; [reflexivity|]. vm_compute. reflexivity.
  - eexists _, _, noport. split; [exact (noport_accepted dur Hd)|]. split; [reflexivity|]. vm_compute. reflexivity.
Qed.
(** `cosigner start` asks less of the listen address than `config init`: edited by hand to a:2222 it
    is accepted, then the raft goroutine panics *)
Theorem C85_start_refuted : forall dur, dur (lit "1000ms") = true -> exists c s,
  accepted (go_lib dur) c /\ cf_cosigner c = Some s /\ co_listen s = lit "a:2222" /\ raft_bind (co_listen s) = None.
Proof.
  intros dur Hd. eexists edited, _. split; [exact (edited_accepted dur Hd)|]. split; [reflexivity|]. split; [reflexivity|]. vm_compute. reflexivity.
Qed.
(** a cluster of IPv6 hosts runs, but elect dials nothing that is an address *)
Theorem C85_elect_refuted : forall dur, dur (lit "1000ms") = true -> exists f c s line,
  config_init (go_lib dur) (lit "chain") None (Some f) = inr c /\ cf_cosigner c = Some s /\
  raft_bind (co_listen s) = Some 2222 /\
  (forall k, ck_id k = 1 -> exists l, boot_node raft_address None s k = Some l /\ length l = 3%nat /\
    forall x, x ∈ l -> exists name, hostport (snd x) name (lit "2222")) /\
  elect_cmd (Some c) = inr line /\ forall a name port, a ∈ multi_targets line -> ~ hostport a name port.
Proof.
  intros dur Hd. exists (plan_flags dplan 1), (plan_config dplan 1), (plan_section dplan 1), dline.
  pose proof (addressed_plan_ok dur dplan dname dport (dplan_rest dur Hd) dplan_addressed) as Hok.
  pose proof (addressed_good dplan dname dport dplan_addressed) as Hg.
  split; [exact (plan_init (go_lib dur) dplan Hok 1 ltac:(simpl; lia))|]. split; [reflexivity|]. split; [vm_compute; reflexivity|].
  split; [|split; [exact delect|intros a name port; apply dline_nothing]].
  intros k Hk. pose proof (plan_follows (go_lib dur) dplan Hok raft_address 1 k ltac:(simpl; lia) Hk) as Fo.
  assert (Hin : 1 ∈ seqZ 1 (pl_n dplan)) by (apply elem_of_seqZ; simpl; lia).
  pose proof (plan_told_apart _ _ _ _ _ _ Hg Hin Fo) as Ht.
  destruct (first_boot _ _ _ Ht) as (l & El & _ & Elen & Hm). exists l. split; [exact El|].
  split; [exact Elen|]. intros x Hx. apply Hm in Hx as [-> |(p & Hp & ->)].
  - eexists. apply split_iff. vm_compute. reflexivity.
  - change (co_peers (plan_section dplan 1)) with [CPeer 2 (durl 2); CPeer 3 (durl 3)] in Hp.
    apply elem_of_cons in Hp as [-> |Hp]; [eexists; apply split_iff; vm_compute; reflexivity|].
    apply elem_of_list_singleton in Hp as ->. eexists. apply split_iff. vm_compute. reflexivity.
Qed.
(** a chain node with a scheme that is no network is accepted and can never be dialed *)
Theorem C85_node_refuted : forall dur, exists u, validate_nodes (go_lib dur) [u] = None /\
  known_network (fst (protocol_and_address u)) = false.
Proof.
  intros dur. exists (lit "http://n:1234"). destruct (http_accepted dur) as [H1 H2]. split; [exact H1|]. rewrite H2. vm_compute. reflexivity.
Qed.

(** C49 with url.Parse as modelled: an address that does not parse is accepted in front of one that does *)
Theorem C49_url_refuted : forall dur, exists l u, u ∈ l /\ url_host u = None /\ validate_nodes (go_lib dur) l = None.
Proof.
  intros dur. exists [lit "tcp://n:12x4"; lit "tcp://n:1234"], (lit "tcp://n:12x4").
  split; [left|]. split; vm_compute; reflexivity.
Qed.
(** addresses as documented are accepted in any number *)
Theorem C49_named : forall dur l, (forall u, u ∈ l -> exists name port, good_url u name port) -> validate_nodes (go_lib dur) l = None.
Proof. exact good_nodes. Qed.
Example C49_named_case : forall u, u ∈ [lit "tcp://[fd00::2]:2222"; lit "tcp://[fe80::1%25eth%2D0]:2222"] -> exists name port, good_url u name port.
Proof.
  intros u [-> |[-> |H%elem_of_nil]%elem_of_cons]%elem_of_cons; [| |done]; eexists _, _; [right; left; exact (durl_v6 2)|right; right; exact zone_ok].
Qed.

(** what `config init` does ensure: the listen address has a host other than 0.0.0.0 and a port of
    digits. The process listens on that port, on any free one if it is 0 or absent, and panics if it
    is above 65535. *)
Theorem C85_listen_partial : forall dur chain nodes f c, config_init (go_lib dur) chain nodes (Some f) = inr c ->
  exists s name port, cf_cosigner c = Some s /\ co_listen s = if_listen f /\
    hostport (raft_address (co_listen s)) name port /\ name <> lit "0.0.0.0" /\
    (port = [] /\ raft_bind (co_listen s) = Some 0 \/
     exists z, port <> [] /\ digits_denote port z /\ (z <= 65535 -> raft_bind (co_listen s) = Some z) /\ (65535 < z -> raft_bind (co_listen s) = None)).
Proof.
  intros dur chain nodes f c H. destruct (init_listen dur chain nodes f c H) as (s & name & port & H1 & H2 & H3 & H4 & H5 & H6).
  exists s, name, port. split; [exact H1|]. split; [exact H2|]. split; [exact H3|]. split; [exact H4|]. rewrite H6.
  destruct (tcp_port_cases port H5) as [Hn|(z & Hp & Hz & Ht)]; [left; exact Hn|right]. exists z. split; [exact Hp|]. split; [exact Hz|].
  rewrite Ht. destruct (z <=? 65535) eqn:E; [apply Z.leb_le in E|apply Z.leb_gt in E]; (split; intros ?; [|]); try reflexivity; lia.
Qed.
(** the addresses of the documentation, scheme://name:port and scheme://[ipv6]:port (also with a
    zone), mean what they say: listened on at their port, dialed at their name and port *)
Theorem C85_url : forall u name port z, good_url u name port -> port_number port z ->
  raft_bind u = Some z /\ hostport (raft_address u) name port.
Proof. intros u name port z H Hz. destruct (good_bind u name port z H Hz) as [H1 H2]. split; [exact H2|exact H1]. Qed.
(** elect dials an address the way the cluster does if and only if it is a URL and no IPv6 address *)
Theorem C85_elect_partial : forall u name port, hostport (raft_address u) name port ->
  (exists a, elect_address u = Some a /\ hostport a name port) <-> (exists h, url_host u = Some h) /\ ":"%byte ∉ name.
Proof. exact elect_one. Qed.
(** a node is dialed over the network its scheme names *)
Theorem C85_node_partial : forall scheme a, scheme_ok scheme -> protocol_and_address (scheme ++ lit "://" ++ a) = (scheme, a).
Proof. exact cut_scheme_ok. Qed.

(** so a plan with such addresses, one per host, works: the premises of C69 and C79 about addresses
    hold of Go's library *)
Theorem C85_plan_ok : forall dur P name port, plan_rest (go_lib dur) P -> addressed (pl_n P) (pl_url P) name port ->
  plan_ok (go_lib dur) P /\ good_plan raft_address (seqZ 1 (pl_n P)) (pl_url P).
Proof.
  intros dur P name port HP HA. split; [exact (addressed_plan_ok dur P name port HP HA)|exact (addressed_good P name port HA)].
Qed.
(** and each host, set up by config init, listens on its port, knows every host by name and port,
    and elect dials all of them if they have names or IPv4 addresses *)
Theorem C85_cluster_partial : forall dur dflt P name port, plan_rest (go_lib dur) P -> addressed (pl_n P) (pl_url P) name port ->
  forall i k text m0 m, 1 <= i <= pl_n P -> ck_id k = i -> fresh dflt P i m0 -> installs (go_lib dur) dflt P i text m0 m ->
  exists y s c, config_at dflt m (pl_flag P i) = Some y /\ cf_cosigner (ya_cfg y) = Some s /\
    (exists z, port_number (port i) z /\ raft_bind (co_listen s) = Some z) /\
    boot_node raft_address None s k = Some c /\ Z.of_nat (length c) = pl_n P /\
    (forall j, 1 <= j <= pl_n P -> exists a, (print_int j, a) ∈ c /\ hostport a (name j) (port j)) /\
    (forall p, p ∈ co_peers s -> hostport (raft_address (pe_addr p)) (name (pe_id p)) (port (pe_id p))) /\
    ((forall j, 1 <= j <= pl_n P -> named_url (pl_url P j) (name j) (port j)) ->
      exists line, elect_cmd (Some (ya_cfg y)) = inr line /\
        multi_targets line ≡ₚ map (fun j => name j ++ ":"%byte :: port j) (seqZ 1 (pl_n P))).
Proof. exact addressed_host. Qed.

(** an IPv4 address and port without a scheme is no URL: raft and cosigners dial and bind it as it is,
    elect does not use it *)
Theorem C85_bare : forall c r port, c ∈ numerals -> over (numerals ++ lit ".") r -> over numerals port ->
  let u := (c :: r) ++ ":"%byte :: port in
  raft_address u = u /\ elect_address u = None /\ hostport u (c :: r) port /\
  (forall z, port_number port z -> raft_bind u = Some z).
Proof. exact bare_address. Qed.

(** net.SplitHostPort, by the grammar of addresses *)
Theorem C85_addresses : forall s h p, split_host_port s = Some (h, p) <-> hostport s h p.
Proof. exact split_iff. Qed.

Example C85_example : forall dur, dur (lit "1000ms") = true ->
  plan_rest (go_lib dur) nplan /\ addressed (pl_n nplan) (pl_url nplan) nname dport /\
  (forall j, named_url (pl_url nplan j) (nname j) (dport j)) /\
  elect_cmd (Some (plan_config nplan 2)) = inr (lit "multi:///cosigner-2.example:2222,10.168.0.1:2222,c:2222").
Proof.
  intros dur Hd. split; [exact (nplan_rest dur Hd)|]. split; [exact nplan_addressed|]. split; [exact nurl_named|]. vm_compute. reflexivity.
Qed.
Example C85_example_urls :
  good_url (lit "tcp://[fd00::2]:2222") (lit "fd00::2") (lit "2222") /\ port_number (lit "2222") 2222 /\
  (* an address of this form need not be a URL: raft dials it as it is, elect skips it *)
  url_host (lit "10.0.0.1:2222") = None /\ raft_address (lit "10.0.0.1:2222") = lit "10.0.0.1:2222" /\
  elect_address (lit "10.0.0.1:2222") = None.
Proof. split; [right; left; exact (durl_v6 2)|]. split; [exact port_2222|]. vm_compute. auto. Qed.
(** a link-local address with a zone, part of it escaped *)
Example C85_example_zone :
  good_url (lit "tcp://[fe80::1%25eth%2D0]:2222") (lit "fe80::1%eth-0") (lit "2222") /\
  raft_address (lit "tcp://[fe80::1%25eth%2D0]:2222") = lit "[fe80::1%eth-0]:2222".
Proof. split; [right; right; exact zone_ok|]. vm_compute. reflexivity. Qed.

Print Assumptions C85_peers_refuted.
Print Assumptions C85_port_refuted.
Print Assumptions C85_start_refuted.
Print Assumptions C85_elect_refuted.
Print Assumptions C85_node_refuted.
Print Assumptions C85_listen_partial.
Print Assumptions C85_url.
Print Assumptions C85_elect_partial.
Print Assumptions C85_node_partial.
Print Assumptions C85_plan_ok.
Print Assumptions C85_cluster_partial.
Print Assumptions C85_bare.
Print Assumptions C85_addresses.
Print Assumptions C49_url_refuted.
Print Assumptions C49_named.
