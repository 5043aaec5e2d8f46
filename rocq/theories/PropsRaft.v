(** C40-C44, C58, C59: the replicated store (signer/raft_store.go, signer/raft_events.go) and the
    leadership transfer of signer/grpc_server.go. *)
From Coq Require Import Strings.String.
From Verif Require Import GoBase Canonical SignState Spec SignStateProofs Crypto LocalCosigner CosignerSpec
  Toy CosignerWitness Validator ValidatorSpec ValidatorProofs3 ValidatorWitness
  Json JsonProofs Utf8 Utf8Proofs Raft RaftSpec RaftProofs.
Local Open Scope Z_scope.

Definition k1 : bytes := lit "a".
Definition v1 : bytes := lit "one".
Definition v2 : bytes := lit "two".
Definition rec_at (h : Z) (x : byte) : consensus := SSC (HRS h 0 3) (Some [x]) (Some [x; x]).
Definition f0 : fsm := Fsm ∅ zero_state zero_state.

(** C40: whatever bytes the log holds, the last entry that sets or deletes [k] decides what Get
    returns; without one nothing changes *)
Theorem C40_last_entry_decides : forall l f k, k <> lss_key ->
  (forall l1 e l2 v, l = l1 ++ e :: l2 -> sets e k v ->
     (forall e', e' ∈ l2 -> (forall v', ~ sets e' k v') /\ ~ deletes e' k) -> get (apply_all l f) k = v) /\
  (forall l1 e l2, l = l1 ++ e :: l2 -> deletes e k ->
     (forall e', e' ∈ l2 -> (forall v', ~ sets e' k v') /\ ~ deletes e' k) -> get (apply_all l f) k = []) /\
  ((forall e', e' ∈ l -> (forall v', ~ sets e' k v') /\ ~ deletes e' k) -> get (apply_all l f) k = get f k).
Proof. exact apply_all_get. Qed.
(** entries that are no command, or have another operation, change nothing at all *)
Theorem C40_other_entries_inert : forall f e,
  (forall k v, ~ sets e k v) -> (forall k, ~ deletes e k) -> apply_entry f e = f.
Proof. exact apply_entry_inert. Qed.
(** the last-signed-state key is never stored *)
Theorem C40_lss_not_stored : forall l f, f_map f !! lss_key = None ->
  f_map (apply_all l f) !! lss_key = None /\ get (apply_all l f) lss_key = [].
Proof. intros l f H. pose proof (apply_all_lss l f H) as E. split; [done|]. unfold get. by rewrite E. Qed.
(** what Set and Delete write is read back: the calls behave as assignments *)
Theorem C40_calls : forall l f k, k <> lss_key ->
  Forall (fun c => utf8_text (call_key c) /\ match c with CSet _ v => utf8_text v | CDelete _ => True end) l ->
  get (apply_all (map entry_of l) f) k = value_after l k (get f k).
Proof. exact apply_calls_get. Qed.
(** the members of an entry are recognised whatever the case of their names is written in *)
Theorem C40_names : forall n v, utf8_text n -> utf8_text v ->
  (spelt (lit "op") n -> decode_command (object_compact [(esc 0 n, json_string v)]) = Some (Cmd v [] [])) /\
  (spelt (lit "key") n -> decode_command (object_compact [(esc 0 n, json_string v)]) = Some (Cmd [] v [])) /\
  (spelt (lit "value") n -> decode_command (object_compact [(esc 0 n, json_string v)]) = Some (Cmd [] [] v)) /\
  (~ spelt (lit "op") n -> ~ spelt (lit "key") n -> ~ spelt (lit "value") n ->
   decode_command (object_compact [(esc 0 n, json_string v)]) = Some (Cmd [] [] [])).
Proof. exact one_member. Qed.
Example ex_names : spelt (lit "key") ([xe2; x84; xaa] ++ lit "Ey") /\ utf8_text ([xe2; x84; xaa] ++ lit "Ey").
Proof.
  split.
  - apply (spelt_cons _ [xe2; x84; xaa]); [do 2 right; left|]. apply (spelt_cons _ (lit "E")); [right; left|].
    apply (spelt_cons _ (lit "y")); [left|]. constructor.
  - exists [8490; 69; 121]. split; [repeat constructor; unfold scalar; lia|reflexivity].
Qed.
Example ex_calls :
  get (apply_all (map entry_of [CSet k1 v1; CSet (lit "b") v1; CSet k1 v2]) f0) k1 = v2 /\
  get (apply_all (map entry_of [CSet k1 v1; CSet (lit "b") v1; CDelete k1]) f0) k1 = [] /\
  get (apply_all (map entry_of [CSet k1 v1; CSet (lit "b") v1; CDelete k1]) f0) (lit "b") = v1.
Proof. vm_compute. auto. Qed.
Example ex_utf8 : utf8_text k1 /\ utf8_text (zb 195 :: [zb 169]).
Proof. split; [exists [97]|exists [233]]; (split; [repeat constructor; unfold scalar; lia|reflexivity]). Qed.
Example ex_sets : sets (set_entry k1 v1) k1 v1 /\ deletes (delete_entry k1) k1 /\
  decode_command (lit "{""op"":""set""") = None /\
  (exists c, decode_command (lit "{""op"":""incr"",""key"":""a""}") = Some c /\ cm_op c = lit "incr").
Proof.
  split; [exists (Cmd (lit "set") k1 v1); vm_compute; auto|].
  split; [exists (Cmd (lit "delete") k1 []); vm_compute; auto|].
  split; [vm_compute; auto|]. eexists. split; vm_compute; reflexivity.
Qed.

(** C41: the sign states of both components end at the maximum of where they were and all events in
    the log, whatever else the log holds *)
Theorem C41_watermark_is_maximum : forall l f,
  ss_hrs (f_val (apply_all l f)) = hrs_max (ss_hrs (f_val f)) (map c_hrs (lss_events l)) /\
  ss_hrs (f_cos (apply_all l f)) = hrs_max (ss_hrs (f_cos f)) (map c_hrs (lss_events l)).
Proof. exact apply_all_watermark. Qed.
(** in any order and with any duplication *)
Theorem C41_any_order : forall l l' f, (forall e, e ∈ l <-> e ∈ l') ->
  ss_hrs (f_val (apply_all l f)) = ss_hrs (f_val (apply_all l' f)) /\
  ss_hrs (f_cos (apply_all l f)) = ss_hrs (f_cos (apply_all l' f)).
Proof. exact replica_watermarks. Qed.
(** replaying events of an applied log changes nothing: not the map, not the sign states *)
Theorem C41_replay_inert : forall l f l', (forall e, e ∈ l' -> e ∈ l /\ event_of e <> None) ->
  apply_all l' (apply_all l f) = apply_all l f.
Proof. exact replay_all. Qed.
Definition log3 : list bytes := [emit_entry (rec_at 12 x0a); set_entry k1 v1; emit_entry (rec_at 11 x0b)].
Example ex_events : map c_hrs (lss_events log3) = [HRS 12 0 3; HRS 11 0 3] /\
  ss_hrs (f_val (apply_all log3 f0)) = HRS 12 0 3 /\ ss_sig (f_cos (apply_all log3 f0)) = Some [x0a].
Proof. vm_compute. auto. Qed.

(** C42 full statement: restoring a snapshot and applying the rest gives the state of a node that
    applied everything. False: snapshots hold no last-signed state. *)
Theorem C42_watermark_lost_refuted : exists l1 l2 g,
  restore f0 (snapshot (apply_all l1 f0)) = Some g /\
  hrs_lt (ss_hrs (f_val (apply_all l2 g))) (ss_hrs (f_val (apply_all (l1 ++ l2) f0))) /\
  hrs_lt (ss_hrs (f_cos (apply_all l2 g))) (ss_hrs (f_cos (apply_all (l1 ++ l2) f0))).
Proof.
  exists log3, [set_entry k1 v2; emit_entry (rec_at 11 x0c)]. eexists.
  split; [apply restore_snapshot, apply_all_texts, map_Forall_empty|].
  split; [vm_compute; auto|vm_compute; auto].
Qed.
(** The map is the same for every log and every snapshot point; the restoring node keeps its own
    sign states and follows the events of the rest. Missing: the events covered by the snapshot,
    unless the node was not behind them. *)
Theorem C42_snapshot_partial : forall l1 l2 f g, texts (f_map f) ->
  exists g', restore g (snapshot (apply_all l1 f)) = Some g' /\ f_val g' = f_val g /\ f_cos g' = f_cos g /\
    f_map (apply_all l2 g') = f_map (apply_all (l1 ++ l2) f) /\
    f_val (apply_all l2 g') = run_saves (f_val g) (lss_events l2) /\
    f_cos (apply_all l2 g') = run_saves (f_cos g) (lss_events l2).
Proof. exact restore_catch_up. Qed.
Theorem C42_not_behind_partial : forall l1 l2 f g g', texts (f_map f) ->
  restore g (snapshot (apply_all l1 f)) = Some g' ->
  (forall c, c ∈ lss_events l1 -> hrs_le (c_hrs c) (ss_hrs (f_val g)) /\ hrs_le (c_hrs c) (ss_hrs (f_cos g))) ->
  ss_hrs (f_val (apply_all l2 g')) = hrs_max (ss_hrs (f_val g)) (map c_hrs (lss_events (l1 ++ l2))) /\
  ss_hrs (f_cos (apply_all l2 g')) = hrs_max (ss_hrs (f_cos g)) (map c_hrs (lss_events (l1 ++ l2))).
Proof.
  intros l1 l2 f g g' Ht Hr Hb.
  destruct (restore_catch_up l1 l2 f g Ht) as (g1 & Hr1 & _ & _ & _ & Hv & Hc).
  assert (g1 = g') as -> by congruence. rewrite Hv, Hc, !run_saves_max, lss_events_app, map_app, !hrs_max_app.
  rewrite (hrs_max_below (ss_hrs (f_val g)) (map c_hrs (lss_events l1))),
    (hrs_max_below (ss_hrs (f_cos g)) (map c_hrs (lss_events l1))); [done|..];
    intros k Hk; apply elem_of_list_fmap in Hk as (c & -> & Hk); by apply Hb.
Qed.
(** what a log makes of the empty map is always such a map *)
Theorem C42_maps_are_texts : forall l f, texts (f_map f) -> texts (f_map (apply_all l f)).
Proof. exact apply_all_texts. Qed.
Example ex_texts : texts (f_map f0). Proof. apply map_Forall_empty. Qed.
Example ex_snapshot : snapshot (apply_all (map entry_of [CSet (lit "b") v1; CSet k1 (lit "<"" >")]) f0)
  = lit "{""a"":""\u003c\"" \u003e"",""b"":""one""}".
Proof. vm_compute. reflexivity. Qed.

(** C43 full statement: a freshly assembled signature is returned only after its event is committed.
    False: SignBlock only logs that Emit failed. *)
Definition unreplicated : list vop := take 12 e2e ++ [VEmit 7 false].
Theorem C43_not_replicated_refuted : exists l st sig,
  vrun toy vcfg v0 l st /\
  returned l 7 (eblock 11 x0a 1) (VR (Some sig) (Time 1600000000 1) None) true /\
  VEmit 7 true ∉ ops_of l.
Proof.
  exists (v_log v0 unreplicated), (v_after v0 unreplicated), e2e_sig.
  split; [apply v_run; vm_compute; discriminate|]. split.
  - exists (VEmit 7 false). apply elem_of_list_lookup. exists 12%nat. vm_compute. reflexivity.
  - assert (E : forallb (fun op => match op with VEmit 7 true => false | _ => true end)
                  (ops_of (v_log v0 unreplicated)) = true) by (vm_compute; reflexivity).
    rewrite forallb_forall in E. intros Hin. apply elem_of_list_In, E in Hin. discriminate.
Qed.
(** an event is read member by member, in any order; the last of each kind counts, and a member that is missing is 0
    or nil *)
Theorem C43_event_members : forall l, Forall item_ok l ->
  decode_lss (object_compact (map item_text l)) = Some (event_meant l).
Proof. exact decode_event. Qed.
Example ex_members : Forall item_ok [IStep 3; IHeight 7; ISig (Some [x01]); IHeight 8] /\
  event_meant [IStep 3; IHeight 7; ISig (Some [x01]); IHeight 8] = SSC (HRS 8 0 3) (Some [x01]) None /\
  object_compact (map item_text [IStep 3; IHeight 7]) = lit "{""Step"":3,""Height"":7}".
Proof. split; [repeat constructor; unfold item_ok, in_int64; lia|]. split; reflexivity. Qed.
(** The event is always offered to raft before the signature is returned, and once committed every
    node that applies it has saved exactly this record, in both components, and nothing else.
    Missing: that it is committed. *)
Theorem C43_emitted_partial : forall C cfg st0 l st t b sig ts e,
  idle st0 -> vrun C cfg st0 l st -> returned l t b (VR sig ts e) true ->
  exists ok l1 l2, l = l1 ++ (VEmit t ok, OReturn t b (VR sig ts e) true) :: l2.
Proof. exact fresh_emitted. Qed.
Theorem C43_event_applied_partial : forall f c, hrs_in_range (c_hrs c) ->
  apply_entry f (emit_entry c) =
    Fsm (f_map f) (fst (save (f_val f) (as_sent c))) (fst (save (f_cos f) (as_sent c))).
Proof. exact emit_applied. Qed.
Theorem C43_event_raises_partial : forall l1 l2 f c, hrs_in_range (c_hrs c) ->
  hrs_le (c_hrs c) (ss_hrs (f_val (apply_all (l1 ++ emit_entry c :: l2) f))) /\
  hrs_le (c_hrs c) (ss_hrs (f_cos (apply_all (l1 ++ emit_entry c :: l2) f))).
Proof.
  intros l1 l2 f c H. destruct (apply_all_watermark (l1 ++ emit_entry c :: l2) f) as [-> ->].
  assert (Hin : c_hrs c ∈ map c_hrs (lss_events (l1 ++ emit_entry c :: l2))).
  { apply elem_of_list_fmap. exists (as_sent c). split; [done|]. apply elem_of_list_omap.
    exists (emit_entry c). split; [apply elem_of_app; right; left|by apply emit_event]. }
  split; apply hrs_max_ge; by right.
Qed.
Example ex_range : hrs_in_range (HRS 11 0 3). Proof. repeat split; simpl; lia. Qed.

(** C44: replicas of one log agree on the map and on snapshots, whatever their sign states *)
Theorem C44_replicas_agree : forall l f g, f_map f = f_map g ->
  f_map (apply_all l f) = f_map (apply_all l g) /\ snapshot (apply_all l f) = snapshot (apply_all l g) /\
  (forall k, get (apply_all l f) k = get (apply_all l g) k).
Proof.
  intros l f g H. pose proof (apply_all_map l f g H) as E. split; [done|]. unfold snapshot, get. by rewrite E.
Qed.
Example ex_replicas : f_map (apply_all log3 f0) = f_map (apply_all log3 (Fsm ∅ lss10 zero_state)) /\
  f_val (apply_all log3 f0) <> f_val (Fsm ∅ lss10 zero_state).
Proof. split; [by apply apply_all_map|]. intros E. apply (f_equal ss_hrs) in E. vm_compute in E. discriminate. Qed.

(** C58 full statement: an election that names a peer transfers leadership to it or fails. False: an
    unknown ID (or the own one, which is not among the peers) transfers to any candidate and answers
    as an election without ID does. *)
Theorem C58_unknown_id_refuted : forall host, exists peers leader, leader <> [] /\
  (forall p, p ∈ peers -> print_int (fst p) <> leader) /\
  transfer_leadership host peers leader = (TransferAny, TA [] []).
Proof.
  intros host. exists [(2, lit "tcp://b:1"); (3, lit "tcp://c:1")], (lit "7").
  split; [discriminate|]. split; [|reflexivity].
  intros p Hp. apply elem_of_cons in Hp as [->|Hp]; [vm_compute; discriminate|].
  apply elem_of_list_singleton in Hp as ->. vm_compute. discriminate.
Qed.
(** The ID of a peer selects the first peer with it, and the answer names it; without ID, or with an
    unknown one, any. *)
Theorem C58_known_id_partial : forall host peers leader,
  (leader = [] -> transfer_leadership host peers leader = (TransferAny, TA [] [])) /\
  (leader <> [] -> forall l1 n b l2, peers = l1 ++ (n, b) :: l2 -> print_int n = leader ->
     (forall p, p ∈ l1 -> print_int (fst p) <> leader) ->
     transfer_leadership host peers leader = (TransferTo leader (host b), TA leader (host b))) /\
  (forall i a ans, transfer_leadership host peers leader = (TransferTo i a, ans) ->
     i = leader /\ exists n b, (n, b) ∈ peers /\ print_int n = leader /\ a = host b /\ ans = TA i a).
Proof. exact transfer_spec. Qed.
Example ex_elect : transfer_leadership (fun a => a) [(2, lit "b:1"); (3, lit "c:1")] (lit "3")
  = (TransferTo (lit "3") (lit "c:1"), TA (lit "3") (lit "c:1")).
Proof. reflexivity. Qed.

(** C59 *)
Theorem C59_join : forall id addr cfg oks cfg' ok, config_ok cfg -> join id addr cfg oks = (cfg', ok) ->
  config_ok cfg' /\
  (forall s, ~ (fst s = id \/ snd s = addr) -> s ∈ cfg' <-> s ∈ cfg) /\
  (ok = true -> forall s, s ∈ cfg' /\ (fst s = id \/ snd s = addr) <-> s = (id, addr)) /\
  ((id, addr) ∈ cfg -> cfg' = cfg /\ ok = true).
Proof. exact join_spec. Qed.
Example ex_join :
  join (lit "2") (lit "c:1") [(lit "1", lit "a:1"); (lit "2", lit "b:1"); (lit "3", lit "c:1")] [true; true; true]
    = ([(lit "1", lit "a:1"); (lit "2", lit "c:1")], true) /\
  config_ok [(lit "1", lit "a:1"); (lit "2", lit "b:1"); (lit "3", lit "c:1")].
Proof. split; [reflexivity|]. split; apply (bool_decide_unpack _); vm_compute; exact I. Qed.

Print Assumptions C40_last_entry_decides.
Print Assumptions C40_other_entries_inert.
Print Assumptions C40_lss_not_stored.
Print Assumptions C40_calls.
Print Assumptions C40_names.
Print Assumptions C41_watermark_is_maximum.
Print Assumptions C41_any_order.
Print Assumptions C41_replay_inert.
Print Assumptions C42_watermark_lost_refuted.
Print Assumptions C42_snapshot_partial.
Print Assumptions C42_not_behind_partial.
Print Assumptions C42_maps_are_texts.
Print Assumptions C43_not_replicated_refuted.
Print Assumptions C43_emitted_partial.
Print Assumptions C43_event_members.
Print Assumptions C43_event_applied_partial.
Print Assumptions C43_event_raises_partial.
Print Assumptions C44_replicas_agree.
Print Assumptions C58_unknown_id_refuted.
Print Assumptions C58_known_id_partial.
Print Assumptions C59_join.
