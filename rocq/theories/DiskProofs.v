(** State files: round trip, and invariants of asynchronous saving. *)
From Coq Require Import Strings.String ZifyBool.
From Verif Require Import GoBase Wire Canonical SignState Spec SignStateProofs Crypto LocalCosigner
  CosignerSpec CosignerProofs CosignerProofs2 Json JsonProofs Disk DiskSpec.
Local Open Scope Z_scope.

(** ** Round trip *)

Definition rec_in_range (f : file_rec) : Prop :=
  in_int64 (fr_h f) /\ in_int64 (fr_r f) /\ in_int8 (fr_s f).

Lemma int_of_print bits z : 0 < bits -> - 2 ^ (bits - 1) <= z < 2 ^ (bits - 1) ->
  int_of_json bits (JNum (print_int z)) = Some z.
Proof.
  intros Hb Hz. unfold int_of_json. rewrite parse_print_int.
  rewrite (proj2 (Z.leb_le _ _)), (proj2 (Z.ltb_lt _ _)) by lia. reflexivity.
Qed.

Lemma parse_json_int z : parse_json (print_int z) = Some (JNum (print_int z)).
Proof.
  unfold parse_json. pose proof (renders_int z (length (print_int z)) [] I) as E.
  rewrite app_nil_r in E. rewrite E. reflexivity.
Qed.

Lemma int64_string_print z : in_int64 z -> int64_string (JStr (print_int z)) = Some z.
Proof. intros H. simpl. rewrite parse_json_int. apply int_of_print; [lia|exact H]. Qed.

(** a state object with abstract values *)
Definition six (h r s e : json) (sg sb : option json) : list (bytes * json) :=
  [(lit "height", h); (lit "round", r); (lit "step", s); (lit "ephemeral_public", e)] ++
  match sg with None => [] | Some j => [(lit "signature", j)] end ++
  match sb with None => [] | Some j => [(lit "signbytes", j)] end.
Lemma six_members h r s e sg sb :
  member (lit "height") (six h r s e sg sb) = Some h /\
  member (lit "round") (six h r s e sg sb) = Some r /\
  member (lit "step") (six h r s e sg sb) = Some s /\
  member (lit "ephemeral_public") (six h r s e sg sb) = Some e /\
  member (lit "signature") (six h r s e sg sb) = sg /\
  member (lit "signbytes") (six h r s e sg sb) = sb.
Proof. destruct sg, sb; vm_compute; repeat split. Qed.

(** what the fields of the printed text are read as *)
Definition b64_json (o : option bytes) : json :=
  match o with None => JNull | Some b => JStr (b64_enc b) end.
Definition parsed (f : file_rec) : list (bytes * json) :=
  six (JStr (print_int (fr_h f))) (JStr (print_int (fr_r f))) (JNum (print_int (fr_s f)))
    (b64_json (fr_eph f)) (b64_json <$> (Some <$> fr_sig f)) (JStr <$> (hex_enc <$> fr_sb f)).

Lemma safe_lit s : forallb safe_byte (lit s) = true -> safe (lit s).
Proof. intros H. apply List.Forall_forall. intros b Hb. rewrite forallb_forall in H. auto. Qed.

Lemma parse_marshal f : parse_json (marshal_state f) = Some (JObj (parsed f)).
Proof.
  unfold marshal_state, parsed. apply parse_object_indent; [done|].
  assert (Hb : forall o, renders (b64_text o) (b64_json o)).
  { intros [b|]; [apply renders_quote, b64_safe|apply renders_null]. }
  unfold six. cbn [app].
  apply Forall2_cons. { split; [done|split; [apply scannable_safe, safe_lit; reflexivity|apply renders_quote, print_int_safe]]. }
  apply Forall2_cons. { split; [done|split; [apply scannable_safe, safe_lit; reflexivity|apply renders_quote, print_int_safe]]. }
  apply Forall2_cons. { split; [done|split; [apply scannable_safe, safe_lit; reflexivity|apply renders_int]]. }
  apply Forall2_cons. { split; [done|split; [apply scannable_safe, safe_lit; reflexivity|apply Hb]]. }
  apply Forall2_app.
  - destruct (fr_sig f) as [b|]; [|constructor]. apply Forall2_cons; [|constructor].
    split; [done|split; [apply scannable_safe, safe_lit; reflexivity|apply (Hb (Some b))]].
  - destruct (fr_sb f) as [b|]; [|constructor]. apply Forall2_cons; [|constructor].
    split; [done|split; [apply scannable_safe, safe_lit; reflexivity|apply renders_hex]].
Qed.

Lemma bytes_of_b64 o : bytes_of_json (b64_json o) = Some o.
Proof.
  destruct o as [b|]; [|done]. cbn [b64_json bytes_of_json]. rewrite unescape_safe, no_breaks_safe, b64_roundtrip by apply b64_safe. reflexivity.
Qed.

Lemma unmarshal_marshal f : rec_in_range f -> unmarshal_state (marshal_state f) = Some f.
Proof.
  intros (Hh & Hr & Hs). unfold unmarshal_state. rewrite parse_marshal. unfold parsed.
  match goal with |- context [six ?h ?r ?s ?e ?g ?b] =>
    destruct (six_members h r s e g b) as (E1 & E2 & E3 & E4 & E5 & E6);
    set (m := six h r s e g b) in * end.
  assert (Eh : field m (lit "height") 0 int64_string = Some (fr_h f))
    by (unfold field; rewrite E1; apply int64_string_print; done).
  assert (Er : field m (lit "round") 0 int64_string = Some (fr_r f))
    by (unfold field; rewrite E2; apply int64_string_print; done).
  assert (Es : field m (lit "step") 0 (int_of_json 8) = Some (fr_s f))
    by (unfold field; rewrite E3; apply int_of_print; [lia|exact Hs]).
  assert (Ee : field m (lit "ephemeral_public") None bytes_of_json = Some (fr_eph f)).
  { unfold field. rewrite E4. destruct (fr_eph f) as [b|]; [|done].
    apply (bytes_of_b64 (Some b)). }
  assert (Eg : field m (lit "signature") None bytes_of_json = Some (fr_sig f)).
  { unfold field. rewrite E5. destruct (fr_sig f) as [b|]; [|done].
    apply (bytes_of_b64 (Some b)). }
  assert (Eb : field m (lit "signbytes") None (fun j => Some <$> hex_of_json j) = Some (fr_sb f)).
  { unfold field. rewrite E6. destruct (fr_sb f) as [b|]; [|done].
    simpl. rewrite hex_roundtrip. done. }
  rewrite Eh, Er, Es, Ee, Eg, Eb. destruct f; reflexivity.
Qed.

(** the signature is read back whatever the other members are *)
Lemma unmarshal_sig f r : unmarshal_state (marshal_state f) = Some r -> fr_sig r = fr_sig f.
Proof.
  unfold unmarshal_state. rewrite parse_marshal. unfold parsed.
  match goal with |- context [six ?h ?r ?s ?e ?g ?b] =>
    destruct (six_members h r s e g b) as (_ & _ & _ & _ & E5 & _);
    set (m := six h r s e g b) in * end.
  assert (Eg : field m (lit "signature") None bytes_of_json = Some (fr_sig f)).
  { unfold field. rewrite E5. destruct (fr_sig f) as [b|]; [|done].
    apply (bytes_of_b64 (Some b)). }
  rewrite Eg. repeat case_match; intros [= <-]; done.
Qed.

Lemma int_of_json_range bits j z : 0 < bits -> int_of_json bits j = Some z ->
  - 2 ^ (bits - 1) <= z < 2 ^ (bits - 1).
Proof.
  intros Hb. assert (0 < 2 ^ (bits - 1)) by (apply Z.pow_pos_nonneg; lia).
  destruct j as [| |l| | |]; simpl; try discriminate.
  - intros [= <-]. lia.
  - destruct (parse_int l) as [y|]; [|discriminate].
    destruct (Z.leb_spec (- 2 ^ (bits - 1)) y); simpl; [|discriminate].
    destruct (Z.ltb_spec y (2 ^ (bits - 1))); [|discriminate]. intros [= <-]. lia.
Qed.

Lemma field_range m name dec z bits : 0 < bits ->
  (forall j y, dec j = Some y -> - 2 ^ (bits - 1) <= y < 2 ^ (bits - 1)) ->
  field m name 0 dec = Some z -> - 2 ^ (bits - 1) <= z < 2 ^ (bits - 1).
Proof.
  intros Hb Hd. assert (0 < 2 ^ (bits - 1)) by (apply Z.pow_pos_nonneg; lia).
  unfold field. destruct (member name m) as [j|]; [|intros [= <-]; lia].
  destruct j; first [apply Hd | intros [= <-]; lia].
Qed.

Lemma unmarshal_range text f : unmarshal_state text = Some f -> rec_in_range f.
Proof.
  unfold unmarshal_state. destruct (parse_json text) as [[| | | | |m]|]; try discriminate.
  - intros [= <-]. split; [|split]; simpl; unfold in_int64, in_int8; lia.
  - destruct (field m (lit "height") 0 int64_string) as [h|] eqn:E1; [|discriminate].
    destruct (field m (lit "round") 0 int64_string) as [r|] eqn:E2; [|discriminate].
    destruct (field m (lit "step") 0 (int_of_json 8)) as [s|] eqn:E3; [|discriminate].
    destruct (field m (lit "ephemeral_public") None bytes_of_json) as [e|]; [|discriminate].
    destruct (field m (lit "signature") None bytes_of_json) as [g|]; [|discriminate].
    destruct (field m (lit "signbytes") None (fun j => Some <$> hex_of_json j)) as [b|]; [|discriminate].
    intros [= <-].
    assert (H64 : forall j y, int64_string j = Some y -> - 2 ^ (64 - 1) <= y < 2 ^ (64 - 1)).
    { intros [| | |raw| |] y; simpl; try discriminate.
      destruct (parse_json raw); [|discriminate]. apply int_of_json_range. lia. }
    split; [|split]; simpl.
    + apply (field_range m (lit "height") int64_string h 64); [lia|exact H64|exact E1].
    + apply (field_range m (lit "round") int64_string r 64); [lia|exact H64|exact E2].
    + apply (field_range m (lit "step") (int_of_json 8) s 8); [lia| |exact E3].
      intros j y. apply int_of_json_range. lia.
Qed.

(** *** C39 *)

Lemma load_range f s : load f = Some s -> hrs_in_range (ss_hrs s).
Proof.
  destruct f as [text|]; simpl; [|discriminate].
  destruct (unmarshal_state text) as [r|] eqn:E; [|discriminate].
  intros [= <-]. apply unmarshal_range in E. exact E.
Qed.

Lemma load_saved r : rec_in_range r ->
  load (Some (marshal_state r)) = Some (loaded_state (fr_hrs r) (fr_eph r) (fr_sig r) (fr_sb r)).
Proof. intros H. simpl. rewrite unmarshal_marshal by done. reflexivity. Qed.

Lemma rec_of_range s : hrs_in_range (ss_hrs s) -> rec_in_range (rec_of s).
Proof. exact id. Qed.

Lemma load_after_save s : hrs_in_range (ss_hrs s) ->
  exists s', load (Some (marshal_state (rec_of s))) = Some s' /\
    ss_hrs s' = ss_hrs s /\ ss_eph s' = ss_eph s /\ ss_sig s' = ss_sig s /\ ss_sb s' = ss_sb s /\
    (forall k, ss_cache s' !! k =
       if decide (k = ss_hrs s) then Some (SSC (ss_hrs s) (ss_sig s) (ss_sb s)) else None).
Proof.
  intros H. eexists. split; [apply load_saved, rec_of_range, H|].
  destruct s as [[h r st] e g b c]. simpl. repeat split.
  intros k. destruct (decide (k = HRS h r st)) as [-> |Hk].
  - apply lookup_singleton.
  - apply lookup_singleton_ne. intros E. apply Hk. rewrite <- E. reflexivity.
Qed.

Lemma load_or_create_spec f :
  (forall s, load f = Some s -> load_or_create f = (s, f)) /\
  (load f = None -> (load_or_create f).1 = zero_state /\
     exists s, load (load_or_create f).2 = Some s /\ agree s zero_state).
Proof.
  unfold load_or_create. split.
  - intros s ->. done.
  - intros ->. split; [done|].
    destruct (load_after_save zero_state) as (s & Hs & H1 & H2 & H3 & H4 & _).
    { split; [|split]; simpl; unfold in_int64, in_int8; lia. }
    exists s. split; [exact Hs|]. split; [|split]; done.
Qed.

(** ** Invariants of the save goroutines *)

(** what the memory becomes when the Save in progress completes *)
Definition finish (p : proc) : sign_state := fold_left do_store (pr_todo p) (pr_mem p).

(** the stores of a Save, with reads and renames in between, add up to the Save of [SignState] *)
Lemma finish_kept p op p' : (match op with DStore | DRead _ | DRename _ => True | _ => False end) ->
  dstep p op = Some p' -> finish p' = finish p.
Proof.
  destruct p as [m t f ws]. destruct op as [c| |o|i|i|]; cbn; try done; intros _ E.
  - destruct t as [|x t]; [done|]. injection E as <-. reflexivity.
  - destruct (ws !! i) as [w|]; [|done]. destruct (read_field m w); [|done]. injection E as <-. reflexivity.
  - destruct (ws !! i) as [w|]; [|done]. case_bool_decide; [|done]. injection E as <-. reflexivity.
Qed.
Lemma finish_run p l p' : drun p l p' -> Forall (fun op => match op with DStore | DRead _ | DRename _ => True | _ => False end) l ->
  finish p' = finish p.
Proof.
  induction 1 as [|p op p1 l p2 E _ IH]; intros H; [done|]. apply Forall_cons_1 in H as [H1 H2].
  rewrite (IH H2). by apply (finish_kept p op).
Qed.
Lemma save_whole p c l p' : pr_todo p = [] -> drun p (DSave c :: l) p' -> pr_todo p' = [] ->
  Forall (fun op => match op with DStore | DRead _ | DRename _ => True | _ => False end) l ->
  pr_mem p' = fst (save (pr_mem p) c).
Proof.
  intros Ht Hr Ht' Hl. inversion Hr as [|? ? p1 ? ? E Hr']; subst.
  pose proof (finish_run _ _ _ Hr' Hl) as F. unfold finish in F at 1. rewrite Ht' in F. cbn in F. rewrite F.
  destruct p as [m t f ws]. cbn in Ht. subst t. cbn in E. unfold save. cbn.
  destruct (error_if_less_or_equal m (c_hrs c)) as [e|]; injection E as <-; cbn; [reflexivity|].
  destruct c as [[h r s] sg sb]. reflexivity.
Qed.

(** [w] has read its fields from a state agreeing with [m] *)
Definition reads (w : writer) (m : sign_state) : Prop :=
  (w_pc w <= 6)%nat /\
  ((1 <= w_pc w)%nat -> fr_h (w_rec w) = h_height (ss_hrs m)) /\
  ((2 <= w_pc w)%nat -> fr_r (w_rec w) = h_round (ss_hrs m)) /\
  ((3 <= w_pc w)%nat -> fr_s (w_rec w) = h_step (ss_hrs m)) /\
  ((5 <= w_pc w)%nat -> fr_sig (w_rec w) = ss_sig m) /\
  ((6 <= w_pc w)%nat -> fr_sb (w_rec w) = ss_sb m).

Lemma reads_new m : reads new_writer m.
Proof. unfold reads, new_writer. simpl. repeat split; lia. Qed.

Lemma reads_step w m s w' :
  reads w m -> agree s m -> read_field s w = Some w' -> reads w' m.
Proof.
  intros (H0 & H1 & H2 & H3 & H4 & H5) (E1 & E2 & E3). destruct w as [pc f]. simpl in *.
  unfold read_field. simpl.
  do 6 (destruct pc as [|pc]; [intros [= <-]; unfold reads; simpl; rewrite ?E1, ?E2, ?E3;
    repeat split; intros; try lia; auto with lia|]). discriminate.
Qed.

Lemma reads_done w m : w_pc w = 6%nat -> reads w m -> hrs_in_range (ss_hrs m) ->
  exists s, load (Some (marshal_state (w_rec w))) = Some s /\ agree s m.
Proof.
  intros E (_ & H1 & H2 & H3 & H4 & H5) (R1 & R2 & R3). rewrite E in *.
  eexists. split; [apply load_saved|].
  - split; [|split]; rewrite ?H1, ?H2, ?H3 by lia; done.
  - unfold agree, fr_hrs. simpl. rewrite H1, H2, H3, H4, H5 by lia.
    destruct (ss_hrs m). done.
Qed.

Lemma reads_agree w m m' : reads w m -> agree m' m -> reads w m'.
Proof. intros H (E1 & E2 & E3). unfold reads in *. rewrite E1, E2, E3. exact H. Qed.

Lemma agree_refl a : agree a a.
Proof. done. Qed.
Lemma agree_sym a b : agree a b -> agree b a.
Proof. unfold agree. intuition congruence. Qed.
Lemma agree_trans a b c : agree a b -> agree b c -> agree a c.
Proof. unfold agree. intuition congruence. Qed.

(** a Save in progress: [StGo] is its last action and its completion is [c] *)
Definition saving (p : proc) (c : consensus) : Prop :=
  (exists pre, stores c = pre ++ pr_todo p) /\ pr_todo p <> [] /\
  ss_hrs (finish p) = c_hrs c /\ ss_sig (finish p) = c_sig c /\ ss_sb (finish p) = c_sb c.

Lemma saving_start s c f ws :
  saving (Proc s (stores c) f ws) c.
Proof.
  split; [exists []; done|]. split; [done|]. destruct c as [[h r st] sg sb]. simpl. done.
Qed.

Lemma finish_store s x t f ws f' ws' :
  finish (Proc (do_store s x) t f' ws') = finish (Proc s (x :: t) f ws).
Proof. reflexivity. Qed.

Global Instance store_eq_dec : EqDecision store.
Proof. solve_decision. Defined.

(** one action of a Save *)
Lemma saving_step s x t f ws c :
  saving (Proc s (x :: t) f ws) c ->
  (x <> StGo /\ forall f' ws', saving (Proc (do_store s x) t f' ws') c) \/
  (x = StGo /\ t = [] /\ ss_hrs s = c_hrs c /\ ss_sig s = c_sig c /\ ss_sb s = c_sb c).
Proof.
  intros ((pre & Hpre) & Hne & Hf). simpl in Hpre.
  destruct (decide (x = StGo)) as [-> |Hx].
  - right. split; [done|].
    assert (t = []) as ->.
    { unfold stores in Hpre. destruct c as [[h r st] sg sb]. simpl in Hpre.
      do 6 (destruct pre as [|? pre]; simpl in Hpre; [congruence|injection Hpre as _ Hpre]).
      destruct pre; discriminate. }
    split; [done|]. exact Hf.
  - left. split; [done|]. intros f' ws'. split; [exists (pre ++ [x]); simpl; rewrite <- app_assoc; done|].
    split.
    + simpl. intros ->. unfold stores in Hpre. destruct c as [[h r st] sg sb]. simpl in Hpre.
      do 6 (destruct pre as [|? pre]; simpl in Hpre; [congruence|injection Hpre as _ Hpre]).
      destruct pre; discriminate.
    + exact Hf.
Qed.

Lemma drun_app p l1 l2 p2 :
  drun p (l1 ++ l2) p2 <-> exists p1, drun p l1 p1 /\ drun p1 l2 p2.
Proof.
  split.
  - revert p. induction l1 as [|op l1 IH]; intros p H; simpl in *.
    + exists p. split; [constructor|done].
    + inversion H as [|? ? px ? ? Hs Hr]; subst.
      apply IH in Hr as (p1 & H1 & H2). exists p1. split; [econstructor; eauto|done].
  - intros (p1 & H1 & H2). induction H1; simpl; [done|]. econstructor; eauto.
Qed.
Lemma drun_one p op p' : drun p [op] p' <-> dstep p op = Some p'.
Proof.
  split.
  - intros H. inversion H as [|? ? px ? ? Hs Hr]; subst. inversion Hr; subst. done.
  - intros H. econstructor; [exact H|constructor].
Qed.

(** *** C37: one write at a time *)

Definition seq_inv (p : proc) (sf : sign_state) : Prop :=
  load (pr_file p) = Some sf /\
  ((pr_todo p = [] /\ pr_ws p = [] /\ agree sf (pr_mem p)) \/
   (pr_ws p = [] /\ exists c, saving p c /\ hrs_in_range (c_hrs c) /\ hrs_lt (ss_hrs sf) (c_hrs c)) \/
   (pr_todo p = [] /\ exists w, pr_ws p = [w] /\ reads w (pr_mem p) /\
      hrs_in_range (ss_hrs (pr_mem p)) /\ hrs_lt (ss_hrs sf) (ss_hrs (pr_mem p)))).

Lemma error_none s k : error_if_less_or_equal s k = None <-> hrs_lt (ss_hrs s) k.
Proof.
  pose proof (save_ok_iff s (SSC k None None)) as H. unfold save in H. simpl in H.
  destruct (error_if_less_or_equal s k); simpl in H; rewrite <- H; split; done.
Qed.

Lemma list_lookup_single {A} (w x : A) i : [w] !! i = Some x -> i = 0%nat /\ x = w.
Proof. destruct i as [|i]; simpl; [intros [= ->]; done|]. destruct i; discriminate. Qed.

Lemma seq_step p op p' sf :
  seq_inv p sf -> dstep p op = Some p' ->
  (forall c, op = DSave c -> pr_ws p = [] /\ hrs_in_range (c_hrs c)) ->
  exists sf', seq_inv p' sf' /\ hrs_le (ss_hrs sf) (ss_hrs sf').
Proof.
  intros [Hl Hc] Hs Hsave. destruct p as [m todo f ws]. simpl in *.
  destruct op as [c| |o|i|i|]; simpl in Hs.
  - destruct todo as [|x t]; [|discriminate].
    destruct (Hsave c eq_refl) as [-> Hr].
    destruct (error_if_less_or_equal m (c_hrs c)) eqn:E; injection Hs as <-.
    + exists sf. split; [|apply hrs_le_refl]. split; [done|]. exact Hc.
    + apply error_none in E. exists sf. split; [|apply hrs_le_refl]. split; [done|]. right; left.
      split; [done|]. exists c. split; [apply saving_start|]. split; [done|].
      destruct Hc as [(_ & _ & Ha)|[(_ & c' & Hsv & _)|(_ & w & ? & _)]]; [|destruct Hsv as (_ & ? & _); done|done].
      destruct Ha as [Ha _]. rewrite Ha. exact E.
  - destruct todo as [|x t]; [discriminate|]. injection Hs as <-.
    destruct Hc as [(? & _)|[( -> & c & Hsv & Hr & Hlt)|(? & _)]]; [done| |done].
    exists sf. split; [|apply hrs_le_refl]. split; [done|].
    apply saving_step in Hsv as [[Hx Hsv]|(-> & -> & E1 & E2 & E3)].
    + right; left. split; [destruct x; done|]. exists c. split; [|done]. apply Hsv.
    + right; right. split; [done|]. exists new_writer. split; [done|]. split; [apply reads_new|].
      simpl. rewrite E1. done.
  - destruct todo as [|x t]; [|discriminate]. injection Hs as <-.
    exists sf. split; [|apply hrs_le_refl]. split; [done|]. simpl.
    destruct Hc as [(_ & Hw & Ha)|[(_ & c & (_ & ? & _) & _)|(_ & w & Hw & Hrd & Hr & Hlt)]]; [|done|].
    + left. done.
    + right; right. split; [done|]. exists w. done.
  - destruct (ws !! i) as [w|] eqn:Ei; [|discriminate].
    destruct (read_field m w) as [w'|] eqn:Er; [|discriminate]. injection Hs as <-.
    destruct Hc as [(_ & -> & _)|[( -> & _)|( -> & w0 & -> & Hrd & Hr & Hlt)]];
      [discriminate..|].
    apply list_lookup_single in Ei as [-> ->].
    exists sf. split; [|apply hrs_le_refl]. split; [done|]. right; right. split; [done|].
    exists w'. split; [done|]. split; [|done]. eapply reads_step; eauto. apply agree_refl.
  - destruct (ws !! i) as [w|] eqn:Ei; [|discriminate].
    destruct (bool_decide (w_pc w = 6%nat)) eqn:Epc; [|discriminate]. injection Hs as <-.
    apply bool_decide_eq_true in Epc.
    destruct Hc as [(_ & -> & _)|[( -> & _)|( -> & w0 & -> & Hrd & Hr & Hlt)]];
      [discriminate..|].
    apply list_lookup_single in Ei as [-> ->].
    destruct (reads_done w0 m Epc Hrd Hr) as (s & Hload & Ha).
    exists s. split.
    + split; [exact Hload|]. left. done.
    + left. destruct Ha as [-> _]. exact Hlt.
  - rewrite Hl in Hs. injection Hs as <-.
    exists sf. split; [|apply hrs_le_refl]. split; [done|]. left. done.
Qed.

Lemma seq_run p l p' sf :
  drun p l p' -> seq_inv p sf -> sequential p l -> ops_in_range l ->
  exists sf', seq_inv p' sf' /\ hrs_le (ss_hrs sf) (ss_hrs sf').
Proof.
  intros Hr. revert sf. induction Hr as [p|p op p1 l p2 Hs Hr IH]; intros sf Hi Hsq Hrg.
  - exists sf. split; [done|apply hrs_le_refl].
  - destruct (seq_step p op p1 sf Hi Hs) as (sf1 & Hi1 & Hle).
    { intros c ->. split; [apply (Hsq [] c l p); [done|constructor]|].
      apply Hrg. apply elem_of_list_here. }
    destruct (IH sf1 Hi1) as (sf' & Hi' & Hle').
    + intros l1 c l2 p' -> Hd. apply (Hsq (op :: l1) c l2 p'); [done|]. econstructor; eauto.
    + intros c Hc. apply Hrg. apply elem_of_list_further, Hc.
    + exists sf'. split; [done|]. eapply hrs_le_trans; eauto.
Qed.

Lemma settled_seq p : settled p -> exists sf, seq_inv p sf.
Proof. intros (H1 & H2 & s & Hs & Ha). exists s. split; [done|]. left. done. Qed.

Lemma sequential_app p l1 l2 p1 :
  sequential p (l1 ++ l2) -> drun p l1 p1 -> sequential p l1 /\ sequential p1 l2.
Proof.
  intros H Hr. split.
  - intros a c b q -> Hq. apply (H a c (b ++ l2) q); [rewrite <- app_assoc; done|done].
  - intros a c b q -> Hq. apply (H (l1 ++ a) c b q); [rewrite <- app_assoc; done|].
    apply drun_app. eauto.
Qed.

Lemma file_monotone p l1 p1 l2 p2 :
  settled p -> drun p l1 p1 -> drun p1 l2 p2 -> sequential p (l1 ++ l2) -> ops_in_range (l1 ++ l2) ->
  (exists s1 s2, load (pr_file p1) = Some s1 /\ load (pr_file p2) = Some s2 /\
     hrs_le (ss_hrs s1) (ss_hrs s2)) /\
  (pr_todo p2 = [] -> pr_ws p2 = [] -> settled p2).
Proof.
  intros Hset Hr1 Hr2 Hsq Hrg. destruct (settled_seq p Hset) as [sf Hi].
  destruct (sequential_app _ _ _ _ Hsq Hr1) as [Hsq1 Hsq2].
  destruct (seq_run p l1 p1 sf Hr1 Hi Hsq1) as (s1 & Hi1 & _).
  { intros c Hc. apply Hrg, elem_of_app. auto. }
  destruct (seq_run p1 l2 p2 s1 Hr2 Hi1 Hsq2) as (s2 & Hi2 & Hle).
  { intros c Hc. apply Hrg, elem_of_app. auto. }
  split.
  - exists s1, s2. split; [apply Hi1|]. split; [apply Hi2|exact Hle].
  - intros Ht Hw. split; [done|]. split; [done|]. exists s2. split; [apply Hi2|].
    destruct Hi2 as [_ [(_ & _ & Ha)|[(_ & c & (_ & ? & _) & _)|(_ & w & ? & _)]]]; [done|done|congruence].
Qed.

(** *** C38: no torn reads *)

(** [p0 l] fixes the history, [p] is the current state *)
Definition torn_inv (p0 : proc) (l : list dop) (s0 : sign_state) (p : proc) : Prop :=
  (exists sf m, load (pr_file p) = Some sf /\ held p0 l m /\ agree sf m /\
     hrs_le (ss_hrs s0) (ss_hrs sf) /\ hrs_le (ss_hrs sf) (ss_hrs (finish p)) /\
     (pr_todo p = [] -> hrs_le (ss_hrs sf) (ss_hrs (pr_mem p)))) /\
  (pr_todo p = [] -> hrs_in_range (ss_hrs (pr_mem p)) /\ hrs_le (ss_hrs s0) (ss_hrs (pr_mem p))) /\
  (pr_todo p <> [] -> exists c, saving p c /\ hrs_in_range (c_hrs c) /\ hrs_le (ss_hrs s0) (c_hrs c)) /\
  Forall (fun w =>
     w_pc w = 0%nat \/
     (pr_todo p = [] /\ reads w (pr_mem p) /\ w_pc w <> 6%nat) \/
     (w_pc w = 6%nat /\ exists m, held p0 l m /\ reads w m /\ hrs_in_range (ss_hrs m) /\
        hrs_le (ss_hrs s0) (ss_hrs m) /\ hrs_le (ss_hrs m) (ss_hrs (finish p)))) (pr_ws p).

Lemma held_mono p l l' m : held p l m -> held p (l ++ l') m.
Proof.
  intros (a & b & q & -> & H). exists a, (b ++ l'), q. split; [rewrite app_assoc; done|done].
Qed.
Lemma held_now p l q : drun p l q -> pr_todo q = [] -> held p l (pr_mem q).
Proof. intros H Ht. exists l, [], q. rewrite app_nil_r. done. Qed.

Lemma reads_zero w m : w_pc w = 0%nat -> reads w m.
Proof. intros E. unfold reads. rewrite E. repeat split; lia. Qed.

Lemma read_field_pc s w w' : read_field s w = Some w' -> w_pc w' = S (w_pc w) /\ (w_pc w < 6)%nat.
Proof.
  destruct w as [pc f]. unfold read_field. simpl.
  do 6 (destruct pc as [|pc]; [intros [= <-]; simpl; lia|]). discriminate.
Qed.

Lemma torn_step p0 l s0 p op p' :
  drun p0 l p -> torn_inv p0 l s0 p -> dstep p op = Some p' ->
  match op with
  | DSave _ | DStore => Forall (fun w => w_pc w = 0%nat \/ w_pc w = 6%nat) (pr_ws p)
  | DRead _ => pr_todo p = []
  | _ => True
  end ->
  (forall c, op = DSave c -> hrs_in_range (c_hrs c)) ->
  torn_inv p0 (l ++ [op]) s0 p'.
Proof.
  intros Hrun ((sf & mf & Hload & Hheld & Hag & Hlo & Hhi & Hhi') & Hmem & Hsv & Hws) Hs Hut Hrg.
  destruct p as [m todo f ws]. simpl in *.
  destruct op as [c| |o|i|i|]; simpl in Hs.
  - destruct todo as [|x t]; [|discriminate].
    destruct (Hmem eq_refl) as [Hmr Hm0].
    destruct (error_if_less_or_equal m (c_hrs c)) eqn:E; injection Hs as <-.
    + split; [|split; [|split]]; [|done|done|].
      * exists sf, mf. split; [done|]. split; [apply held_mono, Hheld|]. done.
      * eapply List.Forall_impl; [|exact Hws]. intros w [H|[H|(H & m' & H1 & H2)]]; [auto..|].
        right; right. split; [done|]. exists m'. split; [apply held_mono, H1|exact H2].
    + apply error_none in E.
      assert (Hfin : forall q ws', ss_hrs (finish (Proc q (stores c) f ws')) = c_hrs c).
      { intros q ws'. destruct c as [[h r st] sg sb]. reflexivity. }
      split; [|split; [|split]].
      * exists sf, mf. split; [done|]. split; [apply held_mono, Hheld|]. split; [done|].
        split; [done|]. split; [rewrite Hfin; left; eapply hrs_le_lt_trans; eauto|].
        discriminate.
      * discriminate.
      * intros _. exists c. split; [apply saving_start|]. split; [apply Hrg; done|].
        left. eapply hrs_le_lt_trans; [|exact E]. exact Hm0.
      * cbn [pr_ws pr_todo]. apply List.Forall_forall. intros w Hin.
        rewrite List.Forall_forall in Hws, Hut. specialize (Hws w Hin). specialize (Hut w Hin).
        destruct Hut as [H0|H6]; [auto|]. right; right. split; [done|].
        destruct Hws as [?|[(_ & _ & ?)|(_ & m' & H1 & H2 & H3 & H4 & H5)]]; [lia|lia|].
        exists m'. split; [apply held_mono, H1|]. split; [done|]. split; [done|]. split; [done|].
        rewrite Hfin. left. eapply hrs_le_lt_trans; [exact H5|exact E].
  - destruct todo as [|x t]; [discriminate|]. injection Hs as <-.
    destruct (Hsv ltac:(done)) as (c & Hc & Hcr & Hc0).
    assert (Hfc : ss_hrs (finish (Proc m (x :: t) f ws)) = c_hrs c) by apply Hc.
    apply saving_step in Hc as [[Hx Hc]|(-> & -> & E1 & E2 & E3)].
    + set (ws' := match x with StGo => new_writer :: ws | _ => ws end).
      assert (ws' = ws) as -> by (destruct x; done).
      pose proof (Hc f ws) as Hc'.
      assert (Ht : t <> []) by (destruct Hc' as (_ & H & _); exact H).
      split; [|split; [|split]].
      * exists sf, mf. split; [done|]. split; [apply held_mono, Hheld|]. split; [done|].
        split; [done|]. split; [exact Hhi|]. simpl. done.
      * simpl. done.
      * intros _. exists c. done.
      * simpl. apply List.Forall_forall. intros w Hin.
        rewrite List.Forall_forall in Hws, Hut. specialize (Hws w Hin). specialize (Hut w Hin).
        destruct Hut as [H0|H6]; [auto|]. right; right. split; [done|].
        destruct Hws as [?|[(? & _)|(_ & m' & H1 & H2)]]; [lia|done|].
        exists m'. split; [apply held_mono, H1|]. exact H2.
    + assert (Hfm : ss_hrs (finish (Proc m [StGo] f ws)) = ss_hrs m) by reflexivity.
      split; [|split; [|split]].
      * exists sf, mf. split; [done|]. split; [apply held_mono, Hheld|]. split; [done|].
        split; [done|]. split; [exact Hhi|]. intros _. exact Hhi.
      * intros _. simpl. rewrite E1. done.
      * simpl. done.
      * simpl. constructor; [left; done|]. apply List.Forall_forall. intros w Hin.
        rewrite List.Forall_forall in Hws, Hut. specialize (Hws w Hin). specialize (Hut w Hin).
        destruct Hut as [H0|H6]; [auto|]. right; right. split; [done|].
        destruct Hws as [?|[(? & _)|(_ & m' & H1 & H2)]]; [lia|done|].
        exists m'. split; [apply held_mono, H1|]. exact H2.
  - destruct todo as [|x t]; [|discriminate]. injection Hs as <-.
    split; [|split; [|split]].
    + exists sf, mf. split; [done|]. split; [apply held_mono, Hheld|]. done.
    + exact Hmem.
    + simpl. done.
    + simpl. eapply List.Forall_impl; [|exact Hws].
      intros w [H|[(H1 & H2 & H3)|(H & m' & H1 & H2)]]; [auto| |].
      * right; left. split; [done|]. split; [|done]. eapply reads_agree; [exact H2|]. done.
      * right; right. split; [done|]. exists m'. split; [apply held_mono, H1|exact H2].
  - destruct (ws !! i) as [w|] eqn:Ei; [|discriminate].
    destruct (read_field m w) as [w'|] eqn:Er; [|discriminate]. injection Hs as <-. subst todo.
    destruct (Hmem eq_refl) as [Hmr Hm0].
    split; [|split; [|split]].
    + exists sf, mf. split; [done|]. split; [apply held_mono, Hheld|]. done.
    + exact Hmem.
    + simpl. done.
    + simpl.
      assert (Hw : w_pc w = 0%nat \/ reads w m).
      { pose proof (Forall_lookup_1 _ _ _ _ Hws Ei) as [H|[(_ & H & _)|(H & _)]]; [auto..|].
        apply read_field_pc in Er. lia. }
      assert (Hrd : reads w' m).
      { eapply reads_step; [|apply agree_refl|exact Er]. destruct Hw as [Hw|Hw]; [apply reads_zero, Hw|exact Hw]. }
      assert (Hold : Forall (fun w => w_pc w = 0%nat \/
         ([] = @nil store /\ reads w m /\ w_pc w <> 6%nat) \/
         (w_pc w = 6%nat /\ exists m0, held p0 (l ++ [DRead i]) m0 /\ reads w m0 /\
            hrs_in_range (ss_hrs m0) /\ hrs_le (ss_hrs s0) (ss_hrs m0) /\
            hrs_le (ss_hrs m0) (ss_hrs m))) ws).
      { eapply List.Forall_impl; [|exact Hws]. intros x [H|[H|(H & m' & H1 & H2)]]; [auto..|].
        right; right. split; [done|]. exists m'. split; [apply held_mono, H1|exact H2]. }
      apply Forall_insert; [exact Hold|].
      destruct (decide (w_pc w' = 6%nat)) as [E6|E6]; [|right; left; done].
      right; right. split; [done|]. exists m. split.
      { apply held_mono. apply (held_now p0 l (Proc m [] f ws)); [exact Hrun|done]. }
      split; [done|]. split; [done|]. split; [done|]. apply hrs_le_refl.
  - destruct (ws !! i) as [w|] eqn:Ei; [|discriminate].
    destruct (bool_decide (w_pc w = 6%nat)) eqn:Epc; [|discriminate]. injection Hs as <-.
    apply bool_decide_eq_true in Epc.
    pose proof (Forall_lookup_1 _ _ _ _ Hws Ei) as Hw. simpl in Hw.
    destruct Hw as [?|[(_ & _ & ?)|(_ & m' & H1 & H2 & H3 & H4 & H5)]]; [lia|lia|].
    destruct (reads_done w m' Epc H2 H3) as (s & Hl & Ha).
    assert (Hsm : ss_hrs s = ss_hrs m') by apply Ha.
    split; [|split; [|split]].
    + exists s, m'. split; [exact Hl|]. split; [apply held_mono, H1|]. split; [done|].
      rewrite Hsm. split; [done|]. split; [exact H5|]. simpl. intros ->. exact H5.
    + exact Hmem.
    + intros Ht. destruct (Hsv Ht) as (c & Hc & Hr). exists c. split; [exact Hc|done].
    + simpl. apply Forall_delete. eapply List.Forall_impl; [|exact Hws].
      intros x [H|[H|(H & mm & Hh & H')]]; [auto..|].
      right; right. split; [done|]. exists mm. split; [apply held_mono, Hh|exact H'].
  - rewrite Hload in Hs. injection Hs as <-.
    split; [|split; [|split]].
    + exists sf, mf. split; [done|]. split; [apply held_mono, Hheld|]. split; [done|].
      split; [done|]. split; [apply hrs_le_refl|]. intros _. apply hrs_le_refl.
    + intros _. simpl. split; [eapply load_range, Hload|done].
    + simpl. done.
    + constructor.
Qed.

Lemma torn_run p0 s0 l p :
  settled p0 -> load (pr_file p0) = Some s0 -> drun p0 l p -> untorn p0 l -> ops_in_range l ->
  torn_inv p0 l s0 p.
Proof.
  intros (Ht & Hw & s & Hs & Ha) Hl0 Hr Hu Hrg.
  assert (s = s0) as -> by congruence.
  revert p Hr Hu Hrg. induction l as [|op l IH] using rev_ind; intros p Hr Hu Hrg.
  - inversion Hr; subst. destruct p as [m todo f ws]. simpl in *. subst todo ws.
    assert (Hm : ss_hrs s0 = ss_hrs m) by apply Ha.
    split; [|split; [|split]].
    + exists s0, m. split; [done|]. split; [apply (held_now _ _ (Proc m [] f [])); [constructor|done]|].
      split; [done|]. split; [apply hrs_le_refl|]. simpl. rewrite Hm.
      split; [apply hrs_le_refl|]. intros _. apply hrs_le_refl.
    + intros _. simpl. rewrite <- Hm. split; [eapply load_range, Hl0|apply hrs_le_refl].
    + done.
    + constructor.
  - apply drun_app in Hr as (q & Hq & Hop). apply drun_one in Hop.
    eapply torn_step; [exact Hq| |exact Hop| |].
    + apply IH; [exact Hq| |].
      * intros l1 o l2 q' -> Hq'. apply (Hu l1 o (l2 ++ [op]) q'); [rewrite <- app_assoc; done|done].
      * intros c Hc. apply Hrg, elem_of_app. auto.
    + apply (Hu l op [] q); done.
    + intros c ->. apply Hrg, elem_of_app. right. apply elem_of_list_singleton. done.
Qed.

Lemma file_bounds p0 s0 l p :
  settled p0 -> load (pr_file p0) = Some s0 -> drun p0 l p -> untorn p0 l -> ops_in_range l ->
  exists sf m, load (pr_file p) = Some sf /\ held p0 l m /\ agree sf m /\
    hrs_le (ss_hrs s0) (ss_hrs sf) /\ (pr_todo p = [] -> hrs_le (ss_hrs sf) (ss_hrs (pr_mem p))).
Proof.
  intros H1 H2 H3 H4 H5. destruct (torn_run p0 s0 l p H1 H2 H3 H4 H5) as [(sf & m & ? & ? & ? & ? & _ & ?) _].
  exists sf, m. done.
Qed.

(** ** Cosigner with restarts (C36) *)

Lemma restart_pairwise C cfg n ops l n' :
  cnrun C cfg n ops l n' -> restarts_saved C cfg n ops ->
  forall R : bytes -> Prop,
    (forall x, R x -> vouched (cn_cos n) x) ->
    (forall x y k, R x -> R y -> bytes_for x k -> bytes_for y k -> same_message_but_time x y) ->
    forall x y k, (R x \/ released l x) -> (R y \/ released l y) ->
      bytes_for x k -> bytes_for y k -> same_message_but_time x y.
Proof.
  induction 1 as [n|n op n1 l1 ops l n2 Hs Hr IH]; intros Hsv R Hv Hp x y k Hx Hy Hkx Hky.
  - eapply Hp; eauto; [destruct Hx as [?|(? & ? & H)]; [done|inversion H]|
      destruct Hy as [?|(? & ? & H)]; [done|inversion H]].
  - assert (Hsv' : restarts_saved C cfg n1 ops).
    { intros o1 o2 la na s -> Hq Hl. eapply (Hsv (op :: o1) o2 (l1 ++ la) na s); [done| |done].
      econstructor; eauto. }
    assert (Hv1 : (forall z, R z -> vouched (cn_cos n1) z) /\
                  (forall z, released l1 z -> vouched (cn_cos n1) z /\
                             bytes_for z (ss_hrs (cs_lss (cn_cos n1))))).
    { destruct op as [o|i|i|]; simpl in Hs.
      - destruct (cstep C cfg (cn_cos n) o) as [[st ob]|] eqn:E; [|discriminate].
        injection Hs as <- <-. simpl. pose proof (cstep_vouched _ _ _ _ _ _ E) as [E1 E2].
        split; [intros z Hz; apply E1, Hv, Hz|].
        intros z [[r ->]|(? & ? & H)]%released_cons; [|inversion H].
        split; [eapply E2; done|].
        apply cstep_share in E as [_ E]. apply sign_spec in E. apply sign_case_level in E. apply E.
      - destruct (cn_ws n !! i) as [w|]; [|discriminate].
        destruct (read_field (cs_lss (cn_cos n)) w); [|discriminate]. injection Hs as <- <-.
        split; [done|]. intros z (? & ? & H). inversion H.
      - destruct (cn_ws n !! i) as [w|]; [|discriminate].
        destruct (bool_decide (w_pc w = 6%nat)); [|discriminate]. injection Hs as <- <-.
        split; [done|]. intros z (? & ? & H). inversion H.
      - destruct (load (cn_file n)) as [s|] eqn:El; [|discriminate]. injection Hs as <- <-.
        split; [|intros z (? & ? & H); inversion H].
        intros z Hz. eapply vouched_mono; [apply Hv, Hz|]. simpl.
        destruct (Hsv [] ops [] n s) as [H|[H1 H2]]; [done|constructor|done|left; done|right; done]. }
    destruct Hv1 as [Hv1 Hv2].
    set (R1 z := R z \/ released l1 z).
    assert (Hrel : forall z, released (l1 ++ l) z -> released l1 z \/ released l z).
    { intros z (o & r & H). apply elem_of_app in H as [H|H]; [left|right]; exists o, r; done. }
    apply (IH Hsv' R1) with (k := k); [| |destruct Hx as [?|Hx]; [left; left; done|
       destruct (Hrel _ Hx); [left; right; done|right; done]]|
       destruct Hy as [?|Hy]; [left; left; done|
       destruct (Hrel _ Hy); [left; right; done|right; done]]|done|done].
    + intros z [Hz|Hz]; [apply Hv1, Hz|apply Hv2, Hz].
    + (* pairs: an earlier share at the level just signed *)
      assert (Hnow : forall a b q, released l1 a -> R1 b -> bytes_for a q -> bytes_for b q ->
                same_message_but_time a b /\ same_message_but_time b a).
      { intros a b q Ha Hb Hqa Hqb. destruct (Hv2 _ Ha) as [Va La].
        assert (q = ss_hrs (cs_lss (cn_cos n1))) as -> by eauto using bytes_for_fun.
        assert (Vb : vouched (cn_cos n1) b) by (destruct Hb as [Hb|Hb]; [apply Hv1, Hb|apply Hv2, Hb]).
        destruct Va as (ka & Hka & _ & Va). destruct Vb as (kb & Hkb & _ & Vb).
        assert (ka = ss_hrs (cs_lss (cn_cos n1))) as -> by eauto using bytes_for_fun.
        assert (kb = ss_hrs (cs_lss (cn_cos n1))) as -> by eauto using bytes_for_fun.
        destruct (Va eq_refl) as (la & Hla & Ca). destruct (Vb eq_refl) as (lb & Hlb & Cb).
        assert (lb = la) as -> by congruence.
        split; eapply compat_same; eauto. }
      intros a b q [Ha|Ha] [Hb|Hb] Hqa Hqb.
      * eapply Hp; eauto.
      * eapply (Hnow b a); eauto. left. done.
      * eapply (Hnow a b); eauto. left. done.
      * eapply (Hnow a b); eauto. right. done.
Qed.

Lemma restart_no_conflict C cfg n ops l n' a b k :
  cnrun C cfg n ops l n' -> restarts_saved C cfg n ops ->
  released l a -> released l b -> bytes_for a k -> bytes_for b k -> same_message_but_time a b.
Proof.
  intros Hr Hs Ha Hb Hka Hkb.
  eapply (restart_pairwise C cfg n ops l n' Hr Hs (fun _ => False)) with (k := k); eauto; done.
Qed.

(** ** Cut-off files *)
Lemma cut_marshal r n : (n < length (marshal_state r))%nat ->
  parse_json (take n (marshal_state r)) = None.
Proof.
  intros Hn. unfold marshal_state in *. apply cut_object_indent; [|exact Hn].
  assert (Hl : forall s, forallb (fun b => negb (bool_decide (b = "}"%byte))) (lit s) = true -> no_brace (lit s)).
  { intros s Hs Hin. rewrite forallb_forall in Hs. apply Hs in Hin. discriminate Hin. }
  assert (Hb : forall o, no_brace (b64_text o)).
  { intros [b|]; [apply no_brace_quote, no_brace_b64|apply Hl; reflexivity]. }
  apply Forall_app. split; [|apply Forall_app; split].
  - repeat apply List.Forall_cons; try apply List.Forall_nil; (split; [apply Hl; reflexivity|]); cbn [snd].
    + apply no_brace_quote, no_brace_int.
    + apply no_brace_quote, no_brace_int.
    + apply no_brace_int.
    + apply Hb.
  - destruct (fr_sig r); repeat constructor; [apply Hl; reflexivity|apply Hb].
  - destruct (fr_sb r) as [b|]; repeat constructor; [apply Hl; reflexivity|].
    apply no_brace_quote, no_brace_hex.
Qed.

Lemma load_cut r n : (n < length (marshal_state r))%nat -> load (Some (take n (marshal_state r))) = None.
Proof. intros Hn. unfold load, unmarshal_state. rewrite cut_marshal by exact Hn. reflexivity. Qed.
