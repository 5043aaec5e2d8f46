(** Proofs for C80-C82. *)
From Coq Require Import Strings.String.
From Verif Require Import GoBase Canonical SignState Spec SignStateProofs Crypto LocalCosigner Json Disk DiskSpec DiskProofs Validator
  Config ConfigSpec ConfigProofs ConfigProofs2 Privval KeyFile KeyFileSpec KeyFileProofs KeyShares System Machine MachineSpec MachineProofs.
Local Open Scope Z_scope.

Lemma put_state_lookup m p q f : ma_state (put_state m p f) !! q = if decide (q = p) then f else ma_state m !! q.
Proof.
  unfold put_state. cbn [ma_state]. destruct f as [b|]; destruct (decide (q = p)) as [-> |Hne].
  - apply lookup_insert.
  - by apply lookup_insert_ne.
  - apply lookup_delete.
  - by apply lookup_delete_ne.
Qed.
Lemma put_state_yaml m p f : ma_yaml (put_state m p f) = ma_yaml m.
Proof. done. Qed.

Section Machine.
Context (L : Lib) (KL : KeyLib (bytes * bytes) bytes) (dflt : bytes).

(** ** C81 *)
Lemma init_nodes_iff a : (exists l, nodes_from_arg L a = inr l) <-> last_ok L (split ","%byte a).
Proof.
  rewrite <- nodes_iff. unfold nodes_from_arg. cbv zeta. destruct (validate_nodes L (split _ a)); split; [intros [? ?]; done|done|done|eauto].
Qed.
Lemma nodes_panic c a : run_cmd L c (NodesAdd a) <> Panic /\ run_cmd L c (NodesRemove a) <> Panic.
Proof.
  simpl. unfold nodes_add, nodes_remove. destruct (nodes_from_arg L a); [done|]. split.
  - destruct (diff_set _ _); [done|]. cbv zeta. by destruct (validate_nodes L _).
  - destruct (diff_set _ _); [done|]. cbv zeta. by destruct (validate_nodes L _).
Qed.
Lemma nil_edit_iff cmd : nil_edit L cmd = Panic <-> args_ok L cmd.
Proof.
  destruct cmd as [a|a|a|a|a]; simpl.
  - rewrite <- init_nodes_iff. destruct (nodes_from_arg L a) as [e|l]; split; [done|intros [? ?]; done|eauto|done].
  - rewrite <- init_nodes_iff. destruct (nodes_from_arg L a) as [e|l]; split; [done|intros [? ?]; done|eauto|done].
  - split.
    + destruct (peers_from_flag a) as [e|l] eqn:E; [done|]. intros _. exists l. by apply peers_from_iff.
    + intros [l Hl]. apply peers_from_iff in Hl. by rewrite Hl.
  - done.
  - split.
    + destruct (go_atoi a) as [z|] eqn:E; [|done]. intros _. exists z. by apply atoi_iff.
    + intros [z Hz]. apply atoi_iff in Hz. by rewrite Hz.
Qed.
Lemma nil_edit_val cmd m : nil_edit L cmd <> Val m.
Proof. destruct cmd as [a|a|a|a|a]; simpl; repeat case_match; done. Qed.
Lemma run_cmd_panic c cmd : run_cmd L c cmd = Panic <-> args_ok L cmd /\ cf_cosigner c = None /\ for_cosigners cmd.
Proof.
  destruct cmd as [a|a|a|a|a].
  - split; [intros H; by apply (proj1 (nodes_panic c a)) in H|intros (_ & _ & [])].
  - split; [intros H; by apply (proj2 (nodes_panic c a)) in H|intros (_ & _ & [])].
  - simpl. unfold peers_add. split.
    + destruct (peers_from_flag a) as [e|l] eqn:E; [done|]. destruct (cf_cosigner c) as [s|].
      * destruct (diff_set _ _); [done|]. cbv zeta. by destruct (validate_peers _ _).
      * intros _. split; [exists l; by apply peers_from_iff|done].
    + intros ([l Hl] & -> & _). apply peers_from_iff in Hl. by rewrite Hl.
  - simpl. unfold peers_remove. split.
    + destruct (cf_cosigner c) as [s|]; [|done]. destruct (listed_peers _ _); [done|].
      destruct (diff_set _ _); [done|]. by destruct (validate_peers _ _).
    + intros (_ & -> & _). done.
  - simpl. unfold set_shares. split.
    + destruct (go_atoi a) as [z|] eqn:E; [|done]. destruct (cf_cosigner c) as [s|].
      * by destruct (validate_peers _ _).
      * intros _. split; [exists z; by apply atoi_iff|done].
    + intros ([z Hz] & -> & _). apply atoi_iff in Hz. by rewrite Hz.
Qed.
Lemma kind_iff m flag : flag_kind m flag <> HomeGiven true <-> no_such_home m flag.
Proof.
  unfold flag_kind, no_such_home. destruct flag as [|b l]; [split; [intros _; by left|intros _; discriminate]|].
  case_bool_decide as E.
  - split; [intros H; exfalso; apply H; reflexivity|]. intros [H|H]; [discriminate|exfalso; exact (H E)].
  - split; [intros _; by right|intros _; discriminate].
Qed.

Lemma crash_iff m flag c : crashes L dflt m flag c = true <->
  match c with
  | CInit _ _ _ _ _ => False
  | CEdit cmd => args_ok L cmd /\ (config_at dflt m flag = None \/
      exists y, config_at dflt m flag = Some y /\ cf_cosigner (ya_cfg y) = None /\ for_cosigners cmd)
  | CChain _ => config_at dflt m flag = None
  | CStateSet running _ _ _ => running = false /\ no_such_home m flag /\ config_at dflt m flag = None
  | CStateShow => no_such_home m flag /\ config_at dflt m flag = None
  end.
Proof.
  destruct c as [o chain nodes cos key|cmd|new|r a d1 d2|]; simpl.
  - unfold init_cmd. destruct (init_nodes L nodes); [done|]. destruct (_ && _); [done|]. by destruct (config_init L chain nodes cos).
  - unfold edit_cmd. destruct (config_at dflt m flag) as [y|] eqn:E.
    + destruct (run_cmd L (ya_cfg y) cmd) as [c'|e|] eqn:Er.
      * split; [done|]. intros (Ha & [?|(y' & [= <-] & Hs & Hf)]); [done|].
        assert (run_cmd L (ya_cfg y) cmd = Panic) by (by apply run_cmd_panic). congruence.
      * split; [done|]. intros (Ha & [?|(y' & [= <-] & Hs & Hf)]); [done|].
        assert (run_cmd L (ya_cfg y) cmd = Panic) by (by apply run_cmd_panic). congruence.
      * apply run_cmd_panic in Er as (Ha & Hs & Hf). split; [|done]. intros _. split; [done|]. right. by exists y.
    + destruct (nil_edit L cmd) eqn:En.
      * split; [done|]. intros [Ha _]. apply nil_edit_iff in Ha. congruence.
      * split; [done|]. intros [Ha _]. apply nil_edit_iff in Ha. congruence.
      * apply nil_edit_iff in En. split; [|done]. intros _. split; [done|]. by left.
  - unfold chain_cmd. destruct (config_at dflt m flag) as [y|]; [|done]. split; [|done].
    destruct (move _ _ _) as [m1|]; [|done]. by destruct (move m1 _ _).
  - unfold state_set_cmd. destruct r; [split; [done|intros (? & _); done]|].
    pose proof (kind_iff m flag) as Hk. destruct (flag_kind m flag) as [|[]] eqn:Ek.
    + assert (Hn : no_such_home m flag) by (by apply Hk). destruct (config_at dflt m flag) as [y|]; [|done].
      split; [|intros (_ & _ & ?); done]. destruct (state_set _ _ _ _ _) as [|[? ?]]; done.
    + split; [done|]. intros (_ & Hn & _). apply Hk in Hn. done.
    + assert (Hn : no_such_home m flag) by (by apply Hk). destruct (config_at dflt m flag) as [y|]; [|done].
      split; [|intros (_ & _ & ?); done]. destruct (state_set _ _ _ _ _) as [|[? ?]]; done.
  - unfold state_show_cmd. pose proof (kind_iff m flag) as Hk. destruct (flag_kind m flag) as [|[]] eqn:Ek.
    + assert (Hn : no_such_home m flag) by (by apply Hk). destruct (config_at dflt m flag) as [y|]; [|done].
      split; [|intros (_ & ?); done]. repeat (case_match; try done).
    + split; [done|]. intros (Hn & _). apply Hk in Hn. done.
    + assert (Hn : no_such_home m flag) by (by apply Hk). destruct (config_at dflt m flag) as [y|]; [|done].
      split; [|intros (_ & ?); done]. repeat (case_match; try done).
Qed.
Lemma crash_nothing m flag c : crashes L dflt m flag c = true -> after_command L dflt m flag c = m.
Proof.
  destruct c as [o chain nodes cos key|cmd|new|r a d1 d2|]; simpl; try done.
  - by destruct (init_cmd _ _ _ _ _ _ _ _ _).
  - by destruct (edit_cmd _ _ _ _ _).
  - unfold chain_cmd. destruct (config_at dflt m flag) as [y|]; [|done].
    destruct (move _ _ _) as [m1|]; [|done]. by destruct (move m1 _ _).
  - by destruct (state_set_cmd _ _ _ _ _ _ _).
Qed.

(** ** C82 *)
Lemma lowered_refl m p : not_lowered m m p.
Proof. intros k Hk. exists k. split; [done|]. by right. Qed.
Lemma lowered_trans m1 m2 m3 p : not_lowered m1 m2 p -> not_lowered m2 m3 p -> not_lowered m1 m3 p.
Proof.
  intros H1 H2 k Hk. destruct (H1 k Hk) as (k1 & Hk1 & L1). destruct (H2 k1 Hk1) as (k2 & Hk2 & L2).
  exists k2. split; [done|]. by eapply hrs_le_trans.
Qed.
Lemma loc_kept f k : watermark f = Some k -> snd (load_or_create f) = f.
Proof. unfold watermark, load_or_create. by destruct (load f). Qed.
Lemma put_loc m p q : not_lowered m (put_state m p (snd (load_or_create (ma_state m !! p)))) q.
Proof.
  intros k Hk. exists k. split; [|by right]. unfold mark_at in *. rewrite put_state_lookup.
  destruct (decide (q = p)) as [-> |]; [|done]. by rewrite (loc_kept _ k).
Qed.
Lemma put_raise m p q f : (forall k, watermark (ma_state m !! p) = Some k -> exists k', watermark f = Some k' /\ hrs_le k k') ->
  not_lowered m (put_state m p f) q.
Proof.
  intros H k Hk. unfold mark_at in *. rewrite put_state_lookup. destruct (decide (q = p)) as [-> |]; [by apply H|].
  exists k. split; [done|]. by right.
Qed.

Lemma command_keeps m flag c p : ~ is_chain c -> not_lowered m (after_command L dflt m flag c) p.
Proof.
  intros Hc. destruct c as [o chain nodes cos key|cmd|new|r a d1 d2|]; simpl in Hc |- *.
  - unfold init_cmd. destruct (init_nodes L nodes); [apply lowered_refl|]. destruct (_ && _); [apply lowered_refl|].
    destruct (config_init L chain nodes cos) as [e|cf]; [apply lowered_refl|]. cbv zeta.
    set (y := Yaml _ _ _). set (m1 := put_yaml _ _ _).
    assert (H1 : not_lowered m m1 p) by (intros k Hk; exists k; split; [exact Hk|by right]).
    pose proof (put_loc m1 (pv_file y) p) as H2. set (m2 := put_state m1 _ _) in *.
    destruct cos as [f|].
    + eapply lowered_trans; [exact H1|]. eapply lowered_trans; [exact H2|]. apply put_loc.
    + eapply lowered_trans; [exact H1|]. exact H2.
  - unfold edit_cmd. destruct (config_at dflt m flag) as [y|].
    + destruct (run_cmd L (ya_cfg y) cmd); [|apply lowered_refl|apply lowered_refl].
      intros k Hk. exists k. split; [exact Hk|by right].
    + destruct (nil_edit L cmd) eqn:E; [|apply lowered_refl|apply lowered_refl].
      by apply nil_edit_val in E.
  - by destruct Hc.
  - unfold state_set_cmd. destruct r; [apply lowered_refl|].
    assert (Hset : forall y, not_lowered m (match
        match state_set false (flag_kind m flag) (ma_state m !! (home_of dflt flag, pv_path (cf_chain (ya_cfg y))))
                (ma_state m !! (home_of dflt flag, share_path (cf_chain (ya_cfg y)))) a with
        | inl e => Fail (EState e)
        | inr (j1, j2) =>
            Val (put_state (put_state m (home_of dflt flag, pv_path (cf_chain (ya_cfg y)))
                   (after_write (ma_state m !! (home_of dflt flag, pv_path (cf_chain (ya_cfg y)))) j1 d1))
              (home_of dflt flag, share_path (cf_chain (ya_cfg y)))
              (after_write (ma_state (put_state m (home_of dflt flag, pv_path (cf_chain (ya_cfg y)))
                   (after_write (ma_state m !! (home_of dflt flag, pv_path (cf_chain (ya_cfg y)))) j1 d1)) !!
                   (home_of dflt flag, share_path (cf_chain (ya_cfg y)))) j2 d2))
        end with Val m' => m' | _ => m end) p).
    { intros y. destruct (state_set _ _ _ _ _) as [e|[j1 j2]] eqn:E; [apply lowered_refl|].
      destruct (state_set_mono _ _ _ _ _ _ _ d1 d2 E) as (k1 & k1' & k2 & k2' & W1 & W2 & W1' & W2' & L1 & L2).
      assert (Hne : (home_of dflt flag, share_path (cf_chain (ya_cfg y))) <> (home_of dflt flag, pv_path (cf_chain (ya_cfg y)))).
      { intros [= E']. by apply eq_sym, pv_share_ne in E'. }
      eapply lowered_trans; [apply put_raise|apply put_raise].
      - intros k Hk. rewrite W1 in Hk. injection Hk as <-. eauto.
      - rewrite !put_state_lookup. rewrite decide_False by done. intros k Hk. rewrite W2 in Hk. injection Hk as <-. eauto. }
    destruct (flag_kind m flag) as [|[]] eqn:Ek; [|apply lowered_refl|].
    + destruct (config_at dflt m flag) as [y|]; [|apply lowered_refl]. apply Hset.
    + destruct (config_at dflt m flag) as [y|]; [|apply lowered_refl]. apply Hset.
  - apply lowered_refl.
Qed.
Lemma start_keeps m flag r h m' p : start_cmd L KL dflt m flag = Val (r, h, m') -> not_lowered m m' p.
Proof.
  unfold start_cmd. destruct (config_at dflt m flag) as [y|]; [|done]. destruct (validate_cosigner L (ya_cfg y)); [done|].
  destruct (cf_cosigner (ya_cfg y)) as [s|]; [|done]. destruct (load_key KL _) as [fk| |]; [|done|done].
  destruct (load_or_create _) as [pv pvf] eqn:E. destruct (load (_ !! share_file y)) as [sh|]; [|done].
  destruct (running_of s _); [|done]. intros [= _ _ <-].
  assert (pvf = snd (load_or_create (ma_state m !! pv_file y))) as -> by (by rewrite E). apply put_loc.
Qed.
(** what a start uses *)
Lemma start_uses m flag r h m' : start_cmd L KL dflt m flag = Val (r, h, m') ->
  exists y sh, config_at dflt m flag = Some y /\ load (ma_state m !! share_file y) = Some sh /\
    cn_cos (ho_cos h) = new_cosigner sh /\ ho_val h = new_validator (fst (load_or_create (ma_state m !! pv_file y))).
Proof.
  unfold start_cmd. destruct (config_at dflt m flag) as [y|]; [|done]. destruct (validate_cosigner L (ya_cfg y)); [done|].
  destruct (cf_cosigner (ya_cfg y)) as [s|]; [|done]. destruct (load_key KL _) as [fk| |]; [|done|done].
  destruct (load_or_create _) as [pv pvf] eqn:E. destruct (load (_ !! share_file y)) as [sh|] eqn:Es; [|done].
  destruct (running_of s _); [|done]. intros [= _ <- _]. exists y, sh. rewrite E. done.
Qed.

(** chain-id set: either nothing but the first rename, or both states are under the new name *)
Lemma chain_moves m flag new m' y : config_at dflt m flag = Some y -> chain_cmd dflt m flag new = (m', Val tt) ->
  let d := home_of dflt flag in let old := cf_chain (ya_cfg y) in
  ma_state m' !! (d, share_path new) = ma_state m !! (d, share_path old) /\
  ma_state m' !! (d, pv_path new) = ma_state m !! (d, pv_path old) /\
  (new <> old -> ma_state m' !! (d, share_path old) = None /\ ma_state m' !! (d, pv_path old) = None) /\
  (forall p, p ∉ [(d, share_path old); (d, pv_path old); (d, share_path new); (d, pv_path new)] ->
     ma_state m' !! p = ma_state m !! p) /\
  (exists y', config_at dflt m' flag = Some y' /\ cf_chain (ya_cfg y') = new /\ ya_home y' = ya_home y /\ ya_key y' = ya_key y /\
     cf_cosigner (ya_cfg y') = cf_cosigner (ya_cfg y) /\ cf_nodes (ya_cfg y') = cf_nodes (ya_cfg y)) /\
  (forall d', d' <> d -> ma_yaml m' !! d' = ma_yaml m !! d') /\ ma_key m' = ma_key m.
Proof.
  intros Hy H d old. unfold chain_cmd in H. rewrite Hy in H. fold d old in H. unfold move in H at 1.
  destruct (ma_state m !! (d, pv_path old)) as [b1|] eqn:E1; [|done].
  set (m1 := put_state _ _ (Some b1)) in H. unfold move in H.
  destruct (ma_state m1 !! (d, share_path old)) as [b2|] eqn:E2; [|done]. injection H as <-. cbn [put_yaml ma_state].
  assert (Hx : forall a b, (d, pv_path a) <> (d, share_path b)) by (intros a b [= E]; by apply pv_share_ne in E).
  assert (Hy' : forall a b, (d, share_path a) <> (d, pv_path b)) by (intros a b [= E]; by apply eq_sym, pv_share_ne in E).
  unfold m1 in *. rewrite !put_state_lookup in *.
  rewrite !(decide_False (P := (d, share_path _) = (d, pv_path _))) in * by apply Hy'.
  split; [|split; [|split; [|split; [|split; [|split]]]]].
  - rewrite decide_True by done. done.
  - rewrite !(decide_False (P := (d, pv_path _) = (d, share_path _))) by apply Hx. by rewrite decide_True by done.
  - intros Hne. rewrite !(decide_False (P := (d, pv_path _) = (d, share_path _))) by apply Hx. split.
    + rewrite decide_False by (intros [= E]; apply share_path_inj in E; congruence). by rewrite decide_True by done.
    + rewrite decide_False by (intros [= E]; apply pv_path_inj in E; congruence). by rewrite decide_True by done.
  - intros p Hp. rewrite !put_state_lookup.
    repeat (apply not_elem_of_cons in Hp as [? Hp]). by rewrite !decide_False by done.
  - eexists. split; [unfold config_at; cbn [put_yaml ma_yaml]; fold d; by rewrite lookup_insert|]. done.
  - intros d' Hd'. cbn [put_yaml ma_yaml]. by rewrite lookup_insert_ne by done.
  - done.
Qed.

(** ** C80 *)
(** every config.yaml names its own directory *)
Lemma home_command m flag c : (forall d y, ma_yaml m !! d = Some (Some y) -> ya_home y = d) ->
  forall d y, ma_yaml (after_command L dflt m flag c) !! d = Some (Some y) -> ya_home y = d.
Proof.
  intros H. assert (Hput : forall m0 y0, ma_yaml m0 = ma_yaml m -> ya_home y0 = home_of dflt flag ->
    forall d y, ma_yaml (put_yaml m0 (home_of dflt flag) y0) !! d = Some (Some y) -> ya_home y = d).
  { intros m0 y0 E0 Ey d y. cbn [put_yaml ma_yaml]. rewrite E0. destruct (decide (d = home_of dflt flag)) as [-> |Hne].
    - rewrite lookup_insert. intros [= <-]. done.
    - rewrite lookup_insert_ne by done. apply H. }
  destruct c as [o chain nodes cos key|cmd|new|r a d1 d2|]; simpl.
  - unfold init_cmd. destruct (init_nodes L nodes); [done|]. destruct (_ && _); [done|].
    destruct (config_init L chain nodes cos) as [e|cf]; [done|]. cbv zeta. destruct cos; cbn [put_state ma_yaml]; by apply Hput.
  - unfold edit_cmd, config_at. destruct (ma_yaml m !! home_of dflt flag) as [[y|]|] eqn:E.
    + destruct (run_cmd L (ya_cfg y) cmd); [|done|done]. apply Hput; [done|]. cbn. by apply H.
    + destruct (nil_edit L cmd) eqn:En; [|done|done]. by apply nil_edit_val in En.
    + destruct (nil_edit L cmd) eqn:En; [|done|done]. by apply nil_edit_val in En.
  - unfold chain_cmd, config_at. destruct (ma_yaml m !! home_of dflt flag) as [[y|]|] eqn:E; [|done|done]. unfold move.
    destruct (ma_state m !! _) as [b1|]; [|done]. destruct (ma_state (put_state _ _ (Some b1)) !! _) as [b2|]; [|done].
    cbn [fst]. apply Hput; [done|]. cbn. by apply H.
  - unfold state_set_cmd. destruct r; [done|]. destruct (flag_kind m flag) as [|[]]; [|done|].
    + destruct (config_at dflt m flag) as [y|]; [|done]. destruct (state_set _ _ _ _ _) as [|[? ?]]; done.
    + destruct (config_at dflt m flag) as [y|]; [|done]. destruct (state_set _ _ _ _ _) as [|[? ?]]; done.
  - done.
Qed.

(** the whole effect of nodes, peers and shares commands *)
Lemma run_cmd_chain c cmd c' : run_cmd L c cmd = Val c' -> cf_chain c' = cf_chain c.
Proof.
  destruct cmd; intros H.
  - apply nodes_add_spec in H as (-> & _). done.
  - apply nodes_remove_spec in H as (-> & _). done.
  - apply peers_add_spec in H as (s & l & _ & _ & -> & _). done.
  - apply peers_remove_spec in H as (s & l & _ & _ & -> & _). done.
  - apply set_shares_spec in H as (s & l & _ & _ & -> & _). done.
Qed.
Lemma edit_effect m flag cmd m' : edit_cmd L dflt m flag cmd = Val m' ->
  exists y y', config_at dflt m flag = Some y /\ config_at dflt m' flag = Some y' /\
    run_cmd L (ya_cfg y) cmd = Val (ya_cfg y') /\
    key_path y' = key_path y /\ pv_file y' = pv_file y /\ share_file y' = share_file y /\
    (forall f, home_of dflt f <> home_of dflt flag -> config_at dflt m' f = config_at dflt m f) /\
    ma_dirs m' = ma_dirs m /\ ma_state m' = ma_state m /\ ma_key m' = ma_key m.
Proof.
  unfold edit_cmd. destruct (config_at dflt m flag) as [y|] eqn:E.
  2:{ intros H. by apply nil_edit_val in H. }
  destruct (run_cmd L (ya_cfg y) cmd) as [c| |] eqn:Er; intros H; [|discriminate H|discriminate H]. injection H as <-.
  exists y, (Yaml (ya_home y) (ya_key y) c). split; [done|]. cbn [ya_cfg]. split.
  { unfold config_at. cbn [put_yaml ma_yaml]. by rewrite lookup_insert. }
  split; [done|]. split; [done|]. pose proof (run_cmd_chain _ _ _ Er) as Ec.
  unfold pv_file, share_file. cbn [ya_home ya_cfg]. rewrite Ec. split; [done|]. split; [done|]. split; [|done].
  intros f Hf. unfold config_at. cbn [put_yaml ma_yaml]. by rewrite lookup_insert_ne.
Qed.

Lemma set_inv m flag arg d1 d2 m' : state_set_cmd dflt m flag false arg d1 d2 = Val m' ->
  exists y j1 j2, config_at dflt m flag = Some y /\
    state_set false (flag_kind m flag) (ma_state m !! (home_of dflt flag, pv_path (cf_chain (ya_cfg y))))
      (ma_state m !! (home_of dflt flag, share_path (cf_chain (ya_cfg y)))) arg = inr (j1, j2) /\
    ma_yaml m' = ma_yaml m /\
    ma_state m' !! (home_of dflt flag, pv_path (cf_chain (ya_cfg y))) =
      after_write (ma_state m !! (home_of dflt flag, pv_path (cf_chain (ya_cfg y)))) j1 d1 /\
    ma_state m' !! (home_of dflt flag, share_path (cf_chain (ya_cfg y))) =
      after_write (ma_state m !! (home_of dflt flag, share_path (cf_chain (ya_cfg y)))) j2 d2 /\
    forall p, p <> (home_of dflt flag, pv_path (cf_chain (ya_cfg y))) ->
      p <> (home_of dflt flag, share_path (cf_chain (ya_cfg y))) -> ma_state m' !! p = ma_state m !! p.
Proof.
  unfold state_set_cmd. intros H.
  assert (Hy : exists y, config_at dflt m flag = Some y /\
    match state_set false (flag_kind m flag) (ma_state m !! (home_of dflt flag, pv_path (cf_chain (ya_cfg y))))
                (ma_state m !! (home_of dflt flag, share_path (cf_chain (ya_cfg y)))) arg with
        | inl e => Fail (EState e)
        | inr (j1, j2) =>
            let m1 := put_state m (home_of dflt flag, pv_path (cf_chain (ya_cfg y)))
                   (after_write (ma_state m !! (home_of dflt flag, pv_path (cf_chain (ya_cfg y)))) j1 d1) in
            Val (put_state m1 (home_of dflt flag, share_path (cf_chain (ya_cfg y)))
              (after_write (ma_state m1 !! (home_of dflt flag, share_path (cf_chain (ya_cfg y)))) j2 d2))
        end = Val m').
  { destruct (flag_kind m flag) as [|[]]; [|done|]; (destruct (config_at dflt m flag) as [y|]; [|done]); by exists y. }
  destruct Hy as (y & Hy & E). exists y. destruct (state_set _ _ _ _ _) as [e|[j1 j2]]; [done|]. exists j1, j2.
  apply (f_equal (fun o => match o with Val x => x | _ => m end)) in E. cbv beta iota zeta in E. subst m'.
  split; [done|]. split; [done|]. split; [done|].
  assert (Hne : (home_of dflt flag, share_path (cf_chain (ya_cfg y))) <> (home_of dflt flag, pv_path (cf_chain (ya_cfg y)))).
  { intros [= E']. by apply eq_sym, pv_share_ne in E'. }
  rewrite !put_state_lookup.
  repeat (first [rewrite decide_True by done | rewrite decide_False by first [done | intros ?; by apply Hne]]).
  split; [done|]. split; [done|]. intros p H1 H2. rewrite !put_state_lookup. by rewrite !decide_False by done.
Qed.

Lemma set_then_start m flag arg z m' r h m'' : at_home dflt m flag -> decimal arg z ->
  state_set_cmd dflt m flag false arg true true = Val m' -> start_cmd L KL dflt m' flag = Val (r, h, m'') ->
  hrs_le (HRS z 0 0) (ss_hrs (vs_lss (ho_val h))) /\ hrs_le (HRS z 0 0) (ss_hrs (cs_lss (cn_cos (ho_cos h)))).
Proof.
  intros Hh Hz Hs Hst. apply set_inv in Hs as (y & j1 & j2 & Hy & Hset & Eya & Hp & Hsh & _).
  destruct (state_set_raises _ _ _ _ _ _ _ _ Hz Hset) as [R1 R2]. rewrite <- Hp in R1. rewrite <- Hsh in R2.
  apply start_uses in Hst as (y' & sh & Hy' & Hl & -> & ->).
  assert (y' = y) as ->. { unfold config_at in *. rewrite Eya in Hy'. rewrite Hy in Hy'. by injection Hy'. }
  rewrite <- (Hh y Hy) in *. fold (pv_file y) in *. fold (share_file y) in *.
  assert (Hr : forall f f' s, raised_to z f f' -> load f' = Some s -> hrs_le (HRS z 0 0) (ss_hrs s)).
  { intros f f' s (k & Hk & [[_ Hw]|[Hle ->]]) Hls.
    - unfold watermark in Hw. rewrite Hls in Hw. injection Hw as ->. by right.
    - unfold watermark in Hk. rewrite Hls in Hk. injection Hk as <-. done. }
  cbn. split; [|by apply (Hr _ _ _ R2)].
  assert (Hlp : exists s, load (ma_state m' !! pv_file y) = Some s).
  { destruct R1 as (k & Hk & [[_ Hw]|[_ E]]).
    - unfold watermark in Hw. destruct (load (ma_state m' !! pv_file y)); [eauto|done].
    - rewrite E. unfold watermark in Hk. destruct (load (ma_state m !! pv_file y)); [eauto|done]. }
  destruct Hlp as [s Hls]. unfold load_or_create. rewrite Hls. cbn. by apply (Hr _ _ _ R1).
Qed.

(** state show: what the next start continues from *)
Lemma show_then_start m flag pv sh r h m' : at_home dflt m flag ->
  state_show_cmd dflt m flag = Val (pv, sh) -> start_cmd L KL dflt m flag = Val (r, h, m') ->
  vs_lss (ho_val h) = pv /\ cs_lss (cn_cos (ho_cos h)) = sh.
Proof.
  intros Hh Hs Hst. apply start_uses in Hst as (y & sh' & Hy & Hl & -> & ->). unfold state_show_cmd in Hs. rewrite Hy in Hs.
  rewrite <- (Hh y Hy) in Hs. change (ya_home y, pv_path (cf_chain (ya_cfg y))) with (pv_file y) in Hs.
  change (ya_home y, share_path (cf_chain (ya_cfg y))) with (share_file y) in Hs.
  destruct (flag_kind m flag) as [|[]]; [|done|];
    (destruct (load (ma_state m !! pv_file y)) as [pv'|] eqn:Ep; [|done]; rewrite Hl in Hs; injection Hs as <- <-;
     unfold load_or_create; rewrite Ep; done).
Qed.
Lemma start_then_show m flag r h m' pv y : at_home dflt m flag -> no_such_home m flag ->
  config_at dflt m flag = Some y -> load (ma_state m !! pv_file y) = Some pv -> start_cmd L KL dflt m flag = Val (r, h, m') ->
  state_show_cmd dflt m flag = Val (vs_lss (ho_val h), cs_lss (cn_cos (ho_cos h))).
Proof.
  intros Hh Hn Hy Hp Hst. apply start_uses in Hst as (y' & sh & Hy' & Hl & -> & ->). rewrite Hy in Hy'. injection Hy' as <-.
  apply kind_iff in Hn. unfold state_show_cmd. rewrite Hy, <- (Hh y Hy).
  change (ya_home y, pv_path (cf_chain (ya_cfg y))) with (pv_file y). change (ya_home y, share_path (cf_chain (ya_cfg y))) with (share_file y).
  unfold load_or_create. rewrite Hp, Hl. destruct (flag_kind m flag) as [|[]]; done.
Qed.

Lemma chain_then_start m flag new m' y r h m'' : at_home dflt m flag -> config_at dflt m flag = Some y ->
  chain_cmd dflt m flag new = (m', Val tt) -> start_cmd L KL dflt m' flag = Val (r, h, m'') ->
  load (ma_state m !! share_file y) = Some (cs_lss (cn_cos (ho_cos h))).
Proof.
  intros Hh Hy Hc Hst. destruct (chain_moves _ _ _ _ _ Hy Hc) as (E & _). apply start_uses in Hst as (y' & sh & Hy' & Hl & -> & _).
  assert (Hc' : exists m2, m' = put_yaml m2 (home_of dflt flag) (Yaml (ya_home y) (ya_key y) (Config new (cf_cosigner (ya_cfg y)) (cf_nodes (ya_cfg y))))).
  { unfold chain_cmd in Hc. rewrite Hy in Hc. destruct (move m _ _) as [m1|]; [|done]. destruct (move m1 _ _) as [m2|]; [|done].
    injection Hc as <-. eauto. }
  destruct Hc' as [m2 E2]. unfold config_at in Hy'. rewrite E2 in Hy'. cbn [put_yaml ma_yaml] in Hy'. rewrite lookup_insert in Hy'.
  injection Hy' as <-. unfold share_file in *. cbn [ya_home ya_cfg cf_chain] in Hl. rewrite (Hh y Hy) in *. cbv zeta in E. rewrite E in Hl. exact Hl.
Qed.
End Machine.
