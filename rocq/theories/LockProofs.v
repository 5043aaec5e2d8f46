(** No deadlock of a cosigner process (C97). *)
From Verif Require Import GoBase Locks LockSpec.

Definition is_guard (m : mutex) : bool := match m with Guard => true | _ => false end.
Definition outer (held : list mutex) : bool := forallb is_guard held.
(** the discipline: only the guard is held when a mutex is asked for or a future awaited *)
(** who must hold what to use [x]; the store's map is used by raft's goroutine only *)
Definition lock_of (x : shared) : option mutex :=
  match x with
  | Cache SInit | Fields SInit => Some Initiated | Cache SLss | Fields SLss => Some Lss
  | Cache SCos | Fields SCos | Meta => Some Cos | StoreMap => None
  end.
Definition may_use (f : bool) (held : list mutex) (x : shared) (w : bool) : bool :=
  (is_fields x && negb w) || match lock_of x with Some m => bool_decide (m ∈ held) | None => f end.
Fixpoint ok (f : bool) (held : list mutex) (sub : bool) (p : prog) : bool :=
  match p with
  | [] => match held with [] => negb sub | _ => false end
  | Acq m :: r => outer held && (negb (is_guard m) || match held with [] => true | _ => false end) && ok f (m :: held) sub r
  | Rel m :: r => match held with m' :: h => bool_decide (m = m') && ok f h sub r | [] => false end
  | Work :: r => ok f held sub r
  | Use x w :: r => may_use f held x w && ok f held sub r
  | Submit :: r => outer held && negb sub && ok f held true r
  | Future :: r => outer held && sub && ok f held false r
  end.
Definition plain_act (a : act) : bool := match a with Acq m => negb (is_guard m) | Submit | Future => false | _ => true end.
Definition plain (p : prog) : bool := forallb plain_act p.

(** ** The programs keep it *)
Definition seg (held : list mutex) (p : prog) : Prop := forall r, ok false held false r = true -> ok false held false (p ++ r) = true.
Lemma seg_nil h : seg h []. Proof. by intros r H. Qed.
Lemma seg_app h p q : seg h p -> seg h q -> seg h (p ++ q).
Proof. intros Hp Hq r H. rewrite <- app_assoc. by apply Hp, Hq. Qed.
Lemma seg_work h p : seg h p -> seg h (Work :: p).
Proof. intros Hp r H. cbn. by apply Hp. Qed.
Lemma seg_read h x p : seg h p -> seg h (Use (Fields x) false :: p).
Proof. intros Hp r H. cbn. by apply Hp. Qed.
Lemma seg_use h x w m p : lock_of x = Some m -> seg (m :: h) p -> seg (m :: h) (Use x w :: p).
Proof.
  intros Hx Hp r H. cbn [app ok]. rewrite (Hp r H), andb_true_r. unfold may_use. rewrite Hx, bool_decide_eq_true_2 by left. apply orb_true_r.
Qed.
Lemma seg_locked h m p : outer h = true -> is_guard m = false \/ h = [] -> seg (m :: h) p -> seg h (locked m p).
Proof.
  intros Ho Hm Hp r H. unfold locked. cbn [app ok]. rewrite Ho. rewrite <- app_assoc. rewrite (Hp ([Rel m] ++ r)).
  - destruct Hm as [-> | ->]; [done|]. by rewrite orb_true_r.
  - cbn. by rewrite bool_decide_eq_true_2.
Qed.
Lemma seg_concat h l : (forall p, p ∈ l -> seg h p) -> seg h (concat l).
Proof. induction l as [|p l IH]; intros H; [apply seg_nil|]. cbn. apply seg_app; [apply H; left|apply IH; intros q Hq; apply H; by right]. Qed.
Lemma seg_repeat h n p : seg h p -> seg h (concat (replicate n p)).
Proof. intros H. apply seg_concat. by intros q (-> & _)%elem_of_replicate. Qed.

Ltac seg1 := match goal with
  | |- seg _ (if ?b then _ else _) => destruct b
  | |- seg _ [] => apply seg_nil
  | |- seg _ (Work :: _) => apply seg_work
  | |- seg _ (Use (Fields _) false :: _) => apply seg_read
  | |- seg _ (Use _ _ :: _) => apply seg_use; [done|]
  | |- seg _ (locked _ _) => apply seg_locked; [done|by left|]
  | |- seg _ (_ ++ _) => apply seg_app
  | |- seg _ (concat (replicate _ _)) => apply seg_repeat
  end.
Ltac segs := repeat seg1.
Lemma seg_emit h b : outer h = true -> seg h (emit b).
Proof. intros Ho. apply seg_work. destruct b; [|apply seg_nil]. intros r H. cbn. by rewrite Ho, H. Qed.
Lemma seg_set_parts h l s : outer h = true -> seg h (set_parts_and_sign l s).
Proof.
  intros Ho. apply seg_app.
  - apply seg_concat. intros p (b & -> & _)%elem_of_list_fmap. unfold set_part. segs.
  - destruct s as [[]|]; unfold sign, save, less_or_equal, under; segs.
Qed.
Lemma seg_block h i w r : outer h = true -> seg h (sign_block i w r).
Proof.
  intros Ho. destruct w as [| |b|n b b'|]; cbn [sign_block]; unfold save_initiated, existing, beyond, sign_rest, save_lss, get_parts, get_part, get_from_cache, save, less_or_equal, under;
    segs; by apply seg_emit.
Qed.
Lemma seg_ok p : seg [] p -> ok false [] false p = true.
Proof. intros H. rewrite <- (app_nil_r p). by apply H. Qed.
Lemma goroutine_ok p : goroutine p -> ok false [] false p = true.
Proof.
  destruct 1; apply seg_ok.
  - apply seg_locked; [done|by right|]. segs.
  - apply seg_locked; [done|by right|]. apply seg_app; [by apply seg_block|segs].
  - by apply seg_block.
  - unfold get_parts, get_part. segs.
  - by apply seg_set_parts.
  - segs.
  - segs.
  - apply seg_work, seg_app; [by apply seg_set_parts|segs].
  - unfold save_file. segs.
  - segs.
Qed.
Lemma applied_ok p : applied p -> ok true [] false p = true /\ plain p = true /\ (length p <= 11)%nat.
Proof. destruct 1; (split; [done|]); (split; [done|]); cbn; lia. Qed.

(** ** Invariant *)
Definition waiting_for (s : proc) (i : nat) : Prop :=
  i ∈ inflight s \/ i ∈ omap fst (queue s) \/ (exists p, fsm s = Some (Some i, p)) \/ i ∈ known s.
Record inv (s : proc) : Prop := Inv {
  i_thr : forall i p, thr s !! i = Some p -> exists held sub, ok false held sub p = true /\ NoDup held /\
    (forall m, owner s m = Some (T i) <-> m ∈ held) /\ (sub = true -> waiting_for s i);
  i_fsm : forall j p, fsm s = Some (j, p) -> exists held, ok true held false p = true /\ plain p = true /\ Guard ∉ held /\ NoDup held /\
    (forall m, owner s m = Some Fsm <-> m ∈ held);
  i_none : fsm s = None -> forall m, owner s m <> Some Fsm;
  i_queue : forall j p, (j, p) ∈ queue s -> ok true [] false p = true /\ plain p = true;
  i_owner : forall m a, owner s m = Some a -> a = Fsm \/ exists i, a = T i /\ (i < length (thr s))%nat }.

Lemma set_owner_eq o m v : set_owner o m v m = v.
Proof. unfold set_owner. by rewrite decide_True. Qed.
Lemma set_owner_ne o m v m' : m' <> m -> set_owner o m v m' = o m'.
Proof. intros H. unfold set_owner. by rewrite decide_False. Qed.

Lemma local_inv f o a p o' p' held sub : local_step o a p o' p' -> ok f held sub p = true -> NoDup held ->
  (forall m, o m = Some a <-> m ∈ held) ->
  exists held', ok f held' sub p' = true /\ NoDup held' /\ (forall m, o' m = Some a <-> m ∈ held') /\
    (forall b m, b <> a -> o' m = Some b <-> o m = Some b) /\ (forall m, m ∈ held' -> m ∈ held \/ p = Acq m :: p').
Proof.
  intros Hs Hk Hn Ho. destruct Hs as [m r Hm|m r Hm|r|x w r]; cbn in Hk.
  - apply andb_true_iff in Hk as (_ & Hk). exists (m :: held). split; [done|].
    split; [constructor; [|done]; intros Hi%Ho; congruence|]. split; [|split].
    + intros m'. destruct (decide (m' = m)) as [-> |Hne]; [rewrite set_owner_eq; split; [left|done]|].
      rewrite set_owner_ne by done. rewrite Ho. split; [by right|]. by intros [|]%elem_of_cons.
    + intros b m' Hb. destruct (decide (m' = m)) as [-> |Hne]; [rewrite set_owner_eq, Hm; split; congruence|]. by rewrite set_owner_ne.
    + intros m' [-> |?]%elem_of_cons; [by right|by left].
  - destruct held as [|m' h]; [done|]. apply andb_true_iff in Hk as (->%bool_decide_eq_true_1 & Hk).
    apply stdpp.list.NoDup_cons in Hn as (Hn1 & Hn2). exists h. split; [done|]. split; [done|]. split; [|split].
    + intros m. destruct (decide (m = m')) as [-> |Hne]; [rewrite set_owner_eq; split; [done|intros; done]|].
      rewrite set_owner_ne by done. rewrite Ho, elem_of_cons. naive_solver.
    + intros b m Hb. destruct (decide (m = m')) as [-> |Hne]; [|by rewrite set_owner_ne].
      rewrite set_owner_eq. assert (X : o m' = Some a) by (apply Ho; left). rewrite X. split; congruence.
    + intros m Hi. left. by right.
  - exists held. split; [done|]. split; [done|]. split; [done|]. split; [done|]. by left.
  - apply andb_true_iff in Hk as (_ & Hk). exists held. split; [done|]. split; [done|]. split; [done|]. split; [done|]. by left.
Qed.
Lemma local_owner o a p o' p' : local_step o a p o' p' -> forall m b, o' m = Some b -> o m = Some b \/ b = a.
Proof.
  destruct 1 as [m r Hm|m r Hm|r|x w r]; intros m' b; [| |by left|by left]; destruct (decide (m' = m)) as [-> |Hne];
    rewrite ?set_owner_eq, ?set_owner_ne by done; naive_solver.
Qed.

Lemma inv_start : inv process_start.
Proof. split; cbn; intros; try done; by apply elem_of_nil in H. Qed.
Lemma omap_snoc (q : list (option nat * prog)) x : omap fst (q ++ [x]) = omap fst q ++ match x.1 with Some i => [i] | None => [] end.
Proof. rewrite omap_app. cbn. by destruct (x.1). Qed.
Lemma inv_step s a s' : inv s -> step s a s' -> inv s'.
Proof.
  intros [H1 H2 H3 H4 H5] Hs. destruct Hs; cbn in *.
  - (* start *) split; cbn; try done.
    + intros i p0 [Hi|(Hi & Hp)]%lookup_app_Some; [by apply H1|].
      apply list_lookup_singleton_Some in Hp as (Hz & <-). exists [], false. split; [by apply goroutine_ok|]. split; [constructor|]. split; [|done].
      intros m. split; [|by intros ?%elem_of_nil]. intros Ho. destruct (H5 _ _ Ho) as [|(j & [= <-] & Hj)]; [done|]. lia.
    + intros m b Hb. destruct (H5 _ _ Hb) as [|(j & -> & Hj)]; [by left|]. right. exists j. split; [done|]. rewrite app_length. lia.
  - (* entry of another leader *) split; cbn; try done.
    + intros i p0 Hi. destruct (H1 i p0 Hi) as (h & sub & A & B & C & D). exists h, sub. split; [done|]. split; [done|]. split; [done|].
      intros Hsub. destruct (D Hsub) as [|[|[|]]]; unfold waiting_for; cbn in *; [by left| |by right; right; left|by right; right; right].
      right. left. rewrite omap_snoc. cbn. by rewrite app_nil_r.
    + intros j p0 [Hi|Hi%elem_of_list_singleton]%elem_of_app; [by eapply H4|]. injection Hi as -> ->. destruct (applied_ok _ H) as (A & B & _). done.
  - (* goroutine *) destruct (H1 i p H) as (h & sub & A & B & C & D).
    destruct (local_inv _ _ _ _ _ _ _ _ H0 A B C) as (h' & A' & B' & C' & D' & _).
    split; cbn.
    + intros i0 p0 Hi0. destruct (decide (i0 = i)) as [-> |Hne].
      * rewrite list_lookup_insert in Hi0 by (by eapply lookup_lt_Some). injection Hi0 as <-. exists h', sub. done.
      * rewrite list_lookup_insert_ne in Hi0 by done. destruct (H1 i0 p0 Hi0) as (h0 & sub0 & A0 & B0 & C0 & D0).
        exists h0, sub0. split; [done|]. split; [done|]. split; [|done]. intros m. rewrite D' by congruence. apply C0.
    + intros j p0 Hf. destruct (H2 j p0 Hf) as (h0 & A0 & E0 & F0 & B0 & C0). exists h0. do 4 (split; [done|]).
      intros m. rewrite D' by congruence. apply C0.
    + intros Hf m. rewrite D' by congruence. by apply H3.
    + done.
    + intros m b Hb. destruct (local_owner _ _ _ _ _ H0 _ _ Hb) as [Hb'| ->].
      * rewrite insert_length. by apply (H5 m).
      * right. exists i. split; [done|]. rewrite insert_length. by eapply lookup_lt_Some.
  - (* submit *) destruct (H1 i _ H) as (h & sub & A & B & C & D). cbn in A. apply andb_true_iff in A as ((A1 & A2)%andb_true_iff & A3).
    split; cbn; try done.
    + intros i0 p0 Hi0. destruct (decide (i0 = i)) as [-> |Hne].
      * rewrite list_lookup_insert in Hi0 by (by eapply lookup_lt_Some). injection Hi0 as <-. exists h, true. do 3 (split; [done|]).
        intros _. left. cbn. apply elem_of_app. right. left.
      * rewrite list_lookup_insert_ne in Hi0 by done. destruct (H1 i0 p0 Hi0) as (h0 & sub0 & A0 & B0 & C0 & D0).
        exists h0, sub0. do 3 (split; [done|]). intros Hsub. destruct (D0 Hsub) as [X|X]; [left; cbn in *; apply elem_of_app; by left|by right].
    + intros m b Hb. rewrite insert_length. by apply (H5 m).
  - (* future *) destruct (H1 i _ H) as (h & sub & A & B & C & D). cbn in A. apply andb_true_iff in A as ((A1 & A2)%andb_true_iff & A3).
    split; cbn; try done.
    + intros i0 p0 Hi0. destruct (decide (i0 = i)) as [-> |Hne].
      * rewrite list_lookup_insert in Hi0 by (by eapply lookup_lt_Some). injection Hi0 as <-. exists h, false. done.
      * rewrite list_lookup_insert_ne in Hi0 by done. destruct (H1 i0 p0 Hi0) as (h0 & sub0 & A0 & B0 & C0 & D0). exists h0, sub0. done.
    + intros m b Hb. rewrite insert_length. by apply (H5 m).
  - (* commit *) split; cbn; try done.
    + intros i0 p0 Hi0. destruct (H1 i0 p0 Hi0) as (h0 & sub0 & A0 & B0 & C0 & D0).
      exists h0, sub0. do 3 (split; [done|]). intros Hsub. unfold waiting_for. cbn. rewrite omap_snoc. cbn.
      destruct (D0 Hsub) as [X|[X|X]]; cbn in X; [|right; left; apply elem_of_app; by left|by right; right].
      apply elem_of_app in X as [X|[-> |X]%elem_of_cons].
      * left. apply elem_of_app. by left.
      * right. left. apply elem_of_app. right. left.
      * left. apply elem_of_app. by right.
    + intros j p0 [Hi|Hi%elem_of_list_singleton]%elem_of_app; [by eapply H4|]. injection Hi as -> ->. destruct (applied_ok _ H) as (A & B & _). done.
  - (* fail *) split; cbn; try done.
    intros i0 p0 Hi0. destruct (H1 i0 p0 Hi0) as (h0 & sub0 & A0 & B0 & C0 & D0).
    exists h0, sub0. do 3 (split; [done|]). intros Hsub. unfold waiting_for. cbn.
    destruct (D0 Hsub) as [X|[X|[X|X]]]; cbn in X; [|by right; left|by right; right; left|right; right; right; by right].
    apply elem_of_app in X as [X|[-> |X]%elem_of_cons].
    + left. apply elem_of_app. by left.
    + right. right. right. left.
    + left. apply elem_of_app. by right.
  - (* take *) destruct x as [j p]. split; cbn; try done.
    + intros i0 p0 Hi0. destruct (H1 i0 p0 Hi0) as (h0 & sub0 & A0 & B0 & C0 & D0).
      exists h0, sub0. do 3 (split; [done|]). intros Hsub. unfold waiting_for. cbn.
      destruct (D0 Hsub) as [X|[X|[X|X]]]; cbn in X; [by left| |by destruct X|by right; right; right].
      destruct j as [j|]; [|by right; left]. apply elem_of_cons in X as [-> |X]; [|by right; left]. right. right. left. by exists p.
    + intros j0 p0 [= <- <-]. destruct (H4 j p) as (A & B); [left|]. exists []. split; [done|]. split; [done|].
      split; [apply not_elem_of_nil|]. split; [constructor|]. intros m. split; [|by intros ?%elem_of_nil]. intros Ho. by destruct (H3 eq_refl m).
    + intros j0 p0 Hi. apply (H4 j0). by right.
  - (* apply *) destruct (H2 j p eq_refl) as (h & A & E & F & B & C).
    destruct (local_inv _ _ _ _ _ _ _ _ H A B C) as (h' & A' & B' & C' & D' & G').
    split; cbn; try done.
    + intros i0 p0 Hi0. destruct (H1 i0 p0 Hi0) as (h0 & sub0 & A0 & B0 & C0 & D0).
      exists h0, sub0. do 2 (split; [done|]). split; [intros m; rewrite D' by done; apply C0|].
      intros Hsub. unfold waiting_for. cbn. destruct (D0 Hsub) as [X|[X|[(q0 & X)|X]]]; cbn in X; [by left|by right; left| |by right; right; right].
      right. right. left. injection X as -> ->. by exists p'.
    + intros j0 p0 [= <- <-]. exists h'. split; [done|].
      assert (Hp : plain p' = true) by (destruct H; unfold plain in *; cbn [forallb] in E; by apply andb_true_iff in E as (_ & ?)).
      split; [done|]. split; [|done]. intros Hg. destruct (G' _ Hg) as [Hg'| ->]; [done|]. done.
    + intros m b Hb. destruct (local_owner _ _ _ _ _ H _ _ Hb) as [Hb'| ->]; [by apply (H5 m)|by left].
  - (* applied *) destruct (H2 j [] eq_refl) as (h & A & _ & _ & _ & C). destruct h as [|? ?]; [|done]. split; cbn; try done.
    + intros i0 p0 Hi0. destruct (H1 i0 p0 Hi0) as (h0 & sub0 & A0 & B0 & C0 & D0).
      exists h0, sub0. do 3 (split; [done|]). intros Hsub. unfold waiting_for. cbn.
      destruct (D0 Hsub) as [X|[X|[(q0 & X)|X]]]; cbn in X; [by left|by right; left| |].
      * injection X as -> _. right. right. right. left.
      * right. right. right. destruct j; [by right|done].
    + intros _ m Hm. apply C in Hm. by apply elem_of_nil in Hm.
Qed.
Lemma reach_inv s : reach s -> inv s.
Proof. induction 1; [apply inv_start|by eapply inv_step]. Qed.

Global Instance act_eq : EqDecision act.
Proof. solve_decision. Defined.

(** ** Everyone goes *)
Lemma holder_nonempty f held sub p m : ok f held sub p = true -> m ∈ held -> p <> [].
Proof. intros H Hm ->. cbn in H. destruct held; [by apply elem_of_nil in Hm|done]. Qed.
Lemma outer_guard held m : outer held = true -> m ∈ held -> m = Guard.
Proof.
  unfold outer. rewrite forallb_forall. intros H Hm. apply elem_of_list_In, H in Hm. by destruct m.
Qed.
(** one who holds another mutex than the guard can go on *)
Lemma inner_local f o a held sub p m : ok f held sub p = true -> m ∈ held -> m <> Guard -> (forall m, o m = Some a <-> m ∈ held) ->
  exists o' p', local_step o a p o' p'.
Proof.
  intros Hk Hm Hg Ho. destruct p as [|[m'|m'| |x w| |] r]; cbn in Hk.
  - by destruct (holder_nonempty f held sub [] m Hk Hm).
  - apply andb_true_iff in Hk as ((Hk & _)%andb_true_iff & _). by destruct (Hg (outer_guard _ _ Hk Hm)).
  - destruct held as [|m1 h]; [done|]. apply andb_true_iff in Hk as (->%bool_decide_eq_true_1 & _).
    exists (set_owner o m1 None), r. constructor. assert (X : o m1 = Some a) by (apply Ho; left). by rewrite X.
  - exists o, r. constructor.
  - exists o, r. constructor.
  - apply andb_true_iff in Hk as ((Hk & _)%andb_true_iff & _). by destruct (Hg (outer_guard _ _ Hk Hm)).
  - apply andb_true_iff in Hk as ((Hk & _)%andb_true_iff & _). by destruct (Hg (outer_guard _ _ Hk Hm)).
Qed.
Lemma thr_local s i p o' p' : thr s !! i = Some p -> local_step (owner s) (T i) p o' p' -> exists s', step s (T i) s'.
Proof. destruct s as [th o fl q f k]. cbn. intros H1 H2. eexists. by eapply s_local. Qed.
Lemma fsm_local s j p o' p' : fsm s = Some (j, p) -> local_step (owner s) Fsm p o' p' -> exists s', step s Fsm s'.
Proof. destruct s as [th o fl q f k]. cbn. intros -> H2. eexists. by eapply s_apply. Qed.
Lemma inner_goes s m a : inv s -> owner s m = Some a -> m <> Guard -> goes s a.
Proof.
  intros [H1 H2 H3 H4 H5] Ho Hm. destruct (H5 m a Ho) as [-> |(i & -> & Hi)].
  - destruct (fsm s) as [[j p]|] eqn:E; [|by destruct (H3 eq_refl m)].
    destruct (H2 j p eq_refl) as (h & A & _ & _ & _ & C).
    destruct (inner_local true (owner s) Fsm h false p m A) as (o' & p' & Hl); [by apply C|done|done|].
    destruct (fsm_local s j p o' p' E Hl) as (s' & Hs). by eapply goes_now.
  - apply lookup_lt_is_Some in Hi as (p & Hp). destruct (H1 i p Hp) as (h & sub & A & _ & C & _).
    destruct (inner_local false (owner s) (T i) h sub p m A) as (o' & p' & Hl); [by apply C|done|done|].
    destruct (thr_local s i p o' p' Hp Hl) as (s' & Hs). by eapply goes_now.
Qed.
Lemma fsm_goes s : inv s -> queue s <> [] \/ fsm s <> None -> goes s Fsm.
Proof.
  intros Hi Hq. pose proof Hi as [H1 H2 H3 H4 H5]. destruct (fsm s) as [[j p]|] eqn:E.
  - destruct (H2 j p eq_refl) as (h & A & B & C & _ & D). destruct p as [|[m|m| |x w| |] r]; cbn in A, B; try done.
    + destruct s as [th o fl q f k]. cbn in *. subst f. eapply goes_now. apply s_applied.
    + destruct (owner s m) as [a|] eqn:Eo.
      * apply (goes_wait s Fsm a); [by eapply w_fsm_lock|]. apply (inner_goes s m a Hi Eo). intros ->. done.
      * destruct (fsm_local s j _ _ _ E (l_acq _ Fsm m r Eo)) as (s' & Hs). by eapply goes_now.
    + destruct h as [|m1 h]; [done|]. apply andb_true_iff in A as (->%bool_decide_eq_true_1 & _).
      assert (X : owner s m1 = Some Fsm) by (apply D; left).
      destruct (fsm_local s j (Rel m1 :: r) (set_owner (owner s) m1 None) r E) as (s' & Hs); [constructor; by rewrite X|]. by eapply goes_now.
    + destruct (fsm_local s j _ _ _ E (l_work _ Fsm r)) as (s' & Hs). by eapply goes_now.
    + destruct (fsm_local s j _ _ _ E (l_use _ Fsm x w r)) as (s' & Hs). by eapply goes_now.
  - destruct Hq as [Hq|?]; [|done]. destruct s as [th o fl q f k]. cbn in *. subst f. destruct q as [|x q]; [done|]. eapply goes_now. apply s_take.
Qed.
Lemma raft_goes s i : i ∈ inflight s -> goes s RaftLib.
Proof.
  intros (fl1 & fl2 & E)%elem_of_list_split. destruct s as [th o fl q f k]. cbn in E. subst fl. eapply goes_now. apply s_fail.
Qed.
Lemma own_goes s i p : inv s -> thr s !! i = Some p -> p <> [] -> (forall r, p <> Acq Guard :: r) -> goes s (T i).
Proof.
  intros Hi Hp Hne Hg. pose proof Hi as [H1 H2 H3 H4 H5]. destruct (H1 i p Hp) as (h & sub & A & _ & C & D).
  destruct p as [|[m|m| |x w| |] r]; cbn in A; [done| | | | | |].
  - assert (Hm : m <> Guard) by (intros ->; by destruct (Hg r)).
    destruct (owner s m) as [a|] eqn:Eo.
    + apply (goes_wait s (T i) a); [by eapply w_lock|]. by apply (inner_goes s m a).
    + destruct (thr_local s i _ _ _ Hp (l_acq _ (T i) m r Eo)) as (s' & Hs). by eapply goes_now.
  - destruct h as [|m1 h]; [done|]. apply andb_true_iff in A as (->%bool_decide_eq_true_1 & _).
    assert (X : owner s m1 = Some (T i)) by (apply C; left).
    destruct (thr_local s i (Rel m1 :: r) (set_owner (owner s) m1 None) r Hp) as (s' & Hs); [constructor; by rewrite X|]. by eapply goes_now.
  - destruct (thr_local s i _ _ _ Hp (l_work _ (T i) r)) as (s' & Hs). by eapply goes_now.
  - destruct (thr_local s i _ _ _ Hp (l_use _ (T i) x w r)) as (s' & Hs). by eapply goes_now.
  - destruct s as [th o fl q f k]. cbn in *. eapply goes_now. by apply (s_submit i r).
  - apply andb_true_iff in A as ((_ & Hsub)%andb_true_iff & _). destruct (D Hsub) as [X|[X|[X|X]]].
    + apply (goes_wait s (T i) RaftLib); [by eapply w_raft|by eapply raft_goes].
    + apply (goes_wait s (T i) Fsm); [eapply w_fsm; [done|by left]|]. apply fsm_goes; [done|]. left. intros E. rewrite E in X. by apply elem_of_nil in X.
    + apply (goes_wait s (T i) Fsm); [eapply w_fsm; [done|by right]|]. apply fsm_goes; [done|]. right. destruct X as (q & ->). done.
    + destruct s as [th o fl q f k]. cbn in *. eapply goes_now. by apply (s_future i r).
Qed.
Lemma no_deadlock s i p : reach s -> thr s !! i = Some p -> p <> [] -> goes s (T i).
Proof.
  intros Hr Hp Hne. assert (Hi := reach_inv _ Hr). pose proof Hi as [H1 H2 H3 H4 H5].
  destruct p as [|a r]; [done|]. destruct (decide (a = Acq Guard)) as [-> |Ha].
  - destruct (owner s Guard) as [b|] eqn:Eo.
    + apply (goes_wait s (T i) b); [by eapply w_lock|]. destruct (H5 _ _ Eo) as [-> |(j & -> & Hj)].
      * destruct (fsm s) as [[j p]|] eqn:E; [|by destruct (H3 eq_refl Guard)].
        destruct (H2 j p eq_refl) as (h & _ & _ & Hg & _ & C). by apply C in Eo.
      * apply lookup_lt_is_Some in Hj as (p & Hp2). destruct (H1 j p Hp2) as (h & sub & A & _ & C & _).
        apply C in Eo as Hg. apply (own_goes s j p Hi Hp2); [by eapply holder_nonempty|].
        intros r' ->. cbn in A. destruct h; [by apply elem_of_nil in Hg|]. rewrite andb_false_r in A. done.
    + destruct (thr_local s i _ _ _ Hp (l_acq _ (T i) Guard r Eo)) as (s' & Hs). by eapply goes_now.
  - apply (own_goes s i (a :: r)); [done|done|done|]. intros r' [= -> ->]. done.
Qed.
Lemma fsm_no_deadlock s : reach s -> queue s <> [] \/ fsm s <> None -> goes s Fsm.
Proof. intros Hr. by apply fsm_goes, reach_inv. Qed.

(** a mutex is released by its holder only *)
Lemma holder_releases s i m r : reach s -> thr s !! i = Some (Rel m :: r) -> owner s m = Some (T i).
Proof.
  intros Hr Hp. destruct (reach_inv _ Hr) as [H1 _ _ _ _]. destruct (H1 _ _ Hp) as (h & sub & A & _ & C & _). cbn in A.
  destruct h as [|m1 h]; [done|]. apply andb_true_iff in A as (->%bool_decide_eq_true_1 & _). apply C. left.
Qed.

(** ** Everything is done in the end *)
Lemma goes_some s a : inv s -> goes s a -> a <> Outside -> exists b s', b <> Outside /\ step s b s'.
Proof.
  intros Hi. induction 1 as [a s' Hs|a b Hw _ IH]; intros Ha; [by exists a, s'|]. apply IH.
  destruct Hi as [_ _ _ _ H5]. destruct Hw as [i m r b _ Ho|j m r b _ Ho| |]; try done;
  (destruct (H5 _ _ Ho) as [-> |(j' & -> & _)]; done).
Qed.
Lemma stuck_idle s : reach s -> (forall a s', a <> Outside -> ~ step s a s') -> idle s.
Proof.
  intros Hr Hn. assert (Hi := reach_inv _ Hr).
  assert (X : forall a, goes s a -> a <> Outside -> False) by (intros a Hg Ha; destruct (goes_some s a Hi Hg Ha) as (b & s' & Hb & Hs); by apply (Hn b s')).
  assert (Ht : forall i p, thr s !! i = Some p -> p = []).
  { intros i p Hp. destruct p as [|a p]; [done|]. exfalso. apply (X (T i)); [by eapply no_deadlock|done]. }
  assert (Hq : queue s = []) by (destruct (queue s) eqn:E; [done|]; exfalso; apply (X Fsm); [apply fsm_no_deadlock; [done|left; by rewrite E]|done]).
  assert (Hf : fsm s = None) by (destruct (fsm s) eqn:E; [|done]; exfalso; apply (X Fsm); [apply fsm_no_deadlock; [done|right; by rewrite E]|done]).
  split; [intros p (i & Hp)%elem_of_list_lookup; by eapply Ht|]. split; [|split; [done|split; [done|]]].
  - destruct (inflight s) as [|i l] eqn:E; [done|]. exfalso. apply (X RaftLib); [|done]. apply (raft_goes s i). rewrite E. left.
  - intros m. destruct (owner s m) as [a|] eqn:E; [|done]. exfalso. destruct Hi as [H1 H2 H3 H4 H5]. destruct (H5 m a E) as [-> |(i & -> & Hi)].
    + by apply (H3 Hf m).
    + apply lookup_lt_is_Some in Hi as (p & Hp). destruct (H1 i p Hp) as (h & sub & A & _ & C & _). rewrite (Ht i p Hp) in A.
      apply C in E. by apply (holder_nonempty _ _ _ _ _ A E).
Qed.

Local Open Scope nat_scope.
Definition weight (a : act) : nat := match a with Submit => 16 | _ => 1 end.
Definition weights (p : prog) : nat := list_sum (map weight p).
Definition work_left (s : proc) : nat :=
  list_sum (map weights (thr s)) + 15 * length (inflight s) + list_sum (map (fun x => weights x.2 + 2) (queue s)) +
  match fsm s with Some x => weights x.2 + 1 | None => 0 end.
Lemma list_sum_cons x l : list_sum (x :: l) = x + list_sum l.
Proof. done. Qed.
Lemma weights_cons a p : weights (a :: p) = weight a + weights p.
Proof. done. Qed.
Lemma sum_insert th i p p' : th !! i = Some p -> list_sum (map weights (<[i := p']> th)) + weights p = list_sum (map weights th) + weights p'.
Proof.
  revert i. induction th as [|q th IH]; intros [|i] H; [done|done| |].
  - cbn in H. injection H as ->. cbn. lia.
  - cbn in H. specialize (IH i H). change (list_sum (map weights (q :: <[i:=p']> th)) + weights p = list_sum (map weights (q :: th)) + weights p').
    cbn [map]. rewrite !list_sum_cons. lia.
Qed.
Lemma local_weight o a p o' p' : local_step o a p o' p' -> weights p = S (weights p').
Proof. by destruct 1. Qed.
Lemma applied_weight p : applied p -> weights p <= 11.
Proof. destruct 1; cbn; lia. Qed.
Lemma step_work s a s' : step s a s' -> a <> Outside -> work_left s' < work_left s.
Proof.
  intros Hs Ha. destruct Hs; try done; unfold work_left; cbn [thr inflight queue fsm snd].
  - apply local_weight in H0. assert (X := sum_insert _ _ _ p' H). lia.
  - assert (X := sum_insert _ _ _ r H). rewrite weights_cons in X. rewrite app_length. unfold prog in *. cbn [length weight] in *. lia.
  - assert (X := sum_insert _ _ _ r H). rewrite weights_cons in X. unfold prog in *. cbn [weight] in X. lia.
  - rewrite !app_length, map_app, list_sum_app. cbn [length map]. rewrite list_sum_cons. cbn [snd list_sum fold_right]. assert (X := applied_weight _ H). lia.
  - rewrite !app_length. cbn [length]. lia.
  - cbn [map]. rewrite list_sum_cons. lia.
  - apply local_weight in H. lia.
  - unfold weights. cbn. lia.
Qed.
Lemma drains_bound s n s' : drains s n s' -> n + work_left s' <= work_left s.
Proof. induction 1 as [|s a s' n s'' Ha Hs _ IH]; [done|]. apply step_work in Hs; [lia|done]. Qed.
Lemma drains_reach s n s' : reach s -> drains s n s' -> reach s'.
Proof. intros Hr. induction 1 as [|s a s' n s'' Ha Hs _ IH]; [done|]. apply IH. by eapply r_step. Qed.
Lemma all_done s : reach s -> (exists n, forall k s', drains s k s' -> k <= n) /\
  forall k s', drains s k s' -> (forall a s'', a <> Outside -> ~ step s' a s'') -> idle s'.
Proof.
  intros Hr. split.
  - exists (work_left s). intros k s' H. apply drains_bound in H. lia.
  - intros k s' Hd Hn. apply stuck_idle; [by eapply drains_reach|done].
Qed.

(** ** Races *)
Lemma user_holds s a x w : inv s -> next s a = Some (Use x w) -> (is_fields x && negb w) = true \/
  match lock_of x with Some m => owner s m = Some a | None => a = Fsm end.
Proof.
  intros [H1 H2 H3 H4 H5] Hn. destruct a as [i| | |]; [| |done|done]; cbn in Hn.
  - destruct (thr s !! i) as [[|y r]|] eqn:E; try done. injection Hn as ->. destruct (H1 i _ E) as (h & sub & A & _ & C & _).
    cbn in A. apply andb_true_iff in A as (A & _). unfold may_use in A. apply orb_true_iff in A as [A|A]; [by left|right].
    destruct (lock_of x) as [m|]; [|done]. apply C. by apply bool_decide_eq_true_1 in A.
  - destruct (fsm s) as [[j [|y r]]|] eqn:E; try done. injection Hn as ->. destruct (H2 j _ eq_refl) as (h & A & _ & _ & _ & C).
    cbn in A. apply andb_true_iff in A as (A & _). unfold may_use in A. apply orb_true_iff in A as [A|A]; [by left|right].
    destruct (lock_of x) as [m|]; [|done]. apply C. by apply bool_decide_eq_true_1 in A.
Qed.
Lemma no_race s x a b w : reach s -> race s x a b w -> is_fields x = true /\ w = false.
Proof.
  intros Hi%reach_inv (Hne & Ha & Hb). apply (user_holds s a x true Hi) in Ha as [Ha|Ha]; [by rewrite andb_false_r in Ha|].
  apply (user_holds s b x w Hi) in Hb as [Hb|Hb].
  - apply andb_true_iff in Hb as (? & ?). split; [done|]. by destruct w.
  - destruct (lock_of x); congruence.
Qed.

(** ** The race there is: the file's content is read while the next save writes *)
Ltac go_work i := match goal with H : reach _ |- _ => eapply (r_step _ (T i)) in H; [|first
  [ eapply s_local; [reflexivity|first [apply l_work | apply l_use | apply l_acq; reflexivity | apply l_rel; vm_compute; discriminate]]
  | eapply s_submit; reflexivity ]]; cbn [app insert list_insert] in H end.
Ltac go_fsm := match goal with H : reach _ |- _ => eapply (r_step _ Fsm) in H; [|first
  [ apply s_take | eapply s_apply; first [apply l_work | apply l_use | apply l_acq; reflexivity | apply l_rel; vm_compute; discriminate]]];
  cbn [app] in H end.
(** raft's goroutine applies one state, and begins to apply the next one while the goroutine that the first Save started
    reads the fields for the file *)
Lemma save_race : exists s, reach s /\ race s (Fields SLss) Fsm (T 0) false.
Proof.
  pose proof r_start as H. unfold process_start in H.
  eapply (r_step _ Outside) in H; [|apply s_entry; exact a_lss]. cbn [app] in H.
  eapply (r_step _ Outside) in H; [|apply s_entry; exact a_lss]. cbn [app] in H.
  unfold save_lss, cosigner_save, save, less_or_equal, under, locked in H. cbn [app] in H.
  do 7 go_fsm.
  eapply (r_step _ Outside) in H; [|apply s_start; apply (g_save_file SLss); discriminate]. unfold save_file in H. cbn [app] in H.
  do 5 go_fsm.
  eapply (r_step _ Fsm) in H; [|apply s_applied]. do 5 go_fsm.
  eexists. split; [exact H|]. split; [discriminate|]. split; reflexivity.
Qed.
Lemma race_exists : exists s x a b w, reach s /\ race s x a b w.
Proof. destruct save_race as (s & Hr & Ha). by exists s, (Fields SLss), Fsm, (T 0), false. Qed.
