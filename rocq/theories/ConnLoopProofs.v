(** Proofs about the life of a remote signer. *)
From Verif Require Import GoBase Wire Canonical Validator Privval RemoteSigner PrivvalSpec ConnLoop ConnLoopSpec.
Local Open Scope nat_scope.

Lemma talk_app a b : talk (a ++ b) = talk a ++ talk b.
Proof. apply List.filter_app. Qed.
Lemma count_app f a b : count f (a ++ b) = count f a + count f b.
Proof. unfold count. rewrite List.filter_app, app_length. done. Qed.

Section Run.
Context (chain : bytes).

Lemma lrun_app st ls1 ls2 : lrun chain st (ls1 ++ ls2) =
  match lrun chain st ls1 with
  | Some (st1, o1) => match lrun chain st1 ls2 with Some (st2, o2) => Some (st2, o1 ++ o2) | None => None end
  | None => None
  end.
Proof.
  revert st. induction ls1 as [|l ls1 IH]; intros st; simpl.
  - by destruct (lrun chain st ls2) as [[??]|].
  - destruct (lstep chain st l) as [[st1 o]|]; [|done]. rewrite IH.
    destruct (lrun chain st1 ls1) as [[st2 o2]|]; [|done].
    destruct (lrun chain st2 ls2) as [[st3 o3]|]; [|done]. by rewrite app_assoc.
Qed.

Lemma lrun_snoc st ls l st2 tr : lrun chain st (ls ++ [l]) = Some (st2, tr) ->
  exists st1 tr1 o, lrun chain st ls = Some (st1, tr1) /\ lstep chain st1 l = Some (st2, o) /\ tr = tr1 ++ o.
Proof.
  rewrite lrun_app. destruct (lrun chain st ls) as [[st1 o1]|]; [|done]. simpl.
  destruct (lstep chain st1 l) as [[st2' o]|] eqn:E; [|done]. intros [= <- <-].
  exists st1, o1, o. rewrite app_nil_r. by repeat split.
Qed.

Lemma lrun_cons st l ls st2 tr : lrun chain st (l :: ls) = Some (st2, tr) ->
  exists st1 o os, lstep chain st l = Some (st1, o) /\ lrun chain st1 ls = Some (st2, os) /\ tr = o ++ os.
Proof.
  simpl. destruct (lstep chain st l) as [[st1 o]|] eqn:E0; [|done].
  destruct (lrun chain st1 ls) as [[st2' os]|] eqn:E; [|done]. intros [= <- <-]. exists st1, o, os. by repeat split.
Qed.

(** ** The conversation *)
Context (P : signer -> Prop).
Local Notation A := (may_answer P chain).

Definition opened (c : nat) (xs : list exchange) : list lobs := OOpen c :: concat (map (shown c) xs).
Definition talking (st : lstate) (c : nat) (done cur rest : list lobs) : Prop :=
  l_next st = S c /\ sessions A c done /\ exists xs, Forall (exchange_ok A) xs /\ cur = opened c xs ++ rest.

Definition inv (st : lstate) (done cur : list lobs) : Prop :=
  match l_pc st with
  | PTop => match l_conn st with
            | None => sessions A (l_next st) done /\ cur = []
            | Some c => talking st c done cur []
            end
  | PDial => l_conn st = None /\ sessions A (l_next st) done /\ cur = []
  | PEnd => l_running st = false /\ sessions A (l_next st) done /\ cur = []
  | PSecret c => l_next st = S c /\ sessions A c done /\ cur = [OOpen c]
  | PRecheck c | PRead c => l_conn st = Some c /\ talking st c done cur []
  | PHandle c req => exists bs, read_msg bs = Some (req, []) /\ talking st c done cur [OIn c bs req]
  | PWrite c res => exists bs req, read_msg bs = Some (req, []) /\ A req res /\
      talking st c done cur [OIn c bs req; OAsk c req res]
  | PCrash => exists c bs req, talking st c done cur [OIn c bs req]
  end.

Lemma talking_snoc st c done cur bs req res w :
  talking st c done cur [OIn c bs req; OAsk c req res] ->
  read_msg bs = Some (req, []) -> A req res -> write_msg res = Some w ->
  talking st c done (cur ++ [OOut c w]) [].
Proof.
  intros (H1 & H2 & xs & H3 & ->) Hr Ha Hw. split; [done|]. split; [done|].
  exists (xs ++ [Exchange bs req res w]). split.
  - apply Forall_app. split; [done|]. repeat constructor; done.
  - unfold opened. rewrite map_app, concat_app. simpl. rewrite app_nil_r, <- !app_assoc. done.
Qed.

Lemma talking_closed st c done cur rest e :
  talking st c done cur rest -> goodbye A c (rest ++ e) -> sessions A (l_next st) (done ++ cur ++ e).
Proof.
  intros (-> & H2 & xs & H3 & ->) Hg. constructor; [done|]. unfold opened. simpl.
  rewrite <- app_assoc. apply (ses_talk A c xs _ H3 Hg).
Qed.

Lemma cut_prefix res k w : write_msg res = Some w -> exists rest, w = cut res k ++ rest.
Proof. unfold cut. intros ->. exists (drop k w). by rewrite take_drop. Qed.

Lemma inv_step st l st' o done cur :
  inv st done cur -> (match l with LHandle s => P s | _ => True end) -> lstep chain st l = Some (st', o) ->
  exists done' cur', inv st' done' cur' /\ done' ++ cur' = (done ++ cur) ++ talk o.
Proof.
  intros HI HP Hs.
  destruct l as [| |ok|ok|bs| |s| |k].
  - (* Stop *)
    assert (E : st' = LState (l_pc st) false (l_conn st) (l_next st) /\ o = [OStop]).
    { unfold lstep in Hs. destruct (l_pc st); destruct (l_running st); try discriminate; by injection Hs as <- <-. }
    destruct E as [-> ->]. exists done, cur. split; [|by rewrite app_nil_r].
    unfold inv in *. simpl. destruct (l_pc st); try done. naive_solver.
  - destruct st as [pc run conn nx]. unfold lstep, l_pc in Hs.
    destruct pc; try discriminate; injection Hs as Hs.
    + unfold at_top in Hs. simpl in Hs. unfold inv in HI. simpl in HI. destruct run; destruct conn as [c|].
      * injection Hs as <- <-. exists done, cur. split; [|by rewrite app_nil_r]. by split.
      * injection Hs as <- <-. exists done, cur. split; [|by rewrite app_nil_r]. by split.
      * injection Hs as <- <-. exists (done ++ cur ++ [OClose c]), []. split.
        -- split; [done|]. split; [|done]. eapply (talking_closed _ _ _ _ [] [OClose c] HI). constructor.
        -- simpl. by rewrite app_nil_r, app_assoc.
      * injection Hs as <- <-. destruct HI as [H1 ->]. exists done, []. split; [|by rewrite !app_nil_r].
        by split.
    + unfold at_recheck in Hs. simpl in Hs. unfold inv in HI. simpl in HI. destruct HI as [-> HI]. destruct run.
      * injection Hs as <- <-. exists done, cur. split; [|by rewrite app_nil_r]. by split.
      * injection Hs as <- <-. exists (done ++ cur ++ [OClose c]), []. split.
        -- split; [done|]. split; [|done]. eapply (talking_closed _ _ _ _ [] [OClose c] HI). constructor.
        -- simpl. by rewrite app_nil_r, app_assoc.
  - destruct st as [pc run conn nx]. unfold lstep, l_pc in Hs.
    destruct ok; destruct pc; try discriminate; injection Hs as <- <-; unfold inv in HI; simpl in HI;
      destruct HI as (-> & H2 & ->).
    + exists done, [OOpen nx]. split; [|by rewrite app_nil_r]. by repeat split.
    + exists done, []. split; [|by rewrite !app_nil_r]. by repeat split.
  - destruct st as [pc run conn nx]. unfold lstep, l_pc in Hs.
    destruct ok; destruct pc; try discriminate; injection Hs as <- <-; unfold inv in HI; simpl in HI;
      destruct HI as (-> & H2 & ->).
    + exists done, [OOpen c]. split; [|by rewrite app_nil_r]. split; [done|]. split; [done|]. split; [done|].
      exists []. by split.
    + exists (done ++ [OOpen c]), []. split; [|by rewrite !app_nil_r]. split; [done|]. split; [|done].
      constructor; [done|]. constructor.
  - destruct st as [pc run conn nx]. unfold lstep, l_pc in Hs. destruct pc; try discriminate.
    destruct (read_msg bs) as [[req [|]]|] eqn:Er; try discriminate. injection Hs as <- <-.
    unfold inv in HI; simpl in HI. destruct HI as (-> & H1 & H2 & xs & H3 & ->).
    exists done, ((opened c xs ++ []) ++ [OIn c bs req]). split; [|by rewrite app_assoc].
    exists bs. split; [done|]. split; [done|]. split; [done|]. exists xs. rewrite app_nil_r. done.
  - destruct st as [pc run conn nx]. unfold lstep, l_pc in Hs. destruct pc; try discriminate. injection Hs as <- <-.
    unfold inv in HI; simpl in HI. destruct HI as (-> & HI).
    exists (done ++ cur ++ [OClose c]), []. split; [|by rewrite app_nil_r, app_assoc].
    split; [|done]. eapply (talking_closed _ _ _ _ [] [OClose c] HI). constructor.
  - destruct st as [pc run conn nx]. unfold lstep, l_pc in Hs. destruct pc; try discriminate.
    unfold inv in HI; simpl in HI. destruct HI as (bs & Hr & H1 & H2 & xs & H3 & ->).
    destruct (handle_request s chain req) as [res| |] eqn:Eh; injection Hs as <- <-.
    + exists done, ((opened c xs ++ [OIn c bs req]) ++ [OAsk c req res]). split; [|by rewrite app_assoc].
      exists bs, req. split; [done|]. split; [by exists s|]. split; [done|]. split; [done|]. exists xs.
      rewrite <- app_assoc. done.
    + exists done, (opened c xs ++ [OIn c bs req]). split; [|by rewrite app_nil_r].
      exists c, bs, req. split; [done|]. split; [done|]. by exists xs.
    + exists done, (opened c xs ++ [OIn c bs req]). split; [|by rewrite app_nil_r].
      exists c, bs, req. split; [done|]. split; [done|]. by exists xs.
  - destruct st as [pc run conn nx]. unfold lstep, l_pc in Hs. destruct pc; try discriminate.
    destruct (write_msg res) as [w|] eqn:Ew; try discriminate. injection Hs as <- <-.
    unfold inv in HI; simpl in HI. destruct HI as (bs & req & Hr & Ha & HI).
    exists done, (cur ++ [OOut c w]). split; [|by rewrite app_assoc].
    eapply (talking_snoc _ _ _ _ _ _ _ _ HI Hr Ha Ew).
  - destruct st as [pc run conn nx]. unfold lstep, l_pc in Hs. destruct pc; try discriminate. injection Hs as <- <-.
    unfold inv in HI; simpl in HI. destruct HI as (bs & req & Hr & Ha & HI).
    exists (done ++ cur ++ [OOut c (cut res k); OClose c]), []. split; [|by rewrite app_nil_r, app_assoc].
    split; [|done]. eapply (talking_closed _ _ _ _ _ _ HI). simpl. eapply bye_write; [done|done| |].
    + intros w Hw. by apply cut_prefix.
    + unfold cut. by intros ->.
Qed.

Lemma inv_run ls st tr : lrun chain l0 ls = Some (st, tr) -> validators P ls ->
  exists done cur, inv st done cur /\ talk tr = done ++ cur.
Proof.
  revert st tr. induction ls as [|l ls IH] using rev_ind; intros st tr Hr HV.
  - injection Hr as <- <-. exists [], []. split; [|done]. split; [constructor|done].
  - apply lrun_snoc in Hr as (st1 & tr1 & o & Hr & Hs & ->).
    apply Forall_app in HV as [HV Hl]. inversion_clear Hl as [|?? Hl' _].
    destruct (IH _ _ Hr HV) as (done & cur & HI & E).
    destruct (inv_step _ _ _ _ _ _ HI Hl' Hs) as (done' & cur' & HI' & E').
    exists done', cur'. split; [done|]. by rewrite talk_app, E, E'.
Qed.


Theorem conversation ls st tr : lrun chain l0 ls = Some (st, tr) -> validators P ls ->
  exists n done cur, talk tr = done ++ cur /\ sessions A n done /\
    (cur = [] \/ exists xs rest, Forall (exchange_ok A) xs /\ unfinished A n rest /\
       cur = OOpen n :: concat (map (shown n) xs) ++ rest).
Proof.
  intros Hr HV.
  assert (HH : exists done cur, inv st done cur /\ talk tr = done ++ cur /\
    (l_pc st = PCrash -> exists c bs req xs, read_msg bs = Some (req, []) /\ cur = opened c xs ++ [OIn c bs req])).
  { revert st tr Hr. induction ls as [|l ls IH] using rev_ind; intros st tr Hr.
    - destruct (inv_run _ _ _ Hr HV) as (d & c & H1 & H2). exists d, c. injection Hr as <- <-. done.
    - apply lrun_snoc in Hr as (st1 & tr1 & o & Hr & Hs & ->).
      apply Forall_app in HV as [HV Hl]. inversion_clear Hl as [|?? Hl' _].
      destruct (IH HV _ _ Hr) as (done & cur & HI & E & _).
      destruct (inv_step _ _ _ _ _ _ HI Hl' Hs) as (done' & cur' & HI' & E').
      destruct (l_pc st) eqn:Epc; try (exists done', cur'; split; [done|]; split; [by rewrite talk_app, E, E'|done]).
      destruct l as [| |[]|[]|bs| |s| |k]; unfold lstep, at_top, at_recheck in Hs;
        destruct (l_pc st1) eqn:Epc1; repeat case_match; try discriminate; injection Hs as <- <-; simpl in Epc; try discriminate.
      all: unfold inv in HI; rewrite Epc1 in HI; destruct HI as (bs & Hb & H1 & H2 & xs & H3 & ->).
      all: exists done, (opened c xs ++ [OIn c bs req]); rewrite talk_app, E; simpl; rewrite app_nil_r; split;
        [|split; [done|]; intros _; by exists c, bs, req, xs].
      all: unfold inv; simpl; exists c, bs, req; split; [done|]; split; [done|]; by exists xs. }
  destruct HH as (done & cur & HI & E & HC). unfold inv in HI.
  assert (Htalk : forall c rest, talking st c done cur rest -> unfinished A c rest ->
    exists n done' cur', talk tr = done' ++ cur' /\ sessions A n done' /\
    (cur' = [] \/ exists xs rest, Forall (exchange_ok A) xs /\ unfinished A n rest /\
       cur' = OOpen n :: concat (map (shown n) xs) ++ rest)).
  { intros c rest (H1 & H2 & xs & H3 & ->) Hu. exists c, done, (opened c xs ++ rest). split; [done|]. split; [done|].
    right. by exists xs, rest. }
  assert (Hnone : forall n, sessions A n done -> cur = [] ->
    exists n done' cur', talk tr = done' ++ cur' /\ sessions A n done' /\
    (cur' = [] \/ exists xs rest, Forall (exchange_ok A) xs /\ unfinished A n rest /\
       cur' = OOpen n :: concat (map (shown n) xs) ++ rest)).
  { intros n H1 H2. exists n, done, cur. split; [done|]. split; [done|]. by left. }
  destruct (l_pc st) as [| |c|c|c|c req|c res| |] eqn:Epc.
  - destruct (l_conn st) as [c|]; [by eapply Htalk; [|left]|]. destruct HI. eauto.
  - destruct HI as (_ & ? & ?). eauto.
  - destruct HI as (_ & H2 & ->). exists c, done, [OOpen c]. split; [done|]. split; [done|].
    right. exists [], []. split; [done|]. split; [by left|]. done.
  - destruct HI as [_ HI]. by eapply Htalk; [|left].
  - destruct HI as [_ HI]. by eapply Htalk; [|left].
  - destruct HI as (bs & Hb & HI). eapply Htalk; [exact HI|]. right. left. by exists bs, req.
  - destruct HI as (bs & req & Hb & Ha & HI). eapply Htalk; [exact HI|]. right. right. by exists bs, req, res.
  - destruct HI as (_ & ? & ?). eauto.
  - destruct (HC eq_refl) as (c & bs & req & xs & Hb & Ec). destruct HI as (c' & bs' & req' & H1 & H2 & xs' & H3 & Ec').
    eapply (Htalk c' [OIn c' bs' req']); [by split; [|split; [|exists xs']]|]. right. left.
    exists bs', req'. split; [done|]. rewrite Ec in Ec'. apply app_inj_tail in Ec' as [_ [= <- <- <-]]. done.
Qed.

(** ** After Stop *)

(** messages that may still come in, and questions that may still be asked *)
Definition ins_left (st : lstate) : nat := match l_pc st with PRead _ => 1 | _ => 0 end.
Definition asks_left (st : lstate) : nat := match l_pc st with PRead _ | PHandle _ _ => 1 | _ => 0 end.
Definition held (pc : lpc) : option nat :=
  match pc with PSecret c | PRecheck c | PRead c | PHandle c _ | PWrite c _ => Some c | _ => None end.

Lemma stopped_step st l st' o : l_running st = false -> lstep chain st l = Some (st', o) ->
  l_running st' = false /\ count is_in o + ins_left st' <= ins_left st /\
  count is_ask o + asks_left st' <= asks_left st /\
  (forall c bs req, OIn c bs req ∈ o -> l_pc st = PRead c) /\
  (forall c req res, OAsk c req res ∈ o -> l_pc st = PHandle c req).
Proof.
  intros Hn Hs. destruct st as [pc run conn nx]. simpl in Hn. subst run.
  destruct l as [| |[]|[]|bs| |s| |k]; unfold lstep, at_top, at_recheck in Hs; simpl in Hs;
    destruct pc; repeat case_match; try discriminate; injection Hs as <- <-; unfold ins_left, asks_left, count; simpl;
    (split; [done|]; split; [lia|]; split; [lia|]); split; intros;
    repeat match goal with H : _ ∈ [] |- _ => by apply elem_of_nil in H
      | H : _ ∈ _ :: _ |- _ => apply elem_of_cons in H as [H|H]; [try discriminate; try (injection H as ? ? ?; subst; done)|] end.
Qed.

Lemma stopped_run st ls st' tr : l_running st = false -> lrun chain st ls = Some (st', tr) ->
  l_running st' = false /\ count is_in tr + ins_left st' <= ins_left st /\
  count is_ask tr + asks_left st' <= asks_left st /\
  (forall c bs req, OIn c bs req ∈ tr -> l_pc st = PRead c) /\
  (forall c req res, OAsk c req res ∈ tr -> l_pc st = PRead c \/ l_pc st = PHandle c req).
Proof.
  revert st tr. induction ls as [|l ls IH]; intros st tr Hn Hr.
  - injection Hr as <- <-. split; [done|]. split; [done|]. split; [done|].
    by split; intros ??? [] %elem_of_nil.
  - apply lrun_cons in Hr as (st1 & o & os & Hs & Hr & ->).
    destruct (stopped_step _ _ _ _ Hn Hs) as (H1 & H2 & H3 & H4 & H5).
    destruct (IH _ _ H1 Hr) as (G1 & G2 & G3 & G4 & G5). split; [done|]. rewrite !count_app.
    split; [lia|]. split; [lia|]. split.
    + intros c bs req [Hi|Hi]%elem_of_app; [by eapply H4|]. exfalso.
      specialize (G4 _ _ _ Hi). clear -Hs G4 Hn. destruct st as [pc run conn nx]. simpl in Hn. subst run.
      destruct l as [| |[]|[]|bs'| |s| |k]; unfold lstep, at_top, at_recheck in Hs; simpl in Hs;
        destruct pc; repeat case_match; try discriminate; injection Hs as <- <-; discriminate.
    + intros c req res [Hi|Hi]%elem_of_app; [right; by eapply H5|].
      destruct (G5 _ _ _ Hi) as [G|G]; clear -Hs G Hn; destruct st as [pc run conn nx]; simpl in Hn; subst run;
      destruct l as [| |[]|[]|bs'| |s| |k]; unfold lstep, at_top, at_recheck in Hs; simpl in Hs;
        destruct pc; repeat case_match; try discriminate; injection Hs as <- <-; try discriminate.
      injection G as <- <-. by left.
Qed.

(** the connection in use has been opened *)
Lemma held_opened ls st tr c : lrun chain l0 ls = Some (st, tr) ->
  (held (l_pc st) = Some c \/ l_conn st = Some c) -> OOpen c ∈ tr.
Proof.
  revert st tr. induction ls as [|l ls IH] using rev_ind; intros st tr Hr Hh.
  - injection Hr as <- <-. by destruct Hh.
  - apply lrun_snoc in Hr as (st1 & tr1 & o & Hr & Hs & ->). specialize (IH _ _ Hr).
    destruct st1 as [pc run conn nx].
    destruct l as [| |[]|[]|bs'| |s| |k]; unfold lstep, at_top, at_recheck in Hs; simpl in Hs;
        destruct pc; repeat case_match; try discriminate; injection Hs as <- <-; simpl in Hh, IH;
        rewrite elem_of_app, ?elem_of_cons; naive_solver.
Qed.

Theorem after_stop ls1 ls2 st1 st2 tr1 tr2 :
  lrun chain l0 ls1 = Some (st1, tr1) -> lrun chain st1 (LStop :: ls2) = Some (st2, tr2) ->
  count is_in tr2 <= 1 /\ count is_ask tr2 <= 1 /\
  (forall c bs req, OIn c bs req ∈ tr2 -> OOpen c ∈ tr1) /\
  (forall c req res, OAsk c req res ∈ tr2 -> OOpen c ∈ tr1).
Proof.
  intros Hr1 Hr2. apply lrun_cons in Hr2 as (st & o & os & Hs & Hr2 & ->).
  assert (E : st = LState (l_pc st1) false (l_conn st1) (l_next st1) /\ o = [OStop]).
  { unfold lstep in Hs. destruct (l_pc st1); destruct (l_running st1); try discriminate; by injection Hs as <- <-. }
  destruct E as [-> ->].
  destruct (stopped_run (LState (l_pc st1) false (l_conn st1) (l_next st1)) _ _ _ eq_refl Hr2) as (_ & H2 & H3 & H4 & H5).
  change (count is_in ([OStop] ++ os)) with (count is_in os). change (count is_ask ([OStop] ++ os)) with (count is_ask os).
  unfold ins_left, asks_left in *. simpl in *.
  assert (match l_pc st1 with PRead _ => 1 | _ => 0 end <= 1) by (destruct (l_pc st1); lia).
  assert (match l_pc st1 with PRead _ | PHandle _ _ => 1 | _ => 0 end <= 1) by (destruct (l_pc st1); lia).
  split; [lia|]. split; [lia|]. split.
  - intros c bs req [Hi|Hi]%elem_of_cons; [done|]. eapply held_opened; [exact Hr1|]. left. by rewrite (H4 _ _ _ Hi).
  - intros c req res [Hi|Hi]%elem_of_cons; [done|]. eapply held_opened; [exact Hr1|]. left.
    destruct (H5 _ _ _ Hi) as [-> | ->]; done.
Qed.

(** ** The end *)

Lemma end_seen ls st tr : lrun chain l0 ls = Some (st, tr) ->
  (l_pc st = PEnd <-> OEnd ∈ tr) /\ (l_pc st = PCrash <-> OCrash ∈ tr) /\ (l_running st = false <-> OStop ∈ tr).
Proof.
  revert st tr. induction ls as [|l ls IH] using rev_ind; intros st tr Hr.
  - injection Hr as <- <-. rewrite !elem_of_nil. done.
  - apply lrun_snoc in Hr as (st1 & tr1 & o & Hr & Hs & ->). specialize (IH _ _ Hr). clear Hr.
    destruct st1 as [pc run conn nx].
    destruct l as [| |[]|[]|bs'| |s| |k]; unfold lstep, at_top, at_recheck in Hs; simpl in Hs;
        destruct pc; repeat case_match; try discriminate; injection Hs as <- <-; simpl in IH |- *;
        rewrite !elem_of_app, ?elem_of_cons, ?elem_of_nil; clear -IH; naive_solver.
Qed.

Definition steps_left (st : lstate) : nat :=
  match l_pc st with
  | PTop => 1 | PDial => 3 | PSecret _ => 2 | PRecheck _ => 1 | PRead _ => 4 | PHandle _ _ => 3 | PWrite _ _ => 2
  | PEnd | PCrash => 0
  end.
Lemma steps_left_step st l st' o : l_running st = false -> connects l = true -> lstep chain st l = Some (st', o) ->
  steps_left st' < steps_left st.
Proof.
  intros Hn Hc Hs. destruct st as [pc run conn nx]. simpl in Hn. subst run.
  destruct l as [| |[]|[]|bs| |s| |k]; try discriminate Hc; unfold lstep, at_top, at_recheck in Hs; simpl in Hs;
    destruct pc; repeat case_match; try discriminate; injection Hs as <- <-; unfold steps_left; simpl; lia.
Qed.
Lemma steps_left_run st ls st' tr : l_running st = false -> Forall (fun l => connects l = true) ls ->
  lrun chain st ls = Some (st', tr) -> length ls + steps_left st' <= steps_left st.
Proof.
  revert st tr. induction ls as [|l ls IH]; intros st tr Hn Hc Hr.
  - injection Hr as <- <-. done.
  - apply lrun_cons in Hr as (st1 & o & os & Hs & Hr & ->). inversion_clear Hc as [|?? Hc1 Hc2].
    pose proof (steps_left_step _ _ _ _ Hn Hc1 Hs).
    assert (l_running st1 = false) as Hn1 by (by destruct (stopped_step _ _ _ _ Hn Hs)).
    pose proof (IH _ _ Hn1 Hc2 Hr). simpl. lia.
Qed.

(** something can always happen: the signer does not get stuck by itself *)
Lemma some_step st : l_pc st <> PEnd -> l_pc st <> PCrash ->
  exists l, connects l = true /\ l <> LStop /\ lstep chain st l <> None.
Proof.
  intros H1 H2. unfold lstep. destruct (l_pc st) eqn:E; try done.
  - by exists LStep.
  - by exists (LDial true).
  - by exists (LSecret true).
  - by exists LStep.
  - by exists LReadErr.
  - exists (LHandle (Signer Panic (fun _ _ => Panic) (fun _ _ => Panic))). split; [done|]. split; [done|].
    by destruct (handle_request _ _ _).
  - by exists (LWriteErr 0).
Qed.

Theorem ends_after_stop ls1 ls2 st tr :
  lrun chain l0 (ls1 ++ LStop :: ls2) = Some (st, tr) -> Forall (fun l => connects l = true) ls2 ->
  length ls2 <= 4 /\
  (OEnd ∈ tr \/ OCrash ∈ tr \/ exists l, connects l = true /\ lstep chain st l <> None).
Proof.
  intros Hr Hc. pose proof (end_seen _ _ _ Hr) as (E1 & E2 & _).
  rewrite lrun_app in Hr. destruct (lrun chain l0 ls1) as [[st1 tr1]|]; [|done].
  destruct (lrun chain st1 (LStop :: ls2)) as [[st2 tr2]|] eqn:Hr2; [|done]. injection Hr as -> <-.
  apply lrun_cons in Hr2 as (st' & o & os & Hs & Hr2 & ->).
  assert (E : st' = LState (l_pc st1) false (l_conn st1) (l_next st1) /\ o = [OStop]).
  { unfold lstep in Hs. destruct (l_pc st1); destruct (l_running st1); try discriminate; by injection Hs as <- <-. }
  destruct E as [-> ->]. split.
  - pose proof (steps_left_run (LState (l_pc st1) false (l_conn st1) (l_next st1)) _ _ _ eq_refl Hc Hr2).
    assert (steps_left (LState (l_pc st1) false (l_conn st1) (l_next st1)) <= 4) by (unfold steps_left; simpl; destruct (l_pc st1); lia).
    lia.
  - assert (D1 : l_pc st = PEnd \/ l_pc st <> PEnd) by (destruct (l_pc st); auto).
    assert (D2 : l_pc st = PCrash \/ l_pc st <> PCrash) by (destruct (l_pc st); auto).
    destruct D1 as [D1|D1]; [left; by apply E1|]. destruct D2 as [D2|D2]; [right; left; by apply E2|].
    right. right. destruct (some_step _ D1 D2) as (l & H1 & _ & H2). by exists l.
Qed.

(** ** Connections left open *)

Definition current (st : lstate) : option nat :=
  match l_pc st with
  | PSecret c | PRecheck c | PRead c | PHandle c _ | PWrite c _ => Some c
  | PTop => l_conn st
  | PCrash => l_conn st
  | PDial | PEnd => None
  end.
Definition openinv (st : lstate) (tr : list lobs) (R : list nat) : Prop :=
  NoDup R /\ (forall c, c ∈ R -> c < l_next st) /\ (forall c, current st = Some c -> c < l_next st /\ c ∉ R) /\
  (forall c, left_open tr c <-> c ∈ R \/ current st = Some c) /\
  (forall c, OOpen c ∈ tr \/ OClose c ∈ tr -> c < l_next st) /\
  (l_pc st = PDial -> l_conn st = None) /\
  (forall c, held (l_pc st) = Some c -> l_conn st = None \/ l_conn st = Some c) /\
  (forall c, l_pc st = PRecheck c -> l_conn st = Some c).

Lemma openinv_keep st tr R st' o : openinv st tr R -> l_next st' = l_next st -> current st' = current st ->
  (forall c, OOpen c ∉ o) -> (forall c, OClose c ∉ o) ->
  (l_pc st' = PDial -> l_conn st' = None) ->
  (forall c, held (l_pc st') = Some c -> l_conn st' = None \/ l_conn st' = Some c) ->
  (forall c, l_pc st' = PRecheck c -> l_conn st' = Some c) ->
  openinv st' (tr ++ o) R.
Proof.
  intros (H1 & H2 & H3 & H4 & H5 & _) En Ec Ho Hc Hd Hh Hk. unfold openinv. rewrite En, Ec.
  split; [done|]. split; [done|]. split; [done|]. split; [|split; [|done]].
  - intros c. rewrite <- H4. unfold left_open. rewrite !elem_of_app. specialize (Ho c). specialize (Hc c). tauto.
  - intros c. rewrite !elem_of_app. specialize (H5 c). specialize (Ho c). specialize (Hc c). tauto.
Qed.

Lemma openinv_close st tr R st' o c : openinv st tr R -> l_next st' = l_next st -> current st = Some c ->
  current st' = None ->
  (forall c', OOpen c' ∉ o) -> (forall c', OClose c' ∈ o <-> c' = c) ->
  (l_pc st' = PDial -> l_conn st' = None) ->
  (forall c, held (l_pc st') = Some c -> l_conn st' = None \/ l_conn st' = Some c) ->
  (forall c, l_pc st' = PRecheck c -> l_conn st' = Some c) ->
  openinv st' (tr ++ o) R.
Proof.
  intros (H1 & H2 & H3 & H4 & H5 & _) En Ec Ec' Ho Hc Hd Hh Hk. unfold openinv. rewrite En, Ec'.
  split; [done|]. split; [done|]. split; [done|]. split; [|split; [|done]].
  - intros c'. specialize (H4 c'). unfold left_open in *. rewrite !elem_of_app. specialize (Ho c').
    rewrite (Hc c'). rewrite Ec in H4. destruct (H3 _ Ec) as [_ Hn]. split.
    + intros [[Hi|Hi] Hx]; [|done]. left. destruct H4 as [H4 _]. destruct H4 as [H4|H4]; [split; [done|]; tauto|done|].
      injection H4 as ->. tauto.
    + intros [Hi|Hi]; [|done]. destruct H4 as [_ H4]. destruct (H4 (or_introl Hi)). split; [by left|]. intros [?| ->]; done.
  - intros c'. rewrite !elem_of_app, (Hc c'). specialize (H5 c'). specialize (Ho c'). destruct (H3 _ Ec) as [Hlt _].
    intros [[?|?]|[?| ->]]; tauto.
Qed.

Lemma open_step st l st' o tr R : openinv st tr R -> lstep chain st l = Some (st', o) ->
  exists R', openinv st' (tr ++ o) R' /\ length R' = length R + (if refused l then 1 else 0).
Proof.
  intros HI Hs. pose proof HI as (H1 & H2 & H3 & H4 & H5 & H6 & H7 & H8). destruct st as [pc run conn nx].
  destruct l as [| |[]|[]|bs| |s| |k]; unfold lstep, at_top, at_recheck in Hs; simpl in Hs;
    destruct pc; repeat case_match; try discriminate; injection Hs as <- <-; simpl refused;
    simpl in H6, H7, H8; try specialize (H6 eq_refl); try specialize (H8 _ eq_refl); subst; cbn iota;
    try (exists R; split; [|lia]; eapply openinv_keep; [exact HI|reflexivity|reflexivity|..]; simpl;
         first [set_solver | naive_solver | idtac]; fail).
all: try (exists R; split; [|lia]; eapply openinv_close; [exact HI|reflexivity|reflexivity|reflexivity|..]; simpl;
         first [set_solver | naive_solver | idtac]; fail).
  - (* a connection is opened *)
    exists R. split; [|lia]. assert (Hn : OClose nx ∉ tr) by (intros Hx; assert (nx < nx) by (apply H5; by right); lia).
    unfold openinv, current in *. simpl in *.
    split; [done|]. split; [intros c Hc; specialize (H2 c Hc); lia|]. split.
    { intros c [= <-]. split; [lia|]. intros Hc. specialize (H2 _ Hc). lia. }
    split; [|split; [|split; [done|split; [intros c; by left|done]]]].
    + intros c. specialize (H4 c). unfold left_open in *. rewrite !elem_of_app, !elem_of_list_singleton. split.
      * intros [[Hc|[= ->]] Hx]; [|by right]. left. destruct H4 as [H4 _]. destruct H4 as [?|?]; [|done|done]. split; [done|]. tauto.
      * intros [Hc|[= <-]].
        -- destruct H4 as [_ H4]. destruct (H4 (or_introl Hc)). split; [by left|]. intros [?|?]; done.
        -- split; [by right|]. intros [?|?]; done.
    + intros c. rewrite !elem_of_app, !elem_of_list_singleton. specialize (H5 c). intros [[?|[= ->]]|[?|?]]; [|lia| |done];
      assert (c < nx) by tauto; lia.
  - (* a connection is given up *)
    exists (c :: R). split; [|simpl; lia]. rewrite app_nil_r. unfold openinv, current in *. simpl in *.
    destruct (H3 _ eq_refl) as [Hlt HnR].
    split; [by apply list.NoDup_cons|]. split.
    { intros c' [-> |Hc]%elem_of_cons; [done|by apply H2]. }
    split; [done|]. split; [|split; [done|split; [done|done]]].
    intros c'. rewrite H4, elem_of_cons. split; [intros [?|[= ->]]; by auto|intros [[-> |?]|?]; by auto].
Qed.

Lemma open_run ls st tr : lrun chain l0 ls = Some (st, tr) ->
  exists R, openinv st tr R /\ length R = length (List.filter refused ls).
Proof.
  revert st tr. induction ls as [|l ls IH] using rev_ind; intros st tr Hr.
  - injection Hr as <- <-. exists []. split; [|done]. unfold openinv, left_open. simpl.
    split; [constructor|]. split; [by intros c []%elem_of_nil|]. split; [done|].
    split; [intros c; rewrite !elem_of_nil; naive_solver|]. split; [intros c; rewrite !elem_of_nil; naive_solver|].
    done.
  - apply lrun_snoc in Hr as (st1 & tr1 & o & Hr & Hs & ->).
    destruct (IH _ _ Hr) as (R & HI & HL). destruct (open_step _ _ _ _ _ _ HI Hs) as (R' & HI' & HL').
    exists R'. split; [done|]. rewrite List.filter_app, app_length, HL', HL. simpl. by destruct (refused l).
Qed.

Theorem connections_left ls st tr : lrun chain l0 ls = Some (st, tr) ->
  exists R, NoDup R /\ (forall c, left_open tr c <-> c ∈ R) /\
    length (List.filter refused ls) <= length R <= length (List.filter refused ls) + 1 /\
    (OEnd ∈ tr -> length R = length (List.filter refused ls)).
Proof.
  intros Hr. destruct (open_run _ _ _ Hr) as (R & (H1 & _ & H3 & H4 & _) & HL).
  pose proof (end_seen _ _ _ Hr) as [He _].
  destruct (current st) as [c|] eqn:Ec.
  - exists (c :: R). destruct (H3 _ eq_refl) as [_ Hn]. split; [by apply list.NoDup_cons|]. split.
    + intros c'. rewrite H4, elem_of_cons. split; [intros [?|[= ->]]; by auto|intros [-> |?]; by auto].
    + simpl. split; [lia|]. intros Hx. apply He in Hx. unfold current in Ec. by rewrite Hx in Ec.
  - exists R. split; [done|]. split; [|split; [lia|done]]. intros c. rewrite H4. split; [intros [?|?]; by auto|by auto].
Qed.

(** ** Progress *)

Definition steps_to_answer (st : lstate) : nat :=
  match l_pc st with
  | PTop => match l_conn st with None => 7 | Some _ => 5 end
  | PDial => 6 | PSecret _ => 5 | PRecheck _ => 4 | PRead _ => 3 | PHandle _ _ => 2 | PWrite _ _ => 1
  | PEnd | PCrash => 0
  end.
Lemma progress_step st l st' o : l_running st = true -> helpful l = true -> lstep chain st l = Some (st', o) ->
  l_running st' = true /\
  (1 + steps_to_answer st' = steps_to_answer st + 5 * count is_out o \/ l_pc st' = PCrash).
Proof.
  intros Hn Hc Hs. destruct st as [pc run conn nx]. simpl in Hn. subst run.
  destruct l as [| |[]|[]|bs| |s| |k]; try discriminate Hc; unfold lstep, at_top, at_recheck in Hs; simpl in Hs;
    destruct pc; repeat case_match; try discriminate; injection Hs as <- <-; unfold steps_to_answer, count; simpl;
    (split; [done|]); first [left; done|right; done].
Qed.
Lemma crash_stays st ls st' tr : l_pc st = PCrash -> lrun chain st ls = Some (st', tr) -> l_pc st' = PCrash.
Proof.
  intros Hp Hr. destruct ls as [|l ls]; [by injection Hr as <- <-|]. simpl in Hr. unfold lstep in Hr. rewrite Hp in Hr.
  destruct l as [| |[]|[]|bs| |s| |k]; done.
Qed.
Lemma progress_run st ls st' tr : l_running st = true -> Forall (fun l => helpful l = true) ls ->
  lrun chain st ls = Some (st', tr) ->
  length ls + steps_to_answer st' = steps_to_answer st + 5 * count is_out tr \/ l_pc st' = PCrash.
Proof.
  revert st tr. induction ls as [|l ls IH]; intros st tr Hn Hc Hr.
  - injection Hr as <- <-. left. unfold count. simpl. lia.
  - apply lrun_cons in Hr as (st1 & o & os & Hs & Hr & ->). inversion_clear Hc as [|?? Hc1 Hc2].
    destruct (progress_step _ _ _ _ Hn Hc1 Hs) as [Hn1 [E|E]].
    + destruct (IH _ _ Hn1 Hc2 Hr) as [E'|E']; [|by right]. left. rewrite count_app. simpl. lia.
    + right. by eapply crash_stays.
Qed.

Lemma steps_to_answer_pos st : l_pc st <> PEnd -> l_pc st <> PCrash -> 0 < steps_to_answer st <= 7.
Proof. unfold steps_to_answer. destruct (l_pc st); try done; intros; repeat case_match; lia. Qed.

Lemma running_not_ended ls st tr : lrun chain l0 ls = Some (st, tr) -> l_running st = true -> l_pc st <> PEnd.
Proof.
  revert st tr. induction ls as [|l ls IH] using rev_ind; intros st tr Hr Hn.
  - by injection Hr as <- <-.
  - apply lrun_snoc in Hr as (st1 & tr1 & o & Hr & Hs & ->). specialize (IH _ _ Hr). destruct st1 as [pc run conn nx].
    destruct l as [| |[]|[]|bs| |s| |k]; unfold lstep, at_top, at_recheck in Hs; simpl in Hs;
      destruct pc; repeat case_match; try discriminate; injection Hs as <- <-; simpl in Hn, IH |- *; try done.
Qed.

Theorem progress ls1 ls2 st1 st2 tr1 tr2 :
  lrun chain l0 ls1 = Some (st1, tr1) -> OStop ∉ tr1 -> Forall (fun l => helpful l = true) ls2 ->
  lrun chain st1 ls2 = Some (st2, tr2) ->
  length ls2 <= 6 + 5 * count is_out tr2 \/ OCrash ∈ tr1 ++ tr2.
Proof.
  intros Hr1 Hns Hh Hr2.
  assert (Hr : lrun chain l0 (ls1 ++ ls2) = Some (st2, tr1 ++ tr2)) by (by rewrite lrun_app, Hr1, Hr2).
  pose proof (end_seen _ _ _ Hr1) as (_ & _ & E3). pose proof (end_seen _ _ _ Hr) as (_ & E2' & _).
  assert (Hn : l_running st1 = true) by (destruct (l_running st1); [done|]; exfalso; by apply Hns, E3).
  assert (Hns2 : OStop ∉ tr2 /\ l_running st2 = true).
  { clear -Hn Hh Hr2. revert st1 tr2 Hn Hr2. induction ls2 as [|l ls IH]; intros st1 tr2 Hn Hr2.
    - injection Hr2 as <- <-. split; [apply not_elem_of_nil|done].
    - apply lrun_cons in Hr2 as (st & o & os & Hs & Hr & ->). inversion_clear Hh as [|?? Hh1 Hh2].
      destruct (progress_step _ _ _ _ Hn Hh1 Hs) as [Hn1 _]. destruct (IH Hh2 _ _ Hn1 Hr). split; [|done].
      rewrite elem_of_app. intros [Hx|Hx]; [|done]. clear -Hs Hx Hh1.
      destruct st1 as [pc run conn nx].
      destruct l as [| |[]|[]|bs| |s| |k]; try discriminate Hh1; unfold lstep, at_top, at_recheck in Hs; simpl in Hs;
        destruct pc; repeat case_match; try discriminate; injection Hs as <- <-; set_solver. }
  destruct (progress_run _ _ _ _ Hn Hh Hr2) as [E|E]; [|right; by apply E2'].
  destruct Hns2 as [_ Hn2]. pose proof (running_not_ended _ _ _ Hr Hn2) as Hne.
  assert (D : l_pc st2 = PCrash \/ l_pc st2 <> PCrash) by (destruct (l_pc st2); auto).
  destruct D as [D|D]; [right; by apply E2'|]. left. pose proof (steps_to_answer_pos _ Hne D).
  assert (l_pc st1 <> PCrash).
  { intros Hx. apply D. by eapply crash_stays. }
  pose proof (steps_to_answer_pos _ (running_not_ended _ _ _ Hr1 Hn) H0). lia.
Qed.
End Run.

(** ** One connection is [serve] *)

Lemma read_uvarint_go_app n l z r rest : read_uvarint_go n l = Some (z, r) -> read_uvarint_go n (l ++ rest) = Some (z, r ++ rest).
Proof.
  revert l z r. induction n as [|n IH]; intros l z r; [done|]. destruct l as [|b l]; [done|]. simpl.
  destruct (bz b <? 128)%Z.
  - destruct (_ && _); [done|]. by intros [= <- <-].
  - destruct (read_uvarint_go n l) as [[v r']|] eqn:E; [|done]. intros [= <- <-]. by rewrite (IH _ _ _ E).
Qed.
Lemma read_msg_app l m r rest : read_msg l = Some (m, r) -> read_msg (l ++ rest) = Some (m, r ++ rest).
Proof.
  unfold read_msg, read_delimited, read_uvarint. destruct (read_uvarint_go 10 l) as [[n r1]|] eqn:E; [|done].
  rewrite (read_uvarint_go_app _ _ _ _ _ E). rewrite app_length.
  destruct ((2 ^ 63 - 1 <=? n)%Z || (max_msg_size <? n)%Z) eqn:Eb.
  { simpl. done. }
  simpl. destruct (Z.of_nat (length r1) <? n)%Z eqn:El; [done|]. apply Z.ltb_ge in El.
  replace (Z.of_nat (length r1 + length rest) <? n)%Z with false by (symmetry; apply Z.ltb_ge; lia).
  rewrite take_app_le, drop_app_le by lia. destruct (unmarshal _ _ _); [|done]. by intros [= <- <-].
Qed.
Lemma read_msg_nonempty l m r : read_msg l = Some (m, r) -> l <> [].
Proof. intros H ->. discriminate H. Qed.

Definition no_signer : signer := Signer Panic (fun _ _ => Panic) (fun _ _ => Panic).

Lemma serve_exchanges chain (ss : nat -> signer) xs n fuel :
  (forall i x, xs !! i = Some x -> handle_request (ss (n + i)) chain (x_req x) = Val (x_res x)) ->
  Forall (fun x => read_msg (x_in x) = Some (x_req x, []) /\ write_msg (x_res x) = Some (x_out x)) xs ->
  length xs < fuel ->
  serve_loop fuel n ss chain (concat (map x_in xs)) = (concat (map x_out xs), EndRead).
Proof.
  revert n fuel. induction xs as [|x xs IH]; intros n fuel Hh HF Hl; (destruct fuel as [|fuel]; [simpl in Hl; lia|]).
  - reflexivity.
  - inversion_clear HF as [|?? [Hr Hw] HF']. simpl. rewrite (read_msg_app _ _ _ _ Hr). simpl.
    assert (Hx := Hh 0 x eq_refl). rewrite Nat.add_0_r in Hx. rewrite Hx, Hw.
    rewrite (IH (S n) fuel).
    + done.
    + intros i y Hi. specialize (Hh (S i) y Hi). by rewrite <- Nat.add_succ_comm in Hh.
    + done.
    + simpl in Hl. lia.
Qed.

Theorem connection_serves P chain xs : Forall (exchange_ok (may_answer P chain)) xs ->
  exists ss, (forall i, i < length xs -> P (ss i)) /\
    serve ss chain (concat (map x_in xs)) = (concat (map x_out xs), EndRead).
Proof.
  intros HF.
  assert (HS : exists sl, Forall2 (fun x s => P s /\ handle_request s chain (x_req x) = Val (x_res x)) xs sl).
  { induction HF as [|x xs (_ & (s & Hs) & _) _ [sl IH]]; [by exists []|]. exists (s :: sl). by constructor. }
  destruct HS as [sl HS]. exists (fun i => nth i sl no_signer). split.
  - intros i Hi. destruct (lookup_lt_is_Some_2 xs i Hi) as [x Hx].
    destruct (Forall2_lookup_l _ _ _ _ _ HS Hx) as (s & Hs & Hp & _). by rewrite (nth_lookup_Some _ _ _ _ Hs).
  - unfold serve. apply serve_exchanges.
    + intros i x Hx. destruct (Forall2_lookup_l _ _ _ _ _ HS Hx) as (s & Hs & _ & Hh).
      by rewrite (nth_lookup_Some _ _ _ _ Hs).
    + eapply list.Forall_impl; [exact HF|]. intros x (H1 & _ & H2). done.
    + clear HS. induction HF as [|x xs (H1 & _) _ IH]; simpl; [lia|]. rewrite app_length.
      apply read_msg_nonempty in H1. destruct (x_in x); [done|]. simpl. lia.
Qed.

(** ** Services *)
Lemma start_signers_spec {A} services (nodes : list A) :
  start_signers services nodes = Some (services ++ repeat (Svc true false) (length nodes)).
Proof.
  revert services. induction nodes as [|x nodes IH]; intros services; simpl; [by rewrite app_nil_r|].
  rewrite IH, <- app_assoc. done.
Qed.
Lemma stop_all_started n : stop_all (repeat (Svc true false) n) = Some (repeat (Svc true true) n).
Proof. induction n as [|n IH]; simpl; [done|]. by rewrite IH. Qed.
