(** What calls of SignBlock leave behind (C96). *)
From Verif Require Import GoBase Goroutines GoroutineSpec.
Local Open Scope Z_scope.

Inductive crun : call -> list event -> call -> Prop :=
| cr_nil c : crun c [] c
| cr_cons c e c' es c'' : step c e = Some c' -> crun c' es c'' -> crun c (e :: es) c''.

Lemma run_calls t p l es l' : prun t p l es l' -> (length l <= length l')%nat /\
  (forall i c, l !! i = Some c -> exists c', l' !! i = Some c' /\ crun c (of_call i es) c') /\
  (forall i c', (length l <= i)%nat -> l' !! i = Some c' -> crun (begin_call t p) (of_call i es) c').
Proof.
  induction 1 as [l|l a l1 es l2 Hs _ (IH0 & IH1 & IH2)].
  - split; [done|]. split; [intros i c H; exists c; split; [done|constructor]|]. intros i c' Hi H. apply lookup_lt_Some in H. lia.
  - destruct Hs as [l|l i c e c' Hc He].
    + rewrite app_length in *. cbn [length] in *. split; [lia|]. split.
      * intros i c H. apply IH1. by apply lookup_app_l_Some.
      * intros i c' Hi H. change (of_call i (None :: es)) with (of_call i es).
        destruct (decide (i = length l)) as [-> |Hne].
        -- destruct (IH1 (length l) (begin_call t p)) as (c2 & H2 & H3); [by apply list_lookup_middle|]. by rewrite H in H2; injection H2 as <-.
        -- apply IH2; [lia|done].
    + rewrite insert_length in *. split; [done|]. split.
      * intros j d Hd. unfold of_call. cbn [omap list_omap]. fold (of_call j es). case_bool_decide as Hb.
        -- subst j. rewrite Hc in Hd. injection Hd as <-. destruct (IH1 i c') as (c2 & H2 & H3); [apply list_lookup_insert; by eapply lookup_lt_Some|].
           exists c2. split; [done|]. by econstructor.
        -- apply IH1. by rewrite list_lookup_insert_ne.
      * intros j d Hj Hd. unfold of_call. cbn [omap list_omap]. fold (of_call j es). case_bool_decide as Hb.
        -- subst j. apply lookup_lt_Some in Hc. lia.
        -- by apply IH2.
Qed.

Lemma oks_cons e es : oks (e :: es) = (if is_ok e then 1 else 0) + oks es.
Proof. unfold oks. rewrite filter_cons. destruct (is_ok e); case_decide; (done || (cbn [length]; lia)). Qed.

(** the invariant of a call; [k]: successful answers so far, [own]: the first wait has begun *)
Definition inv (t : Z) (k : Z) (own : bool) (c : call) : Prop :=
  c_t c = t /\ 0 <= c_asking c /\ 0 <= k /\ 0 <= c_signing c /\ c_count1 c = t - 1 - Z.min k (t - 1) /\
  (own = false -> c_wait1 c = NotStarted) /\ (own = true -> c_wait1 c <> NotStarted) /\
  (c_wait1 c = Ended -> c_count1 c = 0) /\
  match c_place c with
  | AtOwn => own = false /\ c_map c = Z.min k (t - 1) /\ c_signing c = 0 /\ c_wait2 c = NotStarted
  | AtParts => own = true /\ c_map c = Z.min k (t - 1) /\ c_signing c = 0 /\ c_wait2 c = NotStarted
  | AtSigns => c_wait1 c = Ended /\ t - 1 <= c_map c /\ c_count2 c = c_signing c /\ c_wait2 c <> NotStarted /\ (c_wait2 c = Ended -> c_count2 c = 0)
  | Returned => (c_wait2 c = NotStarted /\ c_signing c = 0 /\ c_map c = Z.min k (t - 1)) \/
      (c_wait1 c = Ended /\ t - 1 <= c_map c /\ c_count2 c = c_signing c /\ c_wait2 c <> NotStarted /\ (c_wait2 c = Ended -> c_count2 c = 0))
  end.
Lemma step_inv t k own c e c' : 1 <= t -> inv t k own c -> step c e = Some c' ->
  inv t (k + (if is_ok e then 1 else 0)) (own || is_own e) c'.
Proof.
  intros Ht (E1 & H1 & H2 & H3 & H4 & H5 & H6 & H7 & H8) Hs.
  destruct c as [t0 pl a m n1 w1 s n2 w2]. cbn in *. subst t0.
  destruct e as [ok|ok| | | | | | |]; cbn in Hs.
  - destruct (0 <? a) eqn:Ea; [|done]. rewrite orb_false_r.
    destruct ok; cbn [andb is_ok] in *.
    + destruct (m <? t - 1) eqn:Em; injection Hs as <-; unfold inv; cbn; (split; [done|]); (split; [lia|]); (split; [lia|]); (split; [lia|]);
        destruct pl; naive_solver lia.
    + injection Hs as <-. rewrite Z.add_0_r. unfold inv; cbn. naive_solver lia.
  - destruct pl; try done. injection Hs as <-. rewrite Z.add_0_r by (by destruct ok). destruct H8 as (-> & H8). destruct ok; unfold inv; cbn; naive_solver lia.
  - destruct w1; try done. cbn in Hs. destruct (n1 =? 0) eqn:En; [|done]. injection Hs as <-. cbn. rewrite Z.add_0_r, orb_false_r. unfold inv; cbn.
    destruct pl; naive_solver lia.
  - destruct pl; try done. destruct w1; try done. cbn in Hs. injection Hs as <-. cbn. rewrite Z.add_0_r, orb_false_r. unfold inv; cbn. naive_solver lia.
  - destruct pl; try done. injection Hs as <-. cbn. rewrite Z.add_0_r, orb_false_r. unfold inv; cbn. naive_solver lia.
  - destruct (0 <? s) eqn:Es; [|done]. injection Hs as <-. cbn. rewrite Z.add_0_r, orb_false_r. unfold inv; cbn. destruct pl; naive_solver lia.
  - destruct w2; try done. cbn in Hs. destruct (n2 =? 0) eqn:En; [|done]. injection Hs as <-. cbn. rewrite Z.add_0_r, orb_false_r. unfold inv; cbn.
    destruct pl; naive_solver lia.
  - destruct pl; try done. destruct w2; try done. cbn in Hs. injection Hs as <-. cbn. rewrite Z.add_0_r, orb_false_r. unfold inv; cbn. naive_solver lia.
  - destruct pl; try done. injection Hs as <-. cbn. rewrite Z.add_0_r, orb_false_r. unfold inv; cbn. naive_solver lia.
Qed.
Lemma crun_inv t c es c' : 1 <= t -> crun c es c' -> forall k own, inv t k own c ->
  inv t (k + oks es) (own || existsb is_own es) c'.
Proof.
  intros Ht. induction 1 as [c|c e c1 es c2 Hs _ IH]; intros k own Hi.
  - change (oks []) with 0. cbn [existsb]. by rewrite Z.add_0_r, orb_false_r.
  - rewrite oks_cons. cbn [existsb]. rewrite Z.add_assoc, orb_assoc. apply IH. by apply (step_inv t k own c e c1).
Qed.
Lemma begin_inv t p : 0 <= p -> 1 <= t -> inv t 0 false (begin_call t p).
Proof. intros Hp Ht. unfold inv, begin_call. cbn. naive_solver lia. Qed.
Lemma reach_inv t p es l i c : 0 <= p -> 1 <= t -> prun t p [] es l -> l !! i = Some c ->
  inv t (oks (of_call i es)) (existsb is_own (of_call i es)) c.
Proof.
  intros Hp Ht Hr Hc. destruct (run_calls _ _ _ _ _ Hr) as (_ & _ & H). assert (H1 := H i c (Nat.le_0_l _) Hc).
  assert (H2 := crun_inv t _ _ _ Ht H1 0 false (begin_inv t p Hp Ht)). by rewrite Z.add_0_l, orb_false_l in H2.
Qed.

Lemma no_panic t p es l c : 0 <= p -> 1 <= t -> prun t p [] es l -> c ∈ l -> 0 <= c_count1 c /\ (0 < c_signing c -> 0 < c_count2 c) /\ 0 <= c_asking c /\ 0 <= c_signing c.
Proof.
  intros Hp Ht Hr (i & Hc)%elem_of_list_lookup. destruct (reach_inv _ _ _ _ _ _ Hp Ht Hr Hc) as (E1 & H1 & H2 & H3 & H4 & H5 & H6 & H7 & H8).
  split; [lia|]. split; [|lia]. intros Hs. destruct (c_place c); naive_solver lia.
Qed.
Lemma no_write t p es l i c e c' : 0 <= p -> 1 <= t -> prun t p [] es l -> l !! i = Some c -> 0 < c_signing c -> step c e = Some c' ->
  c_map c' = c_map c.
Proof.
  intros Hp Ht Hr Hc Hs He. destruct (reach_inv _ _ _ _ _ _ Hp Ht Hr Hc) as (E1 & H1 & H2 & H3 & H4 & H5 & H6 & H7 & H8).
  assert (Hm : t - 1 <= c_map c /\ c_place c <> AtParts) by (destruct (c_place c); naive_solver lia). destruct Hm as (Hm & Hp2).
  destruct e; cbn in He; try (destruct (c_place c); try done; repeat case_match; try done; by injection He as <-).
  - destruct (0 <? c_asking c); [|done]. rewrite E1 in He. destruct (c_map c <? t - 1) eqn:X; [lia|]. rewrite andb_false_r in He. by injection He as <-.
Qed.

Lemma settled_call t k own c : 1 <= t -> inv t k own c -> (forall e, step c e = None) ->
  c_place c = Returned /\ live c = (if own && (k <? t - 1) then 1 else 0).
Proof.
  intros Ht (E1 & H1 & H2 & H3 & H4 & H5 & H6 & H7 & H8) Hs.
  assert (A := Hs (PeerParts false)). assert (B := Hs SignEnds). assert (C := Hs WaiterEnds1). assert (D := Hs WaiterEnds2).
  assert (F := Hs (OwnParts true)). assert (G := Hs TimeOut1). assert (I := Hs TimeOut2). clear Hs.
  destruct c as [t0 pl a m n1 w1 s n2 w2]. cbn in *. subst t0.
  destruct pl; try done. split; [done|]. unfold live. cbn.
  destruct (0 <? a) eqn:Ea; [done|]. destruct (0 <? s) eqn:Es; [done|].
  replace a with 0 by lia. replace s with 0 in * by lia.
  assert (Hw2 : alive w2 = 0).
  { destruct w2; try done. cbn in D. destruct (n2 =? 0) eqn:En; [done|]. naive_solver lia. }
  rewrite Hw2. destruct own; cbn [andb].
  - destruct w1; cbn in *; [naive_solver| |].
    + destruct (n1 =? 0) eqn:En; [done|]. destruct (k <? t - 1) eqn:Ek; lia.
    + assert (n1 = 0) by naive_solver. destruct (k <? t - 1) eqn:Ek; lia.
  - rewrite H5 by done. done.
Qed.
Lemma returned t p es l c : 0 <= p -> 1 <= t -> prun t p [] es l -> settled l -> c ∈ l -> c_place c = Returned.
Proof.
  intros Hp Ht Hr Hs (i & Hc)%elem_of_list_lookup. apply (settled_call t _ _ c Ht (reach_inv _ _ _ _ _ _ Hp Ht Hr Hc)). intros e. by apply (Hs i).
Qed.

Lemma goroutines_sum (f : nat -> bool) l n : (forall i c, l !! i = Some c -> live c = (if f (n + i)%nat then 1 else 0)) ->
  goroutines l = Z.of_nat (length (filter (fun i => f i = true) (seq n (length l)))).
Proof.
  revert n. induction l as [|c l IH]; intros n H; [done|]. cbn [goroutines fold_right length seq]. fold (goroutines l).
  rewrite (IH (S n)) by (intros i d Hd; rewrite Nat.add_succ_comm; apply (H (S i)); done).
  rewrite (H 0%nat c eq_refl), Nat.add_0_r, filter_cons. destruct (f n); case_decide; (done || (cbn [length]; lia)).
Qed.
Lemma left_over t p es l : 0 <= p -> 1 <= t -> prun t p [] es l -> settled l -> goroutines l = count_short t es (length l).
Proof.
  intros Hp Ht Hr Hs. apply goroutines_sum. intros i c Hc. apply (settled_call t _ _ c Ht (reach_inv _ _ _ _ _ _ Hp Ht Hr Hc)). intros e. by apply (Hs i).
Qed.

(** every call comes to an end *)
Definition started (w : waiter) : Z := if ended w then 0 else 1.
Definition rank (t : Z) (p : place) : Z := match p with AtOwn => 3 + t | AtParts => 2 + t | AtSigns => 1 | Returned => 0 end.
Definition todo (c : call) : Z := c_asking c + c_signing c + started (c_wait1 c) + started (c_wait2 c) + rank (c_t c) (c_place c).
Lemma step_todo t k own c e c' : 1 <= t -> inv t k own c -> step c e = Some c' -> todo c' < todo c.
Proof.
  intros Ht (E1 & H1 & H2 & H3 & H4 & H5 & H6 & H7 & H8) Hs.
  destruct c as [t0 pl a m n1 w1 s n2 w2]. cbn in *. subst t0.
  destruct e as [ok|ok| | | | | | |]; cbn in Hs.
  - destruct (0 <? a) eqn:Ea; [|done]. destruct (ok && (m <? t - 1)); injection Hs as <-; unfold todo; cbn; lia.
  - destruct pl; try done. destruct H8 as (-> & _). rewrite H5 in Hs by done. rewrite H5 by done. destruct ok; injection Hs as <-; unfold todo; cbn; lia.
  - destruct w1; try done. cbn in Hs. destruct (n1 =? 0); [|done]. injection Hs as <-. unfold todo; cbn; lia.
  - destruct pl; try done. destruct w1; try done. cbn in Hs. injection Hs as <-. destruct H8 as (_ & H8 & -> & ->). assert (n1 = 0) by auto. unfold todo; cbn. lia.
  - destruct pl; try done. injection Hs as <-. unfold todo; cbn; lia.
  - destruct (0 <? s) eqn:Es; [|done]. injection Hs as <-. unfold todo; cbn; lia.
  - destruct w2; try done. cbn in Hs. destruct (n2 =? 0); [|done]. injection Hs as <-. unfold todo; cbn; lia.
  - destruct pl; try done. destruct w2; try done. injection Hs as <-. unfold todo; cbn; lia.
  - destruct pl; try done. injection Hs as <-. unfold todo; cbn; lia.
Qed.
Lemma crun_todo t c es c' : 1 <= t -> crun c es c' -> forall k own, inv t k own c -> Z.of_nat (length es) + todo c' <= todo c.
Proof.
  intros Ht. induction 1 as [c|c e c1 es c2 Hs _ IH]; intros k own Hi; [cbn; lia|].
  assert (X := step_todo _ _ _ _ _ _ Ht Hi Hs). assert (Y := IH _ _ (step_inv _ _ _ _ _ _ Ht Hi Hs)). cbn [length]. lia.
Qed.
Lemma ends t p es l i c : 0 <= p -> 1 <= t -> prun t p [] es l -> l !! i = Some c -> Z.of_nat (length (of_call i es)) <= p + t + 5.
Proof.
  intros Hp Ht Hr Hc. assert (Hi := reach_inv _ _ _ _ _ _ Hp Ht Hr Hc).
  destruct (run_calls _ _ _ _ _ Hr) as (_ & _ & H). assert (H1 := H i c (Nat.le_0_l _) Hc).
  assert (H2 := crun_todo t _ _ _ Ht H1 0 false (begin_inv t p Hp Ht)).
  assert (0 <= todo c).
  { destruct Hi as (E1 & A & B & C & _). unfold todo, started, rank. rewrite E1. destruct (ended (c_wait1 c)), (ended (c_wait2 c)), (c_place c); lia. }
  unfold todo in H2 at 2. cbn in H2. lia.
Qed.

(** every peer refuses, every call is left with its waiter *)
Definition refused (p : nat) : list event := OwnParts true :: replicate p (PeerParts false) ++ [TimeOut1].
Definition stuck_call (t : Z) : call := Call t Returned 0 0 (t - 1) Waiting 0 0 NotStarted.
Lemma prun_app t p l es l' es' l'' : prun t p l es l' -> prun t p l' es' l'' -> prun t p l (es ++ es') l''.
Proof. induction 1 as [|? ? ? ? ? Hs _ IH]; intros H; [done|]. cbn [app]. econstructor; [done|]. by apply IH. Qed.
Lemma crun_prun t p c es c' : crun c es c' -> forall l, prun t p (l ++ [c]) (map (fun e => Some (length l, e)) es) (l ++ [c']).
Proof.
  induction 1 as [c|c e c1 es c2 Hs _ IH]; intros l; cbn [map]; [constructor|].
  econstructor; [|apply IH].
  replace (l ++ [c1]) with (<[length l := c1]> (l ++ [c])) by (rewrite insert_app_r_alt, Nat.sub_diag by done; done).
  econstructor; [by apply list_lookup_middle|done].
Qed.
Lemma crun_app c es c' es' c'' : crun c es c' -> crun c' es' c'' -> crun c (es ++ es') c''.
Proof. induction 1 as [|? ? ? ? ? Hs _ IH]; intros H; [done|]. cbn [app]. econstructor; [done|]. by apply IH. Qed.
Lemma refused_run t n : crun (begin_call t (Z.of_nat n)) (refused n) (stuck_call t).
Proof.
  unfold refused, begin_call. econstructor; [done|]. cbn.
  apply (crun_app _ _ (Call t AtParts 0 0 (t - 1) Waiting 0 0 NotStarted)); [|econstructor; [done|constructor]].
  induction n as [|n IH]; [constructor|]. cbn [replicate]. econstructor; [|exact IH].
  cbn [step c_asking]. destruct (0 <? Z.of_nat (S n)) eqn:E; [|lia]. cbn. f_equal. f_equal. lia.
Qed.
Lemma leak t n N : 2 <= t -> exists es, prun t (Z.of_nat n) [] es (replicate N (stuck_call t)).
Proof.
  intros Ht. induction N as [|N (es & IH)]; [exists []; constructor|].
  eexists. eapply prun_app; [exact IH|]. econstructor; [constructor|].
  rewrite replicate_S_end. apply crun_prun, refused_run.
Qed.
Lemma leak_settled t N : 2 <= t -> settled (replicate N (stuck_call t)).
Proof.
  intros Ht i c e (-> & _)%lookup_replicate. destruct e; cbn; try done. destruct (t - 1 =? 0) eqn:E; [lia|done].
Qed.
Lemma leak_goroutines t N : goroutines (replicate N (stuck_call t)) = Z.of_nat N.
Proof. induction N as [|N IH]; [done|]. cbn [replicate goroutines fold_right]. fold (goroutines (replicate N (stuck_call t))). rewrite IH. unfold live. cbn. lia. Qed.
Lemma leak_all : forall t n N, 2 <= t -> exists es l, prun t (Z.of_nat n) [] es l /\ length l = N /\ settled l /\ goroutines l = Z.of_nat N.
Proof.
  intros t n N Ht. destruct (leak t n N Ht) as (es & H). exists es, (replicate N (stuck_call t)).
  split; [exact H|]. split; [apply replicate_length|]. split; [exact (leak_settled t N Ht)|]. exact (leak_goroutines t N).
Qed.
