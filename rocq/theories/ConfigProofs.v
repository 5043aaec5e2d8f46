(** Lemmas about Config.v *)
From Coq Require Import Decimal DecimalZ DecimalPos.
From Verif Require Import GoBase Wire Canonical SignState Spec SignStateProofs Crypto LocalCosigner
  CosignerSpec CosignerProofs CosignerProofs2 Json JsonProofs Disk DiskSpec DiskProofs Validator Config ConfigSpec.

(** ** Split *)

Lemma split_nonnil sep s : split sep s <> [].
Proof. destruct s; simpl; [done|]. case_bool_decide; [done|]. destruct (split sep s); done. Qed.
Lemma split_free sep s : sep ∉ s -> split sep s = [s].
Proof.
  induction s as [|c s IH]; intros H; [done|]. simpl.
  apply not_elem_of_cons in H as [Hc H]. rewrite bool_decide_eq_false_2 by done.
  rewrite IH by done. done.
Qed.
Lemma split_app sep a s : sep ∉ a -> split sep (a ++ sep :: s) = a :: split sep s.
Proof.
  induction a as [|c a IH]; intros H; simpl.
  - rewrite bool_decide_eq_true_2 by done. done.
  - apply not_elem_of_cons in H as [Hc H]. rewrite bool_decide_eq_false_2 by done.
    rewrite IH by done. done.
Qed.
(** the pieces, put together again *)
Lemma split_inv sep s x l : split sep s = x :: l ->
  sep ∉ x /\ match l with
             | [] => s = x
             | _ => exists s', s = x ++ sep :: s' /\ split sep s' = l
             end.
Proof.
  revert x l. induction s as [|c s IH]; intros x l H; simpl in H.
  - injection H as <- <-. split; [apply not_elem_of_nil|done].
  - case_bool_decide as Hc.
    + injection H as <- <-. split; [apply not_elem_of_nil|].
      destruct (split sep s) eqn:E; [by apply split_nonnil in E|].
      exists s. subst c. done.
    + destruct (split sep s) as [|y l'] eqn:E; [by apply split_nonnil in E|].
      injection H as <- <-. destruct (IH y l' eq_refl) as [Hy Hl].
      split; [apply not_elem_of_cons; split; [congruence|done]|].
      destruct l'; [by subst|]. destruct Hl as (s' & -> & Hs). exists s'. done.
Qed.
Lemma split_one sep s x : split sep s = [x] <-> s = x /\ sep ∉ x.
Proof.
  split.
  - intros H. apply split_inv in H as [H ->]. done.
  - intros [-> H]. by apply split_free.
Qed.

(** ** Numbers *)

Definition digit_val (b : byte) : option Z :=
  if (48 <=? bz b) && (bz b <? 58) then Some (bz b - 48) else None.

Lemma digit_is_some b : (exists f, digit b = Some f) <-> 48 <= bz b < 58.
Proof.
  split.
  - intros [f H]. destruct b; try discriminate H; vm_compute; split; congruence.
  - intros H. destruct b; try (exfalso; revert H; vm_compute; intros [? ?]; congruence);
      eexists; reflexivity.
Qed.

(** value of digits, most significant first, starting from [a] *)
Fixpoint value_from (a : Z) (s : bytes) : Z :=
  match s with [] => a | b :: s' => value_from (10 * a + (bz b - 48)) s' end.

Lemma value_from_app a s t : value_from a (s ++ t) = value_from (value_from a s) t.
Proof. revert a. induction s as [|b s IH]; intros a; simpl; [done|apply IH]. Qed.

Definition all_digits (s : bytes) : Prop := Forall (fun b => 48 <= bz b < 58) s.

Lemma digits_denote_iff s z : digits_denote s z <-> all_digits s /\ z = value_from 0 s.
Proof.
  split.
  - induction 1 as [|s z d H [IH1 IH2] Hd]; [split; [constructor|done]|].
    assert (E : bz (zb (48 + d)) = 48 + d) by (rewrite bz_zb; apply Z.mod_small; lia).
    split.
    + apply Forall_app. split; [done|]. constructor; [lia|constructor].
    + rewrite value_from_app, <- IH2. cbn [value_from]. lia.
  - intros [H ->]. induction s as [|b s IH] using rev_ind; [constructor|].
    apply Forall_app in H as [H Hb]. apply List.Forall_cons_iff in Hb as [Hb _].
    rewrite value_from_app. cbn [value_from].
    replace [b] with [zb (48 + (bz b - 48))].
    { constructor; [by apply IH|lia]. }
    f_equal. rewrite <- (zb_bz b) at 2. f_equal. lia.
Qed.

(** the library's Decimal numbers *)
Lemma parse_digits_some s : (exists d, parse_digits s = Some d) <-> all_digits s.
Proof.
  induction s as [|b s IH]; simpl.
  - split; [constructor|eexists; reflexivity].
  - split.
    + intros [d H]. destruct (digit b) as [f|] eqn:E; [|discriminate].
      destruct (parse_digits s) as [d'|]; [|discriminate].
      constructor; [apply digit_is_some; eauto|]. apply IH. eauto.
    + intros H. apply List.Forall_cons_iff in H as [Hb H]. apply digit_is_some in Hb as [f ->].
      apply IH in H as [d ->]. eauto.
Qed.

Lemma acc_value p u : 0 < Z.pos p ->
  Z.pos (Pos.of_uint_acc u p) = value_from (Z.pos p) (digits_of u).
Proof.
  revert p. induction u; intros p Hp; cbn [Pos.of_uint_acc digits_of value_from]; [done|..];
    rewrite IHu by lia; f_equal; vm_compute (bz _); lia.
Qed.
Lemma uint_value u : Z.of_N (Pos.of_uint u) = value_from 0 (digits_of u).
Proof.
  induction u; cbn [Pos.of_uint digits_of value_from]; [done|..]; try exact IHu;
    cbn [Z.of_N]; rewrite acc_value by lia; f_equal.
Qed.
Lemma digits_of_parse s d : parse_digits s = Some d -> digits_of d = s.
Proof.
  revert d. induction s as [|b s IH]; intros d H; simpl in H; [by injection H as <-|].
  destruct (digit b) as [f|] eqn:E; [|discriminate].
  destruct (parse_digits s) as [d'|]; [|discriminate]. injection H as <-.
  specialize (IH d' eq_refl).
  destruct b; try discriminate E; injection E as <-; simpl; by rewrite IH.
Qed.

Lemma num_iff neg ds z : go_num neg ds = Some z <->
  ds <> [] /\ exists v, digits_denote ds v /\ z = (if neg then - v else v) /\ in_int64 z.
Proof.
  unfold go_num. split.
  - intros H. destruct ds as [|b ds]; [discriminate|].
    destruct (parse_digits (b :: ds)) as [d|] eqn:E; [|discriminate].
    split; [done|]. exists (Z.of_N (Pos.of_uint d)). cbv zeta in H.
    destruct ((- 2 ^ 63 <=? _) && _) eqn:B in H; [|discriminate]. injection H as <-.
    apply andb_true_iff in B as [B1 B2]. apply Z.leb_le in B1. apply Z.ltb_lt in B2.
    split.
    { apply digits_denote_iff. split; [apply parse_digits_some; eauto|].
      rewrite <- (digits_of_parse _ _ E). apply uint_value. }
    split; [by destruct neg|]. split; done.
  - intros (Hn & v & Hv & Hz & Hr). apply digits_denote_iff in Hv as [Ha Hv].
    destruct ds as [|b ds]; [done|].
    apply parse_digits_some in Ha as [d E]. rewrite E. cbv zeta.
    assert (Ev : Z.of_N (Pos.of_uint d) = v).
    { rewrite uint_value, (digits_of_parse _ _ E). done. }
    assert (Ez : Z.of_int (if neg then Decimal.Neg d else Decimal.Pos d) = z).
    { rewrite Hz. destruct neg; cbn [Z.of_int]; unfold Z.of_uint; by rewrite Ev. }
    rewrite Ez. destruct Hr as [Hr1 Hr2].
    rewrite (proj2 (Z.leb_le _ _) Hr1), (proj2 (Z.ltb_lt _ _) Hr2). done.
Qed.
Lemma atoi_plain b s : b <> "+"%byte -> b <> "-"%byte -> go_atoi (b :: s) = go_num false (b :: s).
Proof. intros H1 H2. destruct b; try reflexivity; congruence. Qed.

(** strconv.ParseInt accepts exactly the decimal numbers that fit *)
Lemma atoi_iff s z : go_atoi s = Some z <-> decimal s z /\ in_int64 z.
Proof.
  split.
  - intros H. destruct s as [|b s]; [discriminate|].
    destruct (decide (b = "+"%byte)) as [->|Hp].
    { apply (num_iff false) in H as (Hn & v & Hv & -> & Hr). split; [by constructor|done]. }
    destruct (decide (b = "-"%byte)) as [->|Hm].
    { apply (num_iff true) in H as (Hn & v & Hv & -> & Hr). split; [by constructor|done]. }
    rewrite atoi_plain in H by done.
    apply (num_iff false) in H as (Hn & v & Hv & -> & Hr). split; [by constructor|done].
  - intros [H Hr]. destruct H as [s z Hn H|s z Hn H|s z Hn H].
    + destruct s as [|b s]; [done|].
      assert (Hb : 48 <= bz b < 58).
      { apply digits_denote_iff in H as [H _]. by apply List.Forall_cons_iff in H as [? _]. }
      rewrite atoi_plain.
      * apply num_iff. split; [done|]. eauto.
      * intros ->. revert Hb. vm_compute. intros [? ?]; congruence.
      * intros ->. revert Hb. vm_compute. intros [? ?]; congruence.
    + cbn [go_atoi]. apply num_iff. split; [done|]. eauto.
    + cbn [go_atoi]. apply num_iff. split; [done|]. eauto.
Qed.

(** printed numbers *)
Lemma print_int_decimal z : decimal (print_int z) z.
Proof.
  rewrite <- (DecimalZ.of_to z) at 2. unfold print_int.
  assert (D : forall d, digits_denote (digits_of d) (Z.of_uint d)).
  { intros d. apply digits_denote_iff. split; [|apply uint_value].
    apply parse_digits_some. exists d. apply parse_digits_of. }
  destruct z; simpl.
  - apply dec_plain; [done|]. apply (D (Decimal.D0 Decimal.Nil)).
  - apply dec_plain; [|apply D]. apply digits_nonnil, pos_to_uint_nonnil.
  - apply dec_minus; [|apply D]. apply digits_nonnil, pos_to_uint_nonnil.
Qed.

Lemma digits_plain s : all_digits s -> plain s.
Proof.
  intros H. assert (D : forall b, b ∈ s -> 48 <= bz b < 58).
  { intros b Hb. eapply List.Forall_forall in H; [exact H|]. by apply elem_of_list_In. }
  split; intros Hi; apply D in Hi; revert Hi; vm_compute; intros [? ?]; congruence.
Qed.
Lemma decimal_plain s z : decimal s z -> plain s.
Proof.
  intros H. destruct H as [s z _ H|s z _ H|s z _ H];
    apply digits_denote_iff in H as [H _]; apply digits_plain in H as [H1 H2]; [done|..];
    split; apply not_elem_of_cons; split; done.
Qed.

(** ** Peer strings *)

Lemma peer_from_iff s p : "," %byte ∉ s -> peer_from s = inr p <-> entry_of s p.
Proof.
  intros Hc. unfold peer_from. split.
  - intros H. destruct (split "|"%byte s) as [|a [|n [|x l]]] eqn:E; try discriminate.
    destruct (go_atoi n) as [id|] eqn:En; [|discriminate]. injection H as <-.
    apply split_inv in E as (Ha & s' & -> & E'). apply split_one in E' as [-> Hn].
    apply atoi_iff in En as [En Hr]. constructor; [|done|done].
    split; [|done]. intros Hi. apply Hc, elem_of_app. by left.
  - intros H. destruct H as [a n id [Ha1 Ha2] Hn Hr].
    rewrite split_app by done. rewrite split_free by apply (decimal_plain _ _ Hn).
    rewrite (proj2 (atoi_iff n id)) by done. done.
Qed.
Lemma entry_no_comma s p : entry_of s p -> ","%byte ∉ s.
Proof.
  intros [a n id [Ha _] Hn _]. apply decimal_plain in Hn as [Hn _]. intros H.
  apply elem_of_app in H as [H|H]; [done|]. apply elem_of_cons in H as [H|H]; done.
Qed.
Lemma peers_from_cons s l : peers_from (s :: l) =
  match peer_from s with
  | inl e => inl e
  | inr p => match peers_from l with inl e => inl e | inr ps => inr (p :: ps) end
  end.
Proof. reflexivity. Qed.
Lemma peers_from_iff s l : peers_from_flag s = inr l <-> flag_of s l.
Proof.
  unfold peers_from_flag. split.
  - destruct (split ","%byte s) as [|x xs] eqn:E; [by apply split_nonnil in E|].
    revert s x E l. induction xs as [|y xs IH]; intros s x E l H.
    + apply split_one in E as [-> Hx]. simpl in H.
      destruct (peer_from x) as [|p] eqn:Ep; [discriminate|]. injection H as <-.
      constructor. by apply peer_from_iff.
    + apply split_inv in E as (Hx & s' & -> & E').
      rewrite peers_from_cons in H. destruct (peer_from x) as [|p] eqn:Ep; [discriminate|].
      destruct (peers_from (y :: xs)) as [|ps] eqn:Es; [discriminate|]. injection H as <-.
      apply flag_more; [by apply peer_from_iff|]. by eapply IH.
  - induction 1 as [e p H|e p s l H Hf IH].
    + rewrite split_free by (eapply entry_no_comma; done). simpl.
      rewrite (proj2 (peer_from_iff _ p (entry_no_comma _ _ H))) by done. done.
    + rewrite split_app by (eapply entry_no_comma; done). rewrite peers_from_cons.
      rewrite (proj2 (peer_from_iff _ p (entry_no_comma _ _ H))) by done. rewrite IH. done.
Qed.

Lemma entry_print p : plain (pe_addr p) -> in_int64 (pe_id p) ->
  entry_of (pe_addr p ++ "|"%byte :: print_int (pe_id p)) p.
Proof. intros Hp Hr. destruct p as [id a]. apply entry_intro; [done|apply print_int_decimal|done]. Qed.
Lemma render_flag l : l <> [] -> (forall p, p ∈ l -> plain (pe_addr p) /\ in_int64 (pe_id p)) ->
  flag_of (render l) l.
Proof.
  induction l as [|p l IH]; intros Hn H; [done|].
  destruct (H p) as [Hp Hr]; [by left|].
  destruct l as [|q l].
  - cbn [render]. constructor. by apply entry_print.
  - change (render (p :: q :: l)) with
      (pe_addr p ++ "|"%byte :: print_int (pe_id p) ++ ","%byte :: render (q :: l)).
    replace (pe_addr p ++ "|"%byte :: print_int (pe_id p) ++ ","%byte :: render (q :: l))
      with ((pe_addr p ++ "|"%byte :: print_int (pe_id p)) ++ ","%byte :: render (q :: l))
      by (rewrite <- app_assoc; done).
    apply flag_more; [by apply entry_print|]. apply IH; [done|].
    intros r Hi. apply H. by right.
Qed.
Lemma parse_render l : l <> [] -> (forall p, p ∈ l -> plain (pe_addr p) /\ in_int64 (pe_id p)) ->
  peers_from_flag (render l) = inr l.
Proof. intros. by apply peers_from_iff, render_flag. Qed.

(** ** Validation *)

Lemma duplicate_nil seen l : duplicate_peers seen l = [] <->
  NoDup (map pe_id l) /\ (forall p, p ∈ l -> pe_id p ∉ seen).
Proof.
  revert seen. induction l as [|p l IH]; intros seen; cbn [duplicate_peers map].
  - split; [|done]. intros _. split; [constructor|]. intros p Hp. by apply elem_of_nil in Hp.
  - destruct (existsb (Z.eqb (pe_id p)) seen) eqn:E.
    + split; [done|]. intros [_ H]. apply existsb_exists in E as (x & Hx & Ex).
      apply Z.eqb_eq in Ex. subst x. destruct (H p); [by left|]. by apply elem_of_list_In.
    + assert (Hp : pe_id p ∉ seen).
      { intros Hi. apply not_true_iff_false in E. apply E. apply existsb_exists.
        exists (pe_id p). split; [by apply elem_of_list_In|apply Z.eqb_refl]. }
      rewrite IH, list.NoDup_cons. split.
      * intros [Hn H]. split.
        -- split; [|done]. intros Hi. apply elem_of_list_fmap in Hi as (q & Eq & Hq).
           apply (H q Hq). rewrite Eq. by left.
        -- intros q Hq. apply elem_of_cons in Hq as [->|Hq]; [done|].
           intros Hi. apply (H q Hq). by right.
      * intros [[Hi Hn] H]. split; [done|]. intros q Hq Hs.
        apply elem_of_cons in Hs as [Eq|Hs].
        -- apply Hi. apply elem_of_list_fmap. exists q. done.
        -- apply (H q); [by right|done].
Qed.

Lemma validate_peers_iff l n : validate_peers l n = None <->
  NoDup (map pe_id l) /\ (forall p, p ∈ l -> 1 <= pe_id p <= n) /\ Z.of_nat (length l) <> n.
Proof.
  unfold validate_peers. destruct (duplicate_peers [] l) as [|d ds] eqn:E.
  - apply duplicate_nil in E as [E _].
    destruct (existsb _ l) eqn:Ex.
    + split; [done|]. intros (_ & H & _). apply existsb_exists in Ex as (p & Hp & Hx).
      apply elem_of_list_In in Hp. specialize (H p Hp). lia.
    + assert (H : forall p, p ∈ l -> 1 <= pe_id p <= n).
      { intros p Hp. apply not_true_iff_false in Ex.
        destruct ((pe_id p <? 1) || (n <? pe_id p)) eqn:Eb; [|lia].
        destruct Ex. apply existsb_exists. exists p. split; [by apply elem_of_list_In|done]. }
      destruct (Z.of_nat (length l) =? n) eqn:El.
      * split; [done|]. intros (_ & _ & Hl). lia.
      * split; [|done]. intros _. split; [done|]. split; [done|lia].
  - split; [done|]. intros (Hn & _ & _).
    assert (H : duplicate_peers [] l = []).
    { apply duplicate_nil. split; [done|]. intros p _ Hi. by apply elem_of_nil in Hi. }
    congruence.
Qed.

(** pigeonhole: distinct IDs in 1..n are at most n *)
Lemma pigeonhole l n : NoDup (map pe_id l) -> (forall p, p ∈ l -> 1 <= pe_id p <= n) -> 0 <= n ->
  Z.of_nat (length l) <= n.
Proof.
  intros Hn H H0.
  assert (S : map pe_id l ⊆+ map (fun i => Z.of_nat i + 1) (List.seq 0 (Z.to_nat n))).
  { apply NoDup_submseteq; [done|]. intros x Hx. apply elem_of_list_fmap in Hx as (p & -> & Hp).
    specialize (H p Hp). apply elem_of_list_fmap. exists (Z.to_nat (pe_id p - 1)).
    split; [lia|]. apply elem_of_list_In, List.in_seq. lia. }
  apply submseteq_length in S. rewrite !map_length, List.seq_length in S. lia.
Qed.

Lemma peers_ok_iff l n : 0 <= n -> validate_peers l n = None <-> peers_ok l n.
Proof.
  intros H0. rewrite validate_peers_iff. unfold peers_ok. split.
  - intros (Hn & H & Hl). pose proof (pigeonhole l n Hn H H0). repeat split; try apply H; try done. lia.
  - intros (Hn & H & Hl). repeat split; try apply H; try done. lia.
Qed.

Section L.
Context (L : Lib).

Lemma nodes_iff l : validate_nodes L l = None <-> last_ok L l.
Proof.
  unfold validate_nodes, last_ok. destruct l as [|a l] using rev_ind.
  - split; [|done]. intros _ n Hn. done.
  - rewrite fold_left_app. simpl. rewrite last_snoc. split.
    + intros H n Hn. injection Hn as <-. by destruct (lib_url L a).
    + intros H. by rewrite (H a eq_refl).
Qed.

Lemma accepted_iff c : accepted L c <-> ok_but_threshold L c /\ threshold_ok c.
Proof.
  unfold accepted, validate_cosigner, ok_but_threshold, threshold_ok.
  destruct (cf_chain c) as [|b ch].
  { split; [done|]. intros [[H _] _]. done. }
  destruct (cf_cosigner c) as [s|].
  2:{ split; [done|]. intros [(_ & _ & s & Hs & _) _]. done. }
  destruct (_ <? _) eqn:Et.
  { split; [done|]. intros [_ (s' & E & H)]. injection E as <-. lia. }
  destruct (lib_duration L (co_timeout s)) eqn:Ed; simpl.
  2:{ split; [done|]. intros [(_ & _ & s' & E & H & _) _]. injection E as <-. congruence. }
  destruct (lib_url L (co_listen s)) eqn:El; simpl.
  2:{ split; [done|]. intros [(_ & _ & s' & E & _ & H & _) _]. injection E as <-. congruence. }
  destruct (validate_peers _ _) eqn:Ev.
  { split; [done|]. intros [(_ & _ & s' & E & _ & _ & H) _]. injection E as <-.
    apply validate_peers_iff in H. congruence. }
  apply validate_peers_iff in Ev. rewrite nodes_iff. split.
  - intros H. split; [|exists s; split; [done|lia]]. split; [done|]. split; [done|].
    exists s. done.
  - intros [(_ & H & _) _]. done.
Qed.

Lemma single_iff c : accepted_single L c <->
  cf_chain c <> [] /\ cf_nodes c <> [] /\ last_ok L (cf_nodes c).
Proof.
  unfold accepted_single, validate_single. destruct (cf_chain c).
  { split; [done|]. intros [H _]. done. }
  destruct (cf_nodes c) as [|n l] eqn:E.
  - split; [done|]. intros (_ & H & _). done.
  - rewrite nodes_iff. split; [done|]. intros (_ & _ & H). done.
Qed.

(** ** Commands *)

Lemma diff_filter {A} `{EqDecision A} (a b : list A) x : x ∈ diff_set a b <-> x ∈ a /\ x ∉ b.
Proof. unfold diff_set. rewrite elem_of_list_filter. tauto. Qed.

Lemma listed_ids_iff p ids l : listed_ids p ids = inr l ->
  (exists zs, mapM go_atoi ids = Some zs /\ (p ∈ l <-> pe_id p ∈ zs)) /\ (forall q, q ∈ l -> q = p).
Proof.
  revert l. induction ids as [|s ids IH]; intros l H; simpl in H.
  - injection H as <-. split; [|intros q Hq; by apply elem_of_nil in Hq].
    exists []. split; [done|]. split; intros Hi; by apply elem_of_nil in Hi.
  - destruct (go_atoi s) as [z|] eqn:E; [|discriminate].
    destruct (listed_ids p ids) as [|l'] eqn:El; [discriminate|]. injection H as <-.
    destruct (IH l' eq_refl) as [(zs & Hz & Hi) Hq]. split.
    + exists (z :: zs). split; [simpl; rewrite E, Hz; done|].
      rewrite elem_of_cons, <- Hi. destruct (pe_id p =? z) eqn:Ez.
      * apply Z.eqb_eq in Ez. split; [auto|]. intros _. by left.
      * apply Z.eqb_neq in Ez. tauto.
    + intros q. destruct (pe_id p =? z); [|apply Hq]. intros H.
      apply elem_of_cons in H as [->|H]; [done|by apply Hq].
Qed.
Lemma listed_peers_iff ps ids l : listed_peers ps ids = inr l -> ps <> [] ->
  exists zs, mapM go_atoi ids = Some zs /\ (forall p, p ∈ l <-> p ∈ ps /\ pe_id p ∈ zs).
Proof.
  revert l. induction ps as [|p ps IH]; intros l H Hn; [done|]. simpl in H.
  destruct (listed_ids p ids) as [|l1] eqn:E1; [discriminate|].
  destruct (listed_peers ps ids) as [|l2] eqn:E2; [discriminate|]. injection H as <-.
  apply listed_ids_iff in E1 as [(zs & Hz & Hi) Hq]. exists zs. split; [done|]. intros q.
  rewrite elem_of_app, elem_of_cons.
  assert (H2 : q ∈ l2 <-> q ∈ ps /\ pe_id q ∈ zs).
  { destruct ps as [|p' ps].
    - injection E2 as <-. rewrite !elem_of_nil. tauto.
    - destruct (IH l2 eq_refl) as (zs' & Hz' & H'); [done|]. rewrite Hz in Hz'.
      injection Hz' as <-. apply H'. }
  rewrite H2. split.
  - intros [H|H]; [|tauto]. pose proof (Hq q H) as ->. tauto.
  - intros [[->|H] Hs]; [|tauto]. left. by apply Hi.
Qed.

Lemma filter_id_ext {A} (P Q : A -> Prop) `{forall x, Decision (P x), forall x, Decision (Q x)} (l : list A) :
  (forall x, x ∈ l -> P x <-> Q x) -> filter P l = filter Q l.
Proof.
  intros H1. induction l as [|x l IH]; [done|]. rewrite !filter_cons.
  rewrite IH by (intros y Hy; apply H1; by right).
  destruct (decide (P x)) as [Hp|Hp], (decide (Q x)) as [Hq|Hq]; try done;
    exfalso; pose proof (H1 x (elem_of_list_here _ _)); tauto.
Qed.

(** what a successful command does, field by field *)
Lemma nodes_add_spec c arg c' : run_cmd L c (NodesAdd arg) = Val c' ->
  c' = with_nodes c (cf_nodes c ++ filter (fun n => n ∉ cf_nodes c) (split ","%byte arg)) /\
  (exists n, n ∈ split ","%byte arg /\ n ∉ cf_nodes c) /\ last_ok L (cf_nodes c').
Proof.
  cbn [run_cmd]. unfold nodes_add, nodes_from_arg. intros H.
  destruct (validate_nodes L (split _ arg)); [discriminate|].
  destruct (diff_set (split ","%byte arg) (cf_nodes c)) as [|x d] eqn:E; [discriminate|].
  destruct (validate_nodes L (cf_nodes c ++ x :: d)) eqn:Ev; [discriminate|]. injection H as <-.
  split; [|split].
  - unfold diff_set in E. rewrite E. done.
  - exists x. apply diff_filter. rewrite E. by left.
  - by apply nodes_iff.
Qed.
Lemma nodes_remove_spec c arg c' : run_cmd L c (NodesRemove arg) = Val c' ->
  c' = with_nodes c (filter (fun n => n ∉ split ","%byte arg) (cf_nodes c)) /\
  cf_nodes c' <> [] /\ last_ok L (cf_nodes c').
Proof.
  cbn [run_cmd]. unfold nodes_remove, nodes_from_arg. intros H.
  destruct (validate_nodes L (split _ arg)); [discriminate|].
  destruct (diff_set (cf_nodes c) (split ","%byte arg)) as [|x d] eqn:E; [discriminate|].
  destruct (validate_nodes L (x :: d)) eqn:Ev; [discriminate|]. injection H as <-.
  split; [|split].
  - unfold diff_set in E. rewrite E. done.
  - done.
  - by apply nodes_iff.
Qed.
Lemma peers_add_spec c arg c' : run_cmd L c (PeersAdd arg) = Val c' ->
  exists s l, cf_cosigner c = Some s /\ flag_of arg l /\
    c' = with_section c (with_peers s (co_peers s ++ filter (fun p => p ∉ co_peers s) l)) /\
    (exists p, p ∈ l /\ p ∉ co_peers s) /\
    validate_peers (co_peers s ++ filter (fun p => p ∉ co_peers s) l) (co_shares s) = None.
Proof.
  cbn [run_cmd]. unfold peers_add. intros H.
  destruct (peers_from_flag arg) as [|l] eqn:Ep; [discriminate|].
  destruct (cf_cosigner c) as [s|]; [|discriminate].
  destruct (diff_set l (co_peers s)) as [|x d] eqn:E; [discriminate|].
  destruct (validate_peers (co_peers s ++ x :: d) (co_shares s)) eqn:Ev; [discriminate|].
  injection H as <-. exists s, l. split; [done|]. split; [by apply peers_from_iff|].
  unfold diff_set in E. rewrite E. split; [done|]. split; [|done].
  exists x. apply diff_filter. unfold diff_set. rewrite E. by left.
Qed.
Lemma peers_remove_spec c arg c' : run_cmd L c (PeersRemove arg) = Val c' ->
  exists s ids, cf_cosigner c = Some s /\ mapM go_atoi (split ","%byte arg) = Some ids /\
    c' = with_section c (with_peers s (filter (fun p => pe_id p ∉ ids) (co_peers s))) /\
    filter (fun p => pe_id p ∉ ids) (co_peers s) <> [] /\
    validate_peers (filter (fun p => pe_id p ∉ ids) (co_peers s)) (co_shares s) = None.
Proof.
  cbn [run_cmd]. unfold peers_remove. intros H.
  destruct (cf_cosigner c) as [s|]; [|discriminate].
  destruct (listed_peers (co_peers s) (split ","%byte arg)) as [|l] eqn:El; [discriminate|].
  destruct (diff_set (co_peers s) l) as [|x d] eqn:E; [discriminate|].
  destruct (validate_peers (x :: d) (co_shares s)) eqn:Ev; [discriminate|]. injection H as <-.
  assert (Hn : co_peers s <> []) by (intros Hn; rewrite Hn in E; discriminate).
  destruct (listed_peers_iff _ _ _ El Hn) as (ids & Hids & Hl).
  exists s, ids. split; [done|]. split; [done|].
  assert (Ef : filter (fun p => pe_id p ∉ ids) (co_peers s) = x :: d).
  { rewrite <- E. unfold diff_set. apply filter_id_ext. intros p Hp. rewrite Hl. tauto. }
  rewrite Ef. done.
Qed.
Lemma set_shares_spec c arg c' : run_cmd L c (SetShares arg) = Val c' ->
  exists s n, cf_cosigner c = Some s /\ decimal arg n /\
    c' = with_section c (CosSection (co_threshold s) n (co_listen s) (co_peers s) (co_timeout s)) /\
    validate_peers (co_peers s) n = None.
Proof.
  cbn [run_cmd]. unfold set_shares. intros H.
  destruct (go_atoi arg) as [n|] eqn:En; [|discriminate].
  destruct (cf_cosigner c) as [s|]; [|discriminate].
  destruct (validate_peers (co_peers s) n) eqn:Ev; [discriminate|]. injection H as <-.
  exists s, n. apply atoi_iff in En as [En _]. done.
Qed.

(** one command, successful or not *)
Lemma after_cmd_ok c cmd : ok_but_threshold L c -> ok_but_threshold L (after_cmd L c cmd).
Proof.
  intros Hok. unfold after_cmd. destruct (run_cmd L c cmd) as [c'| |] eqn:E; try exact Hok.
  destruct Hok as (Hc & Hl & s & Hs & Hd & Hu & Hn & Hr & Hsh). destruct cmd.
  - apply nodes_add_spec in E as (-> & _ & H). split; [done|]. split; [done|]. exists s. done.
  - apply nodes_remove_spec in E as (-> & _ & H). split; [done|]. split; [done|]. exists s. done.
  - apply peers_add_spec in E as (s' & l & Hs' & _ & -> & _ & Hv). rewrite Hs in Hs'.
    injection Hs' as <-. apply validate_peers_iff in Hv as (H1 & H2 & H3).
    split; [done|]. split; [done|]. eexists. split; [reflexivity|]. simpl. done.
  - apply peers_remove_spec in E as (s' & l & Hs' & _ & -> & _ & Hv). rewrite Hs in Hs'.
    injection Hs' as <-. apply validate_peers_iff in Hv as (H1 & H2 & H3).
    split; [done|]. split; [done|]. eexists. split; [reflexivity|]. simpl. done.
  - apply set_shares_spec in E as (s' & l & Hs' & _ & -> & Hv). rewrite Hs in Hs'.
    injection Hs' as <-. apply validate_peers_iff in Hv as (H1 & H2 & H3).
    split; [done|]. split; [done|]. eexists. split; [reflexivity|]. simpl. done.
Qed.
Lemma after_cmds_ok c l : ok_but_threshold L c -> ok_but_threshold L (after_cmds L c l).
Proof.
  revert c. induction l as [|cmd l IH]; intros c H; [done|]. apply (IH (after_cmd L c cmd)).
  by apply after_cmd_ok.
Qed.
Lemma after_cmd_threshold c cmd : ~ is_remove cmd -> threshold_ok c -> threshold_ok (after_cmd L c cmd).
Proof.
  intros Hr Ht. unfold after_cmd. destruct (run_cmd L c cmd) as [c'| |] eqn:E; try exact Ht.
  destruct Ht as (s & Hs & Ht). destruct cmd; [..|done|].
  - apply nodes_add_spec in E as (-> & _ & H). exists s. done.
  - apply nodes_remove_spec in E as (-> & _ & H). exists s. done.
  - apply peers_add_spec in E as (s' & l & Hs' & _ & -> & _ & Hv). rewrite Hs in Hs'.
    injection Hs' as <-. eexists. split; [reflexivity|]. simpl. rewrite app_length. lia.
  - apply set_shares_spec in E as (s' & l & Hs' & _ & -> & Hv). rewrite Hs in Hs'.
    injection Hs' as <-. eexists. split; [reflexivity|]. simpl. done.
Qed.

(** sequences of commands *)
Lemma cmds_accepted c l : accepted L c -> threshold_ok (after_cmds L c l) ->
  accepted L (after_cmds L c l).
Proof.
  intros H Ht. apply accepted_iff in H as [H _]. apply accepted_iff. split; [|done].
  by apply after_cmds_ok.
Qed.
Lemma cmds_no_remove c l : accepted L c -> Forall (fun cmd => ~ is_remove cmd) l ->
  accepted L (after_cmds L c l).
Proof.
  revert c. induction l as [|cmd l IH]; intros c H Hl; [done|].
  apply List.Forall_cons_iff in Hl as [H1 H2]. apply (IH (after_cmd L c cmd)); [|done].
  apply accepted_iff in H as [Ho Ht]. apply accepted_iff. split; [by apply after_cmd_ok|].
  by apply after_cmd_threshold.
Qed.
Lemma cmds_single c l : accepted_single L c -> cf_cosigner c = None ->
  accepted_single L (after_cmds L c l).
Proof.
  revert c. induction l as [|cmd l IH]; intros c H Hn; [done|].
  assert (Hs : accepted_single L (after_cmd L c cmd) /\ cf_cosigner (after_cmd L c cmd) = None).
  { unfold after_cmd. destruct (run_cmd L c cmd) as [c'| |] eqn:E; try done.
    apply single_iff in H as (H1 & H2 & H3). destruct cmd.
    - apply nodes_add_spec in E as (-> & _ & H). split; [|done]. apply single_iff.
      split; [done|]. split; [|done]. simpl. destruct (cf_nodes c); done.
    - apply nodes_remove_spec in E as (-> & Hx & H). split; [|done]. by apply single_iff.
    - apply peers_add_spec in E as (s & ? & Hs & _). congruence.
    - apply peers_remove_spec in E as (s & ? & Hs & _). congruence.
    - apply set_shares_spec in E as (s & ? & Hs & _). congruence. }
  destruct Hs as [Ha Hb]. apply (IH (after_cmd L c cmd)); done.
Qed.

(** ** config init *)

Lemma init_spec chain nodes f c : config_init L chain nodes (Some f) = inr c ->
  exists peers s, flag_of (if_peers f) peers /\ cf_chain c = chain /\ cf_cosigner c = Some s /\
    co_peers s = peers /\ co_shares s = Z.of_nat (length peers) + 1 /\
    co_threshold s = if_threshold f /\ accepted L c.
Proof.
  unfold config_init. intros H. destruct (init_nodes L nodes) as [|cn]; [discriminate|].
  destruct (peers_from_flag (if_peers f)) as [|peers] eqn:Ep; [discriminate|].
  destruct (if_listen f) as [|b ls] eqn:Eli; [discriminate|].
  destruct (negb _); [discriminate|]. destruct (lib_host L _); [|discriminate].
  destruct (bytes_equal _ _); [discriminate|]. cbv zeta in H.
  destruct (validate_cosigner L _) eqn:Ev; [discriminate|]. injection H as <-.
  exists peers. eexists. split; [by apply peers_from_iff|]. split; [done|]. split; [reflexivity|].
  simpl. done.
Qed.

End L.

(** the IDs not used by the peers: exactly one *)
Lemma one_left l : NoDup (map pe_id l) -> (forall p, p ∈ l -> 1 <= pe_id p <= Z.of_nat (length l) + 1) ->
  exists i, 1 <= i <= Z.of_nat (length l) + 1 /\ i ∉ map pe_id l /\
    forall j, 1 <= j <= Z.of_nat (length l) + 1 -> j <> i -> j ∈ map pe_id l.
Proof.
  intros Hn H. set (n := (length l + 1)%nat).
  set (all := map (fun i => Z.of_nat i + 1) (List.seq 0 n)).
  assert (Hall : forall x, x ∈ all <-> 1 <= x <= Z.of_nat (length l) + 1).
  { intros x. unfold all. rewrite elem_of_list_fmap. split.
    - intros (i & -> & Hi). apply elem_of_list_In, List.in_seq in Hi. lia.
    - intros Hx. exists (Z.to_nat (x - 1)). split; [lia|]. apply elem_of_list_In, List.in_seq. lia. }
  assert (S : map pe_id l ⊆+ all).
  { apply NoDup_submseteq; [done|]. intros x Hx. apply elem_of_list_fmap in Hx as (p & -> & Hp).
    apply Hall, H, Hp. }
  assert (Hna : NoDup all).
  { unfold all. apply NoDup_fmap_2; [intros a b E; lia|]. apply NoDup_ListNoDup, List.seq_NoDup. }
  apply submseteq_Permutation in S as (k & Hk).
  assert (Hlen : length k = 1%nat).
  { apply Permutation_length in Hk. rewrite app_length, map_length in Hk. unfold all, n in Hk.
    rewrite map_length, List.seq_length in Hk. lia. }
  destruct k as [|i [|? ?]]; try discriminate.
  assert (Hi : i ∈ all) by (rewrite Hk; apply elem_of_app; right; by left).
  exists i. split; [by apply Hall|]. split.
  - rewrite Hk in Hna. apply NoDup_app in Hna as (_ & Hd & _). intros Hx.
    apply (Hd i Hx). by left.
  - intros j Hj Hne. apply Hall in Hj. rewrite Hk in Hj. apply elem_of_app in Hj as [Hj|Hj]; [done|].
    apply elem_of_list_singleton in Hj. done.
Qed.
