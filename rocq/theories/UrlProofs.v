(** Facts about URLs and addresses. *)
From Coq Require Import Strings.String.
From Verif Require Import GoBase Json Url Config ConfigSpec ConfigProofs Dial DialSpec.
Local Open Scope Z_scope.

(** ** Cutting *)
Lemma cut_none c l : c ∉ l -> cut c l = (l, None).
Proof.
  induction l as [|x l IH]; [done|]. intros H. apply not_elem_of_cons in H as [H1 H2]. cbn [cut].
  rewrite bool_decide_eq_false_2 by congruence. by rewrite IH.
Qed.
Lemma cut_app c a b : c ∉ a -> cut c (a ++ c :: b) = (a, Some b).
Proof.
  induction a as [|x a IH]; intros H; cbn [cut app].
  - by rewrite bool_decide_eq_true_2.
  - apply not_elem_of_cons in H as [H1 H2]. rewrite bool_decide_eq_false_2 by congruence. by rewrite IH.
Qed.
Lemma cut_some c l a b : cut c l = (a, Some b) -> l = a ++ c :: b /\ c ∉ a.
Proof.
  revert a. induction l as [|x l IH]; intros a H; cbn [cut] in H; [done|].
  destruct (bool_decide (x = c)) eqn:E.
  - apply bool_decide_eq_true in E as ->. injection H as <- <-. split; [done|apply not_elem_of_nil].
  - apply bool_decide_eq_false in E. destruct (cut c l) as [a' b'] eqn:E'. injection H as <- ->.
    destruct (IH _ eq_refl) as [-> Hn]. split; [done|]. apply not_elem_of_cons. split; [congruence|done].
Qed.
Lemma cut_no c l a : cut c l = (a, None) -> a = l /\ c ∉ l.
Proof.
  revert a. induction l as [|x l IH]; intros a H; cbn [cut] in H; [injection H as <-; split; [done|apply not_elem_of_nil]|].
  destruct (bool_decide (x = c)) eqn:E; [done|]. apply bool_decide_eq_false in E.
  destruct (cut c l) as [a' b'] eqn:E'. injection H as <- ->.
  destruct (IH _ eq_refl) as [-> Hn]. split; [done|]. apply not_elem_of_cons. split; [congruence|done].
Qed.
Lemma rcut_none c l : c ∉ l -> rcut c l = None.
Proof.
  induction l as [|x l IH]; [done|]. intros H. apply not_elem_of_cons in H as [H1 H2]. cbn [rcut].
  rewrite IH by done. by rewrite bool_decide_eq_false_2 by congruence.
Qed.
Lemma rcut_app c a b : c ∉ b -> rcut c (a ++ c :: b) = Some (a, b).
Proof.
  intros H. induction a as [|x a IH]; cbn [app rcut]; [|by rewrite IH].
  rewrite rcut_none by done. by rewrite bool_decide_eq_true_2.
Qed.
Lemma rcut_some c l a b : rcut c l = Some (a, b) -> l = a ++ c :: b /\ c ∉ b.
Proof.
  revert a. induction l as [|x l IH]; intros a H; cbn [rcut] in H; [done|].
  destruct (rcut c l) as [[a' b']|] eqn:E.
  - injection H as <- ->. destruct (IH _ eq_refl) as [-> Hn]. done.
  - destruct (bool_decide (x = c)) eqn:E'; [|done]. apply bool_decide_eq_true in E' as ->.
    injection H as <- <-. split; [done|]. clear IH. induction l as [|x l IH]; [apply not_elem_of_nil|].
    cbn [rcut] in E. destruct (rcut c l) as [[? ?]|]; [done|]. destruct (bool_decide (x = c)) eqn:E2; [done|].
    apply bool_decide_eq_false in E2. apply not_elem_of_cons. split; [congruence|]. by apply IH.
Qed.
Lemma rcut_no c l : rcut c l = None -> c ∉ l.
Proof.
  induction l as [|x l IH]; intros E; [apply not_elem_of_nil|].
  cbn [rcut] in E. destruct (rcut c l) as [[? ?]|]; [done|]. destruct (bool_decide (x = c)) eqn:E2; [done|].
  apply bool_decide_eq_false in E2. apply not_elem_of_cons. split; [congruence|]. by apply IH.
Qed.

(** ** net.SplitHostPort takes exactly host:port and [host]:port *)
Lemma split_other x l : x <> "["%byte -> split_host_port (x :: l) =
  match rcut ":"%byte (x :: l) with
  | None => None
  | Some (before, port) => if has ":"%byte before || has "["%byte (x :: l) || has "]"%byte (x :: l) then None else Some (before, port)
  end.
Proof. intros H. unfold split_host_port. destruct (rcut ":"%byte (x :: l)) as [[? ?]|]; [|done]. destruct x; try done. Qed.
Lemma has_false c l : has c l = false <-> c ∉ l.
Proof. unfold has. by rewrite bool_decide_eq_false. Qed.
Lemma has_true c l : has c l = true <-> c ∈ l.
Proof. unfold has. by rewrite bool_decide_eq_true. Qed.
Lemma orb3_false a b c : a || b || c = false <-> a = false /\ b = false /\ c = false.
Proof. destruct a, b, c; simpl; naive_solver. Qed.
Lemma not_app (c : byte) a b : c ∉ a ++ b <-> c ∉ a /\ c ∉ b.
Proof. rewrite elem_of_app. tauto. Qed.
Lemma not_cons (c x : byte) a : c ∉ x :: a <-> c <> x /\ c ∉ a.
Proof. rewrite elem_of_cons. tauto. Qed.

Lemma split_iff s h p : split_host_port s = Some (h, p) <-> hostport s h p.
Proof.
  split.
  - destruct s as [|x s]; [done|]. destruct (decide (x = "["%byte)) as [->|Hx].
    + unfold split_host_port. destruct (rcut ":"%byte ("["%byte :: s)) as [[before port]|]; [|done].
      destruct (cut "]"%byte s) as [host [after|]] eqn:E; [|done]. apply cut_some in E as [-> Hn].
      destruct after as [|y q]; [done|]. destruct (decide (y = ":"%byte)) as [->|Hy]; [|destruct y; done].
      destruct (has ":"%byte q || has "["%byte (host ++ "]"%byte :: ":"%byte :: q) || has "]"%byte (":"%byte :: q)) eqn:B; [done|].
      intros H. injection H as <- <-. apply orb3_false in B as (B1 & B2 & B3). rewrite has_false in B1, B2, B3.
      apply not_app in B2 as [B2 B4]. rewrite !not_cons in B4. rewrite not_cons in B3.
      apply hp_bracket; [split; [done|done]|split; tauto|done].
    + rewrite split_other by done. destruct (rcut ":"%byte (x :: s)) as [[before port]|] eqn:E; [|done].
      destruct (_ || _ || _) eqn:B; [done|]. intros H. injection H as <- <-.
      apply orb3_false in B as (B1 & B2 & B3). rewrite has_false in B1, B2, B3. apply rcut_some in E as [E Hn].
      rewrite E in *. rewrite !not_app, !not_cons in B2, B3. apply hp_plain; [split; tauto|split; tauto|done|done].
  - destruct 1 as [h p [H1 H2] [H3 H4] H5 H6|h p [H1 H2] [H3 H4] H6].
    + assert (Hb : has ":"%byte h || has "["%byte (h ++ ":"%byte :: p) || has "]"%byte (h ++ ":"%byte :: p) = false).
      { apply orb3_false. rewrite !has_false, !not_app, !not_cons. repeat split; done. }
      destruct h as [|x h].
      * cbn [app] in *. rewrite split_other by done. pose proof (rcut_app ":"%byte [] p H6) as E. cbn [app] in E. rewrite E. by rewrite Hb.
      * cbn [app] in *. rewrite split_other by (intros ->; apply H1; left). pose proof (rcut_app ":"%byte (x :: h) p H6) as E. cbn [app] in E. rewrite E.
        by rewrite Hb.
    + unfold split_host_port.
      assert (E : rcut ":"%byte ("["%byte :: h ++ "]"%byte :: ":"%byte :: p) = Some ("["%byte :: h ++ ["]"%byte], p)).
      { etransitivity; [|exact (rcut_app ":"%byte ("["%byte :: h ++ ["]"%byte]) p H6)]. f_equal. cbn [app]. f_equal.
        by rewrite <- app_assoc. }
      rewrite E. rewrite cut_app by done.
      assert (Hb : has ":"%byte p || has "["%byte (h ++ "]"%byte :: ":"%byte :: p) || has "]"%byte (":"%byte :: p) = false).
      { apply orb3_false. rewrite !has_false, !not_app, !not_cons. repeat split; done. }
      by rewrite Hb.
Qed.
Lemma hostport_fun s h p h' p' : hostport s h p -> hostport s h' p' -> h = h' /\ p = p'.
Proof. intros H1 H2. apply split_iff in H1, H2. rewrite H1 in H2. injection H2 as -> ->. done. Qed.

(** ** Unescaping *)
Lemma unescape_same esc ok s : (forall c, c ∈ s -> c <> "%"%byte /\ ok c = true) -> unescape esc ok s = Some s.
Proof.
  induction s as [|x s IH]; intros H; [done|]. cbn [unescape].
  destruct (H x) as [H1 H2]; [left|]. rewrite bool_decide_eq_false_2 by done. rewrite H2, IH; [done|].
  intros c Hc. apply H. by right.
Qed.
Lemma unescape_cons esc ok x s : x <> "%"%byte -> unescape esc ok (x :: s) = if ok x then cons x <$> unescape esc ok s else None.
Proof. intros H. cbn [unescape]. by rewrite bool_decide_eq_false_2. Qed.
(** at a byte that is no part of an escape, the two sides are unescaped separately *)
Lemma unescape_app esc ok a c b r : is_hex c = false -> c <> "%"%byte -> unescape esc ok (a ++ c :: b) = Some r ->
  exists ra rb, r = ra ++ rb /\ unescape esc ok a = Some ra /\ unescape esc ok (c :: b) = Some rb.
Proof.
  intros Hc Hp. remember (length a) as n eqn:En. revert a r En. induction n as [n IH] using lt_wf_ind.
  intros a r En H. destruct a as [|x a]; [exists [], r; done|]. cbn [app unescape] in H.
  destruct (bool_decide (x = "%"%byte)) eqn:Ex.
  - destruct a as [|y a]; cbn [app] in H.
    { destruct b as [|z b]; [done|]. rewrite Hc in H. cbn [andb] in H. done. }
    destruct a as [|z a]; cbn [app] in H.
    { rewrite Hc, andb_false_r in H. cbn [andb] in H. done. }
    destruct (is_hex y && is_hex z && esc y z) eqn:Ee; [|done].
    destruct (unescape esc ok (a ++ c :: b)) as [r'|] eqn:E; [|done]. injection H as <-.
    destruct (IH (length a)) with (a := a) (r := r') as (ra & rb & -> & Ha & Hb); [subst n; simpl; lia|done|done|].
    eexists (_ :: ra), rb. split; [reflexivity|]. split; [|done]. cbn [unescape]. by rewrite Ex, Ee, Ha.
  - destruct (ok x) eqn:Eo; [|done].
    destruct (unescape esc ok (a ++ c :: b)) as [r'|] eqn:E; [|done]. injection H as <-.
    destruct (IH (length a)) with (a := a) (r := r') as (ra & rb & -> & Ha & Hb); [subst n; simpl; lia|done|done|].
    exists (x :: ra), rb. split; [done|]. split; [|done]. cbn [unescape]. by rewrite Ex, Eo, Ha.
Qed.
(** in a host, unescaping makes no byte below 128 except '%' *)
Lemma byte_all (P : byte -> bool) : forallb P (map zb (seqZ 0 256)) = true -> forall c, P c = true.
Proof.
  intros H c. rewrite forallb_forall in H. apply H. apply in_map_iff. exists (bz c). split; [apply zb_bz|].
  apply elem_of_list_In, elem_of_seqZ. pose proof (bz_range c). lia.
Qed.
Lemma byte_pairs (P : byte -> byte -> bool) :
  forallb (fun a => forallb (P a) (map zb (seqZ 0 256))) (map zb (seqZ 0 256)) = true -> forall a b, P a b = true.
Proof. intros H a. apply byte_all. by apply (byte_all (fun a => forallb (P a) (map zb (seqZ 0 256)))). Qed.
Lemma unescape_host_new s r c : unescape_host s = Some r -> bz c < 128 -> c <> "%"%byte -> c ∈ r -> c ∈ s.
Proof.
  intros H Hc Hp. remember (length s) as n eqn:En. revert s r En H. induction n as [n IH] using lt_wf_ind.
  intros s r En H Hr. unfold unescape_host in *. destruct s as [|x s]; cbn [unescape] in H.
  { injection H as <-. done. }
  destruct (bool_decide (x = "%"%byte)) eqn:Ex.
  - destruct s as [|y s]; [done|]. destruct s as [|z s]; [done|].
    destruct (is_hex y && is_hex z && _) eqn:Ee; [|done].
    destruct (unescape _ _ s) as [r'|] eqn:E; [|done]. injection H as <-.
    apply elem_of_cons in Hr as [-> |Hr].
    + exfalso. revert Hc Hp. apply andb_true_iff in Ee as [Ee1 Ee2].
      assert (Hall : forall y z, (negb (is_hex y && is_hex z && (negb (unhex y <? 8) || is_25 y z)) ||
        (128 <=? bz (zb (16 * unhex y + unhex z))) || bool_decide (zb (16 * unhex y + unhex z) = "%"%byte)) = true).
      { apply byte_pairs. vm_compute. reflexivity. }
      specialize (Hall y z). rewrite Ee1, Ee2 in Hall. cbn [andb negb orb] in Hall. apply orb_true_iff in Hall as [Hl|Hl].
      * apply Z.leb_le in Hl. lia.
      * by apply bool_decide_eq_true in Hl.
    + do 3 right. eapply (IH (length s)); [subst n; simpl; lia|done|exact E|done].
  - destruct (plain_or_high x); [|done]. destruct (unescape _ _ s) as [r'|] eqn:E; [|done]. injection H as <-.
    apply elem_of_cons in Hr as [-> |Hr]; [left|]. right. eapply (IH (length s)); [subst n; simpl; lia|done|exact E|done].
Qed.
