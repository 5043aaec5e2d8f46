(** The output of `state show` is a report on the two states, and a report can be read in one way (C101). *)
From Coq Require Import Strings.String.
From Verif Require Import GoBase Canonical SignState Json JsonProofs Disk Config ConfigSpec ConfigProofs JsonSpec JsonTextProofs JsonStateProofs Crypto LocalCosigner Validator System Startup Machine MachineSpec MachineProofs2 Show ShowSpec.
Local Open Scope list_scope.
Local Open Scope Z_scope.

(** ** Printing *)
Lemma safe_nl l : safe l -> x0a ∉ l.
Proof.
  intros H Hi. unfold safe in H. rewrite list.Forall_forall in H. specialize (H _ Hi). vm_compute in H. discriminate H.
Qed.
Lemma lit_nl (l v : bytes) : bool_decide (x0a ∈ l) = false -> safe v -> x0a ∉ l ++ v.
Proof. intros Hl Hv Hi. apply bool_decide_eq_false in Hl. apply elem_of_app in Hi as [Hi|Hi]; [done|]. by apply (safe_nl v). Qed.
Lemma lines_app t ls t' ls' : lines t ls -> lines t' ls' -> lines (t ++ t') (ls ++ ls').
Proof. induction 1 as [|l t ls Hl Ht IH]; [done|]. intros H'. cbn [app]. rewrite <- app_assoc. cbn [app]. apply ln_cons; [done|by apply IH]. Qed.
Lemma line_one l : x0a ∉ l -> lines (l ++ nl) [l].
Proof. intros H. apply ln_cons; [done|constructor]. Qed.

Lemma b64_reads b : base64 (b64_enc b) b.
Proof. apply b64_exact, b64_roundtrip. Qed.
Lemma hex_reads b : hex_text_of (hex_enc b) b.
Proof. apply hex_exact, hex_roundtrip. Qed.

Lemma member_lines (label : bytes) (label' : string) (enc : bytes -> bytes -> Prop) (f : bytes -> bytes) o :
  label ++ lit " " = lit label' -> bool_decide (x0a ∈ lit label') = false ->
  (forall b, enc (f b) b) -> (forall b, safe (f b)) ->
  exists e, maybe_line label' enc o e /\ lines (match o with Some b => print_member label (f b) | None => [] end) e.
Proof.
  intros E Hl He Hs. destruct o as [b|]; [|exists []; split; constructor].
  exists [lit label' ++ f b]. split; [by constructor|]. unfold print_member. rewrite <- E.
  replace (label ++ lit " " ++ f b ++ nl) with (((label ++ lit " ") ++ f b) ++ nl) by (by rewrite <- !app_assoc).
  apply line_one. rewrite E. by apply lit_nl.
Qed.

Lemma printed_lines s : exists ls, state_lines s ls /\ lines (print_sign_state s) ls.
Proof.
  unfold print_sign_state, state_lines.
  destruct (member_lines (lit "  Ephemeral Public Key:") "  Ephemeral Public Key: " base64 b64_enc (ss_eph s) eq_refl eq_refl b64_reads b64_safe) as (e & He & Le).
  destruct (member_lines (lit "  Signature:") "  Signature: " base64 b64_enc (ss_sig s) eq_refl eq_refl b64_reads b64_safe) as (g & Hg & Lg).
  destruct (member_lines (lit "  SignBytes:") "  SignBytes: " hex_text_of hex_enc (ss_sb s) eq_refl eq_refl hex_reads hex_safe) as (b & Hb & Lb).
  eexists. split.
  - exists (print_int (h_height (ss_hrs s))), (print_int (h_round (ss_hrs s))), (print_int (h_step (ss_hrs s))), e, g, b.
    split; [apply print_int_decimal|]. split; [apply print_int_decimal|]. split; [apply print_int_decimal|].
    split; [exact He|]. split; [exact Hg|]. split; [exact Hb|]. reflexivity.
  - apply lines_app; [|apply lines_app; [exact Le|by apply lines_app]].
    assert (L : forall (l : bytes) z, bool_decide (x0a ∈ l) = false -> lines ((l ++ print_int z) ++ nl) [l ++ print_int z]).
    { intros l z Hl. apply line_one, lit_nl; [done|apply print_int_safe]. }
    pose proof (lines_app _ _ _ _ (L (lit "  Height:    ") (h_height (ss_hrs s)) eq_refl)
      (lines_app _ _ _ _ (L (lit "  Round:     ") (h_round (ss_hrs s)) eq_refl) (L (lit "  Step:      ") (h_step (ss_hrs s)) eq_refl))) as H.
    rewrite <- !app_assoc in H. exact H.
Qed.

Lemma show_lines dflt m flag t : show_output dflt m flag = Val t ->
  exists pv sh ls, state_show_cmd dflt m flag = Val (pv, sh) /\ lines t ls /\ report pv sh ls.
Proof.
  unfold show_output. destruct (state_show_cmd dflt m flag) as [[pv sh]| |]; [|done|done]. intros [= <-].
  destruct (printed_lines pv) as (l1 & H1 & L1). destruct (printed_lines sh) as (l2 & H2 & L2).
  exists pv, sh, (lit "Private Validator State:" :: l1 ++ lit "Share Sign State:" :: l2). split; [done|]. split; [|by exists l1, l2].
  assert (N : forall l : bytes, bool_decide (x0a ∈ l) = false -> lines (l ++ nl) [l]).
  { intros l Hl. apply line_one. by apply bool_decide_eq_false in Hl. }
  pose proof (lines_app _ _ _ _ (N (lit "Private Validator State:") eq_refl) (lines_app _ _ _ _ L1
    (lines_app _ _ _ _ (N (lit "Share Sign State:") eq_refl) L2))) as H.
  rewrite <- !app_assoc in H. exact H.
Qed.

(** ** Reading *)
Lemma cut_nl (l l' t t' : bytes) : x0a ∉ l -> x0a ∉ l' -> l ++ x0a :: t = l' ++ x0a :: t' -> l = l' /\ t = t'.
Proof.
  revert l'. induction l as [|b l IH]; intros [|b' l'] H H' E; cbn [app] in E.
  - by injection E.
  - injection E as <- _. exfalso. apply H'. by left.
  - injection E as -> _. exfalso. apply H. by left.
  - injection E as -> E. apply IH in E as [-> ->]; [done|..]; intros Hi; [apply H|apply H']; by right.
Qed.
Lemma lines_one t ls ls' : lines t ls -> lines t ls' -> ls = ls'.
Proof.
  intros H. revert ls'. induction H as [|l t ls Hl Ht IH]; intros ls' H'.
  - inversion H' as [|l' t' ls'' Hl' Ht' E]; [done|]. by destruct l'.
  - inversion H' as [E|l' t' ls'' Hl' Ht' E]; [by destruct l|]. apply cut_nl in E as [-> ->]; [|done|done]. f_equal. by apply IH.
Qed.

Lemma digits_one s z z' : digits_denote s z -> digits_denote s z' -> z = z'.
Proof. intros H H'. apply digits_denote_iff in H as [_ ->]. by apply digits_denote_iff in H' as [_ ->]. Qed.
Lemma no_sign b s z : digits_denote (b :: s) z -> b <> "+"%byte /\ b <> "-"%byte.
Proof.
  intros H. apply digits_denote_iff in H as [H _]. apply List.Forall_cons_iff in H as [H _].
  split; intros ->; vm_compute in H; destruct H as [H1 H2]; congruence.
Qed.
Lemma decimal_one s z z' : decimal s z -> decimal s z' -> z = z'.
Proof.
  intros H H'. inversion H as [? ? _ D|s1 z1 _ D|s1 z1 _ D]; subst; inversion H' as [? ? _ D'|? ? _ D'|? ? _ D']; subst;
    try (by eapply digits_one); try (by destruct (no_sign _ _ _ D)); try (by destruct (no_sign _ _ _ D')).
  by rewrite (digits_one _ _ _ D D').
Qed.
Lemma base64_one v b b' : base64 v b -> base64 v b' -> b = b'.
Proof. intros H H'. apply b64_exact in H, H'. congruence. Qed.
Lemma hex_one v b b' : hex_text_of v b -> hex_text_of v b' -> b = b'.
Proof. intros H H'. apply hex_exact in H, H'. congruence. Qed.

(** the line of a member that may be missing, in front of lines that do not begin with its label *)
Lemma maybe_one label (enc : bytes -> bytes -> Prop) o o' e e' r r' : (forall v b b', enc v b -> enc v b' -> b = b') ->
  maybe_line label enc o e -> maybe_line label enc o' e' ->
  (forall v, head r <> Some (lit label ++ v)) -> (forall v, head r' <> Some (lit label ++ v)) ->
  e ++ r = e' ++ r' -> o = o' /\ r = r'.
Proof.
  intros F H H' Hr Hr' E. destruct H as [|v b Hv]; destruct H' as [|v' b' Hv']; cbn [app] in E.
  - done.
  - subst r. by destruct (Hr v').
  - subst r'. by destruct (Hr' v).
  - apply (f_equal (fun l => (head l, tail l))) in E. cbn [head tail] in E. apply pair_equal_spec in E as [E ->].
    injection E as E. apply app_inv_head in E as ->. by rewrite (F _ _ _ Hv Hv').
Qed.

Definition ends (r : list bytes) : Prop := r = [] \/ exists l, r = lit "Share Sign State:" :: l.
Lemma state_one s s' l l' r r' : state_lines s l -> state_lines s' l' -> ends r -> ends r' ->
  l ++ r = l' ++ r' -> same_record s s' /\ r = r'.
Proof.
  intros (h & rd & st & e & g & b & H1 & H2 & H3 & He & Hg & Hb & ->) (h' & rd' & st' & e' & g' & b' & H1' & H2' & H3' & He' & Hg' & Hb' & ->) Hr Hr' E.
  cbn [app] in E. rewrite <- !app_assoc in E.
  assert (C : forall (x y : bytes) (u w : list bytes), x :: u = y :: w -> x = y /\ u = w) by (intros x y u w [= -> ->]; done).
  apply C in E as [E1 E]. apply C in E as [E2 E]. apply C in E as [E3 E].
  apply app_inv_head in E1 as <-. apply app_inv_head in E2 as <-. apply app_inv_head in E3 as <-.
  assert (X0 : forall r, ends r -> forall v, head r <> Some (lit "  SignBytes: " ++ v)).
  { intros x [-> |[k ->]] v; [done|]. vm_compute. discriminate. }
  assert (X1 : forall r o b, ends r -> maybe_line "  SignBytes: " hex_text_of o b -> forall v, head (b ++ r) <> Some (lit "  Signature: " ++ v)).
  { intros x o y [-> |[k ->]] Hy v; destruct Hy; vm_compute; discriminate. }
  assert (X2 : forall r o b o' g, ends r -> maybe_line "  SignBytes: " hex_text_of o b -> maybe_line "  Signature: " base64 o' g ->
    forall v, head (g ++ b ++ r) <> Some (lit "  Ephemeral Public Key: " ++ v)).
  { intros x o y o' z [-> |[k ->]] Hy Hz v; destruct Hz; destruct Hy; vm_compute; discriminate. }
  destruct (maybe_one _ _ _ _ _ _ _ _ base64_one He He' (X2 _ _ _ _ _ Hr Hb Hg) (X2 _ _ _ _ _ Hr' Hb' Hg') E) as [Q1 E4].
  destruct (maybe_one _ _ _ _ _ _ _ _ base64_one Hg Hg' (X1 _ _ _ Hr Hb) (X1 _ _ _ Hr' Hb') E4) as [Q2 E5].
  destruct (maybe_one _ _ _ _ _ _ _ _ hex_one Hb Hb' (X0 _ Hr) (X0 _ Hr') E5) as [Q3 E6].
  split; [|exact E6]. split; [|by repeat split].
  pose proof (decimal_one _ _ _ H1 H1') as Z1. pose proof (decimal_one _ _ _ H2 H2') as Z2. pose proof (decimal_one _ _ _ H3 H3') as Z3.
  destruct (ss_hrs s), (ss_hrs s'). cbn in *. by subst.
Qed.

Lemma report_one t ls ls' pv sh pv' sh' : lines t ls -> report pv sh ls -> lines t ls' -> report pv' sh' ls' ->
  same_record pv pv' /\ same_record sh sh'.
Proof.
  intros Hl (l1 & l2 & H1 & H2 & ->) Hl' (l1' & l2' & H1' & H2' & E). rewrite (lines_one _ _ _ Hl' Hl) in *. clear Hl Hl'.
  assert (C : forall (x y : bytes) (u w : list bytes), x :: u = y :: w -> x = y /\ u = w) by (intros x y u w [= -> ->]; done).
  apply C in E as [_ E]. destruct (state_one _ _ _ _ _ _ H1 H1' ltac:(right; eauto) ltac:(right; eauto) E) as [S1 E1].
  apply C in E1 as [_ E1]. split; [exact S1|].
  assert (N : ends []) by (by left).
  apply (state_one _ _ _ _ [] [] H2 H2' N N). by rewrite E1.
Qed.

(** ** The files *)
Lemma load_says o s : load o = Some s -> exists t, o = Some t /\ file_says t s.
Proof.
  destruct o as [t|]; [|done]. intros H. exists t. split; [done|].
  apply state_text_exact in H as (h & r & st & eph & sig & sb & Ht & E1 & E2 & E3 & E4 & _).
  exists h, r, st, eph, sig, sb. done.
Qed.
Lemma says_load t s : file_says t s -> exists s', load (Some t) = Some s' /\ same_record s s'.
Proof.
  intros (h & r & st & eph & sig & sb & Ht & E1 & E2 & E3 & E4).
  exists (SS (HRS h r st) eph sig sb {[ HRS h r st := SSC (HRS h r st) sig sb ]}). split.
  - apply state_text_exact. exists h, r, st, eph, sig, sb. done.
  - unfold same_record. cbn. by rewrite E1.
Qed.

Section Files.
Variables (dflt : bytes) (m : machine) (flag : bytes) (y : yaml) (tp ts : bytes).
Hypothesis Hy : config_at dflt m flag = Some y.
Hypothesis Hp : ma_state m !! (home_of dflt flag, pv_path (cf_chain (ya_cfg y))) = Some tp.
Hypothesis Hs : ma_state m !! (home_of dflt flag, share_path (cf_chain (ya_cfg y))) = Some ts.
Lemma shown_files t : show_output dflt m flag = Val t ->
  exists pv sh ls, file_says tp pv /\ file_says ts sh /\ lines t ls /\ report pv sh ls.
Proof.
  intros H. apply show_lines in H as (pv & sh & ls & E & Hl & Hr). exists pv, sh, ls. unfold state_show_cmd in E. rewrite Hy, Hp, Hs in E.
  assert (G : match load (Some tp), load (Some ts) with Some p, Some s => Val (p, s) | _, _ => Fail (EState SeLoad) end = Val (pv, sh))
    by (destruct (flag_kind m flag) as [|[]]; [exact E|done|exact E]).
  destruct (load (Some tp)) as [p|] eqn:L1; [|done]. destruct (load (Some ts)) as [s|] eqn:L2; [|done]. injection G as -> ->.
  apply load_says in L1 as (? & [= <-] & L1). apply load_says in L2 as (? & [= <-] & L2). done.
Qed.
Lemma shown_if pv sh : no_such_home m flag -> file_says tp pv -> file_says ts sh -> exists t, show_output dflt m flag = Val t.
Proof.
  intros Hn H1 H2. apply says_load in H1 as (p & L1 & _). apply says_load in H2 as (s & L2 & _). apply kind_iff in Hn.
  unfold show_output, state_show_cmd. rewrite Hy, Hp, Hs, L1, L2. destruct (flag_kind m flag) as [|[]]; [eauto|done|eauto].
Qed.
End Files.
Lemma shown_present dflt m flag t : show_output dflt m flag = Val t -> no_such_home m flag /\
  exists y tp ts, config_at dflt m flag = Some y /\
    ma_state m !! (home_of dflt flag, pv_path (cf_chain (ya_cfg y))) = Some tp /\
    ma_state m !! (home_of dflt flag, share_path (cf_chain (ya_cfg y))) = Some ts.
Proof.
  intros H. unfold show_output, state_show_cmd in H. split.
  { apply kind_iff. intros E. by rewrite E in H. }
  destruct (flag_kind m flag) as [|[]]; [|done|];
    (destruct (config_at dflt m flag) as [y|]; [|done]; exists y;
     destruct (ma_state m !! (_, pv_path _)) as [tp|]; [|done]; exists tp;
     destruct (ma_state m !! (_, share_path _)) as [ts|]; [|by destruct (load (Some tp))]; exists ts; done).
Qed.

Lemma show_start L KL dflt m flag t r h m' : at_home dflt m flag -> show_output dflt m flag = Val t -> start_cmd L KL dflt m flag = Val (r, h, m') ->
  exists ls, lines t ls /\ report (vs_lss (ho_val h)) (cs_lss (cn_cos (ho_cos h))) ls.
Proof.
  intros Hh Ht Hst. apply show_lines in Ht as (pv & sh & ls & E & Hl & Hr). exists ls. split; [exact Hl|].
  destruct (show_then_start L KL dflt m flag pv sh r h m' Hh E Hst) as [-> ->]. exact Hr.
Qed.
