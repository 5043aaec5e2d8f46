(** Durations as text: proofs. *)
From Coq Require Import Strings.String Floats.SpecFloat.
From Verif Require Import GoBase Json Config Dial Duration DurationSpec.
Local Open Scope Z_scope.

Lemma is_digit_iff c : is_digit c = true <-> 48 <= bz c <= 57.
Proof. unfold is_digit. rewrite andb_true_iff, !Z.leb_le. done. Qed.
Lemma pow63 : 2 ^ 63 = 9223372036854775808.
Proof. done. Qed.
Lemma bz_range c : 0 <= bz c < 256.
Proof. unfold bz. pose proof (Byte.to_N_bounded c). lia. Qed.

(** what stops a number *)
Definition stops (r : bytes) : Prop := match r with [] => True | c :: _ => is_digit c = false end.
Notation dec_from := (fold_left (fun n c => 10 * n + (bz c - 48))).
Lemma dec_from_ge ds : forall x, 0 <= x -> Forall (fun c => 48 <= bz c <= 57) ds -> x <= dec_from ds x.
Proof.
  induction ds as [|c ds IH]; intros x Hx Hd; cbn [fold_left]; [lia|]. inversion_clear Hd as [|?? Hc Hr].
  etransitivity; [|apply IH; [lia|done]]. lia.
Qed.
Lemma leading_int_digits ds r : forall x, 0 <= x -> Forall (fun c => 48 <= bz c <= 57) ds -> stops r ->
  dec_from ds x <= 2 ^ 63 -> leading_int x (ds ++ r) = Some (dec_from ds x, r).
Proof.
  induction ds as [|c ds IH]; intros x Hx Hd Hr Hb; cbn [fold_left app leading_int].
  - destruct r as [|c r]; [done|]. cbn [leading_int]. cbn in Hr. by rewrite Hr.
  - inversion_clear Hd as [|?? Hc Hds]. rewrite (proj2 (is_digit_iff c) Hc). cbn [fold_left] in Hb.
    pose proof (dec_from_ge ds (10 * x + (bz c - 48)) ltac:(lia) Hds) as Hge. rewrite pow63 in *.
    change (9223372036854775808 / 10) with 922337203685477580.
    destruct (Z.ltb_spec 922337203685477580 x); [lia|]. cbv zeta.
    destruct (Z.ltb_spec 9223372036854775808 (x * 10 + (bz c - 48))); [lia|].
    replace (x * 10 + (bz c - 48)) with (10 * x + (bz c - 48)) by lia. apply IH; [lia|done|done|exact Hb].
Qed.
Lemma leading_int_inv s : forall x v r, leading_int x s = Some (v, r) ->
  exists ds, s = ds ++ r /\ Forall (fun c => 48 <= bz c <= 57) ds /\ stops r /\ v = dec_from ds x.
Proof.
  induction s as [|c s IH]; intros x v r H; cbn [leading_int] in H.
  - injection H as <- <-. exists []. done.
  - destruct (is_digit c) eqn:Ec.
    + destruct (_ <? x); [discriminate|]. cbv zeta in H. destruct (_ <? _); [discriminate|].
      apply IH in H as (ds & -> & Hd & Hr & ->). exists (c :: ds). split; [done|].
      split; [constructor; [by apply is_digit_iff|done]|]. split; [done|]. cbn [fold_left]. f_equal. lia.
    + injection H as <- <-. exists []. split; [done|]. split; [constructor|]. done.
Qed.

Definition begins (r : bytes) : Prop := match r with [] => True | c :: _ => 48 <= bz c <= 57 end.
Lemma unit_text_app u r : Forall (fun c => bz c <> 46 /\ is_digit c = false) u -> begins r -> unit_text (u ++ r) = (u, r).
Proof.
  induction 1 as [|c u [H1 H2] _ IH]; intros Hr; cbn [app unit_text].
  - destruct r as [|c r]; [done|]. cbn [unit_text]. cbn in Hr. rewrite (proj2 (is_digit_iff c) Hr), orb_true_r. done.
  - rewrite H2, (proj2 (Z.eqb_neq _ _) H1). cbn. by rewrite IH.
Qed.
Lemma unit_text_split s : forall u r, unit_text s = (u, r) -> s = u ++ r.
Proof.
  induction s as [|c s IH]; intros u r H; cbn [unit_text] in H.
  - by injection H as <- <-.
  - destruct (_ || _); [by injection H as <- <-|]. destruct (unit_text s) as [u' r'] eqn:E. injection H as <- <-.
    by rewrite (IH _ _ eq_refl) at 1.
Qed.
Lemma unit_name_plain u : Forall (fun c => bz c <> 46 /\ is_digit c = false) (unit_name u).
Proof. destruct u; repeat (constructor; [split; [discriminate|reflexivity]|]); constructor. Qed.
Lemma unit_ns_name u : unit_ns (unit_name u) = Some (nanoseconds u).
Proof. by destruct u. Qed.
Lemma unit_name_ns u z : unit_ns u = Some z -> exists d, u = unit_name d /\ z = nanoseconds d.
Proof.
  unfold unit_ns, bytes_equal. intros H.
  repeat (case_bool_decide; [injection H as <-; subst u|]); [exists Dns|exists Dus|exists Dus'|exists Dus''|exists Dms|exists Ds|exists Dm|exists Dh|]; done.
Qed.
Lemma unit_name_cons u : exists c r, unit_name u = c :: r /\ is_digit c = false /\ bz c <> 46.
Proof. destruct u; eexists _, _; (split; [reflexivity|]); split; done. Qed.
Lemma ns_pos u : 0 < nanoseconds u.
Proof. by destruct u. Qed.
Lemma decimal_nonneg ds : digits ds -> 0 <= decimal ds.
Proof. intros [_ H]. apply dec_from_ge; [lia|done]. Qed.

(** ** one part *)
Lemma dur_part_ok ds u r : digits ds -> begins r -> decimal ds * nanoseconds u <= 2 ^ 63 ->
  dur_part (ds ++ unit_name u ++ r) = Some (decimal ds * nanoseconds u, r).
Proof.
  intros Hd Hr Hb. pose proof (decimal_nonneg _ Hd) as Hn. pose proof (ns_pos u) as Hu.
  assert (Hle : decimal ds <= 2 ^ 63 / nanoseconds u) by (apply Z.div_le_lower_bound; lia).
  assert (H63 : decimal ds <= 2 ^ 63) by (rewrite pow63 in *; nia).
  destruct Hd as [Hne Hd]. destruct (unit_name_cons u) as (c & n & En & Hc & Hdot).
  unfold dur_part. assert (Hli : leading_int 0 (ds ++ unit_name u ++ r) = Some (decimal ds, unit_name u ++ r)).
  { apply leading_int_digits; [lia|done| |done]. rewrite En. exact Hc. }
  destruct ds as [|b ds]; [done|]. inversion Hd as [|?? Hb0 Hds]; subst.
  change ((b :: ds) ++ unit_name u ++ r) with (b :: ds ++ unit_name u ++ r) in *. cbv iota.
  rewrite (proj2 (is_digit_iff b) Hb0), orb_true_r. rewrite Hli.
  assert (Hlen : Nat.eqb (length (unit_name u ++ r)) (length (b :: ds ++ unit_name u ++ r)) = false).
  { apply Nat.eqb_neq. cbn [length]. rewrite (app_length ds). lia. }
  rewrite Hlen. cbn [negb].
  cbv zeta. set (q := match unit_name u ++ r with [] => _ | _ => _ end). assert (Hq : q = (0, f_of_Z 1, unit_name u ++ r, false)).
  { unfold q. rewrite En. cbn [app]. by rewrite (proj2 (Z.eqb_neq _ _) Hdot). }
  rewrite Hq. clear q Hq. cbn [andb]. rewrite (unit_text_app _ _ (unit_name_plain u) Hr). pose proof (unit_ns_name u) as Ens.
  destruct (unit_name u) eqn:E; [discriminate En|]. rewrite Ens. destruct (Z.ltb_spec (2 ^ 63 / nanoseconds u) (decimal (b :: ds))); [lia|]. done.
Qed.
Lemma dur_part_inv s v s' : no_dot s -> dur_part s = Some (v, s') ->
  exists ds u, digits ds /\ s = ds ++ unit_name u ++ s' /\ v = decimal ds * nanoseconds u.
Proof.
  intros Hnd. unfold dur_part. destruct s as [|c s0] eqn:Es; [discriminate|]. rewrite <- Es in *.
  destruct (_ || _) eqn:Ec; [|discriminate].
  assert (Hc : is_digit c = true).
  { rewrite Es in Hnd. inversion_clear Hnd as [|?? H1 _]. apply Z.eqb_neq in H1. by rewrite H1 in Ec. }
  destruct (leading_int 0 s) as [[w s1]|] eqn:El; [|discriminate].
  apply leading_int_inv in El as (ds & E & Hd & Hst & ->).
  assert (Hne : ds <> []). { intros ->. cbn in E. rewrite <- E, Es in Hst. cbn in Hst. congruence. }
  assert (Hnd1 : no_dot s1). { rewrite E in Hnd. by apply list.Forall_app in Hnd as [_ Hnd]. }
  set (q := match s1 with [] => _ | _ => _ end). assert (Hq : q = (0, f_of_Z 1, s1, false)).
  { unfold q. destruct s1 as [|d s1']; [done|]. inversion_clear Hnd1 as [|?? H1 _]. by rewrite (proj2 (Z.eqb_neq _ _) H1). }
  rewrite Hq. clear q Hq. destruct (negb _ && negb false); [discriminate|].
  destruct (unit_text s1) as [u s3] eqn:Eu. apply unit_text_split in Eu.
  destruct u as [|c' u']; [discriminate|]. destruct (unit_ns (c' :: u')) as [z|] eqn:Ez; [|discriminate].
  apply unit_name_ns in Ez as (d & Ed & ->). destruct (_ <? _); [discriminate|]. cbn [Z.ltb Z.compare]. intros [= <- <-].
  exists ds, d. split; [done|]. split; [|done]. rewrite E, Eu, Ed. done.
Qed.

(** ** all parts *)
Lemma parts_value_nonneg l : Forall (fun p => digits (fst p)) l -> 0 <= parts_value l.
Proof.
  induction 1 as [|[ds u] l H _ IH]; [done|]. unfold parts_value in *. cbn [map fold_right fst snd] in *.
  pose proof (decimal_nonneg _ H). pose proof (ns_pos u). nia.
Qed.
Lemma parts_begin l : Forall (fun p => digits (fst p)) l -> begins (parts_text l).
Proof.
  destruct 1 as [|[ds u] l [Hne Hd] _]; [done|]. unfold parts_text. cbn. destruct ds; [done|]. by inversion Hd.
Qed.
Lemma parts_run l : forall fuel d, Forall (fun p => digits (fst p)) l -> (length l <= fuel)%nat -> 0 <= d ->
  d + parts_value l <= 2 ^ 63 -> dur_parts fuel d (parts_text l) = Some (d + parts_value l).
Proof.
  induction l as [|[ds u] l IH]; intros fuel d Hl Hf Hd Hb.
  - unfold parts_value. cbn. destruct fuel; cbn; f_equal; lia.
  - inversion_clear Hl as [|?? Hp Hr]. cbn [fst] in Hp. destruct fuel as [|fuel]; [cbn in Hf; lia|].
    pose proof (parts_value_nonneg _ Hr) as Hn. pose proof (decimal_nonneg _ Hp) as Hn'. pose proof (ns_pos u) as Hu.
    assert (Ev : parts_value ((ds, u) :: l) = decimal ds * nanoseconds u + parts_value l) by done.
    assert (Et : parts_text ((ds, u) :: l) = ds ++ unit_name u ++ parts_text l).
    { unfold parts_text. cbn [map concat fst snd]. by rewrite <- app_assoc. }
    rewrite Ev in *. rewrite Et. pose proof (dur_part_ok ds u (parts_text l) Hp (parts_begin _ Hr) ltac:(nia)) as Hpart.
    cbn [dur_parts]. destruct (ds ++ unit_name u ++ parts_text l) as [|x xs] eqn:E; [by destruct Hp, ds|].
    rewrite Hpart. destruct (Z.ltb_spec (2 ^ 63) (d + decimal ds * nanoseconds u)); [nia|].
    rewrite IH; [f_equal; lia|done|cbn in Hf; lia|nia|lia].
Qed.
Lemma parts_inv fuel : forall d s r, no_dot s -> dur_parts fuel d s = Some r ->
  exists l, s = parts_text l /\ Forall (fun p => digits (fst p)) l /\ r = d + parts_value l /\ (s <> [] -> r <= 2 ^ 63).
Proof.
  induction fuel as [|fuel IH]; intros d s r Hnd H.
  - destruct s; [|discriminate]. injection H as <-. exists []. split; [done|]. split; [constructor|]. split; [unfold parts_value; cbn; lia|done].
  - cbn [dur_parts] in H. destruct s as [|c s0] eqn:Es.
    { injection H as <-. exists []. split; [done|]. split; [constructor|]. split; [unfold parts_value; cbn; lia|done]. }
    rewrite <- Es in *. destruct (dur_part s) as [[v s']|] eqn:Ep; [|discriminate].
    destruct (Z.ltb_spec (2 ^ 63) (d + v)) as [|Hle]; [discriminate|].
    apply dur_part_inv in Ep as (ds & u & Hd & E & ->); [|done].
    assert (Hnd' : no_dot s'). { rewrite E in Hnd. apply list.Forall_app in Hnd as [_ Hnd]. by apply list.Forall_app in Hnd as [_ Hnd]. }
    destruct (IH _ _ _ Hnd' H) as (l & -> & Hl & -> & Hr). exists ((ds, u) :: l).
    assert (Ev : parts_value ((ds, u) :: l) = decimal ds * nanoseconds u + parts_value l) by done.
    assert (Et : parts_text ((ds, u) :: l) = ds ++ unit_name u ++ parts_text l).
    { unfold parts_text. cbn [map concat fst snd]. by rewrite <- app_assoc. }
    rewrite Ev, Et. split; [done|]. split; [by constructor|]. split; [lia|]. intros _.
    destruct l as [|p l]; [unfold parts_value; cbn; lia|]. apply Hr. inversion_clear Hl as [|?? [Hn _] _].
    unfold parts_text. cbn [map concat]. destruct p as [[|b p] u']; [done|]. discriminate.
Qed.

Lemma parts_length l : Forall (fun p => digits (fst p)) l -> (length l * 2 <= length (parts_text l))%nat.
Proof.
  induction 1 as [|[ds u] l [Hne _] _ IH]; [done|]. unfold parts_text in *. cbn [map concat length fst snd] in *.
  rewrite !app_length. destruct ds; [done|]. destruct (unit_name_cons u) as (c & n & -> & _). cbn [length]. lia.
Qed.

(** ** the whole text *)
Definition unsigned (neg : bool) (s : bytes) : option Z :=
  if bytes_equal s (lit "0") then Some 0
  else match s with
       | [] => None
       | _ => match dur_parts (length s) 0 s with
              | None => None
              | Some d => if neg then Some (- d) else if 2 ^ 63 - 1 <? d then None else Some d
              end
       end.
Lemma unsigned_parts (neg : bool) l : l <> [] -> Forall (fun p => digits (fst p)) l ->
  parts_value l <= 2 ^ 63 - (if neg then 0 else 1) ->
  unsigned neg (parts_text l) = Some (if neg then - parts_value l else parts_value l).
Proof.
  intros Hne Hl Hb. unfold unsigned, bytes_equal. pose proof (parts_length _ Hl) as Hlen.
  rewrite pow63 in Hb. rewrite bool_decide_eq_false_2.
  - destruct (parts_text l) as [|c t] eqn:Et; [destruct l; [done|cbn in Hlen; lia]|]. rewrite <- Et in *.
    rewrite (parts_run l (length (parts_text l)) 0); [|done|lia|lia|rewrite pow63; destruct neg; lia].
    change (0 + parts_value l) with (parts_value l). destruct neg; [done|].
    rewrite pow63. destruct (Z.ltb_spec (9223372036854775808 - 1) (parts_value l)); [lia|done].
  - intros E. rewrite E in Hlen. destruct l; [done|]. cbn in Hlen. lia.
Qed.
Lemma unsigned_inv (neg : bool) s d : no_dot s -> unsigned neg s = Some d ->
  (s = lit "0" /\ d = 0) \/
  exists l, s = parts_text l /\ l <> [] /\ Forall (fun p => digits (fst p)) l /\
    parts_value l <= 2 ^ 63 - (if neg then 0 else 1) /\ d = if neg then - parts_value l else parts_value l.
Proof.
  intros Hnd. unfold unsigned, bytes_equal. case_bool_decide as E0; [intros [= <-]; by left|]. right.
  destruct s as [|c s0] eqn:Es; [discriminate|]. rewrite <- Es in *.
  destruct (dur_parts _ 0 s) as [r|] eqn:Ep; [|discriminate].
  apply parts_inv in Ep as (l & El & Hl & Er & Hb); [|done]. cbn in Er.
  assert (Hne : l <> []). { intros ->. rewrite El in Es. discriminate Es. }
  specialize (Hb ltac:(rewrite Es; discriminate)). exists l. rewrite pow63 in *.
  destruct neg; [injection H as <-|].
  - split; [done|]. split; [done|]. split; [done|]. split; [lia|]. by rewrite Er.
  - destruct (Z.ltb_spec (9223372036854775808 - 1) r); [discriminate|]. injection H as <-.
    split; [done|]. split; [done|]. split; [done|]. split; [lia|]. by rewrite Er.
Qed.

Lemma parse_signed s : parse_duration s =
  match s with
  | c :: s' => if bz c =? 45 then unsigned true s' else if bz c =? 43 then unsigned false s' else unsigned false s
  | [] => None
  end.
Proof.
  unfold parse_duration. destruct s as [|c s']; [done|]. destruct (bz c =? 45); [done|]. by destruct (bz c =? 43).
Qed.
Lemma digit_first l : l <> [] -> Forall (fun p => digits (fst p)) l -> exists c r, parts_text l = c :: r /\ 48 <= bz c <= 57.
Proof.
  intros Hne Hl. pose proof (parts_length _ Hl) as Hlen. pose proof (parts_begin _ Hl) as Hb.
  destruct (parts_text l) as [|c r]; [destruct l; [done|cbn in Hlen; lia]|]. by exists c, r.
Qed.
Lemma bz_inj a b : bz a = bz b -> a = b.
Proof.
  intros H. unfold bz in H. apply N2Z.inj in H. assert (Some a = Some b) as [= ->]; [|done].
  by rewrite <- (Byte.of_to_N a), <- (Byte.of_to_N b), H.
Qed.

Lemma text_value s d : no_dot s -> parse_duration s = Some d <-> duration_text s d.
Proof.
  intros Hnd. rewrite parse_signed. split.
  - destruct s as [|c s']; [discriminate|]. inversion Hnd as [|?? _ Hnd']; subst.
    destruct (Z.eqb_spec (bz c) 45) as [E|_]; [|destruct (Z.eqb_spec (bz c) 43) as [E|_]].
    + apply (bz_inj c "-"%byte) in E as ->. intros H. apply unsigned_inv in H as [[-> ->]|(l & -> & H1 & H2 & H3 & ->)]; [| |done].
      * apply (dt_zero (lit "-")). tauto.
      * apply dt_neg; [done|done|lia].
    + apply (bz_inj c "+"%byte) in E as ->. intros H. apply unsigned_inv in H as [[-> ->]|(l & -> & H1 & H2 & H3 & ->)]; [| |done].
      * apply (dt_zero (lit "+")). tauto.
      * apply (dt_pos (lit "+")); [by right|done|done|lia].
    + intros H. apply unsigned_inv in H as [[-> ->]|(l & El & H1 & H2 & H3 & ->)]; [| |done].
      * apply (dt_zero []). tauto.
      * rewrite El. apply (dt_pos []); [by left|done|done|lia].
  - intros H. destruct H as [sign Hs|sign l Hs Hne Hl Hb|l Hne Hl Hb].
    + destruct Hs as [-> |[-> | ->]]; reflexivity.
    + destruct (digit_first _ Hne Hl) as (c & r & E & Hc).
      assert (Hu : unsigned false (parts_text l) = Some (parts_value l)) by (apply (unsigned_parts false); [done|done|lia]).
      destruct Hs as [-> | ->].
      * cbn [app]. rewrite E in *. destruct (Z.eqb_spec (bz c) 45); [lia|]. destruct (Z.eqb_spec (bz c) 43); [lia|]. exact Hu.
      * exact Hu.
    + apply (unsigned_parts true); [done|done|lia].
Qed.

(** ** the range, fractions included *)
Lemma f_to_Z_nonneg x : 0 <= f_to_Z x.
Proof.
  destruct x as [s|s| |[] m e]; cbn; try lia. destruct (Z.leb_spec 0 e).
  - apply Z.mul_nonneg_nonneg; [lia|]. apply Z.pow_nonneg. lia.
  - apply Z.div_pos; [lia|]. apply Z.pow_pos_nonneg; lia.
Qed.
Lemma leading_int_nonneg s x v r : 0 <= x -> leading_int x s = Some (v, r) -> 0 <= v.
Proof. intros Hx H. apply leading_int_inv in H as (ds & _ & Hd & _ & ->). pose proof (dec_from_ge ds x Hx Hd). lia. Qed.
Lemma dur_part_nonneg s v s' : dur_part s = Some (v, s') -> 0 <= v.
Proof.
  unfold dur_part. destruct s as [|c s0] eqn:Es; [discriminate|]. rewrite <- Es. destruct (_ || _); [|discriminate].
  destruct (leading_int 0 s) as [[w s1]|] eqn:El; [|discriminate]. apply leading_int_nonneg in El; [|lia].
  set (q := match s1 with [] => _ | _ => _ end). destruct q as [[[f scale] s2] post].
  destruct (_ && _); [discriminate|]. destruct (unit_text s2) as [u s3]. destruct u as [|c' u']; [discriminate|].
  destruct (unit_ns _) as [z|] eqn:Ez; [|discriminate]. apply unit_name_ns in Ez as (d & _ & ->). pose proof (ns_pos d) as Hz.
  destruct (_ <? w); [discriminate|]. destruct (0 <? f).
  - destruct (_ <? _); [discriminate|]. intros [= <- <-].
    pose proof (f_to_Z_nonneg (f_mul (f_of_Z f) (f_div (f_of_Z (nanoseconds d)) scale))). nia.
  - intros [= <- <-]. nia.
Qed.
Lemma dur_parts_range fuel : forall d s r, 0 <= d <= 2 ^ 63 -> dur_parts fuel d s = Some r -> 0 <= r <= 2 ^ 63.
Proof.
  induction fuel as [|fuel IH]; intros d s r Hd H; cbn [dur_parts] in H.
  - destruct s; [|discriminate]. by injection H as <-.
  - destruct s as [|c s]; [by injection H as <-|]. destruct (dur_part (c :: s)) as [[v s']|] eqn:Ep; [|discriminate].
    apply dur_part_nonneg in Ep. destruct (Z.ltb_spec (2 ^ 63) (d + v)); [discriminate|]. eapply IH; [|exact H]. lia.
Qed.
Lemma unsigned_range neg s d : unsigned neg s = Some d -> - 2 ^ 63 <= d < 2 ^ 63.
Proof.
  unfold unsigned. rewrite pow63. destruct (bytes_equal _ _); [intros [= <-]; lia|]. destruct s as [|c s]; [discriminate|].
  destruct (dur_parts _ 0 _) as [r|] eqn:E; [|discriminate]. apply dur_parts_range in E; [|rewrite pow63; lia]. rewrite pow63 in E.
  destruct neg; [intros [= <-]; lia|]. destruct (Z.ltb_spec (9223372036854775808 - 1) r); [discriminate|]. intros [= <-]. lia.
Qed.
Lemma parse_range s d : parse_duration s = Some d -> - 2 ^ 63 <= d < 2 ^ 63.
Proof.
  rewrite parse_signed. destruct s as [|c s]; [discriminate|].
  destruct (bz c =? 45); [|destruct (bz c =? 43)]; apply unsigned_range.
Qed.

(** ** texts of durations have no dot *)
Lemma parts_no_dot l : Forall (fun p => digits (fst p)) l -> no_dot (parts_text l).
Proof.
  induction 1 as [|[ds u] l [_ Hd] _ IH]; [constructor|]. unfold parts_text in *. cbn [map concat fst snd] in *.
  apply list.Forall_app. split; [|exact IH]. apply list.Forall_app. split.
  - eapply list.Forall_impl; [exact Hd|]. intros c Hc. cbn in Hc. lia.
  - eapply list.Forall_impl; [apply (unit_name_plain u)|]. intros c Hc. apply Hc.
Qed.
Lemma text_no_dot s d : duration_text s d -> no_dot s.
Proof.
  intros H. destruct H as [sign Hs|sign l Hs _ Hl _|l _ Hl _].
  - destruct Hs as [-> |[-> | ->]]; repeat (constructor; [discriminate|]); constructor.
  - apply parts_no_dot in Hl. destruct Hs as [-> | ->]; [exact Hl|]. constructor; [discriminate|exact Hl].
  - constructor; [discriminate|]. by apply parts_no_dot.
Qed.
Lemma text_parse s d : duration_text s d -> parse_duration s = Some d.
Proof. intros H. apply text_value; [by eapply text_no_dot|done]. Qed.

(** ** the configuration *)
Lemma duration_ok_iff s : no_dot s -> duration_ok s = true <-> exists d, duration_text s d.
Proof.
  intros Hnd. unfold duration_ok. split.
  - destruct (parse_duration s) as [d|] eqn:E; [|discriminate]. intros _. exists d. by apply text_value.
  - intros [d H]. by rewrite (text_parse _ _ H).
Qed.
Lemma init_timeout chain nodes f c : config_init (go_lib duration_ok) chain nodes (Some f) = inr c ->
  exists s, cf_cosigner c = Some s /\ co_timeout s = if_timeout f /\ duration_ok (if_timeout f) = true /\
    forall t, config_init (go_lib duration_ok) chain nodes (Some (InitFlags (if_peers f) (if_threshold f) (if_listen f) t)) =
      if duration_ok t then inr (Config (cf_chain c) (Some (CosSection (co_threshold s) (co_shares s) (co_listen s) (co_peers s) t)) (cf_nodes c))
      else inl CeDuration.
Proof.
  unfold config_init. cbn [if_peers if_threshold if_listen if_timeout]. intros H. destruct (init_nodes _ nodes) as [|cn]; [discriminate|].
  destruct (peers_from_flag (if_peers f)) as [|peers]; [discriminate|]. destruct (if_listen f) as [|b ls]; [discriminate|].
  destruct (negb _) eqn:Eu; [discriminate|]. destruct (lib_host _ _) as [ho|]; [|discriminate].
  destruct (bytes_equal _ _); [discriminate|]. cbv zeta in H |- *.
  destruct (validate_cosigner _ _) eqn:Ev; [discriminate|]. injection H as <-. eexists. split; [reflexivity|]. split; [done|].
  cbn [cf_chain cf_nodes co_threshold co_shares co_listen co_peers].
  unfold validate_cosigner in *. cbn [cf_chain cf_cosigner co_peers co_threshold co_timeout co_listen co_shares cf_nodes] in *.
  change (lib_duration (go_lib duration_ok)) with duration_ok in *.
  destruct chain as [|b' ch]; [discriminate|]. destruct (_ <? _); [discriminate|].
  destruct (duration_ok (if_timeout f)); [|discriminate]. cbn [negb] in Ev. split; [done|]. intros t.
  destruct (duration_ok t); cbn [negb]; [|done]. by rewrite Ev.
Qed.
Lemma init_timeout_iff chain nodes f c t : config_init (go_lib duration_ok) chain nodes (Some f) = inr c -> no_dot t ->
  (exists c', config_init (go_lib duration_ok) chain nodes (Some (InitFlags (if_peers f) (if_threshold f) (if_listen f) t)) = inr c') <->
  exists d, duration_text t d.
Proof.
  intros H Hnd. apply init_timeout in H as (s & _ & _ & _ & Ht). rewrite Ht, <- duration_ok_iff by done.
  destruct (duration_ok t); [split; [done|eauto]|]. split; [intros [c' Hc']; discriminate|discriminate].
Qed.

(** ** the wait *)
Lemma wait_bounded s d taken : duration_text s d -> 0 < d ->
  exists t b, apply_wait (raft_timeout s) taken = Some (t, b) /\
    (b = true <-> exists t', taken = Some t' /\ t' <= d /\ t = t') /\ (b = false -> t = d).
Proof.
  intros Ht Hd. apply text_parse in Ht. unfold raft_timeout. rewrite Ht.
  unfold apply_wait. destruct (Z.ltb_spec 0 d); [|lia]. destruct taken as [t|].
  - destruct (Z.leb_spec t d).
    + exists t, true. split; [done|]. split; [split; [eauto|done]|]. done.
    + exists d, false. split; [done|]. split; [split; [done|intros (t' & [= <-] & ? & _); lia]|]. done.
  - exists d, false. split; [done|]. split; [split; [done|intros (t' & ? & _); discriminate]|]. done.
Qed.
Lemma wait_forever s d : duration_text s d -> d <= 0 -> apply_wait (raft_timeout s) None = None.
Proof.
  intros Ht Hd. apply text_parse in Ht. unfold raft_timeout. rewrite Ht. unfold apply_wait. by destruct (Z.ltb_spec 0 d); [lia|].
Qed.
