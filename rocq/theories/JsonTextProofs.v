(** The parser of the model reads exactly the texts of [JsonSpec] (C94). *)
From Coq Require Import Strings.String.
From Verif Require Import GoBase Json JsonSpec JsonProofs.
Local Open Scope Z_scope.

(** ** White space *)
Definition is_blank (b : byte) : Prop := b = x20 \/ b = x09 \/ b = x0a \/ b = x0d.
Global Instance is_blank_dec b : Decision (is_blank b).
Proof. unfold is_blank. apply _. Defined.
Lemma skip_blank b l : is_blank b -> skip_ws (b :: l) = skip_ws l.
Proof. intros [-> |[-> |[-> | ->]]]; reflexivity. Qed.
Lemma skip_other b l : ~ is_blank b -> skip_ws (b :: l) = b :: l.
Proof. intros H. destruct b; try reflexivity; exfalso; apply H; unfold is_blank; auto. Qed.
Lemma skip_ws_app w l : blank w -> skip_ws (w ++ l) = skip_ws l.
Proof. induction 1 as [|b w Hb _ IH]; [reflexivity|]. cbn [app]. rewrite skip_blank by exact Hb. exact IH. Qed.
Lemma skip_ws_split l : exists w, blank w /\ l = w ++ skip_ws l.
Proof.
  induction l as [|b l (w & Hw & E)]; [by exists []; split; [constructor|]|].
  destruct (decide (is_blank b)) as [Hb|Hb].
  - rewrite skip_blank by done. exists (b :: w). split; [by constructor|]. cbn [app]. by rewrite <- E.
  - rewrite skip_other by done. exists []. split; [constructor|done].
Qed.
Lemma skip_ws_head w b l : blank w -> ~ is_blank b -> skip_ws (w ++ b :: l) = b :: l.
Proof. intros Hw Hb. rewrite skip_ws_app by done. by apply skip_other. Qed.

(** ** Strings *)
Definition hexv (h : byte) (n : Z) : Prop :=
  48 <= bz h <= 57 /\ n = bz h - 48 \/ 65 <= bz h <= 70 /\ n = bz h - 55 \/ 97 <= bz h <= 102 /\ n = bz h - 87.
Lemma hex_val_spec h n : hex_val h = Some n <-> hexv h n.
Proof.
  unfold hex_val, hexv. cbn zeta. set (v := bz h). clearbody v.
  destruct ((48 <=? v) && (v <=? 57)) eqn:E1; [split; [intros [= <-]; lia|intros H; f_equal; lia]|].
  destruct ((65 <=? v) && (v <=? 70)) eqn:E2; [split; [intros [= <-]; lia|intros H; f_equal; lia]|].
  destruct ((97 <=? v) && (v <=? 102)) eqn:E3; [split; [intros [= <-]; lia|intros H; f_equal; lia]|].
  split; [done|lia].
Qed.
Lemma hex4_spec a b c d v : hex4 a b c d = Some v <-> hex_digits a b c d v.
Proof.
  unfold hex4, hex_digits. split.
  - destruct (hex_val a) as [w|] eqn:E1; [|done]. destruct (hex_val b) as [x|] eqn:E2; [|done].
    destruct (hex_val c) as [y|] eqn:E3; [|done]. destruct (hex_val d) as [z|] eqn:E4; [|done]. intros [= <-].
    exists w, x, y, z. split; [|ring]. apply hex_val_spec in E1, E2, E3, E4.
    constructor; [exact E1|]. constructor; [exact E2|]. constructor; [exact E3|]. constructor; [exact E4|]. constructor.
  - intros (w & x & y & z & H & ->). apply Forall2_cons_1 in H as [h0 H]. apply Forall2_cons_1 in H as [h1 H]. apply Forall2_cons_1 in H as [h2 H]. apply Forall2_cons_1 in H as [h3 H].
    apply hex_val_spec in h0, h1, h2, h3. rewrite h0, h1, h2, h3. f_equal. ring.
Qed.
Lemma hex4_range a b c d v : hex4 a b c d = Some v -> 0 <= v < 65536.
Proof.
  unfold hex4. destruct (hex_val a) as [w|] eqn:E1; [|done]. destruct (hex_val b) as [x|] eqn:E2; [|done].
  destruct (hex_val c) as [y|] eqn:E3; [|done]. destruct (hex_val d) as [z|] eqn:E4; [|done]. intros [= <-].
  apply hex_val_spec in E1, E2, E3, E4. unfold hexv in *. lia.
Qed.
Lemma escape_spec e c : escape_char e = Some c <-> short_escape e c.
Proof.
  unfold short_escape. split.
  - intros H. destruct e; try discriminate H; injection H as <-; set_solver.
  - intros H. repeat (apply elem_of_cons in H as [H|H]; [by injection H as -> ->|]). by apply elem_of_nil in H.
Qed.
Lemma escape_not_u e c : escape_char e = Some c -> e <> "u"%byte.
Proof. intros H ->. discriminate H. Qed.

(** one step of each reader, by kind of character *)
Lemma scan_plain b l : 32 <= bz b -> b <> x22 -> b <> x5c ->
  scan_string (b :: l) = match scan_string l with Some (r, k) => Some (b :: r, k) | None => None end.
Proof.
  intros H1 H2 H3. apply scan_string_safe. unfold safe_byte.
  rewrite !andb_true_iff, !negb_true_iff, !bool_decide_eq_false, Z.leb_le. done.
Qed.
Lemma unescape_plain b l : b <> x5c ->
  unescape (b :: l) = match unescape l with Some r => Some (b :: r) | None => None end.
Proof. intros H. destruct b; try reflexivity; by exfalso. Qed.
Lemma scan_short e c l : escape_char e = Some c ->
  scan_string (x5c :: e :: l) = match scan_string l with Some (r, k) => Some (x5c :: e :: r, k) | None => None end.
Proof. intros H. destruct e; try discriminate H; reflexivity. Qed.
Lemma unescape_short e c l : escape_char e = Some c ->
  unescape (x5c :: e :: l) = match unescape l with Some r => Some (c :: r) | None => None end.
Proof. intros H. destruct e; try discriminate H; injection H as <-; reflexivity. Qed.
Lemma scan_u a b c d v l : hex4 a b c d = Some v ->
  scan_string (x5c :: "u"%byte :: a :: b :: c :: d :: l) =
  match scan_string l with Some (r, k) => Some (x5c :: "u"%byte :: a :: b :: c :: d :: r, k) | None => None end.
Proof.
  unfold hex4. intros H. cbn [scan_string]. destruct (hex_val a); [|done]. destruct (hex_val b); [|done].
  destruct (hex_val c); [|done]. destruct (hex_val d); [|done]. reflexivity.
Qed.

Lemma scan_bad e l : escape_char e = None -> e <> "u"%byte -> scan_string (x5c :: e :: l) = None.
Proof. intros H Hu. destruct e; first [reflexivity|discriminate H|exfalso; by apply Hu]. Qed.
Lemma scan_low b l : bz b < 32 -> scan_string (b :: l) = None.
Proof. intros H. destruct b; first [vm_compute in H; discriminate H|reflexivity]. Qed.
Lemma scan_string_sound n l raw k : (length l <= n)%nat -> scan_string l = Some (raw, k) ->
  string_text raw /\ l = raw ++ x22 :: k.
Proof.
  revert l raw k. induction n as [|n IH]; intros l raw k Hl H.
  { destruct l; [discriminate|simpl in Hl; lia]. }
  destruct l as [|b l]; [discriminate|]. simpl in Hl.
  destruct (decide (b = x22)) as [-> |H1]; [injection H as <- <-; split; [constructor|done]|].
  destruct (decide (b = x5c)) as [-> |H2].
  - destruct l as [|e l]; [discriminate|]. simpl in Hl.
    destruct (escape_char e) as [c|] eqn:Ee.
    + rewrite (scan_short e c l Ee) in H. destruct (scan_string l) as [[r k']|] eqn:E; [|done]. injection H as <- <-.
      destruct (IH l r k' ltac:(lia) E) as [T ->]. split; [|done]. apply (st_short e c); [by apply escape_spec|done].
    + destruct (decide (e = "u"%byte)) as [-> |Hu].
      2:{ by rewrite scan_bad in H. }
      destruct l as [|h1 [|h2 [|h3 [|h4 l]]]]; try (cbn in H; discriminate H).
      destruct (hex4 h1 h2 h3 h4) as [v|] eqn:Ev.
      * rewrite (scan_u _ _ _ _ v) in H by done. destruct (scan_string l) as [[r k']|] eqn:E; [|done]. injection H as <- <-.
        simpl in Hl. destruct (IH l r k' ltac:(lia) E) as [T ->]. split; [|done]. apply (st_u _ _ _ _ v); [by apply hex4_spec|done].
      * exfalso. unfold hex4 in Ev. cbn [scan_string] in H.
        destruct (hex_val h1), (hex_val h2), (hex_val h3), (hex_val h4); done.
  - destruct (Z.ltb_spec (bz b) 32) as [H3|H3].
    { by rewrite scan_low in H. }
    rewrite scan_plain in H by done. destruct (scan_string l) as [[r k']|] eqn:E; [|done]. injection H as <- <-.
    destruct (IH l r k' ltac:(lia) E) as [T ->]. split; [by constructor|done].
Qed.
Lemma scan_string_complete raw k : string_text raw -> scan_string (raw ++ x22 :: k) = Some (raw, k).
Proof.
  induction 1 as [|b raw H1 H2 H3 _ IH|e c raw He _ IH|a b c d v raw Hv _ IH]; cbn [app].
  - reflexivity.
  - by rewrite scan_plain, IH.
  - apply escape_spec in He. by rewrite (scan_short e c), IH.
  - apply hex4_spec in Hv. by rewrite (scan_u _ _ _ _ v), IH.
Qed.
Lemma scan_string_iff l raw k : scan_string l = Some (raw, k) <-> string_text raw /\ l = raw ++ x22 :: k.
Proof.
  split; [by apply (scan_string_sound (length l))|]. intros [H ->]. by apply scan_string_complete.
Qed.

(** what the characters stand for *)
Lemma zb_eq x y : x = y -> zb x = zb y. Proof. by intros ->. Qed.
Lemma utf8_of_spec v u : 0 <= v < 1114112 -> utf8_of v u <-> u = utf8 v.
Proof.
  intros Hv. unfold utf8. split.
  - intros H. destruct H as [H|a b E Ha Hb|a b c E Ha Hb Hc Hl Hs|a b c d E Ha Hb Hc Hd Hr|H].
    + by rewrite (proj2 (Z.ltb_lt _ _)) by lia.
    + rewrite (proj2 (Z.ltb_ge v 128)), (proj2 (Z.ltb_lt v 2048)) by lia.
      assert (v / 64 = a) as -> by (symmetry; apply (Z.div_unique v 64 a b); lia).
      assert (v mod 64 = b) as -> by (symmetry; apply (Z.mod_unique v 64 a b); lia). done.
    + rewrite (proj2 (Z.ltb_ge v 128)), (proj2 (Z.ltb_ge v 2048)), (proj2 (Z.ltb_lt v 65536)) by lia.
      destruct ((55296 <=? v) && (v <? 57344)) eqn:Es; [lia|].
      assert (v / 4096 = a) as -> by (symmetry; apply (Z.div_unique v 4096 a (b * 64 + c)); lia).
      assert (v / 64 = a * 64 + b) as -> by (symmetry; apply (Z.div_unique v 64 _ c); lia).
      assert (v mod 64 = c) as -> by (symmetry; apply (Z.mod_unique v 64 (a * 64 + b) c); lia).
      assert ((a * 64 + b) mod 64 = b) as -> by (symmetry; apply (Z.mod_unique _ 64 a b); lia). done.
    + rewrite (proj2 (Z.ltb_ge v 128)), (proj2 (Z.ltb_ge v 2048)), (proj2 (Z.ltb_ge v 65536)) by lia.
      destruct ((55296 <=? v) && (v <? 57344)) eqn:Es; [lia|].
      assert (v / 262144 = a) as -> by (symmetry; apply (Z.div_unique v 262144 a ((b * 64 + c) * 64 + d)); lia).
      assert (v / 4096 = a * 64 + b) as -> by (symmetry; apply (Z.div_unique v 4096 _ (c * 64 + d)); lia).
      assert (v / 64 = (a * 64 + b) * 64 + c) as -> by (symmetry; apply (Z.div_unique v 64 _ d); lia).
      assert (v mod 64 = d) as -> by (symmetry; apply (Z.mod_unique v 64 ((a * 64 + b) * 64 + c) d); lia).
      assert ((a * 64 + b) mod 64 = b) as -> by (symmetry; apply (Z.mod_unique _ 64 a b); lia).
      assert (((a * 64 + b) * 64 + c) mod 64 = c) as -> by (symmetry; apply (Z.mod_unique _ 64 (a * 64 + b) c); lia). done.
    + rewrite (proj2 (Z.ltb_ge v 128)), (proj2 (Z.ltb_ge v 2048)) by lia.
      destruct ((55296 <=? v) && (v <? 57344)) eqn:Es; [done|lia].
  - intros ->. destruct (Z.ltb_spec v 128); [apply U1; lia|]. destruct (Z.ltb_spec v 2048).
    { apply U2; [rewrite Z.mul_comm; by apply Z.div_mod| |by apply Z.mod_pos_bound].
      split; [apply Z.div_le_lower_bound; lia|apply Z.div_lt_upper_bound; lia]. }
    destruct ((55296 <=? v) && (v <? 57344)) eqn:Es; [apply USurrogate; lia|].
    destruct (Z.ltb_spec v 65536).
    + apply U3; try (by apply Z.mod_pos_bound); lia.
    + apply U4; try (by apply Z.mod_pos_bound); lia.
Qed.
Lemma pair_some v l w : pair_rune v l = Some w <->
  exists a b c d v' l', l = x5c :: "u"%byte :: a :: b :: c :: d :: l' /\ hex_digits a b c d v' /\ 55296 <= v < 56320 /\ 56320 <= v' < 57344 /\
    w = 65536 + (v - 55296) * 1024 + (v' - 56320).
Proof.
  split.
  - intros H. unfold pair_rune in H.
    destruct l as [|p l]; [done|]. destruct (decide (p = x5c)) as [-> |Hp]; [|destruct p; try discriminate H; by exfalso].
    destruct l as [|q l]; [done|]. destruct (decide (q = "u"%byte)) as [-> |Hq]; [|destruct q; try discriminate H; by exfalso].
    destruct l as [|a [|b [|c [|d l]]]]; try done. destruct (hex4 a b c d) as [v'|] eqn:E; [|done].
    destruct ((55296 <=? v) && (v <? 56320) && (56320 <=? v') && (v' <? 57344)) eqn:E2; [|done]. injection H as <-.
    exists a, b, c, d, v', l. split; [done|]. split; [by apply hex4_spec|]. lia.
  - intros (a & b & c & d & v' & l' & -> & Hx & H1 & H2 & ->). apply hex4_spec in Hx. unfold pair_rune. rewrite Hx.
    destruct ((55296 <=? v) && (v <? 56320) && (56320 <=? v') && (v' <? 57344)) eqn:E2; [done|lia].
Qed.
Lemma pair_none v l : pair_rune v l = None <-> ~ (55296 <= v < 56320 /\ low_escape l).
Proof.
  destruct (pair_rune v l) as [w|] eqn:E.
  - apply pair_some in E as (a & b & c & d & v' & l' & -> & Hx & H1 & H2 & ->). split; [done|].
    intros []. split; [done|]. by exists a, b, c, d, v', l'.
  - split; [|done]. intros _ [H (a & b & c & d & v' & l' & -> & Hx & H2)].
    assert (F : pair_rune v (x5c :: "u"%byte :: a :: b :: c :: d :: l') = Some (65536 + (v - 55296) * 1024 + (v' - 56320))).
    { apply pair_some. by exists a, b, c, d, v', l'. }
    congruence.
Qed.
Lemma unescape_alone a b c d v l : hex4 a b c d = Some v -> pair_rune v l = None ->
  unescape (x5c :: "u"%byte :: a :: b :: c :: d :: l) = match unescape l with Some r => Some (utf8 v ++ r) | None => None end.
Proof. intros E Ep. cbn [unescape]. rewrite E, Ep. reflexivity. Qed.
Lemma unescape_pair a b c d v a' b' c' d' w l :
  hex4 a b c d = Some v -> pair_rune v (x5c :: "u"%byte :: a' :: b' :: c' :: d' :: l) = Some w ->
  unescape (x5c :: "u"%byte :: a :: b :: c :: d :: x5c :: "u"%byte :: a' :: b' :: c' :: d' :: l) =
  match unescape l with Some r => Some (utf8 w ++ r) | None => None end.
Proof.
  intros E Ep. set (l1 := x5c :: "u"%byte :: a' :: b' :: c' :: d' :: l) in *.
  change (unescape (x5c :: "u"%byte :: a :: b :: c :: d :: l1)) with
    (match hex4 a b c d with None => None | Some v => match pair_rune v l1 with Some v' => match unescape l with Some r => Some (utf8 v' ++ r) | None => None end
       | None => match unescape l1 with Some r => Some (utf8 v ++ r) | None => None end end end).
  rewrite E, Ep. reflexivity.
Qed.

Lemma chars_unescape raw s : chars raw s -> unescape raw = Some s.
Proof.
  induction 1 as [|b raw s H1 H2 H3 _ IH|e c raw s He _ IH|a b c d v u raw s Hv Hn Hu _ IH|a b c d v a' b' c' d' v' u raw s Hv Hv1 Hw Hw1 Hu _ IH].
  - reflexivity.
  - by rewrite unescape_plain, IH.
  - apply escape_spec in He. by rewrite (unescape_short e c), IH.
  - apply hex4_spec in Hv. pose proof (hex4_range _ _ _ _ _ Hv). apply pair_none in Hn.
    apply utf8_of_spec in Hu as ->; [|lia]. by rewrite (unescape_alone _ _ _ _ v), IH.
  - apply utf8_of_spec in Hu as ->; [|lia].
    apply hex4_spec in Hv. rewrite (unescape_pair _ _ _ _ v _ _ _ _ (65536 + (v - 55296) * 1024 + (v' - 56320))), IH; [done|done|].
    apply pair_some. by exists a', b', c', d', v', raw.
Qed.
Lemma chars_total n raw : (length raw <= n)%nat -> string_text raw -> exists s, chars raw s.
Proof.
  revert raw. induction n as [|n IH]; intros raw Hl H.
  { destruct raw; [|simpl in Hl; lia]. exists []. constructor. }
  destruct H as [|b raw H1 H2 H3 H|e c raw He H|a b c d v raw Hv H]; simpl in Hl.
  - exists []. constructor.
  - destruct (IH raw ltac:(lia) H) as [s Hs]. exists (b :: s). by constructor.
  - destruct (IH raw ltac:(lia) H) as [s Hs]. exists (c :: s). by apply (ch_short e c).
  - pose proof (hex4_range _ _ _ _ _ (proj2 (hex4_spec _ _ _ _ _) Hv)) as Hr. destruct (pair_rune v raw) as [w|] eqn:Ep.
    + apply pair_some in Ep as (a' & b' & c' & d' & v' & l' & -> & Hx & G1 & G2 & ->).
      assert (Hs : string_text l').
      { inversion H as [|? ? ? ? ? _ | ? ? ? He _ |]; subst; [congruence| |done]. exfalso. apply escape_spec in He. discriminate He. }
      simpl in Hl. destruct (IH l' ltac:(lia) Hs) as [s Hc].
      eexists. apply (ch_pair _ _ _ _ v _ _ _ _ v'); [done|done|done|done| |exact Hc]. apply utf8_of_spec; [lia|reflexivity].
    + destruct (IH raw ltac:(lia) H) as [s Hc]. eexists. apply (ch_u _ _ _ _ v); [done|by apply pair_none| |exact Hc].
      apply utf8_of_spec; [lia|reflexivity].
Qed.
Lemma chars_text raw s : chars raw s -> string_text raw.
Proof.
  induction 1 as [|b raw s H1 H2 H3 _ IH|e c raw s He _ IH|a b c d v u raw s Hv Hn Hu _ IH|a b c d v a' b' c' d' v' u raw s Hv Hv1 Hw Hw1 Hu _ IH].
  - constructor.
  - by constructor.
  - by apply (st_short e c).
  - by apply (st_u _ _ _ _ v).
  - apply (st_u _ _ _ _ v); [done|]. by apply (st_u _ _ _ _ v').
Qed.
Lemma unescape_iff raw s : string_text raw -> unescape raw = Some s <-> chars raw s.
Proof.
  intros H. split; [|apply chars_unescape]. intros E. destruct (chars_total _ raw (le_n _) H) as [s' Hs].
  apply chars_unescape in Hs as E'. rewrite E in E'. by injection E' as ->.
Qed.
Lemma unescape_total raw : string_text raw -> exists s, unescape raw = Some s.
Proof. intros H. destruct (chars_total _ raw (le_n _) H) as [s Hs]. exists s. by apply chars_unescape. Qed.

(** ** Numbers *)
Definition digitb (b : byte) : Prop := 48 <= bz b <= 57.
Lemma is_digit_spec b : is_digit b = true <-> digitb b.
Proof. unfold digitb. split; intros H; [destruct b; try discriminate H; vm_compute; split; discriminate|]. destruct b; try reflexivity; exfalso; vm_compute in H; destruct H; congruence. Qed.
Lemma take_digits_split l d r : take_digits l = (d, r) -> l = d ++ r /\ Forall digitb d /\ (forall b r', r = b :: r' -> is_digit b = false).
Proof.
  revert d r. induction l as [|b l IH]; intros d r H; cbn in H; [injection H as <- <-; by repeat split|].
  destruct (is_digit b) eqn:Eb.
  - destruct (take_digits l) as [d' r'] eqn:E. injection H as <- <-. destruct (IH d' r' eq_refl) as (-> & Hd & Hn).
    split; [done|]. split; [|done]. constructor; [by apply is_digit_spec|done].
  - injection H as <- <-. split; [done|]. split; [constructor|]. intros b' r' [= <- <-]. done.
Qed.
(** the next byte is none that may continue a number *)
Definition ends (rest : bytes) : Prop :=
  match rest with [] => True | b :: _ => is_blank b \/ b = ","%byte \/ b = "}"%byte \/ b = "]"%byte end.
Definition nondigit (rest : bytes) : Prop := match rest with [] => True | b :: _ => is_digit b = false end.
Lemma take_digits_all d rest : Forall digitb d -> nondigit rest -> take_digits (d ++ rest) = (d, rest).
Proof.
  intros H Hn. induction H as [|b d Hb _ IH]; cbn [app].
  - destruct rest as [|b r]; [done|]. cbn in *. by rewrite Hn.
  - cbn. apply is_digit_spec in Hb. by rewrite Hb, IH.
Qed.
Lemma ends_nondigit rest : ends rest -> nondigit rest.
Proof. destruct rest as [|b r]; [done|]. cbn. unfold is_blank. intros H. destruct_or!; subst; reflexivity. Qed.

Lemma scan_nat_iff l n r : nondigit r -> (scan_nat l = Some (n, r) <-> integer_part n /\ l = n ++ r).
Proof.
  intros Hr. split.
  - unfold scan_nat. intros H. destruct l as [|b l]; [done|].
    destruct (decide (b = "0"%byte)) as [-> |Hb]; [injection H as <- <-; split; [by left|done]|].
    assert (H' : match take_digits (b :: l) with ([], _) => None | (d, r) => Some (d, r) end = Some (n, r)).
    { destruct b; try exact H; by exfalso. }
    clear H. destruct (take_digits (b :: l)) as [d r'] eqn:E. destruct d as [|x d]; [done|]. injection H' as <- <-.
    destruct (take_digits_split _ _ _ E) as (E' & Hd & _). split; [|done]. right. split; [by split|].
    intros l' [= -> _]. injection E' as -> _. done.
  - intros [[-> |[[Hn Hd] H0]] ->]; [reflexivity|]. unfold scan_nat.
    destruct n as [|b n]; [done|]. cbn [app].
    assert (Hb : b <> "0"%byte) by (intros ->; by apply (H0 n)).
    pose proof (take_digits_all (b :: n) r Hd Hr) as T. cbn [app] in T. rewrite T. destruct b; try reflexivity; by exfalso.
Qed.
Lemma scan_nat_sound l n r : scan_nat l = Some (n, r) -> integer_part n /\ l = n ++ r.
Proof.
  intros H. destruct l as [|b l]; [done|].
  destruct (decide (b = "0"%byte)) as [-> |Hb]; [injection H as <- <-; split; [by left|done]|].
  assert (H' : match take_digits (b :: l) with ([], _) => None | (d, r) => Some (d, r) end = Some (n, r)).
  { unfold scan_nat in H. destruct b; try exact H; by exfalso. }
  clear H. destruct (take_digits (b :: l)) as [d r'] eqn:E. destruct d as [|x d]; [done|]. injection H' as <- <-.
  destruct (take_digits_split _ _ _ E) as (E' & Hd & _). split; [|done]. right. split; [by split|].
  intros l' [= -> _]. injection E' as -> _. done.
Qed.
Lemma scan_frac_sound l f r : scan_frac l = Some (f, r) -> fraction f /\ l = f ++ r.
Proof.
  intros H. destruct l as [|b l]; [injection H as <- <-; split; [by left|done]|].
  destruct (decide (b = "."%byte)) as [-> |Hb].
  - unfold scan_frac in H. destruct (take_digits l) as [d r'] eqn:E. destruct d as [|x d]; [done|]. injection H as <- <-.
    destruct (take_digits_split _ _ _ E) as (-> & Hd & _). split; [|done]. right. exists (x :: d). by repeat split.
  - assert (H' : Some ([], b :: l) = Some (f, r)) by (unfold scan_frac in H; destruct b; try exact H; by exfalso).
    injection H' as <- <-. split; [by left|done].
Qed.
Lemma scan_frac_complete f rest : fraction f -> nondigit rest -> (forall l, rest <> "."%byte :: l) -> scan_frac (f ++ rest) = Some (f, rest).
Proof.
  intros [-> |(d & [Hn Hd] & ->)] Hr Hdot.
  - cbn [app]. destruct rest as [|b r]; [done|]. unfold scan_frac. destruct b; try reflexivity. exfalso. by apply (Hdot r).
  - cbn [app]. unfold scan_frac. rewrite take_digits_all by done. by destruct d.
Qed.
Definition is_e (b : byte) : Prop := b = "e"%byte \/ b = "E"%byte.
Lemma scan_exp_sound l e r : scan_exp l = Some (e, r) -> exponent e /\ l = e ++ r.
Proof.
  intros H. destruct l as [|b l]; [injection H as <- <-; split; [by left|done]|].
  destruct (decide (b = "e"%byte \/ b = "E"%byte)) as [Hb|Hb].
  - assert (H' : (let '(s, l1) := match l with
                      | ("+"%byte as s) :: l1 | ("-"%byte as s) :: l1 => ([s], l1)
                      | _ => ([], l)
                      end in
      match take_digits l1 with ([], _) => None | (d, r) => Some (b :: s ++ d, r) end) = Some (e, r)).
    { destruct Hb as [-> | ->]; exact H. }
    clear H.
    assert (Hs : exists s l1, (match l with ("+"%byte as s) :: l1 | ("-"%byte as s) :: l1 => ([s], l1) | _ => ([], l) end) = (s, l1) /\
              l = s ++ l1 /\ (s = [] \/ s = ["+"%byte] \/ s = ["-"%byte])).
    { destruct l as [|c l]; [by exists [], []; auto|].
      destruct (decide (c = "+"%byte)) as [-> |H1]; [exists ["+"%byte], l; auto|].
      destruct (decide (c = "-"%byte)) as [-> |H2]; [exists ["-"%byte], l; auto|].
      exists [], (c :: l). split; [|auto]. destruct c; try reflexivity; by exfalso. }
    destruct Hs as (s & l1 & E & -> & Hs). rewrite E in H'.
    destruct (take_digits l1) as [d r'] eqn:Ed. destruct d as [|x d]; [done|]. injection H' as <- <-.
    destruct (take_digits_split _ _ _ Ed) as (-> & Hd & _). split; [|cbn [app]; by rewrite <- app_assoc].
    right. exists b, s, (x :: d). by repeat split.
  - assert (H' : Some ([], b :: l) = Some (e, r)) by (unfold scan_exp in H; destruct b; try exact H; exfalso; apply Hb; auto).
    injection H' as <- <-. split; [by left|done].
Qed.
Lemma scan_exp_complete e rest : exponent e -> nondigit rest -> (forall b l, rest = b :: l -> ~ is_e b) -> scan_exp (e ++ rest) = Some (e, rest).
Proof.
  intros [-> |(m & s & d & [Hn Hd] & Hm & Hs & ->)] Hr He.
  - cbn [app]. destruct rest as [|b r]; [done|]. unfold scan_exp. specialize (He b r eq_refl). destruct b; try reflexivity; exfalso; apply He; unfold is_e; auto.
  - pose proof (take_digits_all d rest Hd Hr) as T. destruct d as [|x d]; [done|].
    destruct Hm as [-> | ->], Hs as [-> |[-> | ->]]; cbn [app] in *; unfold scan_exp; cbn [app]; try (rewrite T; reflexivity);
      pose proof (list.Forall_cons_1 _ _ _ Hd) as [Hx _]; apply is_digit_spec in Hx;
      destruct x; try discriminate Hx; rewrite T; reflexivity.
Qed.
Lemma scan_number_sound l d r : scan_number l = Some (d, r) -> number d /\ l = d ++ r.
Proof.
  unfold scan_number. intros H.
  assert (Hs : exists s l0, (match l with "-"%byte :: l' => (["-"%byte], l') | _ => ([], l) end) = (s, l0) /\ l = s ++ l0 /\ (s = [] \/ s = ["-"%byte])).
  { destruct l as [|c l]; [by exists [], []; auto|]. destruct (decide (c = "-"%byte)) as [-> |H1]; [exists ["-"%byte], l; auto|].
    exists [], (c :: l). split; [|auto]. destruct c; try reflexivity; by exfalso. }
  destruct Hs as (s & l0 & E & -> & Hs). rewrite E in H.
  destruct (scan_nat l0) as [[n l1]|] eqn:E1; [|done]. destruct (scan_frac l1) as [[f l2]|] eqn:E2; [|done].
  destruct (scan_exp l2) as [[e l3]|] eqn:E3; [|done]. injection H as <- <-.
  apply scan_nat_sound in E1 as [H1 ->]. apply scan_frac_sound in E2 as [H2 ->]. apply scan_exp_sound in E3 as [H3 ->].
  split; [by exists s, n, f, e|]. by rewrite <- !app_assoc.
Qed.
Lemma integer_part_head n : integer_part n -> exists b n', n = b :: n' /\ digitb b.
Proof.
  intros [-> |[[Hn Hd] _]]; [exists "0"%byte, []; split; [done|by vm_compute]|].
  destruct n as [|b n]; [done|]. apply list.Forall_cons in Hd as [Hb _]. by exists b, n.
Qed.
Lemma scan_number_complete d rest : number d -> ends rest -> scan_number (d ++ rest) = Some (d, rest).
Proof.
  intros (s & n & f & e & Hs & Hn & Hf & He & ->) Hr. pose proof (ends_nondigit _ Hr) as Hr1.
  assert (Hre : forall b l, rest = b :: l -> ~ is_e b).
  { intros b l ->. cbn in Hr. unfold is_blank, is_e in *. intros [-> | ->]; destruct_or!; discriminate. }
  assert (Hrd : forall l, rest <> "."%byte :: l) by (intros l ->; cbn in Hr; unfold is_blank in Hr; destruct_or!; discriminate).
  assert (N2 : nondigit (e ++ rest) /\ forall l, e ++ rest <> "."%byte :: l).
  { destruct He as [-> |(m & sg & d & _ & Hm & _ & ->)]; [by split|]. cbn [app]. destruct Hm as [-> | ->]; split; done. }
  assert (N1 : nondigit (f ++ e ++ rest)).
  { destruct Hf as [-> |(d & _ & ->)]; [apply N2|]. done. }
  assert (A : scan_nat (n ++ f ++ e ++ rest) = Some (n, f ++ e ++ rest)) by (by apply scan_nat_iff).
  assert (B : scan_frac (f ++ e ++ rest) = Some (f, e ++ rest)) by (apply scan_frac_complete; [done|apply N2|apply N2]).
  assert (C : scan_exp (e ++ rest) = Some (e, rest)) by (by apply scan_exp_complete).
  rewrite <- !app_assoc. unfold scan_number. destruct Hs as [-> | ->]; cbn [app].
  - destruct (integer_part_head n Hn) as (b & n' & -> & Hb). cbn [app] in *.
    apply is_digit_spec in Hb. destruct b; try discriminate Hb; rewrite A, B, C; reflexivity.
  - rewrite A, B, C. reflexivity.
Qed.

(** ** Values *)
Lemma value_body_cases members elements l :
  (exists l1, l = "{"%byte :: l1) \/ (exists l1, l = "["%byte :: l1) \/ (exists l1, l = x22 :: l1) \/
  (exists w j l1, l = w ++ l1 /\ value_text j w /\ value_body members elements l = Some (j, l1)) \/
  value_body members elements l
    = match scan_number l with Some (d, l1) => Some (JNum d, l1) | None => None end.
Proof.
  destruct l as [|b l]; [do 4 right; reflexivity|].
  destruct (decide (b = "{"%byte)) as [-> |H1]; [left; eauto|].
  destruct (decide (b = "["%byte)) as [-> |H2]; [right; left; eauto|].
  destruct (decide (b = x22)) as [-> |H3]; [do 2 right; left; eauto|].
  destruct (decide (b = "t"%byte)) as [-> |H4].
  { do 3 right. destruct l as [|c l]; [right; reflexivity|].
    destruct (decide (c = "r"%byte)) as [-> |H5]; [|right; other_head c].
    destruct l as [|c l]; [right; reflexivity|].
    destruct (decide (c = "u"%byte)) as [-> |H6]; [|right; other_head c].
    destruct l as [|c l]; [right; reflexivity|].
    destruct (decide (c = "e"%byte)) as [-> |H7]; [|right; other_head c].
    left. exists (lit "true"), (JBool true), l. split; [reflexivity|]. split; [constructor|reflexivity]. }
  destruct (decide (b = "f"%byte)) as [-> |H5].
  { do 3 right. destruct l as [|c l]; [right; reflexivity|].
    destruct (decide (c = "a"%byte)) as [-> |H6]; [|right; other_head c].
    destruct l as [|c l]; [right; reflexivity|].
    destruct (decide (c = "l"%byte)) as [-> |H7]; [|right; other_head c].
    destruct l as [|c l]; [right; reflexivity|].
    destruct (decide (c = "s"%byte)) as [-> |H8]; [|right; other_head c].
    destruct l as [|c l]; [right; reflexivity|].
    destruct (decide (c = "e"%byte)) as [-> |H9]; [|right; other_head c].
    left. exists (lit "false"), (JBool false), l. split; [reflexivity|]. split; [constructor|reflexivity]. }
  destruct (decide (b = "n"%byte)) as [-> |H6].
  { do 3 right. destruct l as [|c l]; [right; reflexivity|].
    destruct (decide (c = "u"%byte)) as [-> |H7]; [|right; other_head c].
    destruct l as [|c l]; [right; reflexivity|].
    destruct (decide (c = "l"%byte)) as [-> |H8]; [|right; other_head c].
    destruct l as [|c l]; [right; reflexivity|].
    destruct (decide (c = "l"%byte)) as [-> |H9]; [|right; other_head c].
    left. exists (lit "null"), JNull, l. split; [reflexivity|]. split; [constructor|reflexivity]. }
  do 4 right. other_head b.
Qed.
Lemma members_body_cases value members l m r :
  members_body value members l = Some (m, r) ->
  exists l1 k l2 l3 v l4 l5, l = x22 :: l1 /\ scan_string l1 = Some (k, l2) /\
    skip_ws l2 = ":"%byte :: l3 /\ value l3 = Some (v, l4) /\
    ((skip_ws l4 = ","%byte :: l5 /\ exists m', members l5 = Some (m', r) /\ m = (k, v) :: m') \/
     (skip_ws l4 = "}"%byte :: l5 /\ r = l5 /\ m = [(k, v)])).
Proof.
  intros H. destruct l as [|b l1]; [discriminate|].
  destruct (decide (b = x22)) as [-> |Hb]; [|destruct b; try discriminate; congruence].
  unfold members_body in H.
  destruct (scan_string l1) as [[k l2]|] eqn:E1; [|discriminate].
  destruct (skip_ws l2) as [|c l3] eqn:E2; [discriminate|].
  destruct (decide (c = ":"%byte)) as [-> |Hc]; [|destruct c; try discriminate; congruence].
  destruct (value l3) as [[v l4]|] eqn:E3; [|discriminate].
  destruct (skip_ws l4) as [|d l5] eqn:E4; [discriminate|].
  exists l1, k, l2, l3, v, l4, l5. do 4 (split; [done|]).
  destruct (decide (d = ","%byte)) as [-> |Hd].
  - left. split; [done|]. destruct (members l5) as [[m' r']|]; [|discriminate].
    injection H as <- <-. eauto.
  - right. destruct (decide (d = "}"%byte)) as [-> |Hd']; [|destruct d; try discriminate; congruence].
    injection H as <- <-. done.
Qed.

Lemma parse_sound n :
  (forall l j r, parse_value n l = Some (j, r) -> exists w t, blank w /\ value_text j t /\ l = w ++ t ++ r) /\
  (forall l m r, parse_members n l = Some (m, r) -> exists t, members_text m t /\ l = t ++ "}"%byte :: r) /\
  (forall l m r, parse_elements n l = Some (m, r) -> exists t, elements_text m t /\ l = t ++ "]"%byte :: r).
Proof.
  induction n as [|n (IHv & IHm & IHe)]; [repeat split; discriminate|].
  split; [|split].
  - intros l j r H. cbn [parse_value] in H. destruct (skip_ws_split l) as (w & Hw & El).
    set (l0 := skip_ws l) in *. clearbody l0. subst l. exists w.
    assert (G : exists t, value_text j t /\ l0 = t ++ r); [|destruct G as (t & Ht & ->); by exists t].
    destruct (value_body_cases (parse_members n) (parse_elements n) l0)
      as [[l1 ->]|[[l1 ->]|[[l1 ->]|[(u & j' & l1 & -> & Hu & E)|E]]]].
    + rewrite value_body_object in H. destruct (skip_ws_split l1) as (w1 & Hw1 & E1). rewrite E1.
      destruct (skip_ws l1) as [|b l2].
      * destruct (parse_members n []) as [[m' r']|] eqn:E; [|discriminate]. injection H as <- <-.
        destruct (IHm _ _ _ E) as (t & _ & X). by destruct t.
      * case_bool_decide as Hb.
        { subst b. injection H as <- <-. exists ("{"%byte :: w1 ++ ["}"%byte]). split; [by constructor|]. cbn [app]. by rewrite <- app_assoc. }
        destruct (parse_members n (b :: l2)) as [[m' r']|] eqn:E; [|discriminate]. injection H as <- <-.
        destruct (IHm _ _ _ E) as (t & Ht & ->). exists ("{"%byte :: (w1 ++ t) ++ ["}"%byte]).
        split; [|cbn [app]; by rewrite <- !app_assoc]. apply vt_object.
        destruct Ht as [w0 k w2 w3 v t0 w4 H1 H2 H3 H4 H5 H6|w0 k w2 w3 v t0 w4 m t' H1 H2 H3 H4 H5 H6 H7]; rewrite app_assoc.
        -- apply mt_last; try done. by apply list.Forall_app.
        -- apply mt_more; try done. by apply list.Forall_app.
    + rewrite value_body_array in H. destruct (skip_ws_split l1) as (w1 & Hw1 & E1). rewrite E1.
      destruct (skip_ws l1) as [|b l2].
      * destruct (parse_elements n []) as [[m' r']|] eqn:E; [|discriminate]. injection H as <- <-.
        destruct (IHe _ _ _ E) as (t & _ & X). by destruct t.
      * case_bool_decide as Hb.
        { subst b. injection H as <- <-. exists ("["%byte :: w1 ++ ["]"%byte]). split; [by constructor|]. cbn [app]. by rewrite <- app_assoc. }
        destruct (parse_elements n (b :: l2)) as [[m' r']|] eqn:E; [|discriminate]. injection H as <- <-.
        destruct (IHe _ _ _ E) as (t & Ht & ->). exists ("["%byte :: (w1 ++ t) ++ ["]"%byte]).
        split; [|cbn [app]; by rewrite <- !app_assoc]. apply vt_array.
        destruct Ht as [w0 v t0 w2 H1 H2 H3|w0 v t0 w2 m t' H1 H2 H3 H4]; rewrite app_assoc.
        -- apply et_last; try done. by apply list.Forall_app.
        -- apply et_more; try done. by apply list.Forall_app.
    + assert (H' : match scan_string l1 with Some (s, l2) => Some (JStr s, l2) | None => None end = Some (j, r)) by exact H.
      destruct (scan_string l1) as [[s l2]|] eqn:E; [|discriminate]. injection H' as <- <-.
      apply scan_string_iff in E as [Hs ->]. exists (x22 :: s ++ [x22]). split; [by constructor|]. cbn [app]. by rewrite <- app_assoc.
    + rewrite E in H. injection H as <- <-. by exists u.
    + rewrite E in H. destruct (scan_number l0) as [[d l1]|] eqn:En; [|discriminate]. injection H as <- <-.
      apply scan_number_sound in En as [Hd ->]. exists d. split; [by constructor|done].
  - intros l m r H. cbn [parse_members] in H. destruct (skip_ws_split l) as (w & Hw & El).
    set (l0 := skip_ws l) in *. clearbody l0. subst l.
    apply members_body_cases in H as (l1 & k & l2 & l3 & v & l4 & l5 & -> & E1 & E2 & E3 & E4).
    apply scan_string_iff in E1 as [Hk ->]. destruct (skip_ws_split l2) as (w2 & Hw2 & F2). rewrite E2 in F2. subst l2.
    destruct (IHv _ _ _ E3) as (w3 & t & Hw3 & Ht & ->). destruct (skip_ws_split l4) as (w4 & Hw4 & F4).
    destruct E4 as [(E4 & m' & Em & ->)|(E4 & -> & ->)]; rewrite E4 in F4; subst l4.
    + destruct (IHm _ _ _ Em) as (t' & Ht' & ->). eexists. split; [by apply (mt_more w k w2 w3 v t w4 m' t')|].
      repeat (rewrite <- ?app_assoc; cbn [app]). reflexivity.
    + eexists. split; [by apply (mt_last w k w2 w3 v t w4)|].
      repeat (rewrite <- ?app_assoc; cbn [app]). reflexivity.
  - intros l m r H. cbn [parse_elements] in H.
    destruct (parse_value n l) as [[v l1]|] eqn:E; [|discriminate]. destruct (IHv _ _ _ E) as (w1 & t & Hw1 & Ht & ->).
    destruct (skip_ws_split l1) as (w2 & Hw2 & F). destruct (skip_ws l1) as [|b l2]; [discriminate|]. subst l1.
    destruct (decide (b = ","%byte)) as [-> |Hb].
    + destruct (parse_elements n l2) as [[m' r']|] eqn:E2; [|discriminate]. injection H as <- <-.
      destruct (IHe _ _ _ E2) as (t' & Ht' & ->). eexists. split; [by apply (et_more w1 v t w2 m' t')|].
      repeat (rewrite <- ?app_assoc; cbn [app]). reflexivity.
    + destruct (decide (b = "]"%byte)) as [-> |Hb']; [|destruct b; try discriminate; congruence].
      injection H as <- <-. eexists. split; [by apply (et_last w1 v t w2)|]. by rewrite <- !app_assoc.
Qed.

Scheme value_text_ind2 := Minimality for value_text Sort Prop
  with elements_text_ind2 := Minimality for elements_text Sort Prop
  with members_text_ind2 := Minimality for members_text Sort Prop.
Combined Scheme texts_ind from value_text_ind2, elements_text_ind2, members_text_ind2.

Lemma value_text_head j t : value_text j t -> exists b t', t = b :: t' /\ ~ is_blank b /\ b <> "]"%byte /\ b <> "}"%byte.
Proof.
  unfold is_blank. intros H.
  assert (G : exists b t', t = b :: t' /\ (digitb b \/ b = "-"%byte \/ b = "n"%byte \/ b = "t"%byte \/ b = "f"%byte \/ b = x22 \/ b = "["%byte \/ b = "{"%byte)).
  { destruct H as [| | |l (s & n & f & e & Hs & Hn & _ & _ & ->)|raw Hr|w Hw|l t Hl|w Hw|m t Hm];
      try (eexists _, _; split; [reflexivity|]; tauto).
    destruct (integer_part_head n Hn) as (b & n' & -> & Hb). destruct Hs as [-> | ->]; eexists _, _; (split; [reflexivity|]); tauto. }
  destruct G as (b & t' & -> & Hb). exists b, t'. split; [done|].
  destruct Hb as [Hb|Hb]; [apply is_digit_spec in Hb; destruct b; try discriminate Hb; repeat split; try done; by intros [|[|[|]]]|].
  destruct_or! Hb; subst; repeat split; try done; by intros [|[|[|]]].
Qed.
Lemma skip_idem l : skip_ws (skip_ws l) = skip_ws l.
Proof. destruct (skip_ws_split l) as (w & Hw & E). rewrite E at 2. by rewrite skip_ws_app. Qed.
Lemma members_skip n l : parse_members n (skip_ws l) = parse_members n l.
Proof. destruct n; [done|]. cbn [parse_members]. by rewrite skip_idem. Qed.
Lemma value_skip n l : parse_value n (skip_ws l) = parse_value n l.
Proof. destruct n; [done|]. cbn [parse_value]. by rewrite skip_idem. Qed.
Lemma elements_skip n l : parse_elements n (skip_ws l) = parse_elements n l.
Proof. destruct n; [done|]. cbn [parse_elements]. by rewrite value_skip. Qed.
Lemma ends_blank w rest : blank w -> (forall b r, rest = b :: r -> b = ","%byte \/ b = "}"%byte \/ b = "]"%byte) -> ends (w ++ rest).
Proof.
  intros Hw Hr. destruct w as [|b w]; cbn [app].
  - destruct rest as [|b r]; [done|]. cbn. right. by apply (Hr b r).
  - apply list.Forall_cons in Hw as [Hb _]. cbn. left. exact Hb.
Qed.
Lemma nb (b : byte) : b = ","%byte \/ b = "}"%byte \/ b = "]"%byte \/ b = ":"%byte \/ b = x22 -> ~ is_blank b.
Proof. unfold is_blank. intros H. destruct_or! H; subst; by intros [|[|[|]]]. Qed.

Lemma parse_complete :
  (forall j t, value_text j t -> forall n w rest, blank w -> (length t < n)%nat -> ends rest -> parse_value n (w ++ t ++ rest) = Some (j, rest)) /\
  (forall l t, elements_text l t -> forall n rest, (length t + 1 < n)%nat -> parse_elements n (t ++ "]"%byte :: rest) = Some (l, rest)) /\
  (forall m t, members_text m t -> forall n rest, (length t < n)%nat -> parse_members n (t ++ "}"%byte :: rest) = Some (m, rest)).
Proof.
  apply texts_ind.
  - intros [|n] w rest Hw Hn Hr; [lia|]. cbn [parse_value]. rewrite skip_ws_app by done. reflexivity.
  - intros [|n] w rest Hw Hn Hr; [lia|]. cbn [parse_value]. rewrite skip_ws_app by done. reflexivity.
  - intros [|n] w rest Hw Hn Hr; [lia|]. cbn [parse_value]. rewrite skip_ws_app by done. reflexivity.
  - intros l Hl [|n] w rest Hw Hn Hr; [lia|]. cbn [parse_value]. rewrite skip_ws_app by done.
    pose proof (scan_number_complete l rest Hl Hr) as E.
    destruct Hl as (s & k & f & e & Hs & Hk & _ & _ & El). destruct (integer_part_head k Hk) as (b & k' & -> & Hb).
    apply is_digit_spec in Hb.
    assert (Hl : exists c l', l = c :: l' /\ (c = "-"%byte \/ is_digit c = true)).
    { subst l. destruct Hs as [-> | ->]; cbn [app]; eauto. }
    clear -Hl E. destruct Hl as (c & l' & -> & Hc). cbn [app] in *.
    destruct Hc as [-> |Hc]; [cbn [skip_ws]; unfold value_body; rewrite E; reflexivity|].
    destruct c; try discriminate Hc; cbn [skip_ws]; unfold value_body; rewrite E; reflexivity.
  - intros raw Hraw [|n] w rest Hw Hn Hr; [lia|]. cbn [parse_value]. rewrite skip_ws_app by done. cbn [app].
    rewrite <- app_assoc. cbn [app skip_ws]. unfold value_body. by rewrite scan_string_complete.
  - intros w0 Hw0 [|n] w rest Hw Hn Hr; [lia|]. cbn [parse_value]. rewrite skip_ws_app by done. cbn [app].
    rewrite <- app_assoc. cbn [app]. rewrite (skip_other "["%byte) by (unfold is_blank; by intros [|[|[|]]]).
    rewrite value_body_array, skip_ws_app, skip_other by (done || (apply nb; auto)). by rewrite bool_decide_eq_true_2.
  - intros l t Hl IH [|n] w rest Hw Hn Hr; [lia|]. cbn [length] in Hn. rewrite app_length in Hn. cbn [length] in Hn.
    cbn [parse_value]. rewrite skip_ws_app by done. cbn [app].
    rewrite <- app_assoc. cbn [app]. rewrite (skip_other "["%byte) by (unfold is_blank; by intros [|[|[|]]]).
    rewrite value_body_array. specialize (IH n rest ltac:(lia)). rewrite <- elements_skip in IH.
    assert (Hh : exists b r, skip_ws (t ++ "]"%byte :: rest) = b :: r /\ b <> "]"%byte).
    { destruct Hl as [w1 v t0 w2 H1 H2 H3|w1 v t0 w2 m t' H1 H2 H3 H4]; destruct (value_text_head _ _ H2) as (b & t1 & -> & Hb & Hb1 & _);
        rewrite <- app_assoc; cbn [app]; rewrite skip_ws_app, skip_other by done; eauto. }
    destruct Hh as (b & r & Eh & Hb). rewrite Eh in IH |- *. rewrite bool_decide_eq_false_2 by done. by rewrite IH.
  - intros w0 Hw0 [|n] w rest Hw Hn Hr; [lia|]. cbn [parse_value]. rewrite skip_ws_app by done. cbn [app].
    rewrite <- app_assoc. cbn [app]. rewrite (skip_other "{"%byte) by (unfold is_blank; by intros [|[|[|]]]).
    rewrite value_body_object, skip_ws_app, skip_other by (done || (apply nb; auto)). by rewrite bool_decide_eq_true_2.
  - intros m t Hm IH [|n] w rest Hw Hn Hr; [lia|]. cbn [length] in Hn. rewrite app_length in Hn. cbn [length] in Hn.
    cbn [parse_value]. rewrite skip_ws_app by done. cbn [app].
    rewrite <- app_assoc. cbn [app]. rewrite (skip_other "{"%byte) by (unfold is_blank; by intros [|[|[|]]]).
    rewrite value_body_object. specialize (IH n rest ltac:(lia)). rewrite <- members_skip in IH.
    assert (Hh : exists r, skip_ws (t ++ "}"%byte :: rest) = x22 :: r).
    { destruct Hm as [w1 k w2 w3 v t0 w4 H1 H2 H3 H4 H5 H6|w1 k w2 w3 v t0 w4 m t' H1 H2 H3 H4 H5 H6 H7];
        rewrite <- app_assoc; cbn [app]; rewrite skip_ws_app, skip_other by (done || (apply nb; auto)); eauto. }
    destruct Hh as (r & Eh). rewrite Eh in IH |- *. rewrite bool_decide_eq_false_2 by done. by rewrite IH.
  - intros w1 v t w2 H1 _ IH H2 [|n] rest Hn; [lia|]. rewrite !app_length in Hn. cbn [parse_elements].
    rewrite <- !app_assoc. rewrite (IH n w1) by (done || lia || (apply ends_blank; [done|]; intros b r [= <- _]; auto)).
    by rewrite skip_ws_head by (done || (apply nb; auto)).
  - intros w1 v t w2 l t' H1 Hv IH H2 _ IHe [|n] rest Hn; [lia|]. rewrite !app_length in Hn. cbn [length] in Hn. cbn [parse_elements].
    repeat (rewrite <- ?app_assoc; cbn [app]).
    rewrite (IH n w1) by (done || lia || (apply ends_blank; [done|]; intros b r [= <- _]; auto)).
    rewrite skip_ws_head by (done || (apply nb; auto)).
    destruct (value_text_head _ _ Hv) as (b & t1 & -> & _). cbn [length] in Hn. rewrite IHe by lia. done.
  - intros w1 k w2 w3 v t w4 H1 Hk H2 H3 _ IH H4 [|n] rest Hn; [lia|].
    cbn [parse_members]. repeat (rewrite <- ?app_assoc; cbn [app]). rewrite skip_ws_head by (done || (apply nb; auto)).
    unfold members_body. rewrite scan_string_complete by done. rewrite skip_ws_head by (done || (apply nb; auto)).
    rewrite (IH n w3); [|done| |apply ends_blank; [done|]; intros b r [= <- _]; auto].
    2:{ revert Hn. repeat (rewrite ?app_length; cbn [length]). lia. }
    by rewrite skip_ws_head by (done || (apply nb; auto)).
  - intros w1 k w2 w3 v t w4 m t' H1 Hk H2 H3 _ IH H4 _ IHm [|n] rest Hn; [lia|].
    cbn [parse_members]. repeat (rewrite <- ?app_assoc; cbn [app]). rewrite skip_ws_head by (done || (apply nb; auto)).
    unfold members_body. rewrite scan_string_complete by done. rewrite skip_ws_head by (done || (apply nb; auto)).
    rewrite (IH n w3); [|done| |apply ends_blank; [done|]; intros b r [= <- _]; auto].
    2:{ revert Hn. repeat (rewrite ?app_length; cbn [length]). lia. }
    rewrite skip_ws_head by (done || (apply nb; auto)). rewrite IHm; [done|].
    revert Hn. repeat (rewrite ?app_length; cbn [length]). lia.
Qed.

Lemma parse_json_exact l j : parse_json l = Some j <-> json_text j l.
Proof.
  unfold parse_json, json_text. split.
  - destruct (parse_value _ l) as [[v r]|] eqn:E; [|done]. destruct (skip_ws r) eqn:Er; [|done]. intros [= <-].
    destruct (proj1 (parse_sound _) _ _ _ E) as (w1 & t & Hw1 & Ht & ->). destruct (skip_ws_split r) as (w2 & Hw2 & F).
    rewrite Er, app_nil_r in F. subst r. by exists w1, t, w2.
  - intros (w1 & t & w2 & Hw1 & Ht & Hw2 & ->). rewrite (proj1 parse_complete j t Ht); [|done| |].
    + rewrite <- (app_nil_r w2). rewrite skip_ws_app by done. done.
    + rewrite !app_length. lia.
    + rewrite <- (app_nil_r w2). apply ends_blank; [done|]. done.
Qed.
