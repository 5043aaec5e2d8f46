(** State files are read as [JsonSpec] says (C94). *)
From Coq Require Import Strings.String Decimal.
From Verif Require Import GoBase Wire Canonical SignState Crypto LocalCosigner Json JsonProofs Disk Config ConfigSpec ConfigProofs JsonSpec JsonTextProofs.
Local Open Scope Z_scope.

(** strings and names in a text are strings of the grammar *)
Lemma object_strings m t : value_text (JObj m) t ->
  Forall (fun p : bytes * json => string_text (fst p) /\ match snd p with JStr raw => string_text raw | JNum l => number l | _ => True end) m.
Proof.
  intros H. inversion H as [| | | | | | |w Hw|m' t' Hm]; subst; [constructor|]. clear H.
  assert (V : forall v t, value_text v t -> match v with JStr raw => string_text raw | JNum l => number l | _ => True end).
  { intros v u Hv. by destruct Hv. }
  assert (G : forall m t, members_text m t -> Forall (fun p : bytes * json => string_text (fst p) /\ match snd p with JStr raw => string_text raw | JNum l => number l | _ => True end) m).
  { fix IH 3. intros m0 t0 H0. destruct H0 as [w1 k w2 w3 v u w4 H1 H2 H3 H4 H5 H6|w1 k w2 w3 v u w4 m0 u' H1 H2 H3 H4 H5 H6 H7].
    - constructor; [|constructor]. split; [exact H2|]. cbn [snd]. by apply (V v u).
    - constructor; [|exact (IH _ _ H7)]. split; [exact H2|]. cbn [snd]. by apply (V v u). }
  exact (G m t' Hm).
Qed.

Definition keys_ok (m : list (bytes * json)) : Prop := Forall (fun p : bytes * json => string_text (fst p)) m.
Lemma member_named m name o : keys_ok m -> member name m = o <-> last_named m name o.
Proof.
  intros Hm. split.
  - intros <-. induction Hm as [|[k v] m Hk Hm IH]; cbn [member]; [intros k v H; by apply elem_of_nil in H|].
    cbn [fst] in Hk. destruct (member name m) as [v'|] eqn:E.
    + cbn [last_named] in IH |- *. destruct IH as (m1 & k' & m2 & -> & Hk' & Hn). by exists ((k, v) :: m1), k', m2.
    + case_bool_decide as Hu.
      * apply unescape_iff in Hu; [|done]. exists [], k, m. done.
      * intros k' v' Hin. apply elem_of_cons in Hin as [[= -> ->]|Hin]; [|by apply (IH k' v')]. intros Hc. apply Hu. by apply unescape_iff.
  - revert o. induction Hm as [|[k v] m Hk Hm IH]; intros o Ho; cbn [member].
    + destruct o as [v|]; [|done]. destruct Ho as (m1 & k & m2 & E & _). by destruct m1.
    + cbn [fst] in Hk. destruct o as [v'|].
      * destruct Ho as (m1 & k' & m2 & E & Hc & Hn). destruct m1 as [|p m1].
        -- injection E as <- <- <-. rewrite (IH None) by exact Hn. apply unescape_iff in Hc; [|done]. by rewrite bool_decide_eq_true_2.
        -- injection E as <- ->. rewrite (IH (Some v')); [done|]. by exists m1, k', m2.
      * rewrite (IH None); [|intros k' v' Hin; apply (Ho k' v'); by right]. rewrite bool_decide_eq_false_2; [done|].
        intros Hu. apply unescape_iff in Hu; [|done]. apply (Ho k v); [left|done].
Qed.

Lemma field_says {A} m name (zero : A) dec reads x : keys_ok m ->
  (forall k j y, (k, j) ∈ m -> j <> JNull -> dec j = Some y <-> reads j y) ->
  field m name zero dec = Some x <-> says m name zero reads x.
Proof.
  intros Hm Hd. unfold field, says. destruct (member name m) as [j|] eqn:E.
  - assert (L : last_named m name (Some j)) by (by apply member_named).
    assert (Hin : exists k, (k, j) ∈ m) by (destruct L as (m1 & k & m2 & -> & _); exists k; set_solver).
    destruct Hin as [k Hin]. specialize (Hd k j).
    assert (U : forall o, last_named m name o -> o = Some j) by (intros o Ho; apply member_named in Ho; congruence).
    destruct j; (split; [intros H|intros (o & Ho & H); rewrite (U o Ho) in H]).
    all: try (exists (Some JNull); split; [exact L|]; congruence).
    all: try (by rewrite H).
    all: try (eexists; split; [exact L|]; apply Hd; [exact Hin|discriminate|exact H]).
    all: apply Hd; [exact Hin|discriminate|exact H].
  - assert (L : last_named m name None) by (by apply member_named).
    split.
    + intros [= <-]. by exists None.
    + intros (o & Ho & H). apply member_named in Ho; [|done]. rewrite E in Ho. subst o. by rewrite H.
Qed.

(** ** Numbers *)
Lemma parse_int_decimal l z : number l -> parse_int l = Some z <-> decimal l z.
Proof.
  intros (s & n & f & e & Hs & Hn & _ & _ & El). destruct (integer_part_head n Hn) as (b & n' & -> & Hb).
  assert (Hhead : forall ds neg y, ds <> [] -> match parse_digits ds with Some d => Some (Z.of_int (if neg : bool then Neg d else Pos d)) | None => None end = Some y <->
            exists v, digits_denote ds v /\ y = if neg then - v else v).
  { intros ds neg y Hne. split.
    - destruct (parse_digits ds) as [d|] eqn:E; [|done]. intros [= <-]. exists (Z.of_N (Pos.of_uint d)). split.
      + apply digits_denote_iff. split; [apply parse_digits_some; eauto|]. rewrite <- (digits_of_parse _ _ E). apply uint_value.
      + by destruct neg.
    - intros (v & Hv & ->). apply digits_denote_iff in Hv as [Ha ->]. apply parse_digits_some in Ha as [d E]. rewrite E.
      assert (Ev : Z.of_N (Pos.of_uint d) = value_from 0 ds) by (rewrite uint_value, (digits_of_parse _ _ E); done).
      f_equal. rewrite <- Ev. by destruct neg. }
  unfold digitb in Hb. destruct Hs as [-> | ->]; cbn [app] in El; subst l.
  - set (r := n' ++ f ++ e). clearbody r. clear Hn.
    assert (E : parse_int (b :: r) = match parse_digits (b :: r) with Some d => Some (Z.of_int (Pos d)) | None => None end).
    { destruct b; try reflexivity; exfalso; vm_compute in Hb; destruct Hb; congruence. }
    rewrite E, (Hhead (b :: r) false z) by done. split.
    + intros (v & Hv & ->). by constructor.
    + intros H. inversion H as [s y Hne Hd|s y Hne Hd Es|s y Hne Hd Es]; subst.
      * by exists z.
      * exfalso. vm_compute in Hb. destruct Hb; congruence.
      * exfalso. vm_compute in Hb. destruct Hb; congruence.
  - set (r := b :: n' ++ f ++ e). assert (Hr : r <> []) by done. clearbody r. clear Hn Hb.
    assert (E : parse_int ("-"%byte :: r) = match parse_digits r with Some d => Some (Z.of_int (Neg d)) | None => None end).
    { destruct r as [|c r]; [done|]. reflexivity. }
    rewrite E, (Hhead r true z) by done. split.
    + intros (v & Hv & ->). by constructor.
    + intros H. inversion H as [s y Hne Hd Es|s y Hne Hd|s y Hne Hd]; subst.
      * exfalso. apply digits_denote_iff in Hd as [Ha _]. apply list.Forall_cons in Ha as [Hx _]. vm_compute in Hx. destruct Hx; congruence.
      * by exists y.
Qed.
Lemma int_number_iff bits j z : match j with JNum l => number l | _ => True end -> j <> JNull ->
  int_of_json bits j = Some z <-> int_number bits j z.
Proof.
  intros Hj Hn. unfold int_number. destruct j as [| |l| | |]; cbn [int_of_json]; try (split; [done|]; intros (? & [=] & _)).
  split.
  - destruct (parse_int l) as [y|] eqn:E; [|done]. destruct ((- 2 ^ (bits - 1) <=? y) && (y <? 2 ^ (bits - 1))) eqn:B; [|done].
    intros [= <-]. exists l. split; [done|]. split; [by apply parse_int_decimal|]. lia.
  - intros (l' & [= <-] & Hd & Hr). apply parse_int_decimal in Hd; [|done]. rewrite Hd.
    destruct ((- 2 ^ (bits - 1) <=? z) && (z <? 2 ^ (bits - 1))) eqn:B; [done|lia].
Qed.
Lemma json_number j t : json_text j t -> match j with JNum l => number l | _ => True end.
Proof. intros (w1 & u & w2 & _ & H & _). by destruct H. Qed.
Lemma int_string_iff j z : j <> JNull -> int64_string j = Some z <-> int_string j z.
Proof.
  intros Hn. unfold int_string. destruct j as [| | |raw| |]; cbn [int64_string]; try (split; [done|]; intros (? & ? & [=] & _)).
  split.
  - destruct (parse_json raw) as [j'|] eqn:E; [|done]. apply parse_json_exact in E. intros H. exists raw, j'. split; [done|]. split; [done|].
    assert (Hc : j' = JNull \/ j' <> JNull) by (destruct j'; [by left|by right..]); destruct Hc as [-> |Hj]; [right; split; [done|]; cbn in H; congruence|].
    left. apply int_number_iff; [by apply (json_number _ raw)|done|done].
  - intros (raw' & j' & [= <-] & E & H). pose proof (json_number _ _ E) as Hj. apply parse_json_exact in E. rewrite E.
    destruct H as [H|[-> ->]]; [|done]. apply int_number_iff; [done| |done]. intros ->. by destruct H as (? & [=] & _).
Qed.

(** ** base64 *)
Lemma b64_val_spec c n : b64_val c = Some n <-> sextet c n.
Proof.
  unfold sextet. split.
  - intros H. destruct c; try discriminate H; injection H as <-; split; (discriminate || reflexivity).
  - intros [H0 H]. pose proof (lookup_lt_Some _ _ _ H) as Hl. change (length alphabet) with 64%nat in Hl.
    rewrite <- (Z2Nat.id n H0). set (k := Z.to_nat n) in *. clearbody k.
    do 64 (destruct k as [|k]; [injection H as <-; reflexivity|]). lia.
Qed.
Lemma b64_val_range c n : b64_val c = Some n -> 0 <= n < 64.
Proof.
  intros H. apply b64_val_spec in H as [H0 H]. apply lookup_lt_Some in H. change (length alphabet) with 64%nat in H. lia.
Qed.
Lemma zb_is v a : v mod 256 = bz a -> zb v = a.
Proof. intros H. rewrite <- (zb_bz a), <- H. apply bz_inj. by rewrite !bz_zb, Z.mod_mod. Qed.
Lemma b64_exact s b : b64_dec s = Some b <-> base64 s b.
Proof.
  split.
  - remember (length s) as n eqn:En. assert (Hn : (length s <= n)%nat) by lia. clear En.
    revert s b Hn. induction n as [|n IH]; intros s b Hn H; (destruct s as [|c1 s]; [injection H as <-; constructor|]); [simpl in Hn; lia|].
    destruct s as [|c2 [|c3 [|c4 s]]]; try discriminate H. cbn [b64_dec] in H. cbn [length] in Hn.
    destruct (b64_val c1) as [n1|] eqn:E1; [|done]. destruct (b64_val c2) as [n2|] eqn:E2; [|done].
    pose proof (b64_val_range _ _ E1). pose proof (b64_val_range _ _ E2). apply b64_val_spec in E1, E2.
    destruct (b64_val c3) as [n3|] eqn:E3.
    + pose proof (b64_val_range _ _ E3). apply b64_val_spec in E3.
      destruct (b64_val c4) as [n4|] eqn:E4.
      * pose proof (b64_val_range _ _ E4). apply b64_val_spec in E4. destruct (b64_dec s) as [r|] eqn:Es; [|done]. injection H as <-.
        apply (b6_four _ _ _ _ n1 n2 n3 n4); [done|done|done|done| |apply IH; [lia|done]].
        rewrite !bz_zb. lia.
      * case_bool_decide as Hp; [|done]. destruct Hp as [-> ->]. injection H as <-.
        apply (b6_three _ _ _ n1 n2 n3 _ _ (n3 mod 4)); [done|done|done|lia|]. rewrite !bz_zb. lia.
    + case_bool_decide as Hp; [|done]. destruct Hp as (-> & -> & ->). injection H as <-.
      apply (b6_two _ _ n1 n2 _ (n2 mod 16)); [done|done|lia|]. rewrite !bz_zb. lia.
  - induction 1 as [|c1 c2 c3 c4 n1 n2 n3 n4 a b c s r H1 H2 H3 H4 E _ IH|c1 c2 c3 n1 n2 n3 a b k H1 H2 H3 Hk E|c1 c2 n1 n2 a k H1 H2 Hk E].
    + reflexivity.
    + apply b64_val_spec in H1, H2, H3, H4. pose proof (b64_val_range _ _ H1). pose proof (b64_val_range _ _ H2).
      pose proof (b64_val_range _ _ H3). pose proof (b64_val_range _ _ H4). cbn [b64_dec]. rewrite H1, H2, H3, H4, IH.
      pose proof (bz_range a). pose proof (bz_range b). pose proof (bz_range c).
      do 2 f_equal; [apply zb_is; lia|]. f_equal; [apply zb_is; lia|]. f_equal. apply zb_is; lia.
    + apply b64_val_spec in H1, H2, H3. pose proof (b64_val_range _ _ H1). pose proof (b64_val_range _ _ H2).
      pose proof (b64_val_range _ _ H3). cbn [b64_dec]. rewrite H1, H2, H3.
      change (b64_val "="%byte) with (@None Z). cbv iota. rewrite bool_decide_eq_true_2 by done.
      pose proof (bz_range a). pose proof (bz_range b).
      do 2 f_equal; [apply zb_is; lia|]. f_equal. apply zb_is; lia.
    + apply b64_val_spec in H1, H2. pose proof (b64_val_range _ _ H1). pose proof (b64_val_range _ _ H2). cbn [b64_dec]. rewrite H1, H2.
      change (b64_val "="%byte) with (@None Z). cbv iota. rewrite bool_decide_eq_true_2 by done.
      pose proof (bz_range a). do 2 f_equal. apply zb_is; lia.
Qed.
Lemma unbroken_iff s s' : unbroken s s' <-> s' = no_breaks s.
Proof.
  split.
  - induction 1 as [|c s r Hc H IH|c s r H1 H2 H IH]; [done|..]; unfold no_breaks in *; cbn [List.filter].
    + by destruct Hc as [-> | ->].
    + rewrite !bool_decide_eq_false_2 by done. cbn. by f_equal.
  - intros ->. induction s as [|c s IH]; [constructor|]. unfold no_breaks in *. cbn [List.filter].
    destruct (decide (c = x0a)) as [-> |H1]; [by apply ub_break; [left|]|].
    destruct (decide (c = x0d)) as [-> |H2]; [by apply ub_break; [right|]|].
    rewrite !bool_decide_eq_false_2 by done. by apply ub_other.
Qed.
Lemma byte_number_iff j b : byte_of_json j = Some b <-> byte_number j b.
Proof.
  unfold byte_number. destruct j as [| |l| | |]; cbn [byte_of_json];
    try (split; [done|]; intros [[[=] _]|(? & [=] & _)]).
  - split; [intros [= <-]; by left|]. intros [[_ ->]|(? & [=] & _)]. done.
  - destruct l as [|c l]; [split; [done|]; intros [[[=] _]|(? & [= <-] & H & _)]; done|]. split.
    + destruct (parse_digits (c :: l)) as [d|] eqn:E; [|done]. destruct (Z.of_uint d <? 256) eqn:Hd; [|done]. intros [= <-].
      right. exists (c :: l). split; [done|]. split; [done|]. apply digits_denote_iff. split; [apply parse_digits_some; eauto|].
      pose proof (uint_value d) as U. rewrite (digits_of_parse _ _ E) in U. rewrite bz_zb, Z.mod_small; unfold Z.of_uint in *; lia.
    + intros [[[=] _]|(l' & [= <-] & _ & H)]. apply digits_denote_iff in H as [Ha Hv]. apply parse_digits_some in Ha as [d E].
      pose proof (uint_value d) as U. rewrite (digits_of_parse _ _ E) in U. rewrite E. pose proof (bz_range b).
      replace (Z.of_uint d) with (bz b) by (unfold Z.of_uint; lia). rewrite (proj2 (Z.ltb_lt _ _)) by lia. by rewrite zb_bz.
Qed.
Lemma array_iff l b : array_of_json l = Some b <-> Forall2 byte_number l b.
Proof.
  revert b. induction l as [|j l IH]; intros b; cbn [array_of_json].
  - split; [intros [= <-]; constructor|]. intros H. by inversion H.
  - split.
    + destruct (byte_of_json j) as [c|] eqn:E; [|done]. destruct (array_of_json l) as [r|] eqn:E'; [|done]. intros [= <-].
      constructor; [by apply byte_number_iff|by apply IH].
    + intros H. inversion H as [|? c ? r H1 H2]; subst. apply byte_number_iff in H1. apply IH in H2. by rewrite H1, H2.
Qed.
Lemma byte_string_iff j o : match j with JStr raw => string_text raw | _ => True end -> j <> JNull ->
  bytes_of_json j = Some o <-> byte_string j o.
Proof.
  intros Hj Hn. unfold byte_string. destruct j as [| | |raw|l|]; cbn [bytes_of_json];
    try (split; [done|]; intros [(? & ? & ? & ? & [=] & _)|(? & ? & [=] & _)]).
  - split.
    + destruct (unescape raw) as [s|] eqn:E; [|done]. destruct (b64_dec (no_breaks s)) as [b|] eqn:Eb; [|done]. intros [= <-].
      left. exists raw, s, (no_breaks s), b. split; [done|]. split; [by apply unescape_iff|]. split; [by apply unbroken_iff|]. split; [by apply b64_exact|done].
    + intros [(raw' & s & s' & b & [= <-] & Hc & Hu & Hb & ->)|(? & ? & [=] & _)]. apply unescape_iff in Hc; [|done].
      apply unbroken_iff in Hu as ->. apply b64_exact in Hb. by rewrite Hc, Hb.
  - split.
    + destruct (array_of_json l) as [b|] eqn:E; [|done]. intros [= <-]. right. exists l, b. split; [done|]. split; [by apply array_iff|done].
    + intros [(? & ? & ? & ? & [=] & _)|(l' & b & [= <-] & Hb & ->)]. apply array_iff in Hb. by rewrite Hb.
Qed.

(** ** Hexadecimal *)
Lemma hex_exact raw b : hex_dec raw = Some b <-> hex_text_of raw b.
Proof.
  assert (P : forall h l v, (exists x y, hex_val h = Some x /\ hex_val l = Some y /\ 16 * x + y = v) <-> hex_digits "0"%byte "0"%byte h l v).
  { intros h l v. rewrite <- hex4_spec. unfold hex4. change (hex_val "0"%byte) with (Some 0). cbv iota. split.
    - intros (x & y & -> & -> & <-). f_equal; ring.
    - destruct (hex_val h) as [x|]; [|done]. destruct (hex_val l) as [y|]; [|done]. intros [= <-]. exists x, y. split; [done|]. split; [done|ring]. }
  split.
  - remember (length raw) as n eqn:En. assert (Hn : (length raw <= n)%nat) by lia. clear En.
    revert raw b Hn. induction n as [|n IH]; intros raw b Hn H; (destruct raw as [|h [|l raw]]; [injection H as <-; constructor|done|]); cbn [length] in Hn; [lia|].
    cbn [hex_dec] in H. destruct (hex_val h) as [x|] eqn:E1; [|done]. destruct (hex_val l) as [y|] eqn:E2; [|done].
    destruct (hex_dec raw) as [r|] eqn:E3; [|done]. injection H as <-. constructor; [|apply IH; [lia|done]].
    apply P. exists x, y. split; [done|]. split; [done|]. rewrite bz_zb. apply hex_val_spec in E1, E2. unfold hexv in *. lia.
  - induction 1 as [|h l v raw r Hv _ IH]; [done|]. apply P in Hv as (x & y & E1 & E2 & E3). cbn [hex_dec]. rewrite E1, E2, IH.
    do 2 f_equal. rewrite E3. apply zb_bz.
Qed.
Lemma hex_string_iff j o : j <> JNull -> (Some <$> hex_of_json j) = Some o <-> hex_string j o.
Proof.
  intros Hn. unfold hex_string. destruct j as [| | |raw| |]; cbn [hex_of_json]; try (split; [done|]; intros (? & ? & [=] & _)).
  split.
  - destruct (hex_dec raw) as [b|] eqn:E; [|done]. intros [= <-]. exists raw, b. split; [done|]. split; [by apply hex_exact|done].
  - intros (raw' & b & [= <-] & H & ->). apply hex_exact in H. by rewrite H.
Qed.

(** ** The file *)
Lemma state_text_exact t s : load (Some t) = Some s <->
  exists h r st eph sig sb, state_text t h r st eph sig sb /\
    ss_hrs s = HRS h r st /\ ss_eph s = eph /\ ss_sig s = sig /\ ss_sb s = sb /\ ss_cache s = {[ HRS h r st := SSC (HRS h r st) sig sb ]}.
Proof.
  cbn [load].
  assert (G : forall f, unmarshal_state t = Some f <-> state_text t (fr_h f) (fr_r f) (fr_s f) (fr_eph f) (fr_sig f) (fr_sb f)).
  { intros f. unfold unmarshal_state, state_text. destruct (parse_json t) as [j|] eqn:E.
    2:{ split; [done|]. intros [[H _]|(m & H & _)]; apply parse_json_exact in H; congruence. }
    pose proof E as Et. apply parse_json_exact in Et.
    destruct j as [| | | | |m]; try (split; [done|]; intros [[H _]|(m & H & _)]; apply parse_json_exact in H; congruence).
    - split; [intros [= <-]; by left|]. intros [(_ & E1 & E2 & E3 & E4 & E5 & E6)|(m & H & _)]; [|apply parse_json_exact in H; congruence].
      destruct f; cbn in *; by subst.
    - destruct Et as (w1 & u & w2 & Hw1 & Hu & Hw2 & Et). pose proof (object_strings _ _ Hu) as Hs. rewrite list.Forall_forall in Hs.
      assert (Hk : keys_ok m) by (apply list.Forall_forall; intros p Hp; by apply Hs).
      assert (F1 : forall name x, field m name 0 int64_string = Some x <-> says m name 0 int_string x).
      { intros name x. apply field_says; [done|]. intros k j y _ Hj. by apply int_string_iff. }
      assert (F2 : forall name x, field m name 0 (int_of_json 8) = Some x <-> says m name 0 (int_number 8) x).
      { intros name x. apply field_says; [done|]. intros k j y Hin Hj. apply int_number_iff; [|done]. destruct (Hs _ Hin) as [_ H]. cbn [snd] in H. by destruct j. }
      assert (F3 : forall name x, field m name None bytes_of_json = Some x <-> says m name None byte_string x).
      { intros name x. apply field_says; [done|]. intros k j y Hin Hj. apply byte_string_iff; [|done]. destruct (Hs _ Hin) as [_ H]. cbn [snd] in H. by destruct j. }
      assert (F4 : forall name x, field m name None (fun j => Some <$> hex_of_json j) = Some x <-> says m name None hex_string x).
      { intros name x. apply field_says; [done|]. intros k j y _ Hj. by apply hex_string_iff. }
      split.
      + intros H. right. exists m. split; [by exists w1, u, w2|].
        destruct (field m (lit "height") 0 int64_string) as [a1|] eqn:A1; [|done]. destruct (field m (lit "round") 0 int64_string) as [a2|] eqn:A2; [|done].
        destruct (field m (lit "step") 0 (int_of_json 8)) as [a3|] eqn:A3; [|done]. destruct (field m (lit "ephemeral_public") None bytes_of_json) as [a4|] eqn:A4; [|done].
        destruct (field m (lit "signature") None bytes_of_json) as [a5|] eqn:A5; [|done]. destruct (field m (lit "signbytes") None _) as [a6|] eqn:A6; [|done].
        injection H as <-. cbn [fr_h fr_r fr_s fr_eph fr_sig fr_sb].
        split; [by apply F1|]. split; [by apply F1|]. split; [by apply F2|]. split; [by apply F3|]. split; [by apply F3|]. by apply F4.
      + intros [[H _]|(m' & H & H1 & H2 & H3 & H4 & H5 & H6)]; apply parse_json_exact in H; rewrite E in H; [done|]. injection H as <-.
        apply F1 in H1, H2. apply F2 in H3. apply F3 in H4, H5. apply F4 in H6. rewrite H1, H2, H3, H4, H5, H6. by destruct f. }
  split.
  - destruct (unmarshal_state t) as [f|] eqn:E; [|done]. intros [= <-]. pose proof (proj1 (G f) eq_refl) as H.
    exists (fr_h f), (fr_r f), (fr_s f), (fr_eph f), (fr_sig f), (fr_sb f). split; [exact H|]. repeat split.
  - intros (h & r & st & eph & sig & sb & H & E1 & E2 & E3 & E4 & E5).
    rewrite (proj2 (G (FR h r st eph sig sb)) H). destruct s as [k e sg b c]. cbn in *. subst. reflexivity.
Qed.
