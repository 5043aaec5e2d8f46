(** UTF-8 and JSON strings. *)
From Verif Require Import GoBase Json JsonProofs Utf8.
Local Open Scope Z_scope.

(** ** Specification: texts are concatenations of encoded code points *)

(** RFC 3629 *)
Definition scalar (v : Z) : Prop := 0 <= v < 55296 \/ 57344 <= v < 1114112.
Definition utf8_enc (v : Z) : bytes :=
  if v <? 128 then [zb v]
  else if v <? 2048 then [zb (192 + v / 64); zb (128 + v mod 64)]
  else if v <? 65536 then [zb (224 + v / 4096); zb (128 + v / 64 mod 64); zb (128 + v mod 64)]
  else [zb (240 + v / 262144); zb (128 + v / 4096 mod 64); zb (128 + v / 64 mod 64); zb (128 + v mod 64)].
Definition utf8_text (l : bytes) : Prop := exists vs, Forall scalar vs /\ l = flat_map utf8_enc vs.

(** ** rune_len *)

Lemma between_spec a x b : between a x b = true <-> a <= x <= b.
Proof. unfold between. rewrite andb_true_iff, !Z.leb_le. done. Qed.

Ltac rl := repeat match goal with
  | H : context [match ?l with [] => _ | _ :: _ => _ end] |- _ => destruct l
  | H : context [if ?c then _ else _] |- _ => let E := fresh "E" in destruct c eqn:E
  end; try discriminate.

Lemma rune_len_spec l k : rune_len l = S k ->
  (S k <= length l)%nat /\ Forall (fun b => 128 <= bz b) (take k (tl l)) /\
  (forall r, rune_len (take (S k) l ++ r) = S k) /\ (k = 0%nat <-> exists b l', l = b :: l' /\ bz b < 128).
Proof.
  intros H. destruct l as [|a l]; [discriminate|]. unfold rune_len in H.
  destruct (bz a <? 128) eqn:E1.
  { injection H as <-. split; [simpl; lia|]. split; [constructor|]. split.
    - intros r. simpl. rewrite E1. done.
    - split; [|done]. intros _. exists a, l. split; [done|]. lia. }
  assert (Hk : forall k', k' = 0%nat -> S k' = S k -> False \/ True) by tauto. clear Hk.
  destruct l as [|b l]; [discriminate|].
  destruct (between 194 (bz a) 223) eqn:E2.
  { destruct (between 128 (bz b) 191) eqn:E3; [|discriminate]. injection H as <-.
    split; [simpl; lia|]. split; [repeat constructor; apply between_spec in E3; lia|]. split.
    - intros r. simpl. rewrite E1, E2, E3. done.
    - split; [done|]. intros (b' & l' & [= <- <-] & Hlt). lia. }
  destruct l as [|c l]; [discriminate|].
  destruct (between 224 (bz a) 239) eqn:E3.
  { match type of H with context [if ?x && ?y then _ else _] => destruct x eqn:E4; destruct y eqn:E5 end; try discriminate.
    injection H as <-. split; [simpl; lia|]. split.
    { repeat constructor; [|apply between_spec in E5; lia]. apply between_spec in E4.
      repeat match type of E4 with context [if ?x then _ else _] => destruct x end; lia. }
    split.
    - intros r. simpl. rewrite E1, E2, E3, E4, E5. done.
    - split; [done|]. intros (b' & l' & [= <- <-] & Hlt). lia. }
  destruct l as [|d l]; [discriminate|].
  match type of H with context [if ?w && ?x && ?y && ?z then _ else _] =>
    destruct w eqn:E4; destruct x eqn:E5; destruct y eqn:E6; destruct z eqn:E7 end; try discriminate.
  injection H as <-. split; [simpl; lia|]. split.
  { repeat constructor; [|apply between_spec in E6; lia|apply between_spec in E7; lia]. apply between_spec in E5.
    repeat match type of E5 with context [if ?x then _ else _] => destruct x end; lia. }
  split.
  - intros r. simpl. rewrite E1, E2, E3, E4, E5, E6, E7. done.
  - split; [done|]. intros (b' & l' & [= <- <-] & Hlt). lia.
Qed.

(** ** Sanitising *)

Lemma san_skip k l : (k <= length l)%nat -> san k l = take k l ++ san 0 (drop k l).
Proof.
  revert l. induction k as [|k IH]; intros l H; [done|].
  destruct l as [|b l]; [simpl in H; lia|]. cbn [san take drop app]. rewrite IH; [done|simpl in H; lia].
Qed.
Lemma san_cons b l k : rune_len (b :: l) = S k -> san 0 (b :: l) = take (S k) (b :: l) ++ san 0 (drop (S k) (b :: l)).
Proof.
  intros H. pose proof (rune_len_spec _ _ H) as (Hl & _). simpl in Hl.
  cbn [san]. rewrite H, san_skip by lia. done.
Qed.
Lemma san_bad b l : rune_len (b :: l) = 0%nat -> san 0 (b :: l) = replacement ++ san 0 l.
Proof. intros H. cbn [san]. rewrite H. done. Qed.
Lemma san_prefix l k r : rune_len l = S k -> san 0 (take (S k) l ++ r) = take (S k) l ++ san 0 r.
Proof.
  intros H. pose proof (rune_len_spec _ _ H) as (Hl & _ & Hp & _).
  destruct l as [|b l]; [discriminate|]. specialize (Hp r). cbn [take app] in *.
  rewrite (san_cons _ _ k Hp). cbn [take drop app]. f_equal. simpl in Hl.
  assert (Hk : length (take k l) = k) by (rewrite take_length; lia).
  rewrite (take_app_alt _ _ _ (eq_sym Hk)), (drop_app_alt _ _ _ (eq_sym Hk)). done.
Qed.
Lemma san_replacement r : san 0 (replacement ++ r) = replacement ++ san 0 r.
Proof. apply (san_prefix replacement 2 r). reflexivity. Qed.

Lemma san_idem_n n l : (length l <= n)%nat -> san 0 (san 0 l) = san 0 l.
Proof.
  revert l. induction n as [|n IH]; intros l Hn. { destruct l; [done|simpl in Hn; lia]. }
  destruct l as [|b l]; [done|]. destruct (rune_len (b :: l)) as [|k] eqn:E.
  - rewrite san_bad by done. rewrite san_replacement, IH; [done|simpl in Hn; lia].
  - rewrite (san_cons _ _ _ E). rewrite (san_prefix _ _ _ E), IH; [done|].
    rewrite drop_length. simpl in *. lia.
Qed.
Lemma san_idem l : san 0 (san 0 l) = san 0 l.
Proof. eapply san_idem_n. done. Qed.

(** sanitising leaves exactly the UTF-8 texts alone *)
Lemma enc_len v r : scalar v -> rune_len (utf8_enc v ++ r) = length (utf8_enc v) /\ utf8_enc v <> [].
Proof.
  intros Hv. unfold scalar in Hv. unfold utf8_enc.
  destruct (Z.ltb_spec v 128); [|destruct (Z.ltb_spec v 2048); [|destruct (Z.ltb_spec v 65536)]];
    (split; [|discriminate]); cbn [app length rune_len].
  - rewrite bz_zb, Z.mod_small by lia. destruct (Z.ltb_spec v 128); [done|lia].
  - rewrite !bz_zb. pose proof (Z.mod_pos_bound v 64). 
    assert (2 <= v / 64 < 32) by (split; [apply Z.div_le_lower_bound|apply Z.div_lt_upper_bound]; lia).
    rewrite (Z.mod_small (192 + v / 64)), (Z.mod_small (128 + v mod 64)) by lia.
    destruct (Z.ltb_spec (192 + v / 64) 128); [lia|].
    assert (E1 : between 194 (192 + v / 64) 223 = true) by (apply between_spec; lia).
    assert (E2 : between 128 (128 + v mod 64) 191 = true) by (apply between_spec; lia).
    rewrite E1, E2. done.
  - rewrite !bz_zb. pose proof (Z.mod_pos_bound v 64). pose proof (Z.mod_pos_bound (v / 64) 64).
    assert (0 <= v / 4096 < 16) by (split; [apply Z.div_pos|apply Z.div_lt_upper_bound]; lia).
    assert (Hq : v / 64 = 64 * (v / 4096) + v / 64 mod 64).
    { replace (v / 4096) with (v / 64 / 64) by (rewrite Z.div_div by lia; done). apply Z.div_mod. lia. }
    pose proof (Z.div_mod v 64). 
    rewrite (Z.mod_small (224 + v / 4096)), (Z.mod_small (128 + v / 64 mod 64)), (Z.mod_small (128 + v mod 64)) by lia.
    destruct (Z.ltb_spec (224 + v / 4096) 128); [lia|].
    assert (E1 : between 194 (224 + v / 4096) 223 = false).
    { apply not_true_is_false. rewrite between_spec. lia. }
    assert (E2 : between 224 (224 + v / 4096) 239 = true) by (apply between_spec; lia).
    assert (E4 : between 128 (128 + v mod 64) 191 = true) by (apply between_spec; lia).
    rewrite E1, E2, E4, andb_true_r.
    assert (E3 : between (if 224 + v / 4096 =? 224 then 160 else if 224 + v / 4096 =? 240 then 144 else 128)
               (128 + v / 64 mod 64) (if 224 + v / 4096 =? 237 then 159 else if 224 + v / 4096 =? 244 then 143 else 191) = true).
    { apply between_spec.
      destruct (Z.eqb_spec (224 + v / 4096) 224), (Z.eqb_spec (224 + v / 4096) 240), (Z.eqb_spec (224 + v / 4096) 237),
        (Z.eqb_spec (224 + v / 4096) 244); lia. }
    rewrite E3. done.
  - rewrite !bz_zb. pose proof (Z.mod_pos_bound v 64). pose proof (Z.mod_pos_bound (v / 64) 64).
    pose proof (Z.mod_pos_bound (v / 4096) 64).
    assert (0 <= v / 262144 < 5) by (split; [apply Z.div_pos|apply Z.div_lt_upper_bound]; lia).
    assert (Hq : v / 4096 = 64 * (v / 262144) + v / 4096 mod 64).
    { replace (v / 262144) with (v / 4096 / 64) by (rewrite Z.div_div by lia; done). apply Z.div_mod. lia. }
    assert (16 <= v / 4096 < 272) by (split; [apply Z.div_le_lower_bound|apply Z.div_lt_upper_bound]; lia).
    rewrite (Z.mod_small (240 + v / 262144)), (Z.mod_small (128 + v / 4096 mod 64)),
      (Z.mod_small (128 + v / 64 mod 64)), (Z.mod_small (128 + v mod 64)) by lia.
    destruct (Z.ltb_spec (240 + v / 262144) 128); [lia|].
    assert (E1 : between 194 (240 + v / 262144) 223 = false).
    { apply not_true_is_false. rewrite between_spec. lia. }
    assert (E2 : between 224 (240 + v / 262144) 239 = false).
    { apply not_true_is_false. rewrite between_spec. lia. }
    assert (E0 : between 240 (240 + v / 262144) 244 = true) by (apply between_spec; lia).
    assert (E4 : between 128 (128 + v mod 64) 191 = true) by (apply between_spec; lia).
    assert (E5 : between 128 (128 + v / 64 mod 64) 191 = true) by (apply between_spec; lia).
    rewrite E1, E2, E0, E4, E5, !andb_true_r.
    assert (E3 : between (if 240 + v / 262144 =? 224 then 160 else if 240 + v / 262144 =? 240 then 144 else 128)
               (128 + v / 4096 mod 64) (if 240 + v / 262144 =? 237 then 159 else if 240 + v / 262144 =? 244 then 143 else 191) = true).
    { apply between_spec.
      destruct (Z.eqb_spec (240 + v / 262144) 224), (Z.eqb_spec (240 + v / 262144) 240), (Z.eqb_spec (240 + v / 262144) 237),
        (Z.eqb_spec (240 + v / 262144) 244); lia. }
    rewrite E3. done.
Qed.
Lemma san_text l : utf8_text l -> san 0 l = l.
Proof.
  intros (vs & Hvs & ->). induction Hvs as [|v vs Hv Hvs IH]; [done|]. cbn [flat_map].
  destruct (enc_len v (flat_map utf8_enc vs) Hv) as [Hl Hne].
  destruct (utf8_enc v) as [|b e] eqn:E; [done|]. cbn [length] in Hl.
  cbn [app] in *. rewrite (san_cons _ _ _ Hl). cbn [take drop app]. f_equal.
  rewrite take_app, drop_app. by rewrite IH.
Qed.

(** the converse: the result of sanitising is a UTF-8 text *)
Lemma san_is_text l : utf8_text (san 0 l).
Proof.
  remember (length l) as n eqn:Hn. assert (H : (length l <= n)%nat) by lia. clear Hn.
  revert l H. induction n as [|n IH]; intros l H.
  { destruct l; [|simpl in H; lia]. exists []. done. }
  destruct l as [|b l]; [exists []; done|].
  assert (Hadd : forall v e r, scalar v -> e = utf8_enc v -> utf8_text r -> utf8_text (e ++ r)).
  { intros v e r Hv -> (vs & Hvs & ->). exists (v :: vs). split; [by constructor|done]. }
  destruct (rune_len (b :: l)) as [|k] eqn:E.
  { rewrite san_bad by done. apply (Hadd 65533); [unfold scalar; lia|reflexivity|]. apply IH. simpl in H. lia. }
  rewrite (san_cons _ _ _ E).
  assert (Hr : utf8_text (san 0 (drop (S k) (b :: l)))).
  { apply IH. rewrite drop_length. simpl in *. lia. }
  revert Hr. generalize (san 0 (drop (S k) (b :: l))). intros r Hr. clear IH.
  unfold rune_len in E. pose proof (bz_range b) as Hb.
  destruct (Z.ltb_spec (bz b) 128).
  { injection E as <-. cbn [take app]. apply (Hadd (bz b) [b]); [unfold scalar; lia| |done].
    unfold utf8_enc. destruct (Z.ltb_spec (bz b) 128); [|lia]. by rewrite zb_bz. }
  destruct l as [|c l]; [discriminate|]. pose proof (bz_range c) as Hc.
  destruct (between 194 (bz b) 223) eqn:E2.
  { destruct (between 128 (bz c) 191) eqn:E3; [|discriminate]. injection E as <-. cbn [take].
    apply between_spec in E2, E3. set (v := (bz b - 192) * 64 + (bz c - 128)).
    apply (Hadd v); [unfold scalar, v; lia| |done]. unfold utf8_enc.
    destruct (Z.ltb_spec v 128); [unfold v in *; lia|]. destruct (Z.ltb_spec v 2048); [|unfold v in *; lia].
    assert (Ed : v / 64 = bz b - 192) by (unfold v; rewrite Z.div_add_l by lia; rewrite Z.div_small by lia; lia).
    assert (Em : v mod 64 = bz c - 128) by (unfold v; rewrite Z.add_comm, Z.mod_add by lia; rewrite Z.mod_small; lia).
    rewrite Ed, Em. f_equal; [|f_equal]; rewrite <- (zb_bz b) at 1 || rewrite <- (zb_bz c) at 1; f_equal; lia. }
  destruct l as [|d l]; [discriminate|]. pose proof (bz_range d) as Hd.
  destruct (between 224 (bz b) 239) eqn:E3.
  { match type of E with context [if ?x && ?y then _ else _] => destruct x eqn:E4; destruct y eqn:E5 end; try discriminate.
    injection E as <-. cbn [take]. apply between_spec in E3, E4, E5.
    set (v := (bz b - 224) * 4096 + (bz c - 128) * 64 + (bz d - 128)).
    assert (Hcb : 128 <= bz c <= 191) by (destruct (bz b =? 224), (bz b =? 240), (bz b =? 237), (bz b =? 244); lia).
    assert (Hv : scalar v).
    { unfold scalar, v.
      destruct (Z.eqb_spec (bz b) 224), (Z.eqb_spec (bz b) 240), (Z.eqb_spec (bz b) 237), (Z.eqb_spec (bz b) 244); lia. }
    apply (Hadd v); [done| |done]. unfold utf8_enc.
    assert (2048 <= v < 65536).
    { unfold v. destruct (Z.eqb_spec (bz b) 224), (Z.eqb_spec (bz b) 240), (Z.eqb_spec (bz b) 237), (Z.eqb_spec (bz b) 244); lia. }
    destruct (Z.ltb_spec v 128); [lia|]. destruct (Z.ltb_spec v 2048); [lia|]. destruct (Z.ltb_spec v 65536); [|lia].
    assert (Ed : v / 64 = (bz b - 224) * 64 + (bz c - 128)).
    { unfold v. replace ((bz b - 224) * 4096 + (bz c - 128) * 64 + (bz d - 128))
        with (((bz b - 224) * 64 + (bz c - 128)) * 64 + (bz d - 128)) by lia.
      rewrite Z.div_add_l by lia. rewrite (Z.div_small (bz d - 128)) by lia. lia. }
    assert (Ed2 : v / 4096 = bz b - 224).
    { replace 4096 with (64 * 64) by lia. rewrite <- Z.div_div by lia. rewrite Ed.
      rewrite Z.div_add_l by lia. rewrite (Z.div_small (bz c - 128)) by lia. lia. }
    assert (Em : v / 64 mod 64 = bz c - 128).
    { rewrite Ed. rewrite Z.add_comm, Z.mod_add by lia. rewrite Z.mod_small; lia. }
    assert (Em2 : v mod 64 = bz d - 128).
    { unfold v. replace ((bz b - 224) * 4096 + (bz c - 128) * 64 + (bz d - 128))
        with ((bz d - 128) + ((bz b - 224) * 64 + (bz c - 128)) * 64) by lia.
      rewrite Z.mod_add by lia. rewrite Z.mod_small; lia. }
    rewrite Ed2, Em, Em2.
    replace (224 + (bz b - 224)) with (bz b) by lia. replace (128 + (bz c - 128)) with (bz c) by lia.
    replace (128 + (bz d - 128)) with (bz d) by lia. by rewrite !zb_bz. }
  destruct l as [|e l]; [discriminate|]. pose proof (bz_range e) as He.
  match type of E with context [if ?w && ?x && ?y && ?z then _ else _] =>
    destruct w eqn:E4; destruct x eqn:E5; destruct y eqn:E6; destruct z eqn:E7 end; try discriminate.
  injection E as <-. cbn [take]. apply between_spec in E4, E5, E6, E7.
  set (v := (bz b - 240) * 262144 + (bz c - 128) * 4096 + (bz d - 128) * 64 + (bz e - 128)).
  assert (Hcb : 128 <= bz c <= 191) by (destruct (bz b =? 224), (bz b =? 240), (bz b =? 237), (bz b =? 244); lia).
  assert (Hv : 65536 <= v < 1114112).
  { unfold v.
    destruct (Z.eqb_spec (bz b) 224), (Z.eqb_spec (bz b) 240), (Z.eqb_spec (bz b) 237), (Z.eqb_spec (bz b) 244); lia. }
  apply (Hadd v); [unfold scalar; lia| |done]. unfold utf8_enc.
  destruct (Z.ltb_spec v 128); [lia|]. destruct (Z.ltb_spec v 2048); [lia|]. destruct (Z.ltb_spec v 65536); [lia|].
  assert (Ed : v / 64 = (bz b - 240) * 4096 + (bz c - 128) * 64 + (bz d - 128)).
  { unfold v. replace ((bz b - 240) * 262144 + (bz c - 128) * 4096 + (bz d - 128) * 64 + (bz e - 128))
      with (((bz b - 240) * 4096 + (bz c - 128) * 64 + (bz d - 128)) * 64 + (bz e - 128)) by lia.
    rewrite Z.div_add_l by lia. rewrite (Z.div_small (bz e - 128)) by lia. lia. }
  assert (Ed2 : v / 4096 = (bz b - 240) * 64 + (bz c - 128)).
  { assert (E2' : v / 4096 = v / 64 / 64) by (rewrite Z.div_div by lia; reflexivity).
    rewrite E2', Ed. replace ((bz b - 240) * 4096 + (bz c - 128) * 64 + (bz d - 128))
      with (((bz b - 240) * 64 + (bz c - 128)) * 64 + (bz d - 128)) by lia.
    rewrite Z.div_add_l by lia. rewrite (Z.div_small (bz d - 128)) by lia. lia. }
  assert (Ed3 : v / 262144 = bz b - 240).
  { replace 262144 with (4096 * 64) by lia. rewrite <- Z.div_div by lia. rewrite Ed2.
    rewrite Z.div_add_l by lia. rewrite (Z.div_small (bz c - 128)) by lia. lia. }
  assert (Em1 : v / 4096 mod 64 = bz c - 128).
  { rewrite Ed2. rewrite Z.add_comm, Z.mod_add by lia. rewrite Z.mod_small; lia. }
  assert (Em2 : v / 64 mod 64 = bz d - 128).
  { rewrite Ed. replace ((bz b - 240) * 4096 + (bz c - 128) * 64 + (bz d - 128))
      with ((bz d - 128) + ((bz b - 240) * 64 + (bz c - 128)) * 64) by lia.
    rewrite Z.mod_add by lia. rewrite Z.mod_small; lia. }
  assert (Em3 : v mod 64 = bz e - 128).
  { unfold v. replace ((bz b - 240) * 262144 + (bz c - 128) * 4096 + (bz d - 128) * 64 + (bz e - 128))
      with ((bz e - 128) + ((bz b - 240) * 4096 + (bz c - 128) * 64 + (bz d - 128)) * 64) by lia.
    rewrite Z.mod_add by lia. rewrite Z.mod_small; lia. }
  rewrite Ed3, Em1, Em2, Em3.
  replace (240 + (bz b - 240)) with (bz b) by lia. replace (128 + (bz c - 128)) with (bz c) by lia.
  replace (128 + (bz d - 128)) with (bz d) by lia. replace (128 + (bz e - 128)) with (bz e) by lia. by rewrite !zb_bz.
Qed.

(** ** Quoting *)

Lemma high_safe b : 128 <= bz b -> safe_byte b = true.
Proof.
  intros H. unfold safe_byte. rewrite !andb_true_iff, !negb_true_iff, !bool_decide_eq_false, Z.leb_le.
  split; [split; intros ->; vm_compute in H; by apply H|lia].
Qed.
Lemma scan_safe_app a l : safe a -> scan_string (a ++ l) =
  match scan_string l with Some (r, k) => Some (a ++ r, k) | None => None end.
Proof.
  induction 1 as [|b a Hb Ha IH]; [cbn; destruct (scan_string l) as [[??]|]; done|].
  cbn [app]. rewrite scan_string_safe, IH by done. destruct (scan_string l) as [[??]|]; done.
Qed.
Lemma unescape_safe_app a l : safe a -> unescape (a ++ l) =
  match unescape l with Some r => Some (a ++ r) | None => None end.
Proof.
  induction 1 as [|b a Hb Ha IH]; [cbn; destruct (unescape l); done|].
  cbn [app]. rewrite unescape_safe_byte, IH by done. destruct (unescape l); done.
Qed.

Lemma unescape_u a b c d v l : hex4 a b c d = Some v -> v <? 55296 = true \/ 56320 <=? v = true ->
  unescape (x5c :: "u"%byte :: a :: b :: c :: d :: l) = match unescape l with Some r => Some (utf8 v ++ r) | None => None end.
Proof.
  intros E Hv. cbn [unescape]. rewrite E.
  assert (Ep : pair_rune v l = None).
  { unfold pair_rune. repeat (case_match; try reflexivity). exfalso. lia. }
  rewrite Ep. reflexivity.
Qed.

(** one piece of quoted text, standing for [s] *)
Definition piece (e s : bytes) : Prop :=
  (forall l, scan_string (e ++ l) = match scan_string l with Some (r, k) => Some (e ++ r, k) | None => None end) /\
  (forall l, unescape (e ++ l) = match unescape l with Some r => Some (s ++ r) | None => None end).
Lemma piece_safe a : safe a -> piece a a.
Proof. intros H. split; intros l; [by apply scan_safe_app|by apply unescape_safe_app]. Qed.
Lemma piece_ascii b : bz b < 128 -> piece (esc_ascii b) [b].
Proof.
  intros H. split; intros l.
  - destruct b; try (exfalso; vm_compute in H; discriminate); vm_compute esc_ascii; cbn [app];
      first [rewrite scan_string_safe by reflexivity; destruct (scan_string l) as [[??]|]; reflexivity
            |cbn; destruct (scan_string l) as [[??]|]; reflexivity].
  - destruct b; try (exfalso; vm_compute in H; discriminate); vm_compute esc_ascii; cbn [app];
      first [rewrite unescape_safe_byte by reflexivity; destruct (unescape l); reflexivity
            |erewrite unescape_u; [|reflexivity|left; reflexivity]; destruct (unescape l); reflexivity
            |cbn; destruct (unescape l); reflexivity].
Qed.

Lemma esc_skip k l : (k <= length l)%nat -> esc k l = take k l ++ esc 0 (drop k l).
Proof.
  revert l. induction k as [|k IH]; intros l H; [done|].
  destruct l as [|b l]; [simpl in H; lia|]. cbn [esc take drop app]. rewrite IH; [done|simpl in H; lia].
Qed.

Lemma esc_pieces l : exists ps : list (bytes * bytes),
  Forall (fun p => piece (fst p) (snd p)) ps /\ esc 0 l = flat_map fst ps /\ san 0 l = flat_map snd ps.
Proof.
  remember (length l) as n eqn:Hn. assert (H : (length l <= n)%nat) by lia. clear Hn.
  revert l H. induction n as [|n IH]; intros l H.
  { destruct l; [|simpl in H; lia]. exists []. done. }
  destruct l as [|b l]; [exists []; done|].
  assert (Hadd : forall e s l', piece e s -> (length l' <= n)%nat -> esc 0 (b :: l) = e ++ esc 0 l' ->
     san 0 (b :: l) = s ++ san 0 l' -> exists ps : list (bytes * bytes),
     Forall (fun p => piece (fst p) (snd p)) ps /\ esc 0 (b :: l) = flat_map fst ps /\ san 0 (b :: l) = flat_map snd ps).
  { intros e s l' Hp Hl' E1 E2. destruct (IH l' Hl') as (ps & P1 & P2 & P3). exists ((e, s) :: ps).
    split; [by constructor|]. rewrite E1, E2, P2, P3. done. }
  simpl in H. destruct (Z.ltb_spec (bz b) 128) as [Hb|Hb].
  { apply (Hadd (esc_ascii b) [b] l); [by apply piece_ascii|lia| |].
    - cbn [esc]. destruct (Z.ltb_spec (bz b) 128); [done|lia].
    - apply (san_cons b l 0). cbn [rune_len]. destruct (Z.ltb_spec (bz b) 128); [done|lia]. }
  destruct (line_sep (b :: l)) as [d|] eqn:Es.
  { unfold line_sep in Es. 
    assert (Hs : exists c l3, b :: l = xe2 :: x80 :: c :: l3 /\ (c = xa8 /\ d = "8"%byte \/ c = xa9 /\ d = "9"%byte)).
    { case_bool_decide as E1.
      - destruct l as [|y [|z l3]]; try discriminate. injection E1 as -> -> ->. injection Es as <-.
        exists xa8, l3. auto.
      - case_bool_decide as E2; [|discriminate]. destruct l as [|y [|z l3]]; try discriminate.
        injection E2 as -> -> ->. injection Es as <-. exists xa9, l3. auto. }
    destruct Hs as (c & l3 & [= -> ->] & Hcd).
    apply (Hadd ([x5c; "u"%byte; "2"%byte; "0"%byte; "2"%byte; d]) [xe2; x80; c] l3).
    - split; intros l'.
      + destruct Hcd as [[-> ->]|[-> ->]]; cbn; destruct (scan_string l') as [[??]|]; reflexivity.
      + destruct Hcd as [[-> ->]|[-> ->]]; cbn [app]; (erewrite unescape_u; [|reflexivity|left; reflexivity]);
          destruct (unescape l'); reflexivity.
    - cbn in H. lia.
    - destruct Hcd as [[-> ->]|[-> ->]]; reflexivity.
    - destruct Hcd as [[-> ->]|[-> ->]]; reflexivity. }
  assert (Ee : esc 0 (b :: l) = match rune_len (b :: l) with
                | O => [x5c; "u"%byte; "f"%byte; "f"%byte; "f"%byte; "d"%byte] ++ esc 0 l
                | S k => b :: esc k l end).
  { cbn [esc]. destruct (Z.ltb_spec (bz b) 128); [lia|]. rewrite Es. done. }
  destruct (rune_len (b :: l)) as [|k] eqn:E.
  - apply (Hadd ([x5c; "u"%byte; "f"%byte; "f"%byte; "f"%byte; "d"%byte]) replacement l); [|lia|done|by apply san_bad].
    split; intros l'; [cbn; destruct (scan_string l') as [[??]|]; reflexivity|].
    cbn [app]. (erewrite unescape_u; [|reflexivity|right; reflexivity]). destruct (unescape l'); reflexivity.
  - pose proof (rune_len_spec _ _ E) as (Hl & Hhi & _ & _). cbn [tl length] in *.
    apply (Hadd (take (S k) (b :: l)) (take (S k) (b :: l)) (drop (S k) (b :: l))).
    + apply piece_safe. cbn [take]. constructor; [by apply high_safe|].
      eapply List.Forall_impl; [|exact Hhi]. intros x Hx. by apply high_safe.
    + rewrite drop_length. simpl. lia.
    + rewrite Ee, esc_skip by lia. done.
    + by apply san_cons.
Qed.

Lemma scan_esc l : scannable (esc 0 l).
Proof.
  destruct (esc_pieces l) as (ps & Hp & -> & _). intros rest.
  induction Hp as [|[e s] ps [H1 H2] Hp IH]; [done|]. cbn [flat_map fst] in *.
  rewrite <- app_assoc, H1, IH. done.
Qed.
Lemma unescape_esc l : unescape (esc 0 l) = Some (san 0 l).
Proof.
  destruct (esc_pieces l) as (ps & Hp & -> & ->).
  induction Hp as [|[e s] ps [H1 H2] Hp IH]; [done|]. cbn [flat_map fst snd] in *.
  rewrite H2, IH. done.
Qed.
Lemma go_string_esc l : go_string (esc 0 l) = Some (san 0 l).
Proof. unfold go_string. by rewrite unescape_esc, san_idem. Qed.
Lemma go_string_text raw s : go_string raw = Some s -> utf8_text s.
Proof. unfold go_string. destruct (unescape raw); [|discriminate]. intros [= <-]. apply san_is_text. Qed.
Lemma renders_string s : renders (json_string s) (JStr (esc 0 s)).
Proof.
  intros n rest _. unfold json_string, quote. simpl app. rewrite <- app_assoc. simpl app.
  cbn [parse_value skip_ws]. unfold value_body. rewrite (scan_esc s rest). reflexivity.
Qed.
Lemma go_string_safe l : safe l -> go_string l = Some (san 0 l).
Proof. intros H. unfold go_string. by rewrite unescape_safe. Qed.
