(** The JSON printers and parsers are inverse to each other. *)
From Coq Require Import Decimal DecimalFacts DecimalN DecimalZ Strings.String ZifyBool.
From Verif Require Import GoBase Json.
Local Open Scope Z_scope.

(** ** Decimal *)

Lemma parse_digits_of d : parse_digits (digits_of d) = Some d.
Proof. induction d; simpl; rewrite ?IHd; reflexivity. Qed.

Lemma digits_of_digits d : Forall (fun b => is_digit b = true) (digits_of d).
Proof. induction d; simpl; constructor; auto. Qed.

Lemma pos_to_uint_nonnil p : Pos.to_uint p <> Nil.
Proof. exact (DecimalPos.Unsigned.to_uint_nonnil p). Qed.

Lemma digits_nonnil d : d <> Nil -> digits_of d <> [].
Proof. destruct d; simpl; congruence. Qed.

Lemma parse_int_digits d : d <> Nil -> parse_int (digits_of d) = Some (Z.of_int (Pos d)).
Proof.
  intros H. unfold parse_int.
  destruct d; try congruence; cbn [digits_of]; rewrite <- ?(parse_digits_of);
    match goal with |- match parse_digits (?b :: ?l) with _ => _ end = _ =>
      cbn [parse_digits digit]; rewrite parse_digits_of; reflexivity end.
Qed.

Lemma parse_print_int z : parse_int (print_int z) = Some z.
Proof.
  rewrite <- (DecimalZ.of_to z) at 2. unfold print_int.
  destruct z as [|p|p]; cbn [Z.to_int].
  - reflexivity.
  - apply parse_int_digits, pos_to_uint_nonnil.
  - unfold parse_int. pose proof (pos_to_uint_nonnil p) as Hn.
    rewrite (parse_digits_of). destruct (digits_of (Pos.to_uint p)) eqn:E; [|reflexivity].
    apply digits_nonnil in Hn. congruence.
Qed.

(** no leading zero *)
Lemma to_uint_lead p d : Pos.to_uint p <> D0 d.
Proof.
  intros H.
  assert (E : unorm (Pos.to_uint p) = Pos.to_uint p).
  { change (Pos.to_uint p) with (N.to_uint (Npos p)).
    rewrite <- (DecimalN.Unsigned.to_of (N.to_uint (Npos p))).
    rewrite DecimalN.Unsigned.of_to. reflexivity. }
  rewrite H in E. unfold unorm in E. simpl in E.
  destruct (nzhead d) eqn:En; try congruence.
  - (* d = zeros: then p is zero *)
    injection E as <-.
    assert (Hz : N.of_uint (N.to_uint (Npos p)) = N.of_uint (D0 Nil)) by (f_equal; exact H).
    rewrite DecimalN.Unsigned.of_to in Hz. simpl in Hz. discriminate.
  - exact (nzhead_nonzero _ _ En).
Qed.

(** ** Hex *)

Lemma hex_val_digit v : 0 <= v < 16 -> hex_val (hex_digit v) = Some v.
Proof.
  intros H. unfold hex_val, hex_digit.
  destruct (Z.ltb_spec v 10); rewrite bz_zb, Z.mod_small by lia.
  - rewrite (proj2 (Z.leb_le _ _)), (proj2 (Z.leb_le _ _)) by lia. simpl. f_equal. lia.
  - destruct (Z.leb_spec (55 + v) 57); [lia|]. rewrite andb_false_r.
    rewrite (proj2 (Z.leb_le _ _)), (proj2 (Z.leb_le _ _)) by lia. simpl. f_equal. lia.
Qed.

Lemma hex_roundtrip l : hex_dec (hex_enc l) = Some l.
Proof.
  induction l as [|b l IH]; [reflexivity|].
  unfold hex_enc in *. simpl. pose proof (bz_range b).
  rewrite !hex_val_digit by (split; [apply Z.div_pos || apply Z.mod_pos_bound|
    apply Z.div_lt_upper_bound || apply Z.mod_pos_bound]; lia).
  rewrite IH. do 2 f_equal. rewrite <- (zb_bz b) at 3. f_equal.
  pose proof (Z.div_mod (bz b) 16). lia.
Qed.

(** ** Base64 *)

Lemma b64_val_char v : 0 <= v < 64 -> b64_val (b64_char v) = Some v.
Proof.
  intros H.
  assert (Hall : forallb (fun i => bool_decide (b64_val (b64_char (Z.of_nat i)) = Some (Z.of_nat i)))
                   (seq 0 64) = true) by (vm_compute; reflexivity).
  rewrite forallb_forall in Hall. specialize (Hall (Z.to_nat v)).
  rewrite Z2Nat.id in Hall by lia. eapply bool_decide_eq_true, Hall. apply in_seq. lia.
Qed.

Lemma b64_pad : b64_val "="%byte = None.
Proof. reflexivity. Qed.

Lemma b64_roundtrip_n n l : (length l <= n)%nat -> b64_dec (b64_enc l) = Some l.
Proof.
  revert l. induction n as [|n IH]; intros l Hn.
  { destruct l; [reflexivity|simpl in Hn; lia]. }
  destruct l as [|a [|b [|c l]]]; [reflexivity|..]; cbn [b64_enc b64_dec].
  - pose proof (bz_range a).
    rewrite !b64_val_char by (split; Z.div_mod_to_equations; lia).
    rewrite b64_pad. rewrite bool_decide_true by done. do 2 f_equal.
    rewrite <- (zb_bz a) at 3. f_equal. Z.div_mod_to_equations; lia.
  - pose proof (bz_range a). pose proof (bz_range b).
    rewrite !b64_val_char by (split; Z.div_mod_to_equations; lia).
    rewrite b64_pad. rewrite bool_decide_true by done. f_equal. f_equal; [|f_equal].
    + rewrite <- (zb_bz a) at 4. f_equal. Z.div_mod_to_equations; lia.
    + rewrite <- (zb_bz b) at 4. f_equal. Z.div_mod_to_equations; lia.
  - pose proof (bz_range a). pose proof (bz_range b). pose proof (bz_range c).
    rewrite !b64_val_char by (split; Z.div_mod_to_equations; lia).
    rewrite IH by (simpl in Hn; lia).
    set (v := bz a * 65536 + bz b * 256 + bz c).
    assert (Hv : v / 262144 * 262144 + v / 4096 mod 64 * 4096 + v / 64 mod 64 * 64 + v mod 64 = v).
    { Z.div_mod_to_equations; lia. }
    rewrite Hv. f_equal. f_equal; [|f_equal; [|f_equal]].
    + rewrite <- (zb_bz a). f_equal. unfold v. Z.div_mod_to_equations; lia.
    + rewrite <- (zb_bz b). f_equal. unfold v. Z.div_mod_to_equations; lia.
    + rewrite <- (zb_bz c). f_equal. unfold v. Z.div_mod_to_equations; lia.
Qed.
Lemma b64_roundtrip l : b64_dec (b64_enc l) = Some l.
Proof. eapply b64_roundtrip_n; reflexivity. Qed.

(** ** Strings without escapes *)

Definition safe_byte (b : byte) : bool :=
  negb (bool_decide (b = x22)) && negb (bool_decide (b = x5c)) && (32 <=? bz b).
Definition safe (l : bytes) : Prop := Forall (fun b => safe_byte b = true) l.

Lemma scan_string_safe b l : safe_byte b = true ->
  scan_string (b :: l) = match scan_string l with Some (r, k) => Some (b :: r, k) | None => None end.
Proof. intros H. destruct b; first [reflexivity | vm_compute in H; discriminate H]. Qed.
Lemma unescape_safe_byte b l : safe_byte b = true ->
  unescape (b :: l) = match unescape l with Some r => Some (b :: r) | None => None end.
Proof. intros H. destruct b; first [reflexivity | vm_compute in H; discriminate H]. Qed.

Lemma scan_safe l rest : safe l -> scan_string (l ++ x22 :: rest) = Some (l, rest).
Proof.
  induction 1 as [|b l Hb Hl IH]; [reflexivity|].
  simpl app. rewrite scan_string_safe, IH by done. reflexivity.
Qed.
Lemma unescape_safe l : safe l -> unescape l = Some l.
Proof.
  induction 1 as [|b l Hb Hl IH]; [reflexivity|].
  rewrite unescape_safe_byte, IH by done. reflexivity.
Qed.

Lemma safe_app l k : safe l -> safe k -> safe (l ++ k).
Proof. apply Forall_app_2. Qed.

Lemma digits_safe d : safe (digits_of d).
Proof. unfold safe. induction d; simpl; constructor; auto. Qed.
Lemma print_int_safe z : safe (print_int z).
Proof.
  unfold print_int. destruct (Z.to_int z); [apply digits_safe|]. constructor; [done|apply digits_safe].
Qed.

Lemma safe_zb v : 35 <= v < 92 \/ 93 <= v < 127 -> safe_byte (zb v) = true.
Proof.
  intros H. unfold safe_byte.
  assert (E : bz (zb v) = v) by (rewrite bz_zb; apply Z.mod_small; lia).
  rewrite !bool_decide_false.
  - simpl. rewrite E. lia.
  - intros Hx. rewrite Hx in E. vm_compute in E. lia.
  - intros Hx. rewrite Hx in E. vm_compute in E. lia.
Qed.
Lemma hex_digit_safe v : 0 <= v < 16 -> safe_byte (hex_digit v) = true.
Proof. intros H. unfold hex_digit. destruct (Z.ltb_spec v 10); apply safe_zb; lia. Qed.
Lemma b64_char_safe v : 0 <= v < 64 -> safe_byte (b64_char v) = true.
Proof.
  intros H. unfold b64_char.
  destruct (Z.ltb_spec v 26); [apply safe_zb; lia|].
  destruct (Z.ltb_spec v 52); [apply safe_zb; lia|].
  destruct (Z.ltb_spec v 62); [apply safe_zb; lia|].
  destruct (v =? 62); reflexivity.
Qed.

Lemma hex_safe l : safe (hex_enc l).
Proof.
  induction l as [|b l IH]; [constructor|]. pose proof (bz_range b).
  unfold hex_enc in *. simpl. constructor; [apply hex_digit_safe; Z.div_mod_to_equations; lia|].
  constructor; [apply hex_digit_safe; Z.div_mod_to_equations; lia|exact IH].
Qed.
Lemma b64_safe_n n l : (length l <= n)%nat -> safe (b64_enc l).
Proof.
  revert l. induction n as [|n IH]; intros l Hn.
  { destruct l; [constructor|simpl in Hn; lia]. }
  destruct l as [|a [|b [|c l]]]; [constructor|..]; cbn [b64_enc];
    pose proof (bz_range a); try pose proof (bz_range b); try pose proof (bz_range c);
    repeat (constructor; [first [reflexivity | apply b64_char_safe; Z.div_mod_to_equations; lia]|]);
    first [constructor | apply IH; simpl in Hn; lia].
Qed.
Lemma b64_safe l : safe (b64_enc l).
Proof. eapply b64_safe_n; reflexivity. Qed.

Lemma no_breaks_safe l : safe l -> no_breaks l = l.
Proof.
  induction 1 as [|b l Hb Hl IH]; [done|]. unfold no_breaks in *. cbn [List.filter].
  assert (E : negb (bool_decide (b = x0a) || bool_decide (b = x0d)) = true)
    by (destruct b; first [reflexivity | vm_compute in Hb; discriminate Hb]).
  by rewrite E, IH.
Qed.

(** ** Values *)

Lemma pv_space n l : parse_value (S n) (" "%byte :: l) = parse_value (S n) l.
Proof. reflexivity. Qed.
Lemma pm_space n l : parse_members (S n) (" "%byte :: l) = parse_members (S n) l.
Proof. reflexivity. Qed.
Lemma pm_nl n l : parse_members (S n) (x0a :: l) = parse_members (S n) l.
Proof. reflexivity. Qed.
(** one member, with optional white space before its value and after it *)
Lemma pm_last n k l1 v l2 l3 :
  scan_string l1 = Some (k, ":"%byte :: l2) -> parse_value n l2 = Some (v, l3) ->
  forall l4, skip_ws l3 = "}"%byte :: l4 -> parse_members (S n) (x22 :: l1) = Some ([(k, v)], l4).
Proof.
  intros E1 E2 l4 E3. cbn [parse_members skip_ws]. unfold members_body. rewrite E1. cbn [skip_ws]. rewrite E2, E3. reflexivity.
Qed.
Lemma pm_more n k l1 v l2 l3 m l5 :
  scan_string l1 = Some (k, ":"%byte :: l2) -> parse_value n l2 = Some (v, l3) ->
  forall l4, skip_ws l3 = ","%byte :: l4 -> parse_members n l4 = Some (m, l5) ->
  parse_members (S n) (x22 :: l1) = Some ((k, v) :: m, l5).
Proof.
  intros E1 E2 l4 E3 E4. cbn [parse_members skip_ws]. unfold members_body. rewrite E1. cbn [skip_ws].
  rewrite E2, E3, E4. reflexivity.
Qed.
Lemma pv_object n l m l' :
  parse_members n l = Some (m, l') -> (exists r, skip_ws l = x22 :: r) ->
  (forall k, parse_members (S k) (skip_ws l) = parse_members (S k) l) -> n <> O ->
  parse_value (S n) ("{"%byte :: l) = Some (JObj m, l').
Proof.
  intros H [r E] Hw Hn. cbn [parse_value skip_ws]. unfold value_body. destruct n as [|n]; [done|].
  rewrite <- Hw in H. rewrite E in *. rewrite H. reflexivity.
Qed.

(** what may follow a value in the printed objects *)
Definition stop (rest : bytes) : Prop :=
  match rest with ","%byte :: _ | "}"%byte :: _ | x0a :: _ | [] => True | _ => False end.

(** the text [v] is read as [j] *)
Definition renders (v : bytes) (j : json) : Prop :=
  forall n rest, stop rest ->
    parse_value (S n) (v ++ rest) = Some (j, rest).

Lemma renders_null : renders (lit "null") JNull.
Proof. intros n rest _. reflexivity. Qed.

Lemma renders_quote s : safe s -> renders (quote s) (JStr s).
Proof.
  intros H n rest _. unfold quote. simpl app. rewrite <- app_assoc. simpl app.
  cbn [parse_value skip_ws]. unfold value_body. rewrite scan_safe by done. reflexivity.
Qed.

Lemma take_digits_app d rest :
  Forall (fun b => is_digit b = true) d -> stop rest -> take_digits (d ++ rest) = (d, rest).
Proof.
  intros H Hs. induction H as [|b d Hb Hd IH]; simpl.
  - destruct rest as [|b r]; [reflexivity|]. simpl. destruct b; try contradiction; reflexivity.
  - rewrite Hb, IH. reflexivity.
Qed.

Lemma scan_tail rest : stop rest -> scan_frac rest = Some ([], rest) /\ scan_exp rest = Some ([], rest).
Proof.
  intros H. destruct rest as [|b r]; [split; reflexivity|].
  destruct b; try contradiction; split; reflexivity.
Qed.

(** a printed natural number, not starting with 0 unless it is 0 *)
Definition norm (d : uint) : Prop := d <> Nil /\ (d = D0 Nil \/ forall d', d <> D0 d').

Lemma scan_nat_digits d rest : norm d -> stop rest ->
  scan_nat (digits_of d ++ rest) = Some (digits_of d, rest).
Proof.
  intros [Hn Hd] Hs. destruct Hd as [-> |Hd]; [reflexivity|].
  pose proof (take_digits_app (digits_of d) rest (digits_of_digits d) Hs) as T.
  destruct d; try congruence;
    cbn [digits_of app] in *; unfold scan_nat; rewrite T; reflexivity.
Qed.

Lemma scan_number_digits d rest : norm d -> stop rest ->
  scan_number (digits_of d ++ rest) = Some (digits_of d, rest) /\
  scan_number ("-"%byte :: digits_of d ++ rest) = Some ("-"%byte :: digits_of d, rest).
Proof.
  intros Hd Hs. destruct (scan_tail rest Hs) as [E1 E2]. split; unfold scan_number.
  - pose proof (scan_nat_digits d rest Hd Hs) as E. destruct Hd as [Hn _].
    destruct d; try congruence; cbn [digits_of app] in *; rewrite E, E1, E2; simpl;
      rewrite app_nil_r; reflexivity.
  - rewrite scan_nat_digits, E1, E2 by done. simpl. rewrite app_nil_r. reflexivity.
Qed.

Lemma renders_number_aux d : norm d ->
  renders (digits_of d) (JNum (digits_of d)) /\
  renders ("-"%byte :: digits_of d) (JNum ("-"%byte :: digits_of d)).
Proof.
  intros Hd. split; intros n rest Hs; destruct (scan_number_digits d rest Hd Hs) as [E1 E2].
  - destruct Hd as [Hn _]. destruct d; try congruence;
      cbn [digits_of app] in *; cbn [parse_value skip_ws]; unfold value_body; rewrite E1; reflexivity.
  - cbn [app parse_value skip_ws]. unfold value_body. rewrite E2. reflexivity.
Qed.

Lemma norm_pos p : norm (Pos.to_uint p).
Proof.
  split; [apply pos_to_uint_nonnil|]. right. intros d. apply to_uint_lead.
Qed.

Lemma renders_int z : renders (print_int z) (JNum (print_int z)).
Proof.
  unfold print_int. destruct z as [|p|p]; cbn [Z.to_int].
  - assert (H : norm (D0 Nil)) by (split; [congruence|auto]).
    exact (proj1 (renders_number_aux _ H)).
  - apply renders_number_aux, norm_pos.
  - apply renders_number_aux, norm_pos.
Qed.

Lemma renders_b64 o :
  exists j, renders (b64_text o) j /\ bytes_of_json j = Some o.
Proof.
  destruct o as [b|]; simpl.
  - exists (JStr (b64_enc b)). split; [apply renders_quote, b64_safe|].
    cbn [bytes_of_json]. rewrite unescape_safe, no_breaks_safe, b64_roundtrip by apply b64_safe. reflexivity.
  - exists JNull. split; [apply renders_null|reflexivity].
Qed.

Lemma renders_hex b : renders (quote (hex_enc b)) (JStr (hex_enc b)) /\
  hex_of_json (JStr (hex_enc b)) = Some b.
Proof. split; [apply renders_quote, hex_safe|]. simpl. apply hex_roundtrip. Qed.

(** ** Objects *)

(** a raw string that is read up to the closing quote *)
Definition scannable (k : bytes) : Prop := forall rest, scan_string (k ++ x22 :: rest) = Some (k, rest).
Lemma scannable_safe k : safe k -> scannable k.
Proof. intros H rest. by apply scan_safe. Qed.
Definition member_ok (m : bytes * bytes) (j : bytes * json) : Prop :=
  fst m = fst j /\ scannable (fst m) /\ renders (snd m) (snd j).

Lemma parse_members_indent ms js n rest :
  ms <> [] -> Forall2 member_ok ms js -> (length ms <= n)%nat ->
  parse_members (S n) (members_indent ms ++ "}"%byte :: rest) = Some (js, rest).
Proof.
  revert js n. induction ms as [|[k v] ms IH]; intros js n Hne Hok Hn; [done|].
  inversion Hok as [|? [k' j] ? js' (Hk & Hsafe & Hr) Hok']; subst; clear Hok.
  simpl in Hk, Hsafe, Hr. subst k'.
  destruct n as [|n]; [simpl in Hn; lia|].
  destruct ms as [|[k2 v2] ms].
  - inversion Hok'; subst. cbn [members_indent].
    change (lit "  ") with [" "%byte; " "%byte]. change (lit ": ") with [":"%byte; " "%byte].
    unfold quote. cbn [app]. rewrite <- !app_assoc. cbn [app]. rewrite <- !app_assoc. cbn [app].
    rewrite !pm_space. eapply pm_last; [apply Hsafe|rewrite pv_space; apply Hr; exact I|].
    reflexivity.
  - set (tl := members_indent ((k2, v2) :: ms)) in *.
    change (members_indent ((k, v) :: (k2, v2) :: ms)) with
      (lit "  " ++ quote k ++ lit ": " ++ v ++ [","%byte; x0a] ++ tl).
    change (lit "  ") with [" "%byte; " "%byte]. change (lit ": ") with [":"%byte; " "%byte].
    unfold quote. cbn [app]. rewrite <- !app_assoc. cbn [app]. rewrite <- !app_assoc. cbn [app].
    rewrite !pm_space.
    eapply pm_more; [apply Hsafe|rewrite pv_space; apply Hr; exact I|reflexivity|].
    rewrite pm_nl. apply IH; [done|done|cbn [length] in *; lia].
Qed.

Lemma parse_object_indent ms js :
  ms <> [] -> Forall2 member_ok ms js -> parse_json (object_indent ms) = Some (JObj js).
Proof.
  intros Hne Hok. unfold parse_json, object_indent. cbn [app].
  assert (Hlen : forall ms, (length ms <= length (members_indent ms))%nat).
  { clear. intros ms. induction ms as [|[k v] ms IH]; [cbn; lia|].
    destruct ms as [|[k2 v2] ms]; [cbn [members_indent length]; rewrite !app_length; cbn; lia|].
    set (tl := (k2, v2) :: ms) in *. cbn [length].
    change (members_indent ((k, v) :: tl)) with
      (lit "  " ++ quote k ++ lit ": " ++ v ++ [","%byte; x0a] ++ members_indent tl).
    rewrite !app_length. cbn [length]. lia. }
  cbn [length].
  rewrite (pv_object _ _ js []); [reflexivity|..].
  - rewrite pm_nl. apply parse_members_indent; [done|done|].
    rewrite app_length. specialize (Hlen ms). lia.
  - destruct ms as [|[k v] ms]; [done|].
    destruct ms as [|[k2 v2] ms]; cbn [members_indent]; eexists; reflexivity.
  - intros n. destruct ms as [|[k v] ms]; [done|].
    assert (E : exists l, members_indent ((k, v) :: ms) = " "%byte :: " "%byte :: x22 :: l).
    { destruct ms as [|[k2 v2] ms]; cbn [members_indent]; eexists; reflexivity. }
    destruct E as [l ->]. cbn [app]. rewrite pm_nl, !pm_space. reflexivity.
  - done.
Qed.

Lemma parse_members_compact ms js n rest :
  ms <> [] -> Forall2 member_ok ms js -> (length ms <= n)%nat ->
  parse_members (S n) (members_compact ms ++ "}"%byte :: rest) = Some (js, rest).
Proof.
  revert js n. induction ms as [|[k v] ms IH]; intros js n Hne Hok Hn; [done|].
  inversion Hok as [|? [k' j] ? js' (Hk & Hsafe & Hr) Hok']; subst; clear Hok.
  simpl in Hk, Hsafe, Hr. subst k'.
  destruct n as [|n]; [simpl in Hn; lia|].
  destruct ms as [|[k2 v2] ms].
  - inversion Hok'; subst. cbn [members_compact].
    unfold quote. cbn [app]. rewrite <- !app_assoc. cbn [app].
    eapply pm_last; [apply Hsafe|apply Hr; exact I|]. reflexivity.
  - set (tl := members_compact ((k2, v2) :: ms)) in *.
    change (members_compact ((k, v) :: (k2, v2) :: ms)) with
      (quote k ++ [":"%byte] ++ v ++ [","%byte] ++ tl).
    unfold quote. cbn [app]. rewrite <- !app_assoc. cbn [app]. rewrite <- !app_assoc. cbn [app].
    eapply pm_more; [apply Hsafe|apply Hr; exact I|reflexivity|].
    apply IH; [done|done|cbn [length] in *; lia].
Qed.

Lemma parse_object_compact ms js :
  ms <> [] -> Forall2 member_ok ms js -> parse_json (object_compact ms) = Some (JObj js).
Proof.
  intros Hne Hok. unfold parse_json, object_compact. cbn [app].
  assert (Hlen : forall ms, (length ms <= length (members_compact ms))%nat).
  { clear. intros ms. induction ms as [|[k v] ms IH]; [cbn; lia|].
    destruct ms as [|[k2 v2] ms]; [cbn [members_compact length]; rewrite !app_length; cbn; lia|].
    set (tl := (k2, v2) :: ms) in *. cbn [length].
    change (members_compact ((k, v) :: tl)) with
      (quote k ++ [":"%byte] ++ v ++ [","%byte] ++ members_compact tl).
    rewrite !app_length. cbn [length]. lia. }
  cbn [length].
  assert (E : exists l, members_compact ms = x22 :: l).
  { destruct ms as [|[k v] ms]; [done|].
    destruct ms as [|[k2 v2] ms]; cbn [members_compact]; eexists; reflexivity. }
  destruct E as [l E].
  rewrite (pv_object _ _ js []); [reflexivity|..].
  - rewrite app_length. cbn [length]. rewrite Nat.add_1_r.
    apply parse_members_compact; [done|done|]. specialize (Hlen ms). lia.
  - rewrite E. eexists. reflexivity.
  - intros n. rewrite E. reflexivity.
  - rewrite app_length. cbn. lia.
Qed.

(** ** A cut-off object does not parse *)

(** what is left unread was in the text *)
Lemma skip_ws_incl l : incl (skip_ws l) l.
Proof.
  induction l as [|b l IH]; [apply incl_refl|].
  assert (Hc : skip_ws (b :: l) = skip_ws l \/ skip_ws (b :: l) = b :: l) by (destruct b; auto).
  destruct Hc as [-> | ->]; [apply incl_tl, IH|apply incl_refl].
Qed.

Lemma scan_string_incl_n n l r k : (length l <= n)%nat -> scan_string l = Some (r, k) -> incl k l.
Proof.
  revert l r k. induction n as [|n IH]; intros l r k Hn H.
  { destruct l; [discriminate|simpl in Hn; lia]. }
  destruct l as [|b l]; [discriminate|]. simpl in Hn.
  destruct (decide (b = x22)) as [-> |H22].
  { simpl in H. injection H as <- <-. apply incl_tl, incl_refl. }
  destruct (decide (b = x5c)) as [-> |H5c].
  - destruct l as [|e l]; [discriminate|]. simpl in Hn.
    destruct (decide (e = "u"%byte)) as [-> |He].
    + destruct l as [|a [|b [|c [|d l]]]]; try discriminate. simpl in Hn, H.
      destruct (hex_val a), (hex_val b), (hex_val c), (hex_val d); try discriminate.
      destruct (scan_string l) as [[r' k']|] eqn:E; [|discriminate]. injection H as <- <-.
      do 6 apply incl_tl. eapply IH; [|exact E]. lia.
    + assert (Hs : scan_string (x5c :: e :: l) =
        match escape_char e, scan_string l with Some _, Some (r, k) => Some (x5c :: e :: r, k) | _, _ => None end)
        by (destruct e; try reflexivity; congruence).
      rewrite Hs in H. destruct (escape_char e); [|discriminate].
      destruct (scan_string l) as [[r' k']|] eqn:E; [|discriminate]. injection H as <- <-.
      do 2 apply incl_tl. eapply IH; [|exact E]. lia.
  - assert (Hs : scan_string (b :: l) =
      if bz b <? 32 then None
      else match scan_string l with Some (r, k) => Some (b :: r, k) | None => None end)
      by (destruct b; try reflexivity; congruence).
    rewrite Hs in H. destruct (bz b <? 32); [discriminate|].
    destruct (scan_string l) as [[r' k']|] eqn:E; [|discriminate]. injection H as <- <-.
    apply incl_tl. eapply IH; [|exact E]. lia.
Qed.
Lemma scan_string_incl l r k : scan_string l = Some (r, k) -> incl k l.
Proof. eapply scan_string_incl_n. reflexivity. Qed.

Lemma take_digits_incl l d r : take_digits l = (d, r) -> incl r l.
Proof.
  revert d r. induction l as [|b l IH]; intros d r H; simpl in H.
  - injection H as <- <-. apply incl_refl.
  - destruct (is_digit b); [|injection H as <- <-; apply incl_refl].
    destruct (take_digits l) as [d' r']. injection H as <- <-. apply incl_tl. eauto.
Qed.

Lemma scan_nat_incl l d r : scan_nat l = Some (d, r) -> incl r l.
Proof.
  intros H.
  assert (Hc : (exists l', l = "0"%byte :: l' /\ r = l') \/ exists d', take_digits l = (d', r)).
  { unfold scan_nat in H. destruct l as [|b l].
    - simpl in H. discriminate.
    - destruct (decide (b = "0"%byte)) as [-> |Hb].
      + left. injection H as <- <-. eauto.
      + right. destruct (take_digits (b :: l)) as [d' r'] eqn:E. exists d'.
        destruct b; try congruence; destruct d'; congruence. }
  destruct Hc as [(l' & -> & ->)|[d' Hd]]; [apply incl_tl, incl_refl|eapply take_digits_incl, Hd].
Qed.
Lemma scan_frac_incl l d r : scan_frac l = Some (d, r) -> incl r l.
Proof.
  intros H. destruct l as [|b l]; [injection H as <- <-; apply incl_refl|].
  destruct (decide (b = "."%byte)) as [-> |Hb].
  - simpl in H. destruct (take_digits l) as [d' r'] eqn:E.
    destruct d'; [discriminate|]. injection H as <- <-. apply incl_tl. eapply take_digits_incl, E.
  - assert (Hs : scan_frac (b :: l) = Some ([], b :: l)) by (destruct b; try reflexivity; congruence).
    rewrite Hs in H. injection H as <- <-. apply incl_refl.
Qed.
Lemma scan_exp_incl l d r : scan_exp l = Some (d, r) -> incl r l.
Proof.
  intros H. destruct l as [|b l]; [injection H as <- <-; apply incl_refl|].
  assert (Hc : scan_exp (b :: l) = Some ([], b :: l) \/
    exists l1, (l1 = l \/ exists s, l = s :: l1) /\
      (exists e s, scan_exp (b :: l) =
         match take_digits l1 with ([], _) => None | (d, r) => Some (e :: s ++ d, r) end)).
  { destruct (decide (b = "e"%byte \/ b = "E"%byte)) as [Hb|Hb].
    - right. destruct l as [|s l]; [exists []; split; [auto|]; exists b, []; destruct Hb as [-> | ->]; reflexivity|].
      destruct (decide (s = "+"%byte \/ s = "-"%byte)) as [Hs|Hs].
      + exists l. split; [eauto|]. exists b, [s].
        destruct Hb as [-> | ->], Hs as [-> | ->]; reflexivity.
      + exists (s :: l). split; [auto|]. exists b, [].
        destruct Hb as [-> | ->]; destruct s; try reflexivity; exfalso; auto.
    - left. destruct b; try reflexivity; exfalso; auto. }
  destruct Hc as [Hc|(l1 & Hl & e & s & Hc)]; rewrite Hc in H.
  - injection H as <- <-. apply incl_refl.
  - destruct (take_digits l1) as [d' r'] eqn:E. destruct d'; [discriminate|]. injection H as <- <-.
    apply take_digits_incl in E.
    destruct Hl as [-> |[s' ->]]; [apply incl_tl, E|do 2 apply incl_tl; exact E].
Qed.
Lemma scan_number_incl l d r : scan_number l = Some (d, r) -> incl r l.
Proof.
  intros H.
  assert (Hc : exists s l0, incl l0 l /\ scan_number l =
     match scan_nat l0 with None => None | Some (n, l1) =>
       match scan_frac l1 with None => None | Some (f, l2) =>
         match scan_exp l2 with None => None | Some (e, l3) => Some (s ++ n ++ f ++ e, l3) end end end).
  { destruct l as [|b l]; [exists [], []; split; [apply incl_refl|reflexivity]|].
    destruct (decide (b = "-"%byte)) as [-> |Hb].
    - exists ["-"%byte], l. split; [apply incl_tl, incl_refl|reflexivity].
    - exists [], (b :: l). split; [apply incl_refl|]. destruct b; try reflexivity; congruence. }
  destruct Hc as (s & l0 & Hi & Hc). rewrite Hc in H.
  destruct (scan_nat l0) as [[n l1]|] eqn:E1; [|discriminate].
  destruct (scan_frac l1) as [[f l2]|] eqn:E2; [|discriminate].
  destruct (scan_exp l2) as [[e l3]|] eqn:E3; [|discriminate]. injection H as <- <-.
  apply scan_nat_incl in E1. apply scan_frac_incl in E2. apply scan_exp_incl in E3.
  eapply incl_tran; [exact E3|]. eapply incl_tran; [exact E2|]. eapply incl_tran; eauto.
Qed.

Ltac other_head b := destruct b; try reflexivity; exfalso; congruence.

Lemma value_body_other members elements l :
  (exists l1, l = "{"%byte :: l1) \/ (exists l1, l = "["%byte :: l1) \/ (exists l1, l = x22 :: l1) \/
  (exists w j l1, l = w ++ l1 /\ value_body members elements l = Some (j, l1)) \/
  l = [] \/
  value_body members elements l
    = match scan_number l with Some (d, l1) => Some (JNum d, l1) | None => None end.
Proof.
  destruct l as [|b l]; [do 4 right; left; reflexivity|].
  destruct (decide (b = "{"%byte)) as [-> |H1]; [left; eauto|].
  destruct (decide (b = "["%byte)) as [-> |H2]; [right; left; eauto|].
  destruct (decide (b = x22)) as [-> |H3]; [do 2 right; left; eauto|].
  destruct (decide (b = "t"%byte)) as [-> |H4].
  { do 3 right. destruct l as [|c l]; [right; right; reflexivity|].
    destruct (decide (c = "r"%byte)) as [-> |H5]; [|right; right; other_head c].
    destruct l as [|c l]; [right; right; reflexivity|].
    destruct (decide (c = "u"%byte)) as [-> |H6]; [|right; right; other_head c].
    destruct l as [|c l]; [right; right; reflexivity|].
    destruct (decide (c = "e"%byte)) as [-> |H7]; [|right; right; other_head c].
    left. exists (lit "true"), (JBool true), l. split; reflexivity. }
  destruct (decide (b = "f"%byte)) as [-> |H5].
  { do 3 right. destruct l as [|c l]; [right; right; reflexivity|].
    destruct (decide (c = "a"%byte)) as [-> |H6]; [|right; right; other_head c].
    destruct l as [|c l]; [right; right; reflexivity|].
    destruct (decide (c = "l"%byte)) as [-> |H7]; [|right; right; other_head c].
    destruct l as [|c l]; [right; right; reflexivity|].
    destruct (decide (c = "s"%byte)) as [-> |H8]; [|right; right; other_head c].
    destruct l as [|c l]; [right; right; reflexivity|].
    destruct (decide (c = "e"%byte)) as [-> |H9]; [|right; right; other_head c].
    left. exists (lit "false"), (JBool false), l. split; reflexivity. }
  destruct (decide (b = "n"%byte)) as [-> |H6].
  { do 3 right. destruct l as [|c l]; [right; right; reflexivity|].
    destruct (decide (c = "u"%byte)) as [-> |H7]; [|right; right; other_head c].
    destruct l as [|c l]; [right; right; reflexivity|].
    destruct (decide (c = "l"%byte)) as [-> |H8]; [|right; right; other_head c].
    destruct l as [|c l]; [right; right; reflexivity|].
    destruct (decide (c = "l"%byte)) as [-> |H9]; [|right; right; other_head c].
    left. exists (lit "null"), JNull, l. split; reflexivity. }
  do 5 right. other_head b.
Qed.

(** the first byte after white space decides between an empty and a non-empty object or array *)
Lemma value_body_object members elements l1 :
  value_body members elements ("{"%byte :: l1) =
  match skip_ws l1 with
  | [] => match members [] with Some (m, l3) => Some (JObj m, l3) | None => None end
  | b :: l2 => if bool_decide (b = "}"%byte) then Some (JObj [], l2)
               else match members (b :: l2) with Some (m, l3) => Some (JObj m, l3) | None => None end
  end.
Proof. unfold value_body. destruct (skip_ws l1) as [|b l2]; [reflexivity|]. destruct b; reflexivity. Qed.
Lemma value_body_array members elements l1 :
  value_body members elements ("["%byte :: l1) =
  match skip_ws l1 with
  | [] => match elements [] with Some (m, l3) => Some (JArr m, l3) | None => None end
  | b :: l2 => if bool_decide (b = "]"%byte) then Some (JArr [], l2)
               else match elements (b :: l2) with Some (m, l3) => Some (JArr m, l3) | None => None end
  end.
Proof. unfold value_body. destruct (skip_ws l1) as [|b l2]; [reflexivity|]. destruct b; reflexivity. Qed.

Lemma members_body_inv value members l m r :
  members_body value members l = Some (m, r) ->
  exists l1 k l2 l3 v l4 l5, l = x22 :: l1 /\ scan_string l1 = Some (k, l2) /\
    skip_ws l2 = ":"%byte :: l3 /\ value l3 = Some (v, l4) /\
    ((skip_ws l4 = ","%byte :: l5 /\ exists m', members l5 = Some (m', r)) \/
     (skip_ws l4 = "}"%byte :: l5 /\ r = l5)).
Proof.
  intros H. destruct l as [|b l1]; [discriminate|].
  destruct (decide (b = x22)) as [-> |Hb]; [|destruct b; try discriminate; congruence].
  unfold members_body in H.
  destruct (scan_string l1) as [[k l2]|] eqn:E1; [|discriminate].
  destruct (skip_ws l2) as [|c l3] eqn:E2; [discriminate|].
  destruct (decide (c = ":"%byte)) as [-> |Hc]; [|destruct c; try discriminate; congruence].
  destruct (value l3) as [[v l4]|] eqn:E3; [|discriminate].
  destruct (skip_ws l4) as [|d l5] eqn:E4; [discriminate|].
  exists l1, k, l2, l3, v, l4, l5. do 4 (split; [done|]).
  destruct (decide (d = ","%byte)) as [-> |Hd].
  - left. split; [done|]. destruct (members l5) as [[m' r']|]; [|discriminate].
    injection H as <- <-. eauto.
  - right. destruct (decide (d = "}"%byte)) as [-> |Hd']; [|destruct d; try discriminate; congruence].
    injection H as <- <-. done.
Qed.

Lemma parse_incl n :
  (forall l j r, parse_value n l = Some (j, r) -> incl r l) /\
  (forall l m r, parse_members n l = Some (m, r) -> incl r l /\ In "}"%byte l) /\
  (forall l m r, parse_elements n l = Some (m, r) -> incl r l).
Proof.
  induction n as [|n (IHv & IHm & IHe)]; [repeat split; discriminate|].
  split; [|split].
  - intros l j r H. cbn [parse_value] in H.
    eapply incl_tran; [|apply skip_ws_incl]. set (l0 := skip_ws l) in *. clearbody l0. clear l.
    destruct (value_body_other (parse_members n) (parse_elements n) l0)
      as [[l1 ->]|[[l1 ->]|[[l1 ->]|[(w & j' & l1 & -> & E)|[-> |E]]]]].
    + rewrite value_body_object in H. apply incl_tl. eapply incl_tran; [|apply skip_ws_incl].
      destruct (skip_ws l1) as [|b l2].
      * destruct (parse_members n []) as [[m' r']|] eqn:E; [|discriminate]. injection H as <- <-.
        apply IHm in E. apply E.
      * destruct (bool_decide (b = "}"%byte)); [injection H as <- <-; apply incl_tl, incl_refl|].
        destruct (parse_members n (b :: l2)) as [[m' r']|] eqn:E; [|discriminate]. injection H as <- <-.
        apply IHm in E. apply E.
    + rewrite value_body_array in H. apply incl_tl. eapply incl_tran; [|apply skip_ws_incl].
      destruct (skip_ws l1) as [|b l2].
      * destruct (parse_elements n []) as [[m' r']|] eqn:E; [|discriminate]. injection H as <- <-. eauto.
      * destruct (bool_decide (b = "]"%byte)); [injection H as <- <-; apply incl_tl, incl_refl|].
        destruct (parse_elements n (b :: l2)) as [[m' r']|] eqn:E; [|discriminate]. injection H as <- <-. eauto.
    + unfold value_body in H. destruct (scan_string l1) as [[s l2]|] eqn:E; [|discriminate].
      injection H as <- <-. apply incl_tl. eapply scan_string_incl, E.
    + rewrite E in H. injection H as <- <-. apply incl_appr, incl_refl.
    + discriminate.
    + rewrite E in H. destruct (scan_number l0) as [[d l1]|] eqn:En; [|discriminate].
      injection H as <- <-. eapply scan_number_incl, En.
  - intros l m r H. cbn [parse_members] in H.
    assert (Hgoal : incl r (skip_ws l) /\ In "}"%byte (skip_ws l)).
    { set (l0 := skip_ws l) in *. clearbody l0. clear l.
      apply members_body_inv in H as (l1 & k & l2 & l3 & v & l4 & l5 & -> & E1 & E2 & E3 & E4).
      assert (H3 : incl l3 l1).
      { eapply incl_tran; [|eapply scan_string_incl, E1].
        eapply incl_tran; [|apply (skip_ws_incl l2)]. rewrite E2. apply incl_tl, incl_refl. }
      assert (H4 : incl l4 l1) by (eapply incl_tran; [eapply IHv, E3|exact H3]).
      assert (Hs : incl (skip_ws l4) l1) by (eapply incl_tran; [apply skip_ws_incl|exact H4]).
      destruct E4 as [[E4 [m' Hm]]|[E4 ->]]; rewrite E4 in Hs.
      - apply IHm in Hm as [Hm1 Hm2].
        assert (H5 : incl l5 l1) by (intros x Hx; apply Hs; right; exact Hx).
        split; [apply incl_tl; eapply incl_tran; eauto|]. right. apply H5, Hm2.
      - split; [apply incl_tl; intros x Hx; apply Hs; right; exact Hx|].
        right. apply Hs. left. reflexivity. }
    destruct Hgoal as [H1 H2]. split; [eapply incl_tran; [exact H1|apply skip_ws_incl]|].
    eapply skip_ws_incl, H2.
  - intros l m r H. cbn [parse_elements] in H.
    destruct (parse_value n l) as [[v l1]|] eqn:E; [|discriminate].
    assert (H1 : incl (skip_ws l1) l) by (eapply incl_tran; [apply skip_ws_incl|eapply IHv, E]).
    destruct (skip_ws l1) as [|b l2]; [discriminate|].
    assert (H2 : incl l2 l) by (intros x Hx; apply H1; right; exact Hx).
    destruct (decide (b = ","%byte)) as [-> |Hb].
    + destruct (parse_elements n l2) as [[m' r']|] eqn:E2; [|discriminate]. injection H as <- <-.
      eapply incl_tran; [eapply IHe, E2|exact H2].
    + destruct (decide (b = "]"%byte)) as [-> |Hb']; [|destruct b; try discriminate; congruence].
      injection H as <- <-. exact H2.
Qed.

Lemma parse_open_object l : ~ In "}"%byte l -> parse_json ("{"%byte :: l) = None.
Proof.
  intros Hno. unfold parse_json. destruct (parse_value _ _) as [[j r]|] eqn:E; [|reflexivity]. exfalso.
  cbn [length parse_value skip_ws] in E. rewrite value_body_object in E.
  pose proof (skip_ws_incl l) as Hi. destruct (skip_ws l) as [|b l2]; [discriminate|].
  destruct (bool_decide (b = "}"%byte)) eqn:Eb.
  - apply bool_decide_eq_true in Eb. subst b. apply Hno, Hi. left. reflexivity.
  - destruct (parse_members (S (length l)) (b :: l2)) as [[m r']|] eqn:E2; [|discriminate].
    apply (proj1 (proj2 (parse_incl (S (length l))))) in E2 as [_ E2]. apply Hno, Hi, E2.
Qed.

Lemma parse_empty : parse_json [] = None.
Proof. reflexivity. Qed.

(** any cut-off of a printed object whose members contain no closing brace *)
Definition no_brace (l : bytes) : Prop := ~ In "}"%byte l.

Lemma no_brace_app l k : no_brace l -> no_brace k -> no_brace (l ++ k).
Proof. unfold no_brace. rewrite in_app_iff. tauto. Qed.
Lemma no_brace_cons b l : b <> "}"%byte -> no_brace l -> no_brace (b :: l).
Proof. intros Hb Hl [H|H]; [congruence|exact (Hl H)]. Qed.
Lemma no_brace_quote l : no_brace l -> no_brace (quote l).
Proof.
  intros H. apply no_brace_cons; [discriminate|]. apply no_brace_app; [done|].
  apply no_brace_cons; [discriminate|intros []].
Qed.

Lemma cut_object_indent ms n :
  Forall (fun m => no_brace (fst m) /\ no_brace (snd m)) ms ->
  (n < length (object_indent ms))%nat -> parse_json (take n (object_indent ms)) = None.
Proof.
  intros Hms Hn. unfold object_indent in *. destruct n as [|n]; [apply parse_empty|].
  cbn [app take]. apply parse_open_object.
  assert (Hm : no_brace (members_indent ms)).
  { clear Hn. induction Hms as [|[k v] ms [Hk Hv] Hms IH]; [intros []|].
    cbn [fst snd] in Hk, Hv. 
    assert (H2 : no_brace (lit "  ")) by (intros [H|[H|[]]]; discriminate).
    assert (H3 : no_brace (lit ": ")) by (intros [H|[H|[]]]; discriminate).
    pose proof (no_brace_quote k Hk) as Hq.
    destruct ms as [|[k2 v2] ms]; cbn [members_indent];
      repeat (apply no_brace_app; [assumption|]);
      repeat (apply no_brace_cons; [discriminate|]); [intros []|exact IH]. }
  cbn [app] in Hn. cbn [length] in Hn. rewrite app_length in Hn. cbn [length] in Hn.
  intros Hin.
  change (x0a :: members_indent ms ++ ["}"%byte]) with ((x0a :: members_indent ms) ++ ["}"%byte]) in Hin.
  rewrite take_app_le in Hin by (cbn [length]; lia).
  assert (Hin' : In "}"%byte (x0a :: members_indent ms)).
  { rewrite <- (take_drop n (x0a :: members_indent ms)). apply in_or_app. left. exact Hin. }
  destruct Hin' as [Hx|Hx]; [discriminate|]. exact (Hm Hx).
Qed.
Lemma no_brace_digits d : no_brace (digits_of d).
Proof. induction d; simpl; [intros []|apply no_brace_cons; [discriminate|done]..]. Qed.
Lemma no_brace_int z : no_brace (print_int z).
Proof.
  unfold print_int. destruct (Z.to_int z); [apply no_brace_digits|].
  apply no_brace_cons; [discriminate|apply no_brace_digits].
Qed.
Lemma no_brace_hex l : no_brace (hex_enc l).
Proof.
  induction l as [|b l IH]; [intros []|]. pose proof (bz_range b). unfold hex_enc in *. simpl.
  apply no_brace_cons; [|apply no_brace_cons; [|exact IH]].
  - intros E. pose proof (hex_val_digit (bz b / 16)) as V. rewrite E in V.
    discriminate V. Z.div_mod_to_equations; lia.
  - intros E. pose proof (hex_val_digit (bz b mod 16)) as V. rewrite E in V.
    discriminate V. Z.div_mod_to_equations; lia.
Qed.
Lemma b64_char_brace v : 0 <= v < 64 -> b64_char v <> "}"%byte.
Proof. intros H E. pose proof (b64_val_char v H) as V. rewrite E in V. discriminate. Qed.
Lemma no_brace_b64_n n l : (length l <= n)%nat -> no_brace (b64_enc l).
Proof.
  revert l. induction n as [|n IH]; intros l Hn.
  { destruct l; [intros []|simpl in Hn; lia]. }
  destruct l as [|a [|b [|c l]]]; [intros []|..]; cbn [b64_enc];
    pose proof (bz_range a); try pose proof (bz_range b); try pose proof (bz_range c);
    repeat (apply no_brace_cons; [first [discriminate | apply b64_char_brace; Z.div_mod_to_equations; lia]|]);
    first [apply IH; simpl in Hn; lia | intros []].
Qed.
Lemma no_brace_b64 l : no_brace (b64_enc l).
Proof. eapply no_brace_b64_n; reflexivity. Qed.
