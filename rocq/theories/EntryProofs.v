(** Log entries, events and key files are read as [EntrySpec] says (C95). *)
From Coq Require Import Strings.String.
From Verif Require Import GoBase Wire Canonical SignState Spec Json JsonProofs Utf8 Utf8Proofs Raft RaftSpec RaftProofs Privval KeyFile JsonSpec JsonTextProofs JsonStateProofs EntrySpec.
Local Open Scope Z_scope.

(** ** Strings *)
Lemma rune_char b l k : rune_len (b :: l) = S k -> exists v, scalar v /\ take (S k) (b :: l) = utf8_enc v.
Proof.
  intros H. pose proof (rune_len_spec _ _ H) as (Hl & _ & Hp & _).
  set (p := take (S k) (b :: l)) in *. assert (Hlen : length p = S k) by (subst p; rewrite take_length; lia).
  pose proof (Hp []) as Hr. rewrite app_nil_r in Hr.
  pose proof (san_prefix (b :: l) k [] H) as Hs. fold p in Hs. rewrite app_nil_r in Hs. cbn [san] in Hs. rewrite app_nil_r in Hs.
  pose proof (san_is_text p) as (vs & Hvs & E). rewrite Hs in E.
  destruct vs as [|v vs]; [rewrite E in Hlen; cbn in Hlen; lia|]. inversion Hvs as [|? ? Hv _]; subst. exists v. split; [done|].
  cbn [flat_map] in E. destruct (enc_len v (flat_map utf8_enc vs) Hv) as [El _]. rewrite <- E, Hr in El.
  pose proof (f_equal length E) as E'. rewrite app_length in E'.
  destruct (flat_map utf8_enc vs); [by rewrite app_nil_r in E|cbn [length] in E'; lia].
Qed.
Lemma repaired_san u : repaired u (san 0 u).
Proof.
  remember (length u) as n eqn:En. assert (Hn : (length u <= n)%nat) by lia. clear En.
  revert u Hn. induction n as [|n IH]; intros u Hn; (destruct u as [|b u]; [constructor|]); cbn [length] in Hn; [lia|].
  destruct (rune_len (b :: u)) as [|k] eqn:E.
  - rewrite san_bad by done. apply rp_bad; [|apply IH; lia]. intros v r Hv Ev. rewrite Ev in E. destruct (enc_len v r Hv) as [El Hne].
    rewrite E in El. by destruct (utf8_enc v).
  - rewrite (san_cons _ _ _ E). destruct (rune_char _ _ _ E) as (v & Hv & Ev).
    replace (b :: u) with (take (S k) (b :: u) ++ drop (S k) (b :: u)) at 1 by apply take_drop. rewrite Ev. apply rp_char; [done|].
    apply IH. rewrite drop_length. cbn [length]. lia.
Qed.
Lemma repaired_fun u s : repaired u s -> s = san 0 u.
Proof.
  induction 1 as [|v u s Hv _ IH|b u s Hb _ IH]; [done| |].
  - destruct (enc_len v u Hv) as [El Hne]. destruct (utf8_enc v) as [|b e] eqn:E; [done|]. cbn [app length] in *.
    rewrite (san_cons _ _ _ El). change (b :: e ++ u) with ((b :: e) ++ u). change (S (length e)) with (length (b :: e)).
    rewrite take_app, drop_app. by rewrite IH.
  - destruct (rune_len (b :: u)) as [|k] eqn:E; [by rewrite san_bad, IH|].
    destruct (rune_char _ _ _ E) as (v & Hv & Ev). exfalso. apply (Hb v (drop (S k) (b :: u)) Hv). rewrite <- Ev. symmetry. apply take_drop.
Qed.
Lemma go_string_iff raw s : string_text raw -> go_string raw = Some s <-> text_of raw s.
Proof.
  intros Hr. unfold go_string, text_of. split.
  - destruct (unescape raw) as [u|] eqn:E; [|done]. intros [= <-]. exists u. split; [by apply unescape_iff|apply repaired_san].
  - intros (u & Hu & Hs). apply unescape_iff in Hu; [|done]. rewrite Hu. by rewrite (repaired_fun _ _ Hs).
Qed.

(** ** Names *)
Definition name_byte (b : byte) : Prop := small_letter b \/ b = "_"%byte.
Lemma name_plain c : name_byte c -> c <> xe2 /\ c <> xc5 /\ lower c = c.
Proof.
  intros [H| ->]; [|by split; [|split]]. pose proof (small_not c H) as [? ?]. split; [done|]. split; [done|].
  unfold small_letter in H. unfold lower, between. destruct (Z.leb_spec (bz c) 90); [lia|]. by rewrite andb_false_r.
Qed.
Lemma fold_names f : Forall name_byte f -> fold_name f = f.
Proof.
  induction 1 as [|b f Hb Hf IH]; [done|]. destruct (name_plain b Hb) as (? & ? & E). rewrite fold_plain by done. by rewrite IH, E.
Qed.
Lemma fold_spelled f n : Forall name_byte f -> fold_name n = f <-> spelled f n.
Proof.
  intros Hf. split.
  - remember (length n) as k eqn:Ek. assert (Hk : (length n <= k)%nat) by lia. clear Ek.
    revert n f Hf Hk. induction k as [|k IH]; intros n f Hf Hk E.
    { destruct n; [|cbn in Hk; lia]. subst f. constructor. }
    destruct n as [|b n]; [subst f; constructor|]. cbn [length] in Hk.
    destruct (decide (b = xe2)) as [-> |H1]; [|destruct (decide (b = xc5)) as [-> |H2]].
    + destruct (fold_e2 n) as [(l' & -> & E')|E']; rewrite E' in E.
      * subst f. inversion Hf; subst. apply (sp_kelvin _ l'). apply IH; [done|cbn [length] in Hk; lia|done].
      * subst f. inversion Hf as [|x y Hx Hy]; subst. by apply name_plain in Hx as [? _].
    + destruct (fold_c5 n) as [(l' & -> & E')|E']; rewrite E' in E.
      * subst f. inversion Hf; subst. apply (sp_long_s _ l'). apply IH; [done|cbn [length] in Hk; lia|done].
      * subst f. inversion Hf as [|x y Hx Hy]; subst. by apply name_plain in Hx as (_ & ? & _).
    + rewrite fold_plain in E by done. subst f. inversion Hf as [|x y Hx Hy]; subst. specialize (IH n (fold_name n) Hy ltac:(lia) eq_refl).
      unfold lower in *. destruct (between 65 (bz b) 90) eqn:Eb; [|by constructor].
      unfold between in Eb. apply andb_true_iff in Eb as [E1%Z.leb_le E2%Z.leb_le].
      assert (Ez : bz (zb (bz b + 32)) = bz b + 32) by (rewrite bz_zb; apply Z.mod_small; lia).
      replace b with (zb (bz (zb (bz b + 32)) - 32)) at 2 by (rewrite Ez; replace (bz b + 32 - 32) with (bz b) by lia; apply zb_bz).
      apply sp_upper; [rewrite Ez; lia|done].
  - intros H. induction H as [|c f n Hs IH|c f n Hc Hs IH|f n Hs IH|f n Hs IH]; [done|..]; inversion Hf as [|x y Hx Hy]; subst; rewrite <- (IH Hy).
    + destruct (name_plain c Hx) as (? & ? & E). rewrite fold_plain by done. by rewrite E.
    + assert (Eb : bz (zb (bz c - 32)) = bz c - 32) by (rewrite bz_zb; apply Z.mod_small; lia).
      assert (X1 : bz xe2 = 226) by reflexivity. assert (X2 : bz xc5 = 197) by reflexivity.
      rewrite fold_plain by (intros E; rewrite E in Eb; lia). unfold lower, between. rewrite Eb.
      destruct (Z.leb_spec 65 (bz c - 32)); [|lia]. destruct (Z.leb_spec (bz c - 32) 90); [|lia]. cbn [andb].
      replace (bz c - 32 + 32) with (bz c) by lia. by rewrite zb_bz.
    + reflexivity.
    + reflexivity.
Qed.
Lemma names_goes f g k : Forall name_byte f -> fold_name g = f -> string_text k -> names g k = true <-> goes_to f k.
Proof.
  intros Hf Hg Hk. unfold names, goes_to. split.
  - destruct (go_string k) as [n|] eqn:E; [|done]. intros H%bool_decide_eq_true. exists n. split; [by apply go_string_iff|].
    apply fold_spelled; [done|congruence].
  - intros (n & Hn & Hs). apply go_string_iff in Hn; [|done]. rewrite Hn. apply bool_decide_eq_true. rewrite Hg. by apply fold_spelled.
Qed.
Lemma names_other f g k : fold_name f <> fold_name g -> names f k = true -> names g k = false.
Proof.
  unfold names. destruct (go_string k) as [n|]; [|done]. intros H E%bool_decide_eq_true. apply bool_decide_eq_false. congruence.
Qed.

(** ** Members in order *)
Definition upd {X} (rd : json -> option (option X)) (x : X) (v : json) : option X := default x <$> rd v.
Fixpoint fold_field {X} (f : bytes) (rd : json -> option (option X)) (x : X) (m : list (bytes * json)) : option X :=
  match m with
  | [] => Some x
  | (k, v) :: m' => if names f k then match upd rd x v with Some x' => fold_field f rd x' m' | None => None end
                    else fold_field f rd x m'
  end.
Definition value_ok (v : json) : Prop :=
  match v with
  | JStr raw => string_text raw | JNum l => number l
  | JArr l => Forall (fun w => match w with JStr raw => string_text raw | _ => True end) l
  | _ => True
  end.
Definition members_ok (m : list (bytes * json)) : Prop := Forall (fun p : bytes * json => string_text (fst p) /\ value_ok (snd p)) m.
Definition reader {X} (rd : json -> option (option X)) (reads : json -> option X -> Prop) : Prop :=
  forall v o, value_ok v -> rd v = Some o <-> reads v o.

Lemma told_cons {X} (reads : json -> option X -> Prop) f k v m x y : (forall o o', reads v o -> reads v o' -> o = o') -> goes_to f k ->
  told ((k, v) :: m) f reads x y <-> exists o, reads v o /\ told m f reads (default x o) y.
Proof.
  intros Hfun Hg. split.
  - intros [Hall Hlast]. destruct (Hall k v) as [o Ho]; [left|done|]. exists o. split; [done|]. split; [intros k' v' Hin; apply Hall; by right|].
    destruct Hlast as [(m1 & k' & v' & m2 & E & Hg' & Hr & Hn)|[-> Hn]].
    + destruct m1 as [|p m1].
      * injection E as <- <- <-. right. split; [|exact Hn]. by rewrite (Hfun _ _ Ho Hr).
      * injection E as <- ->. left. by exists m1, k', v', m2.
    + right. split; [|intros k' v' Hin; apply Hn; by right]. rewrite (Hfun _ _ Ho (Hn k v ltac:(left) Hg)). done.
  - intros (o & Ho & Hall & Hlast). split.
    + intros k' v' Hin Hg'. apply elem_of_cons in Hin as [[= -> ->]|Hin]; [by exists o|by apply (Hall k')].
    + destruct Hlast as [(m1 & k' & v' & m2 & -> & Hg' & Hr & Hn)|[-> Hn]].
      * left. by exists ((k, v) :: m1), k', v', m2.
      * destruct o as [z|]; cbn [default from_option id].
        -- left. by exists [], k, v, m.
        -- right. split; [done|]. intros k' v' Hin Hg'. apply elem_of_cons in Hin as [[= -> ->]|Hin]; [done|by apply (Hn k')].
Qed.
Lemma told_skip {X} (reads : json -> option X -> Prop) f k v m x y : ~ goes_to f k ->
  told ((k, v) :: m) f reads x y <-> told m f reads x y.
Proof.
  intros Hg. split.
  - intros [Hall Hlast]. split; [intros k' v' Hin; apply Hall; by right|].
    destruct Hlast as [(m1 & k' & v' & m2 & E & Hg' & Hr & Hn)|[-> Hn]].
    + destruct m1 as [|p m1]; [injection E as <- <- <-; done|]. injection E as <- ->. left. by exists m1, k', v', m2.
    + right. split; [done|]. intros k' v' Hin. apply Hn. by right.
  - intros [Hall Hlast]. split.
    + intros k' v' Hin Hg'. apply elem_of_cons in Hin as [[= -> ->]|Hin]; [done|by apply (Hall k')].
    + destruct Hlast as [(m1 & k' & v' & m2 & -> & Hg' & Hr & Hn)|[-> Hn]].
      * left. by exists ((k, v) :: m1), k', v', m2.
      * right. split; [done|]. intros k' v' Hin Hg'. apply elem_of_cons in Hin as [[= -> ->]|Hin]; [done|by apply (Hn k')].
Qed.
Lemma fold_told {X} f g (rd : json -> option (option X)) reads m x y :
  Forall name_byte f -> fold_name g = f -> reader rd reads ->
  members_ok m -> fold_field g rd x m = Some y <-> told m f reads x y.
Proof.
  intros Hf Hg Hu Hm. revert x. induction Hm as [|[k v] m [Hk Hv] Hm IH]; intros x; cbn [fold_field].
  - split.
    + intros [= <-]. split; [intros k v H; by apply elem_of_nil in H|]. right. split; [done|]. intros k v H. by apply elem_of_nil in H.
    + intros [_ [(m1 & k & v & m2 & E & _)|[-> _]]]; [by destruct m1|done].
  - cbn [fst snd] in *. pose proof (names_goes f g k Hf Hg Hk) as N. destruct (names g k).
    + rewrite told_cons; [|intros o o' H1 H2; apply Hu in H1, H2; [congruence|done..]|by apply N]. unfold upd. split.
      * destruct (rd v) as [o|] eqn:E; [|done]. cbn. intros H. apply IH in H. apply Hu in E; [|done]. by exists o.
      * intros (o & Ho & H). apply Hu in Ho; [|done]. rewrite Ho. cbn. by apply IH.
    + rewrite told_skip; [apply IH|]. intros H. apply N in H. done.
Qed.

(** ** Values *)
Definition rd_string (j : json) : option (option bytes) := match j with JNull => Some None | JStr raw => Some <$> go_string raw | _ => None end.
Definition rd_int (bits : Z) (j : json) : option (option Z) := match j with JNull => Some None | _ => Some <$> int_of_json bits j end.
Definition rd_bytes (j : json) : option (option (option bytes)) := Some <$> bytes_of_json j.
Definition rd_hex (j : json) : option (option (option bytes)) := (fun b => Some (Some b)) <$> hex_of_json j.
Definition rd_slices (j : json) : option (option (list (option bytes))) := Some <$> slices_field j.

Lemma string_field_rd old j : string_field old j = upd rd_string old j.
Proof. destruct j; try done. cbn. by destruct (go_string raw). Qed.
Lemma int_field_rd bits old j : int_field bits old j = upd (rd_int bits) old j.
Proof. destruct j; try done. unfold upd, rd_int, int_field. by destruct (int_of_json _ _). Qed.

Lemma reader_string : reader rd_string reads_string.
Proof.
  intros v o Hv. unfold rd_string, reads_string. destruct v as [| | |raw| |]; try (split; [done|]; intros [[[=] _]|(? & ? & [=] & _)]).
  - split; [intros [= <-]; by left|]. intros [[_ ->]|(? & ? & [=] & _)]. done.
  - split.
    + destruct (go_string raw) as [s|] eqn:E; [|done]. intros [= <-]. right. exists raw, s. split; [done|]. split; [by apply go_string_iff|done].
    + intros [[[=] _]|(raw' & s & [= <-] & Hs & ->)]. apply go_string_iff in Hs; [|done]. by rewrite Hs.
Qed.
Lemma reader_int bits : reader (rd_int bits) (reads_int bits).
Proof.
  intros v o Hv. unfold rd_int, reads_int.
  assert (G : v <> JNull -> (Some <$> int_of_json bits v) = Some o <-> (v = JNull /\ o = None) \/ exists z, int_number bits v z /\ o = Some z).
  { intros Hn. assert (I : forall z, int_of_json bits v = Some z <-> int_number bits v z) by (intros z; apply int_number_iff; [by destruct v|done]). split.
    - destruct (int_of_json bits v) as [z|] eqn:E; [|done]. intros [= <-]. right. exists z. split; [by apply I|done].
    - intros [[? _]|(z & Hz & ->)]; [done|]. apply I in Hz. by rewrite Hz. }
  destruct v; try (by apply G). split; [intros [= <-]; by left|]. intros [[_ ->]|(z & (l & [=] & _) & _)]. done.
Qed.
Lemma reader_bytes : reader rd_bytes reads_bytes.
Proof.
  intros v o Hv. unfold rd_bytes, reads_bytes.
  assert (G : v <> JNull -> (Some <$> bytes_of_json v) = Some o <-> (v = JNull /\ o = Some None) \/ exists b, byte_string v b /\ o = Some b).
  { intros Hn. assert (I : forall z, bytes_of_json v = Some z <-> byte_string v z) by (intros z; apply byte_string_iff; [by destruct v|done]). split.
    - destruct (bytes_of_json v) as [z|] eqn:E; [|done]. intros [= <-]. right. exists z. split; [by apply I|done].
    - intros [[? _]|(z & Hz & ->)]; [done|]. apply I in Hz. by rewrite Hz. }
  destruct v; try (by apply G). split; [intros [= <-]; by left|].
  intros [[_ ->]|(z & [(? & ? & ? & ? & [=] & _)|(? & ? & [=] & _)] & _)]. done.
Qed.
Lemma reader_hex : reader rd_hex reads_hex.
Proof.
  intros v o Hv. unfold rd_hex, reads_hex. destruct v as [| | |raw| |]; try (split; [done|]; intros (? & (? & ? & [=] & _) & _)).
  pose proof (hex_string_iff (JStr raw)) as I. split.
  - destruct (hex_of_json (JStr raw)) as [b|] eqn:E; [|done]. intros [= <-]. exists (Some b). split; [|done]. by apply I.
  - intros (b & Hb & ->). apply I in Hb; [|done]. destruct (hex_of_json (JStr raw)) as [c|]; [|done]. injection Hb as <-. done.
Qed.
Lemma slices_iff l bs : Forall (fun w => match w with JStr raw => string_text raw | _ => True end) l ->
  slices_of_json l = Some bs <-> Forall2 (fun v b => reads_bytes v (Some b)) l bs.
Proof.
  intros Hl. revert bs. induction Hl as [|v l Hv Hl IH]; intros bs; cbn [slices_of_json].
  - split; [intros [= <-]; constructor|]. intros H. by inversion H.
  - assert (I : forall b, bytes_of_json v = Some b <-> reads_bytes v (Some b)).
    { intros b. unfold reads_bytes.
      assert (v = JNull \/ v <> JNull) as [-> |Hn] by (destruct v; auto).
      - split; [intros [= <-]; by left|]. intros [[_ [= ->]]|(? & [(? & ? & ? & ? & [=] & _)|(? & ? & [=] & _)] & _)]. done.
      - pose proof (byte_string_iff v b Hv Hn) as I. split.
        + intros H. right. exists b. split; [by apply I|done].
        + intros [[? _]|(c & Hc & [= <-])]; [done|]. by apply I. }
    split.
    + destruct (bytes_of_json v) as [b|] eqn:E; [|done]. destruct (slices_of_json l) as [bs'|] eqn:E'; [|done]. intros [= <-].
      constructor; [by apply I|by apply IH].
    + intros H. inversion H as [|? b ? bs' H1 H2]; subst. apply I in H1. apply IH in H2. by rewrite H1, H2.
Qed.
Lemma reader_slices : reader rd_slices reads_slices.
Proof.
  intros v o Hv. unfold rd_slices, reads_slices. destruct v as [| | | |l|]; try (split; [done|]; intros [[[=] _]|(? & ? & [=] & _)]).
  - split; [intros [= <-]; by left|]. intros [[_ ->]|(? & ? & [=] & _)]. done.
  - cbn [slices_field]. split.
    + destruct (slices_of_json l) as [bs|] eqn:E; [|done]. intros [= <-]. right. exists l, bs. split; [done|]. split; [by apply slices_iff|done].
    + intros [[[=] _]|(l' & bs & [= <-] & H & ->)]. apply slices_iff in H; [|done]. by rewrite H.
Qed.

(** ** Texts *)
Lemma object_ok m t : json_text (JObj m) t -> members_ok m.
Proof.
  intros (w1 & u & w2 & _ & H & _). inversion H as [| | | | | | |w Hw|m' t' Hm]; subst; [constructor|]. clear H.
  assert (V0 : forall v t, value_text v t -> match v with JStr raw => string_text raw | _ => True end).
  { intros v u Hv. by destruct Hv. }
  assert (VL : forall l t, elements_text l t -> Forall (fun w => match w with JStr raw => string_text raw | _ => True end) l).
  { fix IH 3. intros l0 t0 H0. destruct H0 as [w3 v u w4 H1 H2 H3|w3 v u w4 l u' H1 H2 H3 H4].
    - constructor; [by apply (V0 v u)|constructor].
    - constructor; [by apply (V0 v u)|exact (IH _ _ H4)]. }
  assert (V : forall v t, value_text v t -> value_ok v).
  { intros v u Hv. destruct Hv as [| | | | |w Hw|l u Hl| |]; try done; [constructor|]. exact (VL l u Hl). }
  assert (G : forall m t, members_text m t -> members_ok m).
  { fix IH 3. intros m0 t0 H0. destruct H0 as [w3 k w4 w5 v u w6 H1 H2 H3 H4 H5 H6|w3 k w4 w5 v u w6 m0 u' H1 H2 H3 H4 H5 H6 H7].
    - constructor; [|constructor]. split; [exact H2|]. by apply (V v u).
    - constructor; [|exact (IH _ _ H7)]. split; [exact H2|]. by apply (V v u). }
  exact (G m t' Hm).
Qed.
Lemma struct_iff {A} (step : A -> bytes -> json -> option A) zero t a (P : list (bytes * json) -> Prop) :
  (forall m, members_ok m -> decode_members step zero m = Some a <-> P m) ->
  decode_struct step zero t = Some a <-> exists m, struct_text m t /\ P m.
Proof.
  intros H. unfold decode_struct, struct_text. split.
  - destruct (parse_json t) as [j|] eqn:E; [|done]. apply parse_json_exact in E. destruct j as [| | | | |m]; try done.
    + intros [= <-]. exists []. split; [by right|]. apply H; [constructor|done].
    + intros Hd. exists m. split; [by left|]. apply H; [by apply (object_ok m t)|done].
  - intros (m & [Ht|[-> Ht]] & HP).
    + pose proof (object_ok m t Ht) as Hm. apply parse_json_exact in Ht. rewrite Ht. by apply H.
    + apply parse_json_exact in Ht. rewrite Ht. apply H in HP; [|constructor]. exact HP.
Qed.
Lemma name_bytes s : forallb (fun b => ((97 <=? bz b) && (bz b <=? 122)) || Byte.eqb b "_") (lit s) = true -> Forall name_byte (lit s).
Proof.
  intros H. apply List.Forall_forall. intros b Hb. rewrite forallb_forall in H. apply H in Hb. apply orb_true_iff in Hb as [Hb|Hb].
  - left. unfold small_letter. lia.
  - right. by apply Byte.byte_dec_bl.
Qed.

Ltac no_other f k E := repeat match goal with |- context [if names ?g k then _ else _] =>
  rewrite (names_other f g k ltac:(vm_compute; discriminate) E) end.
Ltac field_case f k IH :=
  let E := fresh "E" in destruct (names f k) eqn:E;
  [no_other f k E; match goal with |- context [match upd ?r ?a ?v with _ => _ end] => destruct (upd r a v) end; [apply IH|by split; [|naive_solver]]|].
Lemma command_fields m c d : decode_members command_member c m = Some d <->
  fold_field (lit "op") rd_string (cm_op c) m = Some (cm_op d) /\ fold_field (lit "key") rd_string (cm_key c) m = Some (cm_key d) /\
  fold_field (lit "value") rd_string (cm_val c) m = Some (cm_val d).
Proof.
  revert c. induction m as [|[k v] m IH]; intros [a1 a2 a3]; cbn [decode_members fold_field cm_op cm_key cm_val].
  - destruct d as [b1 b2 b3]. cbn. split; [by intros [= <- <- <-]|]. by intros ([= ->] & [= ->] & [= ->]).
  - unfold command_member. rewrite !string_field_rd. cbn [cm_op cm_key cm_val].
    field_case (lit "op") k IH. field_case (lit "key") k IH. field_case (lit "value") k IH.
    apply IH.
Qed.
Lemma entry_exact e op key val : decode_command e = Some (Cmd op key val) <-> entry_text e op key val.
Proof.
  unfold decode_command, entry_text. apply struct_iff. intros m Hm. rewrite command_fields. cbn [cm_op cm_key cm_val].
  rewrite (fold_told (lit "op") (lit "op") rd_string reads_string m) by (done || apply reader_string || by apply name_bytes).
  rewrite (fold_told (lit "key") (lit "key") rd_string reads_string m) by (done || apply reader_string || by apply name_bytes).
  rewrite (fold_told (lit "value") (lit "value") rd_string reads_string m) by (done || apply reader_string || by apply name_bytes). done.
Qed.

Lemma event_fields m c d : decode_members lss_member c m = Some d <->
  fold_field (lit "Height") (rd_int 64) (h_height (c_hrs c)) m = Some (h_height (c_hrs d)) /\
  fold_field (lit "Round") (rd_int 64) (h_round (c_hrs c)) m = Some (h_round (c_hrs d)) /\
  fold_field (lit "Step") (rd_int 8) (h_step (c_hrs c)) m = Some (h_step (c_hrs d)) /\
  fold_field (lit "Signature") rd_bytes (c_sig c) m = Some (c_sig d) /\
  fold_field (lit "SignBytes") rd_hex (c_sb c) m = Some (c_sb d).
Proof.
  revert c. induction m as [|[k v] m IH]; intros [[a1 a2 a3] a4 a5]; cbn [decode_members fold_field c_hrs h_height h_round h_step c_sig c_sb].
  - destruct d as [[b1 b2 b3] b4 b5]. cbn. split; [by intros [= <- <- <- <- <-]|]. by intros ([= ->] & [= ->] & [= ->] & [= ->] & [= ->]).
  - unfold lss_member. cbn zeta. rewrite !int_field_rd. cbn [c_hrs h_height h_round h_step c_sig c_sb].
    field_case (lit "Height") k IH. field_case (lit "Round") k IH. field_case (lit "Step") k IH.
    assert (B : bytes_of_json v = upd rd_bytes a4 v) by (unfold upd, rd_bytes; by destruct (bytes_of_json v)). rewrite B.
    field_case (lit "Signature") k IH.
    assert (H : (Some <$> hex_of_json v) = upd rd_hex a5 v) by (unfold upd, rd_hex; by destruct (hex_of_json v)). rewrite <- H.
    destruct (names (lit "SignBytes") k) eqn:E5; [destruct (hex_of_json v); [apply IH|by split; [|naive_solver]]|].
    apply IH.
Qed.
Lemma event_exact t h r s sig sb : decode_lss t = Some (SSC (HRS h r s) sig sb) <-> event_text t h r s sig sb.
Proof.
  unfold decode_lss, event_text. apply struct_iff. intros m Hm. rewrite event_fields. cbn [c_hrs h_height h_round h_step c_sig c_sb].
  rewrite (fold_told (lit "height") (lit "Height") (rd_int 64) (reads_int 64) m) by (done || apply reader_int || by apply name_bytes).
  rewrite (fold_told (lit "round") (lit "Round") (rd_int 64) (reads_int 64) m) by (done || apply reader_int || by apply name_bytes).
  rewrite (fold_told (lit "step") (lit "Step") (rd_int 8) (reads_int 8) m) by (done || apply reader_int || by apply name_bytes).
  rewrite (fold_told (lit "signature") (lit "Signature") rd_bytes reads_bytes m) by (done || apply reader_bytes || by apply name_bytes).
  rewrite (fold_told (lit "signbytes") (lit "SignBytes") rd_hex reads_hex m) by (done || apply reader_hex || by apply name_bytes). done.
Qed.

Lemma key_fields m c d : decode_members key_member c m = Some d <->
  fold_field (lit "rsa_key") rd_bytes (ka_rsa c) m = Some (ka_rsa d) /\
  fold_field (lit "pub_key") rd_bytes (ka_pub c) m = Some (ka_pub d) /\
  fold_field (lit "rsa_pubs") rd_slices (ka_rsas c) m = Some (ka_rsas d) /\
  fold_field (lit "secret_share") rd_bytes (ka_share c) m = Some (ka_share d) /\
  fold_field (lit "id") (rd_int 64) (ka_id c) m = Some (ka_id d).
Proof.
  revert c. induction m as [|[k v] m IH]; intros [a1 a2 a3 a4 a5]; cbn [decode_members fold_field ka_rsa ka_pub ka_rsas ka_share ka_id].
  - destruct d as [b1 b2 b3 b4 b5]. cbn. split; [by intros [= <- <- <- <- <-]|]. by intros ([= ->] & [= ->] & [= ->] & [= ->] & [= ->]).
  - unfold key_member. rewrite !int_field_rd. cbn [ka_rsa ka_pub ka_rsas ka_share ka_id].
    assert (B : forall a, upd rd_bytes a v = bytes_of_json v) by (intros a; unfold upd, rd_bytes; by destruct (bytes_of_json v)). rewrite !B.
    assert (S : forall a, upd rd_slices a v = slices_field v) by (intros a; unfold upd, rd_slices; by destruct (slices_field v)). rewrite !S.
    destruct (names (lit "rsa_key") k) eqn:E1; [no_other (lit "rsa_key") k E1; destruct (bytes_of_json v); [apply IH|by split; [|naive_solver]]|].
    destruct (names (lit "pub_key") k) eqn:E2; [no_other (lit "pub_key") k E2; destruct (bytes_of_json v); [apply IH|by split; [|naive_solver]]|].
    destruct (names (lit "rsa_pubs") k) eqn:E3; [no_other (lit "rsa_pubs") k E3; destruct (slices_field v); [apply IH|by split; [|naive_solver]]|].
    destruct (names (lit "secret_share") k) eqn:E4; [no_other (lit "secret_share") k E4; destruct (bytes_of_json v); [apply IH|by split; [|naive_solver]]|].
    field_case (lit "id") k IH. apply IH.
Qed.
Lemma parse_pks_iff {SK PK} (L : KeyLib SK PK) l ps : parse_pks L l = Some ps <-> Forall2 (fun b p => kl_parse_pk L (slice_of b) = Some p) l ps.
Proof.
  revert ps. induction l as [|b l IH]; intros ps; cbn [parse_pks].
  - split; [intros [= <-]; constructor|]. intros H. by inversion H.
  - split.
    + destruct (kl_parse_pk L (slice_of b)) as [p|] eqn:E; [|done]. destruct (parse_pks L l) as [qs|] eqn:E'; [|done]. intros [= <-].
      constructor; [done|by apply IH].
    + intros H. inversion H as [|? p ? qs H1 H2]; subst. apply IH in H2. by rewrite H1, H2.
Qed.
Lemma key_exact {SK PK} (L : KeyLib SK PK) t k : load_key L (Some t) = Val k <->
  exists rsa pub rsas, key_text t rsa pub rsas (ck_share k) (ck_id k) /\
    kl_parse_sk L (slice_of rsa) = Some (ck_rsa k) /\ parse_pubkey L (slice_of pub) = Some (ck_pub k) /\
    Forall2 (fun b p => kl_parse_pk L (slice_of b) = Some p) rsas (ck_rsas k).
Proof.
  cbn [load_key]. unfold unmarshal_key, key_text.
  assert (F : forall m a, members_ok m -> decode_members key_member (KAux None None [] None 0) m = Some a <->
     told m (lit "rsa_key") reads_bytes None (ka_rsa a) /\ told m (lit "pub_key") reads_bytes None (ka_pub a) /\
     told m (lit "rsa_pubs") reads_slices [] (ka_rsas a) /\ told m (lit "secret_share") reads_bytes None (ka_share a) /\
     told m (lit "id") (reads_int 64) 0 (ka_id a)).
  { intros m a Hm. rewrite key_fields. cbn [ka_rsa ka_pub ka_rsas ka_share ka_id].
    rewrite (fold_told (lit "rsa_key") (lit "rsa_key") rd_bytes reads_bytes m) by (done || apply reader_bytes || by apply name_bytes).
    rewrite (fold_told (lit "pub_key") (lit "pub_key") rd_bytes reads_bytes m) by (done || apply reader_bytes || by apply name_bytes).
    rewrite (fold_told (lit "secret_share") (lit "secret_share") rd_bytes reads_bytes m) by (done || apply reader_bytes || by apply name_bytes).
    rewrite (fold_told (lit "rsa_pubs") (lit "rsa_pubs") rd_slices reads_slices m) by (done || apply reader_slices || by apply name_bytes).
    rewrite (fold_told (lit "id") (lit "id") (rd_int 64) (reads_int 64) m) by (done || apply reader_int || by apply name_bytes). done. }
  split.
  - destruct (parse_json t) as [j|] eqn:E; [|done]. apply parse_json_exact in E. destruct j as [| | | | |m]; try done.
    destruct (decode_members _ _ m) as [a|] eqn:Ed; [|done]. unfold key_of_aux.
    destruct (kl_parse_sk L (slice_of (ka_rsa a))) as [sk|] eqn:E1; [|done].
    destruct (parse_pubkey L (slice_of (ka_pub a))) as [p|] eqn:E2; [|done].
    destruct (parse_pks L (ka_rsas a)) as [ps|] eqn:E3; [|done]. intros [= <-]. cbn [ck_share ck_id ck_rsa ck_pub ck_rsas].
    exists (ka_rsa a), (ka_pub a), (ka_rsas a). split; [|split; [done|]; split; [done|]; by apply parse_pks_iff].
    exists m. split; [done|]. apply F; [by apply (object_ok m t)|done].
  - intros (rsa & pub & rsas & (m & Ht & H) & E1 & E2 & E3). pose proof (object_ok m t Ht) as Hm. apply parse_json_exact in Ht. rewrite Ht.
    rewrite (proj2 (F m (KAux rsa pub rsas (ck_share k) (ck_id k)) Hm) H). unfold key_of_aux. cbn [ka_rsa ka_pub ka_rsas ka_share ka_id].
    apply parse_pks_iff in E3. rewrite E1, E2, E3. by destruct k.
Qed.

(** ** The store *)
Lemma sets_text e k v : sets e k v <-> entry_text e (lit "set") k v.
Proof.
  unfold sets. rewrite <- entry_exact. split.
  - intros ([o k' v'] & E & H1 & H2 & H3). cbn in H1, H2, H3. by subst.
  - intros E. by eexists.
Qed.
Lemma deletes_text e k : deletes e k <-> exists v, entry_text e (lit "delete") k v.
Proof.
  unfold deletes. split.
  - intros ([o k' v'] & E & H1 & H2). cbn in H1, H2. subst. exists v'. by apply entry_exact.
  - intros (v & E). apply entry_exact in E. by eexists.
Qed.
Lemma event_entry_iff e h r s sig sb : event_of e = Some (SSC (HRS h r s) sig sb) <-> event_entry e h r s sig sb.
Proof.
  unfold event_of, event_entry. split.
  - destruct (decode_command e) as [[o k v]|] eqn:E; [|done]. cbn [cm_op cm_key cm_val]. case_bool_decide as Hb; [|done]. destruct Hb as [-> ->].
    intros H. exists v. split; [by apply entry_exact|by apply event_exact].
  - intros (t & E & H). apply entry_exact in E. apply event_exact in H. rewrite E. cbn [cm_op cm_key cm_val].
    by rewrite bool_decide_eq_true_2.
Qed.
Lemma store_text l f k : k <> lss_key ->
  (forall l1 e l2 v, l = l1 ++ e :: l2 -> entry_text e (lit "set") k v ->
     (forall e' v', e' ∈ l2 -> ~ entry_text e' (lit "set") k v' /\ ~ entry_text e' (lit "delete") k v') -> get (apply_all l f) k = v) /\
  (forall l1 e l2 v, l = l1 ++ e :: l2 -> entry_text e (lit "delete") k v ->
     (forall e' v', e' ∈ l2 -> ~ entry_text e' (lit "set") k v' /\ ~ entry_text e' (lit "delete") k v') -> get (apply_all l f) k = []) /\
  ((forall e' v', e' ∈ l -> ~ entry_text e' (lit "set") k v' /\ ~ entry_text e' (lit "delete") k v') -> get (apply_all l f) k = get f k).
Proof.
  intros Hk. destruct (apply_all_get l f k Hk) as (H1 & H2 & H3).
  assert (W : forall l' : list bytes, (forall e' v', e' ∈ l' -> ~ entry_text e' (lit "set") k v' /\ ~ entry_text e' (lit "delete") k v') ->
    forall e', e' ∈ l' -> (forall v', ~ sets e' k v') /\ ~ deletes e' k).
  { intros l' H e' He'. split.
    - intros v' Hs. apply sets_text in Hs. destruct (H e' v' He') as [X Y]; first [exact (X Hs)|exact (Y Hd)].
    - intros Hd. apply deletes_text in Hd as [v' Hd]. destruct (H e' v' He') as [X Y]; first [exact (X Hs)|exact (Y Hd)]. }
  split; [|split].
  - intros l1 e l2 v E He Hn. apply (H1 l1 e l2 v E); [by apply sets_text|by apply W].
  - intros l1 e l2 v E He Hn. apply (H2 l1 e l2 E); [apply deletes_text; by exists v|by apply W].
  - intros Hn. apply H3. by apply W.
Qed.
Lemma other_text f e : (forall k v, ~ entry_text e (lit "set") k v) -> (forall k v, ~ entry_text e (lit "delete") k v) -> apply_entry f e = f.
Proof.
  intros H1 H2. apply apply_entry_inert.
  - intros k v Hs. apply sets_text in Hs. by apply (H1 k v).
  - intros k Hd. apply deletes_text in Hd as [v Hd]. by apply (H2 k v).
Qed.
Lemma watermark_text l f : forall g, g = f_val \/ g = f_cos ->
  hrs_le (ss_hrs (g f)) (ss_hrs (g (apply_all l f))) /\
  (forall e h r s sig sb, e ∈ l -> event_entry e h r s sig sb -> hrs_le (HRS h r s) (ss_hrs (g (apply_all l f)))) /\
  (ss_hrs (g (apply_all l f)) = ss_hrs (g f) \/
   exists e h r s sig sb, e ∈ l /\ event_entry e h r s sig sb /\ ss_hrs (g (apply_all l f)) = HRS h r s).
Proof.
  intros g Hg. assert (E : ss_hrs (g (apply_all l f)) = hrs_max (ss_hrs (g f)) (map c_hrs (lss_events l))).
  { destruct (apply_all_watermark l f). by destruct Hg as [-> | ->]. }
  rewrite E. split; [apply hrs_max_ge; left|]. split.
  - intros e h r s sig sb He Hv. apply event_entry_iff in Hv. apply hrs_max_ge. right. apply elem_of_list_fmap.
    exists (SSC (HRS h r s) sig sb). split; [done|]. apply elem_of_list_omap. by exists e.
  - pose proof (hrs_max_in (ss_hrs (g f)) (map c_hrs (lss_events l))) as Hi. apply elem_of_cons in Hi as [Hi|Hi]; [by left|]. right.
    apply elem_of_list_fmap in Hi as ([[h r s] sig sb] & Ec & Hin). apply elem_of_list_omap in Hin as (e & He & Hv).
    exists e, h, r, s, sig, sb. split; [done|]. split; [by apply event_entry_iff|done].
Qed.

(** ** Snapshots *)
Lemma object_prefix m u n w rest : value_text (JObj m) u -> blank w -> (length u < n)%nat -> parse_value n (w ++ u ++ rest) = Some (JObj m, rest).
Proof.
  intros H Hw Hn. destruct n as [|n]; [lia|]. inversion H as [| | | | | | |w0 Hw0|m' t Hm]; subst.
  - cbn [parse_value]. rewrite skip_ws_app by done. cbn [app].
    rewrite <- app_assoc. cbn [app]. rewrite (skip_other "{"%byte) by (unfold is_blank; by intros [|[|[|]]]).
    rewrite value_body_object, skip_ws_app, skip_other by (done || (apply nb; auto)). by rewrite bool_decide_eq_true_2.
  - cbn [length] in Hn. rewrite app_length in Hn. cbn [length] in Hn.
    cbn [parse_value]. rewrite skip_ws_app by done. cbn [app].
    rewrite <- app_assoc. cbn [app]. rewrite (skip_other "{"%byte) by (unfold is_blank; by intros [|[|[|]]]).
    rewrite value_body_object. pose proof (proj2 (proj2 parse_complete) m t Hm n rest ltac:(lia)) as IH. rewrite <- members_skip in IH.
    assert (Hh : exists r, skip_ws (t ++ "}"%byte :: rest) = x22 :: r).
    { destruct Hm as [w1 k w2 w3 v t0 w4 H1 H2 H3 H4 H5 H6|w1 k w2 w3 v t0 w4 m t' H1 H2 H3 H4 H5 H6 H7];
        rewrite <- app_assoc; cbn [app]; rewrite skip_ws_app, skip_other by (done || (apply nb; auto)); eauto. }
    destruct Hh as (r & Eh). rewrite Eh in IH |- *. rewrite bool_decide_eq_false_2 by done. by rewrite IH.
Qed.
Lemma element_iff j v : value_ok j -> string_field [] j = Some v <-> element_says j v.
Proof.
  intros Hj. unfold element_says. destruct j as [| | |raw| |]; cbn [string_field]; try (split; [done|]; intros [[[=] _]|(? & [=] & _)]).
  - split; [intros [= <-]; by left|]. intros [[_ ->]|(? & [=] & _)]. done.
  - rewrite go_string_iff by done. split; [intros H; right; by exists raw|]. intros [[[=] _]|(raw' & [= <-] & H)]. done.
Qed.
Lemma text_of_fun raw s s' : string_text raw -> text_of raw s -> text_of raw s' -> s = s'.
Proof. intros Hr H1 H2. apply go_string_iff in H1, H2; [congruence|done..]. Qed.
Lemma restore_members_iff l m0 m : members_ok l -> restore_members m0 l = Some m <->
  (forall raw j, (raw, j) ∈ l -> exists v, element_says j v) /\
  (forall k v, m !! k = Some v <->
     (exists m1 raw j m2, l = m1 ++ (raw, j) :: m2 /\ text_of raw k /\ element_says j v /\ forall raw' j', (raw', j') ∈ m2 -> ~ text_of raw' k) \/
     (m0 !! k = Some v /\ forall raw' j', (raw', j') ∈ l -> ~ text_of raw' k)).
Proof.
  intros Hl. revert m0. induction Hl as [|[raw j] l [Hr Hj] Hl IH]; intros m0; cbn [restore_members].
  - split.
    + intros [= <-]. split; [intros raw j H; by apply elem_of_nil in H|]. intros k v. split.
      * intros H. right. split; [done|]. intros raw j Hin. by apply elem_of_nil in Hin.
      * intros [(m1 & ? & ? & ? & E & _)|[H _]]; [by destruct m1|done].
    + intros [_ H]. f_equal. apply map_eq. intros k. apply option_eq. intros v. rewrite H. split.
      * intros Hk. right. split; [done|]. intros raw j Hin. by apply elem_of_nil in Hin.
      * intros [(m1 & ? & ? & ? & E & _)|[H' _]]; [by destruct m1|done].
  - cbn [fst snd] in *. destruct (go_string raw) as [k0|] eqn:Ek.
    2:{ exfalso. unfold go_string in Ek. destruct (unescape_total raw Hr) as [u Hu]. by rewrite Hu in Ek. }
    assert (Tk : text_of raw k0) by (by apply go_string_iff).
    assert (Tu : forall k, text_of raw k -> k = k0) by (intros k Hk; by apply (text_of_fun raw)).
    destruct (string_field [] j) as [v0|] eqn:Ev.
    2:{ split; [done|]. intros [H _]. destruct (H raw j) as [v Hv]; [left|]. apply element_iff in Hv; [congruence|done]. }
    assert (Te : element_says j v0) by (by apply element_iff).
    assert (Tv : forall v, element_says j v -> v = v0) by (intros v Hv; apply element_iff in Hv; [congruence|done]).
    rewrite IH. split.
    + intros [H1 H2]. split.
      * intros raw' j' Hin. apply elem_of_cons in Hin as [[= -> ->]|Hin]; [by exists v0|by apply (H1 raw')].
      * intros k v. rewrite H2. clear H2. split.
        -- intros [(m1 & raw' & j' & m2 & -> & T1 & T2 & T3)|[Hm Hn]].
           ++ left. exists ((raw, j) :: m1), raw', j', m2. done.
           ++ destruct (decide (k = k0)) as [-> |Hne].
              ** rewrite lookup_insert in Hm. injection Hm as <-. left. exists [], raw, j, l. done.
              ** rewrite lookup_insert_ne in Hm by done. right. split; [done|]. intros raw' j' Hin.
                 apply elem_of_cons in Hin as [[= -> ->]|Hin]; [|by apply (Hn raw' j')]. intros Ht. by apply Hne, Tu.
        -- intros [(m1 & raw' & j' & m2 & E & T1 & T2 & T3)|[Hm Hn]].
           ++ destruct m1 as [|p m1].
              ** injection E as <- <- <-. right. split; [|done]. rewrite (Tu k T1), (Tv v T2). apply lookup_insert.
              ** injection E as <- ->. left. by exists m1, raw', j', m2.
           ++ right. assert (Hne : k <> k0) by (intros ->; apply (Hn raw j); [left|done]). rewrite lookup_insert_ne by done.
              split; [done|]. intros raw' j' Hin. apply (Hn raw' j'). by right.
    + intros [H1 H2]. split; [intros raw' j' Hin; apply (H1 raw'); by right|]. intros k v. rewrite H2. clear H2. split.
      * intros [(m1 & raw' & j' & m2 & E & T1 & T2 & T3)|[Hm Hn]].
        -- destruct m1 as [|p m1].
           ++ injection E as <- <- <-. right. split; [|done]. rewrite (Tu k T1), (Tv v T2). apply lookup_insert.
           ++ injection E as <- ->. left. by exists m1, raw', j', m2.
        -- right. assert (Hne : k <> k0) by (intros ->; apply (Hn raw j); [left|done]). rewrite lookup_insert_ne by done.
           split; [done|]. intros raw' j' Hin. apply (Hn raw' j'). by right.
      * intros [(m1 & raw' & j' & m2 & -> & T1 & T2 & T3)|[Hm Hn]].
        -- left. exists ((raw, j) :: m1), raw', j', m2. done.
        -- destruct (decide (k = k0)) as [-> |Hne].
           ++ rewrite lookup_insert in Hm. injection Hm as <-. left. exists [], raw, j, l. done.
           ++ rewrite lookup_insert_ne in Hm by done. right. split; [done|]. intros raw' j' Hin.
              apply elem_of_cons in Hin as [[= -> ->]|Hin]; [|by apply (Hn raw' j')]. intros Ht. by apply Hne, Tu.
Qed.
Lemma restore_exact f t g : restore f t = Some g <->
  f_val g = f_val f /\ f_cos g = f_cos f /\ snapshot_text t (fun k v => f_map g !! k = Some v).
Proof.
  unfold restore, snapshot_text.
  assert (R : forall l m, members_ok l -> restore_members ∅ l = Some m <->
    (forall raw j, (raw, j) ∈ l -> exists v, element_says j v) /\
    (forall k v, m !! k = Some v <-> exists m1 raw j m2, l = m1 ++ (raw, j) :: m2 /\ text_of raw k /\ element_says j v /\
       forall raw' j', (raw', j') ∈ m2 -> ~ text_of raw' k)).
  { intros l m Hl. rewrite restore_members_iff by done. split; intros [H1 H2]; (split; [exact H1|]); intros k v; rewrite H2.
    - split; [intros [H|[H _]]; [done|by rewrite lookup_empty in H]|by left].
    - split; [by left|]. intros [H|[H _]]; [done|by rewrite lookup_empty in H]. }
  split.
  - destruct (parse_value _ t) as [[j rest]|] eqn:E; [|done]. destruct j as [| | | | |m]; try done.
    destruct (proj1 (parse_sound _) _ _ _ E) as (w & u & Hw & Hu & Et).
    assert (Hm : members_ok m) by (apply (object_ok m u); exists [], u, []; split; [constructor|]; split; [done|]; split; [constructor|]; by rewrite app_nil_r).
    destruct (restore_members ∅ m) as [m'|] eqn:Er; [|done]. intros [= <-]. cbn [f_val f_cos f_map]. split; [done|]. split; [done|].
    apply R in Er; [|done]. exists w, m, u, rest. split; [done|]. split; [done|]. split; [done|exact Er].
  - intros (E1 & E2 & w & m & u & rest & Hw & Hu & -> & HR).
    assert (Hm : members_ok m) by (apply (object_ok m u); exists [], u, []; split; [constructor|]; split; [done|]; split; [constructor|]; by rewrite app_nil_r).
    rewrite (object_prefix m u) by (done || (rewrite !app_length; lia)).
    rewrite (proj2 (R m (f_map g) Hm) HR). rewrite <- E1, <- E2. by destruct g.
Qed.
