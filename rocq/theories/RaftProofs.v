(** The replicated store. *)
From Coq Require Import Strings.String.
From stdpp Require Import sorting.
From Verif Require Import GoBase Canonical SignState Spec SignStateProofs Json JsonProofs DiskProofs
  Utf8 Utf8Proofs Raft RaftSpec.
Local Open Scope Z_scope.

(** ** Commands *)

Lemma names_lit f k : safe k -> san 0 k = k -> names f k = bool_decide (fold_name k = fold_name f).
Proof. intros Hs Hk. unfold names. rewrite go_string_safe by done. by rewrite Hk. Qed.

(** the members of an encoded command *)
Definition opt_member (name v : bytes) : list (bytes * bytes) :=
  match v with [] => [] | _ => [(name, json_string v)] end.
Definition opt_json (name v : bytes) : list (bytes * json) :=
  match v with [] => [] | _ => [(name, JStr (esc 0 v))] end.
Lemma opt_member_ok name v : safe name -> Forall2 member_ok (opt_member name v) (opt_json name v).
Proof.
  intros H. destruct v as [|b v]; [constructor|]. constructor; [|constructor].
  split; [done|]. split; [by apply scannable_safe|apply renders_string].
Qed.
Lemma command_text_eq c : command_text c =
  object_compact (opt_member (lit "op") (cm_op c) ++ opt_member (lit "key") (cm_key c) ++ opt_member (lit "value") (cm_val c)).
Proof. unfold command_text. destruct (cm_op c), (cm_key c), (cm_val c); reflexivity. Qed.

Lemma parse_empty_object : parse_json (object_compact []) = Some (JObj []).
Proof. reflexivity. Qed.

Lemma decode_command_text c :
  decode_command (command_text c) = Some (Cmd (san 0 (cm_op c)) (san 0 (cm_key c)) (san 0 (cm_val c))).
Proof.
  unfold decode_command, decode_struct. rewrite command_text_eq.
  assert (Hp : parse_json (object_compact (opt_member (lit "op") (cm_op c) ++ opt_member (lit "key") (cm_key c) ++ opt_member (lit "value") (cm_val c)))
             = Some (JObj (opt_json (lit "op") (cm_op c) ++ opt_json (lit "key") (cm_key c) ++ opt_json (lit "value") (cm_val c)))).
  { destruct (decide (opt_member (lit "op") (cm_op c) ++ opt_member (lit "key") (cm_key c) ++ opt_member (lit "value") (cm_val c) = [])) as [E|E].
    - rewrite E. destruct (cm_op c), (cm_key c), (cm_val c); try discriminate. reflexivity.
    - apply parse_object_compact; [done|].
      repeat apply Forall2_app; apply opt_member_ok; apply safe_lit; reflexivity. }
  rewrite Hp. clear Hp.
  assert (S1 : forall o v op' key' val', decode_members command_member (Cmd op' key' val') (opt_json (lit "op") v ++ o)
      = decode_members command_member (Cmd (match v with [] => op' | _ => san 0 v end) key' val') o).
  { intros o v op' key' val'. destruct v as [|b v]; [done|]. cbn [opt_json app decode_members].
    unfold command_member at 1. 
    assert (E : names (lit "op") (lit "op") = true) by reflexivity. rewrite E.
    cbn [string_field]. rewrite go_string_esc. done. }
  assert (S2 : forall o v op' key' val', decode_members command_member (Cmd op' key' val') (opt_json (lit "key") v ++ o)
      = decode_members command_member (Cmd op' (match v with [] => key' | _ => san 0 v end) val') o).
  { intros o v op' key' val'. destruct v as [|b v]; [done|]. cbn [opt_json app decode_members].
    unfold command_member at 1. 
    assert (E : names (lit "op") (lit "key") = false) by reflexivity. rewrite E.
    assert (E' : names (lit "key") (lit "key") = true) by reflexivity. rewrite E'.
    cbn [string_field]. rewrite go_string_esc. done. }
  assert (S3 : forall v op' key' val', decode_members command_member (Cmd op' key' val') (opt_json (lit "value") v)
      = Some (Cmd op' key' (match v with [] => val' | _ => san 0 v end))).
  { intros v op' key' val'. destruct v as [|b v]; [done|]. cbn [opt_json app decode_members].
    unfold command_member at 1. 
    assert (E : names (lit "op") (lit "value") = false) by reflexivity. rewrite E.
    assert (E' : names (lit "key") (lit "value") = false) by reflexivity. rewrite E'.
    assert (E2 : names (lit "value") (lit "value") = true) by reflexivity. rewrite E2.
    cbn [string_field]. rewrite go_string_esc. done. }
  rewrite S1, S2, S3. destruct (cm_op c), (cm_key c), (cm_val c); reflexivity.
Qed.

(** ** Names *)
Lemma eqb_false (b c : byte) : b <> c -> Byte.eqb b c = false.
Proof. intros H. destruct (Byte.eqb b c) eqn:E; [|done]. by apply Byte.byte_dec_bl in E. Qed.
Lemma fold_plain b l : b <> xe2 -> b <> xc5 -> fold_name (b :: l) = lower b :: fold_name l.
Proof.
  intros H1%eqb_false H2%eqb_false. destruct l as [|c l]; [done|]. cbn [fold_name]. rewrite H2. cbn [andb].
  destruct l as [|d l]; [done|]. by rewrite H1.
Qed.
Lemma fold_e2 l : (exists l', l = x84 :: xaa :: l' /\ fold_name (xe2 :: l) = "k"%byte :: fold_name l') \/ fold_name (xe2 :: l) = xe2 :: fold_name l.
Proof.
  destruct l as [|b l]; [by right|]. destruct l as [|c l]; [by right|]. cbn [fold_name].
  assert (E : Byte.eqb xe2 xc5 = false) by reflexivity. rewrite E. cbn [andb].
  assert (E2 : Byte.eqb xe2 xe2 = true) by reflexivity. rewrite E2. cbn [andb].
  destruct (decide (b = x84)) as [-> |Hn]; [|rewrite (eqb_false b x84) by done; by right].
  destruct (decide (c = xaa)) as [-> |Hn]; [left; by exists l|]. rewrite (eqb_false c xaa) by done. by right.
Qed.
Lemma fold_c5 l : (exists l', l = xbf :: l' /\ fold_name (xc5 :: l) = "s"%byte :: fold_name l') \/ fold_name (xc5 :: l) = xc5 :: fold_name l.
Proof.
  destruct l as [|b l]; [by right|]. cbn [fold_name].
  assert (E2 : Byte.eqb xc5 xc5 = true) by reflexivity. rewrite E2. cbn [andb].
  destruct (decide (b = xbf)) as [-> |Hn]; [left; by exists l|]. rewrite (eqb_false b xbf) by done. right.
  assert (E : Byte.eqb xc5 xe2 = false) by reflexivity. rewrite E. cbn [andb]. by destruct l.
Qed.
Lemma small_not b : small_letter b -> b <> xe2 /\ b <> xc5.
Proof.
  assert (X1 : bz xe2 = 226) by reflexivity. assert (X2 : bz xc5 = 197) by reflexivity.
  unfold small_letter. split; intros ->; lia.
Qed.
Lemma fold_small f : Forall small_letter f -> fold_name f = f.
Proof.
  induction 1 as [|b f Hb Hf IH]; [done|]. pose proof (small_not b Hb) as [? ?]. unfold small_letter in Hb.
  rewrite fold_plain by done. rewrite IH. unfold lower, between.
  destruct (Z.leb_spec (bz b) 90); [lia|]. by rewrite andb_false_r.
Qed.
Lemma fold_spelt f n : Forall small_letter f -> fold_name n = f <-> spelt f n.
Proof.
  intros Hf. split.
  - remember (length n) as k eqn:Ek. assert (Hk : (length n <= k)%nat) by lia. clear Ek.
    revert n f Hf Hk. induction k as [|k IH]; intros n f Hf Hk E.
    { destruct n; [|cbn in Hk; lia]. subst f. constructor. }
    destruct n as [|b n]; [subst f; constructor|].
    assert (Hgo : forall p c n' f', b :: n = p ++ n' -> (length n' <= k)%nat -> p ∈ spellings c -> f = c :: f' -> fold_name n' = f' -> spelt f (b :: n)).
    { intros p c n' f' -> Hl Hp -> E'. apply spelt_cons; [done|]. inversion Hf; subst. by apply IH. }
    cbn [length] in Hk.
    destruct (decide (b = xe2)) as [-> |H1]; [|destruct (decide (b = xc5)) as [-> |H2]].
    + destruct (fold_e2 n) as [(l' & -> & E')|E']; rewrite E' in E.
      * apply (Hgo [xe2; x84; xaa] "k"%byte l' (fold_name l')); [done|cbn [length] in Hk; lia| |done|done].
        do 2 right. left.
      * subst f. inversion Hf as [|x y Hx Hy]; subst. by apply small_not in Hx as [? ?].
    + destruct (fold_c5 n) as [(l' & -> & E')|E']; rewrite E' in E.
      * apply (Hgo [xc5; xbf] "s"%byte l' (fold_name l')); [done|cbn [length] in Hk; lia| |done|done].
        do 2 right. left.
      * subst f. inversion Hf as [|x y Hx Hy]; subst. by apply small_not in Hx as [? ?].
    + rewrite fold_plain in E by done. unfold lower in E. destruct (between 65 (bz b) 90) eqn:Eb.
      * apply (Hgo [b] (zb (bz b + 32)) n (fold_name n)); [done|lia| |done|done].
        pose proof (bz_range b). unfold between in Eb. apply andb_true_iff in Eb as [E1%Z.leb_le E2%Z.leb_le].
        apply elem_of_list_further. cbn [app]. apply elem_of_cons. left. rewrite bz_zb, Z.mod_small by lia.
        replace (bz b + 32 - 32) with (bz b) by lia. by rewrite zb_bz.
      * apply (Hgo [b] b n (fold_name n)); [done|lia|left|done|done].
  - induction 1 as [|c p f t Hp Hs IH]; [done|]. inversion Hf as [|x y Hc Hf']; subst. rewrite <- (IH Hf') in *. clear IH Hf' Hf.
    pose proof (small_not c Hc) as [? ?]. unfold small_letter in Hc. unfold spellings in Hp. rewrite !elem_of_app in Hp. destruct Hp as [Hp|[Hp|Hp]].
    + rewrite !elem_of_cons, elem_of_nil in Hp. destruct Hp as [-> |[-> |[]]]; cbn [app].
      * rewrite fold_plain by done. unfold lower, between.
        destruct (Z.leb_spec (bz c) 90); [lia|]. by rewrite andb_false_r.
      * pose proof (bz_range c). assert (Eb : bz (zb (bz c - 32)) = bz c - 32) by (rewrite bz_zb; apply Z.mod_small; lia).
        assert (X1 : bz xe2 = 226) by reflexivity. assert (X2 : bz xc5 = 197) by reflexivity.
        rewrite fold_plain by (intros E; rewrite E in Eb; lia). unfold lower, between. rewrite Eb.
        destruct (Z.leb_spec 65 (bz c - 32)); [|lia]. destruct (Z.leb_spec (bz c - 32) 90); [|lia]. cbn [andb].
        replace (bz c - 32 + 32) with (bz c) by lia. by rewrite zb_bz.
    + case_bool_decide; [subst c|by apply elem_of_nil in Hp]. apply elem_of_list_singleton in Hp as ->. reflexivity.
    + case_bool_decide; [subst c|by apply elem_of_nil in Hp]. apply elem_of_list_singleton in Hp as ->. reflexivity.
Qed.
Lemma names_esc f n : Forall small_letter f -> utf8_text n -> names f (esc 0 n) = true <-> spelt f n.
Proof.
  intros Hf Hn. unfold names. rewrite go_string_esc, san_text by done. rewrite bool_decide_eq_true, (fold_small f) by done.
  by apply fold_spelt.
Qed.
Lemma small_lit s : forallb (fun b => (97 <=? bz b) && (bz b <=? 122)) (lit s) = true -> Forall small_letter (lit s).
Proof.
  intros H. apply List.Forall_forall. intros b Hb. rewrite forallb_forall in H. apply H in Hb. unfold small_letter. lia.
Qed.
Lemma one_member n v : utf8_text n -> utf8_text v ->
  (spelt (lit "op") n -> decode_command (object_compact [(esc 0 n, json_string v)]) = Some (Cmd v [] [])) /\
  (spelt (lit "key") n -> decode_command (object_compact [(esc 0 n, json_string v)]) = Some (Cmd [] v [])) /\
  (spelt (lit "value") n -> decode_command (object_compact [(esc 0 n, json_string v)]) = Some (Cmd [] [] v)) /\
  (~ spelt (lit "op") n -> ~ spelt (lit "key") n -> ~ spelt (lit "value") n ->
   decode_command (object_compact [(esc 0 n, json_string v)]) = Some (Cmd [] [] [])).
Proof.
  intros Hn Hv. unfold decode_command, decode_struct.
  assert (Hp : parse_json (object_compact [(esc 0 n, json_string v)]) = Some (JObj [(esc 0 n, JStr (esc 0 v))])).
  { apply parse_object_compact; [done|]. constructor; [|constructor]. split; [done|]. split; [|apply renders_string].
    intros rest. apply scan_esc. }
  rewrite Hp. clear Hp. cbn [decode_members]. unfold command_member. cbn [cm_op cm_key cm_val string_field].
  rewrite go_string_esc, (san_text v) by done.
  assert (S1 : Forall small_letter (lit "op")) by (by apply small_lit).
  assert (S2 : Forall small_letter (lit "key")) by (by apply small_lit).
  assert (S3 : Forall small_letter (lit "value")) by (by apply small_lit).
  pose proof (names_esc _ n S1 Hn) as N1. pose proof (names_esc _ n S2 Hn) as N2. pose proof (names_esc _ n S3 Hn) as N3.
  assert (D : forall f g, Forall small_letter f -> Forall small_letter g -> spelt f n -> spelt g n -> f = g).
  { intros f g Hf Hg H1 H2. apply fold_spelt in H1; [|done]. apply fold_spelt in H2; [|done]. congruence. }
  split; [|split; [|split]].
  - intros H. by rewrite (proj2 N1 H).
  - intros H. destruct (names (lit "op") (esc 0 n)) eqn:E; [pose proof (proj1 N1 eq_refl) as X; exfalso; by pose proof (D _ _ S1 S2 X H)|].
    by rewrite (proj2 N2 H).
  - intros H. destruct (names (lit "op") (esc 0 n)) eqn:E; [pose proof (proj1 N1 eq_refl) as X; exfalso; by pose proof (D _ _ S1 S3 X H)|].
    destruct (names (lit "key") (esc 0 n)) eqn:E2; [pose proof (proj1 N2 eq_refl) as X; exfalso; by pose proof (D _ _ S2 S3 X H)|].
    by rewrite (proj2 N3 H).
  - intros H1 H2 H3. destruct (names (lit "op") (esc 0 n)); [exfalso; by apply H1, N1|].
    destruct (names (lit "key") (esc 0 n)); [exfalso; by apply H2, N2|].
    destruct (names (lit "value") (esc 0 n)); [exfalso; by apply H3, N3|]. done.
Qed.

(** ** The map, entry by entry *)

Lemma apply_entry_get f e k : k <> lss_key ->
  (forall v, sets e k v -> get (apply_entry f e) k = v) /\
  (deletes e k -> get (apply_entry f e) k = []) /\
  ((forall v, ~ sets e k v) -> ~ deletes e k -> f_map (apply_entry f e) !! k = f_map f !! k).
Proof.
  intros Hk. unfold apply_entry, sets, deletes. destruct (decode_command e) as [c|] eqn:E.
  2:{ split; [intros v (c & ? & _); discriminate|]. split; [intros (c & ? & _); discriminate|]. done. }
  assert (Hne : lit "set" <> lit "delete") by discriminate.
  split; [|split].
  - intros v (c' & [= <-] & Ho & Hkey & Hv). rewrite bool_decide_true by done.
    unfold apply_set. rewrite Hkey, Hv. rewrite bool_decide_false by done. unfold get. cbn.
    by rewrite lookup_insert.
  - intros (c' & [= <-] & Ho & Hkey). rewrite bool_decide_false by congruence. rewrite bool_decide_true by done.
    unfold get, apply_delete. cbn. by rewrite Hkey, lookup_delete.
  - intros Hs Hd. case_bool_decide as E1.
    + unfold apply_set. case_bool_decide as E2.
      * unfold handle_lss. destruct (decode_lss _); done.
      * cbn. apply lookup_insert_ne. intros Heq. apply (Hs (cm_val c)). exists c. done.
    + case_bool_decide as E2; [|done]. cbn. apply lookup_delete_ne. intros Heq. apply Hd. exists c. done.
Qed.
Lemma apply_entry_inert f e :
  (forall k v, ~ sets e k v) -> (forall k, ~ deletes e k) -> apply_entry f e = f.
Proof.
  intros Hs Hd. unfold apply_entry. destruct (decode_command e) as [c|] eqn:E; [|done].
  case_bool_decide as E1; [exfalso; apply (Hs (cm_key c) (cm_val c)); exists c; done|].
  case_bool_decide as E2; [exfalso; apply (Hd (cm_key c)); exists c; done|]. done.
Qed.
Lemma apply_entry_lss f e : f_map f !! lss_key = None -> f_map (apply_entry f e) !! lss_key = None.
Proof.
  intros H. unfold apply_entry. destruct (decode_command e) as [c|]; [|done].
  case_bool_decide.
  - unfold apply_set. case_bool_decide as E2; [unfold handle_lss; destruct (decode_lss _); done|].
    cbn. rewrite lookup_insert_ne by done. done.
  - case_bool_decide; [|done]. cbn. apply lookup_delete_None. auto.
Qed.
Lemma apply_all_cons e l f : apply_all (e :: l) f = apply_all l (apply_entry f e).
Proof. reflexivity. Qed.
Lemma apply_all_lss l f : f_map f !! lss_key = None -> f_map (apply_all l f) !! lss_key = None.
Proof. revert f. induction l as [|e l IH]; intros f H; [done|]. rewrite ?apply_all_cons. apply IH, apply_entry_lss, H. Qed.
Lemma apply_all_app l1 l2 f : apply_all (l1 ++ l2) f = apply_all l2 (apply_all l1 f).
Proof. apply fold_left_app. Qed.

(** C40, for every log: the last entry about [k] decides *)
Lemma apply_all_get l f k : k <> lss_key ->
  (forall l1 e l2 v, l = l1 ++ e :: l2 -> sets e k v ->
     (forall e', e' ∈ l2 -> (forall v', ~ sets e' k v') /\ ~ deletes e' k) -> get (apply_all l f) k = v) /\
  (forall l1 e l2, l = l1 ++ e :: l2 -> deletes e k ->
     (forall e', e' ∈ l2 -> (forall v', ~ sets e' k v') /\ ~ deletes e' k) -> get (apply_all l f) k = []) /\
  ((forall e', e' ∈ l -> (forall v', ~ sets e' k v') /\ ~ deletes e' k) -> get (apply_all l f) k = get f k).
Proof.
  intros Hk.
  assert (Hid : forall l f, (forall e', e' ∈ l -> (forall v', ~ sets e' k v') /\ ~ deletes e' k) ->
    get (apply_all l f) k = get f k).
  { clear -Hk. induction l as [|e l IH]; intros f H; [done|]. rewrite apply_all_cons, IH.
    - unfold get. destruct (H e) as [H1 H2]; [left|].
      destruct (apply_entry_get f e k Hk) as (_ & _ & H3). rewrite H3; done.
    - intros e' He'. apply H. by right. }
  split; [|split; [|apply Hid]].
  - intros l1 e l2 v -> Hs Hl. rewrite apply_all_app, apply_all_cons. rewrite Hid by done.
    by apply (apply_entry_get _ e k Hk).
  - intros l1 e l2 -> Hs Hl. rewrite apply_all_app, apply_all_cons. rewrite Hid by done.
    by apply (apply_entry_get _ e k Hk).
Qed.

(** the calls *)
Lemma set_entry_decode k v : decode_command (set_entry k v) = Some (Cmd (lit "set") (san 0 k) (san 0 v)).
Proof. unfold set_entry. rewrite decode_command_text. reflexivity. Qed.
Lemma delete_entry_decode k : decode_command (delete_entry k) = Some (Cmd (lit "delete") (san 0 k) []).
Proof. unfold delete_entry. rewrite decode_command_text. reflexivity. Qed.
Lemma apply_call_get f c k : k <> lss_key -> utf8_text (call_key c) ->
  match c with CSet _ v => utf8_text v | CDelete _ => True end ->
  get (apply_entry f (entry_of c)) k = value_after [c] k (get f k).
Proof.
  intros Hk Hkey Hv. unfold apply_entry. destruct c as [k' v|k']; cbn [entry_of value_after call_key] in *.
  - rewrite set_entry_decode, (san_text k'), (san_text v) by done. cbn [cm_op cm_key cm_val].
    rewrite bool_decide_true by done. unfold apply_set. case_bool_decide as E.
    + rewrite bool_decide_false by congruence. unfold handle_lss. destruct (decode_lss _); done.
    + unfold get. cbn. case_bool_decide as E2; [subst; by rewrite lookup_insert|by rewrite lookup_insert_ne].
  - rewrite delete_entry_decode, (san_text k') by done. cbn [cm_op cm_key cm_val].
    rewrite bool_decide_false by discriminate. rewrite bool_decide_true by done.
    unfold get. cbn. case_bool_decide as E2; [subst; by rewrite lookup_delete|by rewrite lookup_delete_ne].
Qed.
Lemma apply_calls_get l f k : k <> lss_key ->
  Forall (fun c => utf8_text (call_key c) /\ match c with CSet _ v => utf8_text v | CDelete _ => True end) l ->
  get (apply_all (map entry_of l) f) k = value_after l k (get f k).
Proof.
  intros Hk H. revert f. induction H as [|c l [Hc1 Hc2] Hl IH]; intros f; [done|].
  cbn [map]. rewrite apply_all_cons, IH, apply_call_get by done.
  destruct c; reflexivity.
Qed.

(** ** Replicas *)

Lemma apply_entry_map f g e : f_map f = f_map g -> f_map (apply_entry f e) = f_map (apply_entry g e).
Proof.
  intros H. unfold apply_entry. destruct (decode_command e) as [c|]; [|done].
  case_bool_decide.
  - unfold apply_set. case_bool_decide as E; [|cbn; by rewrite H].
    unfold handle_lss. destruct (decode_lss _); done.
  - case_bool_decide; [|done]. cbn. by rewrite H.
Qed.
Lemma apply_all_map l f g : f_map f = f_map g -> f_map (apply_all l f) = f_map (apply_all l g).
Proof.
  revert f g. induction l as [|e l IH]; intros f g H; [done|]. rewrite ?apply_all_cons. apply IH, apply_entry_map, H.
Qed.

(** ** Events *)

Lemma apply_entry_saves f e :
  f_val (apply_entry f e) = run_saves (f_val f) (lss_events [e]) /\
  f_cos (apply_entry f e) = run_saves (f_cos f) (lss_events [e]).
Proof.
  unfold apply_entry, lss_events, event_of. cbn [omap list_omap]. destruct (decode_command e) as [c|]; [|done].
  case_bool_decide as E1.
  - unfold apply_set. case_bool_decide as E2.
    + rewrite bool_decide_true by done. unfold handle_lss. destruct (decode_lss _) as [s|]; [|done].
      cbn. destruct (save (f_val f) s), (save (f_cos f) s); done.
    + rewrite bool_decide_false; [done|]. intros [_ ?]; done.
  - rewrite (bool_decide_false (cm_op c = lit "set" /\ _)) by (intros [? _]; done).
    case_bool_decide; done.
Qed.
Lemma lss_events_cons e l : lss_events (e :: l) = lss_events [e] ++ lss_events l.
Proof. unfold lss_events. cbn [omap list_omap]. destruct (event_of e); done. Qed.
Lemma apply_all_saves l f :
  f_val (apply_all l f) = run_saves (f_val f) (lss_events l) /\
  f_cos (apply_all l f) = run_saves (f_cos f) (lss_events l).
Proof.
  revert f. induction l as [|e l IH]; intros f; [done|]. rewrite lss_events_cons, !run_saves_app, apply_all_cons.
  destruct (apply_entry_saves f e) as [<- <-]. apply IH.
Qed.
Lemma hrs_max_ge w l k : k ∈ w :: l -> hrs_le k (hrs_max w l).
Proof.
  revert w k. induction l as [|x l IH]; intros w k H.
  - apply elem_of_list_singleton in H as ->. apply hrs_le_refl.
  - simpl. destruct (decide (hrs_lt w x)) as [Hlt|Hlt].
    + apply elem_of_cons in H as [->|H]; [|by apply IH].
      eapply hrs_le_trans; [left; exact Hlt|]. apply IH. left.
    + apply elem_of_cons in H as [->|H]; [apply IH; left|].
      apply elem_of_cons in H as [->|H]; [|apply IH; by right].
      apply hrs_not_lt in Hlt. eapply hrs_le_trans; [exact Hlt|]. apply IH. left.
Qed.
Lemma hrs_max_in w l : hrs_max w l ∈ w :: l.
Proof.
  revert w. induction l as [|x l IH]; intros w; [left|]. simpl.
  destruct (decide (hrs_lt w x)); [right; apply IH|].
  specialize (IH w). apply elem_of_cons in IH as [->|IH]; [left|right; by right].
Qed.
(** any permutation, with duplicates *)
Lemma hrs_max_same w l l' : (forall k, k ∈ l <-> k ∈ l') -> hrs_max w l = hrs_max w l'.
Proof.
  intros H. apply hrs_le_antisym; apply hrs_max_ge.
  - pose proof (hrs_max_in w l) as Hi. apply elem_of_cons in Hi as [->|Hi]; [left|right; by apply H].
  - pose proof (hrs_max_in w l') as Hi. apply elem_of_cons in Hi as [->|Hi]; [left|right; by apply H].
Qed.

Lemma save_below s c : hrs_le (c_hrs c) (ss_hrs s) -> (save s c).1 = s.
Proof.
  intros H. destruct (save s c).2 as [e|] eqn:E; [by eapply save_rejected|].
  apply save_ok_iff in E. exfalso. eapply hrs_lt_irrefl, hrs_lt_le_trans; eauto.
Qed.
(** replaying an entry whose event is not above the sign states changes nothing *)
Lemma event_map f e c : event_of e = Some c -> f_map (apply_entry f e) = f_map f.
Proof.
  unfold event_of, apply_entry. destruct (decode_command e) as [cm|]; [|done].
  case_bool_decide as E; [|done]. destruct E as [E1 E2]. intros _.
  rewrite bool_decide_true by done. unfold apply_set. rewrite !bool_decide_true by done.
  unfold handle_lss. destruct (decode_lss _); done.
Qed.
Lemma fsm_eq f g : f_map f = f_map g -> f_val f = f_val g -> f_cos f = f_cos g -> f = g.
Proof. destruct f, g; simpl; congruence. Qed.
Lemma replay_event l f e c : event_of e = Some c -> e ∈ l -> apply_entry (apply_all l f) e = apply_all l f.
Proof.
  intros He Hin. apply fsm_eq; [by eapply event_map| |].
  - destruct (apply_entry_saves (apply_all l f) e) as [-> _]. unfold lss_events. cbn [omap list_omap]. rewrite He.
    cbn. apply save_below. destruct (apply_all_saves l f) as [-> _]. rewrite run_saves_max.
    apply hrs_max_ge. right. apply elem_of_list_fmap. exists c. split; [done|].
    apply elem_of_list_omap. eauto.
  - destruct (apply_entry_saves (apply_all l f) e) as [_ ->]. unfold lss_events. cbn [omap list_omap]. rewrite He.
    cbn. apply save_below. destruct (apply_all_saves l f) as [_ ->]. rewrite run_saves_max.
    apply hrs_max_ge. right. apply elem_of_list_fmap. exists c. split; [done|].
    apply elem_of_list_omap. eauto.
Qed.
(** replaying a whole log of events *)
Lemma replay_all l f l' : (forall e, e ∈ l' -> e ∈ l /\ event_of e <> None) -> apply_all l' (apply_all l f) = apply_all l f.
Proof.
  induction l' as [|e l' IH]; intros H; [done|]. rewrite apply_all_cons. destruct (H e) as [Hin He]; [left|].
  destruct (event_of e) as [c|] eqn:Ee; [|done]. rewrite (replay_event l f e c Ee Hin). apply IH.
  intros e' He'. apply H. by right.
Qed.

(** ** The emitted event *)

Lemma int_field_print bits z old : 0 < bits -> - 2 ^ (bits - 1) <= z < 2 ^ (bits - 1) ->
  int_field bits old (JNum (print_int z)) = Some z.
Proof. intros Hb H. unfold int_field. by apply int_of_print. Qed.
Lemma decode_lss_text c : hrs_in_range (c_hrs c) -> decode_lss (lss_text c) = Some (as_sent c).
Proof.
  intros (Hh & Hr & Hs). unfold decode_lss, decode_struct, lss_text.
  rewrite (parse_object_compact _
    [(lit "Height", JNum (print_int (h_height (c_hrs c)))); (lit "Round", JNum (print_int (h_round (c_hrs c))));
     (lit "Step", JNum (print_int (h_step (c_hrs c)))); (lit "Signature", b64_json (c_sig c));
     (lit "SignBytes", JStr (hex_enc (slice_of (c_sb c))))]); [|done|].
  2:{ assert (Hb : forall o, renders (b64_text o) (b64_json o)).
      { intros [b|]; [apply renders_quote, b64_safe|apply renders_null]. }
      repeat (apply Forall2_cons; [split; [done|split; [apply scannable_safe, safe_lit; reflexivity|]]|]);
        [apply renders_int..|apply Hb|apply renders_hex|constructor]. }
  cbn [decode_members].
  unfold lss_member at 1. change (names (lit "Height") (lit "Height")) with true. cbn [c_hrs h_height h_round h_step c_sig c_sb].
  rewrite int_field_print; [|lia|unfold in_int64 in Hh; exact Hh].
  unfold lss_member at 1. change (names (lit "Height") (lit "Round")) with false.
  change (names (lit "Round") (lit "Round")) with true. cbn [c_hrs h_height h_round h_step c_sig c_sb].
  rewrite int_field_print; [|lia|unfold in_int64 in Hr; exact Hr].
  unfold lss_member at 1. change (names (lit "Height") (lit "Step")) with false.
  change (names (lit "Round") (lit "Step")) with false. change (names (lit "Step") (lit "Step")) with true.
  cbn [c_hrs h_height h_round h_step c_sig c_sb]. rewrite int_field_print; [|lia|simpl; lia].
  unfold lss_member at 1. change (names (lit "Height") (lit "Signature")) with false.
  change (names (lit "Round") (lit "Signature")) with false. change (names (lit "Step") (lit "Signature")) with false.
  change (names (lit "Signature") (lit "Signature")) with true. cbn [c_hrs h_height h_round h_step c_sig c_sb].
  rewrite bytes_of_b64.
  unfold lss_member at 1. change (names (lit "Height") (lit "SignBytes")) with false.
  change (names (lit "Round") (lit "SignBytes")) with false. change (names (lit "Step") (lit "SignBytes")) with false.
  change (names (lit "Signature") (lit "SignBytes")) with false.
  change (names (lit "SignBytes") (lit "SignBytes")) with true. cbn [c_hrs h_height h_round h_step c_sig c_sb].
  unfold hex_of_json. rewrite hex_roundtrip. unfold as_sent. destruct (c_hrs c); reflexivity.
Qed.

(** ** Events with any members *)
Definition item_json (i : lss_item) : bytes * json :=
  match i with
  | IHeight z => (lit "Height", JNum (print_int z))
  | IRound z => (lit "Round", JNum (print_int z))
  | IStep z => (lit "Step", JNum (print_int z))
  | ISig o => (lit "Signature", b64_json o)
  | IBytes b => (lit "SignBytes", JStr (hex_enc b))
  end.
Lemma last_or_cons {A} (a x : A) l : last_or a (x :: l) = last_or x l.
Proof. unfold last_or. destruct l as [|y l]; [done|]. change (list.last (x :: y :: l)) with (list.last (y :: l)). rewrite list.last_cons. by destruct (list.last l). Qed.
Lemma decode_items l h r s sg sb : Forall item_ok l ->
  decode_members lss_member (SSC (HRS h r s) sg sb) (map item_json l) =
  Some (SSC (HRS (last_or h (heights l)) (last_or r (rounds l)) (last_or s (steps l))) (last_or sg (sigs_in l)) (last_or sb (bytes_in l))).
Proof.
  revert h r s sg sb. induction l as [|i l IH]; intros h r s sg sb Hok; [done|].
  apply list.Forall_cons in Hok as [Hi Hl].
  destruct i as [z|z|z|o|b]; cbn [map decode_members item_json fst snd]; unfold lss_member at 1; cbn [item_ok] in Hi.
  - change (names (lit "Height") (lit "Height")) with true. cbn [c_hrs h_height h_round h_step c_sig c_sb].
    rewrite int_field_print; [|lia|unfold in_int64 in Hi; exact Hi]. rewrite IH by done.
    unfold heights at 2. cbn [omap list_omap]. rewrite last_or_cons. reflexivity.
  - change (names (lit "Height") (lit "Round")) with false.
    change (names (lit "Round") (lit "Round")) with true. cbn [c_hrs h_height h_round h_step c_sig c_sb].
    rewrite int_field_print; [|lia|unfold in_int64 in Hi; exact Hi]. rewrite IH by done.
    unfold rounds at 2. cbn [omap list_omap]. rewrite last_or_cons. reflexivity.
  - change (names (lit "Height") (lit "Step")) with false.
    change (names (lit "Round") (lit "Step")) with false. change (names (lit "Step") (lit "Step")) with true.
    cbn [c_hrs h_height h_round h_step c_sig c_sb]. rewrite int_field_print; [|lia|exact Hi]. rewrite IH by done.
    unfold steps at 2. cbn [omap list_omap]. rewrite last_or_cons. reflexivity.
  - change (names (lit "Height") (lit "Signature")) with false.
    change (names (lit "Round") (lit "Signature")) with false. change (names (lit "Step") (lit "Signature")) with false.
    change (names (lit "Signature") (lit "Signature")) with true. cbn [c_hrs h_height h_round h_step c_sig c_sb].
    rewrite bytes_of_b64. rewrite IH by done. unfold sigs_in at 2. cbn [omap list_omap]. rewrite last_or_cons. reflexivity.
  - change (names (lit "Height") (lit "SignBytes")) with false.
    change (names (lit "Round") (lit "SignBytes")) with false. change (names (lit "Step") (lit "SignBytes")) with false.
    change (names (lit "Signature") (lit "SignBytes")) with false.
    change (names (lit "SignBytes") (lit "SignBytes")) with true. cbn [c_hrs h_height h_round h_step c_sig c_sb].
    unfold hex_of_json. rewrite hex_roundtrip. rewrite IH by done. unfold bytes_in at 2. cbn [omap list_omap]. rewrite last_or_cons. reflexivity.
Qed.
Lemma decode_event l : Forall item_ok l -> decode_lss (object_compact (map item_text l)) = Some (event_meant l).
Proof.
  intros Hok. destruct l as [|i l]; [vm_compute; reflexivity|].
  unfold decode_lss, decode_struct. rewrite (parse_object_compact _ (map item_json (i :: l))); [|done|].
  - apply (decode_items (i :: l)), Hok.
  - clear Hok. induction (i :: l) as [|j l' IH]; [constructor|]. cbn [map]. apply Forall2_cons; [|exact IH]. clear IH.
    assert (Hb : forall o, renders (b64_text o) (b64_json o)).
    { intros [b|]; [apply renders_quote, b64_safe|apply renders_null]. }
    destruct j; (split; [done|split; [apply scannable_safe, safe_lit; reflexivity|]]);
      [apply renders_int..|apply Hb|apply renders_hex].
Qed.

(** the text of an event is ASCII *)
Definition ascii (l : bytes) : Prop := Forall (fun b => bz b < 128) l.
Lemma ascii_text l : ascii l -> utf8_text l.
Proof.
  induction 1 as [|b l Hb Hl (vs & Hvs & ->)]; [by exists []|]. exists (bz b :: vs). split.
  - constructor; [|done]. pose proof (bz_range b). unfold scalar. lia.
  - cbn [flat_map]. assert (E : utf8_enc (bz b) = [b]); [|by rewrite E].
    unfold utf8_enc. destruct (Z.ltb_spec (bz b) 128); [|lia]. by rewrite zb_bz.
Qed.
Lemma ascii_lit s : forallb (fun b => bz b <? 128) (lit s) = true -> ascii (lit s).
Proof. intros H. apply List.Forall_forall. rewrite forallb_forall in H. intros b Hb. apply Z.ltb_lt. auto. Qed.
Lemma ascii_app a b : ascii a -> ascii b -> ascii (a ++ b).
Proof. apply Forall_app_2. Qed.
Lemma digits_ascii d : ascii (digits_of d).
Proof. induction d; constructor; try done; vm_compute; done. Qed.
Lemma print_int_ascii z : ascii (print_int z).
Proof. unfold print_int. destruct (Z.to_int z); [apply digits_ascii|]. constructor; [done|apply digits_ascii]. Qed.
Lemma hex_ascii l : ascii (hex_enc l).
Proof.
  unfold hex_enc. induction l as [|b l IH]; [constructor|]. cbn [flat_map]. apply ascii_app; [|exact IH].
  pose proof (bz_range b). repeat constructor.
  - unfold hex_digit. destruct (_ <? _) eqn:E; rewrite bz_zb.
    + assert (0 <= bz b / 16 < 16) by (split; [apply Z.div_pos|apply Z.div_lt_upper_bound]; lia).
      rewrite Z.mod_small; lia.
    + assert (0 <= bz b / 16 < 16) by (split; [apply Z.div_pos|apply Z.div_lt_upper_bound]; lia).
      rewrite Z.mod_small; lia.
  - unfold hex_digit. pose proof (Z.mod_pos_bound (bz b) 16). destruct (_ <? _) eqn:E; rewrite bz_zb;
      rewrite Z.mod_small; lia.
Qed.
Lemma b64_char_ascii v : 0 <= v < 64 -> bz (b64_char v) < 128.
Proof.
  intros H. unfold b64_char.
  destruct (Z.ltb_spec v 26); [rewrite bz_zb, Z.mod_small; lia|].
  destruct (Z.ltb_spec v 52); [rewrite bz_zb, Z.mod_small; lia|].
  destruct (Z.ltb_spec v 62); [rewrite bz_zb, Z.mod_small; lia|].
  destruct (Z.eqb_spec v 62); vm_compute; done.
Qed.
Lemma b64_ascii_n n l : (length l <= n)%nat -> ascii (b64_enc l).
Proof.
  revert l. induction n as [|n IH]; intros l H; [destruct l; [constructor|simpl in H; lia]|].
  assert (Hd : forall v, 0 <= v < 16777216 -> 0 <= v / 262144 < 64).
  { intros v Hv. split; [apply Z.div_pos|apply Z.div_lt_upper_bound]; lia. }
  assert (Hm : forall v, 0 <= v mod 64 < 64) by (intros v; apply Z.mod_pos_bound; lia).
  destruct l as [|a [|b [|c l]]]; [constructor|..].
  - pose proof (bz_range a). cbn [b64_enc]. repeat constructor; try (apply b64_char_ascii; first [apply Hm|apply Hd; lia]).
  - pose proof (bz_range a). pose proof (bz_range b). cbn [b64_enc].
    repeat constructor; try (apply b64_char_ascii; first [apply Hm|apply Hd; lia]).
  - pose proof (bz_range a). pose proof (bz_range b). pose proof (bz_range c). cbn [b64_enc].
    do 4 (apply List.Forall_cons; [apply b64_char_ascii; first [apply Hm|apply Hd; lia]|]).
    apply IH. simpl in H. lia.
Qed.
Lemma lss_text_ascii c : ascii (lss_text c).
Proof.
  assert (Hq : forall l, ascii l -> ascii (quote l)).
  { intros l H. unfold quote. constructor; [done|]. apply ascii_app; [done|]. repeat constructor. }
  assert (Hb : ascii (b64_text (c_sig c))).
  { destruct (c_sig c) as [b|]; [apply Hq; eapply b64_ascii_n; done|apply ascii_lit; reflexivity]. }
  unfold lss_text, object_compact. cbn [members_compact].
  repeat first [apply print_int_ascii | apply Hb | apply Hq, hex_ascii | apply Hq, ascii_lit; reflexivity
               | apply ascii_app | apply List.Forall_cons; [done|] | apply List.Forall_nil ].
Qed.
Lemma emit_event c : hrs_in_range (c_hrs c) -> event_of (emit_entry c) = Some (as_sent c).
Proof.
  intros H. unfold event_of, emit_entry. rewrite set_entry_decode. cbn [cm_op cm_key cm_val].
  rewrite (san_text (lss_text c)) by apply ascii_text, lss_text_ascii.
  rewrite bool_decide_true by (split; reflexivity). by apply decode_lss_text.
Qed.
Lemma event_applied f e c : event_of e = Some c ->
  apply_entry f e = Fsm (f_map f) (fst (save (f_val f) c)) (fst (save (f_cos f) c)).
Proof.
  intros He. destruct (apply_entry_saves f e) as [H1 H2].
  unfold lss_events in H1, H2. cbn [omap list_omap] in H1, H2. rewrite He in H1, H2. cbn in H1, H2.
  apply fsm_eq; cbn [f_map f_val f_cos]; [by eapply event_map|done|done].
Qed.
Lemma emit_applied f c : hrs_in_range (c_hrs c) ->
  apply_entry f (emit_entry c) =
    Fsm (f_map f) (fst (save (f_val f) (as_sent c))) (fst (save (f_cos f) (as_sent c))).
Proof. intros H. apply event_applied, emit_event, H. Qed.

(** ** Snapshots *)

Lemma restore_members_spec (l : list (bytes * bytes)) m :
  Forall (fun kv => utf8_text (fst kv) /\ utf8_text (snd kv)) l ->
  restore_members m (map (fun kv => (esc 0 (fst kv), JStr (esc 0 (snd kv)))) l)
  = Some (foldl (fun m kv => <[fst kv := snd kv]> m) m l).
Proof.
  intros H. revert m. induction H as [|[k v] l [Hk Hv] Hl IH]; intros m; [done|].
  cbn [map restore_members fst snd string_field] in *. rewrite !go_string_esc, (san_text k), (san_text v) by done.
  apply IH.
Qed.
Lemma foldl_insert_perm (l : list (bytes * bytes)) (m0 : gmap bytes bytes) : NoDup (map fst l) ->
  foldl (fun m kv => <[fst kv := snd kv]> m) m0 l = list_to_map l ∪ m0.
Proof.
  revert m0. induction l as [|[k v] l IH]; intros m0 Hnd; simpl; [by rewrite left_id_L by apply _|].
  inversion Hnd as [|? ? Hk Hnd']; subst. rewrite IH by done.
  rewrite <- insert_union_l, <- insert_union_r; [done|]. by apply not_elem_of_list_to_map_1.
Qed.
Definition texts (m : gmap bytes bytes) : Prop := map_Forall (fun k v => utf8_text k /\ utf8_text v) m.
Lemma restore_snapshot f g : texts (f_map f) ->
  restore g (snapshot f) = Some (Fsm (f_map f) (f_val g) (f_cos g)).
Proof.
  intros Ht. unfold snapshot. set (s := merge_sort entry_le (map_to_list (f_map f))).
  assert (Hp : s ≡ₚ map_to_list (f_map f)) by apply merge_sort_Permutation.
  assert (Hf : Forall (fun kv => utf8_text (fst kv) /\ utf8_text (snd kv)) s).
  { apply Forall_forall. intros [k v] Hin. apply elem_of_list_In in Hin. rewrite Hp in Hin. apply elem_of_map_to_list in Hin. by apply Ht in Hin. }
  assert (Hm : restore_members ∅ (map (fun kv => (esc 0 (fst kv), JStr (esc 0 (snd kv)))) s) = Some (f_map f)).
  { rewrite restore_members_spec by done. f_equal.
    assert (Hnd : NoDup (map fst s)).
    { rewrite (fmap_Permutation fst _ _ Hp). apply NoDup_fst_map_to_list. }
    rewrite foldl_insert_perm by done. rewrite right_id_L by apply _.
    rewrite (list_to_map_proper s (map_to_list (f_map f))) by done. apply list_to_map_to_list. }
  unfold restore.
  assert (Hparse : exists r, parse_value (S (length (object_compact (map (fun kv => (esc 0 (fst kv), json_string (snd kv))) s))))
     (object_compact (map (fun kv => (esc 0 (fst kv), json_string (snd kv))) s))
     = Some (JObj (map (fun kv => (esc 0 (fst kv), JStr (esc 0 (snd kv)))) s), r)).
  { destruct (decide (s = [])) as [->|Hne]; [by exists []|].
    pose proof (parse_object_compact (map (fun kv => (esc 0 (fst kv), json_string (snd kv))) s)
      (map (fun kv => (esc 0 (fst kv), JStr (esc 0 (snd kv)))) s)) as Hpo.
    unfold parse_json in Hpo. destruct (parse_value _ _) as [[j r]|].
    - destruct (skip_ws r); [|discriminate Hpo].
      + injection Hpo as ->; [by exists r|by destruct s|].
        clear. induction s as [|[k v] s IH]; [constructor|]. cbn. constructor; [|exact IH].
        split; [done|]. split; [apply scan_esc|apply renders_string].
      + by destruct s.
      + clear. induction s as [|[k v] s IH]; [constructor|]. cbn. constructor; [|exact IH].
        split; [done|]. split; [apply scan_esc|apply renders_string].
    - exfalso. discriminate Hpo; [by destruct s|].
      clear. induction s as [|[k v] s IH]; [constructor|]. cbn. constructor; [|exact IH].
      split; [done|]. split; [apply scan_esc|apply renders_string]. }
  destruct Hparse as [r ->]. by rewrite Hm.
Qed.

(** all maps made by logs hold texts *)
Lemma decode_members_text m c c' : decode_members command_member c m = Some c' ->
  utf8_text (cm_key c) -> utf8_text (cm_val c) -> utf8_text (cm_key c') /\ utf8_text (cm_val c').
Proof.
  revert c. induction m as [|[k j] m IH]; intros c H Hk Hv; [injection H as <-; done|].
  cbn [decode_members] in H. destruct (command_member c k j) as [c1|] eqn:E; [|discriminate].
  assert (Hc : utf8_text (cm_key c1) /\ utf8_text (cm_val c1)).
  { assert (Hsf : forall o s, string_field o j = Some s -> utf8_text o -> utf8_text s).
    { intros o s Hs Ho. destruct j; try discriminate; [by injection Hs as <-|by eapply go_string_text]. }
    unfold command_member in E.
    destruct (names (lit "op") k); [destruct (string_field _ j); [|discriminate]; injection E as <-; done|].
    destruct (names (lit "key") k);
      [destruct (string_field _ j) eqn:Es; [|discriminate]; injection E as <-; cbn; eauto|].
    destruct (names (lit "value") k);
      [destruct (string_field _ j) eqn:Es; [|discriminate]; injection E as <-; cbn; eauto|].
    injection E as <-. done. }
  destruct Hc. eapply IH; eauto.
Qed.
Lemma decode_command_texts e c : decode_command e = Some c -> utf8_text (cm_key c) /\ utf8_text (cm_val c).
Proof.
  assert (H0 : utf8_text []) by (exists []; done).
  unfold decode_command, decode_struct. destruct (parse_json e) as [[| | | | |m]|]; try discriminate.
  - intros [= <-]. done.
  - intros H. eapply decode_members_text; eauto.
Qed.
Lemma apply_entry_texts f e : texts (f_map f) -> texts (f_map (apply_entry f e)).
Proof.
  intros H. unfold apply_entry. destruct (decode_command e) as [c|] eqn:E; [|done].
  apply decode_command_texts in E as [Hk Hv]. case_bool_decide.
  - unfold apply_set. case_bool_decide; [unfold handle_lss; destruct (decode_lss _); done|].
    cbn. by apply map_Forall_insert_2.
  - case_bool_decide; [|done]. cbn. by apply map_Forall_delete.
Qed.
Lemma apply_all_texts l f : texts (f_map f) -> texts (f_map (apply_all l f)).
Proof. revert f. induction l as [|e l IH]; intros f H; [done|]. rewrite ?apply_all_cons. apply IH, apply_entry_texts, H. Qed.

(** C42 *)
Lemma restore_catch_up l1 l2 f g : texts (f_map f) ->
  exists g', restore g (snapshot (apply_all l1 f)) = Some g' /\ f_val g' = f_val g /\ f_cos g' = f_cos g /\
    f_map (apply_all l2 g') = f_map (apply_all (l1 ++ l2) f) /\
    f_val (apply_all l2 g') = run_saves (f_val g) (lss_events l2) /\
    f_cos (apply_all l2 g') = run_saves (f_cos g) (lss_events l2).
Proof.
  intros Ht. eexists. split; [apply restore_snapshot, apply_all_texts, Ht|]. split; [done|]. split; [done|].
  split; [rewrite apply_all_app; by apply apply_all_map|].
  apply (apply_all_saves l2 (Fsm (f_map (apply_all l1 f)) (f_val g) (f_cos g))).
Qed.

(** ** Join *)

Definition related (id addr : bytes) (s : server) : Prop := fst s = id \/ snd s = addr.

Lemma config_id c s s' : config_ok c -> s ∈ c -> s' ∈ c -> fst s = fst s' -> s = s'.
Proof.
  intros [H _] Hs Hs' E. revert H Hs Hs'. induction c as [|x c IH]; [intros _ H; inversion H|].
  cbn [map]. intros Hnd Hs Hs'. apply list.NoDup_cons in Hnd as [Hx Hnd].
  apply elem_of_cons in Hs as [->|Hs], Hs' as [->|Hs']; [done| | |by apply IH].
  - destruct Hx. rewrite E. by apply elem_of_list_fmap_1.
  - destruct Hx. rewrite <- E. by apply elem_of_list_fmap_1.
Qed.
Lemma config_addr c s s' : config_ok c -> s ∈ c -> s' ∈ c -> snd s = snd s' -> s = s'.
Proof.
  intros [_ H] Hs Hs' E. revert H Hs Hs'. induction c as [|x c IH]; [intros _ H; inversion H|].
  cbn [map]. intros Hnd Hs Hs'. apply list.NoDup_cons in Hnd as [Hx Hnd].
  apply elem_of_cons in Hs as [->|Hs], Hs' as [->|Hs']; [done| | |by apply IH].
  - destruct Hx. rewrite E. by apply elem_of_list_fmap_1.
  - destruct Hx. rewrite <- E. by apply elem_of_list_fmap_1.
Qed.
Lemma remove_in id c s : s ∈ remove_server id c <-> s ∈ c /\ fst s <> id.
Proof. unfold remove_server. rewrite elem_of_list_filter. tauto. Qed.
Lemma nodup_remove {A} (g : server -> A) id c : NoDup (map g c) -> NoDup (map g (remove_server id c)).
Proof.
  unfold remove_server. induction c as [|s c IH]; [done|]. cbn [map]. intros H.
  apply list.NoDup_cons in H as [Hx H]. rewrite filter_cons. case_decide; [|by apply IH].
  cbn [map]. apply list.NoDup_cons. split; [|by apply IH]. intros Hin.
  apply Hx. apply elem_of_list_fmap in Hin as (s' & -> & Hin). apply elem_of_list_filter in Hin as [_ Hin].
  by apply elem_of_list_fmap_1.
Qed.
Lemma remove_server_ok id c : config_ok c -> config_ok (remove_server id c).
Proof. intros [H1 H2]. split; by apply nodup_remove. Qed.
Lemma change_cases ok new old c b : change ok new old = (c, b) -> (c = new /\ b = true) \/ (c = old /\ b = false).
Proof. unfold change. destruct (ok && _); intros [= <- <-]; auto. Qed.

Lemma join_loop_spec id addr cfg l cur oks c' oks' r : config_ok cfg -> config_ok cur ->
  (forall s, s ∈ l -> s ∈ cfg) -> (forall s, s ∈ cur -> s ∈ cfg) ->
  join_loop id addr l cur oks = (c', oks', r) ->
  config_ok c' /\ (forall s, s ∈ c' -> s ∈ cur) /\
  (forall s, ~ related id addr s -> s ∈ c' <-> s ∈ cur) /\
  (r = None -> forall s, s ∈ l -> related id addr s -> s ∉ c') /\
  (r = Some true -> (id, addr) ∈ l).
Proof.
  intros Hcfg. revert cur oks. induction l as [|s l IH]; intros cur oks Hcur Hl Hc; cbn [join_loop].
  { intros [= <- <- <-]. split; [done|]. split; [done|]. split; [done|]. split; [intros _ s H; inversion H|done]. }
  assert (Hl' : forall s', s' ∈ l -> s' ∈ cfg) by (intros s' H; apply Hl; by right).
  case_bool_decide as E1.
  2:{ intros H. apply IH in H as (H1 & H2 & H3 & H4 & H5); try done. split; [done|]. split; [done|].
      split; [done|]. split; [|intros Hr; right; by apply H5].
      intros Hr s' Hs' Hrel. apply elem_of_cons in Hs' as [->|Hs']; [done|by apply H4]. }
  case_bool_decide as E2.
  { intros [= <- <- <-]. split; [done|]. split; [done|]. split; [done|]. split; [done|].
    intros _. destruct s as [i a], E2 as [Ea Ei]. cbn in Ea, Ei. subst. left. }
  destruct (change _ _ cur) as [cur1 ok] eqn:Ec. apply change_cases in Ec as [[-> ->]|[-> ->]].
  - intros H. apply IH in H as (H1 & H2 & H3 & H4 & H5); try done.
    + split; [done|]. split; [intros s' H; apply H2, remove_in in H; tauto|].
      split; [|split; [|intros Hr; right; by apply H5]].
      * intros s' Hu. rewrite H3, remove_in by done. split; [tauto|]. intros Hs'. split; [done|].
        intros Heq. apply Hu. rewrite (config_id cfg s' s); [exact E1|done|by apply Hc|apply Hl; left|done].
      * intros Hr s' Hs' Hrel. apply elem_of_cons in Hs' as [->|Hs']; [|by apply H4].
        intros Hin. apply H2, remove_in in Hin as [_ Hne]. done.
    + by apply remove_server_ok.
    + intros s' Hs'. apply remove_in in Hs' as [Hs' _]. by apply Hc.
  - intros [= <- <- <-]. split; [done|]. split; [done|]. split; [done|]. split; done.
Qed.
Lemma join_loop_present id addr cfg l oks : config_ok cfg -> (forall s, s ∈ l -> s ∈ cfg) -> (id, addr) ∈ l ->
  join_loop id addr l cfg oks = (cfg, oks, Some true).
Proof.
  intros Hcfg. induction l as [|s l IH]; intros Hl Hin; [inversion Hin|]. cbn [join_loop].
  assert (Hme : (id, addr) ∈ cfg) by by apply Hl.
  assert (Hs : s ∈ cfg) by (apply Hl; left).
  case_bool_decide as E1.
  - assert (E : s = (id, addr)) by (destruct E1 as [E1|E1];
      [by apply (config_id cfg)|by apply (config_addr cfg)]).
    rewrite E, bool_decide_true by done. done.
  - apply IH; [intros s' H; apply Hl; by right|]. apply elem_of_cons in Hin as [Hin|Hin]; [|done].
    subst s. destruct E1. by left.
Qed.
Lemma add_voter_fresh id addr c : (forall s, s ∈ c -> fst s <> id) -> add_voter id addr c = c ++ [(id, addr)].
Proof.
  induction c as [|s c IH]; intros H; [done|]. cbn [add_voter app].
  rewrite bool_decide_false by (apply H; left). f_equal. apply IH. intros s' Hs'. apply H. by right.
Qed.

Lemma join_spec id addr cfg oks cfg' ok : config_ok cfg -> join id addr cfg oks = (cfg', ok) ->
  config_ok cfg' /\
  (forall s, ~ related id addr s -> s ∈ cfg' <-> s ∈ cfg) /\
  (ok = true -> forall s, s ∈ cfg' /\ related id addr s <-> s = (id, addr)) /\
  ((id, addr) ∈ cfg -> cfg' = cfg /\ ok = true).
Proof.
  intros Hcfg. unfold join. destruct (join_loop id addr cfg cfg oks) as [[c1 oks1] r] eqn:E.
  destruct (join_loop_spec _ _ _ _ _ _ _ _ _ Hcfg Hcfg (fun _ H => H) (fun _ H => H) E)
    as (H1 & H2 & H3 & H4 & H5).
  destruct (decide ((id, addr) ∈ cfg)) as [Hin|Hin].
  { rewrite join_loop_present in E by done. injection E as <- <- <-. intros [= <- <-].
    split; [done|]. split; [done|]. split; [|done]. intros _ s. split.
    - intros [Hs [Hr|Hr]]; [by apply (config_id cfg)|by apply (config_addr cfg)].
    - intros ->. split; [done|by left]. }
  destruct r as [[]|].
  - destruct Hin. by apply H5.
  - intros [= <- <-]. split; [done|]. split; [done|]. split; [done|]. intros ?. contradiction.
  - assert (Hno : forall s, s ∈ c1 -> ~ related id addr s).
    { intros s Hs Hr. apply (H4 eq_refl s); [by apply H2|done|done]. }
    rewrite add_voter_fresh by (intros s Hs Heq; apply (Hno s Hs); by left).
    intros Hch. apply change_cases in Hch as [[-> ->]|[-> ->]].
    + split; [|split; [|split]].
      * destruct H1 as [Ha Hb]. split; rewrite map_app; apply NoDup_app; (split; [done|split; [|apply NoDup_singleton]]).
        -- intros x Hx Hx'. apply elem_of_list_singleton in Hx' as ->.
           apply elem_of_list_fmap in Hx as (s & Hs & Hin'). apply (Hno s Hin'). by left.
        -- intros x Hx Hx'. apply elem_of_list_singleton in Hx' as ->.
           apply elem_of_list_fmap in Hx as (s & Hs & Hin'). apply (Hno s Hin'). by right.
      * intros s Hu. rewrite elem_of_app, elem_of_list_singleton, H3 by done. split; [|tauto].
        intros [?| ->]; [done|]. destruct Hu. by left.
      * intros _ s. rewrite elem_of_app, elem_of_list_singleton. split.
        -- intros [[Hs|Hs] Hr]; [destruct (Hno s Hs Hr)|done].
        -- intros ->. split; [by right|by left].
      * intros ?; contradiction.
    + split; [done|]. split; [done|]. split; [done|]. intros ?; contradiction.
Qed.
(** with leadership kept and a valid request, Join succeeds *)
Lemma valid_config_ok c : valid_config c = true <->
  config_ok c /\ (forall s, s ∈ c -> fst s <> [] /\ snd s <> []) /\ c <> [].
Proof.
  unfold valid_config, config_ok. rewrite !andb_true_iff, !bool_decide_eq_true, forallb_forall. split.
  - intros (((Ha & Hb) & H) & Hc). split; [done|]. split; [|done]. intros s Hs. apply elem_of_list_In in Hs.
    specialize (H s Hs). rewrite andb_true_iff, !bool_decide_eq_true in H. done.
  - intros ((Ha & Hb) & H & Hc). split; [split; [done|]|done]. intros s Hs. apply elem_of_list_In in Hs.
    rewrite andb_true_iff, !bool_decide_eq_true. by apply H.
Qed.

(** ** Leadership transfer *)

Lemma transfer_to_spec host leader peers :
  match transfer_to host leader peers with
  | Some (i, a) => exists l1 n b l2, peers = l1 ++ (n, b) :: l2 /\ print_int n = leader /\ i = leader /\ a = host b /\
      (forall p, p ∈ l1 -> print_int (fst p) <> leader)
  | None => forall p, p ∈ peers -> print_int (fst p) <> leader
  end.
Proof.
  induction peers as [|[n b] l IH]; cbn [transfer_to]; [intros p H; inversion H|].
  case_bool_decide as E.
  - exists [], n, b, l. split; [done|]. split; [done|]. split; [done|]. split; [done|]. intros p H; inversion H.
  - destruct (transfer_to host leader l) as [[i a]|].
    + destruct IH as (l1 & n' & b' & l2 & -> & H1 & H2 & H3 & H4). exists ((n, b) :: l1), n', b', l2.
      split; [done|]. split; [done|]. split; [done|]. split; [done|].
      intros p Hp. apply elem_of_cons in Hp as [->|Hp]; [done|by apply H4].
    + intros p Hp. apply elem_of_cons in Hp as [->|Hp]; [done|by apply IH].
Qed.

(** ** Watermarks *)

Lemma hrs_max_app w l l' : hrs_max w (l ++ l') = hrs_max (hrs_max w l) l'.
Proof. revert w. induction l as [|x l IH]; intros w; [done|]. simpl. destruct (decide _); apply IH. Qed.
Lemma hrs_max_below w l : (forall k, k ∈ l -> hrs_le k w) -> hrs_max w l = w.
Proof.
  intros H. apply hrs_le_antisym; [|apply hrs_max_ge; left].
  pose proof (hrs_max_in w l) as Hi. apply elem_of_cons in Hi as [->|Hi]; [apply hrs_le_refl|by apply H].
Qed.
Lemma lss_events_app l l' : lss_events (l ++ l') = lss_events l ++ lss_events l'.
Proof. unfold lss_events. induction l as [|e l IH]; [done|]. cbn. destruct (event_of e); cbn; by rewrite IH. Qed.
Lemma apply_all_watermark l f :
  ss_hrs (f_val (apply_all l f)) = hrs_max (ss_hrs (f_val f)) (map c_hrs (lss_events l)) /\
  ss_hrs (f_cos (apply_all l f)) = hrs_max (ss_hrs (f_cos f)) (map c_hrs (lss_events l)).
Proof. destruct (apply_all_saves l f) as [-> ->]. by rewrite !run_saves_max. Qed.
Lemma replica_watermarks l l' f : (forall e, e ∈ l <-> e ∈ l') ->
  ss_hrs (f_val (apply_all l f)) = ss_hrs (f_val (apply_all l' f)) /\
  ss_hrs (f_cos (apply_all l f)) = ss_hrs (f_cos (apply_all l' f)).
Proof.
  intros H. destruct (apply_all_watermark l f) as [-> ->], (apply_all_watermark l' f) as [-> ->].
  assert (Hk : forall k, k ∈ map c_hrs (lss_events l) <-> k ∈ map c_hrs (lss_events l')).
  { intros k. rewrite !elem_of_list_fmap. unfold lss_events. setoid_rewrite elem_of_list_omap.
    split; intros (c & -> & e & He & Hc); exists c; (split; [done|]); exists e; (split; [by apply H|done]). }
  split; by apply hrs_max_same.
Qed.
Lemma transfer_spec host peers leader :
  (leader = [] -> transfer_leadership host peers leader = (TransferAny, TA [] [])) /\
  (leader <> [] -> forall l1 n b l2, peers = l1 ++ (n, b) :: l2 -> print_int n = leader ->
     (forall p, p ∈ l1 -> print_int (fst p) <> leader) ->
     transfer_leadership host peers leader = (TransferTo leader (host b), TA leader (host b))) /\
  (forall i a ans, transfer_leadership host peers leader = (TransferTo i a, ans) ->
     i = leader /\ exists n b, (n, b) ∈ peers /\ print_int n = leader /\ a = host b /\ ans = TA i a).
Proof.
  split; [|split].
  - intros ->. reflexivity.
  - intros Hne l1 n b l2 -> Hn Hl.
    assert (E : transfer_to host leader (l1 ++ (n, b) :: l2) = Some (leader, host b)).
    { induction l1 as [|[n1 b1] l1 IH]; cbn [app transfer_to].
      - rewrite bool_decide_true by done. by rewrite Hn.
      - rewrite bool_decide_false by (apply (Hl (n1, b1)); left). apply IH. intros p Hp. apply Hl. by right. }
    unfold transfer_leadership. destruct leader as [|c leader]; [done|]. by rewrite E.
  - intros i a ans. unfold transfer_leadership. pose proof (transfer_to_spec host leader peers) as H.
    destruct leader as [|c leader]; [discriminate|]. destruct (transfer_to _ _ peers) as [[i' a']|]; [|discriminate].
    destruct H as (l1 & n & b & l2 & -> & H1 & -> & -> & _). intros [= <- <- <-]. split; [done|].
    exists n, b. split; [apply elem_of_app; right; left|]. done.
Qed.
